(** * Property C74: declarations by several threads. *)

From Coq Require Import List String Bool Arith Lia.
From Verif Require Import Base Domain CheckerModel Witness Protect ProtectSpec ProtectFacts
  DeclThreads DeclThreadSpec DeclThreadFacts DeclThreadSeq.
Import ListNotations.
Open Scope string_scope.

(** Threads declare protections at the same time, interrupted anywhere, with other code
    in between.  If no class without checker is declared by two threads, then at every
    moment the protections are those of declaring one after the other, in an order that
    respects each thread's; nobody gets an exception, and a thread that is done has all
    its declarations in. *)
Theorem C74_serial :
  forall E ds s c s',
    registry_wf s ->
    (forall t d, In d (ds t) -> single d /\ is_class_or_module (target d) /\
       plain_entry s (target d) /\ unshared s (target d)) ->
    no_race ds s ->
    Runs E (fun t => p_decls (ds t)) s c s' ->
    exists o,
      declared_in_order (map snd o) s s' /\
      (forall t, exists rest, ds t = (part_of t o ++ rest)%list) /\
      (forall t r, c t = DRet r -> r = Ok tt /\ part_of t o = ds t).
Proof. exact serial_lemma. Qed.
Print Assumptions C74_serial.

(** The stepwise programs are the functions of the other theorems. *)
Theorem C74_alone :
  forall E d s, declarable [d] s ->
    exists s1 s2, dexec E (p_decl d) s = (Ok tt, s1) /\ run_decl E d s = (Ok tt, s2, []) /\
      same_state s1 s2.
Proof. exact alone_lemma. Qed.
Print Assumptions C74_alone.

Definition two (d0 d1 : list decl) (t : id) : list decl :=
  match t with 0 => d0 | 1 => d1 | _ => [] end.

(** Two threads with a new class: both finish without exception, and the declaration of
    one of them is lost. *)
Theorem C74_lost_refuted :
  exists E ds s c s',
    registry_wf s /\
    (forall t d, In d (ds t) -> single d /\ is_class_or_module (target d) /\
       plain_entry s (target d) /\ unshared s (target d)) /\
    Runs E (fun t => p_decls (ds t)) s c s' /\
    (forall t, c t = DRet (Ok tt)) /\
    In (DName (KType "app.New") "x" PPublic) (ds 0) /\
    read_protection s' (KType "app.New") "x" = None /\
    read_protection s' (KType "app.New") "y" = Some PPublic.
Proof.
  set (ds := two [DName (KType "app.New") "x" PPublic] [DName (KType "app.New") "y" PPublic]).
  set (l := [0; 1; 0; 1; 0; 1; 0; 0; 0; 1; 1; 1]).
  set (r := schedule (wenv ImplPy) l (fun t => p_decls (ds t)) w_state).
  exists (wenv ImplPy), ds, w_state, (fst r), (snd r).
  split; [intros k i H; discriminate H|]. split.
  { intros t d Hd. assert (Ht : target d = KType "app.New" /\ single d).
    { destruct t as [|[|t]]; [destruct Hd as [<-|[]]|destruct Hd as [<-|[]]|destruct Hd]; split;
        reflexivity || exact I. }
    destruct Ht as [-> Hs]. split; [exact Hs|]. split; [exact I|]. split; [left; reflexivity|].
    intros i c [H _]. discriminate H. }
  split; [exact (schedule_runs (wenv ImplPy) l (fun t => p_decls (ds t)) w_state)|]. split.
  { intros t. destruct t as [|[|t]]; vm_compute; reflexivity. }
  split; [left; reflexivity|]. split; vm_compute; reflexivity.
Qed.
Print Assumptions C74_lost_refuted.

(** ... or one of them gets a DuplicationError, although declaring never raises one. *)
Theorem C74_duplicate_refuted :
  exists E ds s c s',
    Runs E (fun t => p_decls (ds t)) s c s' /\
    ds 0 = [DName (KType "app.New") "x" PPublic] /\
    ds 1 = [DName (KType "app.New") "y" PPublic] /\
    c 0 = DRet (Ok tt) /\ c 1 = DRet (Exc (EDuplication "type_")) /\
    read_protection s' (KType "app.New") "y" = None.
Proof.
  set (ds := two [DName (KType "app.New") "x" PPublic] [DName (KType "app.New") "y" PPublic]).
  set (r := schedule (wenv ImplPy) [0; 1; 0; 0; 0; 0; 0; 1; 1] (fun t => p_decls (ds t)) w_state).
  exists (wenv ImplPy), ds, w_state, (fst r), (snd r).
  split; [exact (schedule_runs (wenv ImplPy) [0; 1; 0; 0; 0; 0; 0; 1; 1] (fun t => p_decls (ds t)) w_state)|]. split; [reflexivity|]. split; [reflexivity|].
  repeat (split; [vm_compute; reflexivity|]). vm_compute. reflexivity.
Qed.
Print Assumptions C74_duplicate_refuted.

(** Two threads can both define a checker for one type; the first one is forgotten. *)
Theorem C74_define_refuted :
  exists E s c s' k v0 v1,
    v0 <> v1 /\
    Runs E (fun t => match t with
                     | 0 => p_defineChecker k v0
                     | 1 => p_defineChecker k v1
                     | _ => DRet (Ok tt)
                     end) s c s' /\
    (forall t, c t = DRet (Ok tt)) /\
    dget rkey_eqb (st_reg s) k = None /\ dget rkey_eqb (st_reg s') k = Some v1.
Proof.
  set (p := fun t => match t with
                     | 0 => p_defineChecker (KType "app.New") (VChk 10)
                     | 1 => p_defineChecker (KType "app.New") (VChk 11)
                     | _ => DRet (Ok tt)
                     end).
  set (r := schedule (wenv ImplPy) [0; 1; 0; 1] p w_state).
  exists (wenv ImplPy), w_state, (fst r), (snd r), (KType "app.New"), (VChk 10), (VChk 11).
  split; [discriminate|]. split; [exact (schedule_runs (wenv ImplPy) [0; 1; 0; 1] p w_state)|]. split.
  { intros t. destruct t as [|[|t]]; vm_compute; reflexivity. }
  split; vm_compute; reflexivity.
Qed.
Print Assumptions C74_define_refuted.

(** like_class while the other class is being declared: the copy stops half way. *)
Definition source_state : state := set_reg [(KType "app.Old", VChk 10)] w_state.

Theorem C74_like_refuted :
  exists E ds s c s',
    Runs E (fun t => p_decls (ds t)) s c s' /\
    ds 0 = [DLike (KType "app.New") (KType "app.Old")] /\
    ds 1 = [DName (KType "app.Old") "other" PPublic] /\
    read_protection s (KType "app.Old") "foo" = Some PPublic /\
    read_protection s (KType "app.Old") "bar" = Some p_view /\
    c 0 = DRet (Exc changed_size) /\ c 1 = DRet (Ok tt) /\
    read_protection s' (KType "app.New") "foo" = Some PPublic /\
    read_protection s' (KType "app.New") "bar" = None /\
    read_protection s' (KType "app.New") "other" = None.
Proof.
  set (ds := two [DLike (KType "app.New") (KType "app.Old")] [DName (KType "app.Old") "other" PPublic]).
  set (r := schedule (wenv ImplPy) [0; 0; 0; 0; 0; 0; 0; 0; 0; 0; 0; 0; 1; 1; 1; 0]
              (fun t => p_decls (ds t)) source_state).
  exists (wenv ImplPy), ds, source_state, (fst r), (snd r).
  split; [exact (schedule_runs (wenv ImplPy) [0; 0; 0; 0; 0; 0; 0; 0; 0; 0; 0; 0; 1; 1; 1; 0]
    (fun t => p_decls (ds t)) source_state)|]. split; [reflexivity|]. split; [reflexivity|].
  repeat (split; [vm_compute; reflexivity|]). vm_compute. reflexivity.
Qed.
Print Assumptions C74_like_refuted.

(** Two threads that meet the conditions: a common class with checker and a new one each. *)
Example C74_example :
  let ds := two [DName (KType "app.Old") "x" PPublic; DName (KType "app.A") "a" p_view]
                [DSet (KType "app.Old") "y" p_edit; DName (KType "app.Old") "x" p_edit;
                 DName (KMod "app") "b" PPublic] in
  registry_wf source_state /\ no_race ds source_state /\
  (forall t d, In d (ds t) -> single d /\ is_class_or_module (target d) /\
     plain_entry source_state (target d) /\ unshared source_state (target d)) /\
  let r := schedule (wenv ImplC)
             [1; 1; 0; 0; 1; 1; 0; 0; 1; 1; 0; 1; 0; 1; 0; 1; 0; 1; 0; 1; 0; 1; 1]
             (fun t => p_decls (ds t)) source_state in
  (forall t, fst r t = DRet (Ok tt)) /\
  read_protection (snd r) (KType "app.Old") "x" = Some p_edit /\
  write_protection (snd r) (KType "app.Old") "y" = Some p_edit /\
  read_protection (snd r) (KType "app.A") "a" = Some p_view /\
  read_protection (snd r) (KMod "app") "b" = Some PPublic.
Proof.
  intros ds.
  assert (Hg : forall k, dget rkey_eqb (st_reg source_state) k =
            if rkey_eqb (KType "app.Old") k then Some (VChk 10) else None) by reflexivity.
  assert (Hin : forall t d, In d (ds t) ->
            In d [DName (KType "app.Old") "x" PPublic; DName (KType "app.A") "a" p_view] /\ t = 0 \/
            In d [DSet (KType "app.Old") "y" p_edit; DName (KType "app.Old") "x" p_edit;
                  DName (KMod "app") "b" PPublic] /\ t = 1).
  { intros t d Hd. destruct t as [|[|t]]; [left|right|destruct Hd]; split; auto. }
  split; [|split; [|split]].
  - intros k i H. rewrite Hg in H. destruct (rkey_eqb (KType "app.Old") k); [|discriminate H].
    injection H as <-. split; [unfold source_state; simpl; lia|]. exists (mkChecker 20 21 CkPlain).
    split; [reflexivity|]. split; [unfold source_state; simpl; lia|].
    split; [unfold source_state; simpl; lia|].
    split; repeat constructor; simpl; intuition discriminate.
  - intros t t' d d' H1 H2 He Hne.
    destruct (Hin t d H1) as [[I1 T1]|[I1 T1]], (Hin t' d' H2) as [[I2 T2]|[I2 T2]]; try congruence;
      simpl in I1, I2;
      repeat (destruct I1 as [<-|I1]); try contradiction;
      repeat (destruct I2 as [<-|I2]); try contradiction; try discriminate He;
      exists 10; reflexivity.
  - intros t d Hd.
    assert (Hd' : single d /\ is_class_or_module (target d)).
    { destruct (Hin t d Hd) as [[I1 _]|[I1 _]]; simpl in I1;
        repeat (destruct I1 as [<-|I1]); try contradiction; split; exact I. }
    split; [apply Hd'|]. split; [apply Hd'|]. split.
    + unfold plain_entry. rewrite Hg. destruct (rkey_eqb _ _); [right; eexists; reflexivity|left; reflexivity].
    + intros i c [H1 H2]. rewrite Hg in H1.
      destruct (rkey_eqb (KType "app.Old") (target d)) eqn:Hk; [|discriminate H1].
      injection H1 as <-. injection H2 as <-. split; [discriminate|].
      intros k' i' c' Hk' [H3 _]. rewrite Hg in H3.
      destruct (MFacts.rkey_eqb_spec (KType "app.Old") k') as [<-|]; [|discriminate H3].
      destruct (MFacts.rkey_eqb_spec (KType "app.Old") (target d)); congruence.
  - intros r. split; [intros t; destruct t as [|[|t]]; vm_compute; reflexivity|].
    repeat (split; [vm_compute; reflexivity|]). vm_compute. reflexivity.
Qed.
