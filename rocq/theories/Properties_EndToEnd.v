(** * Properties C71, C72: what the configuration says is what proxies do. *)

From Coq Require Import List String Bool Arith ZArith Lia.
From Verif Require Import Base Domain CheckerModel ProxyModel Spec RegSpec Witness ProxySpec
  ProxyOps SessionSpec FactorySpec Protect ProtectSpec ProtectFacts Zcml ZcmlSpec ZcmlProps Properties_Zcml
  Defaults DefaultsSpec DefaultsProps EndToEndSpec EndToEndProps.
Import ListNotations.
Open Scope string_scope.

(** Import the package, load a configuration file about classes and modules of the
    application, run any program that leaves the checkers alone: whenever it hands an
    object of such a class (or such a module) to ProxyFactory, the result is a proxy,
    and from then on this proxy lets operations through exactly as the file says. *)
Theorem C71_end_to_end :
  forall pf E0 s0 d s1 t1 ds perms rest w' k Env other E f obj s2 s3,
    e_watch E0 = 0 -> 3 <= st_next s0 -> unique_keys s0 ->
    import_checker E0 pf s0 = (Ok d, s1, t1) ->
    (forall k, In k (touched ds) ->
       is_class_or_module k /\ dget rkey_eqb (st_reg s1) k = None) ->
    (forall k, In k (likes ds) -> plain_entry s1 k) ->
    (forall i, In i (ifaces ds) -> iface_wf i) ->
    configure E0 ds (mkWorld s1 perms rest) = (Ok tt, w') ->
    let R := file_reads literal ds (read_protection s1) k in
    let W := file_writes literal ds (write_protection s1) k in
    In k (touched ds) -> (exists n, R n <> None \/ W n <> None) ->
    respectful (st_next (w_core w')) Env other ->
    History Env other (w_core w') s2 -> Env E -> plain_object obj -> Own E s2 obj VNone s3 ->
    Keyed E s3 obj k ->
    dget rkey_eqb (st_reg s3) k = dget rkey_eqb (st_reg (w_core w')) k ->
    exists p s4 t4, do_ProxyFactory E (S (S f)) obj VNone s2 = (Ok (VProxy p), s4, t4) /\
      Governed Env other R W p obj s4.
Proof. exact end_to_end_lemma. Qed.
Print Assumptions C71_end_to_end.

(** The same for a file loaded into any world, for instance after other files, ... *)
Theorem C71_configured :
  forall E0 ds w w' k Env other E f obj s2 s3,
    let R := file_reads literal ds (read_protection (w_core w)) k in
    let W := file_writes literal ds (write_protection (w_core w)) k in
    loadable ds w -> configure E0 ds w = (Ok tt, w') -> e_watch E0 = 0 ->
    dget rkey_eqb (st_reg (w_core w)) k = None ->
    (exists n, R n <> None \/ W n <> None) -> no_none R -> no_none W ->
    respectful (st_next (w_core w')) Env other ->
    History Env other (w_core w') s2 -> Env E -> plain_object obj -> Own E s2 obj VNone s3 ->
    Keyed E s3 obj k ->
    dget rkey_eqb (st_reg s3) k = dget rkey_eqb (st_reg (w_core w')) k ->
    exists p s4 t4, do_ProxyFactory E (S (S f)) obj VNone s2 = (Ok (VProxy p), s4, t4) /\
      Governed Env other R W p obj s4.
Proof. exact configured_lemma. Qed.
Print Assumptions C71_configured.

(** ... and files can be loaded one after the other. *)
Theorem C71_more_files :
  forall E ds ds' w w',
    loadable ds w -> loadable ds' w -> configure E ds w = (Ok tt, w') -> loadable ds' w'.
Proof. exact load_again_lemma. Qed.
Print Assumptions C71_more_files.

(** ** The hypotheses hold for the file of [Properties_Zcml], loaded right after the
    import; object 5 is a book. *)

Definition lib_env (b : impl) : env :=
  mkEnv b b 0 0 (fun o => match o with 5 => "app.Book" | _ => "app.Thing" end)
        (fun _ => "type") (fun _ => false) (fun _ => "0x1") quiet_run.
Definition lib_world : world := mkWorld imported [("zope.View", "View")] [].
Definition lib_loaded (b : impl) : world := snd (configure (lib_env b) book_file lib_world).

Example C71_example_hypotheses b :
  let E := lib_env b in
  let s1 := w_core (lib_loaded b) in
  unique_keys w_state /\
  import_checker (wenv ImplC) some_platform w_state =
    (fst (fst (import_checker (wenv ImplC) some_platform w_state)), imported, []) /\
  (forall k, In k (touched book_file) ->
     is_class_or_module k /\ dget rkey_eqb (st_reg imported) k = None) /\
  fst (configure E book_file lib_world) = Ok tt /\
  respectful (st_next s1) (fun E' => E' = E) eq /\
  Own E s1 (VObj 5) VNone s1 /\ Keyed E s1 (VObj 5) (KType "app.Book") /\
  Own E s1 (VMod "app.util") VNone s1 /\ Keyed E s1 (VMod "app.util") (KMod "app.util").
Proof.
  intros E s1. split; [|split; [|split; [|split; [|split; [|split; [|split; [|split]]]]]]].
  - intros i. simpl. unfold w_dicts.
    do 26 (destruct i as [|i];
            [simpl; repeat constructor; simpl; intuition discriminate|]). constructor.
  - unfold imported. destruct (import_checker (wenv ImplC) some_platform w_state) as [[r s] t] eqn:H.
    assert (Ht : t = []).
    { change t with (snd (r, s, t)). rewrite <- H. vm_compute. reflexivity. }
    rewrite Ht. reflexivity.
  - change (touched book_file) with [KType "app.Book"; KMod "app.util"].
    intros k [<-|[<-|[]]]; (split; [exact I|]); vm_compute; reflexivity.
  - destruct b; vm_compute; reflexivity.
  - split.
    + intros E' ->. split; [reflexivity|]. split.
      * intros t c s r s' H. unfold E, lib_env in H. simpl in H.
        apply quiet_same in H. subst s'. split; auto.
      * intros t c s r s' H HN. unfold E, lib_env in H. simpl in H.
        apply quiet_same in H. subst s'. auto.
    + intros s s' -> HN. auto.
  - eapply Own_missing; simpl; auto; reflexivity.
  - exact (Keyed_class E s1 (VObj 5)).
  - eapply Own_missing; simpl; auto; reflexivity.
  - apply (Keyed_module E s1 (VMod "app.util") "app.util" eq_refl).
    destruct b; vm_compute; reflexivity.
Qed.

(** And what happens: the public name is there for everybody, the others need an
    interaction, nothing else exists. *)
Example C71_example_effects b :
  let E := lib_env b in
  let s1 := w_core (lib_loaded b) in
  let p := VProxy (st_next s1) in
  let R := file_reads literal book_file (read_protection imported) in
  let W := file_writes literal book_file (write_protection imported) in
  let result := fun w o =>
    let '(r, _, tr) := perform E 4 o (snd (fst (do_ProxyFactory E 3 w VNone s1))) in
    (r, client_calls tr) in
  R (KType "app.Book") "color" = Some PPublic /\
  R (KType "app.Book") "pages" = Some (PId 0 "zope.View") /\
  W (KType "app.Book") "title" = Some (PId 0 "app.Edit") /\
  W (KType "app.Book") "isbn" = None /\
  R (KMod "app.util") "b" = Some (PId 0 "zope.View") /\
  (exists x, snd (result (VObj 5) (OGetattr p "color" None)) =
    [ECall Client 0 (CallOp (OGetattr (VObj 5) "color" x))]) /\
  result (VObj 5) (OGetattr p "pages" None) = (Exc (EAttribute "interaction"), []) /\
  result (VObj 5) (OSetattr p "title" VNone) = (Exc (EAttribute "interaction"), []) /\
  result (VObj 5) (OSetattr p "isbn" VNone) = (Exc (EForbidden "isbn" (VObj 5)), []) /\
  result (VObj 5) (OGetattr p "__dict__" None) = (Exc (EForbidden "__dict__" (VObj 5)), []) /\
  result (VMod "app.util") (OGetattr p "b" None) = (Exc (EAttribute "interaction"), []) /\
  result (VMod "app.util") (OGetattr p "os" None) = (Exc (EForbidden "os" (VMod "app.util")), []).
Proof.
  destruct b; vm_compute; repeat split; try reflexivity; eexists; reflexivity.
Qed.

(** ** C72 *)

(** Declarations made while proxies exist hold for these proxies from then on: *)
Theorem C72_declared_later :
  forall E0 ds s k i c p w,
    plain_object w -> Wraps s p w (VChk i) -> live s k i c -> ck_kind c = CkPlain ->
    declarable ds s ->
    let R := declared_reads ds (read_protection s) k in
    let W := declared_writes ds (write_protection s) k in
    no_none R -> no_none W ->
    exists s', run_decls E0 ds s = (Ok tt, s', []) /\
      forall E, foreign_keeps_proxies E -> Obeys E R W p w s'.
Proof. exact declared_later_lemma. Qed.
Print Assumptions C72_declared_later.

(** likewise for configuration files. *)
Theorem C72_configured_later :
  forall E0 ds w0 w0' k i c p w,
    plain_object w -> Wraps (w_core w0) p w (VChk i) -> live (w_core w0) k i c ->
    ck_kind c = CkPlain -> loadable ds w0 -> configure E0 ds w0 = (Ok tt, w0') ->
    let R := file_reads literal ds (read_protection (w_core w0)) k in
    let W := file_writes literal ds (write_protection (w_core w0)) k in
    no_none R -> no_none W ->
    forall E, foreign_keeps_proxies E -> Obeys E R W p w (w_core w0').
Proof. exact configured_later_lemma. Qed.
Print Assumptions C72_configured_later.

(** But registering another checker, or none, changes nothing for proxies that exist. *)
Theorem C72_reregistered :
  forall i c p w s m r s' t,
    plain_object w -> Wraps s p w (VChk i) -> st_chks s i = Some c -> ck_kind c = CkPlain ->
    let R := table_of (st_dicts s (ck_get c)) in
    let W := table_of (st_dicts s (ck_set c)) in
    no_none R -> no_none W ->
    registry_change s m -> m s = (r, s', t) ->
    forall E, foreign_keeps_proxies E -> Obeys E R W p w s /\ Obeys E R W p w s'.
Proof. exact reregistered_lemma. Qed.
Print Assumptions C72_reregistered.

(** In particular: a permission cannot be withdrawn from existing proxies by defining a
    new checker for the class, although new proxies get it. *)
Definition held_state : state := set_reg [(KType "app.Thing", VChk 10)] w_state.

Theorem C72_revocation_refuted :
  exists E s s' p n,
    live s (KType "app.Thing") 10 (mkChecker 20 21 CkPlain) /\
    Wraps s p (VObj 5) (VChk 10) /\ read_protection s (KType "app.Thing") n = Some PPublic /\
    (undefineChecker (KType "app.Thing") ;;; defineChecker (KType "app.Thing") (VChk 11))%m s =
      (Ok tt, s', []) /\
    read_protection s' (KType "app.Thing") n = None /\
    client_calls (snd (perform E 4 (OGetattr (VProxy p) n None) s')) <> [] /\
    exists q s2 t2 t3, do_ProxyFactory E 4 (VObj 5) VNone s' = (Ok (VProxy q), s2, t2) /\
      perform E 4 (OGetattr (VProxy q) n None) s2 = (Exc (EForbidden n (VObj 5)), s2, t3).
Proof.
  exists (wenv ImplC), held_state, (set_reg [(KType "app.Thing", VChk 11)] w_state), 40, "foo".
  split; [split; reflexivity|]. split; [split; [reflexivity|unfold held_state; simpl; lia]|].
  split; [reflexivity|]. split; [reflexivity|]. split; [reflexivity|].
  split; [vm_compute; discriminate|].
  do 4 eexists. split; [vm_compute; reflexivity|]. vm_compute. reflexivity.
Qed.
Print Assumptions C72_revocation_refuted.

Example C72_example :
  let ds := [DName (KType "app.Thing") "foo" p_edit; DSet (KType "app.Thing") "bar" PPublic] in
  declarable ds held_state /\ live held_state (KType "app.Thing") 10 (mkChecker 20 21 CkPlain) /\
  Wraps held_state 40 (VObj 5) (VChk 10) /\
  no_none (declared_reads ds (read_protection held_state) (KType "app.Thing")) /\
  no_none (declared_writes ds (write_protection held_state) (KType "app.Thing")) /\
  let s' := snd (fst (run_decls (wenv ImplPy) ds held_state)) in
  forall b,
  client_calls (snd (perform (wenv b) 4 (OGetattr (VProxy 40) "foo" None) held_state)) <> [] /\
  perform (wenv b) 4 (OGetattr (VProxy 40) "foo" None) s' =
    (Exc (EAttribute "interaction"), s', []) /\
  fst (fst (perform (wenv b) 4 (OSetattr (VProxy 40) "bar" VNone) held_state)) =
    Exc (EAttribute "interaction") /\
  client_calls (snd (perform (wenv b) 4 (OSetattr (VProxy 40) "bar" VNone) s')) <> [].
Proof.
  intros ds. split; [|split; [|split; [|split; [|split]]]].
  - assert (Hw : registry_wf held_state).
    { intros k i H.
      change ((if rkey_eqb (KType "app.Thing") k then Some (VChk 10) else None) = Some (VChk i)) in H.
      destruct (rkey_eqb (KType "app.Thing") k); [|discriminate H].
      injection H as <-. split; [simpl; lia|]. eexists. split; [reflexivity|]. simpl.
      split; [lia|]. split; [lia|].
      split; repeat constructor; simpl; intuition discriminate. }
    split; [exact Hw|]. intros d Hd.
    assert (Ht : target d = KType "app.Thing") by (destruct Hd as [<-|[<-|[]]]; reflexivity).
    rewrite Ht. split; [exact I|]. split; [right; exists 10; reflexivity|]. split.
    + intros i c [H1 H2]. injection H1 as <-. injection H2 as <-. split; [discriminate|].
      intros k' i' c' Hk [H3 _].
      change ((if rkey_eqb (KType "app.Thing") k' then Some (VChk 10) else None) = Some (VChk i')) in H3.
      destruct (MFacts.rkey_eqb_spec (KType "app.Thing") k') as [He|He]; [congruence|discriminate H3].
    + intros k l ->. destruct Hd as [Hd|[Hd|[]]]; discriminate Hd.
  - split; reflexivity.
  - split; [reflexivity|unfold held_state; simpl; lia].
  - intros n.
    change ((if String.eqb n "foo" then Some (meant p_edit)
             else (if String.eqb "foo" n then Some PPublic
                   else if String.eqb "bar" n then Some p_view else None)) <> Some PNone).
    repeat match goal with |- context [if ?b then _ else _] => destruct b end; discriminate.
  - intros n.
    change ((if String.eqb n "bar" then Some (PPublic)
             else (if String.eqb "bar" n then Some p_edit else None)) <> Some PNone).
    repeat match goal with |- context [if ?b then _ else _] => destruct b end; discriminate.
  - intros s' b. destruct b; (split; [vm_compute; discriminate|]);
      (split; [unfold s'; vm_compute; reflexivity|]); (split; [vm_compute; reflexivity|]);
      vm_compute; discriminate.
Qed.
