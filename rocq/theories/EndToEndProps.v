(** * EndToEndProps: from the import of the package and the configuration file to the
    operations on proxies. *)

From Coq Require Import List String Bool Arith ZArith Lia.
From Verif Require Import Base Domain CheckerModel ProxyModel MFacts Spec RegSpec Witness
  CheckFacts TableFacts RegistryFacts SafeFacts ProxySpec ProxyFacts ProxyOps ProxyTable MediationSpec
  SessionSpec Session FactorySpec Factory Protect ProtectSpec ProtectFacts Zcml ZcmlSpec
  ZcmlFacts ZcmlProps Defaults DefaultsSpec DefaultsFacts DefaultsImport DefaultsProps
  EndToEndSpec.
Import ListNotations.
Open Scope string_scope.

(** ** A checker with the tables [R] and [W] *)

Definition Tables (N : id) (s : state) (i : id) (R W : table) : Prop :=
  i < N /\ exists c, st_chks s i = Some c /\ ck_kind c = CkPlain /\ ck_get c < N /\ ck_set c < N /\
    (forall n, table_of (st_dicts s (ck_get c)) n = R n) /\
    (forall n, table_of (st_dicts s (ck_set c)) n = W n).

Lemma tables_kept N s s' i R W :
  N <= st_next s -> defaults_kept N s s' -> Tables N s i R W -> Tables N s' i R W.
Proof.
  intros HN HK (Hi & c & Hc & Hk & Hg & Hs & HR & HW). destruct (HK HN) as (_ & _ & C).
  split; [exact Hi|]. exists c. split; [rewrite (proj1 (C i Hi)); exact Hc|].
  split; [exact Hk|]. split; [exact Hg|]. split; [exact Hs|].
  split; intros n; [rewrite (proj2 (C _ Hg))|rewrite (proj2 (C _ Hs))]; auto.
Qed.

Lemma obeys_lemma E R W p w i c s :
  foreign_keeps_proxies E -> plain_object w -> no_none R -> no_none W ->
  Wraps s p w (VChk i) -> st_chks s i = Some c -> ck_kind c = CkPlain ->
  (forall n, table_of (st_dicts s (ck_get c)) n = R n) ->
  (forall n, table_of (st_dicts s (ck_set c)) n = W n) ->
  Obeys E R W p w s.
Proof.
  intros HF Hw HnR HnW HWr Hc Hk HR HW f o n a Hg.
  set (g := st_dicts s (ck_get c)) in *. set (wt := st_dicts s (ck_set c)) in *.
  assert (HP : PlainChecker s (VChk i) g wt) by (exists i, c; auto 10).
  assert (Hng : no_none (table_of g)) by (intros x; rewrite HR; apply HnR).
  assert (Hnw : no_none (table_of wt)) by (intros x; rewrite HW; apply HnW).
  assert (Hreq : table_for a g wt n = required R W a n) by (destruct a; simpl; auto).
  split; [|split; [|split]].
  - intros H1 H2. eapply forbidden_lemma; eauto; [apply HWr|congruence].
  - intros q H1 H2 H3. eapply no_interaction_lemma; eauto; [apply HWr|congruence].
  - intros q j x H1 H2 H3 H4. eapply unauthorised_lemma; eauto; [apply HWr|congruence].
  - intros Ho Hn r s' tr Hpf.
    destruct (table_lemma E f o p n a w (VChk i) g wt s r s' tr HF Hg HWr HP Hng Hnw Hw Ho Hn Hpf)
      as (r0 & s1 & t1 & t2 & HA & Ht & Hq & Hr).
    assert (Hcl : client_calls tr = client_calls t2).
    { rewrite Ht, client_calls_app, Hq. reflexivity. }
    rewrite Hcl. split.
    + intros H1. rewrite H1 in Hreq.
      assert (H0 : r0 = Ok tt).
      { destruct a; simpl in HA, Hreq.
        - apply ReadCheck_public in HA; [apply HA|exact Hreq].
        - apply WriteCheck_public in HA; [apply HA|exact Hreq]. }
      subst r0. exact Hr.
    + intros q H1 H2. rewrite H1 in Hreq.
      assert (H0 : exists answer, Asked E s q w answer s1 t1 /\ r0 = by_answer answer w n q).
      { destruct a; simpl in HA, Hreq; destruct HA; try congruence;
          match goal with
          | H : Asked _ _ ?x _ ?y _ _ |- _ => exists y; split; [|f_equal]; congruence
          end. }
      destruct H0 as (answer & HAs & ->). exists answer, s1, t1, t2.
      split; [exact HAs|]. split; [exact Ht|]. split; [exact Hq|]. split.
      * intros ->. exact Hr.
      * intros Hne. destruct answer as [[]|e]; simpl in Hr; [congruence|exact Hr|exact Hr].
Qed.

Lemma governed_lemma N Env other R W p w i s4 :
  respectful N Env other -> plain_object w -> no_none R -> no_none W ->
  (forall s5, History Env other s4 s5 -> Wraps s5 p w (VChk i) /\ Tables N s5 i R W) ->
  Governed Env other R W p w s4.
Proof.
  intros HRe Hw HnR HnW HL E s Hh HE.
  destruct (HL s Hh) as (HWr & Hi & c & Hc & Hk & _ & _ & HR & HW).
  destruct (proj1 HRe E HE) as (_ & HF & _).
  eapply obeys_lemma; eauto.
Qed.

(** ** Files loaded into any world *)

Lemma load_wf E ds w w' : loadable ds w -> configure E ds w = (Ok tt, w') -> registry_wf (w_core w').
Proof.
  intros Hl Hc. destruct (load_effect_lemma E ds w w' Hl Hc) as (_ & _ & _ & _ & _ & _ & _ & _ & H).
  apply (H ds (proj1 Hl)).
Qed.

Lemma load_again_lemma E ds ds' w w' :
  loadable ds w -> loadable ds' w -> configure E ds w = (Ok tt, w') -> loadable ds' w'.
Proof.
  intros Hl [Hl1 Hl2] Hc. destruct (load_effect_lemma E ds w w' Hl Hc) as (_ & _ & _ & _ & _ & _ & _ & _ & H).
  split; [apply H; exact Hl1|exact Hl2].
Qed.

Lemma keyed_selected E f s k i c obj :
  e_watch E = 0 -> Keyed E s obj k -> live s k i c -> i <> default_cid ->
  do_select E (S (S f)) obj s = (Ok (Some (VChk i)), s, []).
Proof.
  intros HW [|m -> Hm] Hl Hi.
  - eapply live_selected; eauto.
  - eapply live_module_selected; eauto.
Qed.

Lemma configured_lemma E0 ds w w' k Env other E f obj s2 s3 :
  let R := file_reads literal ds (read_protection (w_core w)) k in
  let W := file_writes literal ds (write_protection (w_core w)) k in
  loadable ds w -> configure E0 ds w = (Ok tt, w') -> e_watch E0 = 0 ->
  dget rkey_eqb (st_reg (w_core w)) k = None ->
  (exists n, R n <> None \/ W n <> None) -> no_none R -> no_none W ->
  respectful (st_next (w_core w')) Env other ->
  History Env other (w_core w') s2 -> Env E -> plain_object obj -> Own E s2 obj VNone s3 ->
  Keyed E s3 obj k ->
  dget rkey_eqb (st_reg s3) k = dget rkey_eqb (st_reg (w_core w')) k ->
  exists p s4 t4, do_ProxyFactory E (S (S f)) obj VNone s2 = (Ok (VProxy p), s4, t4) /\
    Governed Env other R W p obj s4.
Proof.
  intros R W Hl Hc HW0 Hn (n & Hex) HnR HnW HRe H12 HE Hpl HO HK Hsame.
  destruct (load_effect_lemma E0 ds w w' Hl Hc) as (Hr & Hw & _ & _ & _ & _ & Hk & _).
  assert (Hlive : exists i c, live (w_core w') k i c).
  { destruct Hex as [H|H].
    - destruct (R n) as [p|] eqn:HR; [|congruence]. apply (read_some_live _ _ n p).
      rewrite Hr. exact HR.
    - destruct (W n) as [p|] eqn:HR; [|congruence]. apply (write_some_live _ _ n p).
      rewrite Hw. exact HR. }
  destruct Hlive as (i & c & Hlv).
  destruct (Hk HW0 _ _ _ Hlv) as [[H0 _]|[Hkind Hi]]; [congruence|].
  set (N := st_next (w_core w')) in *.
  assert (HT : Tables N (w_core w') i R W).
  { destruct (load_wf E0 ds w w' Hl Hc k i (proj1 Hlv)) as (HiN & c' & Hc' & Hg & Hs & _).
    rewrite (proj2 Hlv) in Hc'. injection Hc' as <-.
    split; [exact HiN|]. exists c. split; [apply Hlv|]. split; [exact Hkind|].
    split; [exact Hg|]. split; [exact Hs|]. split; intros x.
    - unfold R. rewrite <- Hr. symmetry. apply (read_live _ _ _ _ x Hlv).
    - unfold W. rewrite <- Hw. symmetry. apply (write_live _ _ _ _ x Hlv). }
  assert (K12 := dk_history _ _ _ _ _ HRe H12).
  assert (K23 := own_keeps _ _ _ _ _ _ _ HRe HE HO).
  assert (K13 := dk_trans _ _ _ _ K12 K23).
  assert (HT3 := tables_kept _ _ _ _ _ _ (Nat.le_refl N) K13 HT).
  destruct HT3 as (HiN & c3 & Hc3 & Hrest).
  assert (Hlv3 : live s3 k i c3) by (split; [rewrite Hsame; apply Hlv|exact Hc3]).
  assert (Hs := keyed_selected E f s3 k i c3 obj (proj1 (proj1 HRe E HE)) HK Hlv3 Hi).
  destruct (factory_selected E (S f) obj s2 s3 (Some (VChk i)) s3 [] HO Hs) as (s4 & t4 & HF & HGr).
  exists (st_next s3), s4, t4. split; [exact HF|].
  eapply governed_lemma; eauto. intros s5 H45.
  assert (A13 := proj1 (K13 (Nat.le_refl _))). fold N in A13.
  assert (K34 : defaults_kept N s3 s4).
  { destruct HGr as [_ ->]. intros HN. split; simpl; [lia|]. split.
    - intros p x Hp Hx. rewrite upd_ne by lia. auto.
    - auto. }
  assert (K45 := dk_history _ _ _ _ _ HRe H45).
  split.
  - destruct HGr as [_ ->].
    destruct (K45 ltac:(simpl; lia)) as (A45 & B45 & _).
    split; [|simpl in A45; lia]. apply B45; [simpl; lia|]. simpl. apply upd_eq.
  - eapply tables_kept; [|eapply dk_trans; [exact K34|exact K45]|].
    + exact A13.
    + split; [exact HiN|]. exists c3. auto.
Qed.

(** ** The world right after the import *)

Lemma imported_entry pf s it lit k v :
  Literal pf s it lit -> AfterImport pf s it lit ->
  dget rkey_eqb (st_reg s) k = Some v ->
  v = VNoProxy \/ v = VModFun \/ exists ns, DC s v ns.
Proof.
  intros HL HA H. destruct k as [t|m|o].
  - destruct (default_entry pf s it lit t v HL HA H) as [[-> _]|[[_ ->]|(ns & HD & _)]]; eauto.
  - rewrite HA in H. discriminate.
  - rewrite HA in H. discriminate.
Qed.

Section Import.
  Variables (pf : platform) (E0 : env) (s0 : state) (d : list (rkey * value)) (s1 : state)
            (t1 : list event).
  Hypothesis Hw0 : e_watch E0 = 0.
  Hypothesis Hn0 : 3 <= st_next s0.
  Hypothesis HU : unique_keys s0.
  Hypothesis HI : import_checker E0 pf s0 = (Ok d, s1, t1).

  Lemma import_wf : registry_wf s1.
  Proof.
    destruct (import_only _ _ _ _ _ _ Hw0 Hn0 HI) as (it & lit & HG & HL & HA).
    assert (HU1 : unique_keys s1) by (apply HG; exact HU).
    intros k i Hk. destruct (imported_entry _ _ _ _ _ _ HL HA Hk) as [H|[H|(ns & H)]];
      [discriminate H|discriminate H|].
    destruct H as (j & c & Hj & H2 & H3 & H4 & H5 & H6 & _). injection Hj as <-.
    split; [lia|]. exists c. auto.
  Qed.

  Lemma import_reads k n : read_protection s1 k n = None \/ read_protection s1 k n = Some PPublic.
  Proof.
    destruct (import_only _ _ _ _ _ _ Hw0 Hn0 HI) as (it & lit & HG & HL & HA).
    unfold read_protection. destruct (dget rkey_eqb (st_reg s1) k) as [v|] eqn:Hk; [|auto].
    destruct (imported_entry _ _ _ _ _ _ HL HA Hk) as [->|[->|(ns & H)]]; auto.
    destruct H as (j & c & -> & H2 & -> & H4 & H5 & H6 & _ & Ht).
    specialize (Ht n). unfold table_of in Ht. rewrite Ht.
    destruct (in_dec string_dec n ns); auto.
  Qed.

  Lemma import_writes k n : write_protection s1 k n = None.
  Proof.
    destruct (import_only _ _ _ _ _ _ Hw0 Hn0 HI) as (it & lit & HG & HL & HA).
    unfold write_protection. destruct (dget rkey_eqb (st_reg s1) k) as [v|] eqn:Hk; [|auto].
    destruct (imported_entry _ _ _ _ _ _ HL HA Hk) as [->|[->|(ns & H)]]; auto.
    destruct H as (j & c & -> & H2 & -> & H4 & H5 & H6 & -> & Ht). reflexivity.
  Qed.

  Lemma import_loadable_lemma ds perms rest :
    (forall k, In k (touched ds) -> is_class_or_module k /\ dget rkey_eqb (st_reg s1) k = None) ->
    (forall k, In k (likes ds) -> plain_entry s1 k) ->
    (forall i, In i (ifaces ds) -> iface_wf i) ->
    loadable ds (mkWorld s1 perms rest).
  Proof.
    intros Ht Hl Hi. split; [|exact Hi]. split; [exact import_wf|]. split; [|exact Hl].
    intros k Hk. destruct (Ht k Hk) as [H1 H2]. split; [exact H1|]. split; [left; exact H2|].
    intros i c [H3 _]. simpl in H3. congruence.
  Qed.
End Import.

(** ** Files do not make None permissions *)

Definition total_none (f : protection) : Prop := forall k, no_none (f k).

Lemma protect_by_some t : protect_by t <> PNone.
Proof. unfold protect_by. destruct (String.eqb t "zope.Public"); discriminate. Qed.

Lemma protect_total k ns t f : total_none f -> total_none (protect k ns t f).
Proof.
  intros H k' n. unfold protect. destruct (_ && _)%bool; [|apply H].
  intros Hx. injection Hx as Hx. exact (protect_by_some t Hx).
Qed.
Lemma liken_total k l f : total_none f -> total_none (liken k l f).
Proof.
  intros H k' n. destruct l as [l|]; [|apply H]. rewrite inherit_liken.
  destruct (rkey_eqb k' k); [|apply H]. destruct (f l n) eqn:Hl; [|apply H].
  rewrite <- Hl. apply H.
Qed.

Lemma fold_total {A} (g : protection -> A -> protection) l :
  (forall x f, total_none f -> total_none (g f x)) ->
  forall f, total_none f -> total_none (fold_left g l f).
Proof.
  intros Hg. induction l as [|x l IH]; intros f H; simpl; [exact H|]. apply IH, Hg, H.
Qed.

Lemma file_reads_total ds : forall m f, total_none f -> total_none (file_reads m ds f).
Proof.
  induction ds as [|d ds IH]; intros m f H; simpl; [exact H|]. apply IH.
  destruct d; simpl; try exact H.
  - apply fold_total; [|exact H]. intros x g Hg.
    destruct x as [[t|]| | |]; simpl; auto using protect_total, liken_total.
  - apply fold_total; [|exact H]. intros x g Hg. destruct x; simpl; auto using protect_total.
Qed.
Lemma file_writes_total ds : forall m f, total_none f -> total_none (file_writes m ds f).
Proof.
  induction ds as [|d ds IH]; intros m f H; simpl; [exact H|]. apply IH.
  destruct d; simpl; try exact H.
  apply fold_total; [|exact H]. intros x g Hg.
  destruct x as [[t|]| | |]; simpl; auto using protect_total, liken_total.
Qed.

(** ** From the import to the operation *)

Lemma end_to_end_lemma pf E0 s0 d s1 t1 ds perms rest w' k Env other E f obj s2 s3 :
  e_watch E0 = 0 -> 3 <= st_next s0 -> unique_keys s0 -> import_checker E0 pf s0 = (Ok d, s1, t1) ->
  (forall k, In k (touched ds) -> is_class_or_module k /\ dget rkey_eqb (st_reg s1) k = None) ->
  (forall k, In k (likes ds) -> plain_entry s1 k) ->
  (forall i, In i (ifaces ds) -> iface_wf i) ->
  configure E0 ds (mkWorld s1 perms rest) = (Ok tt, w') ->
  let R := file_reads literal ds (read_protection s1) k in
  let W := file_writes literal ds (write_protection s1) k in
  In k (touched ds) -> (exists n, R n <> None \/ W n <> None) ->
  respectful (st_next (w_core w')) Env other ->
  History Env other (w_core w') s2 -> Env E -> plain_object obj -> Own E s2 obj VNone s3 ->
  Keyed E s3 obj k ->
  dget rkey_eqb (st_reg s3) k = dget rkey_eqb (st_reg (w_core w')) k ->
  exists p s4 t4, do_ProxyFactory E (S (S f)) obj VNone s2 = (Ok (VProxy p), s4, t4) /\
    Governed Env other R W p obj s4.
Proof.
  intros HW0 Hn0 HU HI Ht Hl Hi Hc R W Hk Hex HRe H12 HE Hpl HO HK Hsame.
  assert (HL := import_loadable_lemma pf E0 s0 d s1 t1 HW0 Hn0 HU HI ds perms rest Ht Hl Hi).
  assert (HtR : total_none (read_protection s1)).
  { intros k' n. destruct (import_reads pf E0 s0 d s1 t1 HW0 Hn0 HI k' n) as [-> | ->]; discriminate. }
  assert (HtW : total_none (write_protection s1)).
  { intros k' n. rewrite (import_writes pf E0 s0 d s1 t1 HW0 Hn0 HI k' n). discriminate. }
  eapply (configured_lemma E0 ds (mkWorld s1 perms rest) w' k Env other E f obj s2 s3); eauto.
  - apply Ht. exact Hk.
  - apply (file_reads_total ds literal _ HtR k).
  - apply (file_writes_total ds literal _ HtW k).
Qed.

(** ** Declarations made while the proxy exists *)

(** The allocation counter never goes back. *)
Definition Mono {A} (m : M A) : Prop := forall s r s' t, m s = (r, s', t) -> st_next s <= st_next s'.

Lemma mono_ret {A} (a : A) : Mono (ret a).
Proof. intros s r s' t H. minj H. lia. Qed.
Lemma mono_raise {A} e : Mono (@raise A e).
Proof. intros s r s' t H. minj H. lia. Qed.
Lemma mono_get : Mono get.
Proof. intros s r s' t H. minj H. lia. Qed.
Lemma mono_bind {A B} (m : M A) (k : A -> M B) : Mono m -> (forall a, Mono (k a)) -> Mono (bind m k).
Proof.
  intros Hm Hk s r s' t H. mbind H.
  - eapply Hm; eauto.
  - apply Hm in Hm0. apply Hk in Hf. lia.
Qed.
Lemma mono_read {A} (k : state -> M A) :
  (forall s r s' t, k s s = (r, s', t) -> st_next s <= st_next s') -> Mono (bind get k).
Proof. intros H s r s' t Hx. rewrite bind_get in Hx. eauto. Qed.

Ltac mono_done :=
  let H := fresh in intros ? ? ? ? H; unfold bind, put, ret, raise in H; simpl in H; minj H; simpl; lia.

Lemma mono_new E g w : Mono (Checker_new E g w).
Proof.
  intros s r s' t H. destruct (Checker_new_eq E g w s) as (s1 & H1 & ->). rewrite H in H1.
  minj H1. simpl. lia.
Qed.
Lemma mono_define k c : Mono (defineChecker k c).
Proof.
  destruct k; [| |apply mono_raise]; apply mono_read; intros s r s' tr H;
    destruct (dget _ _ _); minj H; simpl; lia.
Qed.
Lemma mono_get_for k : Mono (getCheckerForInstancesOf k).
Proof. apply mono_read. mono_done. Qed.
Lemma mono_checker_for E k : Mono (checker_for E k).
Proof.
  unfold checker_for. apply mono_bind; [apply mono_get_for|]. intros c.
  destruct c; try apply mono_ret.
  apply mono_bind; [apply mono_new|]. intros c. apply mono_bind; [apply mono_define|].
  intros _. apply mono_ret.
Qed.
Lemma mono_getp c : Mono (get_permissions c).
Proof.
  destruct c; try apply mono_raise. apply mono_read. intros s r s' t H.
  destruct (st_chks s c); minj H; lia.
Qed.
Lemma mono_setp c : Mono (set_permissions c).
Proof.
  destruct c; try apply mono_raise. apply mono_read. intros s r s' t H.
  destruct (st_chks s c); minj H; lia.
Qed.
Lemma mono_dict_set d n p : Mono (dict_set d n p).
Proof. apply mono_read. mono_done. Qed.
Lemma mono_dict_copy d e : Mono (dict_copy d e).
Proof. apply mono_read. mono_done. Qed.
Lemma mono_name E k n p : Mono (protectName E k n p).
Proof.
  apply mono_bind; [apply mono_checker_for|]. intros c.
  apply mono_bind; [apply mono_getp|]. intros d. apply mono_dict_set.
Qed.
Lemma mono_set E k n p : Mono (protectSetAttribute E k n p).
Proof.
  apply mono_bind; [apply mono_checker_for|]. intros c.
  apply mono_bind; [apply mono_setp|]. intros d. apply mono_dict_set.
Qed.
Lemma mono_like E k l : Mono (protectLikeUnto E k l).
Proof.
  apply mono_bind; [apply mono_get_for|]. intros u.
  assert (H : Mono (bind (get_permissions u) (fun ug => bind (set_permissions u) (fun uw =>
     bind (checker_for E k) (fun c => bind (get_permissions c) (fun g =>
     bind (dict_copy g ug) (fun _ => bind (set_permissions c) (fun w => dict_copy w uw)))))))).
  { repeat first [ apply mono_getp | apply mono_setp | apply mono_checker_for
                  | apply mono_dict_copy | apply mono_bind; [|intros ?] ]. }
  destruct u; try exact H. apply mono_ret.
Qed.
Lemma mono_decl E d : Mono (run_decl E d).
Proof. destruct d; simpl; [apply mono_name|apply mono_set|apply mono_like]. Qed.
Lemma mono_decls E ds : Mono (run_decls E ds).
Proof.
  induction ds as [|d ds IH]; simpl; [apply mono_ret|].
  apply mono_bind; [apply mono_decl|]. intros _. exact IH.
Qed.

Lemma mono_exec E l : forall w r w', exec_actions E l w = (r, w') -> st_next (w_core w) <= st_next (w_core w').
Proof.
  assert (HC : forall A (m : M A) w r w', Mono m -> core m w = (r, w') ->
                 st_next (w_core w) <= st_next (w_core w')).
  { intros A m w r w' Hm H. unfold core in H. destruct (m (w_core w)) as [[[a|e] s1] t1] eqn:Hx;
      minj H; simpl; eapply Hm; eauto. }
  induction l as [|a l IH]; intros w r w' H; simpl in H; [minj H; lia|].
  destruct (exec_call E (a_call a) w) as [r1 w1] eqn:Hx.
  assert (H1 : st_next (w_core w) <= st_next (w_core w1)).
  { destruct (a_call a); simpl in Hx;
      try (eapply HC; [|exact Hx]; auto using mono_like, mono_name, mono_set; fail);
      try (minj Hx; simpl; lia).
    - eapply HC; [|exact Hx]. intros s r0 s' t H0. rewrite protectModule_eq in H0.
      eapply mono_name; eauto.
    - unfold checkPermission_id in Hx. destruct (dget _ _ _); minj Hx; lia. }
  destruct r1 as [[]|e]; [apply IH in H; lia|minj H; lia].
Qed.

Lemma mono_configure E ds w r w' :
  configure E ds w = (r, w') -> st_next (w_core w) <= st_next (w_core w').
Proof.
  unfold configure. destruct (process ds empty_ctx) as [[[]|e] c]; [|intros H; minj H; lia].
  destruct (conflict (cx_actions c)); [intros H; minj H; lia|]. apply mono_exec.
Qed.

(** Existing proxies follow the declarations ... *)
Lemma declared_later_lemma E0 ds s k i c p w :
  plain_object w -> Wraps s p w (VChk i) -> live s k i c -> ck_kind c = CkPlain ->
  declarable ds s ->
  let R := declared_reads ds (read_protection s) k in
  let W := declared_writes ds (write_protection s) k in
  no_none R -> no_none W ->
  exists s', run_decls E0 ds s = (Ok tt, s', []) /\
    forall E, foreign_keeps_proxies E -> Obeys E R W p w s'.
Proof.
  intros Hw HWr Hl Hk Hd R W HnR HnW.
  destruct (run_decls_lemma E0 ds s Hd) as (s' & Hrun & Hr & Hwr & Ho & _ & _ & Hkeep & _).
  exists s'. split; [exact Hrun|]. intros E HF. apply Hkeep in Hl.
  eapply (obeys_lemma E R W p w i c s'); eauto.
  - assert (Hm := mono_decls E0 ds _ _ _ _ Hrun). destruct HWr as [H1 H2].
    split; [|lia]. rewrite Ho. simpl. exact H1.
  - apply Hl.
  - intros n. unfold R. rewrite <- Hr. symmetry. apply (read_live _ _ _ _ n Hl).
  - intros n. unfold W. rewrite <- Hwr. symmetry. apply (write_live _ _ _ _ n Hl).
Qed.

(** ... and the configuration files that are loaded, ... *)
Lemma configured_later_lemma E0 ds w0 w0' k i c p w :
  plain_object w -> Wraps (w_core w0) p w (VChk i) -> live (w_core w0) k i c ->
  ck_kind c = CkPlain -> loadable ds w0 -> configure E0 ds w0 = (Ok tt, w0') ->
  let R := file_reads literal ds (read_protection (w_core w0)) k in
  let W := file_writes literal ds (write_protection (w_core w0)) k in
  no_none R -> no_none W ->
  forall E, foreign_keeps_proxies E -> Obeys E R W p w (w_core w0').
Proof.
  intros Hw HWr Hl Hk Hld Hc R W HnR HnW E HF.
  destruct (load_effect_lemma E0 ds w0 w0' Hld Hc) as (Hr & Hwr & _ & Ho & _ & _ & _ & Hkeep & _).
  apply Hkeep in Hl. eapply (obeys_lemma E R W p w i c (w_core w0')); eauto.
  - assert (Hm := mono_configure E0 ds _ _ _ Hc). destruct HWr as [H1 H2].
    split; [|lia]. rewrite Ho. simpl. exact H1.
  - apply Hl.
  - intros n. unfold R. rewrite <- Hr. symmetry. apply (read_live _ _ _ _ n Hl).
  - intros n. unfold W. rewrite <- Hwr. symmetry. apply (write_live _ _ _ _ n Hl).
Qed.

(** ... but not what is registered instead. *)
Lemma change_core s m r s' t :
  registry_change s m -> m s = (r, s', t) ->
  st_next s' = st_next s /\ st_prox s' = st_prox s /\ st_chks s' = st_chks s /\
  st_dicts s' = st_dicts s.
Proof.
  intros HC H.
  assert (HU : forall k s r s' t, undefineChecker k s = (r, s', t) ->
    st_next s' = st_next s /\ st_prox s' = st_prox s /\ st_chks s' = st_chks s /\
    st_dicts s' = st_dicts s).
  { clear. intros k s r s' t H. unfold undefineChecker in H. rewrite bind_get in H.
    destruct (dget _ _ _); minj H; auto. }
  destruct HC.
  - unfold defineChecker in H. destruct k; [| |minj H; auto]; rewrite bind_get in H;
      destruct (dget _ _ _); minj H; auto.
  - eapply HU; eauto.
  - minj H. auto.
  - unfold BasicTypes_delitem in H. rewrite bind_get in H.
    destruct (dget _ _ _); [|minj H; auto]. mbind H; [minj Hm|].
    minj Hm. apply HU in Hf. exact Hf.
  - minj H. auto.
  - minj H. auto.
Qed.

Lemma reregistered_lemma i c p w s m r s' t :
  plain_object w -> Wraps s p w (VChk i) -> st_chks s i = Some c -> ck_kind c = CkPlain ->
  let R := table_of (st_dicts s (ck_get c)) in
  let W := table_of (st_dicts s (ck_set c)) in
  no_none R -> no_none W ->
  registry_change s m -> m s = (r, s', t) ->
  forall E, foreign_keeps_proxies E -> Obeys E R W p w s /\ Obeys E R W p w s'.
Proof.
  intros Hw HWr Hc Hk R W HnR HnW HC H E HF.
  destruct (change_core s m r s' t HC H) as (H1 & H2 & H3 & H4).
  split; [eapply obeys_lemma; eauto|].
  eapply (obeys_lemma E R W p w i c s'); eauto.
  - destruct HWr. split; congruence.
  - congruence.
  - intros n. rewrite H4. reflexivity.
  - intros n. rewrite H4. reflexivity.
Qed.
