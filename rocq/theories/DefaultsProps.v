(** * DefaultsProps: proxied built-in objects. *)

From Coq Require Import List String Bool Arith ZArith Lia.
From Verif Require Import Base Domain CheckerModel ProxyModel MFacts Spec RegSpec Witness
  CheckFacts CombineFacts TableFacts RegistryFacts SafeFacts ProxySpec ProxyFacts ProxyOps
  ProxyTable MediationSpec SessionSpec Session Slots FactorySpec Factory Defaults DefaultsSpec
  DefaultsFacts DefaultsImport.
Import ListNotations.
Open Scope string_scope.
Open Scope m_scope.
Local Arguments String.eqb : simpl never.

(** ** The registry after import *)

Lemma DC_ext s c ns ns' : (forall n, In n ns <-> In n ns') -> DC s c ns -> DC s c ns'.
Proof.
  intros He (i & k & -> & Hi & Hk & Hp & Hg & Hs & Hd & Ht). exists i, k.
  repeat (split; [auto|]). intros n. rewrite Ht.
  destruct (in_dec string_dec n ns) as [H|H], (in_dec string_dec n ns') as [H'|H']; auto;
    exfalso; apply He in H || apply He in H'; tauto.
Qed.

Definition inb (l1 l2 : list string) : bool :=
  forallb (fun x => existsb (String.eqb x) l2) l1.
Lemma inb_spec l1 l2 : inb l1 l2 = true -> forall n, In n l1 -> In n l2.
Proof.
  unfold inb. rewrite forallb_forall. intros H n Hn. specialize (H n Hn).
  apply existsb_exists in H. destruct H as (x & Hx & He).
  apply String.eqb_eq in He. congruence.
Qed.
Definition disjb (l1 l2 : list string) : bool :=
  forallb (fun x => negb (existsb (String.eqb x) l2)) l1.
Lemma disjb_spec l1 l2 : disjb l1 l2 = true -> forall n, In n l1 -> ~ In n l2.
Proof.
  unfold disjb. rewrite forallb_forall. intros H n Hn Hx. specialize (H n Hn).
  apply negb_true_iff in H. rewrite <- not_true_iff_false in H. apply H.
  apply existsb_exists. exists n. split; [auto|]. apply String.eqb_refl.
Qed.
Lemma same_names l1 l2 : (inb l1 l2 && inb l2 l1)%bool = true -> forall n, In n l1 <-> In n l2.
Proof. intros H. apply andb_true_iff in H. destruct H. split; apply inb_spec; auto. Qed.

Lemma rock_apart pf l :
  disjb l (rock_types pf) = true \/
  (disjb l (rock_types {| pf_IDeclaration := []; pf_IInterface := []; pf_IMethod := [];
                          pf_pytz := true; pf_dictlike := []; pf_btrees := None;
                          pf_itertools := [] |}) = true) ->
  forall n, In n l -> ~ In n (rock_types pf).
Proof.
  intros [H|H] n Hn; [eapply disjb_spec; eauto|].
  intros Hx. apply (disjb_spec _ _ H n Hn). unfold rock_types in *.
  apply in_or_app. apply in_app_or in Hx. destruct Hx as [Hx|Hx]; [auto|].
  right. simpl. destruct (pf_pytz pf); [exact Hx|destruct Hx].
Qed.

Lemma readable_default pf s it lit T ns :
  Literal pf s it lit -> AfterImport pf s it lit -> Readable pf T ns ->
  exists c, dget rkey_eqb (st_reg s) (KType T) = Some c /\ DC s c ns.
Proof.
  intros (HI & _ & _ & _ & _ & HL & HK) HA HR.
  assert (Hlit : forall ns', In (T, ns') (lit_spec pf) ->
            (forall n, In n ns' <-> In n ns) ->
            ~ In T (rock_types pf) -> ~ In T ["Implements"; "ProvidesClass"] ->
            exists c, dget rkey_eqb (st_reg s) (KType T) = Some c /\ DC s c ns).
  { intros ns' Hin He Hr Hx. rewrite HA.
    destruct (in_dec string_dec T (rock_types pf)); [contradiction|].
    destruct (in_dec string_dec T ["Implements"; "ProvidesClass"]); [contradiction|].
    destruct (HL T ns' Hin) as (c & Hc & HD). rewrite Hc. exists c. split; [auto|].
    eapply DC_ext; eauto. }
  destruct HR as [HR|[[HR|(Hf & Ho & Hr)] ->]].
  - assert (Hr : ~ In T (rock_types pf)).
    { apply (rock_apart pf (map fst container_reads)); [right; reflexivity|].
      apply (in_map fst) in HR. exact HR. }
    assert (Hx : ~ In T ["Implements"; "ProvidesClass"]).
    { apply (disjb_spec (map fst container_reads)); [reflexivity|].
      apply (in_map fst) in HR. exact HR. }
    unfold container_reads in HR.
    destruct HR as [HR|[HR|[HR|[HR|[HR|[]]]]]]; injection HR as HT Hn;
      rewrite <- HT, <- Hn in *.
    + apply (Hlit dict_names); auto; [left; reflexivity|apply same_names; reflexivity].
    + apply (Hlit list_names); auto; [do 1 right; left; reflexivity|apply same_names; reflexivity].
    + apply (Hlit tuple_names); auto; [do 5 right; left; reflexivity|apply same_names; reflexivity].
    + apply (Hlit set_names); auto; [do 2 right; left; reflexivity|apply same_names; reflexivity].
    + apply (Hlit set_names); auto; [do 3 right; left; reflexivity|apply same_names; reflexivity].
  - assert (Hr : ~ In T (rock_types pf)).
    { apply (rock_apart pf language_iterators); [right; reflexivity|exact HR]. }
    assert (Hx : ~ In T ["Implements"; "ProvidesClass"]).
    { apply (disjb_spec language_iterators); [reflexivity|exact HR]. }
    apply (Hlit iterator_names); auto; [|apply same_names; reflexivity].
    assert (Hm : In (T, iterator_names) (map (fun t => (t, iterator_names)) language_iterators)).
    { apply in_map_iff. eauto. }
    change (In (T, iterator_names) (firstn 6 (skipn 13 (lit_spec pf)))) in Hm.
    rewrite <- (firstn_skipn 13 (lit_spec pf)). apply in_or_app. right.
    rewrite <- (firstn_skipn 6 (skipn 13 (lit_spec pf))). apply in_or_app. left. exact Hm.
  - rewrite HA.
    destruct (in_dec string_dec T (rock_types pf)); [contradiction|].
    destruct (in_dec string_dec T ["Implements"; "ProvidesClass"]) as [Hx|_].
    { exfalso. apply Ho. revert Hx. apply (inb_spec ["Implements"; "ProvidesClass"]). reflexivity. }
    destruct (dget rkey_eqb lit (KType T)) as [v|] eqn:Hd.
    + exists v. split; [reflexivity|].
      assert (Hl := HK _ _ Hd).
      destruct Hl as [[Hk _]|[[Hk _]|(t & ns' & Hk & Hin)]]; injection Hk as ->.
      * exfalso. apply Ho. unfold other_types. simpl. tauto.
      * exfalso. apply Ho. unfold other_types. simpl. tauto.
      * destruct (HL _ _ Hin) as (c & Hc & HD). rewrite Hd in Hc. injection Hc as <-.
        assert (Ht : In t language_iterators).
        { apply (in_map fst) in Hin. simpl fst in Hin.
          destruct (in_dec string_dec t language_iterators) as [Hy|Hy]; [exact Hy|].
          exfalso. apply Ho. clear - Hin Hy. unfold lit_spec in Hin. cbn [map fst] in Hin.
          cbn [In] in *. unfold language_iterators in Hy. unfold other_types.
          cbn [In] in *. tauto. }
        assert (Hns : ns' = iterator_names).
        { clear - Hin Ht. unfold lit_spec in Hin.
          unfold language_iterators in Ht.
          repeat (destruct Hin as [Hin|Hin];
                  [apply pair_equal_spec in Hin; destruct Hin as [Hin Hin2];
                   try (symmetry; exact Hin2); rewrite <- Hin in Ht;
                   exfalso; cbn [In] in Ht; intuition discriminate|]).
          destruct Hin. }
        subst ns'. eapply DC_ext; [|exact HD]. apply same_names. reflexivity.
    + destruct (in_dec string_dec T (found_types pf)); [|contradiction].
      exists it. split; [reflexivity|]. eapply DC_ext; [|exact HI]. apply same_names. reflexivity.
Qed.

Lemma DC_reads_only s c ns : DC s c ns -> reads_only s c ns.
Proof.
  intros (i & k & -> & Hi & Hk & Hp & Hg & Hs & Hd & Ht).
  exists (st_dicts s (ck_get k)). split; [exists i, k; auto 10|].
  split; intros n Hn; rewrite Ht; destruct (in_dec string_dec n ns); tauto.
Qed.

Lemma import_only E pf s d s1 t :
  e_watch E = 0 -> 3 <= st_next s -> import_checker E pf s = (Ok d, s1, t) ->
  exists it lit, Grow only_named s s1 /\ Literal pf s1 it lit /\ AfterImport pf s1 it lit.
Proof.
  intros Hw Hn H. destruct (import_lemma E pf s Hw Hn) as (it & lit & s' & H' & HG & HL & HA).
  rewrite H in H'. minj H'. eauto.
Qed.

(** The entries of code and of the rest. *)
Lemma other_default pf s it lit T ns :
  Literal pf s it lit -> AfterImport pf s it lit -> In (T, ns) (code_reads ++ other_reads pf) ->
  exists c, dget rkey_eqb (st_reg s) (KType T) = Some c /\ DC s c ns.
Proof.
  intros (HI & _ & _ & _ & _ & HL & HK) HA HR.
  assert (Hr : ~ In T (rock_types pf)).
  { apply (rock_apart pf (map fst (code_reads ++ other_reads pf))); [right; reflexivity|].
    apply (in_map fst) in HR. exact HR. }
  assert (Hx : ~ In T ["Implements"; "ProvidesClass"]).
  { apply (disjb_spec (map fst (code_reads ++ other_reads pf))); [reflexivity|].
    apply (in_map fst) in HR. exact HR. }
  assert (Hlit : forall ns', In (T, ns') (lit_spec pf) -> (forall n, In n ns' <-> In n ns) ->
            exists c, dget rkey_eqb (st_reg s) (KType T) = Some c /\ DC s c ns).
  { intros ns' Hin He. rewrite HA.
    destruct (in_dec string_dec T (rock_types pf)); [contradiction|].
    destruct (in_dec string_dec T ["Implements"; "ProvidesClass"]); [contradiction|].
    destruct (HL T ns' Hin) as (c & Hc & HD). rewrite Hc. exists c. split; [auto|].
    eapply DC_ext; eauto. }
  clear Hr Hx HL HK.
  assert (Happ : forall (l a b : list name), (forall n, In n a <-> In n b) ->
            forall n, In n (l ++ a) <-> In n (l ++ b)).
  { intros l a b H n. rewrite !in_app_iff, H. reflexivity. }
  unfold code_reads, other_reads in HR. cbn [app] in HR.
  repeat (destruct HR as [HR|HR]; [apply pair_equal_spec in HR; destruct HR as [HT Hn];
                                   rewrite <- HT, <- Hn in * |]).
  - apply (Hlit callable_names); [do 7 right; left; reflexivity|apply same_names; reflexivity].
  - apply (Hlit callable_names); [do 8 right; left; reflexivity|apply same_names; reflexivity].
  - apply (Hlit callable_names); [do 9 right; left; reflexivity|apply same_names; reflexivity].
  - apply (Hlit callable_names); [do 10 right; left; reflexivity|apply same_names; reflexivity].
  - apply (Hlit callable_names); [do 11 right; left; reflexivity|apply same_names; reflexivity].
  - apply (Hlit type_names); [do 12 right; left; reflexivity|apply same_names; reflexivity].
  - apply (Hlit type_names); [do 25 right; left; reflexivity|apply same_names; reflexivity].
  - apply (Hlit ["__call__"]); [do 6 right; left; reflexivity|reflexivity].
  - apply (Hlit decimal_names); [do 4 right; left; reflexivity|apply same_names; reflexivity].
  - eapply Hlit; [do 19 right; left; reflexivity|apply Happ, same_names; reflexivity].
  - eapply Hlit; [do 20 right; left; reflexivity|]. intros n. rewrite app_nil_r. reflexivity.
  - eapply Hlit; [do 22 right; left; reflexivity|apply Happ, same_names; reflexivity].
  - eapply Hlit; [do 24 right; left; reflexivity|apply Happ, same_names; reflexivity].
  - destruct HR.
Qed.

(** Every type of the literal is listed in the specification. *)
Lemma literal_listed pf T ns :
  In (T, ns) (lit_spec pf) -> In T bare_types \/
  exists ns', Readable pf T ns' \/ In (T, ns') (code_reads ++ other_reads pf).
Proof.
  intros H. apply (in_map fst) in H. cbn [fst] in H.
  destruct (in_dec string_dec T bare_types) as [Hb|Hb]; [auto|right].
  destruct (in_dec string_dec T language_iterators) as [Hi|Hi].
  { exists iterator_reads. left. right. split; [left; exact Hi|reflexivity]. }
  assert (Hin : In T (map fst (container_reads ++ code_reads ++ other_reads pf))).
  { unfold lit_spec in H. cbn [map fst] in H. cbn [In] in H.
    unfold bare_types, language_iterators in Hb, Hi. cbn [In] in Hb, Hi.
    cbn [app map fst container_reads code_reads other_reads In]. tauto. }
  apply in_map_iff in Hin. destruct Hin as ((T', ns') & <- & Hin). exists ns'.
  apply in_app_or in Hin. destruct Hin as [Hin|Hin]; [left; left; exact Hin|auto].
Qed.

(** Every entry: nothing to wrap, the module function, or a read-only checker. *)
Lemma default_entry pf s it lit T v :
  Literal pf s it lit -> AfterImport pf s it lit ->
  dget rkey_eqb (st_reg s) (KType T) = Some v ->
  (v = VNoProxy /\ (In T (rock_types pf) \/ In T bare_types)) \/
  (T = "module" /\ v = VModFun) \/
  exists ns, DC s v ns /\ (Readable pf T ns \/ In (T, ns) (code_reads ++ other_reads pf)).
Proof.
  intros HLit HA Hv. pose proof HLit as (HI & _ & _ & HPx & HMd & HL & HK).
  assert (Hdone : forall ns, Readable pf T ns \/ In (T, ns) (code_reads ++ other_reads pf) ->
    exists ns, DC s v ns /\ (Readable pf T ns \/ In (T, ns) (code_reads ++ other_reads pf))).
  { intros ns Hns. exists ns. split; [|exact Hns].
    destruct Hns as [Hns|Hns].
    - destruct (readable_default pf s it lit T ns HLit HA Hns) as (c & Hc & HD).
      rewrite Hv in Hc. injection Hc as <-. exact HD.
    - destruct (other_default pf s it lit T ns HLit HA Hns) as (c & Hc & HD).
      rewrite Hv in Hc. injection Hc as <-. exact HD. }
  pose proof Hv as H. rewrite HA in H.
  destruct (in_dec string_dec T (rock_types pf)) as [Hr|Hr]; [injection H as <-; auto|].
  destruct (in_dec string_dec T ["Implements"; "ProvidesClass"]) as [Hx|Hx].
  { injection H as <-. left. split; [reflexivity|]. right. right. exact Hx. }
  destruct (dget rkey_eqb lit (KType T)) as [v'|] eqn:Hd.
  - injection H as ->.
    destruct (HK _ _ Hd) as [[Hk ->]|[[Hk ->]|(t & ns & Hk & Hin)]].
    + injection Hk as ->. left. split; [reflexivity|]. right. left. reflexivity.
    + injection Hk as ->. auto.
    + injection Hk as <-. destruct (literal_listed pf T ns Hin) as [Hb|[ns' Hns]].
      * exfalso. destruct Hb as [<-|Hb]; [|exact (Hx Hb)].
        apply (in_map fst) in Hin. unfold lit_spec in Hin. cbn [map fst In] in Hin.
        intuition discriminate.
      * right. right. exact (Hdone ns' Hns).
  - destruct (in_dec string_dec T (found_types pf)) as [Hf|Hf]; [|discriminate H].
    right. right. apply (Hdone iterator_reads). left. right. split; [|reflexivity].
    right. split; [exact Hf|]. split; [|exact Hr].
    intros Ho. assert (Hsome : dget rkey_eqb lit (KType T) <> None); [|congruence].
    destruct (string_dec T "Proxy") as [->|Hp]; [congruence|].
    destruct (string_dec T "module") as [->|Hm]; [congruence|].
    assert (Hin : In T (map fst (lit_spec pf))).
    { unfold other_types in Ho. cbn [In] in Ho. unfold lit_spec. cbn [map fst In]. 
      intuition congruence. }
    apply in_map_iff in Hin. destruct Hin as ((T', ns') & Ht & Hin). cbn [fst] in Ht. subst T'.
    destruct (HL _ _ Hin) as (c & Hc & _). congruence.
Qed.

Lemma default_registry_lemma E pf s :
  e_watch E = 0 -> 3 <= st_next s ->
  exists d s1, import_checker E pf s = (Ok d, s1, []) /\ st_prox s1 = st_prox s /\
    (forall T ns, Readable pf T ns \/ In (T, ns) (code_reads ++ other_reads pf) ->
       exists c, dget rkey_eqb (st_reg s1) (KType T) = Some c /\ reads_only s1 c ns) /\
    (forall T, In T (rock_types pf) \/ In T bare_types ->
       dget rkey_eqb (st_reg s1) (KType T) = Some VNoProxy) /\
    (forall T c, dget rkey_eqb (st_reg s1) (KType T) = Some c ->
       (c = VNoProxy /\ (In T (rock_types pf) \/ In T bare_types)) \/
       (T = "module" /\ c = VModFun) \/
       exists ns, reads_only s1 c ns /\
                  (Readable pf T ns \/ In (T, ns) (code_reads ++ other_reads pf))) /\
    reads_only s1 (VChk named_cid) ["__name__"].
Proof.
  intros Hw Hn. destruct (import_lemma E pf s Hw Hn) as (it & lit & s' & H' & HG & HL & HA).
  exists (fixed pf it lit), s'. split; [auto|]. split; [apply HG|]. split; [|split; [|split]].
  - intros T ns [HR|HR].
    + destruct (readable_default pf s' it lit T ns HL HA HR) as (c & Hc & HD).
      exists c. split; [auto|]. apply DC_reads_only. auto.
    + destruct (other_default pf s' it lit T ns HL HA HR) as (c & Hc & HD).
      exists c. split; [auto|]. apply DC_reads_only. auto.
  - intros T HT. rewrite HA. destruct (in_dec string_dec T (rock_types pf)) as [|Hr]; [reflexivity|].
    destruct HT as [HT|HT]; [contradiction|].
    destruct (in_dec string_dec T ["Implements"; "ProvidesClass"]) as [|Hx]; [reflexivity|].
    destruct HT as [<-|HT]; [|contradiction].
    destruct HL as (_ & _ & _ & HPx & _). rewrite HPx. reflexivity.
  - intros T c Hc. destruct (default_entry pf s' it lit T c HL HA Hc) as [H|[H|(ns & H & Hns)]]; auto.
    right. right. exists ns. split; [apply DC_reads_only; exact H|exact Hns].
  - apply DC_reads_only. apply HL.
Qed.

(** ** Programs *)

Lemma dk_refl N s : defaults_kept N s s.
Proof. intros H. auto. Qed.
Lemma dk_trans N s1 s2 s3 :
  defaults_kept N s1 s2 -> defaults_kept N s2 s3 -> defaults_kept N s1 s3.
Proof.
  intros H1 H2 HN. destruct (H1 HN) as (A & B & C).
  destruct (H2 (Nat.le_trans _ _ _ HN A)) as (A' & B' & C').
  split; [lia|]. split.
  - intros p x Hp Hx. apply B'; [lia|]. auto.
  - intros i Hi. destruct (C i Hi), (C' i Hi). split; congruence.
Qed.

Lemma dk_history N Env other s s' :
  respectful N Env other -> History Env other s s' -> defaults_kept N s s'.
Proof.
  intros [HE HO]. apply history_lemma.
  - apply dk_refl.
  - apply dk_trans.
  - exact HO.
  - intros E HEE t c s0 r s1 H. eapply HE; eauto.
  - intros s0 v c _ HN. split; simpl; [lia|]. split.
    + intros p x Hp Hx. rewrite upd_ne by lia. auto.
    + intros i Hi. auto.
  - intros s0 k HN. split; simpl; [lia|]. split; [auto|].
    intros i Hi. rewrite upd_ne by lia. auto.
  - intros s0 d x v _ HN. split; simpl; [lia|]. split; auto.
Qed.

Lemma DC_kept s s' c ns : defaults_kept (st_next s) s s' -> DC s c ns -> DC s' c ns.
Proof.
  intros HK (i & k & -> & Hi & Hk & Hp & Hg & Hs & Hd & Ht).
  destruct (HK (Nat.le_refl _)) as (A & _ & C).
  exists i, k. split; [auto|]. split; [lia|].
  split; [rewrite (proj1 (C i ltac:(lia))); auto|]. split; [auto|].
  split; [lia|]. split; [lia|].
  split; [rewrite (proj2 (C _ Hs)); auto|].
  intros n. rewrite (proj2 (C _ Hg)). apply Ht.
Qed.

Lemma DC_unique s c ns ns' : DC s c ns -> reads_only s c ns' -> forall n, In n ns <-> In n ns'.
Proof.
  intros (i & k & -> & Hi & Hk & Hp & Hg & Hs & Hd & Ht)
         (g & (i' & k' & Hc & Hk' & Hp' & Hg' & _) & HA & HB) n.
  injection Hc as <-. rewrite Hk in Hk'. injection Hk' as <-. subst g.
  specialize (Ht n). destruct (in_dec string_dec n ns) as [H|H].
  - split; [intros _|auto]. destruct (in_dec string_dec n ns') as [H'|H']; [auto|].
    rewrite (HB n H') in Ht. discriminate.
  - split; [tauto|]. intros H'. rewrite (HA n H') in Ht. discriminate.
Qed.

Lemma DC_checker E s c ns : e_watch E = 0 -> DC s c ns -> is_Checker E s c = true.
Proof.
  intros Hw (i & k & -> & _ & Hk & _). simpl. rewrite Hk, Hw. destruct (e_cimpl E); reflexivity.
Qed.

(** What selectChecker answers for an object protected by default. *)
Lemma default_select pf E f s1 s3 it lit w ns :
  e_watch E = 0 -> Literal pf s1 it lit -> AfterImport pf s1 it lit ->
  defaults_kept (st_next s1) s1 s3 -> DefaultProtected E s1 s3 w ns ->
  exists c, DC s1 c ns /\ do_select E (S (S f)) w s3 = (Ok (Some c), s3, []).
Proof.
  intros Hw HL HA HK HP.
  destruct HP as [c ns Hc HR Hd|m -> Hd Hm].
  - assert (HD : exists ns', DC s1 c ns').
    { destruct (default_entry pf s1 it lit _ c HL HA Hc) as [[-> _]|[[_ ->]|(ns' & H & _)]];
        [| |exists ns'; exact H];
        destruct HR as (g & (i & k & Hx & _) & _); discriminate Hx. }
    destruct HD as (ns' & HD).
    assert (HDn : DC s1 c ns) by (eapply DC_ext; [|exact HD]; eapply DC_unique; eauto).
    exists c. split; [exact HDn|].
    assert (Hreg : registered_for E s3 w = Some c) by (unfold registered_for; rewrite Hd; exact Hc).
    assert (HD3 := DC_kept _ _ _ _ HK HDn).
    assert (HC3 := DC_checker E _ _ _ Hw HD3).
    destruct HD3 as (i & k & -> & Hi & Hk & _).
    rewrite do_select_settled by (unfold settled; rewrite Hreg; right; exact I).
    rewrite registered_spec, Hreg. unfold settled_outcome. rewrite HC3. 
    assert (Hne : value_eqb (VChk i) (VChk default_cid) = false).
    { destruct (value_eqb_spec (VChk i) (VChk default_cid)) as [H|H]; [|reflexivity].
      injection H as ->. unfold default_cid in Hi. lia. }
    rewrite Hne, andb_false_r. reflexivity.
  - exists (VChk named_cid). destruct HL as (_ & _ & HN & _ & Hmod & _).
    split; [exact HN|].
    assert (Hreg : dget rkey_eqb (st_reg s3) (KType "module") = Some VModFun).
    { rewrite Hd, HA. destruct (in_dec string_dec "module" (rock_types pf)) as [Hx|_].
      { exfalso. revert Hx. apply (rock_apart pf ["module"]); [right; reflexivity|left; reflexivity]. }
      destruct (in_dec string_dec "module" _) as [Hx|_].
      { exfalso. simpl in Hx. intuition discriminate. }
      rewrite Hmod. reflexivity. }
    assert (HN3 := DC_kept _ _ _ _ HK HN).
    assert (HC3 := DC_checker E _ _ _ Hw HN3).
    assert (Hsel : i_select (interp_n E (S (S f))) VModFun (VMod m) s3 =
                   (Ok (Some (VChk named_cid)), s3, [])).
    { simpl i_select. unfold select_loop at 1. rewrite bind_get.
      change (is_Checker E s3 VModFun) with false. cbv iota.
      assert (Hcf : call_factory (interp_n E (S f)) VModFun (VMod m) s3 =
                    (Ok (VChk named_cid), s3, [])).
      { unfold call_factory. rewrite bind_get. rewrite Hm. reflexivity. }
      rewrite (bind_ok _ _ _ _ _ _ Hcf). change (value_eqb (VChk named_cid) VNoProxy) with false.
      change (value_eqb (VChk named_cid) VNone) with false. cbn [orb].
      simpl i_select. unfold select_loop. rewrite bind_get, HC3. reflexivity. }
    unfold do_select, selectChecker, selectCheckerPy, selectCheckerC.
    assert (Hr : registered E s3 (VMod m) = VModFun)
      by (rewrite registered_spec; unfold registered_for; simpl concrete_type; rewrite Hreg; auto).
    destruct (e_cimpl E); rewrite bind_get, Hr;
      change (value_eqb VModFun VNoProxy) with false;
      try change (value_eqb VModFun (VChk default_cid)) with false;
      cbn [andb]; exact Hsel.
Qed.

Lemma own_keeps N Env other E s v s' :
  respectful N Env other -> Env E -> Own E s v VNone s' -> defaults_kept N s s'.
Proof.
  intros [HR _] HE [Ha|c0 s1 Hp Ha Hr|e s1 Hp Ha Hr He]; [apply dk_refl| |];
    eapply HR; eauto.
Qed.

(** The proxy made by the factory keeps its object and its read-only table. *)
Lemma default_proxy pf E0 s0 d s1 t1 Env other E f w s2 s3 ns :
  e_watch E0 = 0 -> 3 <= st_next s0 -> import_checker E0 pf s0 = (Ok d, s1, t1) ->
  respectful (st_next s1) Env other -> Env E -> History Env other s1 s2 ->
  Own E s2 w VNone s3 -> DefaultProtected E s1 s3 w ns ->
  exists p s4 t4, do_ProxyFactory E (S (S f)) w VNone s2 = (Ok (VProxy p), s4, t4) /\
    forall s5, History Env other s4 s5 ->
      exists c, Wraps s5 p w c /\ DC s5 c ns.
Proof.
  intros Hw0 Hn0 HI HR HE H12 HO HP.
  destruct (import_only _ _ _ _ _ _ Hw0 Hn0 HI) as (it & lit & HG & HL & HA).
  assert (K12 := dk_history _ _ _ _ _ HR H12).
  assert (K23 := own_keeps _ _ _ _ _ _ _ HR HE HO).
  assert (K13 := dk_trans _ _ _ _ K12 K23).
  destruct (default_select pf E f s1 s3 it lit w ns (proj1 (proj1 HR E HE)) HL HA K13 HP) as (c & HD & Hs).
  destruct (factory_selected E (S f) w s2 s3 (Some c) s3 [] HO Hs) as (s4 & t4 & HF & HGr).
  exists (st_next s3), s4, t4. split; [exact HF|].
  intros s5 H45. exists c.
  assert (K34 : defaults_kept (st_next s1) s3 s4).
  { destruct HGr as [_ ->]. intros HN. split; simpl; [lia|]. split.
    - intros p x Hp Hx. rewrite upd_ne by lia. auto.
    - auto. }
  assert (K45 := dk_history _ _ _ _ _ HR H45).
  split.
  - destruct (K13 (Nat.le_refl _)) as (A13 & _).
    destruct HGr as [_ ->].
    destruct (K45 ltac:(simpl; lia)) as (A45 & B45 & _).
    split; [|simpl in A45; lia]. apply B45; [simpl; lia|]. simpl. apply upd_eq.
  - eapply DC_kept; [|exact HD]. eapply dk_trans; [exact K13|]. eapply dk_trans; eauto.
Qed.

(** ** Operations on such a proxy *)

Lemma DC_plain s c ns : DC s c ns ->
  exists g, PlainChecker s c g [] /\ no_none (table_of g) /\ no_none (table_of []) /\
    (forall n, In n ns -> table_of g n = Some PPublic) /\
    (forall n, ~ In n ns -> table_of g n = None).
Proof.
  intros (i & k & -> & Hi & Hk & Hp & Hg & Hs & Hd & Ht).
  exists (st_dicts s (ck_get k)). split; [exists i, k; auto 10|].
  split; [|split; [|split]].
  - intros n Hx. rewrite Ht in Hx. destruct (in_dec string_dec n ns); discriminate.
  - intros n Hx. discriminate.
  - intros n Hn. rewrite Ht. destruct (in_dec string_dec n ns); tauto.
  - intros n Hn. rewrite Ht. destruct (in_dec string_dec n ns); tauto.
Qed.

Lemma default_refuses E f o p n a w c ns s :
  Wraps s p w c -> DC s c ns -> guard_of (e_impl E) o = Some (p, n, a) ->
  (a = Write \/ (~ In n ns /\ ~ always_available n /\ n <> "__iter__")) ->
  perform E (S (S (S f))) o s = (Exc (EForbidden n w), s, []).
Proof.
  intros [Hp _] HD Hg Ha. destruct (DC_plain _ _ _ HD) as (g & HP & Hn1 & Hn2 & _ & HB).
  eapply forbidden_lemma; eauto.
  - destruct a; simpl; [|reflexivity]. destruct Ha as [Ha|Ha]; [discriminate|]. apply HB. tauto.
  - intros ->. destruct Ha as [Ha|Ha]; [discriminate|]. tauto.
Qed.

Lemma default_reads E f o p n w c ns s r s' tr :
  foreign_keeps_proxies E -> plain_object w -> other_operands_plain o ->
  Wraps s p w c -> DC s c ns -> guard_of (e_impl E) o = Some (p, n, Read) -> In n ns ->
  n <> "__Security_checker__" ->
  perform E (S (S (S f))) o s = (r, s', tr) ->
  (forall m, m <> MSetattr -> do_check E (S (S f)) m c w n s = (Ok tt, s, [])) /\
  reached (e_impl E) (e_tid E) (Invoked E (S (S f))) p o w (client_calls tr).
Proof.
  intros HF Hw Ho HW HD Hg Hn Hs HP.
  destruct (DC_plain _ _ _ HD) as (g & HPc & Hn1 & Hn2 & HA & _).
  assert (Hck : forall m, m <> MSetattr -> do_check E (S (S f)) m c w n s = (Ok tt, s, [])).
  { intros m Hm. destruct (do_check E (S (S f)) m c w n s) as [[r0 s1] t1] eqn:Hc.
    eapply (access_check E f m Read) in Hc; eauto.
    - simpl in Hc. apply ReadCheck_public in Hc; [|simpl; auto].
      destruct Hc as (-> & -> & ->). reflexivity.
    - split; [congruence|discriminate]. }
  split; [exact Hck|].
  assert (Hc0 : c <> VNone) by (destruct HD as (i & k & -> & _); discriminate).
  destruct (effect_lemma E (S f) o p n Read w c s r s' tr HF Hg HW Hc0 Hw Ho Hs HP)
    as (m & r0 & s1 & t1 & t2 & Hm & Hc & -> & Hq & HR).
  rewrite Hck in Hc; [|intros ->; destruct Hm as [Hm _]; discriminate (Hm eq_refl)].
  minj Hc. exact HR.
Qed.

(** Mutators are not among the names that can be read. *)
Lemma mutator_lemma pf T ns n :
  Readable pf T ns -> mutator T n -> ~ In n ns /\ ~ always_available n /\ n <> "__iter__".
Proof.
  intros HR HM.
  assert (Hd : disjb (common_mutators ++ own_mutators T)%list (ns ++ ["__iter__"])%list = true /\
               disjb (common_mutators ++ own_mutators T)%list
                 [ "__class__"; "__providedBy__"; "__implements__"; "__repr__"; "__conform__";
                   "__name__"; "__parent__"; "__hash__"; "__bool__";
                   "__eq__"; "__ne__"; "__lt__"; "__le__"; "__gt__"; "__ge__" ] = true).
  { destruct HR as [HR|[HR ->]].
    - unfold container_reads in HR.
      destruct HR as [HR|[HR|[HR|[HR|[HR|[]]]]]]; injection HR as <- <-;
        split; vm_compute; reflexivity.
    - assert (Hown : own_mutators T = [] \/ own_mutators T = ["close"; "send"; "throw"]).
      { unfold own_mutators.
        assert (Hno : forall x, In x ["dict"; "list"; "set"] -> String.eqb T x = false).
        { intros x Hx. destruct (String.eqb_spec T x) as [->|]; [|reflexivity]. exfalso.
          destruct HR as [HR|(_ & HR & _)].
          - revert HR. apply (disjb_spec ["dict"; "list"; "set"]); [reflexivity|exact Hx].
          - apply HR. revert Hx. apply inb_spec. reflexivity. }
        rewrite !Hno by (simpl; tauto).
        destruct (String.eqb T "generator"); auto. }
      destruct Hown as [-> | ->]; split; vm_compute; reflexivity. }
  destruct Hd as [H1 H2].
  assert (Hn : In n (common_mutators ++ own_mutators T)%list)
    by (apply in_or_app; destruct HM; auto).
  assert (A := disjb_spec _ _ H1 n Hn). assert (B := disjb_spec _ _ H2 n Hn).
  split; [|split].
  - intros H. apply A. apply in_or_app. auto.
  - exact B.
  - intros ->. apply A. apply in_or_app. right. left. reflexivity.
Qed.

Lemma readable_protected pf E0 s0 d s1 t1 E s3 w ns :
  e_watch E0 = 0 -> 3 <= st_next s0 -> import_checker E0 pf s0 = (Ok d, s1, t1) ->
  Readable pf (concrete_type E s3 w) ns -> still_default s1 s3 (concrete_type E s3 w) ->
  DefaultProtected E s1 s3 w ns.
Proof.
  intros Hw Hn HI HR HS.
  destruct (import_only _ _ _ _ _ _ Hw Hn HI) as (it & lit & _ & HL & HA).
  destruct (readable_default _ _ _ _ _ _ HL HA HR) as (c & Hc & HD).
  eapply DP_type; eauto. apply DC_reads_only. exact HD.
Qed.

(** The internals of code are not among the names that can be read. *)
Lemma internals_lemma T ns n :
  In (T, ns) code_reads ->
  In n code_internals \/ (In T ["type"; "ABCMeta"] /\ n = "__call__") ->
  ~ In n ns /\ ~ always_available n /\ n <> "__iter__".
Proof.
  intros HT Hn.
  assert (Hav : forall m, In m ("__call__" :: code_internals) -> ~ always_available m /\ m <> "__iter__").
  { intros m Hm. split.
    - apply (disjb_spec ("__call__" :: code_internals)
               [ "__class__"; "__providedBy__"; "__implements__"; "__repr__"; "__conform__";
                   "__name__"; "__parent__"; "__hash__"; "__bool__";
                   "__eq__"; "__ne__"; "__lt__"; "__le__"; "__gt__"; "__ge__" ]);
        [reflexivity|exact Hm].
    - intros ->. revert Hm. apply (disjb_spec ["__iter__"]); [reflexivity|left; reflexivity]. }
  split.
  - destruct Hn as [Hn|(HC & ->)].
    + revert Hn. generalize n. apply Forall_forall.
      assert (HF : Forall (fun e => disjb code_internals (snd e) = true) code_reads)
        by (repeat constructor).
      rewrite Forall_forall in HF. specialize (HF _ HT). cbn [snd] in HF.
      apply Forall_forall. exact (disjb_spec _ _ HF).
    + destruct HC as [<-|[<-|[]]];
        unfold code_reads in HT;
        repeat (destruct HT as [HT|HT]; [first [discriminate HT|injection HT as <-; 
          apply (disjb_spec ["__call__"]); [reflexivity|left; reflexivity]]|]);
        destruct HT.
  - apply Hav. destruct Hn as [Hn|(_ & ->)]; [right; exact Hn|left; reflexivity].
Qed.

Lemma listed_protected pf E0 s0 d s1 t1 E s3 w ns :
  e_watch E0 = 0 -> 3 <= st_next s0 -> import_checker E0 pf s0 = (Ok d, s1, t1) ->
  In (concrete_type E s3 w, ns) (code_reads ++ other_reads pf) ->
  still_default s1 s3 (concrete_type E s3 w) ->
  DefaultProtected E s1 s3 w ns.
Proof.
  intros Hw Hn HI HR HS.
  destruct (import_only _ _ _ _ _ _ Hw Hn HI) as (it & lit & _ & HL & HA).
  destruct (other_default _ _ _ _ _ _ HL HA HR) as (c & Hc & HD).
  eapply DP_type; eauto. apply DC_reads_only. exact HD.
Qed.

Section Program.
  Variables (pf : platform) (E0 : env) (s0 : state) (d : list (rkey * value)) (s1 : state)
            (t1 : list event) (Env : env -> Prop) (other : state -> state -> Prop).
  Hypothesis Hw0 : e_watch E0 = 0.
  Hypothesis Hn0 : 3 <= st_next s0.
  Hypothesis HI : import_checker E0 pf s0 = (Ok d, s1, t1).
  Hypothesis HR : respectful (st_next s1) Env other.

  Lemma only_listed_lemma E f w s2 s3 ns :
    History Env other s1 s2 -> Env E -> Own E s2 w VNone s3 -> DefaultProtected E s1 s3 w ns ->
    exists p s4 t4, do_ProxyFactory E (S (S f)) w VNone s2 = (Ok (VProxy p), s4, t4) /\
    forall E5 f5 o n a s5,
      History Env other s4 s5 -> Env E5 -> guard_of (e_impl E5) o = Some (p, n, a) ->
      (a = Write \/ (~ In n ns /\ ~ always_available n /\ n <> "__iter__")) ->
      perform E5 (S (S (S f5))) o s5 = (Exc (EForbidden n w), s5, []).
  Proof.
    intros H12 HE HO HP.
    destruct (default_proxy pf E0 s0 d s1 t1 Env other E f w s2 s3 ns Hw0 Hn0 HI HR HE H12 HO HP)
      as (p & s4 & t4 & HF & HL).
    exists p, s4, t4. split; [exact HF|]. intros E5 f5 o n a s5 H45 HE5 Hg Ha.
    destruct (HL s5 H45) as (c & HW & HD). eapply default_refuses; eauto.
  Qed.

  Lemma no_mutation_lemma E f w s2 s3 ns :
    History Env other s1 s2 -> Env E -> Own E s2 w VNone s3 ->
    Readable pf (concrete_type E s3 w) ns -> still_default s1 s3 (concrete_type E s3 w) ->
    exists p s4 t4, do_ProxyFactory E (S (S f)) w VNone s2 = (Ok (VProxy p), s4, t4) /\
    forall E5 f5 o n a s5,
      History Env other s4 s5 -> Env E5 -> guard_of (e_impl E5) o = Some (p, n, a) ->
      (a = Write \/ mutator (concrete_type E s3 w) n) ->
      perform E5 (S (S (S f5))) o s5 = (Exc (EForbidden n w), s5, []).
  Proof.
    intros H12 HE HO HRd HS.
    assert (HP := readable_protected _ _ _ _ _ _ E s3 w ns Hw0 Hn0 HI HRd HS).
    destruct (only_listed_lemma E f w s2 s3 ns H12 HE HO HP) as (p & s4 & t4 & HF & HL).
    exists p, s4, t4. split; [exact HF|]. intros E5 f5 o n a s5 H45 HE5 Hg Ha.
    eapply HL; eauto. destruct Ha as [Ha|Ha]; [auto|]. right.
    eapply mutator_lemma; eauto.
  Qed.

  Lemma code_opaque_lemma E f w s2 s3 ns :
    History Env other s1 s2 -> Env E -> Own E s2 w VNone s3 ->
    In (concrete_type E s3 w, ns) code_reads -> still_default s1 s3 (concrete_type E s3 w) ->
    exists p s4 t4, do_ProxyFactory E (S (S f)) w VNone s2 = (Ok (VProxy p), s4, t4) /\
    forall E5 f5 o n a s5,
      History Env other s4 s5 -> Env E5 -> guard_of (e_impl E5) o = Some (p, n, a) ->
      (a = Write \/ In n code_internals \/
       (In (concrete_type E s3 w) ["type"; "ABCMeta"] /\ n = "__call__")) ->
      perform E5 (S (S (S f5))) o s5 = (Exc (EForbidden n w), s5, []).
  Proof.
    intros H12 HE HO HC HS.
    assert (HP := listed_protected _ _ _ _ _ _ E s3 w ns Hw0 Hn0 HI
                    (in_or_app _ _ _ (or_introl HC)) HS).
    destruct (only_listed_lemma E f w s2 s3 ns H12 HE HO HP) as (p & s4 & t4 & HF & HL).
    exists p, s4, t4. split; [exact HF|]. intros E5 f5 o n a s5 H45 HE5 Hg Ha.
    eapply HL; eauto. destruct Ha as [Ha|Ha]; [auto|]. right.
    eapply internals_lemma; eauto.
  Qed.

  Lemma reads_lemma E f w s2 s3 ns :
    History Env other s1 s2 -> Env E -> plain_object w ->
    Own E s2 w VNone s3 -> DefaultProtected E s1 s3 w ns ->
    exists p s4 t4, do_ProxyFactory E (S (S f)) w VNone s2 = (Ok (VProxy p), s4, t4) /\
    forall E5 f5 o n s5 r s6 tr,
      History Env other s4 s5 -> Env E5 -> guard_of (e_impl E5) o = Some (p, n, Read) ->
      In n ns -> n <> "__Security_checker__" -> other_operands_plain o ->
      perform E5 (S (S (S f5))) o s5 = (r, s6, tr) ->
      (exists c, st_prox s5 p = Some (w, c) /\
         forall m, m <> MSetattr -> do_check E5 (S (S f5)) m c w n s5 = (Ok tt, s5, [])) /\
      reached (e_impl E5) (e_tid E5) (Invoked E5 (S (S f5))) p o w (client_calls tr).
  Proof.
    intros H12 HE Hw HO HP.
    destruct (default_proxy pf E0 s0 d s1 t1 Env other E f w s2 s3 ns Hw0 Hn0 HI HR HE H12 HO HP)
      as (p & s4 & t4 & HF & HL).
    exists p, s4, t4. split; [exact HF|]. intros E5 f5 o n s5 r s6 tr H45 HE5 Hg Hn Hsc Ho HPf.
    destruct (HL s5 H45) as (c & HW & HD).
    destruct (default_reads E5 f5 o p n w c ns s5 r s6 tr) as [HA HB]; auto.
    - apply (proj1 HR E5 HE5).
    - split; [|exact HB]. exists c. split; [apply HW|exact HA].
  Qed.

  Lemma code_call_lemma E f w s2 s3 ns :
    History Env other s1 s2 -> Env E -> plain_object w -> Own E s2 w VNone s3 ->
    In (concrete_type E s3 w, ns) code_reads ->
    ~ In (concrete_type E s3 w) ["type"; "ABCMeta"] ->
    still_default s1 s3 (concrete_type E s3 w) ->
    exists p s4 t4, do_ProxyFactory E (S (S f)) w VNone s2 = (Ok (VProxy p), s4, t4) /\
    forall E5 f5 args s5 r s6 tr,
      History Env other s4 s5 -> Env E5 ->
      perform E5 (S (S (S f5))) (OCall (VProxy p) args) s5 = (r, s6, tr) ->
      reached (e_impl E5) (e_tid E5) (Invoked E5 (S (S f5))) p (OCall (VProxy p) args) w
              (client_calls tr).
  Proof.
    intros H12 HE Hp HO HC HN HS.
    assert (HP := listed_protected _ _ _ _ _ _ E s3 w ns Hw0 Hn0 HI
                    (in_or_app _ _ _ (or_introl HC)) HS).
    destruct (reads_lemma E f w s2 s3 ns H12 HE Hp HO HP) as (p & s4 & t4 & HF & HL).
    exists p, s4, t4. split; [exact HF|]. intros E5 f5 args s5 r s6 tr H45 HE5 Hpf.
    eapply (HL E5 f5 (OCall (VProxy p) args) "__call__" s5 r s6 tr H45 HE5); [reflexivity| | | |exact Hpf].
    - revert HN. generalize (concrete_type E s3 w) HC. intros T HT HN. unfold code_reads in HT.
      repeat (destruct HT as [HT|HT]; [apply pair_equal_spec in HT; destruct HT as [<- <-];
        first [left; reflexivity|exfalso; apply HN; cbn [In]; auto]|]). destruct HT.
    - discriminate.
    - exact I.
  Qed.

  (** Assigning or deleting any attribute of the proxy, under any name, does nothing to
      the object. *)
  Lemma attributes_lemma E f w s2 s3 ns :
    History Env other s1 s2 -> Env E -> Own E s2 w VNone s3 -> DefaultProtected E s1 s3 w ns ->
    exists p s4 t4, do_ProxyFactory E (S (S f)) w VNone s2 = (Ok (VProxy p), s4, t4) /\
    forall E5 f5 o n s5 r s6 tr,
      History Env other s4 s5 -> Env E5 ->
      ((exists v, o = OSetattr (VProxy p) n v) \/ o = ODelattr (VProxy p) n) ->
      perform E5 (S (S (S f5))) o s5 = (r, s6, tr) ->
      tr = [] /\
      (r = Exc (EForbidden n w) \/ (e_impl E5 = ImplPy /\ internal_name n)).
  Proof.
    intros H12 HE HO HP.
    destruct (only_listed_lemma E f w s2 s3 ns H12 HE HO HP) as (p & s4 & t4 & HF & HL).
    exists p, s4, t4. split; [exact HF|]. intros E5 f5 o n s5 r s6 tr H45 HE5 Ho Hpf.
    destruct (e_impl E5) eqn:Hi.
    - destruct (internal_nameb n) eqn:Hn.
      + assert (Hin : internal_name n) by (apply internal_nameb_iff; exact Hn).
        split; [|auto].
        destruct Ho as [[v ->] | ->].
        * unfold perform in Hpf. simpl in Hpf. unfold proxy_setattr in Hpf. rewrite Hi in Hpf.
          unfold py_setattr in Hpf. unfold internal_nameb in Hn.
          destruct (String.eqb n "_wrapped"); [|simpl in Hn; rewrite Hn in Hpf];
            unfold pset_wrapped, pset_checker, pget, bind, get, put, raise, ret in Hpf;
            destruct (st_prox s5 p) as [[? ?]|]; simpl in Hpf; minj Hpf; reflexivity.
        * rewrite py_internal_delete in Hpf by auto. minj Hpf. reflexivity.
      + assert (Hg : guard_of (e_impl E5) o = Some (p, n, Write)).
        { rewrite Hi. destruct Ho as [[v ->] | ->]; simpl; rewrite Hn; reflexivity. }
        rewrite (HL E5 f5 o n Write s5 H45 HE5 Hg (or_introl eq_refl)) in Hpf. minj Hpf. auto.
    - assert (Hg : guard_of (e_impl E5) o = Some (p, n, Write)).
      { rewrite Hi. destruct Ho as [[v ->] | ->]; reflexivity. }
      rewrite (HL E5 f5 o n Write s5 H45 HE5 Hg (or_introl eq_refl)) in Hpf. minj Hpf. auto.
  Qed.
End Program.

(** ** Witnesses *)

Definition some_platform : platform :=
  {| pf_IDeclaration := ["__iter__"; "flattened"]; pf_IInterface := ["names"; "providedBy"];
     pf_IMethod := ["getSignatureString"]; pf_pytz := true;
     pf_dictlike := ["odict_iterator"; "dict_values"]; pf_btrees := Some ["OOBTreeItems"];
     pf_itertools := ["count"; "cycle"] |}.

(** Object 5 is a dict, 6 its bound method [values], 7 the view it returns, 8 an iterator of
    the view, 9 the value in the dict. *)
Definition typed_env (b : impl) (run : id -> call -> state -> res value * state) : env :=
  mkEnv b b 0 0
        (fun o => match o with 5 => "dict" | 6 => "builtin_function_or_method"
                  | 7 => "dict_values" | _ => "app.Thing" end)
        (fun _ => "type") (fun _ => false) (fun _ => "0x1") run.
Definition imported : state := snd (fst (import_checker (wenv ImplC) some_platform w_state)).

Lemma quiet_same t c s r s' : quiet_run t c s = (r, s') -> s' = s.
Proof.
  unfold quiet_run. intros H.
  repeat match type of H with
         | context [match ?x with _ => _ end] => destruct x
         end; inversion H; reflexivity.
Qed.

Definition dict_run (t : id) (c : call) (s : state) : res value * state :=
  match c with
  | CallOp (OGetattr _ "__Security_checker__" _) =>
      (Exc (EAttribute "__Security_checker__"), s)
  | CallOp (OGetattr (VObj 5) "values" _) => (Ok (VObj 6), s)
  | CallOp (OCall (VObj 6) _) => (Ok (VObj 7), s)
  | CallOp (OIter (VObj 7)) => (Ok (VObj 8), s)
  | CallOp (ONext (VObj 8)) => (Ok (VObj 9), s)
  | CallOp (OGetitem (VObj 5) _) => (Ok (VObj 9), s)
  | _ => quiet_run t c s
  end.

Lemma dict_views_lemma :
  forall b, exists s1 t1 q s2 t2 s3 t3 s4 t4 s5 t5 p' s6 t6,
    let E := typed_env b dict_run in
    let p := VProxy (st_next imported) in
    do_ProxyFactory E 3 (VObj 5) VNone imported = (Ok p, s1, t1) /\
    perform E 4 (OGetattr p "values" None) s1 = (Ok (VProxy q), s2, t2) /\
    perform E 4 (OCall (VProxy q) []) s2 = (Ok (VObj 7), s3, t3) /\
    perform E 4 (OIter (VObj 7)) s3 = (Ok (VObj 8), s4, t4) /\
    perform E 4 (ONext (VObj 8)) s4 = (Ok (VObj 9), s5, t5) /\
    do_select E 4 (VObj 9) s5 = (Ok (Some (VChk default_cid)), s5, []) /\
    perform E 4 (OGetitem p (VInt 1)) s5 = (Ok (VProxy p'), s6, t6) /\
    st_prox s6 p' = Some (VObj 9, VChk default_cid).
Proof.
  destruct b; do 14 eexists; (split; [vm_compute; reflexivity|]);
    repeat (split; [vm_compute; reflexivity|]); vm_compute; reflexivity.
Qed.
