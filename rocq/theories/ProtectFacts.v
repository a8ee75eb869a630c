(** * ProtectFacts: proofs about protection declarations. *)

From Coq Require Import List String Bool Arith ZArith Lia.
From Verif Require Import Base Domain CheckerModel ProxyModel Spec RegSpec MFacts CheckFacts
  RegistryFacts TableFacts Protect ProtectSpec.
Import ListNotations.
Open Scope string_scope.
Open Scope m_scope.

(** ** Running declarations *)

Definition run_decl (E : env) (d : decl) : M unit :=
  match d with
  | DName k n p => protectName E k n p
  | DSet k n p => protectSetAttribute E k n p
  | DLike k l => protectLikeUnto E k l
  end.

Fixpoint run_decls (E : env) (ds : list decl) : M unit :=
  match ds with [] => ret tt | d :: ds' => run_decl E d ;;; run_decls E ds' end.

Lemma translate_meant p : translate p = meant p.
Proof.
  destruct p as [| |i t]; try reflexivity. unfold translate, meant, zope_Public.
  destruct (String.eqb_spec t "zope.Public") as [->|Hn]; [reflexivity|].
  repeat (match goal with
          | |- context [match ?x with EmptyString => _ | String _ _ => _ end] =>
              destruct x as [|[[] [] [] [] [] [] [] []] ?]; try reflexivity
          end).
  exfalso. apply Hn. reflexivity.
Qed.

(** ** Effect of writing one dictionary *)

Lemma sNoDup_dset {V} (d : list (string * V)) k v :
  NoDup (map fst d) -> NoDup (map fst (dset String.eqb d k v)).
Proof. apply (NoDup_dset String.eqb String.eqb_spec). Qed.

Lemma sNoDup_dupdate {V} (d d2 : list (string * V)) :
  NoDup (map fst d) -> NoDup (map fst (dupdate String.eqb d d2)).
Proof.
  unfold dupdate. revert d. induction d2 as [|[k v] d2 IH]; simpl; auto.
  intros d Hd. apply IH. apply sNoDup_dset. exact Hd.
Qed.

Lemma dget_rev_nodup {V} (d : list (string * V)) n :
  NoDup (map fst d) -> dget String.eqb (rev d) n = dget String.eqb d n.
Proof.
  intros Hn. destruct (dget String.eqb d n) as [v|] eqn:Hd.
  - apply (dget_NoDup_In String.eqb String.eqb_spec).
    + rewrite map_rev. apply NoDup_rev. exact Hn.
    + apply -> in_rev. apply (dget_In _ String.eqb_spec). exact Hd.
  - apply (dget_None _ String.eqb_spec). rewrite map_rev. intros Hin.
    apply in_rev in Hin. revert Hin. apply (dget_None _ String.eqb_spec). exact Hd.
Qed.

Lemma dget_copy {V} (d d2 : list (string * V)) n :
  NoDup (map fst d2) ->
  dget String.eqb (dupdate String.eqb d d2) n =
  match dget String.eqb d2 n with Some v => Some v | None => dget String.eqb d n end.
Proof.
  intros Hn. rewrite (dget_dupdate String.eqb String.eqb_spec), (dget_rev_nodup d2 n Hn).
  reflexivity.
Qed.

Definition with_dict (s : state) (d : id) (D : list (name * perm)) : state :=
  set_dicts (upd (st_dicts s) d D) s.

Lemma live_unique s k i c i' c' : live s k i c -> live s k i' c' -> i' = i /\ c' = c.
Proof. intros [H1 H2] [H3 H4]. rewrite H1 in H3. inversion H3; subst. split; congruence. Qed.

Lemma with_get_read s k i c D :
  unshared s k -> live s k i c -> forall k' n,
  read_protection (with_dict s (ck_get c) D) k' n =
  if rkey_eqb k' k then dget String.eqb D n else read_protection s k' n.
Proof.
  intros Hu Hl k' n. unfold read_protection, with_dict. simpl.
  destruct (rkey_eqb_spec k' k) as [->|Hk].
  - destruct Hl as [H1 H2]. rewrite H1, H2, upd_eq. reflexivity.
  - destruct (dget rkey_eqb (st_reg s) k') as [[]|] eqn:Hr; try reflexivity.
    destruct (st_chks s c0) as [c'|] eqn:Hc; [|reflexivity].
    destruct (Hu i c Hl) as [_ Ho]. destruct (Ho k' c0 c' Hk (conj Hr Hc)) as (Hg & _).
    rewrite upd_ne by exact Hg. reflexivity.
Qed.

Lemma with_get_write s k i c D :
  unshared s k -> live s k i c -> forall k' n,
  write_protection (with_dict s (ck_get c) D) k' n = write_protection s k' n.
Proof.
  intros Hu Hl k' n. unfold write_protection, with_dict. simpl.
  destruct (dget rkey_eqb (st_reg s) k') as [[]|] eqn:Hr; try reflexivity.
  destruct (st_chks s c0) as [c'|] eqn:Hc; [|reflexivity].
  destruct (Hu i c Hl) as [Hd Ho].
  assert (Hne : ck_set c' <> ck_get c).
  { destruct (rkey_eqb_spec k' k) as [->|Hk].
    - destruct (live_unique s k i c c0 c' Hl (conj Hr Hc)) as [_ ->]. auto.
    - destruct (Ho k' c0 c' Hk (conj Hr Hc)) as (_ & _ & Hg & _). exact Hg. }
  rewrite upd_ne by exact Hne. reflexivity.
Qed.

Lemma with_set_write s k i c D :
  unshared s k -> live s k i c -> forall k' n,
  write_protection (with_dict s (ck_set c) D) k' n =
  if rkey_eqb k' k then dget String.eqb D n else write_protection s k' n.
Proof.
  intros Hu Hl k' n. unfold write_protection, with_dict. simpl.
  destruct (rkey_eqb_spec k' k) as [->|Hk].
  - destruct Hl as [H1 H2]. rewrite H1, H2, upd_eq. reflexivity.
  - destruct (dget rkey_eqb (st_reg s) k') as [[]|] eqn:Hr; try reflexivity.
    destruct (st_chks s c0) as [c'|] eqn:Hc; [|reflexivity].
    destruct (Hu i c Hl) as [_ Ho].
    destruct (Ho k' c0 c' Hk (conj Hr Hc)) as (_ & _ & _ & Hg).
    rewrite upd_ne by exact Hg. reflexivity.
Qed.

Lemma with_set_read s k i c D :
  unshared s k -> live s k i c -> forall k' n,
  read_protection (with_dict s (ck_set c) D) k' n = read_protection s k' n.
Proof.
  intros Hu Hl k' n. unfold read_protection, with_dict. simpl.
  destruct (dget rkey_eqb (st_reg s) k') as [[]|] eqn:Hr; try reflexivity.
  destruct (st_chks s c0) as [c'|] eqn:Hc; [|reflexivity].
  destruct (Hu i c Hl) as [Hd Ho].
  assert (Hne : ck_get c' <> ck_set c).
  { destruct (rkey_eqb_spec k' k) as [->|Hk].
    - destruct (live_unique s k i c c0 c' Hl (conj Hr Hc)) as [_ ->]. auto.
    - destruct (Ho k' c0 c' Hk (conj Hr Hc)) as (_ & Hg & _). exact Hg. }
  rewrite upd_ne by exact Hne. reflexivity.
Qed.

(** ** Preservation of the conditions *)

(** Everything [declarable] depends on, except the contents of dictionaries. *)
Lemma with_dict_wf s d D :
  NoDup (map fst D) -> registry_wf s -> registry_wf (with_dict s d D).
Proof.
  intros Hn Hw k i Hr. destruct (Hw k i Hr) as (Hi & c & Hc & Hg & Hs & Ng & Ns).
  split; [exact Hi|]. exists c. split; [exact Hc|]. split; [exact Hg|]. split; [exact Hs|].
  simpl. unfold upd. split.
  - destruct (Nat.eqb (ck_get c) d); assumption.
  - destruct (Nat.eqb (ck_set c) d); assumption.
Qed.

Lemma with_dict_declarable ds s d D :
  NoDup (map fst D) -> declarable ds s -> declarable ds (with_dict s d D).
Proof.
  intros Hn [Hw Hd]. split; [apply with_dict_wf; assumption|exact Hd].
Qed.

Lemma with_dict_only s d D : only_tables s (with_dict s d D).
Proof. destruct s. reflexivity. Qed.

Lemma only_tables_refl s : only_tables s s.
Proof. destruct s. reflexivity. Qed.

Lemma only_tables_trans s1 s2 s3 : only_tables s1 s2 -> only_tables s2 s3 -> only_tables s1 s3.
Proof.
  unfold only_tables. intros H1 H2. rewrite H2. rewrite H1. destruct s1. reflexivity.
Qed.

(** ** The registered checker, or a new one *)

Definition same_entries (k : rkey) (s s' : state) : Prop :=
  forall k', k' <> k -> dget rkey_eqb (st_reg s') k' = dget rkey_eqb (st_reg s) k'.

Lemma define_new_lemma E k s :
  dget rkey_eqb (st_reg s) k = None -> is_class_or_module k -> registry_wf s ->
  exists i c s1,
    (c' <- Checker_new E [] [] ;; defineChecker k c' ;;; ret c') s = (Ok (VChk i), s1, []) /\
    live s1 k i c /\ registry_wf s1 /\
    (forall ds, declarable ds s -> declarable ds s1) /\
    (forall k' n, read_protection s1 k' n = read_protection s k' n) /\
    (forall k' n, write_protection s1 k' n = write_protection s k' n) /\
    only_tables s s1 /\ same_entries k s s1 /\ unshared s1 k /\
    (forall k' i' c', live s k' i' c' -> live s1 k' i' c') /\
    (forall k' i' c', live s1 k' i' c' -> live s k' i' c' \/
       ck_kind c' = Checker_class E /\ i' <> default_cid).
Proof.
  intros Hr Hk Hw.
  set (m := st_next s).
  set (c := mkChecker m (S m) (Checker_class E)).
  set (s1 := set_reg (dset rkey_eqb (st_reg s) k (VChk (S (S m))))
         (set_chks (upd (st_chks s) (S (S m)) (Some c))
         (set_next (S (S (S m)))
           (set_dicts (upd (upd (st_dicts s) m []) (S m) []) s)))).
  assert (Hgetr : forall k', dget rkey_eqb (st_reg s1) k' =
            if rkey_eqb k k' then Some (VChk (S (S m))) else dget rkey_eqb (st_reg s) k').
  { intros k'. apply rdget_dset. }
  assert (Hlive : live s1 k (S (S m)) c).
  { split; [rewrite Hgetr, (dict_eqb_refl rkey_eqb rkey_eqb_spec); reflexivity|].
    apply upd_eq. }
  assert (Hold : forall k' i' c', k' <> k -> live s1 k' i' c' ->
            live s k' i' c' /\ i' < m /\ ck_get c' < m /\ ck_set c' < m /\
            st_dicts s1 (ck_get c') = st_dicts s (ck_get c') /\
            st_dicts s1 (ck_set c') = st_dicts s (ck_set c')).
  { intros k' i' c' Hne [H1 H2]. rewrite Hgetr in H1.
    destruct (rkey_eqb_spec k k') as [->|_]; [congruence|].
    destruct (Hw k' i' H1) as (Hi & c0 & Hc0 & Hg & Hs & _).
    fold m in Hi, Hg, Hs.
    simpl in H2. rewrite upd_ne in H2 by lia. assert (c0 = c') by congruence. subst c0.
    split; [split; assumption|]. split; [exact Hi|]. split; [exact Hg|]. split; [exact Hs|].
    simpl. rewrite !upd_ne by lia. split; reflexivity. }
  assert (Hold2 : forall k' i', k' <> k -> dget rkey_eqb (st_reg s1) k' = Some (VChk i') ->
            st_chks s1 i' = st_chks s i').
  { intros k' i' Hne H1. rewrite Hgetr in H1.
    destruct (rkey_eqb_spec k k') as [->|_]; [congruence|].
    destruct (Hw k' i' H1) as (Hi & _). fold m in Hi. simpl. apply upd_ne. lia. }
  assert (Hsame : same_entries k s s1).
  { intros k' Hne. rewrite Hgetr. destruct (rkey_eqb_spec k k'); congruence. }
  assert (Hwf : registry_wf s1).
  { intros k' i' H1. destruct (rkey_eqb_spec k' k) as [->|Hne].
    - destruct Hlive as [H2 H3]. rewrite H2 in H1. inversion H1; subst i'.
      split; [simpl; lia|]. exists c. split; [exact H3|]. split; [simpl; lia|].
      split; [simpl; lia|]. simpl. rewrite upd_eq, upd_ne, upd_eq by lia.
      split; constructor.
    - pose proof H1 as H1'. rewrite (Hsame k' Hne) in H1.
      destruct (Hw k' i' H1) as (Hi & c' & Hc' & Hg & Hs & Ng & Ns).
      pose proof (Hold2 k' i' Hne H1') as Hcs.
      destruct (Hold k' i' c' Hne (conj H1' (eq_trans Hcs Hc'))) as (_ & _ & _ & _ & E1 & E2).
      fold m in Hi, Hg, Hs.
      split; [simpl; lia|]. exists c'. split; [congruence|]. split; [simpl; lia|].
      split; [simpl; lia|]. rewrite E1, E2. split; assumption. }
  assert (Hun : unshared s1 k).
  { intros i0 c0 Hl. destruct (live_unique _ _ _ _ _ _ Hlive Hl) as [_ ->].
    split; [simpl; lia|]. intros k' i' c' Hne Hl'.
    destruct (Hold k' i' c' Hne Hl') as (_ & _ & Hg & Hs & _). simpl. lia. }
  exists (S (S m)), c, s1. split.
  { unfold bind. destruct (Checker_new_eq E [] [] s) as (s0 & H0 & Hs0).
    rewrite H0, Hs0. unfold defineChecker. simpl.
    destruct k; [| |destruct Hk]; unfold bind, get; simpl; rewrite Hr; reflexivity. }
  split; [exact Hlive|]. split; [exact Hwf|]. split.
  { intros ds [_ Hd]. split; [exact Hwf|]. intros d Hin.
    destruct (Hd d Hin) as (H1 & H2 & H3 & H4). split; [exact H1|].
    assert (Hpe : forall l, plain_entry s l -> plain_entry s1 l).
    { intros l Hl. unfold plain_entry. rewrite Hgetr.
      destruct (rkey_eqb k l); [right; eexists; reflexivity|exact Hl]. }
    split; [apply Hpe; exact H2|]. split.
    - destruct (rkey_eqb_spec (target d) k) as [->|Hne]; [exact Hun|].
      intros i0 c0 Hl. destruct (Hold _ _ _ Hne Hl) as (Hl0 & _ & Hg0 & Hs0 & _).
      destruct (H3 i0 c0 Hl0) as [Hgs Ho]. split; [exact Hgs|].
      intros k' i' c' Hne' Hl'.
      destruct (rkey_eqb_spec k' k) as [->|Hk'].
      + destruct (live_unique _ _ _ _ _ _ Hlive Hl') as [_ ->]. simpl. lia.
      + destruct (Hold _ _ _ Hk' Hl') as (Hl1 & _). exact (Ho k' i' c' Hne' Hl1).
    - intros k0 l Heq. apply Hpe. exact (H4 k0 l Heq). }
  split.
  { intros k' n. unfold read_protection. destruct (rkey_eqb_spec k' k) as [->|Hne].
    - destruct Hlive as [H1 H2]. rewrite H1, H2, Hr. simpl.
      rewrite upd_ne, upd_eq by lia. reflexivity.
    - destruct (dget rkey_eqb (st_reg s1) k') as [[]|] eqn:H1;
        rewrite (Hsame k' Hne) in H1; rewrite H1; try reflexivity.
      destruct (Hw k' c0 H1) as (_ & c' & Hc' & _).
      assert (H1' : dget rkey_eqb (st_reg s1) k' = Some (VChk c0))
        by (rewrite (Hsame k' Hne); exact H1).
      pose proof (Hold2 k' c0 Hne H1') as Hcs. rewrite Hcs, Hc'.
      destruct (Hold k' c0 c' Hne (conj H1' (eq_trans Hcs Hc'))) as (_ & _ & _ & _ & E1 & E2).
      rewrite E1. reflexivity. }
  split.
  { intros k' n. unfold write_protection. destruct (rkey_eqb_spec k' k) as [->|Hne].
    - destruct Hlive as [H1 H2]. rewrite H1, H2, Hr. simpl.
      rewrite upd_eq. reflexivity.
    - destruct (dget rkey_eqb (st_reg s1) k') as [[]|] eqn:H1;
        rewrite (Hsame k' Hne) in H1; rewrite H1; try reflexivity.
      destruct (Hw k' c0 H1) as (_ & c' & Hc' & _).
      assert (H1' : dget rkey_eqb (st_reg s1) k' = Some (VChk c0))
        by (rewrite (Hsame k' Hne); exact H1).
      pose proof (Hold2 k' c0 Hne H1') as Hcs. rewrite Hcs, Hc'.
      destruct (Hold k' c0 c' Hne (conj H1' (eq_trans Hcs Hc'))) as (_ & _ & _ & _ & E1 & E2).
      rewrite E2. reflexivity. }
  split; [reflexivity|]. split; [exact Hsame|]. split; [exact Hun|].
  split.
  { intros k' i' c' [H1 H2]. assert (Hne : k' <> k) by congruence.
    destruct (Hw k' i' H1) as (Hi & _). fold m in Hi.
    split; [rewrite (Hsame k' Hne); exact H1|]. simpl. rewrite upd_ne by lia. exact H2. }
  intros k' i' c' Hl'. destruct (rkey_eqb_spec k' k) as [->|Hne].
  - destruct (live_unique _ _ _ _ _ _ Hlive Hl') as [-> ->]. right.
    split; [reflexivity|discriminate].
  - left. destruct (Hold _ _ _ Hne Hl') as (H0 & _). exact H0.
Qed.

Lemma checker_for_lemma E k s :
  plain_entry s k -> is_class_or_module k -> registry_wf s -> unshared s k ->
  exists i c s1,
    checker_for E k s = (Ok (VChk i), s1, []) /\
    live s1 k i c /\ registry_wf s1 /\
    (forall ds, declarable ds s -> declarable ds s1) /\
    (forall k' n, read_protection s1 k' n = read_protection s k' n) /\
    (forall k' n, write_protection s1 k' n = write_protection s k' n) /\
    only_tables s s1 /\ same_entries k s s1 /\ unshared s1 k /\
    (forall k' i' c', live s k' i' c' -> live s1 k' i' c') /\
    (forall k' i' c', live s1 k' i' c' -> live s k' i' c' \/
       ck_kind c' = Checker_class E /\ i' <> default_cid).
Proof.
  intros [Hr|[i Hr]] Hk Hw Hu.
  - destruct (define_new_lemma E k s Hr Hk Hw) as (i & c & s1 & H & Hrest).
    exists i, c, s1. split; [|exact Hrest].
    unfold checker_for, getCheckerForInstancesOf. unfold bind at 1 2. unfold get. simpl.
    rewrite Hr. simpl. rewrite H. reflexivity.
  - destruct (Hw k i Hr) as (_ & c & Hc & _). exists i, c, s. split.
    { unfold checker_for, getCheckerForInstancesOf. unfold bind, get. simpl. rewrite Hr.
      reflexivity. }
    split; [split; assumption|]. split; [exact Hw|]. split; [auto|]. split; [auto|].
    split; [auto|]. split; [apply only_tables_refl|]. split; [intros k' _; reflexivity|].
    split; [exact Hu|]. split; auto.
Qed.

Lemma get_permissions_live s k i c : live s k i c -> get_permissions (VChk i) s = (Ok (ck_get c), s, []).
Proof. intros [_ H]. unfold get_permissions, bind, get. simpl. rewrite H. reflexivity. Qed.

Lemma set_permissions_live s k i c : live s k i c -> set_permissions (VChk i) s = (Ok (ck_set c), s, []).
Proof. intros [_ H]. unfold set_permissions, bind, get. simpl. rewrite H. reflexivity. Qed.

Lemma with_dict_live s d D k i c : live s k i c -> live (with_dict s d D) k i c.
Proof. intros H. exact H. Qed.

Lemma read_live s k i c n : live s k i c -> read_protection s k n = dget String.eqb (st_dicts s (ck_get c)) n.
Proof. intros [H1 H2]. unfold read_protection. rewrite H1, H2. reflexivity. Qed.
Lemma write_live s k i c n : live s k i c -> write_protection s k n = dget String.eqb (st_dicts s (ck_set c)) n.
Proof. intros [H1 H2]. unfold write_protection. rewrite H1, H2. reflexivity. Qed.

Lemma wf_live s k i c : registry_wf s -> live s k i c ->
  NoDup (map fst (st_dicts s (ck_get c))) /\ NoDup (map fst (st_dicts s (ck_set c))).
Proof.
  intros Hw [H1 H2]. destruct (Hw k i H1) as (_ & c' & Hc' & _ & _ & Ng & Ns).
  assert (c' = c) by congruence. subst. split; assumption.
Qed.

(** One declaration. *)
Lemma run_decl_lemma E d s :
  declarable [d] s ->
  exists s', run_decl E d s = (Ok tt, s', []) /\
    (forall k n, read_protection s' k n = declared_read d (read_protection s) k n) /\
    (forall k n, write_protection s' k n = declared_write d (write_protection s) k n) /\
    only_tables s s' /\ same_entries (target d) s s' /\
    (forall ds, declarable ds s -> declarable ds s') /\
    (forall k' i' c', live s k' i' c' -> live s' k' i' c') /\
    (forall k' i' c', live s' k' i' c' -> live s k' i' c' \/
       ck_kind c' = Checker_class E /\ i' <> default_cid) /\
    match d with DLike _ _ => True | _ => exists i c, live s' (target d) i c end.
Proof.
  intros [Hw Hd]. destruct (Hd d (or_introl eq_refl)) as (Hk & Hpe & Hu & Hl).
  destruct d as [k n p|k n p|k l]; simpl in Hk, Hpe, Hu; simpl run_decl; simpl target.
  - destruct (checker_for_lemma E k s Hpe Hk Hw Hu)
      as (i & c & s1 & Hf & Hlive & Hw1 & Hds & Hr & Hwr & Ho & Hs & Hu1 & Hkeep & Hkind).
    destruct (wf_live s1 k i c Hw1 Hlive) as [Ng Ns].
    exists (with_dict s1 (ck_get c) (dset String.eqb (st_dicts s1 (ck_get c)) n (translate p))).
    split.
    { unfold protectName. rewrite (bind_ok _ _ _ _ _ _ Hf).
      rewrite (bind_ok _ _ _ _ _ _ (get_permissions_live s1 k i c Hlive)).
      unfold dict_set, bind, get, put. reflexivity. }
    split.
    { intros k' n'. rewrite (with_get_read s1 k i c _ Hu1 Hlive). simpl. unfold declare.
      destruct (rkey_eqb_spec k' k) as [->|Hne]; [|apply Hr].
      rewrite sdget_dset, String.eqb_sym, translate_meant.
      destruct (String.eqb n' n); [reflexivity|]. simpl.
      rewrite <- Hr. symmetry. apply (read_live s1 k i c n' Hlive). }
    split.
    { intros k' n'. rewrite (with_get_write s1 k i c _ Hu1 Hlive). apply Hwr. }
    split; [exact (only_tables_trans _ _ _ Ho (with_dict_only _ _ _))|].
    split; [exact Hs|].
    split.
    { intros ds Hds0. apply with_dict_declarable; [apply sNoDup_dset; exact Ng|].
      apply Hds. exact Hds0. }
    split; [exact Hkeep|]. split; [exact Hkind|]. exists i, c. exact Hlive.
  - destruct (checker_for_lemma E k s Hpe Hk Hw Hu)
      as (i & c & s1 & Hf & Hlive & Hw1 & Hds & Hr & Hwr & Ho & Hs & Hu1 & Hkeep & Hkind).
    destruct (wf_live s1 k i c Hw1 Hlive) as [Ng Ns].
    exists (with_dict s1 (ck_set c) (dset String.eqb (st_dicts s1 (ck_set c)) n (translate p))).
    split.
    { unfold protectSetAttribute. rewrite (bind_ok _ _ _ _ _ _ Hf).
      rewrite (bind_ok _ _ _ _ _ _ (set_permissions_live s1 k i c Hlive)).
      unfold dict_set, bind, get, put. reflexivity. }
    split.
    { intros k' n'. rewrite (with_set_read s1 k i c _ Hu1 Hlive). apply Hr. }
    split.
    { intros k' n'. rewrite (with_set_write s1 k i c _ Hu1 Hlive). simpl. unfold declare.
      destruct (rkey_eqb_spec k' k) as [->|Hne]; [|apply Hwr].
      rewrite sdget_dset, String.eqb_sym, translate_meant.
      destruct (String.eqb n' n); [reflexivity|]. simpl.
      rewrite <- Hwr. symmetry. apply (write_live s1 k i c n' Hlive). }
    split; [exact (only_tables_trans _ _ _ Ho (with_dict_only _ _ _))|].
    split; [exact Hs|].
    split.
    { intros ds Hds0. apply with_dict_declarable; [apply sNoDup_dset; exact Ns|].
      apply Hds. exact Hds0. }
    split; [exact Hkeep|]. split; [exact Hkind|]. exists i, c. exact Hlive.
  - destruct (Hl k l eq_refl) as [Hn|[iu Hiu]].
    + exists s. split.
      { unfold protectLikeUnto, getCheckerForInstancesOf. unfold bind, get. simpl. rewrite Hn.
        reflexivity. }
      split.
      { intros k' n'. simpl. unfold inherit. destruct (rkey_eqb_spec k' k) as [->|]; [|reflexivity].
        unfold read_protection at 2. rewrite Hn. reflexivity. }
      split.
      { intros k' n'. simpl. unfold inherit. destruct (rkey_eqb_spec k' k) as [->|]; [|reflexivity].
        unfold write_protection at 2. rewrite Hn. reflexivity. }
      split; [apply only_tables_refl|]. split; [intros k' _; reflexivity|].
      split; [auto|]. split; [auto|]. split; [auto|exact I].
    + destruct (Hw l iu Hiu) as (_ & cu & Hcu & _).
      assert (Hlu : live s l iu cu) by (split; assumption).
      destruct (checker_for_lemma E k s Hpe Hk Hw Hu)
        as (i & c & s1 & Hf & Hlive & Hw1 & Hds & Hr & Hwr & Ho & Hs & Hu1 & Hkeep & Hkind).
      pose proof (Hkeep l iu cu Hlu) as Hlu1.
      destruct (wf_live s1 k i c Hw1 Hlive) as [Ng Ns].
      destruct (wf_live s1 l iu cu Hw1 Hlu1) as [Ngu Nsu].
      set (s2 := with_dict s1 (ck_get c)
                   (dupdate String.eqb (st_dicts s1 (ck_get c)) (st_dicts s1 (ck_get cu)))).
      assert (Hw2 : registry_wf s2) by (apply with_dict_wf; [apply sNoDup_dupdate|]; assumption).
      destruct (wf_live s2 k i c Hw2 Hlive) as [Ng2 Ns2].
      destruct (wf_live s2 l iu cu Hw2 Hlu1) as [Ngu2 Nsu2].
      exists (with_dict s2 (ck_set c)
                (dupdate String.eqb (st_dicts s2 (ck_set c)) (st_dicts s2 (ck_set cu)))).
      split.
      { unfold protectLikeUnto, getCheckerForInstancesOf. rewrite bind_assoc, bind_get.
        rewrite Hiu, bind_ret.
        rewrite (bind_ok _ _ _ _ _ _ (get_permissions_live s l iu cu Hlu)).
        rewrite (bind_ok _ _ _ _ _ _ (set_permissions_live s l iu cu Hlu)).
        rewrite (bind_ok _ _ _ _ _ _ Hf).
        rewrite (bind_ok _ _ _ _ _ _ (get_permissions_live s1 k i c Hlive)).
        assert (H2 : dict_copy (ck_get c) (ck_get cu) s1 = (Ok tt, s2, []))
          by (unfold dict_copy, bind, get, put; reflexivity).
        rewrite (bind_ok _ _ _ _ _ _ H2).
        rewrite (bind_ok _ _ _ _ _ _ (set_permissions_live s2 k i c Hlive)).
        unfold dict_copy, bind, get, put. reflexivity. }
      assert (Hr2 : forall k' n, read_protection s2 k' n =
                inherit (read_protection s) k l k' n).
      { intros k' n'. unfold s2. rewrite (with_get_read s1 k i c _ Hu1 Hlive). unfold inherit.
        destruct (rkey_eqb_spec k' k) as [->|Hne]; [|apply Hr].
        rewrite (dget_copy _ _ _ Ngu).
        rewrite <- (read_live s1 l iu cu n' Hlu1), <- (read_live s1 k i c n' Hlive), !Hr.
        reflexivity. }
      assert (Hwr2 : forall k' n, write_protection s2 k' n = write_protection s k' n).
      { intros k' n'. unfold s2. rewrite (with_get_write s1 k i c _ Hu1 Hlive). apply Hwr. }
      split.
      { intros k' n'. rewrite (with_set_read s2 k i c _ Hu1 Hlive). apply Hr2. }
      split.
      { intros k' n'. rewrite (with_set_write s2 k i c _ Hu1 Hlive).
        unfold declared_write, inherit.
        destruct (rkey_eqb_spec k' k) as [->|Hne]; [|apply Hwr2].
        rewrite (dget_copy _ _ _ Nsu2).
        rewrite <- (write_live s2 l iu cu n' Hlu1), <- (write_live s2 k i c n' Hlive), !Hwr2.
        reflexivity. }
      split; [exact (only_tables_trans _ _ _ Ho
                (only_tables_trans _ _ _ (with_dict_only s1 (ck_get c) _)
                                         (with_dict_only s2 (ck_set c) _)))|].
      split; [exact Hs|].
      split.
      { intros ds Hds0. apply with_dict_declarable; [apply sNoDup_dupdate; exact Ns2|].
        apply with_dict_declarable; [apply sNoDup_dupdate; exact Ng|]. apply Hds. exact Hds0. }
      split; [exact Hkeep|]. split; [exact Hkind|exact I].
Qed.

(** ** Histories *)

Lemma declared_read_ext d f g :
  (forall k n, f k n = g k n) -> forall k n, declared_read d f k n = declared_read d g k n.
Proof.
  intros H k n. destruct d; simpl; unfold declare, inherit; rewrite ?H; reflexivity.
Qed.
Lemma declared_write_ext d f g :
  (forall k n, f k n = g k n) -> forall k n, declared_write d f k n = declared_write d g k n.
Proof.
  intros H k n. destruct d; simpl; unfold declare, inherit; rewrite ?H; reflexivity.
Qed.
Lemma declared_reads_ext ds : forall f g,
  (forall k n, f k n = g k n) -> forall k n, declared_reads ds f k n = declared_reads ds g k n.
Proof.
  induction ds as [|d ds IH]; simpl; auto. intros f g H. apply IH.
  apply declared_read_ext. exact H.
Qed.
Lemma declared_writes_ext ds : forall f g,
  (forall k n, f k n = g k n) -> forall k n, declared_writes ds f k n = declared_writes ds g k n.
Proof.
  induction ds as [|d ds IH]; simpl; auto. intros f g H. apply IH.
  apply declared_write_ext. exact H.
Qed.

Lemma declarable_cons d ds s : declarable (d :: ds) s -> declarable [d] s /\ declarable ds s.
Proof.
  intros [Hw Hd]. split; (split; [exact Hw|]); intros d' Hin; apply Hd.
  - destruct Hin as [<-|[]]. left. reflexivity.
  - right. exact Hin.
Qed.

Lemma run_decls_lemma E ds : forall s,
  declarable ds s ->
  exists s', run_decls E ds s = (Ok tt, s', []) /\
    (forall k n, read_protection s' k n = declared_reads ds (read_protection s) k n) /\
    (forall k n, write_protection s' k n = declared_writes ds (write_protection s) k n) /\
    only_tables s s' /\
    (forall k, ~ In k (map target ds) ->
       dget rkey_eqb (st_reg s') k = dget rkey_eqb (st_reg s) k) /\
    (forall ds', declarable ds' s -> declarable ds' s') /\
    (forall k' i' c', live s k' i' c' -> live s' k' i' c') /\
    (forall k' i' c', live s' k' i' c' -> live s k' i' c' \/
       ck_kind c' = Checker_class E /\ i' <> default_cid) /\
    (forall d, In d ds -> (forall k l, d <> DLike k l) -> exists i c, live s' (target d) i c).
Proof.
  induction ds as [|d ds IH]; intros s Hd.
  - exists s. split; [reflexivity|]. split; [reflexivity|]. split; [reflexivity|].
    split; [apply only_tables_refl|]. split; [auto|]. split; [auto|]. split; [auto|].
    split; [auto|]. intros d [].
  - destruct (declarable_cons d ds s Hd) as [H1 H2].
    destruct (run_decl_lemma E d s H1) as (s1 & Hrun & Hr & Hw & Ho & Hs & Hds & Hkeep & Hkind & Hlv).
    destruct (IH s1 (Hds ds H2)) as (s2 & Hrun2 & Hr2 & Hw2 & Ho2 & Hs2 & Hds2 & Hkeep2 & Hkind2 & Hlv2).
    exists s2. split.
    { simpl. rewrite (bind_ok _ _ _ _ _ _ Hrun), Hrun2. reflexivity. }
    split.
    { intros k n. rewrite Hr2. simpl. apply (declared_reads_ext ds). exact Hr. }
    split.
    { intros k n. rewrite Hw2. simpl. apply (declared_writes_ext ds). exact Hw. }
    split; [exact (only_tables_trans _ _ _ Ho Ho2)|]. split.
    { intros k Hk. rewrite Hs2 by (intros Hin; apply Hk; right; exact Hin).
      apply Hs. intros ->. apply Hk. left. reflexivity. }
    split; [intros ds' H'; apply Hds2, Hds; exact H'|].
    split; [intros k' i' c' H'; apply Hkeep2, Hkeep; exact H'|].
    split.
    { intros k' i' c' H'. destruct (Hkind2 _ _ _ H') as [H0|H0]; [|right; exact H0].
      apply Hkind. exact H0. }
    intros d' [<-|Hin] Hnl; [|exact (Hlv2 d' Hin Hnl)].
    assert (Hex : exists i c, live s1 (target d) i c).
    { destruct d; [exact Hlv|exact Hlv|]. exfalso. exact (Hnl _ _ eq_refl). }
    destruct Hex as (i & c & Hl). exists i, c. apply Hkeep2. exact Hl.
Qed.

(** A class that is no target of the declarations keeps its protection. *)
Lemma declared_other ds k : forall f n,
  ~ In k (map target ds) ->
  declared_reads ds f k n = f k n /\ declared_writes ds f k n = f k n.
Proof.
  induction ds as [|d ds IH]; intros f n Hk; [split; reflexivity|].
  assert (Hd : k <> target d) by (intros ->; apply Hk; left; reflexivity).
  assert (Hin : ~ In k (map target ds)) by (intros Hin; apply Hk; right; exact Hin).
  destruct (IH (declared_read d f) n Hin) as [Hr _].
  destruct (IH (declared_write d f) n Hin) as [_ Hw]. simpl. rewrite Hr, Hw.
  destruct d; simpl in *; unfold declare, inherit;
    destruct (rkey_eqb_spec k k0); try congruence; split; reflexivity.
Qed.

Lemma like_copies_lemma E a b ds s :
  declarable (DLike a b :: ds) s -> ~ In a (map target ds) ->
  exists s', run_decls E (DLike a b :: ds) s = (Ok tt, s', []) /\
    forall n,
      read_protection s' a n =
        match read_protection s b n with Some p => Some p | None => read_protection s a n end /\
      write_protection s' a n =
        match write_protection s b n with Some p => Some p | None => write_protection s a n end.
Proof.
  intros Hd Hin. destruct (run_decls_lemma E _ s Hd) as (s' & Hrun & Hr & Hw & _).
  exists s'. split; [exact Hrun|]. intros n. rewrite Hr, Hw. simpl.
  destruct (declared_other ds a (inherit (read_protection s) a b) n Hin) as [-> _].
  destruct (declared_other ds a (inherit (write_protection s) a b) n Hin) as [_ ->].
  unfold inherit. rewrite (dict_eqb_refl rkey_eqb rkey_eqb_spec). split; reflexivity.
Qed.

Lemma like_source_lemma E a b ds s :
  a <> b -> declarable (DLike a b :: ds) s -> ~ In b (map target ds) ->
  exists s', run_decls E (DLike a b :: ds) s = (Ok tt, s', []) /\
    forall n, read_protection s' b n = read_protection s b n /\
              write_protection s' b n = write_protection s b n.
Proof.
  intros Hne Hd Hin. destruct (run_decls_lemma E _ s Hd) as (s' & Hrun & Hr & Hw & _).
  exists s'. split; [exact Hrun|]. intros n. rewrite Hr, Hw.
  assert (Hin2 : ~ In b (map target (DLike a b :: ds))).
  { intros [H|H]; [exact (Hne H)|exact (Hin H)]. }
  destruct (declared_other (DLike a b :: ds) b (read_protection s) n Hin2) as [-> _].
  destruct (declared_other (DLike a b :: ds) b (write_protection s) n Hin2) as [_ ->].
  split; reflexivity.
Qed.

Lemma like_missing_lemma E a b s :
  dget rkey_eqb (st_reg s) b = None -> protectLikeUnto E a b s = (Ok tt, s, []).
Proof.
  intros H. unfold protectLikeUnto, getCheckerForInstancesOf, bind, get. simpl. rewrite H.
  reflexivity.
Qed.

(** Whatever is shared: declaring on one class changes exactly the classes whose
    checker uses the same dictionary. *)
Lemma protectName_exact_lemma E a i c n p s :
  live s a i c ->
  exists s', protectName E a n p s = (Ok tt, s', []) /\
    forall k i' c', live s k i' c' ->
      live s' k i' c' /\
      forall n', read_protection s' k n' =
        if Nat.eqb (ck_get c') (ck_get c) && String.eqb n' n then Some (meant p)
        else read_protection s k n'.
Proof.
  intros Hl. pose proof Hl as [H1 H2].
  exists (with_dict s (ck_get c) (dset String.eqb (st_dicts s (ck_get c)) n (translate p))).
  split.
  { unfold protectName, checker_for, getCheckerForInstancesOf.
    rewrite bind_assoc, bind_assoc, bind_get, H1, bind_ret. simpl.
    rewrite bind_ret, (bind_ok _ _ _ _ _ _ (get_permissions_live s a i c Hl)).
    unfold dict_set, bind, get, put. reflexivity. }
  intros k i' c' Hl'. split; [exact Hl'|]. intros n'.
  assert (Hl2 : live (with_dict s (ck_get c)
                  (dset String.eqb (st_dicts s (ck_get c)) n (translate p))) k i' c')
    by exact Hl'.
  rewrite (read_live _ _ _ _ n' Hl2), (read_live s _ _ _ n' Hl'). simpl. unfold upd.
  destruct (Nat.eqb_spec (ck_get c') (ck_get c)) as [Heq|]; [|reflexivity].
  rewrite sdget_dset, String.eqb_sym, translate_meant, Heq. reflexivity.
Qed.

(** protectModule is protectName with a module. *)
Lemma protectModule_eq E k n p s : protectModule E k n p s = protectName E k n p s.
Proof.
  unfold protectModule, protectName, checker_for, moduleChecker, getCheckerForInstancesOf.
  rewrite !bind_assoc, !bind_get, !bind_ret. reflexivity.
Qed.

(** ** The declared protection is what proxies of instances enforce *)

Lemma enforced_lemma E ds s cls obj :
  e_watch E = 0 -> declarable ds s -> dget rkey_eqb (st_reg s) (KType cls) = None ->
  (exists d, In d ds /\ target d = KType cls /\ forall k l, d <> DLike k l) ->
  no_none (declared_reads ds (read_protection s) (KType cls)) ->
  no_none (declared_writes ds (write_protection s) (KType cls)) ->
  exists s' c, run_decls E ds s = (Ok tt, s', []) /\
    (concrete_type E s' obj = cls ->
     forall f, do_select E (S f) obj s' = (Ok (Some c), s', [])) /\
    (forall f m n r s2 tr, m <> MSetattr -> (n = "__iter__" -> plain_object obj) ->
       do_check E (S (S f)) m c obj n s' = (r, s2, tr) ->
       ReadCheck E s' (declared_reads ds (read_protection s) (KType cls)) obj n r s2 tr) /\
    (forall f n r s2 tr, do_check E (S f) MSetattr c obj n s' = (r, s2, tr) ->
       WriteCheck E s' (declared_writes ds (write_protection s) (KType cls)) obj n r s2 tr).
Proof.
  intros HW Hd Hnone (d & Hin & Htg & Hnl) Hnr Hnw.
  destruct (run_decls_lemma E ds s Hd) as (s' & Hrun & Hr & Hw & _ & _ & _ & _ & Hkind & Hlv).
  destruct (Hlv d Hin Hnl) as (i & k & Hl). rewrite Htg in Hl.
  assert (Hk : ck_kind k = CkPlain /\ i <> default_cid).
  { destruct (Hkind _ _ _ Hl) as [[H0 _]|[H0 Hi]]; [congruence|].
    rewrite H0. unfold Checker_class. rewrite HW. split; [reflexivity|exact Hi]. }
  destruct Hk as [Hk Hi]. pose proof Hl as [H1 H2].
  assert (Hp : PlainChecker s' (VChk i) (st_dicts s' (ck_get k)) (st_dicts s' (ck_set k))).
  { exists i, k. repeat split; auto. }
  assert (Htr : forall n, table_of (st_dicts s' (ck_get k)) n =
                          declared_reads ds (read_protection s) (KType cls) n).
  { intros n. rewrite <- Hr. symmetry. apply (read_live s' _ _ _ n Hl). }
  assert (Htw : forall n, table_of (st_dicts s' (ck_set k)) n =
                          declared_writes ds (write_protection s) (KType cls) n).
  { intros n. rewrite <- Hw. symmetry. apply (write_live s' _ _ _ n Hl). }
  exists s', (VChk i). split; [exact Hrun|]. split.
  { intros Hty f.
    assert (Hreg : registered E s' obj = VChk i).
    { unfold registered. rewrite type_of_spec, Hty, H1. reflexivity. }
    assert (Hset : settled E s' obj).
    { unfold settled, registered_for. rewrite Hty, H1. right. exact I. }
    rewrite (do_select_settled E f obj s' Hset), Hreg.
    change (value_eqb (VChk i) VNoProxy) with false.
    destruct (value_eqb_spec (VChk i) (VChk default_cid)) as [Heq|Hne];
      [inversion Heq; congruence|].
    rewrite andb_false_r. simpl. unfold settled_outcome, is_Checker. rewrite H2, HW.
    destruct (e_cimpl E); reflexivity. }
  split.
  - intros f m n r s2 tr Hm Hit Hck.
    eapply ReadCheck_ext; [apply Htr|].
    eapply check_exact_lemma; [exact Hp|exact Hm| |exact Hit|exact Hck].
    intros n'. rewrite Htr. apply Hnr.
  - intros f n r s2 tr Hck.
    eapply WriteCheck_ext; [apply Htw|].
    eapply check_setattr_exact_lemma; [exact Hp| |exact Hck].
    intros n'. rewrite Htw. apply Hnw.
Qed.

Lemma declared_lemma E ds s :
  declarable ds s ->
  exists s', run_decls E ds s = (Ok tt, s', []) /\
    (forall k n, read_protection s' k n = declared_reads ds (read_protection s) k n) /\
    (forall k n, write_protection s' k n = declared_writes ds (write_protection s) k n) /\
    only_tables s s' /\
    (forall k, ~ In k (map target ds) ->
       dget rkey_eqb (st_reg s') k = dget rkey_eqb (st_reg s) k).
Proof.
  intros Hd. destruct (run_decls_lemma E ds s Hd) as (s' & H1 & H2 & H3 & H4 & H5 & _).
  exists s'. repeat split; assumption.
Qed.
