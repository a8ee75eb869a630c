(** * DeclThreadSeq: the programs of DeclThreads, run alone, are the functions of Protect. *)

From Coq Require Import List String Bool Arith Lia.
From Verif Require Import Base Domain CheckerModel MFacts RegistryFacts TableFacts Protect ProtectSpec
  ProtectFacts DeclThreads.
Import ListNotations.
Open Scope string_scope.

Definition result {A} (x : res A * state * list event) : res A * state := fst x.

Lemma dexec_tbind E {A B} (p : dprog (res A)) (g : A -> dprog (res B)) : forall s,
  dexec E (tbind p g) s =
  match dexec E p s with
  | (Ok a, s1) => dexec E (g a) s1
  | (Exc e, s1) => (Exc e, s1)
  end.
Proof. induction p as [[]| | | | | | | |]; intros s; simpl; auto. Qed.

Lemma result_bind {A B} (m : M A) (f : A -> M B) s :
  result (bind m f s) =
  match result (m s) with
  | (Ok a, s1) => result (f a s1)
  | (Exc e, s1) => (Exc e, s1)
  end.
Proof.
  unfold bind, result. destruct (m s) as [[[a|e] s1] t]; simpl; [|reflexivity].
  destruct (f a s1) as [[r s2] t2]. reflexivity.
Qed.

Lemma define_alone E k c s : dexec E (p_defineChecker k c) s = result (defineChecker k c s).
Proof.
  unfold p_defineChecker, defineChecker. destruct k; try reflexivity; simpl;
    unfold bind, get, result; simpl; destruct (dget rkey_eqb (st_reg s) _); reflexivity.
Qed.

Lemma checker_for_alone E k s : dexec E (p_checker_for k) s = result (checker_for E k s).
Proof.
  assert (Hnew : dexec E (p_new_checker k) s =
    result (bind (Checker_new E [] []) (fun c' => bind (defineChecker k c') (fun _ => ret c')) s)).
  { unfold p_new_checker. cbn [dexec]. rewrite dexec_tbind, define_alone, result_bind.
    destruct (Checker_new_eq E [] [] s) as (s1 & H1 & H2). rewrite H1. unfold result at 2. cbn [fst].
    rewrite result_bind, H2. change (set_chks _ _) with (new_checker E s).
    destruct (result (defineChecker k _ _)) as [[|] ?]; reflexivity. }
  unfold p_checker_for, checker_for. cbn [dexec]. rewrite result_bind.
  change (result (getCheckerForInstancesOf k s)) with
    (Ok (match dget rkey_eqb (st_reg s) k with Some v => v | None => VNone end), s).
  cbv iota beta.
  destruct (dget rkey_eqb (st_reg s) k) as [[]|]; try reflexivity; exact Hnew.
Qed.

Lemma get_table_alone c s : result (get_permissions c s) = (table_of_checker false c s, s).
Proof.
  destruct c; try reflexivity. unfold get_permissions, bind, get, result. simpl.
  destruct (st_chks s c); reflexivity.
Qed.
Lemma set_table_alone c s : result (set_permissions c s) = (table_of_checker true c s, s).
Proof.
  destruct c; try reflexivity. unfold set_permissions, bind, get, result. simpl.
  destruct (st_chks s c); reflexivity.
Qed.

Lemma dexec_table E w c s : dexec E (p_table w c) s = (table_of_checker w c s, s).
Proof. reflexivity. Qed.

Lemma protect_alone E w k n q s :
  dexec E (p_protect w k n q) s =
  result ((if w then protectSetAttribute E else protectName E) k n q s).
Proof.
  unfold p_protect. rewrite dexec_tbind, checker_for_alone.
  destruct w; unfold protectSetAttribute, protectName; rewrite result_bind;
    destruct (result (checker_for E k s)) as [[c|e] s1]; try reflexivity;
    unfold p_store; rewrite dexec_tbind, dexec_table, result_bind.
  - rewrite set_table_alone. destruct (table_of_checker true c s1); reflexivity.
  - rewrite get_table_alone. destruct (table_of_checker false c s1); reflexivity.
Qed.

(** ** Copying *)

Lemma dset_same (d : list (name * perm)) n v : dget String.eqb d n = Some v -> dset String.eqb d n v = d.
Proof.
  induction d as [|[n' v'] d IH]; simpl; [discriminate|]. destruct (String.eqb n' n).
  - intros [= ->]. reflexivity.
  - intros H. rewrite IH by exact H. reflexivity.
Qed.

Lemma nodup_item (a b : list (name * perm)) n v : NoDup (map fst (a ++ (n, v) :: b)) ->
  dget String.eqb (a ++ (n, v) :: b) n = Some v.
Proof.
  intros H. apply (dget_NoDup_In String.eqb String.eqb_spec _ _ _ H). apply in_or_app. right. left. reflexivity.
Qed.

(** Equal but for the representation of the dictionaries. *)
Definition same_state (s s' : state) : Prop :=
  (forall i, st_dicts s i = st_dicts s' i) /\ s = set_dicts (st_dicts s) s'.

Lemma same_refl s : same_state s s.
Proof. split; [reflexivity|]. destruct s. reflexivity. Qed.
Lemma same_trans s1 s2 s3 : same_state s1 s2 -> same_state s2 s3 -> same_state s1 s3.
Proof.
  intros [A1 B1] [A2 B2]. split; [intros i; rewrite A1; apply A2|].
  rewrite B1, B2. destruct s3. reflexivity.
Qed.

Lemma loop_alone E dst src D : NoDup (map fst D) -> forall post pre s,
  D = (pre ++ post)%list -> st_dicts s src = D ->
  exists s1, dexec E (p_loop dst src (List.length D) (List.length post) (List.length pre)) s = (Ok tt, s1) /\
    same_state s1 (set_dicts (upd (st_dicts s) dst (dupdate String.eqb (st_dicts s dst) post)) s).
Proof.
  intros Hnd. induction post as [|[n v] post IH]; intros pre s HD Hs; cbn [p_loop List.length dexec];
    unfold next_key; rewrite Hs, Nat.eqb_refl; rewrite HD.
  - assert (Hn : nth_error (map fst (pre ++ [])) (List.length pre) = None).
    { apply nth_error_None. rewrite app_nil_r, map_length. apply le_n. }
    rewrite Hn. exists s. split; [reflexivity|]. split; [|destruct s; reflexivity].
    intros i. simpl. unfold upd. destruct (Nat.eqb_spec i dst) as [->|]; reflexivity.
  - assert (Hn : nth_error (map fst (pre ++ (n, v) :: post)) (List.length pre) = Some n).
    { rewrite map_app, nth_error_app2, map_length, Nat.sub_diag by (rewrite map_length; apply le_n). reflexivity. }
    rewrite Hn. cbn [dexec]. unfold item. rewrite Hs, HD.
    rewrite HD in Hnd. rewrite (nodup_item pre post n v Hnd). cbn [dexec].
    set (s' := set_dicts (upd (st_dicts s) dst (dset String.eqb (st_dicts s dst) n v)) s).
    destruct (IH (pre ++ [(n, v)])%list s') as (s1 & H1 & H2).
    + rewrite <- app_assoc. exact HD.
    + simpl. unfold upd. destruct (Nat.eqb_spec src dst) as [<-|]; [|exact Hs].
      rewrite Hs. apply dset_same. rewrite HD. apply nodup_item. exact Hnd.
    + exists s1. split.
      { rewrite <- H1, <- HD, app_length. simpl. rewrite Nat.add_1_r. reflexivity. }
      apply (same_trans _ _ _ H2). unfold s'. split; [|destruct s; reflexivity].
      intros i. simpl. unfold upd. destruct (Nat.eqb_spec i dst) as [->|]; [|reflexivity].
      rewrite Nat.eqb_refl. reflexivity.
Qed.

Lemma copy_alone E dst src s : NoDup (map fst (st_dicts s src)) ->
  exists s1, dexec E (p_copy dst src) s = (Ok tt, s1) /\
    same_state s1 (set_dicts (upd (st_dicts s) dst
                     (dupdate String.eqb (st_dicts s dst) (st_dicts s src))) s).
Proof.
  intros Hn. exact (loop_alone E dst src (st_dicts s src) Hn (st_dicts s src) [] s eq_refl eq_refl).
Qed.

Lemma same_table w c s s' : same_state s s' -> table_of_checker w c s = table_of_checker w c s'.
Proof. intros [_ ->]. reflexivity. Qed.

Lemma like_alone E k l s : registry_wf s -> declarable [DLike k l] s ->
  exists s1, dexec E (p_like k l) s = (Ok tt, s1) /\
    same_state s1 (snd (result (protectLikeUnto E k l s))) /\
    fst (result (protectLikeUnto E k l s)) = Ok tt.
Proof.
  intros _ [Hw Hd]. destruct (Hd _ (or_introl eq_refl)) as (Hk & Hpe & Hu & Hpl).
  simpl in Hk, Hpe, Hu. specialize (Hpl k l eq_refl).
  unfold p_like, protectLikeUnto. cbn [dexec]. rewrite result_bind.
  change (result (getCheckerForInstancesOf l s)) with
    (Ok (match dget rkey_eqb (st_reg s) l with Some v => v | None => VNone end), s).
  cbv iota beta.
  destruct Hpl as [Hn|[iu Hiu]]; [rewrite Hn; exists s; split; [reflexivity|]; split; [apply same_refl|reflexivity]|].
  rewrite Hiu. destruct (Hw l iu Hiu) as (_ & cu & Hcu & _ & _ & Ngu & Nsu).
  assert (Hlu : live s l iu cu) by (split; assumption).
  rewrite dexec_tbind, dexec_table, result_bind, get_table_alone.
  assert (Tg : table_of_checker false (VChk iu) s = Ok (ck_get cu)) by (simpl; rewrite Hcu; reflexivity).
  assert (Ts : table_of_checker true (VChk iu) s = Ok (ck_set cu)) by (simpl; rewrite Hcu; reflexivity).
  rewrite Tg. rewrite dexec_tbind, dexec_table, result_bind, set_table_alone, Ts.
  rewrite dexec_tbind, checker_for_alone, result_bind.
  destruct (checker_for_lemma E k s Hpe Hk Hw Hu)
    as (i & c & s1 & Hf & Hlive & Hw1 & _ & _ & _ & _ & _ & _ & Hkeep & _).
  rewrite Hf. change (result (Ok (VChk i), s1, [])) with (Ok (VChk i), s1). cbv iota beta.
  assert (Hlu1 := Hkeep _ _ _ Hlu). destruct (wf_live s1 l iu cu Hw1 Hlu1) as [Ng Ns].
  rewrite dexec_tbind, dexec_table, result_bind, get_table_alone.
  assert (Tc : forall w, table_of_checker w (VChk i) s1 = Ok (if w then ck_set c else ck_get c)).
  { intros w. simpl. rewrite (proj2 Hlive). reflexivity. }
  rewrite Tc. rewrite dexec_tbind, result_bind.
  destruct (copy_alone E (ck_get c) (ck_get cu) s1 Ng) as (s2 & H2 & S2). rewrite H2.
  set (t2 := set_dicts (upd (st_dicts s1) (ck_get c)
               (dupdate String.eqb (st_dicts s1 (ck_get c)) (st_dicts s1 (ck_get cu)))) s1) in *.
  change (result (dict_copy (ck_get c) (ck_get cu) s1)) with (Ok tt, t2). cbv iota beta.
  rewrite dexec_tbind, dexec_table, result_bind, set_table_alone.
  rewrite (same_table true (VChk i) s2 t2 S2).
  change (table_of_checker true (VChk i) t2) with (table_of_checker true (VChk i) s1). rewrite Tc.
  assert (N2 : NoDup (map fst (st_dicts s2 (ck_set cu)))).
  { rewrite (proj1 S2). simpl. unfold upd. destruct (Nat.eqb _ _); [|exact Ns].
    apply sNoDup_dupdate. exact (proj1 (wf_live s1 k i c Hw1 Hlive)). }
  destruct (copy_alone E (ck_set c) (ck_set cu) s2 N2) as (s3 & H3 & S3).
  exists s3. split; [exact H3|]. split; [|reflexivity].
  apply (same_trans _ _ _ S3). unfold result. simpl. destruct S2 as [A B].
  split; [|rewrite B; destruct s1; reflexivity].
  intros j.
  change (upd (st_dicts s2) (ck_set c)
            (dupdate String.eqb (st_dicts s2 (ck_set c)) (st_dicts s2 (ck_set cu))) j =
          upd (st_dicts t2) (ck_set c)
            (dupdate String.eqb (st_dicts t2 (ck_set c)) (st_dicts t2 (ck_set cu))) j).
  unfold upd. destruct (Nat.eqb j (ck_set c)); rewrite !A; reflexivity.
Qed.

Lemma alone_lemma E d s : declarable [d] s ->
  exists s1 s2, dexec E (p_decl d) s = (Ok tt, s1) /\ run_decl E d s = (Ok tt, s2, []) /\
    same_state s1 s2.
Proof.
  intros Hd. destruct (run_decl_lemma E d s Hd) as (s2 & H2 & _).
  destruct d as [k n q|k n q|k l]; simpl in H2; simpl p_decl; simpl run_decl.
  - exists s2, s2. rewrite (protect_alone E false), H2. split; [reflexivity|]. split; [reflexivity|apply same_refl].
  - exists s2, s2. rewrite (protect_alone E true), H2. split; [reflexivity|]. split; [reflexivity|apply same_refl].
  - destruct (like_alone E k l s (proj1 Hd) Hd) as (s1 & H1 & HS & _). exists s1, s2.
    split; [exact H1|]. split; [exact H2|]. rewrite H2 in HS. exact HS.
Qed.
