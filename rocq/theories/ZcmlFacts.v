(** * ZcmlFacts: proofs about ZCML processing and execution. *)

From Coq Require Import List String Bool Arith ZArith Lia Permutation.
From Verif Require Import Base Domain CheckerModel MFacts Management Protect ProtectSpec
  ProtectFacts Zcml ZcmlSpec.
Import ListNotations.
Open Scope string_scope.

(** ** What a list of actions says *)

Definition claim_of (d : discr) : list claim :=
  match d with
  | DiProtectName k n => [ClRead k n]
  | DiProtectSet k n => [ClWrite k n]
  | DiModule k n => [ClModule k n]
  | DiPolicy => [ClPolicy]
  | DiUtility "IPermission" n => [ClPermission n]
  | DiUtility "IFactory" n => [ClFactory n]
  | _ => []
  end.
Definition unique_of (d : discr) : list nat :=
  match d with DiContent _ u | DiMimic _ u => [u] | _ => [] end.
Definition discrs (l : list action) : list discr :=
  flat_map (fun a => match a_discr a with Some d => [d] | None => [] end) l.
Definition claims_in (l : list action) : list claim := flat_map claim_of (discrs l).
Definition uniques (l : list action) : list nat := flat_map unique_of (discrs l).
Definition decl_of (c : acall) : list decl :=
  match c with
  | ALike k l => [DLike k l]
  | AName k n p | AModule k n p => [DName k n p]
  | ASet k n p => [DSet k n p]
  | _ => []
  end.
Definition decls_in (l : list action) : list decl := flat_map (fun a => decl_of (a_call a)) l.
Definition perms_in (l : list action) : list (string * string) :=
  flat_map (fun a => match a_call a with APermission i t => [(i, t)] | _ => [] end) l.
Definition policies_in (l : list action) (p : policy) : policy :=
  fold_left (fun p a => match a_call a with APolicy q => q | _ => p end) l p.
Definition early (l : list action) : list action := filter (fun a => negb (a_late a)) l.
Definition late (l : list action) : list action := filter a_late l.

Lemma discrs_app a b : discrs (a ++ b) = (discrs a ++ discrs b)%list.
Proof. unfold discrs. apply flat_map_app. Qed.
Lemma claims_app a b : claims_in (a ++ b) = (claims_in a ++ claims_in b)%list.
Proof. unfold claims_in. rewrite discrs_app. apply flat_map_app. Qed.
Lemma uniques_app a b : uniques (a ++ b) = (uniques a ++ uniques b)%list.
Proof. unfold uniques. rewrite discrs_app. apply flat_map_app. Qed.
Lemma decls_app a b : decls_in (a ++ b) = (decls_in a ++ decls_in b)%list.
Proof. unfold decls_in. apply flat_map_app. Qed.
Lemma perms_app a b : perms_in (a ++ b) = (perms_in a ++ perms_in b)%list.
Proof. unfold perms_in. apply flat_map_app. Qed.
Lemma policies_app a b p : policies_in (a ++ b) p = policies_in b (policies_in a p).
Proof. unfold policies_in. apply fold_left_app. Qed.

(** Discriminators are of the kinds that arise. *)
Definition usual (d : discr) : Prop :=
  match d with
  | DiUtility p _ => p = "IPermission" \/ p = "IFactory"
  | _ => True
  end.

Lemma usual_cases d : usual d ->
  (exists c, claim_of d = [c] /\ unique_of d = []) \/
  (exists u, claim_of d = [] /\ unique_of d = [u]).
Proof.
  destruct d; simpl; intros H; eauto.
  destruct H as [->| ->]; eauto.
Qed.

Lemma claim_of_inj d d' c :
  usual d -> usual d' -> claim_of d = [c] -> claim_of d' = [c] -> d = d'.
Proof.
  intros H H' Hc Hc'.
  destruct d; destruct d'; simpl in *; try discriminate;
    try (destruct H as [->| ->]; simpl in Hc);
    try (destruct H' as [->| ->]; simpl in Hc'); congruence.
Qed.

Lemma discr_eqb_spec a b : reflect (a = b) (discr_eqb a b).
Proof.
  destruct a as [k u|k u|k n|k n|k n| |p n]; destruct b as [k' u'|k' u'|k' n'|k' n'|k' n'| |p' n'];
    simpl; try (constructor; congruence);
    try (destruct (rkey_eqb_spec k k'); simpl; [|constructor; congruence]);
    try (destruct (Nat.eqb_spec u u'); constructor; congruence);
    try (destruct (String.eqb_spec p p'); simpl; [|constructor; congruence]);
    destruct (String.eqb_spec n n'); constructor; congruence.
Qed.

Lemma conflict_spec l : conflict l = false <-> NoDup (discrs l).
Proof.
  induction l as [|a l IH]; simpl.
  { split; [constructor|reflexivity]. }
  unfold discrs. simpl. fold (discrs l). destruct (a_discr a) as [d|]; [|exact IH].
  simpl. rewrite orb_false_iff, IH. rewrite NoDup_cons_iff.
  split; intros [H1 H2]; split; auto.
  - intros Hin. apply not_true_iff_false in H1. apply H1. apply existsb_exists.
    unfold discrs in Hin. apply in_flat_map in Hin. destruct Hin as (b & Hb & Hd).
    exists b. split; [exact Hb|]. destruct (a_discr b) as [d'|]; [|destruct Hd].
    destruct Hd as [->|[]]. destruct (discr_eqb_spec d d); congruence.
  - apply not_true_iff_false. intros He. apply existsb_exists in He. destruct He as (b & Hb & Hd).
    apply H1. unfold discrs. apply in_flat_map. exists b. split; [exact Hb|].
    destruct (a_discr b) as [d'|]; [|discriminate]. destruct (discr_eqb_spec d d'); [|discriminate].
    subst. left. reflexivity.
Qed.

(** Discriminators are distinct exactly if the claims are and the unique ones are. *)
Lemma discrs_nodup l :
  (forall d, In d (discrs l) -> usual d) -> NoDup (uniques l) ->
  (NoDup (discrs l) <-> NoDup (claims_in l)).
Proof.
  unfold claims_in, uniques. generalize (discrs l). clear l.
  induction l as [|d l IH]; intros Hu Hn; simpl; [split; constructor|].
  simpl in Hn.
  assert (Hn' : NoDup (flat_map unique_of l)).
  { destruct (usual_cases d (Hu d (or_introl eq_refl))) as [(c & _ & Hq)|(u & _ & Hq)];
      rewrite Hq in Hn; simpl in Hn; [exact Hn|]. inversion Hn; assumption. }
  assert (IH' := IH (fun d' Hd => Hu d' (or_intror Hd)) Hn').
  rewrite NoDup_cons_iff.
  destruct (usual_cases d (Hu d (or_introl eq_refl))) as [(c & Hc & Hq)|(u & Hc & Hq)];
    rewrite Hc; simpl.
  - rewrite NoDup_cons_iff, IH'. split; intros [H1 H2]; split; auto.
    + intros Hin. apply H1. apply in_flat_map in Hin. destruct Hin as (d' & Hd' & Hcd).
      assert (Hu' := Hu d' (or_intror Hd')).
      destruct (usual_cases d' Hu') as [(c' & Hc' & _)|(u & Hc' & _)]; rewrite Hc' in Hcd;
        [|destruct Hcd]. destruct Hcd as [->|[]].
      rewrite (claim_of_inj d d' c (Hu d (or_introl eq_refl)) Hu' Hc Hc'). exact Hd'.
    + intros Hin. apply H1. apply in_flat_map. exists d. rewrite Hc. simpl. auto.
  - rewrite IH'. split; [intros [_ H]; exact H|]. intros H. split; [|exact H].
    intros Hin. rewrite Hq in Hn. simpl in Hn. inversion Hn as [|x y Hx Hy]. apply Hx.
    apply in_flat_map. exists d. rewrite Hq. simpl. auto.
Qed.

(** ** Executing declarations *)

Lemma run_decls_app E a b s s1 :
  run_decls E a s = (Ok tt, s1, []) -> run_decls E (a ++ b) s = run_decls E b s1.
Proof.
  revert s. induction a as [|d a IH]; simpl; intros s H.
  - inversion H. reflexivity.
  - unfold bind in *. destruct (run_decl E d s) as [[r s0] t0]. destruct r as [x|e].
    + destruct (run_decls E a s0) as [[r1 s1'] t1] eqn:He. inversion H; subst.
      apply app_eq_nil in H3. destruct H3 as [-> ->].
      rewrite (IH s0 He). destruct (run_decls E b s1) as [[? ?] ?]. reflexivity.
    + discriminate.
Qed.

Lemma declared_reads_app a b : forall f,
  declared_reads (a ++ b) f = declared_reads b (declared_reads a f).
Proof. induction a as [|d a IH]; simpl; intros f; [reflexivity|apply IH]. Qed.
Lemma declared_writes_app a b : forall f,
  declared_writes (a ++ b) f = declared_writes b (declared_writes a f).
Proof. induction a as [|d a IH]; simpl; intros f; [reflexivity|apply IH]. Qed.

Lemma declarable_app a b s : declarable a s -> declarable b s -> declarable (a ++ b) s.
Proof.
  intros [Hw Ha] [_ Hb]. split; [exact Hw|]. intros d Hd. apply in_app_or in Hd.
  destruct Hd; auto.
Qed.
Lemma declarable_app_inv a b s : declarable (a ++ b) s -> declarable a s /\ declarable b s.
Proof.
  intros [Hw Ha]. split; split; auto; intros d Hd; apply Ha; apply in_or_app; auto.
Qed.

Lemma declarable_policy ds p s : declarable ds s -> declarable ds (set_policy p s).
Proof. intros H. exact H. Qed.

(** Executing early actions: all of them succeed. *)
Lemma exec_early E l : forall w,
  (forall a, In a l -> a_late a = false /\ forall id, a_call a <> ACheck id) ->
  declarable (decls_in l) (w_core w) ->
  exists w', exec_actions E l w = (Ok tt, w') /\
    (forall k n, read_protection (w_core w') k n =
                 declared_reads (decls_in l) (read_protection (w_core w)) k n) /\
    (forall k n, write_protection (w_core w') k n =
                 declared_writes (decls_in l) (write_protection (w_core w)) k n) /\
    w_perms w' = fold_left (fun d e => dset String.eqb d (fst e) (snd e)) (perms_in l) (w_perms w) /\
    only_config (w_core w) (w_core w') /\
    st_policy (w_core w') = policies_in l (st_policy (w_core w)) /\
    (forall k, ~ In k (map target (decls_in l)) ->
       dget rkey_eqb (st_reg (w_core w')) k = dget rkey_eqb (st_reg (w_core w)) k) /\
    (forall k i c, live (w_core w') k i c ->
       live (w_core w) k i c \/ (ck_kind c = Checker_class E /\ i <> default_cid)) /\
    (forall ds, declarable ds (w_core w) -> declarable ds (w_core w')) /\
    (forall k i c, live (w_core w) k i c -> live (w_core w') k i c).
Proof.
  induction l as [|a l IH]; intros w Hl Hd.
  - exists w. split; [reflexivity|]. split; [reflexivity|]. split; [reflexivity|].
    split; [reflexivity|]. split; [unfold only_config; destruct (w_core w); reflexivity|].
    split; [reflexivity|]. split; [reflexivity|]. auto.
  - assert (Ha := proj2 (Hl a (or_introl eq_refl))).
    assert (Hl' : forall a, In a l -> a_late a = false /\ forall id, a_call a <> ACheck id)
      by (intros b Hb; apply Hl; right; exact Hb).
    change (decls_in (a :: l)) with (decl_of (a_call a) ++ decls_in l)%list in *.
    apply declarable_app_inv in Hd. destruct Hd as [Hd1 Hd2].
    assert (Hdecl : forall d (m : M unit),
      decl_of (a_call a) = [d] -> (forall w, exec_call E (a_call a) w = core m w) ->
      (forall s, m s = run_decl E d s) ->
      perms_in [a] = [] -> (forall p, policies_in [a] p = p) ->
      exists w', exec_actions E (a :: l) w = (Ok tt, w') /\
        (forall k n, read_protection (w_core w') k n =
           declared_reads (decl_of (a_call a) ++ decls_in l) (read_protection (w_core w)) k n) /\
        (forall k n, write_protection (w_core w') k n =
           declared_writes (decl_of (a_call a) ++ decls_in l) (write_protection (w_core w)) k n) /\
        w_perms w' = fold_left (fun d e => dset String.eqb d (fst e) (snd e)) (perms_in (a :: l)) (w_perms w) /\
        only_config (w_core w) (w_core w') /\
        st_policy (w_core w') = policies_in (a :: l) (st_policy (w_core w)) /\
        (forall k, ~ In k (map target (decl_of (a_call a) ++ decls_in l)) ->
           dget rkey_eqb (st_reg (w_core w')) k = dget rkey_eqb (st_reg (w_core w)) k) /\
        (forall k i c, live (w_core w') k i c ->
           live (w_core w) k i c \/ (ck_kind c = Checker_class E /\ i <> default_cid)) /\
        (forall ds, declarable ds (w_core w) -> declarable ds (w_core w')) /\
        (forall k i c, live (w_core w) k i c -> live (w_core w') k i c)).
    { intros d m Hdd Hc Hm Hp Hq. rewrite Hdd in *.
      destruct (run_decl_lemma E d (w_core w) Hd1)
        as (s1 & Hrun & Hr & Hw & Ho & Hse & Hds & Hlv & Hkd & _).
      assert (Hd2' := Hds (decls_in l) Hd2).
      set (w1 := mkWorld s1 (w_perms w) (w_other w)).
      destruct (IH w1 Hl' Hd2') as (w' & Hx & Hrd & Hwr & Hpp & Hoc & Hpol & Hreg & Hkn).
      exists w'. split.
      { simpl. rewrite Hc. unfold core. rewrite Hm, Hrun. exact Hx. }
      split; [intros k n; rewrite Hrd, declared_reads_app; apply declared_reads_ext; exact Hr|].
      split; [intros k n; rewrite Hwr, declared_writes_app; apply declared_writes_ext; exact Hw|].
      change (a :: l) with ([a] ++ l)%list. rewrite perms_app, Hp, policies_app, Hq.
      split; [exact Hpp|].
      assert (Hsp : st_policy s1 = st_policy (w_core w)).
      { rewrite Ho. destruct (w_core w); reflexivity. }
      split.
      { unfold only_config in *. simpl in Hoc. unfold only_tables in *.
        rewrite Hoc. rewrite Ho. destruct (w_core w), (w_core w'). reflexivity. }
      split; [rewrite Hpol; simpl; rewrite Hsp; reflexivity|].
      split.
      { intros k Hk. rewrite Hreg by (intros H; apply Hk; right; exact H).
        apply Hse. intros ->. apply Hk. left. reflexivity. }
      destruct Hkn as (Hkn & Hdec & Hlive). split; [|split].
      - intros k i c Hc'. destruct (Hkn k i c Hc') as [H0|H0]; [|right; exact H0].
        exact (Hkd k i c H0).
      - intros ds H0. exact (Hdec ds (Hds ds H0)).
      - intros k i c H0. exact (Hlive k i c (Hlv k i c H0)). }
    destruct (a_call a) as [k lk|k n p|k n p|k n p|id|id title|p|k i|i|k id] eqn:Hcall.
    + apply (Hdecl (DLike k lk) (protectLikeUnto E k lk)); try reflexivity;
        unfold perms_in, policies_in; simpl; rewrite Hcall; reflexivity.
    + apply (Hdecl (DName k n p) (protectName E k n p)); try reflexivity;
        unfold perms_in, policies_in; simpl; rewrite Hcall; reflexivity.
    + apply (Hdecl (DSet k n p) (protectSetAttribute E k n p)); try reflexivity;
        unfold perms_in, policies_in; simpl; rewrite Hcall; reflexivity.
    + apply (Hdecl (DName k n p) (protectModule E k n p)); try reflexivity;
        try (unfold perms_in, policies_in; simpl; rewrite Hcall; reflexivity).
      intros s. apply protectModule_eq.
    + exfalso. exact (Ha id eq_refl).
    + simpl decl_of in *. clear Hdecl.
      set (w1 := mkWorld (w_core w) (dset String.eqb (w_perms w) id title) (w_other w)).
      destruct (IH w1 Hl' Hd2) as (w' & Hx & Hrd & Hwr & Hpp & Hoc & Hpol & Hreg & Hkn).
      exists w'. split; [simpl; rewrite Hcall; exact Hx|]. split; [exact Hrd|]. split; [exact Hwr|].
      change (a :: l) with ([a] ++ l)%list. rewrite perms_app, policies_app.
      unfold perms_in at 1, policies_in at 2. simpl. rewrite Hcall. simpl.
      split; [exact Hpp|]. split; [exact Hoc|]. split; [exact Hpol|]. split; [exact Hreg|exact Hkn].
    + simpl decl_of in *. clear Hdecl.
      set (w1 := mkWorld (set_policy p (w_core w)) (w_perms w) (w_other w)).
      destruct (IH w1 Hl' (declarable_policy _ p _ Hd2)) as (w' & Hx & Hrd & Hwr & Hpp & Hoc & Hpol & Hreg & Hkn).
      exists w'. split; [simpl; rewrite Hcall; exact Hx|].
      split; [intros k n; rewrite Hrd; reflexivity|]. split; [intros k n; rewrite Hwr; reflexivity|].
      change (a :: l) with ([a] ++ l)%list. rewrite perms_app, policies_app.
      unfold perms_in at 1, policies_in at 2. simpl. rewrite Hcall. simpl.
      split; [exact Hpp|]. split; [unfold only_config in *; simpl in Hoc; exact Hoc|].
      split; [exact Hpol|]. split; [exact Hreg|exact Hkn].
    + simpl decl_of in *. clear Hdecl.
      destruct (IH (mkWorld (w_core w) (w_perms w) (w_other w ++ [AImplements k i])) Hl' Hd2)
        as (w' & Hx & Hrd & Hwr & Hpp & Hoc & Hpol & Hreg & Hkn).
      exists w'. split; [simpl; rewrite Hcall; exact Hx|]. split; [exact Hrd|]. split; [exact Hwr|].
      change (a :: l) with ([a] ++ l)%list. rewrite perms_app, policies_app.
      unfold perms_in at 1, policies_in at 2. simpl. rewrite Hcall. simpl.
      split; [exact Hpp|]. split; [exact Hoc|]. split; [exact Hpol|]. split; [exact Hreg|exact Hkn].
    + simpl decl_of in *. clear Hdecl.
      destruct (IH (mkWorld (w_core w) (w_perms w) (w_other w ++ [AInterface i])) Hl' Hd2)
        as (w' & Hx & Hrd & Hwr & Hpp & Hoc & Hpol & Hreg & Hkn).
      exists w'. split; [simpl; rewrite Hcall; exact Hx|]. split; [exact Hrd|]. split; [exact Hwr|].
      change (a :: l) with ([a] ++ l)%list. rewrite perms_app, policies_app.
      unfold perms_in at 1, policies_in at 2. simpl. rewrite Hcall. simpl.
      split; [exact Hpp|]. split; [exact Hoc|]. split; [exact Hpol|]. split; [exact Hreg|exact Hkn].
    + simpl decl_of in *. clear Hdecl.
      destruct (IH (mkWorld (w_core w) (w_perms w) (w_other w ++ [AFactory k id])) Hl' Hd2)
        as (w' & Hx & Hrd & Hwr & Hpp & Hoc & Hpol & Hreg & Hkn).
      exists w'. split; [simpl; rewrite Hcall; exact Hx|]. split; [exact Hrd|]. split; [exact Hwr|].
      change (a :: l) with ([a] ++ l)%list. rewrite perms_app, policies_app.
      unfold perms_in at 1, policies_in at 2. simpl. rewrite Hcall. simpl.
      split; [exact Hpp|]. split; [exact Hoc|]. split; [exact Hpol|]. split; [exact Hreg|exact Hkn].
Qed.

(** ** Processing directives *)

Definition check_action (t : string) : action := mkAction None (ACheck t) true.
Definition not_public (t : string) : bool := negb (String.eqb t "zope.Public").

(** What a list of actions amounts to. *)
Record says (l : list action) (cl : list claim) (us : list string)
    (R W : protection -> protection) (tg lk : list rkey)
    (ps : list (string * string)) (pol : policy -> policy) : Prop := mkSays {
  sy_usual : forall d, In d (discrs l) -> usual d;
  sy_claims : Permutation (claims_in l) cl;
  sy_late : late l = map check_action (filter not_public us);
  sy_early : forall a, In a l -> a_late a = false -> forall id, a_call a <> ACheck id;
  sy_reads : forall f k n, declared_reads (decls_in l) f k n = R f k n;
  sy_writes : forall f k n, declared_writes (decls_in l) f k n = W f k n;
  sy_targets : forall d, In d (decls_in l) -> In (target d) tg;
  sy_likes : forall k l', In (DLike k l') (decls_in l) -> In l' lk;
  sy_perms : perms_in l = ps;
  sy_policy : forall p, policies_in l p = pol p
}.

Definition same : protection -> protection := fun f => f.
Definition samep : policy -> policy := fun p => p.

Lemma says_nil : says [] [] [] same same [] [] [] samep.
Proof. constructor; simpl; try reflexivity; try (intros; contradiction); constructor. Qed.

Lemma says_app l1 l2 cl1 cl2 us1 us2 R1 R2 W1 W2 tg1 tg2 lk1 lk2 ps1 ps2 pol1 pol2 :
  says l1 cl1 us1 R1 W1 tg1 lk1 ps1 pol1 -> says l2 cl2 us2 R2 W2 tg2 lk2 ps2 pol2 ->
  says (l1 ++ l2) (cl1 ++ cl2) (us1 ++ us2) (fun f => R2 (R1 f)) (fun f => W2 (W1 f))
       (tg1 ++ tg2) (lk1 ++ lk2) (ps1 ++ ps2) (fun p => pol2 (pol1 p)).
Proof.
  intros [] []. constructor.
  - intros d. rewrite discrs_app. intros H. apply in_app_or in H. destruct H; auto.
  - rewrite claims_app. apply Permutation_app; assumption.
  - unfold late in *. rewrite !filter_app, map_app. congruence.
  - intros a H. apply in_app_or in H. destruct H; auto.
  - intros f k n. rewrite decls_app, declared_reads_app, <- sy_reads1.
    apply declared_reads_ext. intros. apply sy_reads0.
  - intros f k n. rewrite decls_app, declared_writes_app, <- sy_writes1.
    apply declared_writes_ext. intros. apply sy_writes0.
  - intros d. rewrite decls_app. intros H. apply in_or_app. apply in_app_or in H. destruct H; auto.
  - intros k l'. rewrite decls_app. intros H. apply in_or_app. apply in_app_or in H.
    destruct H; eauto.
  - rewrite perms_app. congruence.
  - intros p. rewrite policies_app, sy_policy0. apply sy_policy1.
Qed.

(** The parameters may be replaced by equal or larger ones. *)
Lemma says_weaken l cl us R W tg lk ps pol cl' R' W' tg' lk' pol' :
  says l cl us R W tg lk ps pol ->
  Permutation cl cl' -> (forall f k n, R f k n = R' f k n) -> (forall f k n, W f k n = W' f k n) ->
  incl tg tg' -> incl lk lk' -> (forall p, pol p = pol' p) ->
  says l cl' us R' W' tg' lk' ps pol'.
Proof.
  intros [] Hc HR HW Ht Hk Hp. constructor; auto.
  - exact (Permutation_trans sy_claims0 Hc).
  - intros f k n. rewrite sy_reads0. apply HR.
  - intros f k n. rewrite sy_writes0. apply HW.
  - intros k l' H. apply Hk. exact (sy_likes0 k l' H).
  - intros p. rewrite sy_policy0. apply Hp.
Qed.

Lemma meant_zperm t : meant (zperm t) = protect_by t.
Proof.
  unfold protect_by. destruct (String.eqb_spec t "zope.Public") as [->|Hne]; [reflexivity|].
  rewrite <- translate_meant. unfold zperm, translate, zope_Public.
  destruct (String.eqb_spec t "zope.Public"); [contradiction|reflexivity].
Qed.

(** The kinds of actions. *)
Definition name_action k p n := mkAction (Some (DiProtectName k n)) (AName k n (zperm p)) false.
Definition set_action k p n := mkAction (Some (DiProtectSet k n)) (ASet k n (zperm p)) false.
Definition module_action k p n := mkAction (Some (DiModule k n)) (AModule k n (zperm p)) false.
Definition iface_action i := mkAction None (AInterface i) false.

Lemma says_names k p ns :
  says (map (name_action k p) ns) (map (ClRead k) ns) [] (protect k ns p) same [k] [] [] samep.
Proof.
  induction ns as [|n ns IH].
  - apply (says_weaken _ _ _ _ _ _ _ _ _ _ _ _ _ _ _ says_nil); simpl; auto.
    + intros f k' n. unfold protect. simpl. rewrite andb_false_r. reflexivity.
    + intros x [].
    + intros x [].
  - assert (H1 : says [name_action k p n] [ClRead k n] []
                   (fun f => declare f k n (zperm p)) same [k] [] [] samep).
    { constructor; simpl; try reflexivity.
      - intros d [<-|[]]. exact I.
      - intros a [<-|[]]; discriminate.
      - intros d [<-|[]]. left. reflexivity.
      - intros k' l' [H|[]]. discriminate. }
    apply (says_weaken _ _ _ _ _ _ _ _ _ _ _ _ _ _ _ (says_app _ _ _ _ _ _ _ _ _ _ _ _ _ _ _ _ _ _ H1 IH));
      try reflexivity.
    + intros f k' n'. unfold protect, declare. rewrite meant_zperm. cbn [existsb].
      destruct (rkey_eqb k' k); simpl; [|reflexivity].
      destruct (existsb (String.eqb n') ns); [rewrite orb_true_r; reflexivity|].
      rewrite orb_false_r. reflexivity.
    + intros x [H|[H|[]]]; left; exact H.
    + intros x [].
Qed.

Lemma says_modules k p ns :
  says (map (module_action k p) ns) (map (ClModule k) ns) [] (protect k ns p) same [k] [] [] samep.
Proof.
  induction ns as [|n ns IH].
  - apply (says_weaken _ _ _ _ _ _ _ _ _ _ _ _ _ _ _ says_nil); simpl; auto.
    + intros f k' n. unfold protect. simpl. rewrite andb_false_r. reflexivity.
    + intros x [].
    + intros x [].
  - assert (H1 : says [module_action k p n] [ClModule k n] []
                   (fun f => declare f k n (zperm p)) same [k] [] [] samep).
    { constructor; simpl; try reflexivity.
      - intros d [<-|[]]. exact I.
      - intros a [<-|[]]; discriminate.
      - intros d [<-|[]]. left. reflexivity.
      - intros k' l' [H|[]]. discriminate. }
    apply (says_weaken _ _ _ _ _ _ _ _ _ _ _ _ _ _ _ (says_app _ _ _ _ _ _ _ _ _ _ _ _ _ _ _ _ _ _ H1 IH));
      try reflexivity.
    + intros f k' n'. unfold protect, declare. rewrite meant_zperm. cbn [existsb].
      destruct (rkey_eqb k' k); simpl; [|reflexivity].
      destruct (existsb (String.eqb n') ns); [rewrite orb_true_r; reflexivity|].
      rewrite orb_false_r. reflexivity.
    + intros x [H|[H|[]]]; left; exact H.
    + intros x [].
Qed.

Lemma says_sets k p ns :
  says (map (set_action k p) ns) (map (ClWrite k) ns) [] same (protect k ns p) [k] [] [] samep.
Proof.
  induction ns as [|n ns IH].
  - apply (says_weaken _ _ _ _ _ _ _ _ _ _ _ _ _ _ _ says_nil); simpl; auto.
    + intros f k' n. unfold protect. simpl. rewrite andb_false_r. reflexivity.
    + intros x [].
    + intros x [].
  - assert (H1 : says [set_action k p n] [ClWrite k n] []
                   same (fun f => declare f k n (zperm p)) [k] [] [] samep).
    { constructor; simpl; try reflexivity.
      - intros d [<-|[]]. exact I.
      - intros a [<-|[]]; discriminate.
      - intros d [<-|[]]. left. reflexivity.
      - intros k' l' [H|[]]. discriminate. }
    apply (says_weaken _ _ _ _ _ _ _ _ _ _ _ _ _ _ _ (says_app _ _ _ _ _ _ _ _ _ _ _ _ _ _ _ _ _ _ H1 IH));
      try reflexivity.
    + intros f k' n'. unfold protect, declare. rewrite meant_zperm. cbn [existsb].
      destruct (rkey_eqb k' k); simpl; [|reflexivity].
      destruct (existsb (String.eqb n') ns); [rewrite orb_true_r; reflexivity|].
      rewrite orb_false_r. reflexivity.
    + intros x [H|[H|[]]]; left; exact H.
    + intros x [].
Qed.

Lemma says_other d c : (forall x, In x (match d with Some x => [x] | None => [] end) -> usual x) ->
  (forall id, c <> ACheck id) -> decl_of c = [] ->
  (match c with APermission _ _ | APolicy _ => False | _ => True end) ->
  says [mkAction d c false] (match d with Some x => claim_of x | None => [] end) []
       same same [] [] [] samep.
Proof.
  intros Hu Hc Hd Hp. constructor; simpl; try reflexivity.
  - intros x. unfold discrs. simpl. rewrite app_nil_r. apply Hu.
  - unfold claims_in, discrs. simpl. rewrite app_nil_r. destruct d; simpl; [rewrite app_nil_r|]; reflexivity.
  - intros a [<-|[]] _. exact Hc.
  - intros f k n. unfold decls_in. simpl. rewrite Hd. reflexivity.
  - intros f k n. unfold decls_in. simpl. rewrite Hd. reflexivity.
  - intros x. unfold decls_in. simpl. rewrite Hd. intros [].
  - intros k l'. unfold decls_in. simpl. rewrite Hd. intros [].
  - unfold perms_in. simpl. destruct c; try reflexivity. destruct Hp.
  - intros p. unfold policies_in. simpl. destruct c; try reflexivity. destruct Hp.
Qed.

(** [protect] looks at the set of names only. *)
Lemma existsb_In n l : existsb (String.eqb n) l = true <-> In n l.
Proof.
  rewrite existsb_exists. split.
  - intros (x & Hx & He). apply String.eqb_eq in He. subst. exact Hx.
  - intros H. exists n. split; [exact H|apply String.eqb_refl].
Qed.
Lemma existsb_same n l l' : (In n l <-> In n l') -> existsb (String.eqb n) l = existsb (String.eqb n) l'.
Proof.
  intros H. apply eq_true_iff_eq. rewrite !existsb_In. exact H.
Qed.
Lemma protect_same k p l l' f k' n : (forall x, In x l <-> In x l') ->
  protect k l p f k' n = protect k l' p f k' n.
Proof. intros H. unfold protect. rewrite (existsb_same n l l' (H n)). reflexivity. Qed.
Lemma protect_app k p l l' f k' n :
  protect k l p (protect k l' p f) k' n = protect k (l ++ l') p f k' n.
Proof.
  unfold protect. replace (existsb (String.eqb n) (l ++ l')%list)
    with (existsb (String.eqb n) l || existsb (String.eqb n) l')
    by (symmetry; apply existsb_app).
  destruct (rkey_eqb k' k); simpl; [|reflexivity].
  destruct (existsb (String.eqb n) l); reflexivity.
Qed.
Lemma protect_ext k p l f g k' n : (forall k n, f k n = g k n) ->
  protect k l p f k' n = protect k l p g k' n.
Proof. intros H. unfold protect. rewrite H. reflexivity. Qed.

(** Sorting permutes. *)
Lemma insert_perm x l : Permutation (insert_sorted x l) (x :: l).
Proof.
  induction l as [|y l IH]; simpl; [reflexivity|]. destruct (String.leb x y); [reflexivity|].
  rewrite IH. apply perm_swap.
Qed.
Lemma sorted_perm l : Permutation (sorted l) l.
Proof.
  induction l as [|x l IH]; simpl; [reflexivity|]. rewrite insert_perm, IH. reflexivity.
Qed.

(** The writable fields of a schema, in sorted order. *)
Definition settable (sc : iface) (n : name) : list name :=
  match dget String.eqb (if_names sc) n with Some (Some false) => [n] | _ => [] end.

Lemma dget_in_nodup {V} (d : list (string * V)) n v :
  NoDup (map fst d) -> In (n, v) d -> dget String.eqb d n = Some v.
Proof.
  induction d as [|[k x] d IH]; simpl; intros Hn Hin; [contradiction|].
  inversion Hn as [|a b Ha Hb]; subst. destruct Hin as [H|H].
  - injection H; intros; subst. rewrite String.eqb_refl. reflexivity.
  - destruct (String.eqb_spec k n) as [->|Hne].
    + exfalso. apply Ha. apply in_map_iff. exists (n, v). auto.
    + apply IH; assumption.
Qed.

Lemma settable_writable sc : iface_wf sc ->
  Permutation (flat_map (settable sc) (sorted (names_of sc))) (writable sc).
Proof.
  intros Hwf. rewrite (Permutation_flat_map (settable sc) (sorted_perm (names_of sc))).
  unfold names_of, writable.
  assert (H : forall l, incl l (if_names sc) ->
    flat_map (settable sc) (map fst l) =
    flat_map (fun e => match snd e with Some false => [fst e] | _ => [] end) l).
  { induction l as [|[n v] l IH]; intros Hi; simpl; [reflexivity|].
    rewrite IH by (intros x Hx; apply Hi; right; exact Hx).
    unfold settable at 1. rewrite (dget_in_nodup _ n v Hwf (Hi _ (or_introl eq_refl))).
    destruct v as [[|]|]; reflexivity. }
  rewrite H by (intros x Hx; exact Hx). reflexivity.
Qed.

(** ** Contexts *)

Lemma zbind_ok {A B} (m : Z A) (f : A -> Z B) c a c1 :
  m c = (Ok a, c1) -> zbind m f c = f a c1.
Proof. intros H. unfold zbind. rewrite H. reflexivity. Qed.
Lemma zbind_exc {A B} (m : Z A) (f : A -> Z B) c e c1 :
  m c = (Exc e, c1) -> zbind m f c = (Exc e, c1).
Proof. intros H. unfold zbind. rewrite H. reflexivity. Qed.

Definition add (c : ctx) (l : list action) : ctx :=
  mkCtx (cx_actions c ++ l) (cx_unique c) (cx_map c).

Lemma add_add c l l' : add (add c l) l' = add c (l ++ l').
Proof. unfold add. simpl. rewrite app_assoc. reflexivity. Qed.
Lemma add_nil c : add c [] = c.
Proof. unfold add. rewrite app_nil_r. destruct c; reflexivity. Qed.

Lemma z_each_add {A} (f : A -> Z unit) (g : A -> list action) l : forall c,
  (forall a c, In a l -> f a c = (Ok tt, add c (g a))) ->
  z_each f l c = (Ok tt, add c (flat_map g l)).
Proof.
  induction l as [|a l IH]; intros c H; simpl.
  - rewrite add_nil. reflexivity.
  - unfold zbind. rewrite H by (left; reflexivity). rewrite IH.
    + rewrite add_add. reflexivity.
    + intros b c' Hb. apply H. right. exact Hb.
Qed.

Lemma flat_map_single {A B} (f : A -> B) l : flat_map (fun a => [f a]) l = map f l.
Proof. induction l as [|a l IH]; simpl; congruence. Qed.

Lemma protectNames_eq k p ns c :
  cd_protectNames k ns (zperm p) c = (Ok tt, add c (map (name_action k p) ns)).
Proof.
  unfold cd_protectNames.
  rewrite (z_each_add _ (fun n => [name_action k p n])), flat_map_single by reflexivity. reflexivity.
Qed.

Definition by_iface k p i : list action :=
  map (name_action k p) (sorted (names_of i)) ++ [iface_action (if_id i)].
Lemma protectByInterface_eq k p i c :
  cd_protectByInterface k i (zperm p) c = (Ok tt, add c (by_iface k p i)).
Proof.
  unfold cd_protectByInterface, zbind.
  rewrite (z_each_add _ (fun n => [name_action k p n])), flat_map_single by reflexivity.
  unfold z_action, by_iface. rewrite <- add_add. reflexivity.
Qed.

Lemma protectSetAttributes_eq k p ns c :
  cd_protectSetAttributes k ns (zperm p) c = (Ok tt, add c (map (set_action k p) ns)).
Proof.
  unfold cd_protectSetAttributes.
  rewrite (z_each_add _ (fun n => [set_action k p n])), flat_map_single by reflexivity. reflexivity.
Qed.

Definition by_schema k p sc : list action :=
  map (set_action k p) (flat_map (settable sc) (sorted (names_of sc))) ++ [iface_action (if_id sc)].
Lemma flat_map_map {A B C} (g : B -> C) (h : A -> list B) l :
  map g (flat_map h l) = flat_map (fun a => map g (h a)) l.
Proof. induction l as [|a l IH]; simpl; [reflexivity|]. rewrite map_app, IH. reflexivity. Qed.
Lemma protectSetSchema_eq k p sc c :
  cd_protectSetSchema k sc (zperm p) c = (Ok tt, add c (by_schema k p sc)).
Proof.
  unfold cd_protectSetSchema, zbind.
  rewrite (z_each_add _ (fun n => map (set_action k p) (settable sc n))).
  - unfold z_action, by_schema. rewrite <- add_add, flat_map_map. reflexivity.
  - intros n c' _. unfold settable.
    destruct (dget String.eqb (if_names sc) n) as [[[|]|]|]; simpl; try (rewrite add_nil; reflexivity).
    reflexivity.
Qed.

Lemma says_by_iface k p i :
  says (by_iface k p i) (map (ClRead k) (map fst (if_names i))) []
       (protect k (map fst (if_names i)) p) same [k] [] [] samep.
Proof.
  assert (H2 : says [iface_action (if_id i)] [] [] same same [] [] [] samep).
  { apply (says_other None (AInterface (if_id i))); [intros x []|discriminate|reflexivity|exact I]. }
  apply (says_weaken _ _ _ _ _ _ _ _ _ _ _ _ _ _ _
           (says_app _ _ _ _ _ _ _ _ _ _ _ _ _ _ _ _ _ _ (says_names k p (sorted (names_of i))) H2));
    try reflexivity.
  - rewrite app_nil_r. apply Permutation_map. apply sorted_perm.
  - intros f k' n. unfold same. apply protect_same. intros x. split; apply Permutation_in;
      [|symmetry]; apply sorted_perm.
  - intros x H. exact H.
  - intros x H. exact H.
Qed.

Lemma says_by_schema k p sc : iface_wf sc ->
  says (by_schema k p sc) (map (ClWrite k) (writable sc)) []
       same (protect k (writable sc) p) [k] [] [] samep.
Proof.
  intros Hwf.
  assert (H2 : says [iface_action (if_id sc)] [] [] same same [] [] [] samep).
  { apply (says_other None (AInterface (if_id sc))); [intros x []|discriminate|reflexivity|exact I]. }
  apply (says_weaken _ _ _ _ _ _ _ _ _ _ _ _ _ _ _
           (says_app _ _ _ _ _ _ _ _ _ _ _ _ _ _ _ _ _ _
              (says_sets k p (flat_map (settable sc) (sorted (names_of sc)))) H2));
    try reflexivity.
  - rewrite app_nil_r. apply Permutation_map. apply settable_writable. exact Hwf.
  - intros f k' n. unfold same. apply protect_same. intros x. split; apply Permutation_in;
      [|symmetry]; apply settable_writable; exact Hwf.
  - intros x H. exact H.
  - intros x H. exact H.
Qed.

Lemma says_ifaces k p is :
  says (flat_map (by_iface k p) is)
       (map (ClRead k) (flat_map (fun i => map fst (if_names i)) is)) []
       (protect k (flat_map (fun i => map fst (if_names i)) is) p) same [k] [] [] samep.
Proof.
  induction is as [|i is IH].
  - exact (says_names k p []).
  - apply (says_weaken _ _ _ _ _ _ _ _ _ _ _ _ _ _ _
             (says_app _ _ _ _ _ _ _ _ _ _ _ _ _ _ _ _ _ _ (says_by_iface k p i) IH));
      try reflexivity.
    + simpl. rewrite map_app. reflexivity.
    + intros f k' n. rewrite protect_app. apply protect_same. intros x. simpl.
      rewrite !in_app_iff. tauto.
    + intros x [H|[H|[]]]; left; exact H.
    + intros x [].
Qed.

Lemma says_schemas k p scs : (forall sc, In sc scs -> iface_wf sc) ->
  says (flat_map (by_schema k p) scs) (map (ClWrite k) (flat_map writable scs)) []
       same (protect k (flat_map writable scs) p) [k] [] [] samep.
Proof.
  induction scs as [|i is IH]; intros Hwf.
  - exact (says_sets k p []).
  - apply (says_weaken _ _ _ _ _ _ _ _ _ _ _ _ _ _ _
             (says_app _ _ _ _ _ _ _ _ _ _ _ _ _ _ _ _ _ _
                (says_by_schema k p i (Hwf i (or_introl eq_refl)))
                (IH (fun sc Hsc => Hwf sc (or_intror Hsc)))));
      try reflexivity.
    + simpl. rewrite map_app. reflexivity.
    + intros f k' n. rewrite protect_app. apply protect_same. intros x. simpl.
      rewrite !in_app_iff. tauto.
    + intros x [H|[H|[]]]; left; exact H.
    + intros x [].
Qed.

(** What a <require> does once it is accepted. *)
Definition required k p attributes interface set_attributes set_schema : list action :=
  flat_map (by_iface k p) interface ++ map (name_action k p) attributes ++
  map (set_action k p) set_attributes ++ flat_map (by_schema k p) set_schema.

Lemma says_required k p attributes interface set_attributes set_schema :
  (forall sc, In sc set_schema -> iface_wf sc) ->
  says (required k p attributes interface set_attributes set_schema)
       (map (ClRead k) (read_names attributes interface) ++
        map (ClWrite k) (write_names set_attributes set_schema)) []
       (protect k (read_names attributes interface) p)
       (protect k (write_names set_attributes set_schema) p) [k] [] [] samep.
Proof.
  intros Hwf. unfold required.
  apply (says_weaken _ _ _ _ _ _ _ _ _ _ _ _ _ _ _
    (says_app _ _ _ _ _ _ _ _ _ _ _ _ _ _ _ _ _ _ (says_ifaces k p interface)
      (says_app _ _ _ _ _ _ _ _ _ _ _ _ _ _ _ _ _ _ (says_names k p attributes)
        (says_app _ _ _ _ _ _ _ _ _ _ _ _ _ _ _ _ _ _ (says_sets k p set_attributes)
           (says_schemas k p set_schema Hwf))))); try reflexivity.
  - unfold read_names, write_names. rewrite !map_app, <- !app_assoc.
    rewrite !app_assoc. apply Permutation_app_tail. apply Permutation_app_tail.
    apply Permutation_app_comm.
  - intros f k' n. unfold same. rewrite protect_app. apply protect_same. intros x. reflexivity.
  - intros f k' n. unfold same. rewrite protect_app. apply protect_same. intros x.
    unfold write_names. rewrite !in_app_iff. tauto.
  - intros x H. simpl in H. left. intuition.
  - intros x [].
Qed.

(** ** Whole directives *)

Definition mapped (c : ctx) (x : string) : string :=
  match dget String.eqb (match cx_map c with Some m => m | None => [] end) x with
  | Some v => v
  | None => x
  end.

(** The context has moved on by the actions [l]; unique numbers are used in order. *)
Definition moved (c c' : ctx) (l : list action) : Prop :=
  cx_actions c' = (cx_actions c ++ l)%list /\ cx_unique c <= cx_unique c' /\
  uniques l = seq (cx_unique c) (cx_unique c' - cx_unique c).

Lemma moved_refl c : moved c c [].
Proof.
  split; [rewrite app_nil_r; reflexivity|]. split; [lia|]. rewrite Nat.sub_diag. reflexivity.
Qed.

Lemma moved_trans c1 c2 c3 l l' : moved c1 c2 l -> moved c2 c3 l' -> moved c1 c3 (l ++ l').
Proof.
  intros (Ha & Hb & Hc) (Ha' & Hb' & Hc'). split; [rewrite Ha', Ha, app_assoc; reflexivity|].
  split; [lia|]. rewrite uniques_app, Hc, Hc'.
  replace (cx_unique c3 - cx_unique c1)
    with ((cx_unique c2 - cx_unique c1) + (cx_unique c3 - cx_unique c2)) by lia.
  rewrite seq_app. f_equal. f_equal. lia.
Qed.

Definition no_unique (a : action) : Prop :=
  match a_discr a with Some d => unique_of d = [] | None => True end.

Lemma uniques_nil l : (forall a, In a l -> no_unique a) -> uniques l = [].
Proof.
  induction l as [|a l IH]; intros H; [reflexivity|].
  unfold uniques, discrs. simpl. rewrite flat_map_app. fold (discrs l). fold (uniques l).
  rewrite IH by (intros b Hb; apply H; right; exact Hb). rewrite app_nil_r.
  assert (Ha := H a (or_introl eq_refl)). unfold no_unique in Ha.
  destruct (a_discr a); simpl; [rewrite Ha|]; reflexivity.
Qed.

Lemma moved_add c l : (forall a, In a l -> no_unique a) -> moved c (add c l) l.
Proof.
  intros H. split; [reflexivity|]. split; [simpl; lia|]. simpl.
  rewrite Nat.sub_diag. simpl. apply uniques_nil. exact H.
Qed.

Lemma no_unique_required k p a i sa ss : forall x, In x (required k p a i sa ss) -> no_unique x.
Proof.
  intros x. unfold required. rewrite !in_app_iff, !in_flat_map, !in_map_iff.
  intros [(y & _ & Hy)|[(y & <- & _)|[(y & <- & _)|(y & _ & Hy)]]]; try reflexivity.
  - unfold by_iface in Hy. rewrite in_app_iff, in_map_iff in Hy.
    destruct Hy as [(z & <- & _)|[<-|[]]]; reflexivity.
  - unfold by_schema in Hy. rewrite in_app_iff, in_map_iff in Hy.
    destruct Hy as [(z & <- & _)|[<-|[]]]; reflexivity.
Qed.

Lemma go_eq k p attributes interface set_attributes set_schema c :
  zbind (z_each (fun i => cd_protectByInterface k i (zperm p)) interface) (fun _ =>
  zbind (cd_protectNames k attributes (zperm p)) (fun _ =>
  zbind (cd_protectSetAttributes k set_attributes (zperm p)) (fun _ =>
  z_each (fun sc => cd_protectSetSchema k sc (zperm p)) set_schema))) c =
  (Ok tt, add c (required k p attributes interface set_attributes set_schema)).
Proof.
  unfold zbind.
  rewrite (z_each_add _ (by_iface k p)) by (intros; apply protectByInterface_eq).
  rewrite protectNames_eq, protectSetAttributes_eq.
  rewrite (z_each_add _ (by_schema k p)) by (intros; apply protectSetSchema_eq).
  rewrite !add_add. unfold required. rewrite ?app_assoc. reflexivity.
Qed.

(** Reading a permission field. *)
Definition checks (t : string) : list action := map check_action (filter not_public [t]).
Lemma fromUnicode_eq t c :
  Permission_fromUnicode t c = (Ok (mapped c t), add c (checks t)).
Proof.
  unfold Permission_fromUnicode, zbind, Permission_validate, checks, not_public, zope_Public,
    mapped. simpl. destruct (String.eqb t "zope.Public"); simpl.
  - rewrite add_nil. reflexivity.
  - reflexivity.
Qed.

Lemma no_unique_checks t : forall a, In a (checks t) -> no_unique a.
Proof.
  intros a H. unfold checks in H. apply in_map_iff in H. destruct H as (x & <- & _). exact I.
Qed.

Lemma says_checks t : says (checks t) [] [t] same same [] [] [] samep.
Proof.
  unfold checks. unfold not_public. simpl. destruct (String.eqb t "zope.Public") eqn:Ht; simpl.
  - destruct says_nil. constructor; auto. simpl. unfold not_public. rewrite Ht. reflexivity.
  - constructor; simpl; try reflexivity; try (intros; contradiction).
    + unfold not_public. rewrite Ht. reflexivity.
    + intros a [<-|[]]; discriminate.
Qed.

Definition mimic_action k l u := mkAction (Some (DiMimic k u)) (ALike k l) false.
Definition mimics k (like : option rkey) u : list action :=
  match like with Some l => [mimic_action k l u] | None => [] end.
Definition after_mimic (like : option rkey) (c : ctx) (k : rkey) : ctx :=
  match like with
  | Some l => mkCtx (cx_actions c ++ [mimic_action k l (cx_unique c)]) (S (cx_unique c)) (cx_map c)
  | None => c
  end.

Lemma mimic_eq k like c :
  (match like with Some l => cd_mimic k l | None => zret tt end) c = (Ok tt, after_mimic like c k).
Proof. destruct like; reflexivity. Qed.

Lemma mimic_moved k like c : moved c (after_mimic like c k) (mimics k like (cx_unique c)).
Proof.
  destruct like as [l|]; [|apply moved_refl]. split; [reflexivity|].
  change (cx_unique (after_mimic (Some l) c k)) with (S (cx_unique c)). split; [lia|].
  replace (S (cx_unique c) - cx_unique c) with 1 by lia. reflexivity.
Qed.

Lemma says_mimic k like u :
  says (mimics k like u) [] [] (liken k like) (liken k like) [k]
       (match like with Some l => [l] | None => [] end) [] samep.
Proof.
  destruct like as [l|]; simpl.
  - constructor; simpl; try reflexivity.
    + intros d [<-|[]]. exact I.
    + intros a [<-|[]]; discriminate.
    + intros d [<-|[]]. left. reflexivity.
    + intros k' l' [H|[]]. injection H; auto.
  - apply (says_weaken _ _ _ _ _ _ _ _ _ _ _ _ _ _ _ says_nil); try reflexivity; intros x [].
Qed.

(** Exactly what <require> does. *)
Inductive Requires (k : rkey) (p : option string) attributes interface like set_attributes
    set_schema (c : ctx) : res unit -> ctx -> Prop :=
| RqLike l : like = Some l -> attributes = [] -> interface = [] -> set_attributes = [] ->
    set_schema = [] ->
    Requires k p attributes interface like set_attributes set_schema c (Ok tt) (after_mimic like c k)
| RqNothing : like = None -> attributes = [] -> interface = [] -> set_attributes = [] ->
    set_schema = [] ->
    Requires k p attributes interface like set_attributes set_schema c
      (Exc (EConfiguration "Nothing required")) c
| RqNoPermission :
    (attributes <> [] \/ interface <> [] \/ set_attributes <> [] \/ set_schema <> []) ->
    (p = None \/ p = Some "") ->
    Requires k p attributes interface like set_attributes set_schema c
      (Exc (EConfiguration "No permission specified")) (after_mimic like c k)
| RqDone t :
    (attributes <> [] \/ interface <> [] \/ set_attributes <> [] \/ set_schema <> []) ->
    p = Some t -> t <> "" ->
    Requires k p attributes interface like set_attributes set_schema c (Ok tt)
      (add (after_mimic like c k) (required k t attributes interface set_attributes set_schema)).

Lemma require_spec k p a i like sa ss c r c' :
  cd_require k p a i like sa ss c = (r, c') -> Requires k p a i like sa ss c r c'.
Proof.
  unfold cd_require. unfold zbind at 1. rewrite mimic_eq. cbv zeta.
  destruct (nonempty i || nonempty a || nonempty sa || nonempty ss) eqn:Hne; cbv beta iota delta [negb].
  - assert (Hs : a <> [] \/ i <> [] \/ sa <> [] \/ ss <> []).
    { destruct a, i, sa, ss; try discriminate Hne;
        try (left; discriminate); try (right; left; discriminate);
        try (right; right; left; discriminate); right; right; right; discriminate. }
    destruct p as [t|].
    + destruct (String.eqb_spec t "") as [->|Ht].
      * intros H. inversion H; subst. apply RqNoPermission; auto.
      * rewrite go_eq. intros H. inversion H; subst. eapply RqDone; eauto.
    + intros H. inversion H; subst. apply RqNoPermission; auto.
  - assert (Hs : a = [] /\ i = [] /\ sa = [] /\ ss = []).
    { destruct a, i, sa, ss; try discriminate Hne; auto. }
    destruct Hs as (-> & -> & -> & ->).
    destruct like as [l|]; intros H; inversion H; subst.
    + eapply RqLike; eauto.
    + apply RqNothing; auto.
Qed.

(** Names of module directives. *)
Lemma unseen_spec l : forall seen,
  NoDup (unseen seen l) /\ forall n, In n (unseen seen l) <-> In n l /\ ~ In n seen.
Proof.
  induction l as [|x l IH]; intros seen; simpl.
  - split; [constructor|]. intros n. split; [contradiction|intros [[] _]].
  - destruct (mem x seen) eqn:Hm.
    + apply mem_In in Hm. destruct (IH seen) as [H1 H2]. split; [exact H1|].
      intros n. rewrite H2. split; [tauto|]. intros [[->|H] Hn]; [contradiction|auto].
    + assert (Hx : ~ In x seen) by (rewrite <- mem_In, Hm; discriminate).
      destruct (IH (x :: seen)) as [H1 H2]. split.
      * constructor; [|exact H1]. rewrite H2. intros [_ H]. apply H. left. reflexivity.
      * intros n. simpl. rewrite H2. simpl. split.
        -- intros [->|[H1' H2']]; [auto|]. split; [auto|]. tauto.
        -- intros [[->|H] Hn]; [auto|]. destruct (string_dec x n) as [->|Hd]; [auto|].
           right. split; [exact H|]. intros [H'|H']; contradiction.
Qed.

Lemma names_perm a i : Permutation (names a i) (nodup string_dec (read_names a i)).
Proof.
  unfold names. destruct (unseen_spec (a ++ flat_map names_of i) []) as [H1 H2].
  apply NoDup_Permutation; [exact H1|apply NoDup_nodup|]. intros n. rewrite H2, nodup_In.
  unfold read_names, names_of. simpl. tauto.
Qed.

Lemma module_eq k p a i c :
  z_each (fun n => z_action (Some (DiModule k n)) (AModule k n (zperm p)) false) (names a i) c =
  (Ok tt, add c (map (module_action k p) (names a i))).
Proof.
  rewrite (z_each_add _ (fun n => [module_action k p n])), flat_map_single by reflexivity.
  reflexivity.
Qed.

Lemma says_module k p a i :
  says (map (module_action k p) (names a i))
       (map (ClModule k) (nodup string_dec (read_names a i))) []
       (protect k (read_names a i) p) same [k] [] [] samep.
Proof.
  apply (says_weaken _ _ _ _ _ _ _ _ _ _ _ _ _ _ _ (says_modules k p (names a i)));
    try reflexivity; try (intros x H; exact H).
  - apply Permutation_map, names_perm.
  - intros f k' n. apply protect_same. intros x. rewrite <- (nodup_In string_dec (read_names a i)).
    split; apply Permutation_in; [|symmetry]; apply names_perm.
Qed.

Lemma no_unique_module k p ns : forall a, In a (map (module_action k p) ns) -> no_unique a.
Proof. intros a H. apply in_map_iff in H. destruct H as (x & <- & _). reflexivity. Qed.

(** The effect of processing one part of a file. *)
Definition effect (c c' : ctx) (cl : list claim) (us : list string) (R W : protection -> protection)
    (tg lk : list rkey) (ps : list (string * string)) (pol : policy -> policy) : Prop :=
  exists l, moved c c' l /\ says l cl us R W tg lk ps pol.

Lemma effect_trans c1 c2 c3 cl1 cl2 us1 us2 R1 R2 W1 W2 tg1 tg2 lk1 lk2 ps1 ps2 pol1 pol2 :
  effect c1 c2 cl1 us1 R1 W1 tg1 lk1 ps1 pol1 -> effect c2 c3 cl2 us2 R2 W2 tg2 lk2 ps2 pol2 ->
  effect c1 c3 (cl1 ++ cl2) (us1 ++ us2) (fun f => R2 (R1 f)) (fun f => W2 (W1 f))
         (tg1 ++ tg2) (lk1 ++ lk2) (ps1 ++ ps2) (fun p => pol2 (pol1 p)).
Proof.
  intros (l1 & M1 & S1) (l2 & M2 & S2). exists (l1 ++ l2)%list.
  split; [exact (moved_trans _ _ _ _ _ M1 M2)|exact (says_app _ _ _ _ _ _ _ _ _ _ _ _ _ _ _ _ _ _ S1 S2)].
Qed.

Lemma effect_weaken c c' cl us R W tg lk ps pol cl' R' W' tg' lk' pol' :
  effect c c' cl us R W tg lk ps pol ->
  Permutation cl cl' -> (forall f k n, R f k n = R' f k n) -> (forall f k n, W f k n = W' f k n) ->
  incl tg tg' -> incl lk lk' -> (forall p, pol p = pol' p) ->
  effect c c' cl' us R' W' tg' lk' ps pol'.
Proof.
  intros (l & M & S) Hc HR HW Ht Hk Hp. exists l. split; [exact M|].
  exact (says_weaken _ _ _ _ _ _ _ _ _ _ _ _ _ _ _ S Hc HR HW Ht Hk Hp).
Qed.

Lemma after_mimic_map like c k : cx_map (after_mimic like c k) = cx_map c.
Proof. destruct like; reflexivity. Qed.

Lemma require_effect k t attributes interface like set_attributes set_schema c :
  (forall sc, In sc set_schema -> iface_wf sc) ->
  effect c (add (after_mimic like c k) (required k t attributes interface set_attributes set_schema))
    (map (ClRead k) (read_names attributes interface) ++
     map (ClWrite k) (write_names set_attributes set_schema)) []
    (fun f => protect k (read_names attributes interface) t (liken k like f))
    (fun f => protect k (write_names set_attributes set_schema) t (liken k like f))
    [k] (match like with Some l => [l] | None => [] end) [] samep.
Proof.
  intros Hwf.
  assert (H1 : effect c (after_mimic like c k) [] [] (liken k like) (liken k like) [k]
                 (match like with Some l => [l] | None => [] end) [] samep).
  { exists (mimics k like (cx_unique c)). split; [apply mimic_moved|apply says_mimic]. }
  assert (H2 : effect (after_mimic like c k)
                 (add (after_mimic like c k) (required k t attributes interface set_attributes set_schema))
                 (map (ClRead k) (read_names attributes interface) ++
                  map (ClWrite k) (write_names set_attributes set_schema)) []
                 (protect k (read_names attributes interface) t)
                 (protect k (write_names set_attributes set_schema) t) [k] [] [] samep).
  { eexists. split; [apply moved_add, no_unique_required|]. apply says_required. exact Hwf. }
  apply (effect_weaken _ _ _ _ _ _ _ _ _ _ _ _ _ _ _ _
           (effect_trans _ _ _ _ _ _ _ _ _ _ _ _ _ _ _ _ _ _ _ H1 H2)); try reflexivity.
  - intros x [H|[H|[]]]; left; exact H.
  - rewrite app_nil_r. intros x H. exact H.
Qed.

Lemma checks_effect t c : effect c (add c (checks t)) [] [t] same same [] [] [] samep.
Proof. exists (checks t). split; [apply moved_add, no_unique_checks|apply says_checks]. Qed.

Lemma effect_refl c : effect c c [] [] same same [] [] [] samep.
Proof. exists []. split; [apply moved_refl|apply says_nil]. Qed.

Lemma implements_effect k is : forall c,
  exists c', cd_implements k is c = (Ok tt, c') /\ cx_map c' = cx_map c /\
    effect c c' [] [] same same [] [] [] samep.
Proof.
  induction is as [|i is IH]; intros c.
  - exists c. split; [reflexivity|]. split; [reflexivity|apply effect_refl].
  - set (u := cx_unique c).
    set (l := [mkAction (Some (DiContent k u)) (AImplements k (if_id i)) false;
               iface_action (if_id i)]).
    set (c1 := mkCtx (cx_actions c ++ l) (S u) (cx_map c)).
    destruct (IH c1) as (c' & Hrun & Hmap & He).
    exists c'. split.
    { unfold cd_implements in *. simpl. unfold zbind at 1. unfold zbind at 1, z_object.
      unfold zbind at 1, z_action at 1. simpl. unfold z_action. simpl.
      rewrite <- app_assoc. exact Hrun. }
    split; [rewrite Hmap; reflexivity|].
    assert (H1 : effect c c1 [] [] same same [] [] [] samep).
    { exists l. split.
      - split; [reflexivity|]. change (cx_unique c1) with (S (cx_unique c)). split; [lia|].
        replace (S (cx_unique c) - cx_unique c) with 1 by lia. reflexivity.
      - constructor; simpl; try reflexivity; try (intros; contradiction).
        + intros d [<-|[]]. exact I.
        + intros a [<-|[<-|[]]]; discriminate. }
    exact (effect_trans _ _ _ _ _ _ _ _ _ _ _ _ _ _ _ _ _ _ _ H1 He).
Qed.

Lemma csub_step m k d c :
  (exists cls, k = KType cls) ->
  (forall x, mapped c x = m x) -> (forall i, In i (csub_ifaces d) -> iface_wf i) ->
  (csub_ok m d /\ exists c', process_csub k d c = (Ok tt, c') /\ cx_map c' = cx_map c /\
     effect c c' (csub_claims k d) (csub_used d) (fun f => csub_reads m k f d)
       (fun f => csub_writes m k f d) [k] (csub_likes d) [] samep) \/
  (~ csub_ok m d /\ exists e c', process_csub k d c = (Exc (EConfiguration e), c')).
Proof.
  intros Hk Hm Hwf.
  destruct d as [permission a i like sa ss|a i|is|oid]; simpl process_csub.
  - assert (Hwf' : forall sc, In sc ss -> iface_wf sc).
    { intros sc Hsc. apply Hwf. simpl. apply in_or_app. right. exact Hsc. }
    set (c1 := match permission with Some t => add c (checks t) | None => c end).
    set (p := match permission with Some t => Some (m t) | None => None end).
    assert (Hp : (match permission with
                  | Some t => v <- Permission_fromUnicode t ;; zret (Some v)
                  | None => zret None
                  end) c = (Ok p, c1)).
    { unfold p, c1. destruct permission as [t|]; [|reflexivity].
      unfold zbind. rewrite fromUnicode_eq, Hm. reflexivity. }
    rewrite (zbind_ok _ _ _ _ _ Hp).
    assert (He1 : effect c c1 [] (csub_used (CRequire permission a i like sa ss)) same same [] [] [] samep).
    { unfold c1. destruct permission as [t|]; [apply checks_effect|apply effect_refl]. }
    assert (Hmap1 : cx_map c1 = cx_map c) by (unfold c1; destruct permission; reflexivity).
    destruct (cd_require k p a i like sa ss c1) as [r c'] eqn:Hr.
    destruct (require_spec _ _ _ _ _ _ _ _ _ _ Hr)
      as [l Hl Ha Hi Hsa Hss|Hl Ha Hi Hsa Hss|Hs Hpp|t Hs Hpp Hne].
    + left. split.
      { left. repeat split; auto. rewrite Hl. discriminate. }
      exists (after_mimic like c1 k). split; [reflexivity|].
      split; [rewrite after_mimic_map; exact Hmap1|]. subst a i sa ss.
      assert (H2 : effect c1 (after_mimic like c1 k) [] [] (liken k like) (liken k like) [k]
                 (match like with Some l => [l] | None => [] end) [] samep).
      { eexists. split; [apply mimic_moved|apply says_mimic]. }
      assert (H3 := effect_trans _ _ _ _ _ _ _ _ _ _ _ _ _ _ _ _ _ _ _ He1 H2).
      rewrite (app_nil_r (csub_used _)) in H3.
      apply (effect_weaken _ _ _ _ _ _ _ _ _ _ _ _ _ _ _ _ H3); try reflexivity.
      * intros f k' n. simpl. destruct permission; [|reflexivity].
        unfold protect. simpl. rewrite andb_false_r. reflexivity.
      * intros f k' n. simpl. destruct permission; [|reflexivity].
        unfold protect. simpl. rewrite andb_false_r. reflexivity.
      * intros x H. exact H.
      * simpl. rewrite Hl. intros x H. exact H.
    + right. split.
      { intros [(_ & _ & _ & _ & H)|[H _]]; [apply H; exact Hl|].
        destruct H as [H|[H|[H|H]]]; congruence. }
      exists "Nothing required", c1. reflexivity.
    + right. split.
      { intros [(H1 & H2 & H3 & H4 & _)|[_ (t & Ht & Hne)]].
        - destruct Hs as [H|[H|[H|H]]]; congruence.
        - unfold p in Hpp. rewrite Ht in Hpp. destruct Hpp as [Hpp|Hpp]; [discriminate|].
          injection Hpp as Hpp. contradiction. }
      eexists _, _. reflexivity.
    + left. unfold p in Hpp. destruct permission as [t0|] eqn:Hperm; [|discriminate].
      injection Hpp as Hpp. subst t. split.
      { right. split; [exact Hs|]. exists t0. auto. }
      eexists. split; [reflexivity|].
      split; [simpl; rewrite after_mimic_map; exact Hmap1|].
      assert (H3 := effect_trans _ _ _ _ _ _ _ _ _ _ _ _ _ _ _ _ _ _ _ He1
                      (require_effect k (m t0) a i like sa ss c1 Hwf')).
      rewrite (app_nil_r (csub_used _)) in H3.
      apply (effect_weaken _ _ _ _ _ _ _ _ _ _ _ _ _ _ _ _ H3); try reflexivity.
      * intros x H. exact H.
      * simpl. destruct like; intros x H; exact H.
  - unfold cd_allow. destruct (cd_require k (Some zope_Public) a i None [] [] c) as [r c'] eqn:Hr.
    destruct (require_spec _ _ _ _ _ _ _ _ _ _ Hr)
      as [l Hl Ha Hi Hsa Hss|Hl Ha Hi Hsa Hss|Hs Hpp|t Hs Hpp Hne].
    + discriminate.
    + right. split; [intros [H|H]; simpl in H; congruence|]. eexists _, _. reflexivity.
    + destruct Hpp; discriminate.
    + left. injection Hpp as <-. split.
      { destruct Hs as [H|[H|[H|H]]]; simpl; auto; congruence. }
      eexists. split; [reflexivity|]. split; [reflexivity|].
      assert (H3 := require_effect k zope_Public a i None [] [] c (fun sc (H : In sc []) => match H with end)).
      apply (effect_weaken _ _ _ _ _ _ _ _ _ _ _ _ _ _ _ _ H3); try reflexivity.
      * simpl. rewrite app_nil_r. reflexivity.
      * intros f k' n. simpl. unfold protect. simpl. rewrite andb_false_r. reflexivity.
      * intros x H. exact H.
      * intros x H. exact H.
  - left. split; [exact I|]. destruct (implements_effect k is c) as (c' & Hr & Hmap & He).
    exists c'. split; [exact Hr|]. split; [exact Hmap|].
    apply (effect_weaken _ _ _ _ _ _ _ _ _ _ _ _ _ _ _ _ He); try reflexivity; intros x [].
  - left. split; [exact I|]. destruct Hk as [cls ->].
    set (the_id := match oid with Some j => if String.eqb j "" then cls else j | None => cls end).
    set (l := [mkAction (Some (DiUtility "IFactory" the_id)) (AFactory (KType cls) the_id) false;
               iface_action "IFactory"]).
    exists (add c l). split.
    { unfold cd_factory, zbind, z_action, add, l, the_id. simpl.
      destruct oid as [j|]; rewrite <- app_assoc; reflexivity. }
    split; [reflexivity|]. exists l. split.
    { apply moved_add. intros a [<-|[<-|[]]]; reflexivity. }
    constructor; simpl; try reflexivity; try (intros; contradiction).
    + intros d [<-|[]]. right. reflexivity.
    + unfold the_id, claims_in. simpl. destruct oid; reflexivity.
    + intros a [<-|[<-|[]]]; discriminate.
Qed.

Lemma csubs_step m k subs : forall c,
  (exists cls, k = KType cls) ->
  (forall x, mapped c x = m x) -> (forall i, In i (flat_map csub_ifaces subs) -> iface_wf i) ->
  ((forall d, In d subs -> csub_ok m d) /\
   exists c', z_each (process_csub k) subs c = (Ok tt, c') /\ cx_map c' = cx_map c /\
     effect c c' (flat_map (csub_claims k) subs) (flat_map csub_used subs)
       (fold_left (csub_reads m k) subs) (fold_left (csub_writes m k) subs)
       [k] (flat_map csub_likes subs) [] samep) \/
  (~ (forall d, In d subs -> csub_ok m d) /\
   exists e c', z_each (process_csub k) subs c = (Exc (EConfiguration e), c')).
Proof.
  induction subs as [|d subs IH]; intros c Hk Hm Hwf.
  - left. split; [intros d []|]. exists c. split; [reflexivity|]. split; [reflexivity|].
    apply (effect_weaken _ _ _ _ _ _ _ _ _ _ _ _ _ _ _ _ (effect_refl c)); try reflexivity; intros x [].
  - assert (Hwf1 : forall i, In i (csub_ifaces d) -> iface_wf i)
      by (intros i Hi; apply Hwf; simpl; apply in_or_app; auto).
    assert (Hwf2 : forall i, In i (flat_map csub_ifaces subs) -> iface_wf i)
      by (intros i Hi; apply Hwf; simpl; apply in_or_app; auto).
    simpl z_each.
    destruct (csub_step m k d c Hk Hm Hwf1)
      as [(Hok & c1 & Hr & Hmap & He)|(Hno & e & c1 & Hr)].
    + rewrite (zbind_ok _ _ _ _ _ Hr).
      assert (Hm1 : forall x, mapped c1 x = m x)
        by (intros x; unfold mapped; rewrite Hmap; apply Hm).
      destruct (IH c1 Hk Hm1 Hwf2) as [(Hok2 & c2 & Hr2 & Hmap2 & He2)|(Hno & e & c2 & Hr2)].
      * left. split; [intros d' [<-|H]; auto|]. exists c2. split; [exact Hr2|].
        split; [congruence|].
        apply (effect_weaken _ _ _ _ _ _ _ _ _ _ _ _ _ _ _ _
                 (effect_trans _ _ _ _ _ _ _ _ _ _ _ _ _ _ _ _ _ _ _ He He2)); try reflexivity.
        -- intros x [H|[H|[]]]; left; exact H.
        -- intros x H. exact H.
      * right. split; [intros H; apply Hno; intros d' Hd'; apply H; right; exact Hd'|].
        exists e, c2. exact Hr2.
    + right. split; [intros H; apply Hno; apply H; left; reflexivity|].
      exists e, c1. exact (zbind_exc _ _ _ _ _ Hr).
Qed.

Lemma msub_step m k d c :
  (forall x, mapped c x = m x) ->
  exists c', process_msub k d c = (Ok tt, c') /\ cx_map c' = cx_map c /\
    effect c c' (msub_claims k d) (msub_used d) (fun f => msub_reads m k f d) same
      [k] [] [] samep.
Proof.
  intros Hm. destruct d as [t a i|a i].
  - simpl process_msub. rewrite (zbind_ok _ _ _ _ _ (fromUnicode_eq t c)), Hm.
    unfold md_require. rewrite module_eq. eexists. split; [reflexivity|]. split; [reflexivity|].
    assert (H2 : effect (add c (checks t))
                   (add (add c (checks t)) (map (module_action k (m t)) (names a i)))
                   (map (ClModule k) (nodup string_dec (read_names a i))) []
                   (protect k (read_names a i) (m t)) same [k] [] [] samep).
    { eexists. split; [apply moved_add, no_unique_module|apply says_module]. }
    exact (effect_trans _ _ _ _ _ _ _ _ _ _ _ _ _ _ _ _ _ _ _ (checks_effect t c) H2).
  - simpl process_msub. unfold md_allow. rewrite module_eq.
    eexists. split; [reflexivity|]. split; [reflexivity|].
    eexists. split; [apply moved_add, no_unique_module|apply says_module].
Qed.

Lemma msubs_step m k subs : forall c,
  (forall x, mapped c x = m x) ->
  exists c', z_each (process_msub k) subs c = (Ok tt, c') /\ cx_map c' = cx_map c /\
    effect c c' (flat_map (msub_claims k) subs) (flat_map msub_used subs)
      (fold_left (msub_reads m k) subs) same [k] [] [] samep.
Proof.
  induction subs as [|d subs IH]; intros c Hm.
  - exists c. split; [reflexivity|]. split; [reflexivity|].
    apply (effect_weaken _ _ _ _ _ _ _ _ _ _ _ _ _ _ _ _ (effect_refl c)); try reflexivity; intros x [].
  - destruct (msub_step m k d c Hm) as (c1 & Hr & Hmap & He).
    assert (Hm1 : forall x, mapped c1 x = m x)
      by (intros x; unfold mapped; rewrite Hmap; apply Hm).
    destruct (IH c1 Hm1) as (c2 & Hr2 & Hmap2 & He2).
    exists c2. simpl z_each. rewrite (zbind_ok _ _ _ _ _ Hr). split; [exact Hr2|].
    split; [congruence|].
    apply (effect_weaken _ _ _ _ _ _ _ _ _ _ _ _ _ _ _ _
             (effect_trans _ _ _ _ _ _ _ _ _ _ _ _ _ _ _ _ _ _ _ He He2)); try reflexivity.
    + intros x [H|[H|[]]]; left; exact H.
    + intros x H. exact H.
Qed.

Definition directive_policy (p : policy) (d : directive) : policy :=
  match d with ZPolicy q => q | _ => p end.

Lemma directive_step m d c :
  (forall x, mapped c x = m x) -> (forall i, In i (ifaces [d]) -> iface_wf i) ->
  (directive_ok m d /\ exists c', process_directive d c = (Ok tt, c') /\
     (forall x, mapped c' x = next m d x) /\
     effect c c' (directive_claims d) (directive_used d) (fun f => directive_reads m f d)
       (fun f => directive_writes m f d) (touched [d]) (likes [d]) (perms_of [d])
       (fun p => directive_policy p d)) \/
  (~ directive_ok m d /\ exists e c', process_directive d c = (Exc e, c') /\
     ((exists t, e = EConfiguration t) \/ e = EAttribute "__module__")).
Proof.
  intros Hm Hwf. destruct d as [id title|a b|q|k subs|k subs].
  - left. split; [exact I|].
    set (l := [mkAction (Some (DiUtility "IPermission" id)) (APermission id title) false;
               iface_action "IPermission"]).
    exists (add c l). split.
    { unfold process_directive, permission_directive, zbind, z_action, add, l. simpl.
      rewrite <- app_assoc. reflexivity. }
    split; [exact Hm|]. exists l. split.
    { apply moved_add. intros x [<-|[<-|[]]]; reflexivity. }
    constructor; simpl; try reflexivity; try (intros; contradiction).
    + intros d [<-|[]]. left. reflexivity.
    + intros x [<-|[<-|[]]]; discriminate.
  - left. split; [exact I|]. simpl process_directive.
    rewrite (zbind_ok _ _ _ _ _ (fromUnicode_eq a c)), Hm.
    rewrite (zbind_ok _ _ _ _ _ (fromUnicode_eq b _)).
    replace (mapped (add c (checks a)) b) with (m b) by (symmetry; apply Hm).
    eexists. split; [reflexivity|]. split.
    { intros x. unfold mapped. cbn [cx_map]. rewrite sdget_dset. simpl next. unfold redefined.
      rewrite String.eqb_sym. destruct (String.eqb x (m a)); [reflexivity|].
      exact (Hm x). }
    destruct (effect_trans _ _ _ _ _ _ _ _ _ _ _ _ _ _ _ _ _ _ _ (checks_effect a c)
                (checks_effect b (add c (checks a)))) as (l & (M1 & M2 & M3) & S1).
    exists l. split; [split; [exact M1|split; [exact M2|exact M3]]|exact S1].
  - left. split; [exact I|]. exists (add c [mkAction (Some DiPolicy) (APolicy q) false]).
    split; [reflexivity|]. split; [exact Hm|].
    eexists. split; [apply moved_add; intros x [<-|[]]; reflexivity|].
    constructor; simpl; try reflexivity; try (intros; contradiction).
    + intros d [<-|[]]. exact I.
    + intros x [<-|[]]; discriminate.
  - destruct k as [cls|md|o].
    + simpl process_directive. rewrite (zbind_ok _ _ c tt c (eq_refl)).
      assert (Hwf' : forall i, In i (flat_map csub_ifaces subs) -> iface_wf i).
      { intros i Hi. apply Hwf. unfold ifaces. simpl. rewrite app_nil_r. exact Hi. }
      destruct (csubs_step m (KType cls) subs c (ex_intro _ cls eq_refl) Hm Hwf')
        as [(Hok & c1 & Hr & Hmap & He)|(Hno & e & c1 & Hr)].
      * left. split; [split; [exists cls; reflexivity|exact Hok]|].
        exists c1. split; [exact Hr|].
        split; [intros x; unfold mapped; rewrite Hmap; apply Hm|].
        unfold touched, likes. simpl. rewrite app_nil_r. exact He.
      * right. split; [intros [_ H]; exact (Hno H)|].
        exists (EConfiguration e), c1. split; [exact Hr|]. left. exists e. reflexivity.
    + right. split; [intros [[x H] _]; discriminate|].
      exists (EAttribute "__module__"), c. split; [reflexivity|]. right. reflexivity.
    + right. split; [intros [[x H] _]; discriminate|].
      exists (EAttribute "__module__"), c. split; [reflexivity|]. right. reflexivity.
  - left. split; [exact I|]. simpl process_directive.
    destruct (msubs_step m k subs c Hm) as (c1 & Hr & Hmap & He).
    exists c1. split; [exact Hr|].
    split; [intros x; unfold mapped; rewrite Hmap; apply Hm|]. exact He.
Qed.

Lemma process_step ds : forall m c,
  (forall x, mapped c x = m x) -> (forall i, In i (ifaces ds) -> iface_wf i) ->
  (well_formed m ds /\ exists c', process ds c = (Ok tt, c') /\
     (forall x, mapped c' x = meaning_after m ds x) /\
     effect c c' (claims ds) (used ds) (file_reads m ds) (file_writes m ds)
       (touched ds) (likes ds) (perms_of ds) (policy_of ds)) \/
  (~ well_formed m ds /\ exists e c', process ds c = (Exc e, c') /\
     ((exists t, e = EConfiguration t) \/ e = EAttribute "__module__")).
Proof.
  induction ds as [|d ds IH]; intros m c Hm Hwf.
  - left. split; [exact I|]. exists c. split; [reflexivity|]. split; [exact Hm|]. apply effect_refl.
  - assert (Hwf1 : forall i, In i (ifaces [d]) -> iface_wf i).
    { intros i Hi. apply Hwf. unfold ifaces in *. simpl in *. rewrite app_nil_r in Hi.
      apply in_or_app. left. exact Hi. }
    assert (Hwf2 : forall i, In i (ifaces ds) -> iface_wf i).
    { intros i Hi. apply Hwf. unfold ifaces in *. simpl. apply in_or_app. right. exact Hi. }
    unfold process. simpl z_each. fold (process ds).
    destruct (directive_step m d c Hm Hwf1)
      as [(Hok & c1 & Hr & Hmap & He)|(Hno & e & c1 & Hr & Hx)].
    + rewrite (zbind_ok _ _ _ _ _ Hr).
      destruct (IH (next m d) c1 Hmap Hwf2)
        as [(Hok2 & c2 & Hr2 & Hmap2 & He2)|(Hno & e & c2 & Hr2 & Hx)].
      * left. split; [split; assumption|]. exists c2. split; [exact Hr2|]. split; [exact Hmap2|].
        assert (H3 := effect_trans _ _ _ _ _ _ _ _ _ _ _ _ _ _ _ _ _ _ _ He He2).
        unfold touched, likes, perms_of in *. simpl in H3. rewrite !app_nil_r in H3. exact H3.
      * right. split; [intros [_ H]; exact (Hno H)|]. exists e, c2. split; [exact Hr2|exact Hx].
    + right. split; [intros [H _]; exact (Hno H)|]. exists e, c1.
      split; [exact (zbind_exc _ _ _ _ _ Hr)|exact Hx].
Qed.

(** ** Loading a file *)

Lemma early_late l : (forall a, In a l -> a_late a = false -> forall id, a_call a <> ACheck id) ->
  (forall t, late l = map check_action t -> decls_in (early l) = decls_in l /\
     perms_in (early l) = perms_in l /\ forall p, policies_in (early l) p = policies_in l p).
Proof.
  induction l as [|a l IH]; intros H t Ht; simpl in *; [repeat split|].
  unfold early in *. simpl. destruct (a_late a) eqn:Ha; simpl.
  - destruct t as [|x t]; [discriminate|]. injection Ht as Hx Ht.
    destruct (IH (fun b Hb => H b (or_intror Hb)) t Ht) as (H1 & H2 & H3).
    subst a. split; [exact H1|]. split; [exact H2|]. intros p. apply H3.
  - destruct (IH (fun b Hb => H b (or_intror Hb)) t Ht) as (H1 & H2 & H3).
    unfold decls_in, perms_in, policies_in in *. simpl. split; [congruence|].
    split; [congruence|]. intros p. apply H3.
Qed.

Lemma exec_app E a b w w1 :
  exec_actions E a w = (Ok tt, w1) -> exec_actions E (a ++ b) w = exec_actions E b w1.
Proof.
  revert w. induction a as [|x a IH]; simpl; intros w H; [inversion H; reflexivity|].
  destruct (exec_call E (a_call x) w) as [[u|e] w2]; [apply IH; exact H|discriminate].
Qed.

Lemma exec_checks E us w :
  ((forall t, In t us -> t = "zope.Public" \/ In t (map fst (w_perms w))) /\
   exec_actions E (map check_action (filter not_public us)) w = (Ok tt, w)) \/
  (~ (forall t, In t us -> t = "zope.Public" \/ In t (map fst (w_perms w))) /\
   exec_actions E (map check_action (filter not_public us)) w =
     (Exc (EValue "Undefined permission ID"), w)).
Proof.
  induction us as [|t us IH]; simpl.
  - left. split; [intros t []|reflexivity].
  - destruct (String.eqb_spec t "zope.Public") as [->|Hne].
    + destruct IH as [[H1 H2]|[H1 H2]]; [left|right]; (split; [|exact H2]).
      * intros t [<-|H]; auto.
      * intros H. apply H1. intros t Ht. apply H. right. exact Ht.
    + assert (Hnp : not_public t = true).
      { unfold not_public. destruct (String.eqb_spec t "zope.Public"); [contradiction|reflexivity]. }
      rewrite Hnp. simpl. unfold checkPermission_id.
      destruct (dget String.eqb (w_perms w) t) as [v|] eqn:Hd.
      * assert (Hin : In t (map fst (w_perms w))).
        { clear -Hd. induction (w_perms w) as [|[k x] d IHd]; simpl in *; [discriminate|].
          destruct (String.eqb_spec k t); [left; assumption|right; auto]. }
        destruct IH as [[H1 H2]|[H1 H2]]; [left|right]; (split; [|exact H2]).
        -- intros t' [<-|H]; auto.
        -- intros H. apply H1. intros t' Ht. apply H. right. exact Ht.
      * right. split; [|reflexivity]. intros H. destruct (H t (or_introl eq_refl)) as [H1|H1];
          [contradiction|].
        clear -Hd H1. induction (w_perms w) as [|[k x] d IHd]; simpl in *; [contradiction|].
        destruct (String.eqb_spec k t) as [->|Hn]; [discriminate|].
        destruct H1 as [H1|H1]; [contradiction|auto].
Qed.

Lemma fold_dset_keys ps : forall (d : list (string * string)) id,
  In id (map fst (fold_left (fun d e => dset String.eqb d (fst e) (snd e)) ps d)) <->
  In id (map fst d) \/ In id (map fst ps).
Proof.
  assert (Hset : forall (d : list (string * string)) k v id,
    In id (map fst (dset String.eqb d k v)) <-> In id (map fst d) \/ id = k).
  { induction d as [|[k' x] d IH]; intros k v id; simpl; [intuition congruence|].
    destruct (String.eqb_spec k' k) as [->|Hn]; simpl; [intuition congruence|].
    rewrite IH. intuition congruence. }
  induction ps as [|[k v] ps IH]; intros d id; simpl; [tauto|].
  rewrite IH, Hset. intuition congruence.
Qed.

Lemma perms_of_In ds id : In id (map fst (perms_of ds)) <-> exists title, In (ZPermission id title) ds.
Proof.
  unfold perms_of. rewrite in_map_iff. split.
  - intros ([i t] & <- & H). apply in_flat_map in H. destruct H as (d & Hd & H).
    destruct d; simpl in H; try contradiction. destruct H as [H|[]]. injection H as <- <-.
    exists title. exact Hd.
  - intros (t & H). exists (id, t). split; [reflexivity|]. apply in_flat_map.
    exists (ZPermission id t). split; [exact H|left; reflexivity].
Qed.

(** All outcomes of loading a file. *)
(** Where declarations can be made, files can be loaded. *)
Lemma configurable_kept s s' ds :
  (forall l, declarable l s -> declarable l s') -> configurable ds s -> configurable ds s'.
Proof.
  intros H (Hw & Ht & Hl).
  assert (Hw' : registry_wf s') by (apply (H []); split; [exact Hw|intros d []]).
  assert (Hd : forall d, In (target d) (touched ds) ->
            (forall k l, d = DLike k l -> plain_entry s l) -> declarable [d] s').
  { intros d Hd Hx. apply H. split; [exact Hw|]. intros d' [<-|[]].
    destruct (Ht _ Hd) as (H1 & H2 & H3). auto. }
  split; [exact Hw'|]. split.
  - intros k Hk. destruct (Hd (DName k "" PPublic) Hk) as [_ Hx]; [intros k' l; discriminate|].
    destruct (Hx _ (or_introl eq_refl)) as (H1 & H2 & H3 & _). auto.
  - intros l Hll. assert (Hk : exists k, In k (touched ds)).
    { unfold likes in Hll. apply in_flat_map in Hll. destruct Hll as (d & Hd1 & Hd2).
      destruct d; try contradiction. eexists. unfold touched. apply in_flat_map.
      eexists. split; [exact Hd1|]. left. reflexivity. }
    destruct Hk as (k & Hk). destruct (Hd (DLike k l) Hk) as [_ Hx].
    + intros k' l' Heq. injection Heq as <- <-. apply Hl. exact Hll.
    + destruct (Hx _ (or_introl eq_refl)) as (_ & _ & _ & H4). exact (H4 k l eq_refl).
Qed.

Lemma configure_lemma E ds w :
  configurable ds (w_core w) -> (forall i, In i (ifaces ds) -> iface_wf i) ->
  (~ well_formed literal ds /\ exists e, configure E ds w = (Exc e, w) /\
     ((exists t, e = EConfiguration t) \/ e = EAttribute "__module__")) \/
  (well_formed literal ds /\ ~ NoDup (claims ds) /\
     configure E ds w = (Exc (EConfiguration "conflict"), w)) \/
  (well_formed literal ds /\ NoDup (claims ds) /\
     ~ (forall t, In t (used ds) -> defined ds w t) /\
     exists w', configure E ds w = (Exc (EValue "Undefined permission ID"), w') /\ loaded E ds w w') \/
  (well_formed literal ds /\ NoDup (claims ds) /\
     (forall t, In t (used ds) -> defined ds w t) /\
     exists w', configure E ds w = (Ok tt, w') /\ loaded E ds w w').
Proof.
  intros Hcf Hwf. unfold configure.
  destruct (process_step ds literal empty_ctx (fun x => eq_refl) Hwf)
    as [(Hok & c & Hr & _ & l & (M1 & M2 & M3) & S)|(Hno & e & c & Hr & Hx)];
    rewrite Hr; [|left; split; [exact Hno|]; exists e; split; [reflexivity|exact Hx]].
  right. simpl in M1. rewrite M1.
  assert (Hdn : NoDup (discrs l) <-> NoDup (claims ds)).
  { rewrite (discrs_nodup l (sy_usual _ _ _ _ _ _ _ _ _ S)).
    - split; apply Permutation_NoDup; [|symmetry]; apply (sy_claims _ _ _ _ _ _ _ _ _ S).
    - rewrite M3. apply seq_NoDup. }
  destruct (conflict l) eqn:Hconf.
  { left. split; [exact Hok|]. split; [|reflexivity]. rewrite <- Hdn, <- conflict_spec, Hconf.
    discriminate. }
  right. apply conflict_spec in Hconf. apply Hdn in Hconf.
  unfold execution_order. fold (early l). fold (late l).
  destruct (early_late l (sy_early _ _ _ _ _ _ _ _ _ S) _ (sy_late _ _ _ _ _ _ _ _ _ S))
    as (He1 & He2 & He3).
  assert (Hel : forall a, In a (early l) -> a_late a = false /\ forall id, a_call a <> ACheck id).
  { intros a Ha. unfold early in Ha. apply filter_In in Ha. destruct Ha as [Ha Hb].
    apply negb_true_iff in Hb. split; [exact Hb|]. exact (sy_early _ _ _ _ _ _ _ _ _ S a Ha Hb). }
  assert (Hdec : declarable (decls_in (early l)) (w_core w)).
  { rewrite He1. destruct Hcf as (Hrw & Ht & Hl). split; [exact Hrw|]. intros d Hd.
    destruct (Ht _ (sy_targets _ _ _ _ _ _ _ _ _ S d Hd)) as (H1 & H2 & H3).
    split; [exact H1|]. split; [exact H2|]. split; [exact H3|].
    intros k l' ->. apply Hl. exact (sy_likes _ _ _ _ _ _ _ _ _ S k l' Hd). }
  destruct (exec_early E (early l) w Hel Hdec)
    as (w' & Hx & Hrd & Hwr & Hpp & Hoc & Hpol & Hreg & Hkn & Hdk & Hlk).
  rewrite (exec_app E _ _ _ _ Hx), (sy_late _ _ _ _ _ _ _ _ _ S).
  assert (Hload : loaded E ds w w').
  { split; [intros k n; rewrite Hrd, He1; apply (sy_reads _ _ _ _ _ _ _ _ _ S)|].
    split; [intros k n; rewrite Hwr, He1; apply (sy_writes _ _ _ _ _ _ _ _ _ S)|].
    split; [rewrite Hpp, He2, (sy_perms _ _ _ _ _ _ _ _ _ S); reflexivity|].
    split; [exact Hoc|]. split; [rewrite Hpol, He3; apply (sy_policy _ _ _ _ _ _ _ _ _ S)|].
    split.
    { intros k Hk. apply Hreg. intros H. apply Hk. rewrite He1 in H. apply in_map_iff in H.
      destruct H as (d & <- & Hd). exact (sy_targets _ _ _ _ _ _ _ _ _ S d Hd). }
    split.
    { intros HW k i x Hx'. destruct (Hkn k i x Hx') as [H|[H1 H2]]; [left; exact H|right].
      rewrite H1. unfold Checker_class. rewrite HW. split; [reflexivity|exact H2]. }
    split; [exact Hlk|]. intros ds'. apply configurable_kept. exact Hdk. }
  assert (Hdef : forall t, (t = "zope.Public" \/ In t (map fst (w_perms w'))) <-> defined ds w t).
  { intros t. unfold defined. destruct Hload as (_ & _ & Hp & _). rewrite Hp, fold_dset_keys, perms_of_In.
    tauto. }
  destruct (exec_checks E (used ds) w') as [[H1 H2]|[H1 H2]]; rewrite H2; [right|left].
  - split; [exact Hok|]. split; [exact Hconf|]. split; [intros t Ht; apply Hdef; auto|].
    exists w'. split; [reflexivity|exact Hload].
  - split; [exact Hok|]. split; [exact Hconf|].
    split; [intros H; apply H1; intros t Ht; apply Hdef; auto|].
    exists w'. split; [reflexivity|exact Hload].
Qed.
