(** * TableFacts: NamesChecker, InterfaceChecker, MultiChecker. *)

From Coq Require Import List String Bool Arith ZArith Lia Permutation.
From Verif Require Import Base Domain CheckerModel ProxyModel MFacts Spec Witness
  CheckFacts CombineFacts.
Import ListNotations.
Open Scope string_scope.

(** ** Specification *)

(** All (name, permission) pairs given to MultiChecker. *)
Definition given (specs : list mspec) : list (name * perm) :=
  flat_map (fun sp => match sp with
                      | SNames ns p | SIface ns p => map (fun n => (n, p)) ns
                      | SDict d => d
                      end) specs.

(** Some name is given two different permission objects. *)
Definition conflicting (l : list (name * perm)) : Prop :=
  exists n p q, In (n, p) l /\ In (n, q) l /\ p <> q.

(** [new_checker E s c s' tb]: a new checker [c] with read table [tb] and nothing
    writable has been created, and nothing else changed. *)
Definition new_checker (E : env) (s : state) (c : value) (s' : state) (tb : table) : Prop :=
  exists i k d,
    c = VChk i /\ st_chks s' i = Some k /\ st_dicts s' (ck_get k) = d /\
    (forall n, table_of d n = tb n) /\ (forall n, table_of (st_dicts s' (ck_set k)) n = None) /\
    ck_kind k = (match e_watch E with 0 => CkPlain | S v => CkWatching (S v) end) /\
    (forall j, j < st_next s -> st_chks s' j = st_chks s j /\ st_dicts s' j = st_dicts s j) /\
    st_prox s' = st_prox s /\ st_reg s' = st_reg s /\ st_basic s' = st_basic s /\
    st_tls s' = st_tls s /\ st_policy s' = st_policy s /\ st_inters s' = st_inters s /\
    st_parts s' = st_parts s /\ st_app s' = st_app s /\ st_decos s' = st_decos s.

(** ** Proofs *)

Lemma Checker_new_eq E g w s :
  exists s', Checker_new E g w s = (Ok (VChk (S (S (st_next s)))), s', []) /\
  s' = set_chks (upd (st_chks s) (S (S (st_next s)))
                   (Some (mkChecker (st_next s) (S (st_next s)) (Checker_class E))))
         (set_next (S (S (S (st_next s))))
           (set_dicts (upd (upd (st_dicts s) (st_next s) g) (S (st_next s)) w) s)).
Proof. eexists. split; reflexivity. Qed.

Lemma Checker_new_spec E d tb s :
  (forall n, table_of d n = tb n) ->
  exists c s', Checker_new E d [] s = (Ok c, s', []) /\ new_checker E s c s' tb.
Proof.
  intros Htb. destruct (Checker_new_eq E d [] s) as (s' & H & Hs').
  exists (VChk (S (S (st_next s)))), s'. split; auto. subst s'.
  exists (S (S (st_next s))),
    (mkChecker (st_next s) (S (st_next s)) (Checker_class E)), d.
  split; [reflexivity|]. split; [simpl; apply upd_eq|].
  split; [simpl; rewrite upd_ne by lia; apply upd_eq|].
  split; [exact Htb|].
  split; [intros n; simpl; rewrite upd_eq; reflexivity|].
  split; [reflexivity|].
  split; [|repeat split].
  intros j Hj. simpl. rewrite !upd_ne by lia. auto.
Qed.

Lemma add_names_ok data items d :
  add_names data items = Ok d ->
  (forall n p q, In (n, p) items -> In (n, q) items -> p = q) /\
  (forall n p q, In (n, p) items -> dget String.eqb data n = Some q -> p = q) /\
  (forall n p, In (n, p) items -> dget String.eqb d n = Some p) /\
  (forall n, ~ In n (map fst items) -> dget String.eqb d n = dget String.eqb data n).
Proof.
  revert data d. induction items as [|[n0 p0] items IH]; intros data d H; simpl in H.
  - injection H as <-. simpl. repeat split; intros; try tauto.
  - destruct (negb (perm_eqb _ p0)) eqn:Hc; [discriminate|].
    apply negb_false_iff in Hc.
    assert (Hq : forall q, dget String.eqb data n0 = Some q -> p0 = q).
    { intros q Hq. rewrite Hq in Hc. destruct (perm_eqb_spec q p0); congruence. }
    destruct (IH _ _ H) as (H1 & H2 & H3 & H4). clear IH.
    assert (H2' : forall p, In (n0, p) items -> p = p0).
    { intros p Hp. apply (H2 n0 p p0 Hp). rewrite sdget_dset, String.eqb_refl. reflexivity. }
    repeat split.
    + intros n p q [Ha|Ha] [Hb|Hb]; try (inversion Ha; subst); try (inversion Hb; subst);
        auto; try (symmetry; auto; fail); eauto.
    + intros n p q [Ha|Ha] Hb.
      * inversion Ha; subst. auto.
      * destruct (String.eqb_spec n0 n) as [->|Hne].
        -- rewrite (H2' p Ha). auto.
        -- apply (H2 n p q Ha). rewrite sdget_dset.
           destruct (String.eqb_spec n0 n); congruence.
    + intros n p [Ha|Ha].
      * inversion Ha; subst.
        destruct (in_dec string_dec n (map fst items)) as [Hin|Hni].
        -- apply in_map_iff in Hin. destruct Hin as ([n1 p1] & Heq & Hin).
           simpl in Heq. subst n1. rewrite <- (H2' p1 Hin). apply H3. auto.
        -- rewrite H4 by auto. rewrite sdget_dset, String.eqb_refl. reflexivity.
      * apply H3; auto.
    + intros n Hn. simpl in Hn. rewrite H4 by tauto. rewrite sdget_dset.
      destruct (String.eqb_spec n0 n); [tauto|reflexivity].
Qed.

Lemma add_names_exc data items e :
  add_names data items = Exc e ->
  exists pre n p post q,
    items = (pre ++ (n, p) :: post)%list /\ e = EDuplication n /\ p <> q /\
    (In (n, q) pre \/ (~ In n (map fst pre) /\ dget String.eqb data n = Some q)) /\
    exists d, add_names data pre = Ok d.
Proof.
  revert data. induction items as [|[n0 p0] items IH]; intros data H; simpl in H.
  - discriminate.
  - destruct (negb (perm_eqb _ p0)) eqn:Hc.
    + injection H as <-. apply negb_true_iff in Hc.
      destruct (dget String.eqb data n0) as [q|] eqn:Hq.
      * exists [], n0, p0, items, q. split; [reflexivity|]. split; [reflexivity|].
        split; [destruct (perm_eqb_spec q p0); congruence|].
        split; [right; auto | exists data; reflexivity].
      * rewrite perm_eqb_refl in Hc. discriminate.
    + destruct (IH _ H) as (pre & n & p & post & q & -> & -> & Hpq & Hin & d & Hd).
      exists ((n0, p0) :: pre), n, p, post, q. split; [reflexivity|].
      split; [reflexivity|]. split; [exact Hpq|]. split.
      * simpl. destruct Hin as [Hin|[Hni Hq]]; [auto|].
        rewrite sdget_dset in Hq. destruct (String.eqb_spec n0 n) as [->|Hne].
        -- injection Hq as ->. auto.
        -- right. split; auto. intros [?|?]; congruence.
      * exists d. simpl. rewrite Hc. exact Hd.
Qed.

Lemma add_names_app data l1 l2 :
  add_names data (l1 ++ l2) =
  match add_names data l1 with Ok d => add_names d l2 | Exc e => Exc e end.
Proof.
  revert data. induction l1 as [|[n p] l1 IH]; intros data; simpl; auto.
  destruct (negb _); auto.
Qed.

Lemma add_specs_flat data specs :
  add_specs data specs = add_names data (given specs).
Proof.
  revert data. induction specs as [|sp specs IH]; intros data; simpl; auto.
  destruct sp; rewrite add_names_app; destruct (add_names data _); auto.
Qed.

Lemma dupdate_nil_NoDup (kw : list (name * perm)) n :
  NoDup (map fst kw) ->
  dget String.eqb (dupdate String.eqb [] kw) n = dget String.eqb kw n.
Proof.
  unfold name in *. intros Hnd. rewrite (dget_dupdate _ String.eqb_spec).
  assert (Hrev : dget String.eqb (rev kw) n = dget String.eqb kw n).
  { destruct (dget String.eqb kw n) as [p|] eqn:Hk.
    - apply (dget_In _ String.eqb_spec) in Hk.
      apply (dget_NoDup_In _ String.eqb_spec).
      + rewrite map_rev. apply NoDup_rev. exact Hnd.
      + apply in_rev in Hk. exact Hk.
    - apply (dget_None _ String.eqb_spec). apply (dget_None _ String.eqb_spec) in Hk.
      rewrite map_rev. intros Hin. apply Hk. apply in_rev. exact Hin. }
  rewrite Hrev. destruct (dget String.eqb kw n); reflexivity.
Qed.

Lemma in_map_pair {A B} (x : A) (p q : B) l :
  In (x, q) (map (fun n => (n, p)) l) <-> In x l /\ q = p.
Proof.
  rewrite in_map_iff. split.
  - intros (y & Hy & Hin). inversion Hy; subst. auto.
  - intros [Hin ->]. exists x. auto.
Qed.

Lemma fst_map_pair {A B} (p : B) (l : list A) : map fst (map (fun n => (n, p)) l) = l.
Proof. rewrite map_map. simpl. apply map_id. Qed.

Theorem NamesChecker_ok_lemma E names p kw s :
  NoDup (map fst kw) ->
  (forall n q, In n names -> table_of kw n = Some q -> q = p) ->
  exists c s', NamesChecker E names p kw s = (Ok c, s', []) /\
    new_checker E s c s'
      (fun n => if in_dec string_dec n names then Some p else table_of kw n).
Proof.
  intros Hnd Hok. unfold NamesChecker.
  destruct (add_names _ _) as [d|e] eqn:Ha.
  - apply Checker_new_spec. intros n.
    destruct (add_names_ok _ _ _ Ha) as (_ & _ & H3 & H4).
    unfold table_of. destruct (in_dec string_dec n names) as [Hin|Hni].
    + apply H3. apply in_map_pair. auto.
    + rewrite H4 by (rewrite fst_map_pair; auto). apply dupdate_nil_NoDup. auto.
  - exfalso. apply add_names_exc in Ha.
    destruct Ha as (pre & n & p' & post & q & Hi & _ & Hpq & Hin & _).
    assert (In (n, p') (map (fun n => (n, p)) names)) as Hn.
    { rewrite Hi. apply in_or_app. simpl. auto. }
    apply in_map_pair in Hn. destruct Hn as [Hn ->].
    destruct Hin as [Hin|[_ Hq]].
    + assert (In (n, q) (map (fun n => (n, p)) names)) as Hn2.
      { rewrite Hi. apply in_or_app. auto. }
      apply in_map_pair in Hn2. destruct Hn2. congruence.
    + rewrite dupdate_nil_NoDup in Hq by auto. apply Hpq. symmetry. eapply Hok; eauto.
Qed.

Theorem NamesChecker_conflict_lemma E names p kw s :
  NoDup (map fst kw) ->
  (exists n q, In n names /\ table_of kw n = Some q /\ q <> p) ->
  exists pre n post q, names = (pre ++ n :: post)%list /\
    (forall m q', In m pre -> table_of kw m = Some q' -> q' = p) /\
    table_of kw n = Some q /\ q <> p /\
    NamesChecker E names p kw s = (Exc (EDuplication n), s, []).
Proof.
  intros Hnd (n0 & q0 & Hin0 & Hq0 & Hne0). unfold NamesChecker.
  destruct (add_names _ _) as [d|e] eqn:Ha.
  - exfalso. destruct (add_names_ok _ _ _ Ha) as (_ & H2 & _ & _).
    apply Hne0. symmetry. apply (H2 n0 p q0).
    + apply in_map_pair. auto.
    + rewrite dupdate_nil_NoDup; auto.
  - apply add_names_exc in Ha.
    destruct Ha as (pre & n & p' & post & q & Hi & -> & Hpq & Hin & d & Hd).
    assert (Hlen : exists pre0 post0, names = (pre0 ++ n :: post0)%list /\
              pre = map (fun n => (n, p)) pre0 /\ p' = p).
    { clear -Hi. revert pre Hi. induction names as [|m names IH]; intros pre Hi; simpl in Hi.
      - destruct pre; discriminate.
      - destruct pre as [|x pre]; simpl in Hi.
        + inversion Hi; subst. exists [], names. auto.
        + injection Hi as H1 H2. destruct (IH _ H2) as (a & b & -> & -> & ->). exists (m :: a), b.
          subst x. auto. }
    destruct Hlen as (pre0 & post0 & -> & -> & ->).
    exists pre0, n, post0, q.
    destruct (add_names_ok _ _ _ Hd) as (_ & H2 & _ & _).
    split; auto. split.
    { intros m q' Hm Hq'. symmetry. apply (H2 m p q').
      - apply in_map_pair. auto.
      - rewrite dupdate_nil_NoDup; auto. }
    split.
    { destruct Hin as [Hin|[_ Hq]].
      - apply in_map_pair in Hin. destruct Hin. congruence.
      - rewrite dupdate_nil_NoDup in Hq; auto. }
    split; [congruence|]. reflexivity.
Qed.

Theorem MultiChecker_ok_lemma E specs s :
  ~ conflicting (given specs) ->
  exists c s' tb, MultiChecker E specs s = (Ok c, s', []) /\ new_checker E s c s' tb /\
    forall n p, tb n = Some p <-> In (n, p) (given specs).
Proof.
  intros Hnc. unfold MultiChecker. rewrite add_specs_flat.
  destruct (add_names [] (given specs)) as [d|e] eqn:Ha.
  - destruct (Checker_new_spec E d (table_of d) s) as (c & s' & H1 & H2); [auto|].
    exists c, s', (table_of d). split; auto. split; auto.
    destruct (add_names_ok _ _ _ Ha) as (_ & _ & H3 & H4). intros n p. split.
    + intros Hp. unfold table_of in Hp.
      destruct (in_dec string_dec n (map fst (given specs))) as [Hin|Hni].
      * apply in_map_iff in Hin. destruct Hin as ([n1 p1] & Heq & Hin). simpl in Heq.
        subst n1. rewrite (H3 _ _ Hin) in Hp. injection Hp as ->. exact Hin.
      * rewrite H4 in Hp by auto. discriminate.
    + intros Hin. apply H3. exact Hin.
  - exfalso. apply add_names_exc in Ha.
    destruct Ha as (pre & n & p & post & q & Hi & _ & Hpq & Hin & _).
    destruct Hin as [Hin|[_ Hq]]; [|discriminate].
    apply Hnc. exists n, p, q. rewrite Hi. repeat split; auto; apply in_or_app; simpl; auto.
Qed.

Theorem MultiChecker_conflict_lemma E specs s :
  conflicting (given specs) ->
  exists n, MultiChecker E specs s = (Exc (EDuplication n), s, []) /\
            exists p q, In (n, p) (given specs) /\ In (n, q) (given specs) /\ p <> q.
Proof.
  intros (n0 & p0 & q0 & Hp & Hq & Hne). unfold MultiChecker. rewrite add_specs_flat.
  destruct (add_names [] (given specs)) as [d|e] eqn:Ha.
  - exfalso. destruct (add_names_ok _ _ _ Ha) as (H1 & _). eauto.
  - apply add_names_exc in Ha.
    destruct Ha as (pre & n & p & post & q & Hi & -> & Hpq & Hin & _).
    destruct Hin as [Hin|[_ Hx]]; [|discriminate].
    exists n. split; [reflexivity|]. exists p, q.
    rewrite Hi. repeat split; auto; apply in_or_app; simpl; auto.
Qed.

Lemma conflicting_perm l1 l2 :
  (forall x, In x l1 <-> In x l2) -> conflicting l1 -> conflicting l2.
Proof.
  intros H (n & p & q & Hp & Hq & Hne). exists n, p, q. rewrite <- !H. auto.
Qed.

Theorem MultiChecker_order_lemma E specs1 specs2 s c1 s1 t1 r2 s2 t2 :
  (forall x, In x (given specs1) <-> In x (given specs2)) ->
  MultiChecker E specs1 s = (Ok c1, s1, t1) ->
  MultiChecker E specs2 s = (r2, s2, t2) ->
  exists c2 tb, r2 = Ok c2 /\ new_checker E s c1 s1 tb /\ new_checker E s c2 s2 tb.
Proof.
  intros Hsame H1 H2.
  assert (Hnc : ~ conflicting (given specs1)).
  { intros Hc. destruct (MultiChecker_conflict_lemma E specs1 s Hc) as (n & H & _).
    congruence. }
  assert (Hnc2 : ~ conflicting (given specs2)).
  { intros Hc. apply Hnc. eapply conflicting_perm; [|exact Hc]. firstorder. }
  destruct (MultiChecker_ok_lemma E specs1 s Hnc) as (c & s' & tb & Ha & Hb & Hc).
  destruct (MultiChecker_ok_lemma E specs2 s Hnc2) as (c' & s'' & tb' & Ha' & Hb' & Hc').
  assert (c = c1 /\ s' = s1) as [-> ->] by (split; congruence).
  assert (r2 = Ok c' /\ s'' = s2) as [-> ->] by (split; congruence).
  exists c', tb. split; auto. split; auto.
  assert (Htb : forall n, tb' n = tb n).
  { intros n. destruct (tb n) as [p|] eqn:Hn.
    - apply Hc' . apply Hsame. apply Hc. exact Hn.
    - destruct (tb' n) as [p|] eqn:Hn'; auto. exfalso.
      apply Hc' in Hn'. apply Hsame in Hn'. apply Hc in Hn'. congruence. }
  destruct Hb' as (i & k & d & Hb1 & Hb2 & Hb3 & Hb4 & Hrest).
  exists i, k, d. split; auto. split; auto. split; auto. split; auto.
  intros n. rewrite Hb4. apply Htb.
Qed.

Lemma given_permutation specs1 specs2 :
  Permutation specs1 specs2 -> forall x, In x (given specs1) <-> In x (given specs2).
Proof.
  intros H x. unfold given. rewrite !in_flat_map. split; intros (sp & Hin & Hx).
  - exists sp. split; auto. eapply Permutation_in; eauto.
  - exists sp. split; auto. eapply Permutation_in; [symmetry|]; eauto.
Qed.

Theorem InterfaceChecker_ok_lemma E iface p kw s :
  NoDup (map fst kw) ->
  (forall n q, In n iface -> table_of kw n = Some q -> q = p) ->
  exists c s', InterfaceChecker E iface p kw s = (Ok c, s', []) /\
    new_checker E s c s'
      (fun n => if in_dec string_dec n iface then Some p else table_of kw n).
Proof. exact (NamesChecker_ok_lemma E iface p kw s). Qed.
