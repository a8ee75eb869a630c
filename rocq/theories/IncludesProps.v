(** * IncludesProps: configurations of several files, resolved and executed. *)

From Coq Require Import List String Bool Arith ZArith Lia Permutation.
From Verif Require Import Base Domain CheckerModel ProxyModel MFacts Spec RegSpec CheckFacts
  RegistryFacts Management Protect ProtectSpec ProtectFacts Zcml ZcmlSpec ZcmlFacts ZcmlProps
  Includes IncludesSpec IncludesFacts.
Import ListNotations.
Open Scope string_scope.

(** ** Lists *)

Lemma nodup_flat_map_filter {A B} (f : A -> list B) g l :
  NoDup (flat_map f l) -> NoDup (flat_map f (filter g l)).
Proof.
  induction l as [|a l IH]; simpl; intros H; [constructor|].
  assert (Hr : NoDup (flat_map f l)).
  { revert H. generalize (f a) as x. induction x as [|b x IHx]; simpl; intros H; [exact H|].
    inversion H; subst. auto. }
  destruct (g a); simpl; [|apply IH; exact Hr].
  revert H. generalize (f a) as x. induction x as [|b x IHx]; simpl; intros H.
  - apply IH. exact H.
  - inversion H as [|y z Hn Hd]; subst. constructor; [|apply IHx; exact Hd].
    intros Hin. apply Hn. apply in_or_app. apply in_app_or in Hin.
    destruct Hin as [Hin|Hin]; [left; exact Hin|right].
    apply in_flat_map in Hin. destruct Hin as (y & Hy & Hb). apply filter_In in Hy.
    apply in_flat_map. exists y. split; [exact (proj1 Hy)|exact Hb].
Qed.

Lemma nodup_map_filter {A B} (f : A * B -> bool) (l : list (A * B)) :
  NoDup (map snd (filter f l)) <->
  (forall i j a b c, nth_error l i = Some (a, c) -> nth_error l j = Some (b, c) ->
     f (a, c) = true -> f (b, c) = true -> i = j).
Proof.
  induction l as [|[a0 c0] l IH]; simpl.
  - split; [|constructor]. intros _ i j a b c H. destruct i; discriminate.
  - destruct (f (a0, c0)) eqn:Hf; simpl.
    + rewrite NoDup_cons_iff, IH. split.
      * intros [Hn H] i j a b c Hi Hj Ha Hb.
        assert (Hin : forall i' x, nth_error l i' = Some (x, c0) -> f (x, c0) = true -> False).
        { intros i' x Hx Hfx. apply Hn. apply in_map_iff. exists (x, c0). split; [reflexivity|].
          apply filter_In. split; [exact (nth_error_In _ _ Hx)|exact Hfx]. }
        destruct i as [|i], j as [|j]; simpl in *; auto.
        -- injection Hi as -> ->. exfalso. exact (Hin j b Hj Hb).
        -- injection Hj as -> ->. exfalso. exact (Hin i a Hi Ha).
        -- f_equal. exact (H i j a b c Hi Hj Ha Hb).
      * intros H. split.
        -- intros Hin. apply in_map_iff in Hin. destruct Hin as ([x c] & Hc & Hx). simpl in Hc. subst c.
           apply filter_In in Hx. destruct Hx as [Hx Hfx]. apply In_nth_error in Hx.
           destruct Hx as (i & Hi). assert (0 = S i) by (apply (H 0 (S i) a0 x c0); auto). discriminate.
        -- intros i j a b c Hi Hj Ha Hb. assert (S i = S j) by (apply (H (S i) (S j) a b c); auto). lia.
    + rewrite IH. split.
      * intros H i j a b c Hi Hj Ha Hb. destruct i as [|i], j as [|j]; simpl in *; auto.
        -- injection Hi as -> ->. congruence.
        -- injection Hj as -> ->. congruence.
        -- f_equal. exact (H i j a b c Hi Hj Ha Hb).
      * intros H i j a b c Hi Hj Ha Hb. assert (S i = S j) by (apply (H (S i) (S j) a b c); auto). lia.
Qed.

Lemma Permutation_filter' {A} (f : A -> bool) l l' :
  Permutation l l' -> Permutation (filter f l) (filter f l').
Proof.
  induction 1; simpl.
  - constructor.
  - destruct (f x); [constructor|]; assumption.
  - destruct (f x), (f y); try constructor; reflexivity.
  - etransitivity; eassumption.
Qed.

(** ** Paths *)

Lemma leads_spec p q : leads p q = true <-> above p q.
Proof.
  revert q. induction p as [|a p IH]; intros [|b q]; simpl; unfold above in *.
  - split; [discriminate|]. intros (r & H1 & H2). simpl in H2. congruence.
  - split; [intros _; exists (b :: q); split; [discriminate|reflexivity]|reflexivity].
  - split; [discriminate|]. intros (r & _ & H). discriminate.
  - rewrite andb_true_iff, String.eqb_eq, IH. split.
    + intros [-> (r & H1 & ->)]. exists r. split; [exact H1|reflexivity].
    + intros (r & H1 & H2). simpl in H2. injection H2 as -> ->. split; [reflexivity|]. exists r. auto.
Qed.

Lemma above_shorter p q : above p q -> (List.length p < List.length q)%nat.
Proof.
  intros (r & Hr & ->). rewrite app_length. destruct r; [congruence|simpl; lia].
Qed.

(** Somebody's claim stands. *)
Lemma some_stands l c : forall p, In (p, c) l -> exists q, In (q, c) l /\ stands l q c.
Proof.
  assert (H : forall n p, List.length p <= n -> In (p, c) l -> exists q, In (q, c) l /\ stands l q c).
  { induction n as [|n IH]; intros p Hp Hin.
    - exists p. split; [exact Hin|]. intros q Hq Ha. apply above_shorter in Ha. lia.
    - destruct (existsb (fun b => leads (fst b) p &&
                  (if (list_eq_dec string_dec (fst b) (fst b)) then true else false)) l) eqn:Hx.
      + assert (Hdec : {q | In (q, c) l /\ above q p} + {forall q, In (q, c) l -> ~ above q p}).
        { assert (Hcd : forall a b : claim, {a = b} + {a <> b}).
          { intros a b. repeat (decide equality || apply string_dec). }
          clear -Hcd. induction l as [|[x y] l' IHl].
          - right. intros q [].
          - destruct IHl as [(q & Hq)|Hno].
            + left. exists q. split; [right; exact (proj1 Hq)|exact (proj2 Hq)].
            + destruct (Hcd y c) as [->|Hne].
              * destruct (leads x p) eqn:Hl.
                -- left. exists x. split; [left; reflexivity|apply leads_spec; exact Hl].
                -- right. intros q [Hq|Hq]; [|exact (Hno q Hq)]. injection Hq as <-.
                   rewrite <- leads_spec, Hl. discriminate.
              * right. intros q [Hq|Hq]; [|exact (Hno q Hq)]. congruence. }
        destruct Hdec as [(q & Hq & Ha)|Hno].
        * apply (IH q); [apply above_shorter in Ha; lia|exact Hq].
        * exists p. split; [exact Hin|exact Hno].
      + exists p. split; [exact Hin|]. intros q Hq Ha. apply leads_spec in Ha.
        assert (Ht : existsb (fun b : path * claim => leads (fst b) p &&
                  (if (list_eq_dec string_dec (fst b) (fst b)) then true else false)) l = true).
        { apply existsb_exists. exists (q, c). split; [exact Hq|]. simpl. rewrite Ha.
          destruct (list_eq_dec string_dec q q); [reflexivity|congruence]. }
        congruence. }
  intros p. apply (H (List.length p)). lia.
Qed.

(** ** What the actions of all statements are *)

Definition act_claims (a : action) : list claim :=
  match a_discr a with Some d => claim_of d | None => [] end.
Definition tagged (l : list (path * action)) : list (path * claim) :=
  flat_map (fun b => map (pair (fst b)) (act_claims (snd b))) l.

Definition perm_action (id title : string) : action :=
  mkAction (Some (DiUtility "IPermission" id)) (APermission id title) false.
Definition policy_action (q : policy) : action := mkAction (Some DiPolicy) (APolicy q) false.

Record facts (u u2 : nat) (S : list statement) (l : list (path * action)) : Prop := mkFacts {
  fc_usual : forall d, In d (discrs (map snd l)) -> usual d;
  fc_claims : Permutation (tagged l) (claimed S);
  fc_le : u <= u2;
  fc_uniques : uniques (map snd l) = seq u (u2 - u);
  fc_late : late (map snd l) = map check_action (filter not_public (used (map sm_dir S)));
  fc_early : forall a, In a (map snd l) -> a_late a = false -> forall id, a_call a <> ACheck id;
  fc_fits : forall p a, In (p, a) l ->
    exists s, In s S /\ sm_path s = p /\ directive_fits (sm_meaning s) (sm_dir s) a;
  fc_read : forall s k n t, In s S -> protects (sm_meaning s) (sm_dir s) (ClRead k n) t ->
    In (sm_path s, name_action k t n) l;
  fc_write : forall s k n t, In s S -> protects (sm_meaning s) (sm_dir s) (ClWrite k n) t ->
    In (sm_path s, set_action k t n) l;
  fc_module : forall s k n t, In s S -> protects (sm_meaning s) (sm_dir s) (ClModule k n) t ->
    In (sm_path s, module_action k t n) l;
  fc_perm : forall s id title, In s S -> sm_dir s = ZPermission id title ->
    In (sm_path s, perm_action id title) l;
  fc_policy : forall s q, In s S -> sm_dir s = ZPolicy q -> In (sm_path s, policy_action q) l;
  fc_targets : forall d, In d (decls_in (map snd l)) -> In (target d) (touched (map sm_dir S));
  fc_likes : forall k k', In (DLike k k') (decls_in (map snd l)) -> In k' (likes (map sm_dir S))
}.

Lemma tagged_pair p al : tagged (map (pair p) al) = map (pair p) (claims_in al).
Proof.
  unfold tagged, claims_in, discrs. induction al as [|a al IH]; simpl; [reflexivity|].
  rewrite IH, flat_map_app, map_app. f_equal. unfold act_claims. destruct (a_discr a); simpl;
    [rewrite app_nil_r|]; reflexivity.
Qed.
Lemma map_snd_pair (p : path) (al : list action) : map snd (map (pair p) al) = al.
Proof. rewrite map_map. simpl. apply map_id. Qed.

Lemma touched_cons d ds : touched (d :: ds) = (touched [d] ++ touched ds)%list.
Proof. unfold touched. simpl. rewrite app_nil_r. reflexivity. Qed.
Lemma likes_cons d ds : likes (d :: ds) = (likes [d] ++ likes ds)%list.
Proof. unfold likes. simpl. rewrite app_nil_r. reflexivity. Qed.

Lemma made_facts u u2 S l : made u u2 S l -> all_wf S -> facts u u2 S l.
Proof.
  intros H. induction H as [u|u u1 u2 s ss al l Hs Hm IH]; intros Hwf.
  - constructor; simpl; try (intros; contradiction); try reflexivity; try constructor.
    rewrite Nat.sub_diag. reflexivity.
  - assert (Hwf1 : forall i, In i (ifaces [sm_dir s]) -> iface_wf i).
    { intros i Hi. apply (Hwf s i (or_introl eq_refl) Hi). }
    specialize (IH (fun s' i Hs' => Hwf s' i (or_intror Hs'))).
    destruct Hs as (o & c' & Hmap & Hr & Hal & Hu).
    destruct (directive_step (sm_meaning s) (sm_dir s) (mkCtx [] u o) Hmap Hwf1)
      as [(_ & c1 & Hr1 & _ & l1 & (M1 & M2 & M3) & S1)|(_ & e & c1 & Hr1 & _)]; [|congruence].
    assert (c1 = c') by congruence. subst c1. simpl in M1. rewrite Hal in M1. subst l1.
    simpl in M2, M3. rewrite Hu in M2, M3.
    destruct (directive_fits_lemma (sm_meaning s) (sm_dir s) (mkCtx [] u o) c' Hmap Hwf1 Hr) as (l1 & A & F & C1 & C2 & C3).
    simpl in A. rewrite Hal in A. subst l1.
    destruct IH as [I1 I2 I3 I4 I5 I6 I7 I8 I9 I10 I11 I12 I13 I14].
    constructor; rewrite ?map_app, ?map_snd_pair.
    + intros d. rewrite discrs_app. intros Hd. apply in_app_or in Hd.
      destruct Hd as [Hd|Hd]; [exact (sy_usual _ _ _ _ _ _ _ _ _ S1 d Hd)|exact (I1 d Hd)].
    + unfold tagged. rewrite flat_map_app. fold (tagged (map (pair (sm_path s)) al)). fold (tagged l).
      rewrite tagged_pair. unfold claimed. simpl. apply Permutation_app; [|exact I2].
      apply Permutation_map. exact (sy_claims _ _ _ _ _ _ _ _ _ S1).
    + lia.
    + rewrite uniques_app, M3, I4. replace (u2 - u) with ((u1 - u) + (u2 - u1)) by lia.
      rewrite seq_app. f_equal. f_equal. lia.
    + unfold late. rewrite filter_app. fold (late al). fold (late (map snd l)).
      rewrite (sy_late _ _ _ _ _ _ _ _ _ S1), I5. unfold used. simpl.
      rewrite filter_app, map_app. reflexivity.
    + intros a Ha. apply in_app_or in Ha. destruct Ha as [Ha|Ha];
        [exact (sy_early _ _ _ _ _ _ _ _ _ S1 a Ha)|exact (I6 a Ha)].
    + intros p a Ha. apply in_app_or in Ha. destruct Ha as [Ha|Ha].
      * apply in_map_iff in Ha. destruct Ha as (x & Hx & Hin). injection Hx as <- <-.
        exists s. split; [left; reflexivity|]. split; [reflexivity|exact (F x Hin)].
      * destruct (I7 p a Ha) as (s' & H1 & H2). exists s'. split; [right; exact H1|exact H2].
    + intros s' k n t [<-|Hs'] Hp; apply in_or_app; [left|right; exact (I8 s' k n t Hs' Hp)].
      apply in_map. exact (C1 k n t Hp).
    + intros s' k n t [<-|Hs'] Hp; apply in_or_app; [left|right; exact (I9 s' k n t Hs' Hp)].
      apply in_map. exact (C2 k n t Hp).
    + intros s' k n t [<-|Hs'] Hp; apply in_or_app; [left|right; exact (I10 s' k n t Hs' Hp)].
      apply in_map. exact (C3 k n t Hp).
    + intros s' id title [<-|Hs'] Hp; apply in_or_app; [left|right; exact (I11 s' id title Hs' Hp)].
      apply in_map. rewrite Hp in Hr. unfold process_directive, permission_directive, zbind, z_action in Hr.
      simpl in Hr. inversion Hr as [Hc']. rewrite <- Hal, <- Hc'. left. reflexivity.
    + intros s' q [<-|Hs'] Hp; apply in_or_app; [left|right; exact (I12 s' q Hs' Hp)].
      apply in_map. rewrite Hp in Hr. simpl in Hr. unfold securityPolicy, z_action in Hr.
      inversion Hr as [Hc']. rewrite <- Hal, <- Hc'. left. reflexivity.
    + intros d. rewrite decls_app. change (map sm_dir (s :: ss)) with (sm_dir s :: map sm_dir ss). rewrite touched_cons. intros Hd. apply in_or_app.
      apply in_app_or in Hd. destruct Hd as [Hd|Hd];
        [left; exact (sy_targets _ _ _ _ _ _ _ _ _ S1 d Hd)|right; exact (I13 d Hd)].
    + intros k k'. rewrite decls_app. change (map sm_dir (s :: ss)) with (sm_dir s :: map sm_dir ss). rewrite likes_cons. intros Hd. apply in_or_app.
      apply in_app_or in Hd. destruct Hd as [Hd|Hd];
        [left; exact (sy_likes _ _ _ _ _ _ _ _ _ S1 k k' Hd)|right; exact (I14 k k' Hd)].
Qed.

(** ** Resolution *)

Definition claim_dec : forall a b : claim, {a = b} + {a <> b}.
Proof. intros a b. repeat (decide equality || apply string_dec). Defined.
Definition claim_eqb (a b : claim) : bool := if claim_dec a b then true else false.
Lemma claim_eqb_spec a b : claim_eqb a b = true <-> a = b.
Proof. unfold claim_eqb. destruct (claim_dec a b); split; congruence. Qed.

Definition keepc (T : list (path * claim)) (x : path * claim) : bool :=
  negb (existsb (fun y => leads (fst y) (fst x) && claim_eqb (snd x) (snd y)) T).

Lemma keepc_spec T p c : keepc T (p, c) = true <-> stands T p c.
Proof.
  unfold keepc, stands. rewrite negb_true_iff. split.
  - intros H q Hq Ha. apply leads_spec in Ha. apply not_true_iff_false in H. apply H.
    apply existsb_exists. exists (q, c). split; [exact Hq|]. simpl. rewrite Ha. simpl.
    apply claim_eqb_spec. reflexivity.
  - intros H. apply not_true_iff_false. intros Hx. apply existsb_exists in Hx.
    destruct Hx as ([q c'] & Hq & He). simpl in He. apply andb_true_iff in He. destruct He as [H1 H2].
    apply claim_eqb_spec in H2. subst c'. apply leads_spec in H1. exact (H q Hq H1).
Qed.

Lemma stands_perm T T' p c : Permutation T T' -> (stands T p c <-> stands T' p c).
Proof.
  intros H. unfold stands. split; intros Hs q Hq; apply Hs;
    [apply (Permutation_in _ (Permutation_sym H))|apply (Permutation_in _ H)]; exact Hq.
Qed.

Lemma keepc_perm T T' x : Permutation T T' -> keepc T x = keepc T' x.
Proof.
  intros H. destruct x as [p c]. apply eq_true_iff_eq. rewrite !keepc_spec. apply stands_perm. exact H.
Qed.

Lemma consistent_nodup T T' : Permutation T T' ->
  (NoDup (map snd (filter (keepc T) T)) <-> consistent T').
Proof.
  intros H.
  assert (Hf : Permutation (map snd (filter (keepc T) T)) (map snd (filter (keepc T') T'))).
  { apply Permutation_map. rewrite (filter_ext _ _ (fun x => keepc_perm T T' x H)).
    apply Permutation_filter'. exact H. }
  transitivity (NoDup (map snd (filter (keepc T') T'))).
  { split; apply Permutation_NoDup; [exact Hf|symmetry; exact Hf]. }
  rewrite nodup_map_filter. unfold consistent. split.
  - intros Hc i j p q c Hi Hj Hp Hq. apply (Hc i j p q c Hi Hj); apply keepc_spec; assumption.
  - intros Hc i j p q c Hi Hj Hp Hq. apply (Hc i j p q c Hi Hj); apply keepc_spec; assumption.
Qed.

Definition keep (l : list (path * action)) (a : path * action) : bool := negb (overridden l a).

Lemma in_discrs a d (l : list action) : In a l -> a_discr a = Some d -> In d (discrs l).
Proof.
  intros H Hd. unfold discrs. apply in_flat_map. exists a. split; [exact H|]. rewrite Hd. left. reflexivity.
Qed.

Lemma in_tagged p c l : In (p, c) (tagged l) <-> exists a, In (p, a) l /\ In c (act_claims a).
Proof.
  unfold tagged. rewrite in_flat_map. split.
  - intros ([q a] & Ha & Hc). simpl in Hc. apply in_map_iff in Hc. destruct Hc as (c' & Hx & Hc).
    injection Hx as -> ->. exists a. auto.
  - intros (a & Ha & Hc). exists (p, a). split; [exact Ha|]. apply in_map_iff. exists c. auto.
Qed.

Lemma keep_claim l (p : path) a c :
  (forall d, In d (discrs (map snd l)) -> usual d) -> In (p, a) l -> act_claims a = [c] ->
  keep l (p, a) = keepc (tagged l) (p, c).
Proof.
  intros Hu Ha Hc. apply eq_true_iff_eq. rewrite keepc_spec. unfold keep, overridden. simpl.
  assert (Hd : exists d, a_discr a = Some d /\ claim_of d = [c]).
  { unfold act_claims in Hc. destruct (a_discr a) as [d|]; [exists d; auto|discriminate]. }
  destruct Hd as (d & Hd & Hdc). rewrite Hd.
  assert (Hud : usual d).
  { apply Hu. apply (in_discrs a d); [apply (in_map snd l (p, a)); exact Ha|exact Hd]. }
  rewrite negb_true_iff. split.
  - intros H q Hq Hab. apply not_true_iff_false in H. apply H. apply in_tagged in Hq.
    destruct Hq as (b & Hb & Hcb). apply existsb_exists. exists (q, b). split; [exact Hb|]. simpl.
    apply leads_spec in Hab. rewrite Hab. simpl. unfold act_claims in Hcb.
    destruct (a_discr b) as [d'|] eqn:Hd'; [|contradiction].
    assert (Hud' : usual d').
    { apply Hu. apply (in_discrs b d'); [apply (in_map snd l (q, b)); exact Hb|exact Hd']. }
    assert (Hc' : claim_of d' = [c]).
    { destruct (usual_cases d' Hud') as [(c' & H1 & _)|(u & H1 & _)]; rewrite H1 in Hcb |- *;
        [|contradiction]. destruct Hcb as [->|[]]. reflexivity. }
    rewrite (claim_of_inj d d' c Hud Hud' Hdc Hc').
    destruct (discr_eqb_spec d' d'); [reflexivity|congruence].
  - intros H. apply not_true_iff_false. intros Hx. apply existsb_exists in Hx.
    destruct Hx as ([q b] & Hb & He). simpl in He. apply andb_true_iff in He. destruct He as [H1 H2].
    destruct (a_discr b) as [d'|] eqn:Hd'; [|discriminate].
    destruct (discr_eqb_spec d d') as [->|]; [|discriminate].
    apply (H q); [|apply leads_spec; exact H1]. apply in_tagged. exists b. split; [exact Hb|].
    unfold act_claims. rewrite Hd', Hdc. left. reflexivity.
Qed.

Lemma act_claims_cases (l : list (path * action)) (p : path) a :
  (forall d, In d (discrs (map snd l)) -> usual d) -> In (p, a) l ->
  act_claims a = [] \/ exists c, act_claims a = [c].
Proof.
  intros Hu Ha. unfold act_claims. destruct (a_discr a) as [d|] eqn:Hd; [|left; reflexivity].
  assert (Hud : usual d).
  { apply Hu. apply (in_discrs a d); [apply (in_map snd l (p, a)); exact Ha|exact Hd]. }
  destruct (usual_cases d Hud) as [(c & H & _)|(u & H & _)]; [right; exists c|left]; exact H.
Qed.

(** The claims that remain are those that stand. *)
Lemma tagged_keep l :
  (forall d, In d (discrs (map snd l)) -> usual d) ->
  tagged (filter (keep l) l) = filter (keepc (tagged l)) (tagged l).
Proof.
  intros Hu.
  assert (H : forall l', incl l' l ->
    tagged (filter (keep l) l') = filter (keepc (tagged l)) (tagged l')).
  { induction l' as [|[p a] l' IH]; intros Hin; [reflexivity|].
    assert (Ha : In (p, a) l) by (apply Hin; left; reflexivity).
    specialize (IH (fun x Hx => Hin x (or_intror Hx))).
    change (tagged (@cons (path * action) (p, a) l')) with (map (@pair path claim p) (act_claims a) ++ tagged l')%list.
    rewrite filter_app. simpl filter at 1.
    destruct (act_claims_cases l p a Hu Ha) as [Hc|(c & Hc)].
    - rewrite Hc. simpl. destruct (keep l (p, a)); [|exact IH].
      change (tagged (@cons (path * action) (p, a) (filter (keep l) l')))
        with (map (@pair path claim p) (act_claims a) ++ tagged (filter (keep l) l'))%list.
      rewrite Hc. exact IH.
    - rewrite (keep_claim l p a c Hu Ha Hc), Hc. simpl. destruct (keepc (tagged l) (p, c)); [|exact IH].
      change (tagged (@cons (path * action) (p, a) (filter (keep l) l')))
        with (map (@pair path claim p) (act_claims a) ++ tagged (filter (keep l) l'))%list.
      rewrite Hc. simpl. rewrite IH. reflexivity. }
  apply H. intros x Hx. exact Hx.
Qed.

Lemma claims_tagged l : claims_in (map snd l) = map snd (tagged l).
Proof.
  unfold claims_in, discrs, tagged. induction l as [|[p a] l IH]; simpl; [reflexivity|].
  rewrite flat_map_app, map_app, IH. f_equal. unfold act_claims. rewrite map_map. simpl. rewrite map_id.
  destruct (a_discr a); simpl; [rewrite app_nil_r|]; reflexivity.
Qed.

Lemma resolved_conflict u u2 S l : facts u u2 S l ->
  (conflict (resolved l) = false <-> consistent (claimed S)).
Proof.
  intros F. unfold resolved. fold (keep l).
  change (fun a : path * action => negb (overridden l a)) with (keep l).
  assert (Hu := fc_usual _ _ _ _ F).
  assert (Hu' : forall d, In d (discrs (map snd (filter (keep l) l))) -> usual d).
  { intros d Hd. apply Hu. unfold discrs in *. apply in_flat_map in Hd. destruct Hd as (a & Ha & Hd).
    apply in_flat_map. exists a. split; [|exact Hd]. apply in_map_iff in Ha.
    destruct Ha as (x & <- & Hx). apply filter_In in Hx. apply in_map. exact (proj1 Hx). }
  rewrite conflict_spec, (discrs_nodup _ Hu').
  - rewrite claims_tagged, (tagged_keep l Hu). apply consistent_nodup. exact (fc_claims _ _ _ _ F).
  - assert (Hn : NoDup (uniques (map snd l))) by (rewrite (fc_uniques _ _ _ _ F); apply seq_NoDup).
    unfold uniques, discrs in *.
    assert (Hx : forall l0 : list (path * action), flat_map unique_of
        (flat_map (fun a => match a_discr a with Some d => [d] | None => [] end) (map snd l0)) =
      flat_map (fun b => match a_discr (snd b) with Some d => unique_of d | None => [] end) l0).
    { induction l0 as [|[p a] l0 IH]; simpl; [reflexivity|]. rewrite flat_map_app, IH. f_equal.
      destruct (a_discr a); simpl; [rewrite app_nil_r|]; reflexivity. }
    rewrite Hx in Hn |- *. apply nodup_flat_map_filter. exact Hn.
Qed.

Lemma resolved_incl l a : In a (resolved l) -> In a (map snd l).
Proof.
  unfold resolved. intros H. apply in_map_iff in H. destruct H as (x & <- & Hx).
  apply filter_In in Hx. apply in_map. exact (proj1 Hx).
Qed.

Lemma resolved_late l :
  (forall a, In a (map snd l) -> a_late a = true -> a_discr a = None) ->
  late (resolved l) = late (map snd l).
Proof.
  intros H. unfold resolved. change (fun a : path * action => negb (overridden l a)) with (keep l).
  assert (Hx : forall l', incl l' l -> late (map snd (filter (keep l) l')) = late (map snd l')).
  { induction l' as [|[p a] l' IH]; intros Hin; [reflexivity|].
    specialize (IH (fun x Hx => Hin x (or_intror Hx))). simpl.
    destruct (a_late a) eqn:Hl.
    - assert (Hd : a_discr a = None).
      { apply H; [|exact Hl]. apply (in_map snd l (p, a)). apply Hin. left. reflexivity. }
      assert (Hk : keep l (p, a) = true) by (unfold keep, overridden; simpl; rewrite Hd; reflexivity).
      rewrite Hk. simpl. unfold late in *. simpl. rewrite Hl. f_equal. exact IH.
    - destruct (keep l (p, a)); [|exact IH]. simpl. unfold late in *. simpl. rewrite Hl. exact IH. }
  apply Hx. intros x Hx'. exact Hx'.
Qed.

Lemma decls_incl (l l' : list action) : incl l l' -> incl (decls_in l) (decls_in l').
Proof.
  intros H d Hd. unfold decls_in in *. apply in_flat_map in Hd. destruct Hd as (a & Ha & Hd).
  apply in_flat_map. exists a. split; [apply H; exact Ha|exact Hd].
Qed.

(** ** Executing the resolved actions *)

Definition executed (E : env) (l : list action) (w w' : world) : Prop :=
  (forall k n, read_protection (w_core w') k n =
               declared_reads (decls_in l) (read_protection (w_core w)) k n) /\
  (forall k n, write_protection (w_core w') k n =
               declared_writes (decls_in l) (write_protection (w_core w)) k n) /\
  w_perms w' = fold_left (fun d e => dset String.eqb d (fst e) (snd e)) (perms_in l) (w_perms w) /\
  st_policy (w_core w') = policies_in l (st_policy (w_core w)) /\
  (forall k, ~ In k (map target (decls_in l)) ->
     dget rkey_eqb (st_reg (w_core w')) k = dget rkey_eqb (st_reg (w_core w)) k) /\
  (forall k i c, live (w_core w') k i c ->
     live (w_core w) k i c \/ (ck_kind c = Checker_class E /\ i <> default_cid)).

Lemma perms_in_In l id title :
  In (id, title) (perms_in l) <-> exists a, In a l /\ a_call a = APermission id title.
Proof.
  unfold perms_in. rewrite in_flat_map. split.
  - intros (a & Ha & H). exists a. split; [exact Ha|]. destruct (a_call a); try contradiction.
    destruct H as [H|[]]. injection H as -> ->. reflexivity.
  - intros (a & Ha & H). exists a. split; [exact Ha|]. rewrite H. left. reflexivity.
Qed.

Lemma fits_perm m d a id title : directive_fits m d a -> a_call a = APermission id title ->
  a = perm_action id title /\ d = ZPermission id title.
Proof.
  intros H Hc. destruct H; simpl in Hc; try discriminate. injection Hc as -> ->. auto.
Qed.

Lemma protects_ok_claims m d c t : protects m d c t -> In c (directive_claims d).
Proof.
  intros H. destruct H as [k subs s c t Hs H|k subs s c t Hs H]; simpl; apply in_flat_map; exists s;
    (split; [exact Hs|]).
  - destruct H; simpl; try (apply in_or_app); try (left; apply in_map; assumption);
      try (right; apply in_map; assumption). apply in_map. assumption.
  - destruct H; simpl; apply in_map; apply nodup_In; assumption.
Qed.

Lemma resolved_in u u2 S l p a c : facts u u2 S l ->
  In (p, a) l -> act_claims a = [c] -> stands (claimed S) p c -> In a (resolved l).
Proof.
  intros F Ha Hc Hs. unfold resolved. change (fun a : path * action => negb (overridden l a)) with (keep l).
  apply (in_map snd _ (p, a)). apply filter_In. split; [exact Ha|].
  rewrite (keep_claim l p a c (fc_usual _ _ _ _ F) Ha Hc). apply keepc_spec.
  apply (stands_perm _ _ p c (fc_claims _ _ _ _ F)). exact Hs.
Qed.

Lemma standing_perm S s t title : In s S -> sm_dir s = ZPermission t title ->
  exists s' title', In s' S /\ sm_dir s' = ZPermission t title' /\
    stands (claimed S) (sm_path s') (ClPermission t).
Proof.
  intros Hs Hd.
  assert (Hc : In (sm_path s, ClPermission t) (claimed S)).
  { unfold claimed. apply in_flat_map. exists s. split; [exact Hs|]. rewrite Hd. left. reflexivity. }
  destruct (some_stands _ _ _ Hc) as (q & Hq & Hst).
  unfold claimed in Hq. apply in_flat_map in Hq. destruct Hq as (s' & Hs' & Hq).
  apply in_map_iff in Hq. destruct Hq as (c' & Hx & Hq). injection Hx as Hx1 Hx2. subst c'.
  assert (Hd' : exists title', sm_dir s' = ZPermission t title').
  { destruct (sm_dir s') as [id ti|a b|q'|k subs|k subs]; simpl in Hq.
    - destruct Hq as [Hq|[]]. injection Hq as ->. exists ti. reflexivity.
    - contradiction.
    - destruct Hq as [Hq|[]]. discriminate.
    - exfalso. apply in_flat_map in Hq. destruct Hq as (x & _ & Hq). destruct x as [p a i lk sa ss|a i|i|o]; simpl in Hq.
      + apply in_app_or in Hq. destruct Hq as [Hq|Hq]; apply in_map_iff in Hq;
          destruct Hq as (n & Hn & _); discriminate.
      + apply in_map_iff in Hq. destruct Hq as (n & Hn & _). discriminate.
      + contradiction.
      + destruct o; destruct Hq as [Hq|[]]; discriminate.
    - exfalso. apply in_flat_map in Hq. destruct Hq as (x & _ & Hq).
      destruct x; simpl in Hq; apply in_map_iff in Hq; destruct Hq as (n & Hn & _); discriminate. }
  destruct Hd' as (title' & Hd'). exists s', title'. split; [exact Hs'|]. split; [exact Hd'|].
  rewrite Hx1. exact Hst.
Qed.

Lemma defined_files u u2 S l w w' t : facts u u2 S l ->
  w_perms w' = fold_left (fun d e => dset String.eqb d (fst e) (snd e)) (perms_in (resolved l)) (w_perms w) ->
  (t = "zope.Public" \/ In t (map fst (w_perms w'))) <-> defined (map sm_dir S) w t.
Proof.
  intros F Hp. unfold defined. rewrite Hp, fold_dset_keys.
  assert (H : In t (map fst (perms_in (resolved l))) <->
              exists title, In (ZPermission t title) (map sm_dir S)).
  { split.
    - intros H. apply in_map_iff in H. destruct H as ([i ti] & Hi & H). simpl in Hi. subst i.
      apply perms_in_In in H. destruct H as (a & Ha & Hc). apply resolved_incl in Ha.
      apply in_map_iff in Ha. destruct Ha as ([p a'] & Hx & Ha). simpl in Hx. subst a'.
      destruct (fc_fits _ _ _ _ F p a Ha) as (s & Hs & _ & Hf).
      destruct (fits_perm _ _ _ _ _ Hf Hc) as [_ Hd]. exists ti. rewrite <- Hd. apply in_map. exact Hs.
    - intros (title & H). apply in_map_iff in H. destruct H as (s & Hd & Hs).
      destruct (standing_perm S s t title Hs Hd) as (s' & title' & Hs' & Hd' & Hst).
      assert (Hin := fc_perm _ _ _ _ F s' t title' Hs' Hd').
      apply in_map_iff. exists (t, title'). split; [reflexivity|]. apply perms_in_In.
      exists (perm_action t title'). split; [|reflexivity].
      apply (resolved_in u u2 S l (sm_path s') _ (ClPermission t) F Hin); [reflexivity|exact Hst]. }
  rewrite H. tauto.
Qed.

Lemma files_lemma E ns w :
  files_loadable ns w ->
  (~ all_ok (statements ns) /\ exists e, configure_files E ns w = (Exc e, w) /\
     ((exists t, e = EConfiguration t) \/ e = EAttribute "__module__")) \/
  (all_ok (statements ns) /\ ~ consistent (claimed (statements ns)) /\
     configure_files E ns w = (Exc (EConfiguration "conflict"), w)) \/
  (all_ok (statements ns) /\ consistent (claimed (statements ns)) /\
   exists u l w', facts 0 u (statements ns) l /\ executed E (resolved l) w w' /\
     NoDup (discrs (resolved l)) /\
     (((forall t, In t (used (directives ns)) -> defined (directives ns) w t) /\
       configure_files E ns w = (Ok tt, w')) \/
      (~ (forall t, In t (used (directives ns)) -> defined (directives ns) w t) /\
       configure_files E ns w = (Exc (EValue "Undefined permission ID"), w')))).
Proof.
  intros [Hcf Hwf].
  assert (Hawf : all_wf (statements ns)).
  { intros s i Hs Hi. apply Hwf. unfold ifaces in *. simpl in Hi. rewrite app_nil_r in Hi.
    apply in_flat_map. exists (sm_dir s). split; [apply in_map; exact Hs|exact Hi]. }
  assert (Hst : matches start beginning).
  { split; [discriminate|]. split; [reflexivity|]. split; [reflexivity|]. split; [discriminate|].
    intros H. exfalso. apply H. reflexivity. }
  assert (Ho := nodes_outcome ns [] start beginning Hst Hawf).
  fold (statements ns) in Ho. unfold configure_files.
  destruct Ho as [(Hok & x & l & Hr & _ & _ & Ha & Hmd)|(Hno & e & x & Hr & Hx)]; rewrite Hr;
    [|left; split; [exact Hno|]; exists e; split; [reflexivity|exact Hx]].
  right. simpl in Ha, Hmd. assert (F := made_facts _ _ _ _ Hmd Hawf). rewrite Ha.
  assert (Hconf := resolved_conflict _ _ _ _ F).
  destruct (conflict (resolved l)) eqn:Hc.
  { left. split; [exact Hok|]. split; [|reflexivity]. intros H. apply Hconf in H. discriminate. }
  right. split; [exact Hok|]. split; [apply Hconf; reflexivity|].
  assert (Hlate : late (resolved l) = map check_action (filter not_public (used (directives ns)))).
  { rewrite resolved_late; [exact (fc_late _ _ _ _ F)|]. intros a Ha1 Ha2.
    assert (Hin : In a (late (map snd l))) by (apply filter_In; auto).
    rewrite (fc_late _ _ _ _ F) in Hin. apply in_map_iff in Hin. destruct Hin as (t & <- & _). reflexivity. }
  assert (Hearly : forall a, In a (resolved l) -> a_late a = false -> forall id, a_call a <> ACheck id).
  { intros a Ha1. apply (fc_early _ _ _ _ F). apply resolved_incl. exact Ha1. }
  unfold execution_order. fold (early (resolved l)). fold (late (resolved l)).
  destruct (early_late (resolved l) Hearly _ Hlate) as (He1 & He2 & He3).
  assert (Hel : forall a, In a (early (resolved l)) -> a_late a = false /\ forall id, a_call a <> ACheck id).
  { intros a Ha1. unfold early in Ha1. apply filter_In in Ha1. destruct Ha1 as [Ha1 Hb].
    apply negb_true_iff in Hb. split; [exact Hb|]. exact (Hearly a Ha1 Hb). }
  assert (Hinc : incl (decls_in (resolved l)) (decls_in (map snd l))).
  { apply decls_incl. intros a. apply resolved_incl. }
  assert (Hdec : declarable (decls_in (early (resolved l))) (w_core w)).
  { rewrite He1. destruct Hcf as (Hrw & Ht & Hl). split; [exact Hrw|]. intros d Hd.
    destruct (Ht _ (fc_targets _ _ _ _ F d (Hinc d Hd))) as (H1 & H2 & H3).
    split; [exact H1|]. split; [exact H2|]. split; [exact H3|].
    intros k l' ->. apply Hl. exact (fc_likes _ _ _ _ F k l' (Hinc _ Hd)). }
  destruct (exec_early E (early (resolved l)) w Hel Hdec)
    as (w' & Hx & Hrd & Hwr & Hpp & Hoc & Hpol & Hreg & Hkn & Hdk & Hlk).
  rewrite (exec_app E _ _ _ _ Hx), Hlate. rewrite He2 in Hpp.
  exists (t_unique x), l, w'. split; [exact F|]. split.
  { split; [intros k n; rewrite Hrd, He1; reflexivity|].
    split; [intros k n; rewrite Hwr, He1; reflexivity|].
    split; [exact Hpp|]. split; [rewrite Hpol, He3; reflexivity|].
    split; [intros k Hk; apply Hreg; rewrite He1; exact Hk|]. exact Hkn. }
  split; [apply conflict_spec; exact Hc|].
  assert (Hdef : forall t, (t = "zope.Public" \/ In t (map fst (w_perms w'))) <->
                           defined (directives ns) w t).
  { intros t. exact (defined_files _ _ _ _ w w' t F Hpp). }
  destruct (exec_checks E (used (directives ns)) w') as [[H1 H2]|[H1 H2]]; rewrite H2; [left|right].
  - split; [intros t Ht; apply Hdef; auto|reflexivity].
  - split; [intros H; apply H1; intros t Ht; apply Hdef; auto|reflexivity].
Qed.

(** ** What the resolved actions declare *)

Lemma reads_none ds : forall (f : protection) k n,
  (forall l, ~ In (DLike k l) ds) -> (forall p, ~ In (DName k n p) ds) ->
  declared_reads ds f k n = f k n.
Proof.
  induction ds as [|d ds IH]; intros f k n Hl Hn; [reflexivity|].
  change (declared_reads ds (declared_read d f) k n = f k n).
  rewrite IH; [|intros l H; exact (Hl l (or_intror H))|intros p H; exact (Hn p (or_intror H))].
  destruct d as [k' n' p'|k' n' p'|k' l']; simpl; [unfold declare|reflexivity|unfold inherit].
  - destruct (rkey_eqb_spec k k') as [->|]; simpl; [|reflexivity].
    destruct (String.eqb_spec n n') as [->|]; [|reflexivity].
    exfalso. exact (Hn p' (or_introl eq_refl)).
  - destruct (rkey_eqb_spec k k') as [->|]; [|reflexivity]. exfalso. exact (Hl l' (or_introl eq_refl)).
Qed.

Lemma reads_some ds : forall (f : protection) k n q p0,
  (forall l, ~ In (DLike k l) ds) -> (forall p, In (DName k n p) ds -> meant p = q) ->
  In (DName k n p0) ds -> declared_reads ds f k n = Some q.
Proof.
  induction ds as [|d ds IH]; intros f k n q p0 Hl Hn Hin; [contradiction|].
  change (declared_reads ds (declared_read d f) k n = Some q).
  assert (Hd : (exists p, In (DName k n p) ds) \/ forall p, ~ In (DName k n p) ds).
  { clear. induction ds as [|d ds [(p & Hp)|H]].
    - right. intros p [].
    - left. exists p. right. exact Hp.
    - destruct d as [k' n' p'|k' n' p'|k' l'].
      + destruct (rkey_eqb_spec k k') as [->|Hk].
        * destruct (String.eqb_spec n n') as [->|Hn].
          -- left. exists p'. left. reflexivity.
          -- right. intros p [Hp|Hp]; [congruence|exact (H p Hp)].
        * right. intros p [Hp|Hp]; [congruence|exact (H p Hp)].
      + right. intros p [Hp|Hp]; [discriminate Hp|exact (H p Hp)].
      + right. intros p [Hp|Hp]; [discriminate Hp|exact (H p Hp)]. }
  destruct Hd as [(p & Hp)|Hno].
  - apply (IH _ k n q p); [intros l H; exact (Hl l (or_intror H))|intros p' H; exact (Hn p' (or_intror H))|exact Hp].
  - rewrite reads_none; [|intros l H; exact (Hl l (or_intror H))|exact Hno].
    destruct Hin as [->|Hin]; [|exfalso; exact (Hno _ Hin)]. simpl. unfold declare.
    destruct (rkey_eqb_spec k k) as [_|H]; [|congruence]. rewrite String.eqb_refl. simpl.
    f_equal. apply Hn. left. reflexivity.
Qed.

Lemma writes_none ds : forall (f : protection) k n,
  (forall l, ~ In (DLike k l) ds) -> (forall p, ~ In (DSet k n p) ds) ->
  declared_writes ds f k n = f k n.
Proof.
  induction ds as [|d ds IH]; intros f k n Hl Hn; [reflexivity|].
  change (declared_writes ds (declared_write d f) k n = f k n).
  rewrite IH; [|intros l H; exact (Hl l (or_intror H))|intros p H; exact (Hn p (or_intror H))].
  destruct d as [k' n' p'|k' n' p'|k' l']; simpl; [reflexivity|unfold declare|unfold inherit].
  - destruct (rkey_eqb_spec k k') as [->|]; simpl; [|reflexivity].
    destruct (String.eqb_spec n n') as [->|]; [|reflexivity].
    exfalso. exact (Hn p' (or_introl eq_refl)).
  - destruct (rkey_eqb_spec k k') as [->|]; [|reflexivity]. exfalso. exact (Hl l' (or_introl eq_refl)).
Qed.

Lemma writes_some ds : forall (f : protection) k n q p0,
  (forall l, ~ In (DLike k l) ds) -> (forall p, In (DSet k n p) ds -> meant p = q) ->
  In (DSet k n p0) ds -> declared_writes ds f k n = Some q.
Proof.
  induction ds as [|d ds IH]; intros f k n q p0 Hl Hn Hin; [contradiction|].
  change (declared_writes ds (declared_write d f) k n = Some q).
  assert (Hd : (exists p, In (DSet k n p) ds) \/ forall p, ~ In (DSet k n p) ds).
  { clear. induction ds as [|d ds [(p & Hp)|H]].
    - right. intros p [].
    - left. exists p. right. exact Hp.
    - destruct d as [k' n' p'|k' n' p'|k' l'].
      + right. intros p [Hp|Hp]; [discriminate Hp|exact (H p Hp)].
      + destruct (rkey_eqb_spec k k') as [->|Hk].
        * destruct (String.eqb_spec n n') as [->|Hn].
          -- left. exists p'. left. reflexivity.
          -- right. intros p [Hp|Hp]; [congruence|exact (H p Hp)].
        * right. intros p [Hp|Hp]; [congruence|exact (H p Hp)].
      + right. intros p [Hp|Hp]; [discriminate Hp|exact (H p Hp)]. }
  destruct Hd as [(p & Hp)|Hno].
  - apply (IH _ k n q p); [intros l H; exact (Hl l (or_intror H))|intros p' H; exact (Hn p' (or_intror H))|exact Hp].
  - rewrite writes_none; [|intros l H; exact (Hl l (or_intror H))|exact Hno].
    destruct Hin as [->|Hin]; [|exfalso; exact (Hno _ Hin)]. simpl. unfold declare.
    destruct (rkey_eqb_spec k k) as [_|H]; [|congruence]. rewrite String.eqb_refl. simpl.
    f_equal. apply Hn. left. reflexivity.
Qed.

Lemma discr_unique l a b d : NoDup (discrs l) -> In a l -> In b l ->
  a_discr a = Some d -> a_discr b = Some d -> a = b.
Proof.
  induction l as [|x l IH]; intros Hn Ha Hb Hda Hdb; [contradiction|].
  assert (Hl : NoDup (discrs l)).
  { unfold discrs in *. simpl in Hn. destruct (a_discr x); simpl in Hn; [inversion Hn; assumption|exact Hn]. }
  destruct Ha as [->|Ha], Hb as [->|Hb]; auto.
  - exfalso. unfold discrs in Hn. simpl in Hn. rewrite Hda in Hn. inversion Hn as [|y z Hni _]; subst.
    apply Hni. exact (in_discrs b d l Hb Hdb).
  - exfalso. unfold discrs in Hn. simpl in Hn. rewrite Hdb in Hn. inversion Hn as [|y z Hni _]; subst.
    apply Hni. exact (in_discrs a d l Ha Hda).
Qed.

Section Resolved.
Variables (u u2 : nat) (ns : list node) (l : list (path * action)).
Hypothesis F : facts u u2 (statements ns) l.

Lemma resolved_fits a : In a (resolved l) ->
  exists s, In s (statements ns) /\ In (sm_path s, a) l /\ directive_fits (sm_meaning s) (sm_dir s) a.
Proof.
  intros H. apply resolved_incl in H. apply in_map_iff in H. destruct H as ([p x] & Hx & H).
  simpl in Hx. subst x. destruct (fc_fits _ _ _ _ F p a H) as (s & Hs & <- & Hf). exists s. auto.
Qed.

Lemma like_copying k k' : In (DLike k k') (decls_in (resolved l)) -> copying k (directives ns).
Proof.
  intros H. unfold decls_in in H. apply in_flat_map in H. destruct H as (a & Ha & Hd).
  destruct (resolved_fits a Ha) as (s & Hs & _ & Hf).
  destruct Hf; simpl in Hd; try contradiction; destruct Hd as [Hd|[]]; try discriminate Hd.
  injection Hd as -> ->. destruct H as (subs & x & Hd & Hx & Hl). exists subs, x.
  split; [rewrite <- Hd; apply in_map; exact Hs|auto].
Qed.

Lemma name_from k n p : In (DName k n p) (decls_in (resolved l)) ->
  exists s t, In s (statements ns) /\ p = zperm t /\
    ((protects (sm_meaning s) (sm_dir s) (ClRead k n) t /\ In (name_action k t n) (resolved l)) \/
     (protects (sm_meaning s) (sm_dir s) (ClModule k n) t /\ In (module_action k t n) (resolved l))).
Proof.
  intros H. unfold decls_in in H. apply in_flat_map in H. destruct H as (a & Ha & Hd).
  destruct (resolved_fits a Ha) as (s & Hs & _ & Hf).
  destruct Hf; simpl in Hd; try contradiction; destruct Hd as [Hd|[]]; try discriminate Hd;
    injection Hd as -> -> <-; exists s, t; auto.
Qed.

Lemma set_from k n p : In (DSet k n p) (decls_in (resolved l)) ->
  exists s t, In s (statements ns) /\ p = zperm t /\
    protects (sm_meaning s) (sm_dir s) (ClWrite k n) t /\ In (set_action k t n) (resolved l).
Proof.
  intros H. unfold decls_in in H. apply in_flat_map in H. destruct H as (a & Ha & Hd).
  destruct (resolved_fits a Ha) as (s & Hs & _ & Hf).
  destruct Hf; simpl in Hd; try contradiction; destruct Hd as [Hd|[]]; try discriminate Hd;
    injection Hd as -> -> <-; exists s, t; auto.
Qed.

Lemma in_decls a d : In a (resolved l) -> In d (decl_of (a_call a)) -> In d (decls_in (resolved l)).
Proof. intros H1 H2. unfold decls_in. apply in_flat_map. exists a. auto. Qed.

Hypothesis N : NoDup (discrs (resolved l)).

Lemma resolved_read s k n t (f : protection) :
  in_force ns s (ClRead k n) -> protects (sm_meaning s) (sm_dir s) (ClRead k n) t ->
  unclaimed ns (ClModule k n) -> ~ copying k (directives ns) ->
  declared_reads (decls_in (resolved l)) f k n = Some (protect_by t).
Proof.
  intros (Hs & _ & Hst) Hp Hu Hc.
  assert (Hin : In (name_action k t n) (resolved l)).
  { apply (resolved_in _ _ _ _ _ _ (ClRead k n) F (fc_read _ _ _ _ F s k n t Hs Hp)); [reflexivity|exact Hst]. }
  apply (reads_some _ f k n _ (zperm t)).
  - intros l' H. exact (Hc (like_copying _ _ H)).
  - intros p H. destruct (name_from k n p H) as (s' & t' & Hs' & -> & [[_ Ha]|[Hp' _]]).
    + assert (He : name_action k t' n = name_action k t n).
      { apply (discr_unique _ _ _ (DiProtectName k n) N Ha Hin); reflexivity. }
      injection He as Ht. rewrite Ht. apply meant_zperm.
    + exfalso. apply (Hu (sm_dir s')); [apply in_map; exact Hs'|]. exact (protects_ok_claims _ _ _ _ Hp').
  - apply (in_decls _ _ Hin). left. reflexivity.
Qed.

Lemma resolved_module s k n t (f : protection) :
  in_force ns s (ClModule k n) -> protects (sm_meaning s) (sm_dir s) (ClModule k n) t ->
  unclaimed ns (ClRead k n) -> ~ copying k (directives ns) ->
  declared_reads (decls_in (resolved l)) f k n = Some (protect_by t).
Proof.
  intros (Hs & _ & Hst) Hp Hu Hc.
  assert (Hin : In (module_action k t n) (resolved l)).
  { apply (resolved_in _ _ _ _ _ _ (ClModule k n) F (fc_module _ _ _ _ F s k n t Hs Hp)); [reflexivity|exact Hst]. }
  apply (reads_some _ f k n _ (zperm t)).
  - intros l' H. exact (Hc (like_copying _ _ H)).
  - intros p H. destruct (name_from k n p H) as (s' & t' & Hs' & -> & [[Hp' _]|[_ Ha]]).
    + exfalso. apply (Hu (sm_dir s')); [apply in_map; exact Hs'|]. exact (protects_ok_claims _ _ _ _ Hp').
    + assert (He : module_action k t' n = module_action k t n).
      { apply (discr_unique _ _ _ (DiModule k n) N Ha Hin); reflexivity. }
      injection He as Ht. rewrite Ht. apply meant_zperm.
  - apply (in_decls _ _ Hin). left. reflexivity.
Qed.

Lemma resolved_write s k n t (f : protection) :
  in_force ns s (ClWrite k n) -> protects (sm_meaning s) (sm_dir s) (ClWrite k n) t ->
  ~ copying k (directives ns) ->
  declared_writes (decls_in (resolved l)) f k n = Some (protect_by t).
Proof.
  intros (Hs & _ & Hst) Hp Hc.
  assert (Hin : In (set_action k t n) (resolved l)).
  { apply (resolved_in _ _ _ _ _ _ (ClWrite k n) F (fc_write _ _ _ _ F s k n t Hs Hp)); [reflexivity|exact Hst]. }
  apply (writes_some _ f k n _ (zperm t)).
  - intros l' H. exact (Hc (like_copying _ _ H)).
  - intros p H. destruct (set_from k n p H) as (s' & t' & Hs' & -> & _ & Ha).
    assert (He : set_action k t' n = set_action k t n).
    { apply (discr_unique _ _ _ (DiProtectSet k n) N Ha Hin); reflexivity. }
    injection He as Ht. rewrite Ht. apply meant_zperm.
  - apply (in_decls _ _ Hin). left. reflexivity.
Qed.

Lemma resolved_read_kept k n (f : protection) :
  unclaimed ns (ClRead k n) -> unclaimed ns (ClModule k n) -> ~ copying k (directives ns) ->
  declared_reads (decls_in (resolved l)) f k n = f k n.
Proof.
  intros H1 H2 Hc. apply reads_none.
  - intros l' H. exact (Hc (like_copying _ _ H)).
  - intros p H. destruct (name_from k n p H) as (s' & t' & Hs' & _ & [[Hp' _]|[Hp' _]]).
    + apply (H1 (sm_dir s')); [apply in_map; exact Hs'|]. exact (protects_ok_claims _ _ _ _ Hp').
    + apply (H2 (sm_dir s')); [apply in_map; exact Hs'|]. exact (protects_ok_claims _ _ _ _ Hp').
Qed.

Lemma resolved_write_kept k n (f : protection) :
  unclaimed ns (ClWrite k n) -> ~ copying k (directives ns) ->
  declared_writes (decls_in (resolved l)) f k n = f k n.
Proof.
  intros H1 Hc. apply writes_none.
  - intros l' H. exact (Hc (like_copying _ _ H)).
  - intros p H. destruct (set_from k n p H) as (s' & t' & Hs' & _ & Hp' & _).
    apply (H1 (sm_dir s')); [apply in_map; exact Hs'|]. exact (protects_ok_claims _ _ _ _ Hp').
Qed.

Lemma policies_some (al : list action) q : forall p,
  (exists a, In a al /\ a_call a = APolicy q) ->
  (forall a q', In a al -> a_call a = APolicy q' -> q' = q) -> policies_in al p = q.
Proof.
  assert (Hk : forall al, (forall a q', In a al -> a_call a = APolicy q' -> q' = q) ->
                          policies_in al q = q).
  { clear. induction al as [|a al IH]; intros H; [reflexivity|]. unfold policies_in in *. simpl.
    rewrite (IH (fun b q' Hb => H b q' (or_intror Hb))) || idtac.
    destruct (a_call a) eqn:Hc; try exact (IH (fun b q' Hb => H b q' (or_intror Hb))).
    rewrite (H a _ (or_introl eq_refl) Hc). exact (IH (fun b q' Hb => H b q' (or_intror Hb))). }
  induction al as [|a al IH]; intros p (b & Hb & Hc) H; [contradiction|].
  unfold policies_in in *. simpl. destruct Hb as [->|Hb].
  - rewrite Hc. apply Hk. intros b' q' Hb'. exact (H b' q' (or_intror Hb')).
  - apply IH; [exists b; auto|]. intros b' q' Hb'. exact (H b' q' (or_intror Hb')).
Qed.

Lemma policies_none (al : list action) : forall p,
  (forall a q, In a al -> a_call a <> APolicy q) -> policies_in al p = p.
Proof.
  induction al as [|a al IH]; intros p H; [reflexivity|]. unfold policies_in in *. simpl.
  destruct (a_call a) eqn:Hc; try exact (IH p (fun b q Hb => H b q (or_intror Hb))).
  exfalso. exact (H a p0 (or_introl eq_refl) Hc).
Qed.

Lemma resolved_policy s q p : in_force ns s ClPolicy -> sm_dir s = ZPolicy q ->
  policies_in (resolved l) p = q.
Proof.
  intros (Hs & _ & Hst) Hd.
  assert (Hin : In (policy_action q) (resolved l)).
  { apply (resolved_in _ _ _ _ _ _ ClPolicy F (fc_policy _ _ _ _ F s q Hs Hd)); [reflexivity|exact Hst]. }
  apply policies_some; [exists (policy_action q); auto|].
  intros a q' Ha Hc.
  assert (He : a = policy_action q).
  { apply (discr_unique _ _ _ DiPolicy N Ha Hin); [|reflexivity].
    destruct (resolved_fits a Ha) as (s' & _ & _ & Hf). destruct Hf; simpl in Hc; try discriminate Hc.
    reflexivity. }
  subst a. injection Hc as ->. reflexivity.
Qed.

Lemma resolved_policy_kept p : unclaimed ns ClPolicy -> policies_in (resolved l) p = p.
Proof.
  intros Hu. apply policies_none. intros a q Ha Hc.
  destruct (resolved_fits a Ha) as (s' & Hs & _ & Hf). destruct Hf; simpl in Hc; try discriminate Hc.
  apply (Hu (sm_dir s')); [apply in_map; exact Hs|]. rewrite H. left. reflexivity.
Qed.

Lemma fold_dset_none (ps : list (string * string)) id : forall d,
  (forall t, ~ In (id, t) ps) ->
  dget String.eqb (fold_left (fun d e => dset String.eqb d (fst e) (snd e)) ps d) id =
  dget String.eqb d id.
Proof.
  induction ps as [|[i t] ps IH]; intros d H; [reflexivity|]. simpl.
  rewrite IH; [|intros t' Ht; exact (H t' (or_intror Ht))].
  rewrite sdget_dset. destruct (String.eqb_spec i id) as [->|Hne]; [|reflexivity].
  exfalso. exact (H t (or_introl eq_refl)).
Qed.

Lemma fold_dset_some (ps : list (string * string)) id t : forall d,
  In (id, t) ps -> (forall t', In (id, t') ps -> t' = t) ->
  dget String.eqb (fold_left (fun d e => dset String.eqb d (fst e) (snd e)) ps d) id = Some t.
Proof.
  induction ps as [|[i t0] ps IH]; intros d Hin H; [contradiction|]. simpl.
  destruct (in_dec (fun a b : string * string => ltac:(decide equality; apply string_dec)) (id, t) ps) as [Hi|Hn].
  - apply IH; [exact Hi|]. intros t' Ht. exact (H t' (or_intror Ht)).
  - destruct Hin as [He|Hin]; [|contradiction]. injection He as -> ->.
    rewrite fold_dset_none.
    + rewrite sdget_dset, String.eqb_refl. reflexivity.
    + intros t' Ht. apply Hn. rewrite <- (H t' (or_intror Ht)). exact Ht.
Qed.

Lemma resolved_perm s id title d : in_force ns s (ClPermission id) -> sm_dir s = ZPermission id title ->
  dget String.eqb (fold_left (fun d e => dset String.eqb d (fst e) (snd e)) (perms_in (resolved l)) d) id
  = Some title.
Proof.
  intros (Hs & _ & Hst) Hd.
  assert (Hin : In (perm_action id title) (resolved l)).
  { apply (resolved_in _ _ _ _ _ _ (ClPermission id) F (fc_perm _ _ _ _ F s id title Hs Hd)); [reflexivity|exact Hst]. }
  apply fold_dset_some.
  - apply perms_in_In. exists (perm_action id title). auto.
  - intros t' Ht. apply perms_in_In in Ht. destruct Ht as (a & Ha & Hc).
    destruct (resolved_fits a Ha) as (s' & _ & _ & Hf). destruct (fits_perm _ _ _ _ _ Hf Hc) as [-> _].
    assert (He : perm_action id t' = perm_action id title).
    { apply (discr_unique _ _ _ (DiUtility "IPermission" id) N Ha Hin); reflexivity. }
    injection He as ->. reflexivity.
Qed.

Lemma resolved_perm_kept id d : unclaimed ns (ClPermission id) ->
  dget String.eqb (fold_left (fun d e => dset String.eqb d (fst e) (snd e)) (perms_in (resolved l)) d) id
  = dget String.eqb d id.
Proof.
  intros Hu. apply fold_dset_none. intros t Ht. apply perms_in_In in Ht. destruct Ht as (a & Ha & Hc).
  destruct (resolved_fits a Ha) as (s' & Hs & _ & Hf). destruct (fits_perm _ _ _ _ _ Hf Hc) as [_ Hd].
  apply (Hu (sm_dir s')); [apply in_map; exact Hs|]. rewrite Hd. left. reflexivity.
Qed.
End Resolved.
