(** * SandboxAppFacts: proofs about the sandbox application. *)

From Coq Require Import List String Bool Arith Lia.
From Verif Require Import Base Domain MFacts Sandbox SandboxSpec SandboxFacts SandboxApp SandboxAppSpec.
Import ListNotations.
Open Scope string_scope.

Lemma sdget_ddel {V} (d : list (string * V)) k k' :
  dget String.eqb (ddel String.eqb d k) k' = if String.eqb k k' then None else dget String.eqb d k'.
Proof. exact (dget_ddel String.eqb String.eqb_spec d k k'). Qed.

(** The world after [a] was moved. *)
Definition after (sec : bool) (w : world) (a b c : id) : world :=
  let x := w_agents w a in
  set_boxes
    (upd (upd (w_boxes w) c
            (mkBox (sb_id (w_boxes w c)) (dset String.eqb (sb_agents (w_boxes w c)) (ag_id x) a)))
       b (mkBox (sb_id (w_boxes w b)) (ddel String.eqb (sb_agents (w_boxes w b)) (ag_id x))))
    (set_agents (upd (w_agents w) a
                   (mkAgent (ag_id x) (ag_token x) (ag_provides x) (Some (mkRef c sec)))) w).

(** What [transportAgent] comes to. *)
Lemma transport_cases sec check self a dest ok w :
  (exists e, transportAgent sec check self a dest ok w = (Exc e, w) /\
     ~ (movable w a self (r_box dest) /\ ok = true /\
        (r_proxied dest = true -> check "addAgent" (r_box dest) w = None))) \/
  (transportAgent sec check self a dest ok w = (Ok tt, after sec w a self (r_box dest)) /\
   self <> r_box dest /\
   movable w a self (r_box dest) /\ ok = true /\
   (r_proxied dest = true -> check "addAgent" (r_box dest) w = None)).
Proof.
  unfold transportAgent, movable, known_as.
  set (k := ag_id (w_agents w a)).
  destruct (dget String.eqb (sb_agents (w_boxes w self)) k) as [a0|] eqn:Hk.
  2:{ left. eexists. split; [reflexivity|]. intros [[[x Hx] _] _]. discriminate Hx. }
  destruct (negb (r_proxied dest) && Nat.eqb (r_box dest) self) eqn:Hs.
  { left. eexists. split; [reflexivity|].
    apply andb_true_iff in Hs. destruct Hs as [_ Hs]. apply Nat.eqb_eq in Hs. rewrite Hs.
    intros [[_ [Hn _]] _]. exact (Hn a0 Hk). }
  destruct ok.
  2:{ left. eexists. split; [reflexivity|]. intros [_ [H _]]. discriminate H. }
  cbn [negb andb].
  unfold wbind, through.
  assert (Hadd :
    (exists e, addAgent sec (r_box dest) a w = (Exc e, w) /\
       ~ ((forall x, dget String.eqb (sb_agents (w_boxes w (r_box dest))) k <> Some x) /\
          ag_provides (w_agents w a) = true)) \/
    ((forall x, dget String.eqb (sb_agents (w_boxes w (r_box dest))) k <> Some x) /\
     ag_provides (w_agents w a) = true /\ self <> r_box dest /\
     (let '(r1, w1) := addAgent sec (r_box dest) a w in
      match r1 with
      | Ok _ => delAgent self (ag_id (w_agents w1 a)) w1
      | Exc e => (Exc e, w1)
      end) = (Ok tt, after sec w a self (r_box dest)))).
  { unfold addAgent. fold k.
    destruct (dget String.eqb (sb_agents (w_boxes w (r_box dest))) k) as [y|] eqn:Hd.
    { left. eexists. split; [reflexivity|]. intros [H _]. exact (H y eq_refl). }
    destruct (ag_provides (w_agents w a)) eqn:Hp.
    2:{ left. eexists. split; [reflexivity|]. intros [_ H]. discriminate H. }
    right. split; [intros x; discriminate|]. split; [reflexivity|].
    assert (Hne : self <> r_box dest) by (intros ->; rewrite Hd in Hk; discriminate Hk).
    split; [exact Hne|].
    unfold delAgent. cbn [w_agents w_boxes set_agents set_boxes].
    rewrite upd_eq. cbn [ag_id]. fold k.
    rewrite upd_ne by (intro; apply Hne; congruence). rewrite Hk.
    unfold after. fold k. rewrite Hp. reflexivity. }
  destruct (r_proxied dest) eqn:Hpx.
  - destruct (check "addAgent" (r_box dest) w) as [e|] eqn:Hc.
    { left. exists e. split; [reflexivity|]. intros [_ [_ H]]. discriminate (H eq_refl). }
    destruct Hadd as [[e [He Hn]]|[Hd [Hp [Hne Hrun]]]].
    + left. exists e. rewrite He. split; [reflexivity|]. intros [[_ H] _]. exact (Hn H).
    + right. split; [|split; [exact Hne|split; [|auto]]].
      * destruct (addAgent sec (r_box dest) a w) as [r1 w1]. destruct r1; exact Hrun.
      * split; [exists a0; reflexivity|]. auto.
  - destruct Hadd as [[e [He Hn]]|[Hd [Hp [Hne Hrun]]]].
    + left. exists e. rewrite He. split; [reflexivity|]. intros [[_ H] _]. exact (Hn H).
    + right. split; [|split; [exact Hne|split; [|split; [reflexivity|intros H; discriminate H]]]].
      * destruct (addAgent sec (r_box dest) a w) as [r1 w1]. destruct r1; exact Hrun.
      * split; [exists a0; reflexivity|]. auto.
Qed.

Lemma transport_atomic_lemma sec check self a dest ok w e w' :
  transportAgent sec check self a dest ok w = (Exc e, w') -> w' = w.
Proof.
  intros H. destruct (transport_cases sec check self a dest ok w) as [[e' [He _]]|[Ho _]].
  - rewrite He in H. inversion H. reflexivity.
  - rewrite Ho in H. discriminate H.
Qed.

Lemma transport_iff_lemma sec check self a dest ok w :
  (exists w', transportAgent sec check self a dest ok w = (Ok tt, w')) <->
  movable w a self (r_box dest) /\ ok = true /\
  (r_proxied dest = true -> check "addAgent" (r_box dest) w = None).
Proof.
  destruct (transport_cases sec check self a dest ok w) as [[e' [He Hn]]|[Ho [_ Hc]]].
  - split; [intros [w' H]; rewrite He in H; discriminate H|]. intros H. destruct (Hn H).
  - split; [intros _; exact Hc|]. intros _. eexists. exact Ho.
Qed.

(** Who is known where afterwards. *)
Lemma after_known sec w a b c d k x :
  b <> c ->
  (known_as (after sec w a b c) d k x <->
   (d = c /\ k = ag_id (w_agents w a) /\ x = a) \/
   (known_as w d k x /\ ~ (d = b /\ k = ag_id (w_agents w a)) /\
    ~ (d = c /\ k = ag_id (w_agents w a)))).
Proof.
  intros Hbc. unfold known_as, after. cbn [w_boxes set_boxes].
  set (i := ag_id (w_agents w a)).
  destruct (Nat.eq_dec d b) as [->|Hdb].
  { rewrite upd_eq. cbn [sb_agents]. rewrite sdget_ddel.
    destruct (String.eqb_spec i k) as [<-|Hk].
    - split; [intros H; discriminate H|]. intros [[-> _]|[_ [H _]]]; [congruence|].
      destruct (H (conj eq_refl eq_refl)).
    - split.
      + intros H. right. split; [exact H|]. split; intros [_ ->]; congruence.
      + intros [[-> _]|[H _]]; [congruence|exact H]. }
  rewrite upd_ne by congruence.
  destruct (Nat.eq_dec d c) as [->|Hdc].
  { rewrite upd_eq. cbn [sb_agents]. rewrite sdget_dset.
    destruct (String.eqb_spec i k) as [<-|Hk].
    - split.
      + intros H. inversion H. left. auto.
      + intros [[_ [_ ->]]|[_ [_ H]]]; [reflexivity|]. destruct (H (conj eq_refl eq_refl)).
    - split.
      + intros H. right. split; [exact H|]. split; intros [_ ->]; congruence.
      + intros [[_ [-> _]]|[H _]]; [congruence|exact H]. }
  rewrite upd_ne by congruence. split.
  - intros H. right. split; [exact H|]. split; intros [-> _]; congruence.
  - intros [[-> _]|[H _]]; [congruence|exact H].
Qed.

Lemma after_agent sec w a b c x :
  w_agents (after sec w a b c) x =
  if Nat.eqb a x
  then mkAgent (ag_id (w_agents w a)) (ag_token (w_agents w a)) (ag_provides (w_agents w a))
               (Some (mkRef c sec))
  else w_agents w x.
Proof.
  unfold after. cbn [w_agents set_boxes set_agents].
  destruct (Nat.eqb_spec a x) as [->|H]; [apply upd_eq|apply upd_ne; congruence].
Qed.

Lemma transport_moves_lemma sec check self a dest ok w w' :
  known_as w self (ag_id (w_agents w a)) a ->
  transportAgent sec check self a dest ok w = (Ok tt, w') ->
  moved sec w w' a self (r_box dest).
Proof.
  intros Hk H. destruct (transport_cases sec check self a dest ok w) as [[e' [He _]]|[Ho [Hne [Hm _]]]].
  { rewrite He in H. discriminate H. }
  rewrite Ho in H. inversion H. clear H. subst w'.
  destruct Hm as [_ [Hn _]].
  split; [exact Hk|]. split; [apply after_known; auto|].
  split.
  { intros d k x. rewrite after_known by exact Hne. split.
    - intros [H|[H1 [H2 _]]]; auto.
    - intros [H|[H1 H2]]; [auto|]. right. split; [exact H1|]. split; [exact H2|].
      intros [-> ->]. exact (Hn _ H1). }
  split; [rewrite after_agent, Nat.eqb_refl; reflexivity|].
  split.
  { intros x Hx. rewrite after_agent. destruct (Nat.eqb_spec a x); [congruence|reflexivity]. }
  split.
  { intros x. rewrite after_agent. destruct (Nat.eqb_spec a x) as [->|]; split; reflexivity. }
  split; [|split; reflexivity].
  intros d. unfold after. cbn [w_boxes set_boxes].
  destruct (Nat.eq_dec d self) as [->|]; [rewrite upd_eq; reflexivity|].
  rewrite upd_ne by congruence.
  destruct (Nat.eq_dec d (r_box dest)) as [->|]; [rewrite upd_eq; reflexivity|].
  rewrite upd_ne by congruence. reflexivity.
Qed.

(** ** The population *)

Lemma transport_order (P : id -> Prop) sec check self a dest ok r w w1 :
  P a -> in_order P w -> transportAgent sec check self a dest ok w = (r, w1) ->
  in_order P w1 /\ forall x, (exists b, lives w1 b x) <-> (exists b, lives w b x).
Proof.
  intros HP [Hid Hkn] H.
  destruct (transport_cases sec check self a dest ok w) as [[e' [He _]]|[Ho [Hne [Hm _]]]].
  { rewrite He in H. inversion H. subst. split; [split; assumption|tauto]. }
  rewrite Ho in H. inversion H. clear H. subst r w1.
  destruct Hm as [[x0 Hx0] [Hn _]].
  destruct (Hkn _ _ _ Hx0) as [HP0 [Hk0 _]].
  assert (x0 = a) by (apply Hid; auto). subst x0.
  assert (Hids : forall x, ag_id (w_agents (after sec w a self (r_box dest)) x) = ag_id (w_agents w x)).
  { intros x. rewrite after_agent. destruct (Nat.eqb_spec a x) as [->|]; reflexivity. }
  split.
  - split.
    + intros a1 a2 H1 H2. rewrite !Hids. auto.
    + intros b k x Hx. apply after_known in Hx; [|exact Hne].
      destruct Hx as [[-> [-> ->]]|[Hx [Hns Hnd]]].
      * split; [exact HP|]. split; [symmetry; apply Hids|].
        rewrite after_agent, Nat.eqb_refl. eexists. split; reflexivity.
      * destruct (Hkn _ _ _ Hx) as [HPx [Hkx [rr [Hr Hrb]]]].
        split; [exact HPx|]. rewrite Hids. split; [exact Hkx|].
        rewrite after_agent. destruct (Nat.eqb_spec a x) as [<-|Hax]; [|eauto].
        exfalso. apply Hns. split; [|exact Hkx].
        destruct (Hkn _ _ _ Hx0) as [_ [_ [r2 [Hr2 Hrb2]]]]. congruence.
  - intros x. split.
    + intros [b [k Hx]]. apply after_known in Hx; [|exact Hne].
      destruct Hx as [[_ [_ ->]]|[Hx _]]; [exists self; eexists; exact Hx0|].
      exists b, k. exact Hx.
    + intros [b [k Hx]]. destruct (Hkn _ _ _ Hx) as [HPx [Hkx _]].
      destruct (Nat.eq_dec x a) as [->|Hxa].
      * exists (r_box dest), (ag_id (w_agents w a)). apply after_known; auto.
      * exists b, k. apply after_known; [exact Hne|]. right. split; [exact Hx|].
        assert (Hka : k <> ag_id (w_agents w a)).
        { intros E. apply Hxa. apply Hid; auto. congruence. }
        split; intros [_ E]; exact (Hka E).
Qed.

Lemma population_lemma (P : id -> Prop) w w' :
  in_order P w -> Transports P w w' ->
  in_order P w' /\
  (forall a, (exists b, lives w' b a) <-> (exists b, lives w b a)) /\
  (forall a b c, lives w' b a -> lives w' c a -> b = c).
Proof.
  intros Ho Ht.
  assert (H : in_order P w' /\ forall a, (exists b, lives w' b a) <-> (exists b, lives w b a)).
  { induction Ht as [w|sec check self a dest ok r w w1 w2 HP Hr Ht IH]; [split; [exact Ho|tauto]|].
    destruct (transport_order P sec check self a dest ok r w w1 HP Ho Hr) as [H1 H2].
    destruct (IH H1) as [H3 H4]. split; [exact H3|]. intros x. rewrite H4. apply H2. }
  destruct H as [H1 H2]. split; [exact H1|]. split; [exact H2|].
  destruct H1 as [_ Hkn]. intros a b c [k Hb] [k' Hc].
  destruct (Hkn _ _ _ Hb) as [_ [_ [r [Hr Hrb]]]].
  destruct (Hkn _ _ _ Hc) as [_ [_ [r' [Hr' Hrc]]]]. congruence.
Qed.

(** ** With security *)

Lemma secure_check_lemma n b w i t :
  dget String.eqb (invert_map sandbox_map) n = Some (PId i t) ->
  (secure_check n b w = None <->
   exists x, w_inter w = Some x /\ granted_at w x b t).
Proof.
  intros Hn. unfold secure_check. rewrite Hn.
  destruct (w_inter w) as [x|].
  2:{ split; [intros H; discriminate H|]. intros [x [H _]]. discriminate H. }
  destruct (simulation_lemma SimulationSecurityDatabase (sb_id (w_boxes w b))
              [ag_token (w_agents w x)] i t) as [g [Hg Hiff]].
  change (map Ok [ag_token (w_agents w x)]) with [@Ok string (ag_token (w_agents w x))] in Hg.
  rewrite Hg. split.
  - destruct g; [|intros H; discriminate H]. intros _. exists x. split; [reflexivity|].
    apply Hiff. reflexivity.
  - intros [y [Hy Hgr]]. inversion Hy. subst y. apply Hiff in Hgr. subst g. reflexivity.
Qed.

Lemma secured_transport_lemma self a dest w :
  (exists w', through secure_check (mkRef self true) "transportAgent"
                (transportAgent true secure_check self a (mkRef dest true) true) w = (Ok tt, w')) <->
  movable w a self dest /\
  exists x, w_inter w = Some x /\
            granted_at w x self TransportAgent /\ granted_at w x dest AddAgent.
Proof.
  assert (H1 := secure_check_lemma "transportAgent" self w 4 TransportAgent eq_refl).
  assert (H2 := secure_check_lemma "addAgent" dest w 3 AddAgent eq_refl).
  assert (H3 := transport_iff_lemma true secure_check self a (mkRef dest true) true w).
  cbn [r_box r_proxied] in H3.
  unfold through. cbn [r_proxied r_box].
  destruct (secure_check "transportAgent" self w) as [e|] eqn:Hc.
  - split; [intros [w' H]; discriminate H|].
    intros [_ [x [Hx [Hg _]]]].
    assert (H : Some e = None) by (apply H1; eauto). discriminate H.
  - rewrite H3. split.
    + intros [Hm [_ Ha]]. split; [exact Hm|].
      destruct (proj1 H1 eq_refl) as [x [Hx Hg]].
      destruct (proj1 H2 (Ha eq_refl)) as [y [Hy Hg2]].
      exists x. split; [exact Hx|]. split; [exact Hg|]. congruence.
    + intros [Hm [x [Hx [Hg Hg2]]]]. split; [exact Hm|]. split; [reflexivity|].
      intros _. apply H2. eauto.
Qed.

(** ** Turns *)
Section Turn.
  Variable sec : bool.
  Variable check : name -> id -> world -> option exn.
  Variable action : id -> res unit.
  Variable lust : id -> bool.

  Definition ready (w : world) : Prop := sec = true -> w_inter w = None.

  Lemma no_inter w : w_inter w = None -> set_winter None w = w.
  Proof. destruct w; simpl; intros ->; reflexivity. Qed.

  Lemma setup_ready w a : ready w -> exists w',
    setupAgent sec a w = (Ok tt, w') /\ teardownAgent sec a w' = (Ok tt, w) /\
    w' = (if sec then set_winter (Some a) w else w).
  Proof.
    unfold ready, setupAgent, teardownAgent. intros H. destruct sec.
    - rewrite (H eq_refl). eexists. split; [reflexivity|]. split; [|reflexivity].
      unfold set_winter at 1. simpl. f_equal. apply (no_inter w (H eq_refl)).
    - exists w. auto.
  Qed.

  Lemma act_all_same w l : ready w -> act_all sec action l w = (Ok tt, w).
  Proof.
    intros Hw. induction l as [|a l IH]; [reflexivity|]. simpl. unfold wbind.
    destruct (setup_ready w a Hw) as [w' [Hs [Ht _]]]. rewrite Hs.
    unfold wcatch. destruct (action a); cbn [wret]; unfold wret; rewrite Ht; exact IH.
  Qed.

  Lemma move_all_same w l : ready w ->
    ((forall a, In a l -> lust a = false) ->
       move_all sec check lust l None w = (Ok None, w)) /\
    ((exists a, In a l /\ lust a = true) ->
       exists a, In a l /\ lust a = true /\
       move_all sec check lust l None w =
         (Exc UnboundLocalError, if sec then set_winter (Some a) w else w)).
  Proof.
    intros Hw. induction l as [|a l IH].
    { split; [reflexivity|]. intros [a [[] _]]. }
    cbn [move_all]. destruct (lust a) eqn:Ha.
    - split; [intros H; rewrite (H a (or_introl eq_refl)) in Ha; discriminate Ha|].
      intros _. exists a. split; [left; reflexivity|]. split; [exact Ha|].
      unfold wbind. destruct (setup_ready w a Hw) as [w' [Hs [_ Hw']]]. rewrite Hs. subst w'.
      reflexivity.
    - destruct IH as [IH1 IH2]. split.
      + intros H. apply IH1. intros b Hb. apply H. right. exact Hb.
      + intros [b [[->|Hb] Hl]]; [rewrite Hl in Ha; discriminate Ha|].
        destruct IH2 as [c [Hc [Hlc Hm]]]; [eauto|]. exists c. split; [right; exact Hc|]. auto.
  Qed.

  Definition resident_of (w : world) (homes : list id) (a : id) : Prop :=
    exists b k, In b homes /\ In (k, a) (sb_agents (w_boxes w b)).

  Lemma turn_homes_same w homes : ready w ->
    ((forall a, resident_of w homes a -> lust a = false) ->
       turn_homes sec check action lust homes None w = (Ok tt, w)) /\
    ((exists a, resident_of w homes a /\ lust a = true) ->
       exists a, resident_of w homes a /\ lust a = true /\
       turn_homes sec check action lust homes None w =
         (Exc UnboundLocalError, if sec then set_winter (Some a) w else w)).
  Proof.
    intros Hw. induction homes as [|h l IH].
    { split; [reflexivity|]. intros [a [[b [k [[] _]]] _]]. }
    cbn [turn_homes]. unfold wbind. rewrite act_all_same by exact Hw.
    destruct (move_all_same w (map snd (sb_agents (w_boxes w h))) Hw) as [Hm1 Hm2].
    assert (Hin : forall a, In a (map snd (sb_agents (w_boxes w h))) ->
                            resident_of w (h :: l) a).
    { intros a Ha. apply in_map_iff in Ha. destruct Ha as [[k x] [Hx Hi]]. simpl in Hx. subst x.
      exists h, k. split; [left; reflexivity|exact Hi]. }
    assert (Hl : forall a, resident_of w l a -> resident_of w (h :: l) a).
    { intros a [b [k [Hb Hi]]]. exists b, k. split; [right; exact Hb|exact Hi]. }
    destruct IH as [IH1 IH2]. split.
    - intros H. rewrite Hm1 by (intros a Ha; apply H; auto). apply IH1. intros a Ha. apply H. auto.
    - intros [a [[b [k [Hb Hi]]] Hla]].
      destruct (existsb lust (map snd (sb_agents (w_boxes w h)))) eqn:He.
      + apply existsb_exists in He. destruct Hm2 as [c [Hc [Hlc Hm]]]; [exact He|].
        exists c. rewrite Hm. split; [auto|]. split; [exact Hlc|reflexivity].
      + assert (Hno : forall x, In x (map snd (sb_agents (w_boxes w h))) -> lust x = false).
        { intros x Hx. destruct (lust x) eqn:Hxl; [|reflexivity].
          assert (existsb lust (map snd (sb_agents (w_boxes w h))) = true)
            by (apply existsb_exists; eauto). congruence. }
        rewrite (Hm1 Hno).
        destruct Hb as [->|Hb].
        * rewrite (Hno a) in Hla; [discriminate Hla|].
          apply in_map_iff. exists (k, a). split; [reflexivity|exact Hi].
        * destruct IH2 as [c [Hc [Hlc Hm]]]; [exists a; split; [exists b, k; auto|exact Hla]|].
          exists c. rewrite Hm. auto.
  Qed.

  Lemma turn_calm_lemma w : (sec = true -> w_inter w = None) -> ~ restless lust w ->
    turn sec check action lust w = (Ok tt, w).
  Proof.
    intros Hw Hn. apply turn_homes_same; [exact Hw|].
    intros a [b [k [Hb Hi]]]. destruct (lust a) eqn:Hl; [|reflexivity].
    destruct Hn. exists b, k, a. auto.
  Qed.

  Lemma turn_restless_lemma w : (sec = true -> w_inter w = None) -> restless lust w ->
    exists b k a, In b (w_homes w) /\ In (k, a) (sb_agents (w_boxes w b)) /\ lust a = true /\
    turn sec check action lust w =
      (Exc UnboundLocalError, if sec then set_winter (Some a) w else w).
  Proof.
    intros Hw [b [k [a [Hb [Hi Hl]]]]].
    destruct (proj2 (turn_homes_same w (w_homes w) Hw)) as [c [[b' [k' [Hb' Hi']]] [Hlc Ht]]].
    - exists a. split; [exists b, k; auto|exact Hl].
    - exists b', k', c. auto.
  Qed.
End Turn.

(** With an interaction left open every later turn fails at the first agent. *)
Lemma turn_blocked_lemma check action lust w a :
  w_inter w = Some a ->
  (exists b k x, In b (w_homes w) /\ In (k, x) (sb_agents (w_boxes w b))) ->
  turn true check action lust w = (Exc EExistingInteraction, w).
Proof.
  intros Hi [b [k [x [Hb Hx]]]]. unfold turn. generalize (@None boxref) as nh.
  revert Hb. generalize (w_homes w) as homes. intros homes Hb.
  induction homes as [|h l IH]; [destruct Hb|]. intros nh. cbn [turn_homes]. unfold wbind.
  destruct (sb_agents (w_boxes w h)) as [|[k0 a0] r] eqn:Hh.
  - cbn [map act_all]. unfold wret at 1. rewrite Hh. cbn [map move_all]. unfold wret.
    destruct Hb as [->|Hb]; [rewrite Hh in Hx; destruct Hx|]. apply IH. exact Hb.
  - cbn [map snd act_all]. unfold wbind, setupAgent. rewrite Hi. reflexivity.
Qed.

Lemma legends_lemma self a dest w w' :
  through secure_check (mkRef self true) "transportAgent"
    (transportAgent true secure_check self a (mkRef dest true) true) w = (Ok tt, w') ->
  sb_id (w_boxes w dest) = "valhalla" \/ sb_id (w_boxes w self) = "jail" ->
  exists x, w_inter w = Some x /\ ag_token (w_agents w x) = "norse legend".
Proof.
  intros H Hid.
  destruct (proj1 (secured_transport_lemma self a dest w) (ex_intro _ w' H)) as
    [_ [x [Hx [Hs Hd]]]].
  exists x. split; [exact Hx|].
  assert (Hall : forall h db t,
    located SimulationSecurityDatabase h db ->
    ~ allows db "any" t -> ~ allows db "any" "All" ->
    (forall tok, allows db tok t -> tok = "norse legend") ->
    sandbox_grants SimulationSecurityDatabase h [ag_token (w_agents w x)] t ->
    ag_token (w_agents w x) = "norse legend").
  { intros h db t Hl H1 H2 H3 [db' [Hl' [Hg|[Hg|[_ Hg]]]]];
      unfold located in Hl, Hl'; rewrite Hl in Hl'; inversion Hl'; subst db'.
    - destruct (H1 Hg).
    - destruct (H2 Hg).
    - apply H3, Hg. left. reflexivity. }
  unfold granted_at in Hs, Hd.
  destruct Hid as [Hid|Hid]; [rewrite Hid in Hd|rewrite Hid in Hs].
  - refine (Hall "valhalla" _ _ eq_refl _ _ _ Hd).
    + intros Ha. apply allows_get in Ha. vm_compute in Ha. intuition discriminate.
    + intros Ha. apply allows_get in Ha. vm_compute in Ha. intuition discriminate.
    + intros tok [l [Hl Ha]]. cbn [dget] in Hl.
      destruct (String.eqb_spec "norse legend" tok) as [E|_]; [congruence|].
      destruct (String.eqb_spec "any" tok) as [_|_]; [|discriminate Hl].
      inversion Hl. subst l. vm_compute in Ha. intuition discriminate.
  - refine (Hall "jail" _ _ eq_refl _ _ _ Hs).
    + intros Ha. apply allows_get in Ha. vm_compute in Ha. intuition discriminate.
    + intros Ha. apply allows_get in Ha. vm_compute in Ha. intuition discriminate.
    + intros tok [l [Hl Ha]]. cbn [dget] in Hl.
      destruct (String.eqb_spec "norse legend" tok) as [E|_]; [congruence|].
      destruct (String.eqb_spec "any" tok) as [_|_]; [|discriminate Hl].
      inversion Hl. subst l. vm_compute in Ha. intuition discriminate.
Qed.

(** ** A concrete world *)

(** The six agents of the bootstrap (sandbox.py 298-325), added to the origin, which is done
    before security is wired: they know it without a proxy. *)
Definition boot_agent (a : id) : agent :=
  let mk i t := mkAgent i t true None in
  match a with
  | 0 => mk "odin" "norse legend"
  | 1 => mk "loki" "norse legend"
  | 2 => mk "thor" "norse legend"
  | 3 => mk "thucydides" "greek men"
  | 4 => mk "archimedes" "greek men"
  | 5 => mk "prometheus" "greek men"
  | _ => mkAgent "nobody" "" false None
  end.
Definition boot_box (b : id) : box :=
  match b with
  | 0 => mkBox "jail" []
  | 1 => mkBox "origin" []
  | _ => mkBox "valhalla" []
  end.
Definition boot : world :=
  snd (fold_left (fun rw a => addAgent false 1 a (snd rw)) [0; 1; 2; 3; 4; 5]
                 (Ok tt, mkWorld boot_box boot_agent [0; 1; 2] None)).

(** ** The names *)
Lemma needs_table n p :
  dget String.eqb (invert_map sandbox_map) n = Some p ->
  (p = PPublic /\ needs n None) \/ exists i t, p = PId i t /\ needs n (Some t).
Proof.
  change (invert_map sandbox_map) with
    [("getService", PId 1 AccessServices); ("addService", PId 1 AccessServices);
     ("getServiceIds", PId 1 AccessServices); ("getAgentsIds", PId 2 AccessAgents);
     ("getAgents", PId 2 AccessAgents); ("addAgent", PId 3 AddAgent);
     ("transportAgent", PId 4 TransportAgent); ("getId", PPublic); ("getHome", PPublic)].
  cbn [dget].
  repeat match goal with
         | |- (if String.eqb ?a ?b then _ else _) = _ -> _ =>
             destruct (String.eqb_spec a b) as [E|_];
             [subst; intros H; injection H as <-|]
         end; [..|intros H; discriminate H];
  try (left; split; [reflexivity|]; apply nd_public; simpl; tauto);
  right; do 2 eexists; (split; [reflexivity|]);
    first [apply nd_add | apply nd_transport | apply nd_service; simpl; tauto | apply nd_agents; simpl; tauto].
Qed.

Lemma needs_listed n o : needs n o ->
  exists p, dget String.eqb (invert_map sandbox_map) n = Some p /\
    match o with None => p = PPublic | Some t => exists i, p = PId i t end.
Proof.
  intros H. inversion H; subst;
    repeat match goal with
           | H : In _ (_ :: _) |- _ => destruct H as [<-|H]
           | H : In _ [] |- _ => destruct H
           end; eexists; (split; [reflexivity|]); try reflexivity; eexists; reflexivity.
Qed.

Lemma names_lemma n b w :
  (secure_check n b w = None <->
     needs n None \/ exists t x, needs n (Some t) /\ w_inter w = Some x /\ granted_at w x b t) /\
  ((forall o, ~ needs n o) -> secure_check n b w = Some (EForbidden n (VObj b))).
Proof.
  destruct (dget String.eqb (invert_map sandbox_map) n) as [p|] eqn:Hn.
  - assert (Hc := needs_table n p Hn). split.
    2:{ intros Hno. destruct Hc as [[_ Hc]|(i & t & _ & Hc)]; exfalso; exact (Hno _ Hc). }
    destruct Hc as [[-> Hc]|(i & t & -> & Hc)].
    + split; [intros _; left; exact Hc|]. intros _. unfold secure_check. rewrite Hn. reflexivity.
    + rewrite (secure_check_lemma n b w i t Hn). split.
      * intros (x & Hx & Hg). right. exists t, x. auto.
      * intros [H|(t' & x & H & Hx & Hg)].
        -- destruct (needs_listed _ _ H) as (p & Hp & ->). rewrite Hn in Hp. discriminate Hp.
        -- destruct (needs_listed _ _ H) as (p & Hp & i' & ->). rewrite Hn in Hp.
           injection Hp as <- <-. eauto.
  - assert (Hno : forall o, ~ needs n o).
    { intros o H. destruct (needs_listed _ _ H) as (p & Hp & _). rewrite Hn in Hp. discriminate Hp. }
    assert (Hs : secure_check n b w = Some (EForbidden n (VObj b))) by (unfold secure_check; rewrite Hn; reflexivity).
    split; [|intros _; exact Hs]. rewrite Hs. split; [intros H; discriminate H|].
    intros [H|(t & x & H & _)]; exfalso; exact (Hno _ H).
Qed.
