(** * AdapterFacts: adapters and decorated checkers. *)

From Coq Require Import List String Bool Arith ZArith Lia.
From Verif Require Import Base Domain CheckerModel ProxyModel MFacts Spec RegSpec Witness
  CheckFacts CombineFacts RegistryFacts RegistryProps ProxySpec FactorySpec SafeFacts
  ProxyFacts ProxyOps ProxyResults Factory Adapter AdapterSpec.
Import ListNotations.
Open Scope string_scope.
Open Scope m_scope.

(** ** Operations on plain objects *)

Lemma op_call_eq E f k v args s :
  is_proxy v = false ->
  i_op (interp_n E (S f)) k (OCall v args) s =
  (fst (e_run E (e_tid E) (CallOp (OCall v args)) s),
   snd (e_run E (e_tid E) (CallOp (OCall v args)) s),
   [ECall k (e_tid E) (CallOp (OCall v args))]).
Proof.
  intros Hv. rewrite <- raw_call_eq. destruct v; try discriminate; reflexivity.
Qed.

Lemma op_setattr_eq E f k v n w s :
  plain_object v ->
  i_op (interp_n E (S f)) k (OSetattr v n w) s =
  (match fst (e_run E (e_tid E) (CallOp (OSetattr v n w)) s) with
   | Ok _ => Ok VNone | Exc e => Exc e end,
   snd (e_run E (e_tid E) (CallOp (OSetattr v n w)) s),
   [ECall k (e_tid E) (CallOp (OSetattr v n w))]).
Proof.
  intros Hv.
  assert (H : i_op (interp_n E (S f)) k (OSetattr v n w) s = raw E k (OSetattr v n w) s)
    by (destruct v; try contradiction; reflexivity).
  rewrite H. unfold raw, foreign, bind.
  destruct (e_run _ _ _ s) as [[r|e] s1]; reflexivity.
Qed.

Lemma provided_eq E f a s r s1 :
  provided_is_bool E -> e_run E (e_tid E) (ask_located a) s = (r, s1) ->
  ILocation_providedBy (interp_n E (S f)) a s =
  (match r with Ok (VBool b) => Ok b | Ok _ => Ok false | Exc e => Exc e end, s1,
   [ECall Probe (e_tid E) (ask_located a)]).
Proof.
  intros Hb Hr. unfold ILocation_providedBy.
  assert (H : i_op (interp_n E (S f)) Probe (OCall providedBy [a]) s =
              (r, s1, [ECall Probe (e_tid E) (ask_located a)])).
  { rewrite op_call_eq by reflexivity. unfold providedBy. unfold ask_located in *.
    rewrite Hr. reflexivity. }
  destruct r as [v|e].
  - rewrite (bind_ok _ _ _ _ _ _ H). destruct (Hb _ _ _ _ Hr) as (b & ->). reflexivity.
  - rewrite (bind_exc _ _ _ _ _ _ H). reflexivity.
Qed.

Definition parent_step I (a parent : value) : M value :=
  q <- i_op I Client (OGetattr a "__parent__" None) ;;
  if value_eqb q VNone then
    i_op I Client (OSetattr a "__parent__" parent) ;;; ret a
  else ret a.

Lemma location_new E f a parent s :
  exists s', (locatable <- LocationProxy a ;;
              i_op (interp_n E (S f)) Client (OSetattr locatable "__parent__" parent) ;;;
              ret locatable) s = (Ok (VDeco (st_next s)), s', []) /\
             NewLocation s s' (st_next s) a parent.
Proof.
  set (s1 := set_next (S (st_next s)) s).
  set (s2 := set_decos (upd (st_decos s1) (st_next s)
                          (Some (mkDeco "LocationProxy" a VNone))) s1).
  set (s3 := set_decos (upd (st_decos s2) (st_next s)
                          (Some (mkDeco "LocationProxy" a parent))) s2).
  exists s3.
  assert (H1 : LocationProxy a s = (Ok (VDeco (st_next s)), s2, [])).
  { unfold LocationProxy. rewrite bind_fresh, bind_get, bind_put. reflexivity. }
  assert (H2 : i_op (interp_n E (S f)) Client
                 (OSetattr (VDeco (st_next s)) "__parent__" parent) s2 = (Ok VNone, s3, [])).
  { change (deco_setattr E Client (st_next s) "__parent__" parent s2 = (Ok VNone, s3, [])).
    unfold deco_setattr. change (String.eqb "__parent__" "__Security_checker__") with false.
    cbv iota. rewrite bind_get.
    assert (Hd : st_decos s2 (st_next s) = Some (mkDeco "LocationProxy" a VNone))
      by (unfold s2; simpl; apply upd_eq).
    rewrite Hd. reflexivity. }
  split.
  - rewrite (bind_ok _ _ _ _ _ _ H1), (bind_ok _ _ _ _ _ _ H2). reflexivity.
  - unfold NewLocation. split; [reflexivity|]. split; [reflexivity|]. split.
    + unfold s3. simpl. apply upd_eq.
    + intros d' Hd. unfold s3, s2. simpl. rewrite !upd_ne by exact Hd. reflexivity.
Qed.

(** Both customisations, on plain adapters. *)
Definition place I (wrap : bool) (a parent : value) : M value :=
  if wrap then assertLocation I a parent else customizeUnprotected I a parent.

Lemma parent_step_eq E f a parent s :
  plain_object a ->
  parent_step (interp_n E (S f)) a parent s =
  match e_run E (e_tid E) (read_parent a) s with
  | (Exc e, s2) => (Exc e, s2, [ECall Client (e_tid E) (read_parent a)])
  | (Ok VNone, s2) =>
      match e_run E (e_tid E) (write_parent a parent) s2 with
      | (Ok _, s3) => (Ok a, s3, [ECall Client (e_tid E) (read_parent a);
                                  ECall Client (e_tid E) (write_parent a parent)])
      | (Exc e, s3) => (Exc e, s3, [ECall Client (e_tid E) (read_parent a);
                                    ECall Client (e_tid E) (write_parent a parent)])
      end
  | (Ok _, s2) => (Ok a, s2, [ECall Client (e_tid E) (read_parent a)])
  end.
Proof.
  intros Ha. unfold parent_step.
  assert (Hg : forall r s1, e_run E (e_tid E) (read_parent a) s = (r, s1) ->
    i_op (interp_n E (S f)) Client (OGetattr a "__parent__" None) s =
    (r, s1, [ECall Client (e_tid E) (read_parent a)])).
  { intros r s1 Hr. rewrite getattr_plain_eq; auto; [|apply andb_false_r].
    unfold read_parent in *. rewrite Hr. reflexivity. }
  destruct (e_run E (e_tid E) (read_parent a) s) as [[q|e] s2] eqn:Hr;
    specialize (Hg _ _ eq_refl).
  2: { rewrite (bind_exc _ _ _ _ _ _ Hg). reflexivity. }
  rewrite (bind_ok _ _ _ _ _ _ Hg).
  destruct (value_eqb_spec q VNone) as [->|Hq].
  - pose proof (op_setattr_eq E f Client a "__parent__" parent s2 Ha) as Hs.
    fold (write_parent a parent) in Hs.
    destruct (e_run E (e_tid E) (write_parent a parent) s2) as [[v|e] s3]; simpl in Hs.
    + rewrite (bind_ok _ _ _ _ _ _ Hs). reflexivity.
    + rewrite (bind_exc _ _ _ _ _ _ Hs). reflexivity.
  - destruct q; try congruence; reflexivity.
Qed.

Lemma placed_lemma E f wrap a parent s :
  plain_object a -> provided_is_bool E ->
  exists r s' t, place (interp_n E (S f)) wrap a parent s = (r, s', t) /\
                 Placed E wrap a parent s r s' t.
Proof.
  intros Ha Hb.
  destruct (e_run E (e_tid E) (ask_located a) s) as [r s1] eqn:Hr.
  pose proof (provided_eq E f a s r s1 Hb Hr) as Hp.
  destruct r as [v|e].
  2: { exists (Exc e), s1, [ECall Probe (e_tid E) (ask_located a)]. split.
       - destruct wrap; unfold place, assertLocation, customizeUnprotected;
           rewrite (bind_exc _ _ _ _ _ _ Hp); reflexivity.
       - apply Pl_unknown. exact Hr. }
  destruct (Hb _ _ _ _ Hr) as (b & ->).
  destruct b.
  - assert (Heq : place (interp_n E (S f)) wrap a parent s =
      let '(r, s', t) := parent_step (interp_n E (S f)) a parent s1 in
      (r, s', ECall Probe (e_tid E) (ask_located a) :: t)).
    { destruct wrap; unfold place, assertLocation, customizeUnprotected;
        rewrite (bind_ok _ _ _ _ _ _ Hp); cbv beta iota;
        fold (parent_step (interp_n E (S f)) a parent); cbn [negb];
        fold (parent_step (interp_n E (S f)) a parent);
        destruct (parent_step (interp_n E (S f)) a parent s1) as [[? ?] ?]; reflexivity. }
    rewrite Heq, parent_step_eq by exact Ha. clear Heq.
    destruct (e_run E (e_tid E) (read_parent a) s1) as [[q|e] s2] eqn:Hq.
    2: { do 3 eexists. split; [reflexivity|]. eapply Pl_unreadable; eauto. }
    destruct (value_eqb_spec q VNone) as [->|Hn].
    + destruct (e_run E (e_tid E) (write_parent a parent) s2) as [[v|e] s3] eqn:Hw;
        do 3 eexists; (split; [reflexivity|]).
      * eapply Pl_parent_set; eauto.
      * eapply Pl_parent_refused; eauto.
    + exists (Ok a), s2, [ECall Probe (e_tid E) (ask_located a);
                          ECall Client (e_tid E) (read_parent a)].
      split; [destruct q; try congruence; reflexivity|]. eapply Pl_has_parent; eauto.
  - destruct wrap.
    + destruct (location_new E f a parent s1) as (s2 & Hl & HN).
      exists (Ok (VDeco (st_next s1))), s2, [ECall Probe (e_tid E) (ask_located a)]. split.
      * unfold place, assertLocation. rewrite (bind_ok _ _ _ _ _ _ Hp). cbn [negb].
        rewrite Hl. reflexivity.
      * eapply Pl_wrapped; eauto.
    + exists (Ok a), s1, [ECall Probe (e_tid E) (ask_located a)]. split.
      * unfold place, customizeUnprotected. rewrite (bind_ok _ _ _ _ _ _ Hp). reflexivity.
      * eapply Pl_unlocated; eauto.
Qed.

(** For any adapter whatever, the result is the adapter or a location proxy on it. *)
Lemma place_result E f wrap a parent s u s' t :
  place (interp_n E (S f)) wrap a parent s = (Ok u, s', t) ->
  u = a \/ (wrap = true /\ exists d, u = VDeco d /\
            st_decos s' d = Some (mkDeco "LocationProxy" a parent)).
Proof.
  intros H.
  assert (HP : forall s0 s0' t0, parent_step (interp_n E (S f)) a parent s0 = (Ok u, s0', t0) ->
               u = a).
  { intros s0 s0' t0 H0. unfold parent_step in H0. mbind H0; [discriminate|].
    destruct (value_eqb a0 VNone).
    - mbind Hf; [discriminate|]. unfold ret in Hf0. minj Hf0. reflexivity.
    - unfold ret in Hf. minj Hf. reflexivity. }
  destruct wrap; unfold place, assertLocation, customizeUnprotected in H;
    (mbind H; [discriminate|]); destruct a0; cbn [negb] in Hf.
  - left. eapply HP. exact Hf.
  - destruct (location_new E f a parent s1) as (s2 & Hl & HN). rewrite Hl in Hf. minj Hf.
    right. split; auto. eexists. split; [reflexivity|]. apply HN.
  - left. eapply HP. exact Hf.
  - unfold ret in Hf. minj Hf. auto.
Qed.

(** The parent of a new location proxy can be read back. *)
Lemma parent_read E f d a parent fr s :
  st_decos s d = Some (mkDeco "LocationProxy" a parent) ->
  perform E (S f) (OGetattr (VDeco d) "__parent__" fr) s = (Ok parent, s, []).
Proof.
  intros Hd.
  change (deco_getattr E (interp_n E f) Client d "__parent__" fr s = (Ok parent, s, [])).
  unfold deco_getattr. change (String.eqb "__parent__" "__Security_checker__") with false.
  cbv iota. rewrite bind_get, Hd. reflexivity.
Qed.

(** ** Arguments *)

Lemma unproxied_eq s args args' :
  Stripped s args args' -> unproxied args s = (Ok args', s, []).
Proof.
  induction 1 as [|p w c args args' Hp HS IH|v args args' Hv HS IH]; [reflexivity| |];
    cbn [unproxied].
  - destruct (look_inside _ _ _ _ Hp) as [Hr _].
    rewrite (bind_ok _ _ _ _ _ _ Hr), (bind_ok _ _ _ _ _ _ IH). reflexivity.
  - assert (Hr : removeSecurityProxy v s = (Ok v, s, []))
      by (destruct v; try discriminate; reflexivity).
    rewrite (bind_ok _ _ _ _ _ _ Hr), (bind_ok _ _ _ _ _ _ IH). reflexivity.
Qed.

Lemma some_proxied_eq s args args' :
  Stripped s args args' -> no_self_wrap s ->
  some_proxied args s = (Ok (existsb is_proxy args), s, []).
Proof.
  intros HS Hn.
  induction HS as [|p w c args args' Hp HS IH|v args args' Hv HS IH]; [reflexivity| |];
    cbn [some_proxied existsb].
  - destruct (look_inside _ _ _ _ Hp) as [Hr _]. rewrite (bind_ok _ _ _ _ _ _ Hr).
    destruct (value_eqb_spec w (VProxy p)) as [He|He]; [exfalso; eapply Hn; eauto|].
    reflexivity.
  - assert (Hr : removeSecurityProxy v s = (Ok v, s, []))
      by (destruct v; try discriminate; reflexivity).
    rewrite (bind_ok _ _ _ _ _ _ Hr), value_eqb_refl, Hv. cbn [negb orb]. rewrite IH.
    reflexivity.
Qed.

Lemma stripped_plain s args :
  existsb is_proxy args = false -> Stripped s args args.
Proof.
  induction args as [|a args IH]; cbn [existsb]; intros H; [constructor|].
  apply orb_false_iff in H. destruct H. apply St_other; auto.
Qed.

Lemma some_proxied_plain s args :
  existsb is_proxy args = false -> some_proxied args s = (Ok false, s, []).
Proof.
  induction args as [|a args IH]; cbn [existsb some_proxied]; intros H; [reflexivity|].
  apply orb_false_iff in H. destruct H as [Ha Hr].
  assert (Hq : removeSecurityProxy a s = (Ok a, s, []))
    by (destruct a; try discriminate; reflexivity).
  rewrite (bind_ok _ _ _ _ _ _ Hq), value_eqb_refl. cbn [negb]. rewrite (IH Hr). reflexivity.
Qed.

Lemma some_proxy_existsb args : some_proxy args <-> existsb is_proxy args = true.
Proof.
  rewrite existsb_exists. split.
  - intros (p & Hp). exists (VProxy p). auto.
  - intros (v & Hv & Hp). destruct v; try discriminate. exists p. exact Hv.
Qed.

Lemma no_proxy_existsb args : ~ some_proxy args <-> existsb is_proxy args = false.
Proof. rewrite some_proxy_existsb. destruct (existsb is_proxy args); split; congruence. Qed.

Lemma stripped_single s args args' :
  Stripped s args args' -> single_layer s -> ~ some_proxy args'.
Proof.
  intros HS H1. apply no_proxy_existsb.
  induction HS as [|p w c args args' Hp HS IH|v args args' Hv HS IH]; [reflexivity| |];
    cbn [existsb]; rewrite IH, orb_false_r; eauto.
Qed.

(** ** Trusted and untrusted adapter factories *)

Definition wraps_protected (k : trusted) : bool :=
  match k with Locating => true | Plain => false end.

Lemma customize_place I k a c s :
  customizeProtected I k a c s = place I (wraps_protected k) a c s.
Proof. destruct k; reflexivity. Qed.

(** With some proxied argument. *)
Lemma trusted_proxied_lemma E f k factory args args' s :
  is_proxy factory = false -> no_self_wrap s -> Stripped s args args' -> some_proxy args ->
  do_trusted E (S f) k factory args s =
  let '(r1, s1) := e_run E (e_tid E) (CallOp (OCall factory args')) s in
  let '(r, s', t) :=
    match r1 with
    | Exc e => (Exc e, s1, [])
    | Ok a => (b <- place (interp_n E (S f)) (wraps_protected k) a (hd VNone args') ;;
               do_ProxyFactory E (S f) b VNone) s1
    end in
  (r, s', factory_call E factory args' :: t).
Proof.
  intros Hf Hn HS Hp. unfold do_trusted, trusted_call.
  apply some_proxy_existsb in Hp. pose proof (some_proxied_eq _ _ _ HS Hn) as H1.
  rewrite Hp in H1. rewrite (bind_ok _ _ _ _ _ _ H1). cbv iota.
  rewrite (bind_ok _ _ _ _ _ _ (unproxied_eq _ _ _ HS)).
  pose proof (op_call_eq E f Client factory args' s Hf) as Hc.
  destruct (e_run E (e_tid E) (CallOp (OCall factory args')) s) as [[a|e] s1];
    simpl fst in Hc; simpl snd in Hc.
  2: { rewrite (bind_exc _ _ _ _ _ _ Hc). reflexivity. }
  rewrite (bind_ok _ _ _ _ _ _ Hc).
  assert (Hh : first args' s1 = (Ok (hd VNone args'), s1, [])).
  { inversion HS; subst; [discriminate| |]; reflexivity. }
  rewrite (bind_ok _ _ _ _ _ _ Hh).
  unfold bind at 1. rewrite customize_place. unfold bind at 1, do_ProxyFactory.
  destruct (place (interp_n E (S f)) (wraps_protected k) a (hd VNone args') s1)
    as [[[b|e] s2] t2]; [|reflexivity].
  destruct (ProxyFactory E (interp_n E (S f)) b VNone s2) as [[r s3] t3]. reflexivity.
Qed.

(** With none. *)
Lemma trusted_plain_lemma E f k factory args s :
  is_proxy factory = false -> ~ some_proxy args ->
  do_trusted E (S f) k factory args s =
  let '(r1, s1) := e_run E (e_tid E) (CallOp (OCall factory args)) s in
  let '(r, s', t) :=
    match r1, args with
    | Exc e, _ => (Exc e, s1, [])
    | Ok a, [] => (Exc EIndex, s1, [])
    | Ok a, c :: _ => place (interp_n E (S f)) false a c s1
    end in
  (r, s', factory_call E factory args :: t).
Proof.
  intros Hf Hp. apply no_proxy_existsb in Hp. unfold do_trusted, trusted_call.
  rewrite (bind_ok _ _ _ _ _ _ (some_proxied_plain s args Hp)). cbv iota.
  pose proof (op_call_eq E f Client factory args s Hf) as Hc.
  destruct (e_run E (e_tid E) (CallOp (OCall factory args)) s) as [[a|e] s1];
    simpl fst in Hc; simpl snd in Hc.
  2: { rewrite (bind_exc _ _ _ _ _ _ Hc). reflexivity. }
  rewrite (bind_ok _ _ _ _ _ _ Hc). destruct args as [|c args]; [reflexivity|].
  cbn [first]. rewrite bind_ret. unfold place.
  destruct (customizeUnprotected (interp_n E (S f)) a c s1) as [[r s2] t2]. reflexivity.
Qed.

Lemma untrusted_lemma E f factory args s :
  is_proxy factory = false ->
  do_untrusted E (S f) factory args s =
  let '(r1, s1) := e_run E (e_tid E) (CallOp (OCall factory args)) s in
  let '(r, s', t) :=
    match r1, args with
    | Exc e, _ => (Exc e, s1, [])
    | Ok a, [] => (Exc EIndex, s1, [])
    | Ok a, c :: _ => place (interp_n E (S f)) true a c s1
    end in
  (r, s', factory_call E factory args :: t).
Proof.
  intros Hf. unfold do_untrusted, untrusted_call.
  pose proof (op_call_eq E f Client factory args s Hf) as Hc.
  destruct (e_run E (e_tid E) (CallOp (OCall factory args)) s) as [[a|e] s1];
    simpl fst in Hc; simpl snd in Hc.
  2: { rewrite (bind_exc _ _ _ _ _ _ Hc). reflexivity. }
  rewrite (bind_ok _ _ _ _ _ _ Hc). destruct args as [|c args]; [reflexivity|].
  cbn [first]. rewrite bind_ret. unfold place.
  destruct (assertLocation (interp_n E (S f)) a c s1) as [[r s2] t2]. reflexivity.
Qed.

(** What ProxyFactory returns is a proxy or needs none. *)
Lemma factory_protected E f v s u s' t :
  do_ProxyFactory E f v VNone s = (Ok u, s', t) ->
  is_proxy u = true \/ (u = v /\ needs_none E s' t v).
Proof.
  unfold do_ProxyFactory, ProxyFactory. destruct (is_proxy v) eqn:Hv.
  { intros H. unfold ret in H. minj H. auto. }
  intros H. mbind H; [discriminate|].
  destruct a; try (left; eapply new_proxy_result; eauto; fail).
  mbind Hf; [discriminate|]. destruct a as [c|].
  - left. eapply new_proxy_result; eauto.
  - unfold ret in Hf0. minj Hf0. right. split; auto.
    apply select_none in Hm0. eapply needs_none_more; [|exact Hm0].
    rewrite app_nil_r. apply incl_appr, incl_refl.
Qed.
