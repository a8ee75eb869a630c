(** * DecoFacts: the checker of decorated objects. *)

From Coq Require Import List String Bool Arith ZArith Lia.
From Verif Require Import Base Domain CheckerModel ProxyModel MFacts Spec RegSpec Witness
  CheckFacts CombineFacts CheckProps RegistryFacts RegistryProps ProxySpec FactorySpec SafeFacts
  ProxyFacts ProxyOps ProxyResults Factory Adapter AdapterSpec AdapterFacts.
Import ListNotations.
Open Scope string_scope.
Open Scope m_scope.

Notation sec := "__Security_checker__".

(** ** The descriptor *)

(** The inner half of decorator.py 38-44. *)
Definition inner_of E I (inner : value) : M (option value) :=
  if is_proxy inner then c <- getChecker inner ;; ret (Some c)
  else
    c <- getattr_sec_checker I inner ;;
    match c with
    | VNone => selectChecker E I inner
    | _ => ret (Some c)
    end.

Definition join_of E (wrapper checker : option value) : M value :=
  match wrapper, checker with
  | None, None => raise (EAttribute sec)
  | None, Some c => ret c
  | Some w, None => ret w
  | Some w, Some c => CombinedChecker_new E w c
  end.

Lemma deco_get_eq E f k d x fr s :
  st_decos s d = Some x ->
  i_op (interp_n E (S f)) k (OGetattr (VDeco d) sec fr) s =
  (checker <- inner_of E (interp_n E f) (dc_obj x) ;;
   wrapper <- do_select E f (VDeco d) ;;
   join_of E wrapper checker) s.
Proof.
  intros Hd.
  change (deco_getattr E (interp_n E f) k d sec fr s =
    (checker <- inner_of E (interp_n E f) (dc_obj x) ;;
     wrapper <- do_select E f (VDeco d) ;;
     join_of E wrapper checker) s).
  unfold deco_getattr. rewrite String.eqb_refl. unfold Decorated_get.
  rewrite bind_get, Hd. reflexivity.
Qed.

Lemma inner_eq E f s v oc s1 :
  Inner E (do_select E (S f)) s v oc s1 -> exists t, inner_of E (interp_n E (S f)) v s = (Ok oc, s1, t).
Proof.
  intros [p w c -> Hp|c s2 HO Hc|s2 oc2 s3 t HO Hs].
  - exists []. unfold inner_of. cbn [is_proxy].
    destruct (look_inside _ _ _ _ Hp) as [_ Hg]. rewrite (bind_ok _ _ _ _ _ _ Hg). reflexivity.
  - destruct (own_getattr E f s v c s2 HO) as (t & Hg & _). exists t.
    unfold inner_of. rewrite (own_not_proxy _ _ _ _ _ HO), (bind_ok _ _ _ _ _ _ Hg).
    destruct c; try congruence; unfold ret; rewrite app_nil_r; reflexivity.
  - destruct (own_getattr E f s v VNone s2 HO) as (t1 & Hg & _). exists (t1 ++ t)%list.
    unfold inner_of. rewrite (own_not_proxy _ _ _ _ _ HO), (bind_ok _ _ _ _ _ _ Hg).
    unfold do_select in Hs. rewrite Hs. reflexivity.
Qed.

(** The four outcomes. *)
Lemma descriptor_lemma E f d x fr s oc s1 ow s2 t2 :
  st_decos s d = Some x -> Inner E (do_select E (S f)) s (dc_obj x) oc s1 ->
  do_select E (S f) (VDeco d) s1 = (Ok ow, s2, t2) ->
  exists r s' t,
    perform E (S (S f)) (OGetattr (VDeco d) sec fr) s = (r, s', t) /\
    match ow, oc with
    | None, None => r = Exc (EAttribute sec) /\ s' = s2
    | None, Some c | Some c, None => r = Ok c /\ s' = s2
    | Some w, Some c =>
        exists i k, w = VChk i /\ st_chks s2 i = Some k /\ r = Ok (VChk (st_next s2)) /\
          s' = set_chks (upd (st_chks s2) (st_next s2)
                 (Some (mkChecker (ck_get k) (ck_set k)
                          match e_watch E with
                          | 0 => CkCombined c
                          | S v => CkWatchingCombined (S v) c
                          end))) (set_next (S (st_next s2)) s2)
    end.
Proof.
  intros Hd Hi Hs. destruct (inner_eq _ _ _ _ _ _ Hi) as (t1 & Hin).
  unfold perform. rewrite (deco_get_eq E (S f) Client d x fr s Hd).
  rewrite (bind_ok _ _ _ _ _ _ Hin), (bind_ok _ _ _ _ _ _ Hs).
  destruct ow as [w|], oc as [c|]; cbn [join_of].
  - destruct (selectChecker_result_lemma _ _ _ _ _ _ _ Hs) as [Hx|(c' & Hx & (i & k & -> & Hk & _))];
      [discriminate|]. injection Hx as ->.
    unfold CombinedChecker_new, alloc_checker. rewrite bind_get, Hk.
    rewrite bind_fresh, bind_get, bind_put. do 3 eexists. split; [reflexivity|].
    exists i, k. repeat split; auto.
  - do 3 eexists. split; [reflexivity|]. auto.
  - do 3 eexists. split; [reflexivity|]. auto.
  - do 3 eexists. split; [reflexivity|]. auto.
Qed.

Lemma set_refused E f d v s :
  perform E (S f) (OSetattr (VDeco d) sec v) s =
  (Exc (EType "Can't set __Security_checker__ on a decorated object"), s, []).
Proof. reflexivity. Qed.

(** ** Stacks of decorators *)

Lemma only_new_refl s : only_new_checkers s s.
Proof. split; [destruct s; reflexivity|]. auto. Qed.

Lemma only_new_trans s1 s2 s3 :
  only_new_checkers s1 s2 -> only_new_checkers s2 s3 -> only_new_checkers s1 s3.
Proof.
  intros (H1 & L1 & K1) (H2 & L2 & K2). split; [|split; [lia|auto]].
  rewrite H2, H1. reflexivity.
Qed.

Lemma only_new_kept s s' : only_new_checkers s s' -> checkers_kept s s'.
Proof.
  intros (H & _ & K) i k Hk. split; auto. rewrite H. auto.
Qed.

Lemma registered_for_new E s s' v :
  only_new_checkers s s' -> registered_for E s' v = registered_for E s v.
Proof. intros (H & _). rewrite H. destruct v; reflexivity. Qed.

Lemma concrete_type_new E s s' v :
  only_new_checkers s s' -> concrete_type E s' v = concrete_type E s v.
Proof. intros (H & _). rewrite H. destruct v; reflexivity. Qed.

Lemma ByType_new E s s' v c g w :
  only_new_checkers s s' -> ByType E s v c g w -> ByType E s' v c g w.
Proof.
  intros Ho [Hp Hr]. split.
  - eapply PlainChecker_kept; eauto. apply only_new_kept; auto.
  - rewrite (registered_for_new _ _ _ _ Ho), (concrete_type_new _ _ _ _ Ho). exact Hr.
Qed.

Lemma plain_is_Checker E s c g w :
  e_watch E = 0 -> PlainChecker s c g w -> is_Checker E s c = true.
Proof.
  intros Hw (i & k & Hi & Hk & _). apply is_Checker_spec. exists i, k. auto.
Qed.

Lemma select_by_type E f s v c g w :
  e_watch E = 0 -> ByType E s v c g w -> do_select E (S f) v s = (Ok (Some c), s, []).
Proof.
  intros Hw [Hp Hr]. pose proof (plain_is_Checker _ _ _ _ _ Hw Hp) as Hc.
  assert (Hvc : exists i, c = VChk i) by (destruct Hp as (i & k & -> & _); eauto).
  destruct Hvc as [i ->].
  assert (Hst : settled E s v).
  { unfold settled. destruct Hr as [[-> _]|[-> _]]; [right|]; exact I. }
  rewrite (do_select_settled _ _ _ _ Hst), registered_spec.
  destruct Hr as [[-> Hd]|(-> & Hi & Hx)].
  - cbn [value_eqb]. destruct (Nat.eqb_spec i default_cid) as [->|Hn].
    { exfalso. apply Hd. reflexivity. }
    rewrite andb_false_r, andb_false_l. unfold settled_outcome. rewrite Hc. reflexivity.
  - rewrite Hi in Hc |- *. cbn [value_eqb spec_default].
    replace (_ && _ && _)%bool with false.
    + unfold settled_outcome. rewrite Hc. reflexivity.
    + destruct (e_cimpl E); [reflexivity|]. rewrite (Hx eq_refl), andb_false_r. reflexivity.
Qed.

Lemma select_unguarded E f s v :
  Unguarded E s v -> do_select E f v s = (Ok None, s, []).
Proof.
  intros Hu. unfold do_select, selectChecker, selectCheckerPy, selectCheckerC.
  destruct (e_cimpl E); rewrite bind_get, registered_spec, Hu; reflexivity.
Qed.

Lemma found_value s oc gs ws c : Found s oc gs ws -> oc = Some c -> exists i, c = VChk i.
Proof.
  intros HF ->. simpl in HF. destruct HF as [c g w (i & k & -> & _)|]; eauto.
Qed.

(** What the descriptor makes of a decorator on top of a stack. *)
Definition Result (s : state) (gs ws : list table) (oc : option value) (s1 : state)
  (t : list event) : Prop :=
  Found s1 oc gs ws /\ only_new_checkers s s1 /\ fresh_checkers s1 /\ client_calls t = [].

Definition op_result (oc : option value) : res value :=
  match oc with Some c => Ok c | None => Exc (EAttribute sec) end.

Lemma client_calls_app t1 t2 :
  client_calls (t1 ++ t2) = (client_calls t1 ++ client_calls t2)%list.
Proof. apply filter_app. Qed.

(** From the inner half to the whole descriptor. *)
Lemma deco_step E f k d x fr s gs ws oc s1 t1 gs' ws' :
  e_watch E = 0 -> st_decos s d = Some x ->
  inner_of E (interp_n E (S f)) (dc_obj x) s = (Ok oc, s1, t1) ->
  Result s gs ws oc s1 t1 ->
  ((exists c g w, ByType E s (VDeco d) c g w /\
      gs' = table_of g :: gs /\ ws' = table_of w :: ws) \/
   (Unguarded E s (VDeco d) /\ gs' = gs /\ ws' = ws)) ->
  exists oc' s' t',
    i_op (interp_n E (S (S f))) k (OGetattr (VDeco d) sec fr) s = (op_result oc', s', t') /\
    Result s gs' ws' oc' s' t'.
Proof.
  intros Hw Hd Hin (HF & Ho & Hfr & Hq) [(c & g & w & HB & -> & ->)|(HU & -> & ->)];
    rewrite (deco_get_eq E (S f) k d x fr s Hd), (bind_ok _ _ _ _ _ _ Hin).
  - pose proof (ByType_new _ _ _ _ _ _ _ Ho HB) as HB1.
    rewrite (bind_ok _ _ _ _ _ _ (select_by_type E f s1 (VDeco d) c g w Hw HB1)).
    destruct oc as [c2|]; cbn [join_of].
    + destruct HB1 as [HP _]. pose proof HP as (i & kk & Hi & Hk & _).
      pose proof (Combined_new_eq E c c2 s1 i kk Hi Hk Hw) as Hn. rewrite Hn.
      destruct (Combined_new_chain E c c2 s1 _ _ _ g w gs ws Hw Hfr HP HF Hn) as [HC Hf2].
      eexists (Some _), _, _. split; [reflexivity|].
      split; [exact HC|]. split; [|split; [exact Hf2|]].
      * eapply only_new_trans; [exact Ho|]. split; [reflexivity|]. split; [simpl; lia|].
        intros j kj Hj. simpl. rewrite upd_ne; auto. intros ->. rewrite Hfr in Hj by lia.
        discriminate.
      * rewrite !app_nil_r. exact Hq.
    + destruct HF as [-> ->]. exists (Some c), s1, (t1 ++ [])%list.
      split; [reflexivity|]. split; [|rewrite app_nil_r; auto].
      simpl. constructor. apply HB1.
  - assert (HU1 : Unguarded E s1 (VDeco d)).
    { unfold Unguarded. rewrite (registered_for_new _ _ _ _ Ho). exact HU. }
    rewrite (bind_ok _ _ _ _ _ _ (select_unguarded E (S f) s1 (VDeco d) HU1)).
    exists oc, s1, (t1 ++ [])%list. split.
    + destruct oc as [c|]; cbn [join_of op_result]; reflexivity.
    + rewrite app_nil_r. repeat split; auto; apply Ho.
Qed.

(** And from the descriptor of a decorator to the inner half of the next one. *)
Lemma deco_inner E f d s gs ws oc s1 t1 :
  i_op (interp_n E f) Probe (OGetattr (VDeco d) sec None) s = (op_result oc, s1, t1) ->
  Result s gs ws oc s1 t1 -> (oc = None -> Unguarded E s (VDeco d)) ->
  inner_of E (interp_n E f) (VDeco d) s = (Ok oc, s1, t1).
Proof.
  intros Hop (HF & Ho & Hfr & Hq) HU. unfold inner_of. cbn [is_proxy].
  destruct oc as [c|]; cbn [op_result] in Hop.
  - assert (Hg : getattr_sec_checker (interp_n E f) (VDeco d) s = (Ok c, s1, t1)).
    { unfold getattr_sec_checker. rewrite (catch_ok _ _ _ _ _ _ Hop). reflexivity. }
    rewrite (bind_ok _ _ _ _ _ _ Hg).
    destruct (found_value _ _ _ _ c HF eq_refl) as [i ->]. unfold ret. rewrite app_nil_r.
    reflexivity.
  - assert (Hg : getattr_sec_checker (interp_n E f) (VDeco d) s = (Ok VNone, s1, t1)).
    { unfold getattr_sec_checker. rewrite (catch_exc _ _ _ _ _ _ Hop). simpl.
      rewrite app_nil_r. reflexivity. }
    rewrite (bind_ok _ _ _ _ _ _ Hg).
    assert (HU1 : Unguarded E s1 (VDeco d)).
    { unfold Unguarded. rewrite (registered_for_new _ _ _ _ Ho). exact (HU eq_refl). }
    pose proof (select_unguarded E f s1 (VDeco d) HU1) as Hs. unfold do_select in Hs.
    rewrite Hs, app_nil_r. reflexivity.
Qed.

(** Both views of a value below [n] decorators. *)
Definition Views E f s n v gs ws : Prop :=
  (exists oc s1 t, inner_of E (interp_n E (n + S f)) v s = (Ok oc, s1, t) /\
                   Result s gs ws oc s1 t) /\
  (forall d, v = VDeco d ->
    (gs = [] -> Unguarded E s v) /\
    forall k fr, exists oc s1 t,
      i_op (interp_n E (n + S f)) k (OGetattr v sec fr) s = (op_result oc, s1, t) /\
      Result s gs ws oc s1 t).

Lemma result_same s gs ws oc t :
  fresh_checkers s -> Found s oc gs ws -> client_calls t = [] -> Result s gs ws oc s t.
Proof. intros Hf HF Hq. split; [exact HF|]. split; [apply only_new_refl|]. auto. Qed.

Lemma views_step E f s n d x gs0 ws0 gs ws :
  e_watch E = 0 -> st_decos s d = Some x -> Views E f s n (dc_obj x) gs0 ws0 ->
  ((exists c g w, ByType E s (VDeco d) c g w /\
      gs = table_of g :: gs0 /\ ws = table_of w :: ws0) \/
   (Unguarded E s (VDeco d) /\ gs = gs0 /\ ws = ws0)) ->
  Views E f s (S n) (VDeco d) gs ws.
Proof.
  intros Hw Hd [(oc & s1 & t & Hin & HR) _] Hc. unfold Views.
  replace (S n + S f) with (S (S (n + f))) by lia.
  replace (n + S f) with (S (n + f)) in Hin by lia.
  assert (Hnil : gs = [] -> Unguarded E s (VDeco d)).
  { intros Hg. destruct Hc as [(c & g & w & _ & Hgs & _)|[HU _]]; [congruence|exact HU]. }
  assert (Hop : forall k fr, exists oc s1 t,
      i_op (interp_n E (S (S (n + f)))) k (OGetattr (VDeco d) sec fr) s =
        (op_result oc, s1, t) /\ Result s gs ws oc s1 t).
  { intros k fr. eapply deco_step; eauto. }
  split.
  - destruct (Hop Probe None) as (oc1 & s2 & t2 & H1 & HR1).
    exists oc1, s2, t2. split; [|exact HR1]. eapply deco_inner; eauto.
    intros ->. apply Hnil. apply HR1.
  - intros d' Hd'. injection Hd' as <-. split; auto.
Qed.

Lemma stack_lemma E s n v gs ws :
  e_watch E = 0 -> fresh_checkers s -> Stack E s n v gs ws ->
  forall f, Views E f s n v gs ws.
Proof.
  intros Hw Hfr HS f.
  induction HS as [p w c gs ws Hp HC|v c gs ws HO Hc HC|v c g w HO HB|v HO HU
                  |n d x c g w gs ws Hd HB HS IH|n d x gs ws Hd HU HS IH].
  - split; [|intros d Hd; discriminate]. exists (Some c), s, []. split.
    + unfold inner_of. cbn [is_proxy]. destruct (look_inside _ _ _ _ Hp) as [_ Hg].
      rewrite (bind_ok _ _ _ _ _ _ Hg). reflexivity.
    + apply result_same; auto.
  - split; [|intros d ->; inversion HO; try discriminate; contradiction].
    destruct (own_getattr E f s v c s HO) as (t & Hg & Hq). exists (Some c), s, t. split.
    + unfold inner_of. cbn [plus]. rewrite (own_not_proxy _ _ _ _ _ HO), (bind_ok _ _ _ _ _ _ Hg).
      destruct c; try congruence; unfold ret; rewrite app_nil_r; reflexivity.
    + apply result_same; auto.
  - split; [|intros d ->; inversion HO; try discriminate; contradiction].
    destruct (own_getattr E f s v VNone s HO) as (t & Hg & Hq). exists (Some c), s, t. split.
    + unfold inner_of. cbn [plus]. rewrite (own_not_proxy _ _ _ _ _ HO), (bind_ok _ _ _ _ _ _ Hg).
      pose proof (select_by_type E f s v c g w Hw HB) as Hs. unfold do_select in Hs.
      rewrite Hs, app_nil_r. reflexivity.
    + apply result_same; auto. simpl. constructor. apply HB.
  - split; [|intros d ->; inversion HO; try discriminate; contradiction].
    destruct (own_getattr E f s v VNone s HO) as (t & Hg & Hq). exists None, s, t. split.
    + unfold inner_of. cbn [plus]. rewrite (own_not_proxy _ _ _ _ _ HO), (bind_ok _ _ _ _ _ _ Hg).
      pose proof (select_unguarded E (S f) s v HU) as Hs. unfold do_select in Hs.
      rewrite Hs, app_nil_r. reflexivity.
    + apply result_same; auto. simpl. auto.
  - eapply views_step; eauto. left. exists c, g, w. auto.
  - eapply views_step; eauto.
Qed.

(** The attribute of a decorator. *)
Lemma stack_attribute E f s n d gs ws fr :
  e_watch E = 0 -> fresh_checkers s -> Stack E s n (VDeco d) gs ws ->
  exists r s' t,
    perform E (n + S f) (OGetattr (VDeco d) sec fr) s = (r, s', t) /\
    only_new_checkers s s' /\ client_calls t = [] /\
    ((gs = [] /\ r = Exc (EAttribute sec)) \/
     exists c, r = Ok c /\ Chain s' c gs ws).
Proof.
  intros Hw Hfr HS. destruct (stack_lemma E s n _ gs ws Hw Hfr HS f) as [_ H].
  destruct (H d eq_refl) as [_ H1]. destruct (H1 Client fr) as (oc & s1 & t & Hop & HF & Ho & _ & Hq).
  exists (op_result oc), s1, t. split; [exact Hop|]. split; [exact Ho|]. split; [exact Hq|].
  destruct oc as [c|]; simpl in *; [right; eauto|left]. destruct HF; auto.
Qed.

(** ProxyFactory on a decorator. *)
Lemma stack_factory E f s n d gs ws :
  e_watch E = 0 -> fresh_checkers s -> Stack E s n (VDeco d) gs ws ->
  exists r s' t,
    do_ProxyFactory E (n + S f) (VDeco d) VNone s = (Ok r, s', t) /\
    client_calls t = [] /\
    match gs with
    | [] => r = VDeco d /\ only_new_checkers s s'
    | _ => exists p c s1, r = VProxy p /\ only_new_checkers s s1 /\
                          Grown s1 s' p (VDeco d) c /\ Chain s' c gs ws
    end.
Proof.
  intros Hw Hfr HS. destruct (stack_lemma E s n _ gs ws Hw Hfr HS f) as [Hin _].
  destruct Hin as (oc & s1 & t & Hin & HF & Ho & Hf1 & Hq).
  assert (Heq : do_ProxyFactory E (n + S f) (VDeco d) VNone s =
    let '(r, s', t') := match oc with None => ret (VDeco d) | Some c => new_proxy (VDeco d) c end s1
    in (r, s', (t ++ t')%list)).
  { unfold do_ProxyFactory, ProxyFactory. cbn [is_proxy].
    unfold inner_of in Hin. cbn [is_proxy] in Hin. mbind Hin; [discriminate|].
    rewrite (bind_ok _ _ _ _ _ _ Hm).
    assert (Hcase : (a = VNone /\ selectChecker E (interp_n E (n + S f)) (VDeco d) s0 = (Ok oc, s1, t2))
                    \/ (a <> VNone /\ oc = Some a /\ s1 = s0 /\ t2 = [])).
    { destruct a; try (right; unfold ret in Hf; minj Hf; repeat split; auto; discriminate).
      left. auto. }
    destruct Hcase as [[-> Hs]|(Ha & -> & -> & ->)].
    - rewrite (bind_ok _ _ _ _ _ _ Hs). destruct oc as [c|].
      + destruct (new_proxy (VDeco d) c s1) as [[r s'] t']. subst t. rewrite app_assoc. reflexivity.
      + subst t. simpl. rewrite !app_nil_r. reflexivity.
    - subst t. rewrite app_nil_r.
      assert (Hnp : match a with
        | VNone => oc <- selectChecker E (interp_n E (n + S f)) (VDeco d) ;;
                   match oc with None => ret (VDeco d) | Some c2 => new_proxy (VDeco d) c2 end
        | _ => new_proxy (VDeco d) a end s0 = new_proxy (VDeco d) a s0)
        by (destruct a; try reflexivity; congruence).
      rewrite Hnp. destruct (new_proxy (VDeco d) a s0) as [[r s'] t']. reflexivity. }
  rewrite Heq. destruct oc as [c|].
  - simpl in HF. assert (Hc : c <> VNone).
    { destruct HF as [c g w (i & k & -> & _)|]; discriminate. }
    destruct (new_proxy_grown (VDeco d) c s1 Hc) as (s' & Hn & HG). rewrite Hn.
    do 3 eexists. split; [reflexivity|]. rewrite app_nil_r. split; [exact Hq|].
    destruct (Chain_nonempty _ _ _ _ HF) as [Hg _]. destruct gs as [|g gs]; [congruence|].
    exists (st_next s1), c, s1. split; [reflexivity|]. split; [exact Ho|]. split; [exact HG|].
    eapply Chain_kept; [|exact HF]. destruct HG as [_ ->]. intros i k Hk. auto.
  - destruct HF as [-> ->]. do 3 eexists. split; [reflexivity|]. rewrite app_nil_r. auto.
Qed.

(** Under the package's policies: what a proxied decorator grants. *)
Lemma stack_grants E f s n d gs ws nm i x :
  e_watch E = 0 -> foreign_keeps_checkers E -> fresh_checkers s ->
  Stack E s n (VDeco d) gs ws -> gs <> [] -> Forall no_none gs -> nm <> "__iter__" ->
  tl_inter (st_tls s (e_tid E)) = Some (VIact i) -> st_inters s i = Some x ->
  exists p c s' t r tr,
    do_ProxyFactory E (n + S f) (VDeco d) VNone s = (Ok (VProxy p), s', t) /\
    st_prox s' p = Some (VDeco d, c) /\
    do_check E (List.length gs + S f) MGetattr c (VDeco d) nm s' = (r, s', tr) /\
    (r = Ok tt <->
     exists tb, In tb gs /\ match tb nm with
                            | Some q => simple_grants s x q
                            | None => always_available nm
                            end) /\
    (r <> Ok tt -> is_denied r).
Proof.
  intros Hw Hk Hfr HS Hg Hnn Hnm Ht Hi.
  destruct (stack_factory E f s n d gs ws Hw Hfr HS) as (r & s' & t & HP & _ & HR).
  destruct gs as [|g gs]; [congruence|].
  destruct HR as (p & c & s1 & -> & Ho & HG & HC).
  assert (Hsame : st_tls s' = st_tls s /\ st_inters s' = st_inters s /\ st_parts s' = st_parts s).
  { destruct HG as [_ ->]. destruct Ho as [-> _]. auto. }
  destruct Hsame as (H1 & H2 & H3).
  destruct (chain_simple_lemma E f MGetattr c (g :: gs) ws (VDeco d) nm s' i x) as
    (r & tr & Hck & Hiff & Hden); auto; try discriminate.
  - rewrite H1. exact Ht.
  - rewrite H2. exact Hi.
  - exists p, c, s', t, r, tr. split; [exact HP|]. split.
    + apply grown_wraps in HG. destruct HG. auto.
    + split; [exact Hck|]. split; [|exact Hden]. rewrite Hiff.
      assert (Heq : forall q, simple_grants s' x q <-> simple_grants s x q)
        by (intros q; unfold simple_grants; rewrite H3; reflexivity).
      split; intros (tb & Hin & Hm); exists tb; (split; [exact Hin|]);
        destruct (tb nm); auto; apply Heq; auto.
Qed.
