(** * RegistryProps: lemmas in the form used by Properties_Registry. *)

From Coq Require Import List String Bool Arith ZArith Lia.
From Verif Require Import Base Domain CheckerModel ProxyModel MFacts Spec RegSpec
  Witness CheckFacts RegistryFacts.
Import ListNotations.
Open Scope string_scope.
Open Scope m_scope.

(** The maps held by a state. *)
Definition maps_of (s : state) : amaps :=
  mkMaps (fun k => dget rkey_eqb (st_reg s) k) (fun k => dget rkey_eqb (st_basic s) k).

Lemma holds_maps_of s : NoDup (map fst (st_basic s)) -> holds s (maps_of s).
Proof. intros H. repeat split; auto. Qed.

Lemma default_forbids_lemma E f obj s n :
  e_watch E = 0 -> registered_for E s obj = None ->
  (e_cimpl E = ImplC -> e_isexc E (concrete_type E s obj) = false) ->
  PlainChecker s spec_default [] [] ->
  do_select E (S (S f)) obj s = (Ok (Some spec_default), s, []) /\
  (~ always_available n -> n <> "__iter__" ->
   do_check E (S (S f)) MGetattr spec_default obj n s = (Exc (EForbidden n obj), s, [])) /\
  do_check E (S (S f)) MSetattr spec_default obj n s = (Exc (EForbidden n obj), s, []).
Proof.
  intros Hw Hr Hx Hp. split; [|split].
  - rewrite do_select_settled.
    + rewrite registered_spec, Hr.
      assert (Hnx : (match e_cimpl E with ImplC => true | ImplPy => false end
             && value_eqb spec_default (VChk default_cid)
             && e_isexc E (concrete_type E s obj))%bool = false).
      { destruct (e_cimpl E); [reflexivity|]. rewrite (Hx eq_refl), andb_false_r. reflexivity. }
      rewrite Hnx. simpl. unfold settled_outcome.
      replace (is_Checker E s spec_default) with true; [reflexivity|].
      symmetry. apply is_Checker_spec. destruct Hp as (i & k & Hi & Hk & _).
      exists i, k. auto.
    + unfold settled. rewrite Hr. exact I.
  - intros Hav Hit.
    destruct (do_check E (S (S f)) MGetattr spec_default obj n s) as [[r s'] tr] eqn:H.
    apply (check_exact_lemma _ _ _ _ _ _ _ _ _ _ _ _ Hp) in H; try congruence.
    + apply ReadCheck_absent in H; auto. destruct H as (-> & -> & ->). reflexivity.
    + intros x. simpl. discriminate.
  - destruct (do_check E (S (S f)) MSetattr spec_default obj n s) as [[r s'] tr] eqn:H.
    apply (check_setattr_exact_lemma _ _ _ _ _ _ _ _ _ _ _ Hp) in H.
    + apply WriteCheck_absent in H; auto. destruct H as (-> & -> & ->). reflexivity.
    + intros x. simpl. discriminate.
Qed.

(** Objects without a checker of their own. *)
Definition no_own_checker (E : env) (s : state) (v : value) : Prop :=
  plain_object v /\
  (is_atom v = true \/
   exists n, e_run E (e_tid E) (CallOp (OGetattr v "__Security_checker__" None)) s =
             (Exc (EAttribute n), s)).

Lemma getattr_sec_none E f v s :
  no_own_checker E s v ->
  exists t, getattr_sec_checker (interp_n E (S f)) v s = (Ok VNone, s, t) /\
            client_calls t = [] /\ asks t = [].
Proof.
  intros (Hp & H). unfold getattr_sec_checker.
  destruct (is_atom v) eqn:Ha.
  - exists []. split; [|auto].
    assert (Hop : i_op (interp_n E (S f)) Probe (OGetattr v "__Security_checker__" None) s =
                  (Exc (EAttribute "__Security_checker__"), s, [])).
    { simpl. destruct v; try discriminate; reflexivity. }
    rewrite (catch_exc _ _ _ _ _ _ Hop). reflexivity.
  - destruct H as [H|(n & H)]; [discriminate|].
    eexists. split; [|split].
    + rewrite (catch_exc _ _ _ (EAttribute n) s
                 [ECall Probe (e_tid E) (CallOp (OGetattr v "__Security_checker__" None))]).
      * reflexivity.
      * rewrite getattr_plain_eq; [rewrite H; reflexivity| |rewrite Ha; reflexivity].
        destruct v; simpl in *; auto.
    + reflexivity.
    + reflexivity.
Qed.

Lemma new_proxy_eq v c s :
  c <> VNone ->
  new_proxy v c s =
  (Ok (VProxy (st_next s)),
   set_prox (upd (st_prox s) (st_next s) (Some (v, c))) (set_next (S (st_next s)) s), []).
Proof. intros H. destruct c; try reflexivity. congruence. Qed.

Lemma ProxyFactory_select E f obj s c :
  no_own_checker E s obj ->
  do_select E (S f) obj s = (Ok (Some c), s, []) ->
  exists p s' t, do_ProxyFactory E (S f) obj VNone s = (Ok (VProxy p), s', t) /\
                 st_prox s' p = Some (obj, c).
Proof.
  intros Hn Hs. destruct (getattr_sec_none E f obj s Hn) as (t & Hg & _).
  unfold do_ProxyFactory, ProxyFactory.
  assert (Hp : is_proxy obj = false).
  { destruct Hn as [Hn _]. destruct obj; simpl in *; auto; contradiction. }
  rewrite Hp. rewrite (bind_ok _ _ _ _ _ _ Hg).
  change (selectChecker E (interp_n E (S f)) obj) with (do_select E (S f) obj).
  rewrite (bind_ok _ _ _ _ _ _ Hs).
  assert (Hc : c <> VNone).
  { destruct (selectChecker_result_lemma E (S f) obj s (Some c) s [] Hs)
      as [H|(c' & H & (i & k & -> & _))]; congruence. }
  rewrite (new_proxy_eq obj c s Hc). do 3 eexists. split; [reflexivity|].
  simpl. rewrite upd_eq. reflexivity.
Qed.

Lemma same_type_proxies_lemma E f o1 o2 s c :
  concrete_type E s o1 = concrete_type E s o2 -> settled E s o1 ->
  no_own_checker E s o1 -> no_own_checker E s o2 ->
  do_select E (S f) o1 s = (Ok (Some c), s, []) ->
  exists p1 s1 t1 p2 s2 t2,
    do_ProxyFactory E (S f) o1 VNone s = (Ok (VProxy p1), s1, t1) /\
    do_ProxyFactory E (S f) o2 VNone s = (Ok (VProxy p2), s2, t2) /\
    st_prox s1 p1 = Some (o1, c) /\ st_prox s2 p2 = Some (o2, c).
Proof.
  intros Ht Hs H1 H2 Hsel.
  destruct (ProxyFactory_select E f o1 s c H1 Hsel) as (p1 & s1 & t1 & Hf1 & Hp1).
  rewrite (same_type_lemma E f o1 o2 s Ht Hs) in Hsel.
  destruct (ProxyFactory_select E f o2 s c H2 Hsel) as (p2 & s2 & t2 & Hf2 & Hp2).
  exists p1, s1, t1, p2, s2, t2. auto.
Qed.

(** ** Witness states *)

(** Type app.Thing is registered with a checker, app.Rock with NoProxy, app.Nil with
    None and app.Made with a factory (object 60). *)
Definition reg_state : state :=
  set_basic [(KType "int", VNoProxy)]
    (set_reg [(KType "app.Thing", VChk 10); (KType "app.Rock", VNoProxy);
              (KType "app.Nil", VNone); (KType "app.Made", VObj 60);
              (KType "int", VNoProxy)] w_state).

Definition reg_env (b : impl) : env :=
  mkEnv b b 0 0
        (fun o => match o with
                  | 1 | 2 => "app.Thing" | 3 => "app.Rock" | 4 => "app.Nil"
                  | 5 => "app.Made" | 6 => "app.Error" | _ => "app.Other" end)
        (fun _ => "type") (fun c => String.eqb c "app.Error") (fun _ => "0x1")
        (fun t c s => match c with
                      | CallOp (OCall (VObj 60) _) => (Ok (VChk 11), s)
                      | _ => quiet_run t c s end).

Lemma reg_env_no_proxied b : no_proxied_factories (reg_env b) reg_state.
Proof.
  split.
  { intros k v H. apply (dget_In _ rkey_eqb_spec) in H. simpl in H.
    repeat (destruct H as [H|H]; [inversion H; reflexivity|]). contradiction. }
  intros t f args s1 v s2 Hc H. simpl in H.
  assert (Hq : (Ok v, s2) = (Ok (VChk 11), s1) \/ (Ok v, s2) = (Ok VNone, s1)).
  { destruct f as [| | | | |o| | | | | | | |]; try (right; symmetry; exact H).
    destruct (Nat.eq_dec o 60) as [->|Hn]; [left; symmetry; exact H|].
    right. rewrite <- H. clear -Hn.
    do 60 (destruct o as [|o]; [reflexivity|]). destruct o; [congruence|reflexivity]. }
  destruct Hq as [Hq|Hq]; inversion Hq; subst; auto.
Qed.

Lemma basic_pop_lemma :
  exists s k s1 s2, NoDup (map fst (st_basic s)) /\
    getCheckerForInstancesOf k s = (Ok VNoProxy, s, []) /\
    BasicTypes_pop k s = (Ok VNoProxy, s1, []) /\
    dget rkey_eqb (st_basic s1) k = None /\
    getCheckerForInstancesOf k s1 = (Ok VNoProxy, s1, []) /\
    clear_checkers [] s1 = (Ok tt, s2, []) /\
    getCheckerForInstancesOf k s2 = (Ok VNone, s2, []).
Proof.
  exists reg_state, (KType "int"). do 2 eexists. split; [repeat constructor; simpl; tauto|].
  repeat split; reflexivity.
Qed.

Lemma basic_clear_lemma s : BasicTypes_clear s = (Exc ENotImplemented, s, []).
Proof. reflexivity. Qed.

Lemma none_rock_refuted_lemma :
  exists E s obj, registered_for E s obj = Some VNone /\
    forall f, do_select E (S f) obj s = (Exc (EType "object is not callable"), s, []) /\
              fst (fst (do_ProxyFactory E (S f) obj VNone s)) =
              Exc (EType "object is not callable").
Proof.
  exists (reg_env ImplC), reg_state, (VObj 4). split; [reflexivity|].
  intros f. split; [apply none_type_error_lemma; reflexivity|]. reflexivity.
Qed.

Lemma spec_run_app defaults h1 h2 m :
  spec_run defaults (h1 ++ h2) m =
  (fst (spec_run defaults h1 m) ++ fst (spec_run defaults h2 (snd (spec_run defaults h1 m))),
   snd (spec_run defaults h2 (snd (spec_run defaults h1 m))))%list.
Proof.
  revert m. induction h1 as [|a h1 IH]; intros m; simpl.
  - destruct (spec_run defaults h2 m); reflexivity.
  - destruct (spec_step defaults a m) as [r m1]. rewrite IH.
    destruct (spec_run defaults h1 m1) as [rs m2]. reflexivity.
Qed.

Lemma reset_restores_lemma defaults h s m :
  holds s m ->
  exists s', registry_run defaults (h ++ [RReset]) s =
             (Ok (fst (spec_run defaults h m) ++ [Ok VNone])%list, s', []) /\
    (forall k, dget rkey_eqb (st_basic s') k = m_basic (snd (spec_run defaults h m)) k) /\
    (forall k, dget rkey_eqb (st_reg s') k =
               match m_basic (snd (spec_run defaults h m)) k with
               | Some v => Some v
               | None => last_entry defaults k
               end).
Proof.
  intros Hh. destruct (registry_refines_lemma defaults (h ++ [RReset]) s m Hh)
    as (s' & Hr & (Hreg & Hb & _) & _).
  rewrite spec_run_app in *. simpl in *.
  exists s'. auto.
Qed.
