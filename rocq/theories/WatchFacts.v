(** * WatchFacts: a process that watches its checkers and one that does not, side by side.

    Computations are indexed by the side ([true]: watching) and by the depth of recursion. *)

From Coq Require Import List String Bool Arith ZArith Lia.
From Verif Require Import Base Domain CheckerModel ProxyModel MFacts Spec RegSpec RegistryFacts
  EndsSpec BuildSpec WatchSpec.
Import ListNotations.
Open Scope string_scope.
Open Scope m_scope.
Local Arguments String.eqb : simpl never.
Local Arguments set_chks : simpl never.

(** ** Traces *)

Lemma Logged_refl t : Logged t t.
Proof. induction t; constructor; assumption. Qed.

Lemma Logged_app t0 t u0 u : Logged t0 t -> Logged u0 u -> Logged (t0 ++ u0) (t ++ u).
Proof. intros H U. induction H; simpl; try constructor; assumption. Qed.

Lemma Logged_repr t0 t n v : Logged t0 t -> Logged t0 (t ++ [ECall Probe n (CallOp (ORepr v))]).
Proof.
  intros H. rewrite <- (app_nil_r t0). apply Logged_app; [exact H|]. constructor. constructor.
Qed.

Lemma Logged_line t0 t n v l x y :
  Logged t0 t -> Logged t0 (t ++ [ECall Probe n (CallOp (ORepr v)); ELog l x y]).
Proof.
  intros H. rewrite <- (app_nil_r t0). apply Logged_app; [exact H|]. repeat constructor.
Qed.

(** ** States *)

Lemma set_chks_same s : set_chks (st_chks s) s = s.
Proof. destruct s; reflexivity. Qed.

Definition any {A} (a : A) (s : state) : Prop := True.
Definition knownv (v : value) (s : state) : Prop := known s v.

Lemma known_mono s s' v : st_next s <= st_next s' -> known s v -> known s' v.
Proof. destruct v; simpl; auto; lia. Qed.

(** What a value needs: the number of a proxy, one for the rest. *)
Definition rank (v : value) : nat := match v with VProxy p => S p | _ => 0 end.
Definition drank (v : value) : nat := match v with VDeco d => S d | _ => 0 end.
Definition crank (c : value) : nat := match c with VChk i => S i | _ => 0 end.

Section Watch.
  Variable E : env.
  Variable run0 : id -> call -> state -> res value * state.
  Hypothesis HW : e_watch E <> 0.
  Hypothesis HI : indifferent E run0.
  Hypothesis HRp : reprs E.

  (** The two environments. *)
  Local Notation EE sd :=
    (mkEnv (e_impl E) (e_cimpl E) (if sd then e_watch E else 0) (e_tid E) (e_type E) (e_meta E)
           (e_isexc E) (e_addr E) (if sd then e_run E else run0)).

  Lemma EE_true : EE true = E.
  Proof. destruct E; reflexivity. Qed.

  Definition Rel (s : state) (K : id -> option checker) : Prop := matches E s (set_chks K s).

  (** The state of a side. *)
  Local Notation pick sd s K := (set_chks (if sd then K else st_chks s) s).

  Lemma rel_founded s K : Rel s K -> founded s.
  Proof. intros H. exact (mt_founded E _ _ H). Qed.

  Lemma rel_chk s K i : Rel s K -> counterpart E i (st_chks s i) (K i).
  Proof. intros H. exact (mt_checkers E _ _ H i). Qed.

  Definition relg {A} (m : bool -> nat -> M A) (s : state) (K : id -> option checker)
    (V : A -> state -> Prop) : Prop :=
    exists n r s0' t0 K' t,
      (forall f, n <= f -> m false f s = (r, s0', t0)) /\
      (forall f, n <= f -> m true f (set_chks K s) = (r, set_chks K' s0', t)) /\
      r <> Exc EFuel /\ Rel s0' K' /\ Logged t0 t /\ st_next s <= st_next s0' /\
      (forall a, r = Ok a -> V a s0').

  Lemma relg_S {A} (m : bool -> nat -> M A) s K (V : A -> state -> Prop) :
    relg (fun sd f => m sd (S f)) s K V -> relg m s K V.
  Proof.
    intros (n & r & s' & t0 & K' & t & H0 & H1 & X). exists (S n), r, s', t0, K', t.
    split; [|split; [|exact X]]; intros f Hf; (destruct f as [|f]; [lia|]).
    - apply H0. lia.
    - apply H1. lia.
  Qed.

  Lemma relg_weaken {A} (m : bool -> nat -> M A) s K (V V' : A -> state -> Prop) :
    (forall a s' K', Rel s' K' -> V a s' -> V' a s') -> relg m s K V -> relg m s K V'.
  Proof.
    intros HV (n & r & s' & t0 & K' & t & H0 & H1 & Hr & F & L & N & X).
    exists n, r, s', t0, K', t. split; [exact H0|]. split; [exact H1|]. split; [exact Hr|].
    split; [exact F|]. split; [exact L|]. split; [exact N|]. intros a Ha. eapply HV; [exact F|]. apply X, Ha.
  Qed.

  (** Other families with the same outcomes. *)
  Lemma relg_ext {A} (m m' : bool -> nat -> M A) s K (V : A -> state -> Prop) :
    (forall f, m' false f s = m false f s) ->
    (forall f, m' true f (set_chks K s) = m true f (set_chks K s)) ->
    relg m s K V -> relg m' s K V.
  Proof.
    intros E0 E1 (n & r & s' & t0 & K' & t & H0 & H1 & X). exists n, r, s', t0, K', t.
    split; [|split; [|exact X]]; intros f Hf.
    - rewrite E0. apply H0, Hf.
    - rewrite E1. apply H1, Hf.
  Qed.

  Lemma relg_ret {A} (a : A) s K (V : A -> state -> Prop) :
    Rel s K -> V a s -> relg (fun _ _ => ret a) s K V.
  Proof.
    intros F X. exists 0, (Ok a), s, [], K, []. split; [reflexivity|]. split; [reflexivity|].
    split; [discriminate|]. split; [exact F|]. split; [constructor|]. split; [lia|].
    intros b Hb. injection Hb as <-. exact X.
  Qed.

  Lemma relg_raise {A} e s K (V : A -> state -> Prop) :
    Rel s K -> e <> EFuel -> relg (fun _ _ => raise e) s K V.
  Proof.
    intros F X. exists 0, (Exc e), s, [], K, []. split; [reflexivity|]. split; [reflexivity|].
    split; [congruence|]. split; [exact F|]. split; [constructor|]. split; [lia|]. discriminate.
  Qed.

  Lemma relg_bind {A B} (m : bool -> nat -> M A) (k : bool -> nat -> A -> M B) s K
    (V : A -> state -> Prop) (W : B -> state -> Prop) :
    relg m s K V ->
    (forall a s1 K1, Rel s1 K1 -> st_next s <= st_next s1 -> V a s1 ->
       relg (fun sd f => k sd f a) s1 K1 W) ->
    relg (fun sd f => bind (m sd f) (k sd f)) s K W.
  Proof.
    intros (n & r & s1 & t0 & K1 & t & H0 & H1 & Hr & F & L & N & X) Hk. destruct r as [a|e].
    - destruct (Hk a s1 K1 F N (X a eq_refl)) as (n' & r' & s2 & t0' & K2 & t' & H0' & H1' & Hr' & F' & L' & N' & X').
      exists (Nat.max n n'), r', s2, (t0 ++ t0')%list, K2, (t ++ t')%list.
      split; [intros f Hf; unfold bind; rewrite H0 by lia; rewrite H0' by lia; reflexivity|].
      split; [intros f Hf; unfold bind; rewrite H1 by lia; rewrite H1' by lia; reflexivity|].
      split; [exact Hr'|]. split; [exact F'|]. split; [apply Logged_app; assumption|].
      split; [lia|exact X'].
    - exists n, (Exc e), s1, t0, K1, t.
      split; [intros f Hf; unfold bind; rewrite H0 by lia; reflexivity|].
      split; [intros f Hf; unfold bind; rewrite H1 by lia; reflexivity|].
      split; [congruence|]. split; [exact F|]. split; [exact L|]. split; [exact N|discriminate].
  Qed.

  Lemma relg_catch {A} (m : bool -> nat -> M A) (h : bool -> nat -> exn -> M A) s K
    (V : A -> state -> Prop) :
    relg m s K V ->
    (forall e s1 K1, Rel s1 K1 -> st_next s <= st_next s1 -> e <> EFuel ->
       relg (fun sd f => h sd f e) s1 K1 V) ->
    relg (fun sd f => catch (m sd f) (h sd f)) s K V.
  Proof.
    intros (n & r & s1 & t0 & K1 & t & H0 & H1 & Hr & F & L & N & X) Hk. destruct r as [a|e].
    - exists n, (Ok a), s1, t0, K1, t.
      split; [intros f Hf; unfold catch; rewrite H0 by lia; reflexivity|].
      split; [intros f Hf; unfold catch; rewrite H1 by lia; reflexivity|].
      split; [discriminate|]. split; [exact F|]. split; [exact L|]. split; [exact N|exact X].
    - assert (He : e <> EFuel) by congruence.
      destruct (Hk e s1 K1 F N He) as (n' & r' & s2 & t0' & K2 & t' & H0' & H1' & Hr' & F' & L' & N' & X').
      exists (Nat.max n n'), r', s2, (t0 ++ t0')%list, K2, (t ++ t')%list.
      split; [intros f Hf; unfold catch; rewrite H0 by lia; rewrite H0' by lia; reflexivity|].
      split; [intros f Hf; unfold catch; rewrite H1 by lia; rewrite H1' by lia; reflexivity|].
      split; [exact Hr'|]. split; [exact F'|]. split; [apply Logged_app; assumption|].
      split; [lia|exact X'].
  Qed.

  Lemma relg_get {B} (k : bool -> nat -> state -> M B) s K (W : B -> state -> Prop) :
    relg (fun sd f => k sd f (pick sd s K)) s K W -> relg (fun sd f => bind get (k sd f)) s K W.
  Proof.
    intros (n & r & s1 & t0 & K1 & t & H0 & H1 & X). exists n, r, s1, t0, K1, t.
    split; [|split; [|exact X]]; intros f Hf; rewrite bind_get.
    - specialize (H0 f Hf). cbv beta iota in H0. rewrite set_chks_same in H0. exact H0.
    - exact (H1 f Hf).
  Qed.

  Lemma relg_emit {B} e (k : bool -> nat -> unit -> M B) s K (W : B -> state -> Prop) :
    relg (fun sd f => k sd f tt) s K W -> relg (fun sd f => bind (emit e) (k sd f)) s K W.
  Proof.
    intros (n & r & s1 & t0 & K1 & t & H0 & H1 & Hr & F & L & X). exists n, r, s1, (e :: t0), K1, (e :: t).
    split; [intros f Hf; unfold bind, emit; rewrite H0 by exact Hf; reflexivity|].
    split; [intros f Hf; unfold bind, emit; rewrite H1 by exact Hf; reflexivity|].
    split; [exact Hr|]. split; [exact F|]. split; [constructor; exact L|exact X].
  Qed.

  Lemma rel_run c s K : Rel s K ->
    exists r s0' K', run0 (e_tid E) c s = (r, s0') /\
      e_run E (e_tid E) c (set_chks K s) = (r, set_chks K' s0') /\
      Rel s0' K' /\ st_next s <= st_next s0' /\ r <> Exc EFuel /\ (forall v, r = Ok v -> known s0' v).
  Proof.
    intros F. destruct (in_run E run0 HI c _ _ F) as (r & s0' & s' & H0 & H1 & M & X).
    exists r, s0', (st_chks s'). split; [exact H0|]. pose proof (mt_rest E _ _ M) as Hs.
    split; [rewrite H1; rewrite <- Hs; reflexivity|]. split; [|exact X].
    unfold Rel. rewrite <- Hs. exact M.
  Qed.

  Lemma relg_foreign k c s K : Rel s K -> relg (fun sd _ => foreign (EE sd) k c) s K knownv.
  Proof.
    intros F. destruct (rel_run c s K F) as (r & s' & K' & H0 & H1 & F' & N & Hr & Hv).
    exists 0, r, s', [ECall k (e_tid E) c], K', [ECall k (e_tid E) c].
    split; [intros f _; unfold foreign; cbn [e_run e_tid]; rewrite H0; reflexivity|].
    split; [intros f _; unfold foreign; cbn [e_run e_tid]; rewrite H1; reflexivity|].
    split; [exact Hr|]. split; [exact F'|]. split; [apply Logged_refl|]. split; [exact N|exact Hv].
  Qed.

  Lemma relg_foreign_quiet c s K : Rel s K -> relg (fun sd _ => foreign_quiet (EE sd) c) s K knownv.
  Proof.
    intros F. destruct (rel_run c s K F) as (r & s' & K' & H0 & H1 & F' & N & Hr & Hv).
    exists 0, r, s', [], K', [].
    split; [intros f _; unfold foreign_quiet; cbn [e_run e_tid]; rewrite H0; reflexivity|].
    split; [intros f _; unfold foreign_quiet; cbn [e_run e_tid]; rewrite H1; reflexivity|].
    split; [exact Hr|]. split; [exact F'|]. split; [apply Logged_refl|]. split; [exact N|exact Hv].
  Qed.

  Lemma relg_coerce o v s K : Rel s K -> known s v -> relg (fun _ _ => coerce o v) s K knownv.
  Proof.
    intros F Hv.
    assert (H0 : relg (fun _ _ => ret v) s K knownv) by (apply relg_ret; assumption).
    assert (H1 : relg (fun _ _ => ret VNone) s K knownv) by (apply relg_ret; [assumption|exact I]).
    assert (H2 : forall msg, relg (fun _ _ => raise (EType msg)) s K knownv).
    { intros msg. apply relg_raise; [assumption|discriminate]. }
    destruct o; simpl; try assumption; destruct v; try assumption; apply H2.
  Qed.

  Lemma relg_raw k o s K : Rel s K -> relg (fun sd _ => raw (EE sd) k o) s K knownv.
  Proof.
    intros F. unfold raw. eapply relg_bind with (V := knownv) (m := fun (sd : bool) (_ : nat) => foreign (EE sd) k (CallOp o))
      (k := fun (_ : bool) (_ : nat) v => coerce o v); [apply relg_foreign, F|].
    intros v s1 K1 F1 _ Hv. apply relg_coerce; assumption.
  Qed.

  Local Notation I sd f := (interp_n (EE sd) f).
  Ltac ee := cbn [e_impl e_cimpl e_tid e_type e_meta e_isexc e_addr].

  Lemma relg_pget p s K :
    Rel s K ->
    relg (fun _ _ => pget p) s K (fun wc s' => s' = s /\ st_prox s p = Some wc).
  Proof.
    intros F. unfold pget. apply relg_get with (k := fun (_ : bool) (_ : nat) s0 =>
      match st_prox s0 p with Some wc => ret wc | None => raise (EType "dangling proxy") end).
    change (relg (fun _ _ => match st_prox s p with Some wc => ret wc | None => raise (EType "dangling proxy") end)
      s K (fun wc s' => s' = s /\ st_prox s p = Some wc)).
    destruct (st_prox s p) as [wc|] eqn:H.
    - apply relg_ret; [exact F|]. split; reflexivity.
    - apply relg_raise; [exact F|discriminate].
  Qed.

  Lemma wrapped_known s K p w c : Rel s K -> st_prox s p = Some (w, c) -> known s w /\ known s c.
  Proof. intros F H. destruct (fd_proxy s (rel_founded s K F) p w c H) as (_ & X & Y & _). auto. Qed.

  (** A step that first fetches the parts of a proxy.  The state may have changed in the slot of
      checkers only, which is why it is still the state of before. *)
  Lemma relg_with_parts {B} p (k : bool -> nat -> value * value -> M B) s K (W : B -> state -> Prop) :
    Rel s K ->
    (forall w c, st_prox s p = Some (w, c) -> is_proxy w = false -> known s w -> known s c ->
       relg (fun sd f => k sd f (w, c)) s K W) ->
    relg (fun sd f => bind (pget p) (k sd f)) s K W.
  Proof.
    intros F H. destruct (st_prox s p) as [[w c]|] eqn:Hp.
    - destruct (wrapped_known s K p w c F Hp) as [Kw Kc].
      assert (Hb : is_proxy w = false).
      { destruct w; try reflexivity. destruct (mt_bare E _ _ F p _ c Hp p0 eq_refl). }
      apply relg_ext with (m := fun sd f => k sd f (w, c)); [| |apply H; auto].
      + intros f. unfold bind, pget, get. unfold bind. rewrite Hp. cbn [ret].
        destruct (k false f (w, c) s) as [[r s2] t2]. reflexivity.
      + intros f. unfold bind, pget, get. unfold bind. change (st_prox (set_chks K s) p) with (st_prox s p).
        rewrite Hp. cbn [ret]. destruct (k true f (w, c) (set_chks K s)) as [[r s2] t2]. reflexivity.
    - apply relg_ext with (m := fun (_ : bool) (_ : nat) => raise (EType "dangling proxy"));
        [| |apply relg_raise; [exact F|discriminate]].
      + intros f. unfold bind, pget, get. unfold bind. rewrite Hp. reflexivity.
      + intros f. unfold bind, pget, get. unfold bind. change (st_prox (set_chks K s) p) with (st_prox s p).
        rewrite Hp. reflexivity.
  Qed.

  (** *** Truth values *)

  Lemma relg_bool_bare k v s K : is_proxy v = false -> Rel s K ->
    relg (fun sd f => i_op (I sd f) k (OBool v)) s K knownv.
  Proof.
    intros Hp F. apply relg_S. cbn [interp_n i_op run_op].
    destruct v; try apply relg_raw, F. discriminate Hp.
  Qed.

  Lemma relg_bool k v s K : Rel s K ->
    relg (fun sd f => i_op (I sd f) k (OBool v)) s K knownv.
  Proof.
    intros F. destruct (is_proxy v) eqn:Hp; [|apply relg_bool_bare; assumption].
    destruct v; try discriminate Hp. apply relg_S. cbn [interp_n i_op run_op e_impl]. unfold py_bool.
    assert (X : relg (fun sd f => wc <- pget p ;; i_op (I sd f) k (OBool (fst wc))) s K knownv).
    { apply relg_with_parts with (k := fun (sd : bool) (f : nat) wc => i_op (I sd f) k (OBool (fst wc))); [exact F|].
      intros w c _ Hb _ _. apply relg_bool_bare; assumption. }
    destruct (e_impl E); exact X.
  Qed.

  Lemma relg_truth v s K : Rel s K -> relg (fun sd f => truth (I sd f) v) s K any.
  Proof.
    intros F. assert (X : relg (fun sd f => r <- i_op (I sd f) Probe (OBool v) ;;
      match r with VBool b => ret b | _ => raise (EType "__bool__") end) s K any).
    { eapply relg_bind with (k := fun (_ : bool) (_ : nat) r => match r with VBool b => ret b | _ => raise (EType "__bool__") end);
        [apply relg_bool, F|]. intros r s1 K1 F1 _ _.
      destruct r; first [apply relg_ret; [exact F1|exact Logic.I] | apply relg_raise; [exact F1|discriminate]]. }
    unfold truth. destruct v; try exact X; apply relg_ret; auto; exact Logic.I.
  Qed.

  (** *** Questions to the policy *)

  Lemma relg_ask iv p obj s K : Rel s K -> relg (fun sd f => ask (EE sd) (I sd f) iv p obj) s K any.
  Proof.
    intros F.
    assert (X : relg (fun sd f =>
      b <- catch (v <- foreign_quiet (EE sd) (CallPerm iv p obj) ;; truth (I sd f) v)
                 (fun e => emit (EAsk (e_tid E) iv p obj None) ;;; raise e) ;;
      emit (EAsk (e_tid E) iv p obj (Some b)) ;;; ret b) s K any).
    { eapply relg_bind with (V := any)
        (k := fun (_ : bool) (_ : nat) b => emit (EAsk (e_tid E) iv p obj (Some b)) ;;; ret b).
      - apply relg_catch with (h := fun (_ : bool) (_ : nat) e => emit (EAsk (e_tid E) iv p obj None) ;;; raise e).
        + eapply relg_bind with (m := fun (sd : bool) (_ : nat) => foreign_quiet (EE sd) (CallPerm iv p obj));
            [apply relg_foreign_quiet, F|].
          intros v s1 K1 F1 _ _. apply relg_truth, F1.
        + intros e s1 K1 F1 _ He. apply relg_emit with (k := fun (_ : bool) (_ : nat) _ => raise e).
          apply relg_raise; assumption.
      - intros b s1 K1 F1 _ _. apply relg_emit with (k := fun (_ : bool) (_ : nat) _ => ret b).
        apply relg_ret; [exact F1|exact Logic.I]. }
    unfold ask. destruct iv; try exact X; try (apply relg_raise; [exact F|discriminate]).
    apply relg_get with (k := fun (sd : bool) (f : nat) s0 => match st_inters s0 i with
      | Some x => emit (EAsk (e_tid (EE sd)) (VIact i) p obj (Some (simple_checkPermission s0 x p))) ;;;
                  ret (simple_checkPermission s0 x p)
      | None => raise (EAttribute "checkPermission") end).
    change (relg (fun _ _ => match st_inters s i with
      | Some x => emit (EAsk (e_tid E) (VIact i) p obj (Some (simple_checkPermission s x p))) ;;;
                  ret (simple_checkPermission s x p)
      | None => raise (EAttribute "checkPermission") end) s K any).
    destruct (st_inters s i) as [x|]; [|apply relg_raise; [exact F|discriminate]].
    apply relg_emit with (k := fun (_ : bool) (_ : nat) _ => ret _). apply relg_ret; [exact F|exact Logic.I].
  Qed.

  Lemma relg_tl p obj s K : Rel s K -> relg (fun sd f => tl_checkPermission (EE sd) (I sd f) p obj) s K any.
  Proof.
    intros F. unfold tl_checkPermission.
    apply relg_get with (k := fun (sd : bool) (f : nat) s0 => match tl_inter (st_tls s0 (e_tid (EE sd))) with
      | None => raise (EAttribute "interaction") | Some iv => ask (EE sd) (I sd f) iv p obj end).
    change (relg (fun sd f => match tl_inter (st_tls s (e_tid E)) with
      | None => raise (EAttribute "interaction") | Some iv => ask (EE sd) (I sd f) iv p obj end) s K any).
    destruct (tl_inter (st_tls s (e_tid E))); [apply relg_ask, F|].
    apply relg_raise; [exact F|discriminate].
  Qed.

  (** *** Selecting checkers *)

  Definition isC (s : state) (v : value) : bool :=
    match v with VChk i => match st_chks s i with Some _ => true | None => false end | _ => false end.
  Definition fine (v : value) : Prop := e_cimpl E = ImplPy -> v <> VChk 1.
  Definition settled (oc : option value) (s : state) : Prop :=
    match oc with Some c => isC s c = true | None => True end.

  Lemma is_Checker_side (s : state) K (v : value) (sd : bool) : Rel s K -> fine v -> is_Checker (EE sd) (pick sd s K) v = isC s v.
  Proof.
    intros F Hf. destruct v; try reflexivity. unfold is_Checker, isC.
    change (st_chks (pick sd s K) c) with ((if sd then K else st_chks s) c).
    pose proof (rel_chk s K c F) as Hc. destruct sd.
    - cbn [e_cimpl e_watch]. inversion Hc as [A B|g w Hx A B|g w v A B|g w v c2 A B].
      + reflexivity.
      + destruct (e_cimpl E) eqn:HC; [|reflexivity]. destruct Hx as [Hx|Hx]; [discriminate Hx|].
        destruct (Hf HC). rewrite Hx. reflexivity.
      + destruct (e_cimpl E), (e_watch E); reflexivity.
      + destruct (e_cimpl E), (e_watch E); reflexivity.
    - cbn [e_cimpl e_watch]. destruct (st_chks s c), (e_cimpl E); reflexivity.
  Qed.

  Lemma checker_known s K c : Rel s K -> isC s c = true -> known s c.
  Proof.
    intros F H. destruct c; try discriminate H. simpl in *.
    destruct (st_chks s c) as [k|] eqn:Hk; [|discriminate H]. apply (fd_checker s (rel_founded s K F) c k Hk).
  Qed.

  Lemma relg_select_loop c obj s K :
    Rel s K -> fine c ->
    (isC s c = false -> relg (fun sd f => c' <- call_factory (I sd f) c obj ;;
       if value_eqb c' VNoProxy || value_eqb c' VNone then ret None
       else i_select (I sd f) c' obj) s K settled) ->
    relg (fun sd f => i_select (I sd f) c obj) s K settled.
  Proof.
    intros F Hf H. apply relg_S. cbn [interp_n i_select]. unfold select_loop.
    apply relg_get with (k := fun (sd : bool) (f : nat) s0 => if is_Checker (EE sd) s0 c then ret (Some c)
      else c' <- call_factory (I sd f) c obj ;;
           if value_eqb c' VNoProxy || value_eqb c' VNone then ret None else i_select (I sd f) c' obj).
    destruct (isC s c) eqn:Hc.
    - apply relg_ext with (m := fun _ _ => ret (Some c)); [| |apply relg_ret; [exact F|exact Hc]];
        intros f; cbv beta.
      + rewrite (is_Checker_side s K c false F Hf), Hc. reflexivity.
      + rewrite (is_Checker_side s K c true F Hf), Hc. reflexivity.
    - eapply relg_ext; [| |exact (H eq_refl)]; intros f; cbv beta.
      + rewrite (is_Checker_side s K c false F Hf), Hc. reflexivity.
      + rewrite (is_Checker_side s K c true F Hf), Hc. reflexivity.
  Qed.

  Lemma relg_final c obj s K :
    Rel s K -> fine c -> c = VNone \/ c = VNoProxy \/ isC s c = true ->
    relg (fun sd f => if value_eqb c VNoProxy || value_eqb c VNone then ret None
                   else i_select (I sd f) c obj) s K settled.
  Proof.
    intros F Hf [-> | [-> | H]]; simpl; try (apply relg_ret; [exact F|exact Logic.I]).
    destruct c; try discriminate H. simpl. apply relg_select_loop; [exact F|exact Hf|].
    rewrite H. discriminate.
  Qed.

  (** A registered factory, called. *)
  Lemma relg_call_factory k c obj s K :
    Rel s K -> dget rkey_eqb (st_reg s) k = Some c -> c <> VModFun ->
    relg (fun sd f => call_factory (I sd f) c obj) s K
         (fun v s' => fine v /\ (v = VNone \/ v = VNoProxy \/ isC s' v = true)).
  Proof.
    intros F Hk Hm. destruct (fd_registry s (rel_founded s K F) k c Hk) as (_ & Hp & _).
    assert (X : (forall p, c <> VProxy p) ->
      relg (fun sd f => i_op (I sd f) Probe (OCall c [obj])) s K
         (fun v s' => fine v /\ (v = VNone \/ v = VNoProxy \/ isC s' v = true))).
    { intros _. apply relg_S. cbn [interp_n i_op].
      assert (R : forall (sd : bool) f, run_op (EE sd) (I sd f) Probe (OCall c [obj]) = raw (EE sd) Probe (OCall c [obj])).
      { intros sd f. destruct c; try reflexivity. destruct (Hp p eq_refl). }
      destruct (rel_run (CallOp (OCall c [obj])) s K F) as (r & s' & K' & H0 & H1 & F' & N & Hr & Hv).
      exists 0, r, s', [ECall Probe (e_tid E) (CallOp (OCall c [obj]))], K',
        [ECall Probe (e_tid E) (CallOp (OCall c [obj]))].
      split. { intros f _. etransitivity; [exact (f_equal (fun m => m s) (R false f))|].
               unfold raw, bind, foreign. cbn [e_run e_tid]. rewrite H0. destruct r; reflexivity. }
      split. { intros f _. etransitivity; [exact (f_equal (fun m => m (set_chks K s)) (R true f))|].
               unfold raw, bind, foreign. cbn [e_run e_tid]. rewrite H1. destruct r; reflexivity. }
      split; [exact Hr|]. split; [exact F'|]. split; [apply Logged_refl|]. split; [exact N|]. intros v ->.
      destruct (in_factory E run0 HI s _ k c obj v s' F Hk H0) as [->|[->|(i & -> & Hi & Hn)]].
      - split; [intros _; discriminate|auto].
      - split; [intros _; discriminate|auto].
      - split; [intros HC X; injection X as ->; exact (Hn HC eq_refl)|]. right. right. simpl.
        destruct (st_chks s' i); [reflexivity|destruct (Hi eq_refl)]. }
    unfold call_factory.
    destruct c; try (exact (X Hp)); try (apply relg_raise; [exact F|discriminate]).
    contradiction.
  Qed.

  Lemma reg_fine s K k c : Rel s K -> dget rkey_eqb (st_reg s) k = Some c -> fine c.
  Proof. intros F H HC ->. exact (mt_public E _ _ F HC k H). Qed.

  Lemma relg_select_registered k c obj s K :
    Rel s K -> dget rkey_eqb (st_reg s) k = Some c -> c <> VModFun ->
    relg (fun sd f => i_select (I sd f) c obj) s K settled.
  Proof.
    intros F Hk Hm. apply relg_select_loop; [exact F|eapply reg_fine; eassumption|].
    intros _. eapply relg_bind; [eapply relg_call_factory; eassumption|].
    intros v s1 K1 F1 _ [Hf Hv]. apply relg_final; assumption.
  Qed.

  Lemma relg_select_checker i obj s K :
    Rel s K -> i <> 1 -> relg (fun sd f => i_select (I sd f) (VChk i) obj) s K settled.
  Proof.
    intros F Hi. apply relg_select_loop; [exact F| |].
    - intros _ H. injection H as ->. exact (Hi eq_refl).
    - intros _. eapply relg_bind with (m := fun (sd : bool) (f : nat) => call_factory (I sd f) (VChk i) obj)
        (V := fun _ _ => False).
      + simpl. apply relg_raise; [exact F|discriminate].
      + intros v s1 K1 _ _ [].
  Qed.

  Lemma relg_select k c obj s K :
    Rel s K -> dget rkey_eqb (st_reg s) k = Some c ->
    relg (fun sd f => i_select (I sd f) c obj) s K settled.
  Proof.
    intros F Hk. destruct (value_eqb_spec c VModFun) as [->|Hm];
      [|eapply relg_select_registered; eassumption].
    apply relg_select_loop; [exact F|intros _; discriminate|]. intros _.
    assert (N : relg (fun sd f => i_select (I sd f) (VChk named_cid) obj) s K settled)
      by (apply relg_select_checker; [exact F|discriminate]).
    assert (X : forall v, (v = VChk named_cid \/
                           exists k', dget rkey_eqb (st_reg s) k' = Some v /\ v <> VModFun) ->
      relg (fun sd f => if value_eqb v VNoProxy || value_eqb v VNone then ret None
                        else i_select (I sd f) v obj) s K settled).
    { intros v Hv. destruct (value_eqb v VNoProxy || value_eqb v VNone).
      - apply relg_ret; [exact F|exact Logic.I].
      - destruct Hv as [->|(k' & Hk' & Hm)]; [exact N|]. eapply relg_select_registered; eassumption. }
    eapply relg_bind with (k := fun (sd : bool) (f : nat) c' =>
        if value_eqb c' VNoProxy || value_eqb c' VNone then ret None else i_select (I sd f) c' obj)
        (V := fun v s1 => s1 = s /\ (v = VChk named_cid \/
                           exists k', dget rkey_eqb (st_reg s) k' = Some v /\ v <> VModFun)).
    - unfold call_factory.
      apply relg_get with (k := fun (_ : bool) (_ : nat) s0 => match obj with
        | VMod m => ret match dget rkey_eqb (st_reg s0) (KMod m) with Some v => v | None => VChk named_cid end
        | _ => ret (VChk named_cid) end).
      destruct obj; try (apply relg_ret; [exact F|split; [reflexivity|left; reflexivity]]).
      change (relg (fun _ _ => ret match dget rkey_eqb (st_reg s) (KMod m) with
        | Some v => v | None => VChk named_cid end) s K (fun v s1 => s1 = s /\ (v = VChk named_cid \/
                           exists k', dget rkey_eqb (st_reg s) k' = Some v /\ v <> VModFun))).
      apply relg_ret; [exact F|]. split; [reflexivity|].
      destruct (dget rkey_eqb (st_reg s) (KMod m)) as [v|] eqn:Hv; [|auto].
      right. exists (KMod m). split; [exact Hv|].
      destruct (fd_registry s (rel_founded s K F) (KMod m) v Hv) as (_ & _ & Y). exact (Y m eq_refl).
    - intros v s1 K1 F1 _ [-> Hv].
      destruct (value_eqb v VNoProxy || value_eqb v VNone).
      + apply relg_ret; [exact F1|exact Logic.I].
      + destruct Hv as [->|(k' & Hk' & Hm)].
        * apply relg_select_checker; [exact F1|discriminate].
        * eapply relg_select_registered; eassumption.
  Qed.

  Lemma relg_cimpl {A} (p q : bool -> nat -> M A) s K V :
    (e_cimpl E = ImplPy -> relg p s K V) -> (e_cimpl E = ImplC -> relg q s K V) ->
    relg (fun sd f => match e_cimpl E with ImplPy => p sd f | ImplC => q sd f end) s K V.
  Proof. intros P Q. destruct (e_cimpl E); [apply P|apply Q]; reflexivity. Qed.

  Lemma relg_impl {A} (p q : bool -> nat -> M A) s K V :
    (e_impl E = ImplPy -> relg p s K V) -> (e_impl E = ImplC -> relg q s K V) ->
    relg (fun sd f => match e_impl E with ImplPy => p sd f | ImplC => q sd f end) s K V.
  Proof. intros P Q. destruct (e_impl E); [apply P|apply Q]; reflexivity. Qed.

  Lemma relg_selectChecker obj s K :
    Rel s K -> relg (fun sd f => selectChecker (EE sd) (I sd f) obj) s K settled.
  Proof.
    intros F. pose (c := registered (EE false) s obj).
    assert (X : relg (fun sd f => i_select (I sd f) c obj) s K settled).
    { unfold c, registered. destruct (dget rkey_eqb (st_reg s) (KType (type_of (EE false) s obj))) as [v|] eqn:H.
      - eapply relg_select; eassumption.
      - apply relg_select_checker; [exact F|discriminate]. }
    assert (Y : relg (fun _ _ => ret None) s K settled) by (apply relg_ret; [exact F|exact Logic.I]).
    assert (P : relg (fun sd f => selectCheckerPy (EE sd) (I sd f) obj) s K settled).
    { unfold selectCheckerPy.
      apply relg_get with (k := fun (sd : bool) (f : nat) s0 =>
        let c := registered (EE sd) s0 obj in
        if value_eqb c VNoProxy then ret None else i_select (I sd f) c obj).
      apply relg_ext with (m := fun (sd : bool) (f : nat) =>
        if value_eqb c VNoProxy then ret None else i_select (I sd f) c obj);
        [intros f; reflexivity|intros f; reflexivity|].
      destruct (value_eqb c VNoProxy); [exact Y|exact X]. }
    assert (Q : relg (fun sd f => selectCheckerC (EE sd) (I sd f) obj) s K settled).
    { unfold selectCheckerC.
      apply relg_get with (k := fun (sd : bool) (f : nat) s0 =>
        let c := registered (EE sd) s0 obj in
        if value_eqb c VNoProxy then ret None
        else if value_eqb c (VChk default_cid) && e_isexc (EE sd) (type_of (EE sd) s0 obj) then ret None
        else i_select (I sd f) c obj).
      apply relg_ext with (m := fun (sd : bool) (f : nat) =>
        if value_eqb c VNoProxy then ret None
        else if value_eqb c (VChk default_cid) && e_isexc E (type_of (EE false) s obj) then ret None
        else i_select (I sd f) c obj);
        [intros f; reflexivity|intros f; reflexivity|].
      destruct (value_eqb c VNoProxy); [exact Y|].
      destruct (value_eqb c (VChk default_cid) && e_isexc E (type_of (EE false) s obj)); [exact Y|exact X]. }
    unfold selectChecker. ee. apply relg_cimpl; intros _; assumption.
  Qed.

  (** *** Creating proxies and checkers *)

  (** [Rel] only depends on parts of the states. *)
  Lemma rel_proxy s K v c :
    Rel s K -> known s v -> known s c -> is_proxy v = false ->
    Rel (set_prox (upd (st_prox s) (st_next s) (Some (v, c))) (set_next (S (st_next s)) s)) K.
  Proof.
    intros F Hv Hc Hb. pose proof (rel_founded s K F) as Fd. split.
    - reflexivity.
    - exact (mt_checkers E _ _ F).
    - assert (Kn : forall u, known s u ->
        known (set_prox (upd (st_prox s) (st_next s) (Some (v, c))) (set_next (S (st_next s)) s)) u).
      { intros u. apply known_mono. simpl. lia. }
      split; simpl.
      + pose proof (fd_next s Fd). lia.
      + intros p w c' H. unfold upd in H. destruct (Nat.eqb_spec p (st_next s)) as [->|Hp].
        * injection H as <- <-. split; [lia|]. split; [apply Kn, Hv|]. split; [apply Kn, Hc|].
          intros q ->. exact Hv.
        * destruct (fd_proxy s Fd p w c' H) as (A & B & C & D). split; [lia|]. auto.
      + intros d x H. destruct (fd_deco s Fd d x H) as (A & B & C). auto.
      + intros i k H. destruct (fd_checker s Fd i k H) as (A & B). split; [lia|exact B].
      + intros k u H. destruct (fd_registry s Fd k u H) as (A & B & C). auto.
    - simpl. intros p w c' H. unfold upd in H. destruct (Nat.eqb_spec p (st_next s)) as [->|Hp].
      + injection H as <- <-. intros q ->. discriminate Hb.
      + exact (mt_bare E _ _ F p w c' H).
    - exact (mt_public E _ _ F).
  Qed.

  Lemma relg_new_proxy v c s K :
    Rel s K -> known s v -> known s c -> is_proxy v = false -> relg (fun _ _ => new_proxy v c) s K knownv.
  Proof.
    intros F Hv Hc Hb. unfold new_proxy.
    assert (X : relg (fun _ _ => p <- fresh ;; s0 <- get ;;
      put (set_prox (upd (st_prox s0) p (Some (v, c))) s0) ;;; ret (VProxy p)) s K knownv).
    { exists 0, (Ok (VProxy (st_next s))),
        (set_prox (upd (st_prox s) (st_next s) (Some (v, c))) (set_next (S (st_next s)) s)), [], K, [].
      split; [intros f _; reflexivity|]. split; [intros f _; reflexivity|].
      split; [discriminate|]. split; [apply rel_proxy; assumption|]. split; [constructor|]. split; [simpl; lia|].
      intros a H. injection H as <-. simpl. red. simpl. lia. }
    destruct c; try exact X. apply relg_raise; [exact F|discriminate].
  Qed.

  Lemma relg_combined c1 c2 s K :
    Rel s K -> known s c1 -> known s c2 ->
    relg (fun sd _ => CombinedChecker_new (EE sd) c1 c2) s K knownv.
  Proof.
    intros F H1 H2. unfold CombinedChecker_new. pose proof (rel_founded s K F) as Fd.
    destruct c1; try (apply relg_get with (k := fun (_ : bool) (_ : nat) _ => raise (EAttribute "get_permissions"));
                      apply relg_raise; [exact F|discriminate]).
    pose proof (rel_chk s K c F) as Hc.
    apply relg_get with (k := fun (sd : bool) (_ : nat) s0 => match st_chks s0 c with
      | Some k => alloc_checker (mkChecker (ck_get k) (ck_set k)
          match e_watch (EE sd) with 0 => CkCombined c2 | S v => CkWatchingCombined (S v) c2 end)
      | None => raise (EType "dangling checker") end).
    destruct (st_chks s c) as [k0|] eqn:Hs0.
    2: { inversion Hc as [A B| | |].
      apply relg_ext with (m := fun _ _ => raise (EType "dangling checker"));
        [| |apply relg_raise; [exact F|discriminate]]; intros f; cbv beta iota.
      - change (st_chks (set_chks (st_chks s) s) c) with (st_chks s c). rewrite Hs0. reflexivity.
      - change (st_chks (set_chks K s) c) with (K c). rewrite <- B. reflexivity. }
    assert (Hk : exists k, K c = Some k /\ ck_get k = ck_get k0 /\ ck_set k = ck_set k0).
    { inversion Hc as [|g w Hx A B|g w v A B|g w v c3 A B]; eexists; (split; [reflexivity|]); split; reflexivity. }
    destruct Hk as (k & Hk & Hg & Hw). clear Hc.
    destruct (e_watch E) as [|lvl] eqn:HE; [destruct (HW eq_refl)|].
    pose (s' := set_chks (upd (st_chks s) (st_next s) (Some (mkChecker (ck_get k0) (ck_set k0) (CkCombined c2))))
         (set_next (S (st_next s)) s)).
    exists 0, (Ok (VChk (st_next s))), s', [],
      (upd K (st_next s) (Some (mkChecker (ck_get k0) (ck_set k0) (CkWatchingCombined (S lvl) c2)))), [].
    split. { intros f _. cbv beta iota. change (st_chks (set_chks (st_chks s) s) c) with (st_chks s c).
             rewrite Hs0. reflexivity. }
    split. { intros f _. cbv beta iota. change (st_chks (set_chks K s) c) with (K c).
             rewrite Hk, Hg, Hw. reflexivity. }
    split; [discriminate|]. split; [|split; [constructor|split; [simpl; lia|intros a H; injection H as <-; red; simpl; lia]]].
    split.
    - reflexivity.
    - intros i. change (counterpart E i (upd (st_chks s) (st_next s) (Some (mkChecker (ck_get k0) (ck_set k0) (CkCombined c2))) i)
        (upd K (st_next s) (Some (mkChecker (ck_get k0) (ck_set k0) (CkWatchingCombined (S lvl) c2))) i)).
      unfold upd. destruct (Nat.eqb i (st_next s)); [constructor|apply rel_chk; exact F].
    - assert (Kn : forall u, known s u -> known s' u).
      { intros u. apply known_mono. unfold s'. simpl. lia. }
      split; simpl.
      + pose proof (fd_next s Fd). lia.
      + intros p w c' H. destruct (fd_proxy s Fd p w c' H) as (A & B & C & D). split; [lia|]. auto.
      + intros d x H. destruct (fd_deco s Fd d x H) as (A & B & C). auto.
      + intros i k' H. unfold upd in H. destruct (Nat.eqb_spec i (st_next s)) as [->|Hi].
        * injection H as <-. split; [lia|]. right. exists c2. split; [reflexivity|]. intros j ->. exact H2.
        * destruct (fd_checker s Fd i k' H) as (A & B). split; [lia|exact B].
      + intros k' u H. destruct (fd_registry s Fd k' u H) as (A & B & C). auto.
    - exact (mt_bare E _ _ F).
    - exact (mt_public E _ _ F).
  Qed.

  (** *** [__Security_checker__] *)

  (** The state of a side, read through a projection other than the checkers. *)
  Lemma relg_ask_state {A B} (g : state -> A) (k : bool -> nat -> A -> M B) s K (W : B -> state -> Prop) :
    (forall sd : bool, g (pick sd s K) = g s) ->
    relg (fun sd f => k sd f (g s)) s K W ->
    relg (fun sd f => bind get (fun s0 => k sd f (g s0))) s K W.
  Proof.
    intros G H. apply relg_get with (k := fun (sd : bool) (f : nat) s0 => k sd f (g s0)).
    eapply relg_ext; [| |exact H]; intros f; cbv beta.
    - pose proof (G false) as X. cbv beta iota in X |- *. rewrite X. reflexivity.
    - pose proof (G true) as X. cbv beta iota in X |- *. rewrite X. reflexivity.
  Qed.

  Lemma relg_getChecker q s K : Rel s K -> relg (fun _ _ => getChecker (VProxy q)) s K knownv.
  Proof.
    intros F. unfold getChecker.
    apply relg_ask_state with (g := fun s0 => st_prox s0 q) (k := fun (_ : bool) (_ : nat) x =>
      match x with Some (_, c) => ret c | None => raise (EType "dangling proxy") end); [reflexivity|].
    cbv beta. destruct (st_prox s q) as [[w c]|] eqn:Hq.
    - apply relg_ret; [exact F|]. destruct (wrapped_known s K q w c F Hq). assumption.
    - apply relg_raise; [exact F|discriminate].
  Qed.

  Lemma relg_sec n : forall k v fr s K, drank v <= n -> is_proxy v = false -> Rel s K ->
    relg (fun sd f => i_op (I sd f) k (OGetattr v "__Security_checker__" fr)) s K knownv.
  Proof.
    assert (B : forall k v fr s K, drank v = 0 -> is_proxy v = false -> Rel s K ->
      relg (fun sd f => i_op (I sd f) k (OGetattr v "__Security_checker__" fr)) s K knownv).
    { intros k v fr s K Hd Hp F. apply relg_S. cbn [interp_n i_op run_op].
      destruct v; try discriminate Hp; try discriminate Hd; simpl;
        first [apply relg_raw, F | apply relg_raise; [exact F|discriminate]]. }
    induction n as [|n IH]; intros k v fr s K Hd Hp F; [apply B; auto; lia|].
    destruct v; try (apply B; auto; fail). simpl in Hd. apply relg_S. cbn [interp_n i_op run_op].
    unfold deco_getattr. rewrite String.eqb_refl. unfold Decorated_get.
    apply relg_ask_state with (g := fun s0 => st_decos s0 d) (k := fun (sd : bool) (f : nat) x =>
      match x with
      | None => raise (EType "dangling decorator")
      | Some x =>
          oc <- (if is_proxy (dc_obj x) then c <- getChecker (dc_obj x) ;; ret (Some c)
                 else c <- getattr_sec_checker (I sd f) (dc_obj x) ;;
                      match c with
                      | VNone => selectChecker (EE sd) (I sd f) (dc_obj x)
                      | _ => ret (Some c)
                      end) ;;
          ow <- selectChecker (EE sd) (I sd f) (VDeco d) ;;
          match ow, oc with
          | None, None => raise (EAttribute "__Security_checker__")
          | None, Some c => ret c
          | Some w, None => ret w
          | Some w, Some c => CombinedChecker_new (EE sd) w c
          end
      end); [reflexivity|]. cbv beta.
    destruct (st_decos s d) as [x|] eqn:Hx; [|apply relg_raise; [exact F|discriminate]].
    destruct (fd_deco s (rel_founded s K F) d x Hx) as (Ko & _ & Hlt).
    eapply relg_bind with (V := fun oc s' => forall c, oc = Some c -> known s' c)
      (k := fun (sd : bool) (f : nat) oc => ow <- selectChecker (EE sd) (I sd f) (VDeco d) ;;
          match ow, oc with
          | None, None => raise (EAttribute "__Security_checker__")
          | None, Some c => ret c
          | Some w, None => ret w
          | Some w, Some c => CombinedChecker_new (EE sd) w c
          end).
    - destruct (is_proxy (dc_obj x)) eqn:Hi.
      + destruct (dc_obj x) as [| | | | | | | |q| | | | |]; try discriminate Hi.
        eapply relg_bind with (V := knownv) (k := fun (_ : bool) (_ : nat) c => ret (Some c));
          [apply relg_getChecker, F|].
        intros c s1 K1 F1 _ Hc. apply relg_ret; [exact F1|]. intros c' X. injection X as <-. exact Hc.
      + eapply relg_bind with (V := knownv) (k := fun (sd : bool) (f : nat) c =>
          match c with VNone => selectChecker (EE sd) (I sd f) (dc_obj x) | _ => ret (Some c) end).
        * unfold getattr_sec_checker. apply relg_catch with
            (h := fun (_ : bool) (_ : nat) e => if is_attribute_error e then ret VNone else raise e).
          -- apply IH; [|exact Hi|exact F]. destruct (dc_obj x); simpl; try lia.
             specialize (Hlt d0 eq_refl). lia.
          -- intros e s1 K1 F1 _ He. destruct (is_attribute_error e).
             ++ apply relg_ret; [exact F1|exact Logic.I].
             ++ apply relg_raise; assumption.
        * intros c s1 K1 F1 _ Hc.
          assert (X : relg (fun _ _ => ret (Some c)) s1 K1 (fun oc s' => forall c0, oc = Some c0 -> known s' c0)).
          { apply relg_ret; [exact F1|]. intros c0 Y. injection Y as <-. exact Hc. }
          destruct c; try exact X.
          eapply relg_weaken; [|apply relg_selectChecker, F1]. intros oc s2 K2 F2 Hs c0 ->.
          eapply checker_known; eassumption.
    - intros oc s1 K1 F1 L1 Hoc.
      eapply relg_bind; [apply relg_selectChecker, F1|]. intros ow s2 K2 F2 L2 Hw.
      assert (Kw : forall w, ow = Some w -> known s2 w) by (intros w ->; eapply checker_known; eassumption).
      assert (Kc : forall c, oc = Some c -> known s2 c)
        by (intros c Hc; eapply known_mono; [exact L2|exact (Hoc c Hc)]).
      destruct ow as [w|], oc as [c|].
      + apply relg_combined; auto.
      + apply relg_ret; [exact F2|apply Kw; reflexivity].
      + apply relg_ret; [exact F2|apply Kc; reflexivity].
      + apply relg_raise; [exact F2|discriminate].
  Qed.

  (** Handlers that look at the exception only. *)
  Lemma relg_reraise {A} (b : bool) (x : A) e s K (V : A -> state -> Prop) :
    Rel s K -> e <> EFuel -> V x s -> relg (fun _ _ => if b then ret x else raise e) s K V.
  Proof.
    intros F He Hx. destruct b; [apply relg_ret; assumption|apply relg_raise; assumption].
  Qed.

  Lemma relg_getattr_sec v s K :
    is_proxy v = false -> Rel s K -> relg (fun sd f => getattr_sec_checker (I sd f) v) s K knownv.
  Proof.
    intros Hp F. unfold getattr_sec_checker.
    apply relg_catch with (h := fun (_ : bool) (_ : nat) e => if is_attribute_error e then ret VNone else raise e).
    - eapply relg_sec; eauto.
    - intros e s1 K1 F1 _ He. apply relg_reraise; auto. exact Logic.I.
  Qed.

  Lemma relg_select_then v s K :
    Rel s K -> known s v -> is_proxy v = false ->
    relg (fun sd f => oc <- selectChecker (EE sd) (I sd f) v ;;
              match oc with None => ret v | Some c' => new_proxy v c' end) s K knownv.
  Proof.
    intros F Hv Hp. eapply relg_bind with (k := fun (_ : bool) (_ : nat) oc =>
      match oc with None => ret v | Some c' => new_proxy v c' end); [apply relg_selectChecker, F|].
    intros oc s2 K2 F2 L2 Hc. assert (Hv2 : known s2 v) by (eapply known_mono; [|exact Hv]; lia).
    destruct oc as [c'|].
    - apply relg_new_proxy; auto. eapply checker_known; eauto.
    - apply relg_ret; assumption.
  Qed.

  Lemma relg_checker_proxy c v s K :
    Rel s K -> known s v -> relg (fun sd f => checker_proxy (EE sd) (I sd f) c v) s K knownv.
  Proof.
    intros F Hv. unfold checker_proxy.
    destruct c; try (apply relg_foreign; assumption). ee.
    assert (P : e_cimpl E = ImplPy -> relg (fun sd f => CheckerPy_proxy (EE sd) (I sd f) v) s K knownv).
    { intros _. unfold CheckerPy_proxy. destruct (is_proxy v) eqn:Hp; [apply relg_ret; assumption|].
      eapply relg_bind with (k := fun (sd : bool) (f : nat) c => match c with
        | VNone => oc <- selectChecker (EE sd) (I sd f) v ;;
                   match oc with None => ret v | Some c' => new_proxy v c' end
        | _ => new_proxy v c end); [apply relg_getattr_sec; assumption|].
      intros c0 s1 K1 F1 L1 Hc0. assert (Hv1 : known s1 v) by (eapply known_mono; eauto).
      destruct c0; try (apply relg_new_proxy; assumption). apply relg_select_then; assumption. }
    assert (Q : e_cimpl E = ImplC -> relg (fun sd f => CheckerC_proxy (EE sd) (I sd f) v) s K knownv).
    { intros HC. unfold CheckerC_proxy. destruct (is_proxy v) eqn:Hp; [apply relg_ret; assumption|].
      eapply relg_bind with (V := fun oc s' => forall c0, oc = Some c0 -> known s' c0)
        (k := fun (sd : bool) (f : nat) oc => match oc with
          | None => sc <- selectCheckerC (EE sd) (I sd f) v ;;
                    match sc with None => ret v | Some c => new_proxy v c end
          | Some VNone => raise (EValue "Invalid value, None. for security checker")
          | Some c => new_proxy v c end).
      + unfold getattr_sec_checker_c. apply relg_catch with (h := fun (_ : bool) (_ : nat) _ => ret None).
        * eapply relg_bind with (k := fun (_ : bool) (_ : nat) c => ret (Some c)); [eapply relg_sec; eauto|].
          intros c0 s1 K1 F1 _ Hc0. apply relg_ret; [exact F1|].
          intros c1 X. injection X as <-. exact Hc0.
        * intros e s1 K1 F1 _ _. apply relg_ret; [exact F1|discriminate].
      + intros oc s1 K1 F1 L1 Hoc. assert (Hv1 : known s1 v) by (eapply known_mono; eauto).
        destruct oc as [c0|].
        * specialize (Hoc c0 eq_refl).
          destruct c0; try (apply relg_new_proxy; assumption). apply relg_raise; [exact F1|discriminate].
        * pose proof (relg_select_then v s1 K1 F1 Hv1 Hp) as X. unfold selectChecker in X. revert X. ee.
          rewrite HC. exact (fun X => X). }
    exact (relg_cimpl _ _ s K knownv P Q).
  Qed.

  (** *** Reading attributes of objects that are not proxies *)

  Lemma relg_deco_getattr d k n fr s K :
    Rel s K -> relg (fun sd f => deco_getattr (EE sd) (I sd f) k d n fr) s K knownv.
  Proof.
    intros F. destruct (String.eqb_spec n "__Security_checker__") as [->|Hn].
    - destruct (relg_sec (S d) k (VDeco d) fr s K (le_n _) eq_refl F)
        as (m & r & s' & t0 & K' & t & H0 & H1 & X). exists m, r, s', t0, K', t.
      split; [|split; [|exact X]]; intros f Hf.
      + exact (H0 (S f) (le_S _ _ Hf)).
      + exact (H1 (S f) (le_S _ _ Hf)).
    - unfold deco_getattr. apply String.eqb_neq in Hn. rewrite Hn.
      apply relg_ask_state with (g := fun s0 => st_decos s0 d) (k := fun (sd : bool) (f : nat) x => match x with
        | Some x => if String.eqb n "__parent__" && String.eqb (dc_class x) "LocationProxy"
                    then ret (dc_parent x) else raw (EE sd) k (OGetattr (VDeco d) n fr)
        | None => raise (EType "dangling decorator") end); [reflexivity|]. cbv beta.
      destruct (st_decos s d) as [x|] eqn:Hx; [|apply relg_raise; [exact F|discriminate]].
      destruct (String.eqb n "__parent__" && String.eqb (dc_class x) "LocationProxy").
      + apply relg_ret; [exact F|]. destruct (fd_deco s (rel_founded s K F) d x Hx) as (_ & X & _). exact X.
      + apply relg_raw; assumption.
  Qed.

  Lemma relg_read_bare k obj n fr s K :
    is_proxy obj = false -> Rel s K -> relg (fun sd f => i_op (I sd f) k (OGetattr obj n fr)) s K knownv.
  Proof.
    intros Hp F. apply relg_S. cbn [interp_n i_op run_op].
    destruct obj; try discriminate Hp; try (apply relg_deco_getattr, F);
      try (destruct (is_atom _ && String.eqb n "__Security_checker__");
           [apply relg_raise; [exact F|discriminate]|apply relg_raw; assumption]).
  Qed.

  (** *** Checks *)

  Lemma relg_decide p obj n s K :
    Rel s K ->
    relg (fun sd f => b <- tl_checkPermission (EE sd) (I sd f) p obj ;;
                   if b then ret tt else raise (EUnauthorized obj n p)) s K any.
  Proof.
    intros F. eapply relg_bind with (k := fun (_ : bool) (_ : nat) (b : bool) =>
      if b then ret tt else raise (EUnauthorized obj n p)); [apply relg_tl, F|]. intros b s1 K1 F1 _ _.
    destruct b; [apply relg_ret; [exact F1|exact Logic.I]|apply relg_raise; [exact F1|discriminate]].
  Qed.

  Lemma relg_plain_setattr k obj n s K :
    Rel s K -> relg (fun sd f => Checker_check_setattr (EE sd) (I sd f) k obj n) s K any.
  Proof.
    intros F. unfold Checker_check_setattr, CheckerPy_check_setattr, CheckerC_check_setattr, CheckerC_checkPermission.
    assert (R : relg (fun _ _ => ret tt) s K any) by (apply relg_ret; [exact F|exact Logic.I]).
    assert (B : relg (fun _ _ => raise (EForbidden n obj)) s K (@any unit)) by (apply relg_raise; [exact F|discriminate]).
    ee. apply relg_cimpl with (p := fun (sd : bool) (f : nat) => s0 <- get ;;
        let permission := match st_dicts s0 (ck_set k) with [] => PNone | p :: l => get_or_none (p :: l) n end in
        if negb (perm_eqb permission PNone) then
          if perm_eqb permission PPublic then ret tt
          else b <- tl_checkPermission (EE sd) (I sd f) permission obj ;;
               if b then ret tt else raise (EUnauthorized obj n permission)
        else raise (EForbidden n obj))
      (q := fun (sd : bool) (f : nat) => s0 <- get ;;
        match dget String.eqb (st_dicts s0 (ck_set k)) n with
        | Some p => if negb (perm_eqb p PPublic) then
                      b <- tl_checkPermission (EE sd) (I sd f) p obj ;;
                      if b then ret tt else raise (EUnauthorized obj n p)
                    else ret tt
        | None => raise (EForbidden n obj) end); intros _.
    - refine (relg_ask_state (fun s0 => st_dicts s0 (ck_set k)) (fun (sd : bool) (f : nat) dd =>
        let permission := match dd with [] => PNone | p :: l => get_or_none (p :: l) n end in
        if negb (perm_eqb permission PNone) then
          if perm_eqb permission PPublic then ret tt
          else b <- tl_checkPermission (EE sd) (I sd f) permission obj ;;
               if b then ret tt else raise (EUnauthorized obj n permission)
        else raise (EForbidden n obj)) s K any _ _); [reflexivity|]. cbv beta zeta.
      destruct (negb (perm_eqb _ PNone)); [|exact B].
      destruct (perm_eqb _ PPublic); [exact R|apply relg_decide, F].
    - refine (relg_ask_state (fun s0 => st_dicts s0 (ck_set k)) (fun (sd : bool) (f : nat) dd =>
        match dget String.eqb dd n with
        | Some p => if negb (perm_eqb p PPublic) then
                      b <- tl_checkPermission (EE sd) (I sd f) p obj ;;
                      if b then ret tt else raise (EUnauthorized obj n p)
                    else ret tt
        | None => raise (EForbidden n obj) end) s K any _ _); [reflexivity|]. cbv beta.
      destruct (dget String.eqb (st_dicts s (ck_set k)) n) as [p|]; [|exact B].
      destruct (negb (perm_eqb p PPublic)); [apply relg_decide, F|exact R].
  Qed.

  Lemma relg_plain_check k obj n s K :
    is_proxy obj = false -> Rel s K ->
    relg (fun sd f => Checker_check (EE sd) (I sd f) k obj n) s K any.
  Proof.
    intros Hp F. unfold Checker_check, CheckerPy_check, CheckerC_check_int, CheckerC_checkPermission.
    assert (R : relg (fun _ _ => ret tt) s K any) by (apply relg_ret; [exact F|exact Logic.I]).
    assert (B : forall s1 K1, Rel s1 K1 -> relg (fun _ _ => raise (EForbidden n obj)) s1 K1 (@any unit))
      by (intros s1 K1 F1; apply relg_raise; [exact F1|discriminate]).
    ee. apply relg_cimpl with (p := fun (sd : bool) (f : nat) => s0 <- get ;;
        let permission := get_or_none (st_dicts s0 (ck_get k)) n in
        if negb (perm_eqb permission PNone) then
          if perm_eqb permission PPublic then ret tt
          else b <- tl_checkPermission (EE sd) (I sd f) permission obj ;;
               if b then ret tt else raise (EUnauthorized obj n permission)
        else if mem n available_by_default then ret tt
        else
          forbid <- (if negb (String.eqb n "__iter__") then ret true else hasattr_py (I sd f) obj n) ;;
          if forbid then raise (EForbidden n obj) else ret tt)
      (q := fun (sd : bool) (f : nat) => s0 <- get ;;
        match dget String.eqb (st_dicts s0 (ck_get k)) n with
        | Some p => if perm_eqb p PPublic then ret tt
                    else b <- tl_checkPermission (EE sd) (I sd f) p obj ;;
                         if b then ret tt else raise (EUnauthorized obj n p)
        | None =>
            if is_operator n then
              if mem n available_by_default then ret tt
              else if String.eqb n "__iter__" then
                h <- hasattr_c (I sd f) obj n ;;
                if negb h then ret tt else raise (EForbidden n obj)
              else raise (EForbidden n obj)
            else raise (EForbidden n obj)
        end); intros _.
    - refine (relg_ask_state (fun s0 => st_dicts s0 (ck_get k)) (fun (sd : bool) (f : nat) dd =>
        let permission := get_or_none dd n in
        if negb (perm_eqb permission PNone) then
          if perm_eqb permission PPublic then ret tt
          else b <- tl_checkPermission (EE sd) (I sd f) permission obj ;;
               if b then ret tt else raise (EUnauthorized obj n permission)
        else if mem n available_by_default then ret tt
        else
          forbid <- (if negb (String.eqb n "__iter__") then ret true else hasattr_py (I sd f) obj n) ;;
          if forbid then raise (EForbidden n obj) else ret tt) s K any _ _); [reflexivity|]. cbv beta zeta.
      destruct (negb (perm_eqb _ PNone)).
      + destruct (perm_eqb _ PPublic); [exact R|apply relg_decide, F].
      + destruct (mem n available_by_default); [exact R|].
        eapply relg_bind with (V := any) (k := fun (_ : bool) (_ : nat) (forbid : bool) =>
          if forbid then raise (EForbidden n obj) else ret tt).
        * destruct (negb (String.eqb n "__iter__")).
          -- apply relg_ret; [exact F|exact Logic.I].
          -- unfold hasattr_py. apply relg_catch with
               (h := fun (_ : bool) (_ : nat) e => if is_attribute_error e then ret false else raise e).
             ++ eapply relg_bind with (k := fun (_ : bool) (_ : nat) _ => ret true);
                  [apply relg_read_bare; assumption|]. intros v s1 K1 F1 _ _.
                apply relg_ret; [exact F1|exact Logic.I].
             ++ intros e s1 K1 F1 _ He. apply relg_reraise; auto. exact Logic.I.
        * intros b s1 K1 F1 _ _. destruct b; [apply B, F1|apply relg_ret; [exact F1|exact Logic.I]].
    - refine (relg_ask_state (fun s0 => st_dicts s0 (ck_get k)) (fun (sd : bool) (f : nat) dd =>
        match dget String.eqb dd n with
        | Some p => if perm_eqb p PPublic then ret tt
                    else b <- tl_checkPermission (EE sd) (I sd f) p obj ;;
                         if b then ret tt else raise (EUnauthorized obj n p)
        | None =>
            if is_operator n then
              if mem n available_by_default then ret tt
              else if String.eqb n "__iter__" then
                h <- hasattr_c (I sd f) obj n ;;
                if negb h then ret tt else raise (EForbidden n obj)
              else raise (EForbidden n obj)
            else raise (EForbidden n obj)
        end) s K any _ _); [reflexivity|]. cbv beta.
      destruct (dget String.eqb (st_dicts s (ck_get k)) n) as [p|].
      + destruct (perm_eqb p PPublic); [exact R|apply relg_decide, F].
      + destruct (is_operator n); [|apply B, F]. destruct (mem n available_by_default); [exact R|].
        destruct (String.eqb n "__iter__"); [|apply B, F].
        eapply relg_bind with (V := any) (k := fun (_ : bool) (_ : nat) (h : bool) =>
          if negb h then ret tt else raise (EForbidden n obj)).
        * unfold hasattr_c. apply relg_catch with (h := fun (_ : bool) (_ : nat) _ => ret false).
          -- eapply relg_bind with (k := fun (_ : bool) (_ : nat) _ => ret true);
               [apply relg_read_bare; assumption|]. intros v s1 K1 F1 _ _.
             apply relg_ret; [exact F1|exact Logic.I].
          -- intros e s1 K1 F1 _ _. apply relg_ret; [exact F1|exact Logic.I].
        * intros b s1 K1 F1 _ _. destruct (negb b); [apply relg_ret; [exact F1|exact Logic.I]|apply B, F1].
  Qed.

  (** *** Logging *)

  (** What only writes log lines. *)
  Definition logs (r : res unit) (m : nat -> M unit) : Prop :=
    forall s K, Rel s K -> exists n t, Logged [] t /\
      forall f, n <= f -> m f (set_chks K s) = (r, set_chks K s, t).

  Lemma logs_ret : logs (Ok tt) (fun _ => ret tt).
  Proof. intros s K F. exists 0, []. split; [constructor|reflexivity]. Qed.

  Lemma logs_raise e : logs (Exc e) (fun _ => raise e).
  Proof. intros s K F. exists 0, []. split; [constructor|reflexivity]. Qed.

  Lemma logs_line v th line n obj :
    is_proxy obj = false -> logs (Ok tt) (fun f => log_line (I true f) v th line n obj).
  Proof.
    intros Hp s K F.
    assert (Hq : forall q, obj <> VProxy q) by (intros q ->; discriminate Hp).
    destruct (HRp s (set_chks K s) obj F Hq) as (x & Hx).
    assert (R : forall f, i_op (I true (S f)) Probe (ORepr obj) (set_chks K s) =
      (Ok (VStr x), set_chks K s, [ECall Probe (e_tid E) (CallOp (ORepr obj))])).
    { intros f. transitivity (raw (EE true) Probe (ORepr obj) (set_chks K s)).
      - cbn [interp_n i_op]. destruct obj; try reflexivity. discriminate Hp.
      - unfold raw, bind, foreign. cbn [e_run e_tid]. rewrite Hx. reflexivity. }
    unfold log_line. destruct (Nat.leb th v).
    - exists 1, [ECall Probe (e_tid E) (CallOp (ORepr obj)); ELog line n obj].
      split; [repeat constructor|]. intros f Hf. destruct f as [|f]; [lia|].
      unfold bind. rewrite R. reflexivity.
    - exists 1, [ECall Probe (e_tid E) (CallOp (ORepr obj))].
      split; [repeat constructor|]. intros f Hf. destruct f as [|f]; [lia|].
      unfold bind. rewrite R. reflexivity.
  Qed.

  Lemma logs_seq r m m' : logs (Ok tt) m -> logs r m' -> logs r (fun f => m f ;;; m' f).
  Proof.
    intros H H' s K F. destruct (H s K F) as (n & t & L & X). destruct (H' s K F) as (n' & t' & L' & X').
    exists (Nat.max n n'), (t ++ t')%list. split; [apply (Logged_app [] t [] t'); assumption|].
    intros f Hf. unfold bind. rewrite X by lia. rewrite X' by lia. reflexivity.
  Qed.

  Lemma relg_logged (m : bool -> nat -> M unit) (post : nat -> M unit) (h : nat -> exn -> M unit) s K :
    relg m s K any -> logs (Ok tt) post -> (forall e, logs (Exc e) (fun f => h f e)) ->
    relg (fun sd f => if sd then catch (m sd f ;;; post f) (h f) else m sd f) s K any.
  Proof.
    intros (n & r & s1 & t0 & K1 & t & H0 & H1 & Hr & F1 & L & N & _) HP HH.
    destruct r as [[]|e].
    - destruct (HP s1 K1 F1) as (n' & t' & L' & X').
      exists (Nat.max n n'), (Ok tt), s1, t0, K1, (t ++ t')%list.
      split; [intros f Hf; apply H0; lia|].
      split. { intros f Hf. cbv beta iota. unfold catch, bind. rewrite H1 by lia. rewrite X' by lia. reflexivity. }
      split; [discriminate|]. split; [exact F1|].
      split; [rewrite <- (app_nil_r t0); apply Logged_app; assumption|].
      split; [exact N|]. intros a _. exact Logic.I.
    - destruct (HH e s1 K1 F1) as (n' & t' & L' & X').
      exists (Nat.max n n'), (Exc e), s1, t0, K1, (t ++ t')%list.
      split; [intros f Hf; apply H0; lia|].
      split. { intros f Hf. cbv beta iota. unfold catch, bind. rewrite H1 by lia. rewrite X' by lia. reflexivity. }
      split; [exact Hr|]. split; [exact F1|].
      split; [rewrite <- (app_nil_r t0); apply Logged_app; assumption|].
      split; [exact N|]. discriminate.
  Qed.

  Lemma logs_granted v (a b : string) n obj :
    is_proxy obj = false ->
    logs (Ok tt) (fun f => if Nat.ltb 1 v then
             if mem n available_by_default
             then log_line (I true f) v 2 a n obj else log_line (I true f) v 2 b n obj
           else ret tt).
  Proof.
    intros Hp. destruct (Nat.ltb 1 v); [|apply logs_ret].
    destruct (mem n available_by_default); apply logs_line, Hp.
  Qed.

  Lemma logs_refused v (a b : string) n obj e :
    is_proxy obj = false ->
    logs (Exc e) (fun f => if is_unauthorized e then log_line (I true f) v 1 a n obj ;;; raise e
             else if is_forbidden e then log_line (I true f) v 1 b n obj ;;; raise e
             else raise e).
  Proof.
    intros Hp. destruct (is_unauthorized e).
    - apply logs_seq with (m' := fun _ => raise e); [apply logs_line, Hp|apply logs_raise].
    - destruct (is_forbidden e); [|apply logs_raise].
      apply logs_seq with (m' := fun _ => raise e); [apply logs_line, Hp|apply logs_raise].
  Qed.

  Lemma relg_watching_check k v obj n s K :
    is_proxy obj = false -> Rel s K ->
    relg (fun sd f => if sd then Watching_check (EE true) (I true f) v k obj n
                      else Checker_check (EE false) (I false f) k obj n) s K any.
  Proof.
    intros Hp F. eapply relg_ext; [| |apply (relg_logged
      (fun sd f => Checker_check (EE sd) (I sd f) k obj n)
      (fun f => if Nat.ltb 1 v then
             if mem n available_by_default
             then log_line (I true f) v 2 "[CHK] + Always available:" n obj
             else log_line (I true f) v 2 "[CHK] + Granted:" n obj
           else ret tt)
      (fun f e => if is_unauthorized e then log_line (I true f) v 1 "[CHK] - Unauthorized:" n obj ;;; raise e
             else if is_forbidden e then log_line (I true f) v 1 "[CHK] - Forbidden:" n obj ;;; raise e
             else raise e) s K)].
    - intros f. reflexivity.
    - intros f. reflexivity.
    - apply relg_plain_check; assumption.
    - apply logs_granted, Hp.
    - intros e. apply logs_refused, Hp.
  Qed.

  Lemma relg_watching_getattr k v obj n s K :
    is_proxy obj = false -> Rel s K ->
    relg (fun sd f => if sd then Watching_check_getattr (EE true) (I true f) v k obj n
                      else Checker_check (EE false) (I false f) k obj n) s K any.
  Proof.
    intros Hp F. eapply relg_ext; [| |apply (relg_logged
      (fun sd f => Checker_check (EE sd) (I sd f) k obj n)
      (fun f => if Nat.ltb 1 v then
             if mem n available_by_default
             then log_line (I true f) v 2 "[CHK] + Always available getattr:" n obj
             else log_line (I true f) v 2 "[CHK] + Granted getattr:" n obj
           else ret tt)
      (fun f e => if is_unauthorized e then log_line (I true f) v 1 "[CHK] - Unauthorized getattr:" n obj ;;; raise e
             else if is_forbidden e then log_line (I true f) v 1 "[CHK] - Forbidden getattr:" n obj ;;; raise e
             else raise e) s K)].
    - intros f. reflexivity.
    - intros f. reflexivity.
    - apply relg_plain_check; assumption.
    - apply logs_granted, Hp.
    - intros e. apply logs_refused, Hp.
  Qed.

  Lemma relg_watching_setattr k v obj n s K :
    is_proxy obj = false -> Rel s K ->
    relg (fun sd f => if sd then Watching_check_setattr (EE true) (I true f) v k obj n
                      else Checker_check_setattr (EE false) (I false f) k obj n) s K any.
  Proof.
    intros Hp F. eapply relg_ext; [| |apply (relg_logged
      (fun sd f => Checker_check_setattr (EE sd) (I sd f) k obj n)
      (fun f => if Nat.ltb 1 v then log_line (I true f) v 2 "[CHK] + Granted setattr:" n obj else ret tt)
      (fun f e => if is_unauthorized e then log_line (I true f) v 1 "[CHK] - Unauthorized setattr:" n obj ;;; raise e
             else if is_forbidden e then log_line (I true f) v 1 "[CHK] - Forbidden setattr:" n obj ;;; raise e
             else raise e) s K)].
    - intros f. reflexivity.
    - intros f. reflexivity.
    - apply relg_plain_setattr; assumption.
    - destruct (Nat.ltb 1 v); [apply logs_line, Hp|apply logs_ret].
    - intros e. apply logs_refused, Hp.
  Qed.

  Lemma relg_combine (m1 m2 : bool -> nat -> M unit) s K :
    relg m1 s K any -> (forall s1 K1, Rel s1 K1 -> relg m2 s1 K1 any) ->
    relg (fun sd f => combine (m1 sd f) (m2 sd f)) s K any.
  Proof.
    intros H1 H2. unfold combine. apply relg_catch with (h := fun (sd : bool) (f : nat) e =>
      if is_forbidden e then m2 sd f
      else if is_unauthorized e
           then catch (m2 sd f) (fun e2 => if is_forbidden e2 then raise e else raise e2) else raise e).
    - exact H1.
    - intros e s1 K1 F1 _ He. destruct (is_forbidden e); [apply H2, F1|].
      destruct (is_unauthorized e); [|apply relg_raise; assumption].
      apply relg_catch with (h := fun (_ : bool) (_ : nat) e2 => if is_forbidden e2 then raise e else raise e2).
      + apply H2, F1.
      + intros e2 s2 K2 F2 _ He2. destruct (is_forbidden e2); apply relg_raise; assumption.
  Qed.

  (** The methods called on the two sides: the same, or [check] and [check_getattr]. *)
  Definition modes (md : bool -> chkmode) (c : value) : Prop :=
    md true = md false \/ (exists i, c = VChk i) /\ md true <> MSetattr /\ md false <> MSetattr.

  Lemma relg_check b : forall (md : bool -> chkmode) c obj n s K,
    crank c <= b -> is_proxy obj = false -> Rel s K -> modes md c ->
    relg (fun sd f => i_check (I sd f) (md sd) c obj n) s K any.
  Proof.
    assert (FC : forall (md : bool -> chkmode) c obj n s K, Rel s K -> md true = md false ->
      relg (fun sd _ => foreign (EE sd) Probe (CallCheck (md sd) c obj n) ;;; ret tt) s K any).
    { intros md c obj n s K F Hm.
      apply relg_ext with (m := fun (sd : bool) (_ : nat) =>
        foreign (EE sd) Probe (CallCheck (md false) c obj n) ;;; ret tt).
      - intros f. reflexivity.
      - intros f. cbv beta. rewrite Hm. reflexivity.
      - eapply relg_bind with (m := fun (sd : bool) (_ : nat) => foreign (EE sd) Probe (CallCheck (md false) c obj n))
          (k := fun (_ : bool) (_ : nat) _ => ret tt); [apply relg_foreign; assumption|].
        intros v s1 K1 F1 _ _. apply relg_ret; [exact F1|exact Logic.I]. }
    assert (FM : forall (md : bool -> chkmode) c, modes md c -> (forall i, c <> VChk i) -> md true = md false).
    { intros md c [H|((i & ->) & _)] Hc; [exact H|]. destruct (Hc i eq_refl). }
    induction b as [|b IH]; intros md c obj n s K Hc Hp F Hm; apply relg_S; cbn [interp_n i_check];
      unfold checker_check.
    - destruct c; try (apply FC; [exact F|apply (FM _ _ Hm); discriminate]). simpl in Hc. lia.
    - destruct c; try (apply FC; [exact F|apply (FM _ _ Hm); discriminate]).
      rename c into i.
      destruct (e_watch E) as [|lvl] eqn:HE; [destruct (HW eq_refl)|]. rewrite <- HE in *.
      apply relg_get with (k := fun (sd : bool) (f : nat) s0 => match st_chks s0 i with
        | None => raise (EType "dangling checker")
        | Some k => match ck_kind k, md sd with
            | CkPlain, MSetattr => Checker_check_setattr (EE sd) (I sd f) k obj n
            | CkPlain, _ => Checker_check (EE sd) (I sd f) k obj n
            | CkCombined c2, MSetattr => Combined_check_setattr (EE sd) (I sd f) k c2 obj n
            | CkCombined c2, _ => Combined_check (EE sd) (I sd f) k c2 obj n
            | CkWatching v, MSetattr => Watching_check_setattr (EE sd) (I sd f) v k obj n
            | CkWatching v, MCheck => Watching_check (EE sd) (I sd f) v k obj n
            | CkWatching v, MGetattr => Watching_check_getattr (EE sd) (I sd f) v k obj n
            | CkWatchingCombined _ c2, MSetattr => Combined_check_setattr (EE sd) (I sd f) k c2 obj n
            | CkWatchingCombined _ c2, _ => Combined_check (EE sd) (I sd f) k c2 obj n
            end end).
      pose proof (rel_chk s K i F) as Hi.
      assert (MM : (md true = MSetattr /\ md false = MSetattr) \/ (md true <> MSetattr /\ md false <> MSetattr)).
      { destruct Hm as [Hm|(_ & H1 & H2)]; [|right; split; assumption].
        rewrite Hm. destruct (md false); auto; right; split; discriminate. }
      pose proof (fd_checker s (rel_founded s K F) i) as Fd.
      inversion Hi as [A B|g w Hx A B|g w v A B|g w v c2 A B].
      + apply relg_ext with (m := fun _ _ => raise (EType "dangling checker"));
          [| |apply relg_raise; [exact F|discriminate]]; intros f; cbv beta.
        * cbv iota; change (st_chks (set_chks (st_chks s) s) i) with (st_chks s i). rewrite <- A. reflexivity.
        * cbv iota; change (st_chks (set_chks K s) i) with (K i). rewrite <- B. reflexivity.
      + destruct MM as [[M1 M0]|[M1 M0]].
        * eapply relg_ext; [| |apply (relg_plain_setattr (mkChecker g w CkPlain) obj n s K F)];
            intros f; cbv beta.
          -- cbv iota; change (st_chks (set_chks (st_chks s) s) i) with (st_chks s i). rewrite <- A, M0. reflexivity.
          -- cbv iota; change (st_chks (set_chks K s) i) with (K i). rewrite <- B, M1. reflexivity.
        * eapply relg_ext; [| |apply (relg_plain_check (mkChecker g w CkPlain) obj n s K Hp F)];
            intros f; cbv beta.
          -- cbv iota; change (st_chks (set_chks (st_chks s) s) i) with (st_chks s i). rewrite <- A.
             destruct (md false); try reflexivity. destruct (M0 eq_refl).
          -- cbv iota; change (st_chks (set_chks K s) i) with (K i). rewrite <- B.
             destruct (md true); try reflexivity. destruct (M1 eq_refl).
      + destruct MM as [[M1 M0]|[M1 M0]].
        * eapply relg_ext; [| |apply (relg_watching_setattr (mkChecker g w CkPlain) v obj n s K Hp F)];
            intros f; cbv beta.
          -- cbv iota; change (st_chks (set_chks (st_chks s) s) i) with (st_chks s i). rewrite <- A, M0. reflexivity.
          -- cbv iota; change (st_chks (set_chks K s) i) with (K i). rewrite <- B, M1. reflexivity.
        * destruct (md true) eqn:Md; [| |destruct (M1 eq_refl)].
          -- eapply relg_ext; [| |apply (relg_watching_check (mkChecker g w CkPlain) v obj n s K Hp F)];
               intros f; cbv beta.
             ++ cbv iota; change (st_chks (set_chks (st_chks s) s) i) with (st_chks s i). rewrite <- A.
                destruct (md false); try reflexivity. destruct (M0 eq_refl).
             ++ cbv iota; change (st_chks (set_chks K s) i) with (K i). rewrite <- B, Md. reflexivity.
          -- eapply relg_ext; [| |apply (relg_watching_getattr (mkChecker g w CkPlain) v obj n s K Hp F)];
               intros f; cbv beta.
             ++ cbv iota; change (st_chks (set_chks (st_chks s) s) i) with (st_chks s i). rewrite <- A.
                destruct (md false); try reflexivity. destruct (M0 eq_refl).
             ++ cbv iota; change (st_chks (set_chks K s) i) with (K i). rewrite <- B, Md. reflexivity.
      + symmetry in A. destruct (Fd _ A) as (_ & [Kp|(c3 & Kc & Hlt)]); [discriminate Kp|].
        injection Kc as <-.
        assert (Hc2 : crank c2 <= b).
        { destruct c2; simpl; try lia. specialize (Hlt c eq_refl). simpl in Hc. lia. }
        destruct MM as [[M1 M0]|[M1 M0]].
        * eapply relg_ext; [| |apply (relg_combine (fun (sd : bool) (f : nat) =>
             if sd then Watching_check_setattr (EE true) (I true f) v (mkChecker g w CkPlain) obj n
             else Checker_check_setattr (EE false) (I false f) (mkChecker g w CkPlain) obj n)
             (fun (sd : bool) (f : nat) => i_check (I sd f) MSetattr c2 obj n) s K)]; [intros f; cbv beta|intros f; cbv beta| |].
          -- cbv iota; change (st_chks (set_chks (st_chks s) s) i) with (st_chks s i). rewrite A, M0. reflexivity.
          -- cbv iota; change (st_chks (set_chks K s) i) with (K i). rewrite <- B, M1.
             cbn [ck_kind]. unfold Combined_check_setattr, Combined_first_check_setattr. cbn [e_watch ck_kind].
             rewrite HE. reflexivity.
          -- apply relg_watching_setattr; assumption.
          -- intros s1 K1 F1. apply IH with (md := fun _ => MSetattr); try assumption. left. reflexivity.
        * eapply relg_ext; [| |apply (relg_combine (fun (sd : bool) (f : nat) =>
             if sd then Watching_check (EE true) (I true f) v (mkChecker g w CkPlain) obj n
             else Checker_check (EE false) (I false f) (mkChecker g w CkPlain) obj n)
             (fun (sd : bool) (f : nat) => i_check (I sd f) MCheck c2 obj n) s K)]; [intros f; cbv beta|intros f; cbv beta| |].
          -- cbv iota; change (st_chks (set_chks (st_chks s) s) i) with (st_chks s i). rewrite A.
             destruct (md false); try reflexivity. destruct (M0 eq_refl).
          -- cbv iota; change (st_chks (set_chks K s) i) with (K i). rewrite <- B.
             destruct (md true); try (destruct (M1 eq_refl)); cbn [ck_kind];
               unfold Combined_check, Combined_first_check; cbn [e_watch ck_kind];
               rewrite HE; reflexivity.
          -- apply relg_watching_check; assumption.
          -- intros s1 K1 F1. apply IH with (md := fun _ => MCheck); try assumption. left. reflexivity.
  Qed.

  (** *** Guarded operations *)

  (** [operation] does the same on both sides, for objects that are not proxies. *)
  Definition inner (operation : bool -> nat -> value -> M value) : Prop :=
    forall w s K, is_proxy w = false -> Rel s K -> relg (fun sd f => operation sd f w) s K knownv.

  Lemma relg_check_bare m c obj n s K :
    is_proxy obj = false -> Rel s K -> relg (fun sd f => i_check (I sd f) m c obj n) s K any.
  Proof.
    intros Hp F. apply relg_check with (b := crank c) (md := fun _ => m); [apply le_n|exact Hp|exact F|].
    left. reflexivity.
  Qed.

  Lemma relg_c_check p m n s K : Rel s K -> relg (fun sd f => c_check (I sd f) p m n) s K any.
  Proof.
    intros F. unfold c_check.
    apply relg_with_parts with (k := fun (sd : bool) (f : nat) wc => s0 <- get ;;
      match m with
      | MSetattr => i_check (I sd f) MSetattr (snd wc) (fst wc) n
      | _ => i_check (I sd f) (slot_mode s0 (snd wc) m) (snd wc) (fst wc) n end); [exact F|].
    intros w c _ Hw _ _. cbn [fst snd].
    apply relg_get with (k := fun (sd : bool) (f : nat) s0 => match m with
      | MSetattr => i_check (I sd f) MSetattr c w n
      | _ => i_check (I sd f) (slot_mode s0 c m) c w n end).
    assert (X : m <> MSetattr -> relg (fun sd f => i_check (I sd f) (slot_mode (pick sd s K) c m) c w n) s K any).
    { intros Hm. apply relg_check with (b := crank c) (md := fun sd : bool => slot_mode (pick sd s K) c m);
        [apply le_n|exact Hw|exact F|].
      destruct c; try (left; reflexivity). right. split; [eexists; reflexivity|]. cbv beta iota.
      unfold slot_mode. split.
      - destruct (st_chks (set_chks K s) c) as [x|]; [|exact Hm]. destruct (ck_kind x); discriminate.
      - destruct (st_chks (set_chks (st_chks s) s) c) as [x|]; [|exact Hm]. destruct (ck_kind x); discriminate. }
    destruct m; try (apply X; discriminate). apply relg_check_bare; assumption.
  Qed.

  Lemma relg_c_proxy_result p v s K :
    Rel s K -> known s v -> relg (fun sd f => c_proxy_result (EE sd) (I sd f) p v) s K knownv.
  Proof.
    intros F Hv. unfold c_proxy_result.
    apply relg_with_parts with (k := fun (sd : bool) (f : nat) wc => checker_proxy (EE sd) (I sd f) (snd wc) v);
      [exact F|]. intros w' c' _ _ _ _. cbn [fst snd]. apply relg_checker_proxy; assumption.
  Qed.

  Lemma relg_c_check1 p m n operation s K :
    inner operation -> Rel s K ->
    relg (fun sd f => c_check1 (EE sd) (I sd f) p m n (operation sd f)) s K knownv.
  Proof.
    intros HO F. unfold c_check1.
    eapply relg_bind with (k := fun (sd : bool) (f : nat) _ => wc <- pget p ;; r <- operation sd f (fst wc) ;;
      c_proxy_result (EE sd) (I sd f) p r); [apply relg_c_check; assumption|].
    intros _ s1 K1 F1 _ _.
    apply relg_with_parts with (k := fun (sd : bool) (f : nat) wc => r <- operation sd f (fst wc) ;;
      c_proxy_result (EE sd) (I sd f) p r); [exact F1|]. intros w c _ Hw _ _. cbn [fst snd].
    eapply relg_bind with (k := fun (sd : bool) (f : nat) r => c_proxy_result (EE sd) (I sd f) p r);
      [apply HO; assumption|]. intros v s2 K2 F2 _ Hv. apply relg_c_proxy_result; assumption.
  Qed.

  Lemma relg_c_check0 p m n operation s K :
    inner operation -> Rel s K ->
    relg (fun sd f => c_check0 (I sd f) p m n (operation sd f)) s K knownv.
  Proof.
    intros HO F. unfold c_check0.
    eapply relg_bind with (k := fun (sd : bool) (f : nat) _ => wc <- pget p ;; operation sd f (fst wc));
      [apply relg_c_check; assumption|].
    intros _ s1 K1 F1 _ _.
    apply relg_with_parts with (k := fun (sd : bool) (f : nat) wc => operation sd f (fst wc)); [exact F1|].
    intros w c _ Hw _ _. cbn [fst snd]. apply HO; assumption.
  Qed.

  Lemma relg_py_check_name p n operation s K :
    inner operation -> Rel s K ->
    relg (fun sd f => py_check_name (EE sd) (I sd f) p n (operation sd f)) s K knownv.
  Proof.
    intros HO F. unfold py_check_name.
    apply relg_with_parts with (k := fun (sd : bool) (f : nat) wc => i_check (I sd f) MCheck (snd wc) (fst wc) n ;;;
      wc2 <- pget p ;; res <- operation sd f (fst wc2) ;; checker_proxy (EE sd) (I sd f) (snd wc) res); [exact F|].
    intros w c _ Hw _ _. cbn [fst snd].
    eapply relg_bind with (k := fun (sd : bool) (f : nat) _ => wc2 <- pget p ;;
      res <- operation sd f (fst wc2) ;; checker_proxy (EE sd) (I sd f) c res);
      [apply relg_check_bare; assumption|]. intros _ s1 K1 F1 _ _.
    apply relg_with_parts with (k := fun (sd : bool) (f : nat) wc2 =>
      res <- operation sd f (fst wc2) ;; checker_proxy (EE sd) (I sd f) c res); [exact F1|].
    intros w' c' _ Hw' _ _. cbn [fst snd].
    eapply relg_bind with (k := fun (sd : bool) (f : nat) res => checker_proxy (EE sd) (I sd f) c res);
      [apply HO; assumption|]. intros v s2 K2 F2 _ Hv. apply relg_checker_proxy; assumption.
  Qed.

  Lemma relg_py_check_name_nowrap p n operation s K :
    inner operation -> Rel s K ->
    relg (fun sd f => py_check_name_nowrap (I sd f) p n (operation sd f)) s K knownv.
  Proof.
    intros HO F. unfold py_check_name_nowrap.
    apply relg_with_parts with (k := fun (sd : bool) (f : nat) wc => i_check (I sd f) MCheck (snd wc) (fst wc) n ;;;
      wc2 <- pget p ;; operation sd f (fst wc2)); [exact F|].
    intros w c _ Hw _ _. cbn [fst snd].
    eapply relg_bind with (k := fun (sd : bool) (f : nat) _ => wc2 <- pget p ;; operation sd f (fst wc2));
      [apply relg_check_bare; assumption|]. intros _ s1 K1 F1 _ _.
    apply relg_with_parts with (k := fun (sd : bool) (f : nat) wc2 => operation sd f (fst wc2)); [exact F1|].
    intros w' c' _ Hw' _ _. cbn [fst snd]. apply HO; assumption.
  Qed.

  Lemma relg_guard p m n operation s K :
    inner operation -> Rel s K ->
    relg (fun sd f => proxy_guard (EE sd) (I sd f) p m n (operation sd f)) s K knownv.
  Proof.
    intros HO F. unfold proxy_guard. ee.
    apply relg_impl with (p := fun (sd : bool) (f : nat) => py_check_name (EE sd) (I sd f) p n (operation sd f))
      (q := fun (sd : bool) (f : nat) => c_check1 (EE sd) (I sd f) p m n (operation sd f)); intros _.
    - apply relg_py_check_name; assumption.
    - apply relg_c_check1; assumption.
  Qed.

  (** *** Reading attributes *)

  Lemma relg_py_getattr p k n fr s K :
    Rel s K -> relg (fun sd f => py_getattr (EE sd) (I sd f) k p n fr) s K knownv.
  Proof.
    intros F. unfold py_getattr. apply relg_catch with (h := fun (sd : bool) (f : nat) e =>
      if is_attribute_error e then py_getattr_fallback (I sd f) p n else raise e).
    - unfold py_getattribute.
      destruct ((String.eqb n "_wrapped" || String.eqb n "_checker") &&
                negb (match fr with Some v => value_eqb v (VProxy p) | None => false end));
        [apply relg_raise; [exact F|discriminate]|].
      apply relg_with_parts with (k := fun (sd : bool) (f : nat) wc =>
        let w := fst wc in let c := snd wc in
        if String.eqb n "_wrapped" then ret w else if String.eqb n "_checker" then ret c else
        (if mem n py_unchecked_names then ret tt else i_check (I sd f) MGetattr c w n) ;;;
        wc2 <- pget p ;;
        val <- i_op (I sd f) k (OGetattr (if String.eqb n "__reduce__" || String.eqb n "__reduce_ex__"
                                      || String.eqb n "__module__" then w else fst wc2) n (Some (VProxy p))) ;;
        checker_proxy (EE sd) (I sd f) c val); [exact F|]. intros w c _ Hw Kw Kc. cbn [fst snd]. cbv zeta.
      destruct (String.eqb n "_wrapped"); [apply relg_ret; assumption|].
      destruct (String.eqb n "_checker"); [apply relg_ret; assumption|].
      eapply relg_bind with (V := any) (k := fun (sd : bool) (f : nat) _ => wc2 <- pget p ;;
        val <- i_op (I sd f) k (OGetattr (if String.eqb n "__reduce__" || String.eqb n "__reduce_ex__"
                                      || String.eqb n "__module__" then w else fst wc2) n (Some (VProxy p))) ;;
        checker_proxy (EE sd) (I sd f) c val).
      + destruct (mem n py_unchecked_names); [apply relg_ret; [exact F|exact Logic.I]|].
        apply relg_check_bare; assumption.
      + intros _ s1 K1 F1 _ _. apply relg_with_parts with (k := fun (sd : bool) (f : nat) wc2 =>
        val <- i_op (I sd f) k (OGetattr (if String.eqb n "__reduce__" || String.eqb n "__reduce_ex__"
                                      || String.eqb n "__module__" then w else fst wc2) n (Some (VProxy p))) ;;
        checker_proxy (EE sd) (I sd f) c val); [exact F1|]. intros w' c' _ Hw' _ _. cbn [fst snd].
        eapply relg_bind with (V := knownv) (k := fun (sd : bool) (f : nat) val =>
          checker_proxy (EE sd) (I sd f) c val).
        * apply relg_read_bare; [|exact F1].
          destruct (String.eqb n "__reduce__" || String.eqb n "__reduce_ex__" || String.eqb n "__module__"); assumption.
        * intros v s2 K2 F2 _ Hv. apply relg_checker_proxy; assumption.
    - intros e s1 K1 F1 _ He. destruct (is_attribute_error e); [|apply relg_raise; assumption].
      unfold py_getattr_fallback. apply relg_with_parts with (k := fun (sd : bool) (f : nat) wc =>
        i_check (I sd f) MGetattr (snd wc) (fst wc) n ;;; raise (EAttribute n)); [exact F1|].
      intros w c _ Hw _ _. cbn [fst snd].
      eapply relg_bind with (k := fun (_ : bool) (_ : nat) _ => raise (EAttribute n));
        [apply relg_check_bare; assumption|]. intros _ s2 K2 F2 _ _.
      apply relg_raise; [exact F2|discriminate].
  Qed.

  Lemma relg_read k obj n fr s K :
    Rel s K -> relg (fun sd f => i_op (I sd f) k (OGetattr obj n fr)) s K knownv.
  Proof.
    intros F. destruct (is_proxy obj) eqn:Hp; [|apply relg_read_bare; assumption].
    destruct obj; try discriminate Hp. apply relg_S. cbn [interp_n i_op run_op]. unfold proxy_getattr. ee.
    apply relg_impl with (p := fun (sd : bool) (f : nat) => py_getattr (EE sd) (I sd f) k p n fr)
      (q := fun (sd : bool) (f : nat) => c_check1 (EE sd) (I sd f) p MGetattr n
              (fun w => i_op (I sd f) k (OGetattr w n None))); intros _.
    - apply relg_py_getattr, F.
    - apply relg_c_check1 with (operation := fun (sd : bool) (f : nat) w => i_op (I sd f) k (OGetattr w n None));
        [|exact F]. intros w s1 K1 Hw F1. apply relg_read_bare; assumption.
  Qed.

  (** *** Operators with one proxy *)

  (** A shape of operation on one operand: on proxies guarded, otherwise foreign. *)
  Definition unary (mk : value -> op) : Prop :=
    (forall (sd : bool) f k v, is_proxy v = false -> run_op (EE sd) (I sd f) k (mk v) = raw (EE sd) k (mk v)) /\
    (forall k p s K, Rel s K -> inner (fun sd f w => i_op (I sd f) k (mk w)) ->
       relg (fun sd f => run_op (EE sd) (I sd f) k (mk (VProxy p))) s K knownv).

  Lemma relg_bare mk k v s K :
    (forall (sd : bool) f k v, is_proxy v = false -> run_op (EE sd) (I sd f) k (mk v) = raw (EE sd) k (mk v)) ->
    is_proxy v = false -> Rel s K -> relg (fun sd f => i_op (I sd f) k (mk v)) s K knownv.
  Proof.
    intros H Hp F. apply relg_S. cbn [interp_n i_op].
    apply relg_ext with (m := fun (sd : bool) (_ : nat) => raw (EE sd) k (mk v)); [| |apply relg_raw, F].
    - intros f. exact (f_equal (fun m => m s) (H false f k v Hp)).
    - intros f. exact (f_equal (fun m => m (set_chks K s)) (H true f k v Hp)).
  Qed.

  Lemma relg_unary mk : unary mk -> forall k v s K, Rel s K ->
    relg (fun sd f => i_op (I sd f) k (mk v)) s K knownv.
  Proof.
    intros [H1 H2] k v s K F. destruct (is_proxy v) eqn:Hp; [|apply relg_bare; assumption].
    destruct v; try discriminate Hp. apply relg_S. cbn [interp_n i_op]. apply H2; [exact F|].
    intros w s1 K1 Hw F1. apply relg_bare; assumption.
  Qed.

  Ltac bare := let sd := fresh in let f := fresh in let k := fresh in let v := fresh in let H := fresh in
    intros sd f k v H; destruct v; try reflexivity; discriminate H.

  Lemma unary_guarded mk m n :
    (forall (sd : bool) f k v, is_proxy v = false -> run_op (EE sd) (I sd f) k (mk v) = raw (EE sd) k (mk v)) ->
    (forall (sd : bool) f k p, run_op (EE sd) (I sd f) k (mk (VProxy p)) =
                   proxy_guard (EE sd) (I sd f) p m n (fun w => i_op (I sd f) k (mk w))) ->
    unary mk.
  Proof.
    intros H1 H2. split; [exact H1|]. intros k p s K F HO.
    eapply relg_ext; [| |apply (relg_guard p m n (fun sd f w => i_op (I sd f) k (mk w)) s K HO F)].
    - intros f. exact (f_equal (fun m => m s) (H2 false f k p)).
    - intros f. exact (f_equal (fun m => m (set_chks K s)) (H2 true f k p)).
  Qed.

  Lemma call_unary args : unary (fun v => OCall v args).
  Proof. eapply unary_guarded; [bare|intros; reflexivity]. Qed.
  Lemma un_unary u : unary (OUn u).
  Proof. apply unary_guarded with (m := MCheck)
    (n := match e_impl E with ImplPy => py_unop_name u | ImplC => c_unop_name u end); [bare|intros; reflexivity]. Qed.
  Lemma getitem_unary key : unary (fun v => OGetitem v key).
  Proof. eapply unary_guarded; [bare|intros; reflexivity]. Qed.
  Lemma iter_unary : unary OIter.
  Proof. eapply unary_guarded; [bare|intros; reflexivity]. Qed.
  Lemma next_unary : unary ONext.
  Proof. eapply unary_guarded; [bare|intros; reflexivity]. Qed.

  Lemma unx_unary u : unary (OUnX u).
  Proof.
    split; [bare|]. intros k p s K F HO. cbn [run_op]. ee.
    apply relg_impl with (p := fun (sd : bool) (f : nat) =>
        py_check_name (EE sd) (I sd f) p (py_unopx_name u) (fun w => i_op (I sd f) k (OUnX u w)))
      (q := fun (sd : bool) (_ : nat) => raw (EE sd) k (OUnX u (VProxy p))); intros _.
    - apply relg_py_check_name with (operation := fun (sd : bool) (f : nat) w => i_op (I sd f) k (OUnX u w));
        [exact HO|exact F].
    - apply relg_raw; assumption.
  Qed.

  Lemma relg_then_none (m : bool -> nat -> M value) s K :
    relg m s K knownv -> relg (fun sd f => m sd f ;;; ret VNone) s K knownv.
  Proof.
    intros H. eapply relg_bind with (k := fun (_ : bool) (_ : nat) _ => ret VNone); [exact H|].
    intros v s1 K1 F1 _ _. apply relg_ret; [exact F1|exact Logic.I].
  Qed.

  Lemma relg_item p n operation s K :
    inner operation -> Rel s K ->
    relg (fun sd f => match e_impl E with
      | ImplPy => py_check_name (EE sd) (I sd f) p n (operation sd f) ;;; ret VNone
      | ImplC => c_check0 (I sd f) p MCheck n (operation sd f) end) s K knownv.
  Proof.
    intros HO F.
    apply relg_impl with (p := fun (sd : bool) (f : nat) =>
      py_check_name (EE sd) (I sd f) p n (operation sd f) ;;; ret VNone)
      (q := fun (sd : bool) (f : nat) => c_check0 (I sd f) p MCheck n (operation sd f)); intros _.
    - apply relg_then_none. apply relg_py_check_name; assumption.
    - apply relg_c_check0; assumption.
  Qed.

  Lemma setitem_unary key x : unary (fun v => OSetitem v key x).
  Proof.
    split; [bare|]. intros k p s K F HO. cbn [run_op]. ee.
    apply relg_item with (operation := fun (sd : bool) (f : nat) w => i_op (I sd f) k (OSetitem w key x)); assumption.
  Qed.

  Lemma delitem_unary key : unary (fun v => ODelitem v key).
  Proof.
    split; [bare|]. intros k p s K F HO. cbn [run_op]. ee.
    apply relg_item with (operation := fun (sd : bool) (f : nat) w => i_op (I sd f) k (ODelitem w key)); assumption.
  Qed.

  Lemma contains_unary key : unary (fun v => OContains v key).
  Proof.
    split; [bare|]. intros k p s K F HO. cbn [run_op]. ee.
    apply relg_impl with (p := fun (sd : bool) (f : nat) =>
        r <- py_check_name (EE sd) (I sd f) p "__contains__" (fun w => i_op (I sd f) k (OContains w key)) ;;
        b <- truth (I sd f) r ;; ret (VBool b))
      (q := fun (sd : bool) (f : nat) => c_check0 (I sd f) p MCheck "__contains__"
              (fun w => i_op (I sd f) k (OContains w key))); intros _.
    - eapply relg_bind with (k := fun (sd : bool) (f : nat) r => b <- truth (I sd f) r ;; ret (VBool b));
        [apply relg_py_check_name with (operation := fun (sd : bool) (f : nat) w => i_op (I sd f) k (OContains w key));
         [exact HO|exact F]|].
      intros v s1 K1 F1 _ _.
      eapply relg_bind with (k := fun (_ : bool) (_ : nat) b => ret (VBool b)); [apply relg_truth, F1|].
      intros b s2 K2 F2 _ _. apply relg_ret; [exact F2|exact Logic.I].
    - apply relg_c_check0 with (operation := fun (sd : bool) (f : nat) w => i_op (I sd f) k (OContains w key)); assumption.
  Qed.

  Lemma len_unary : unary OLen.
  Proof.
    split; [bare|]. intros k p s K F HO. cbn [run_op]. ee.
    apply relg_impl with (p := fun (sd : bool) (f : nat) =>
        py_check_name_nowrap (I sd f) p "__len__" (fun w => i_op (I sd f) k (OLen w)))
      (q := fun (sd : bool) (f : nat) => c_check0 (I sd f) p MCheck "__len__" (fun w => i_op (I sd f) k (OLen w)));
      intros _.
    - apply relg_py_check_name_nowrap with (operation := fun (sd : bool) (f : nat) w => i_op (I sd f) k (OLen w)); assumption.
    - apply relg_c_check0 with (operation := fun (sd : bool) (f : nat) w => i_op (I sd f) k (OLen w)); assumption.
  Qed.

  Lemma hash_unary : unary OHash.
  Proof.
    split; [bare|]. intros k p s K F HO. cbn [run_op]. unfold py_hash.
    assert (X : relg (fun sd f => wc <- pget p ;; i_op (I sd f) k (OHash (fst wc))) s K knownv).
    { apply relg_with_parts with (k := fun (sd : bool) (f : nat) wc => i_op (I sd f) k (OHash (fst wc))); [exact F|].
      intros w c _ Hw _ _. cbn [fst snd]. apply (HO w s K Hw F). }
    ee. apply relg_impl with (p := fun (sd : bool) (f : nat) => wc <- pget p ;; i_op (I sd f) k (OHash (fst wc)))
      (q := fun (sd : bool) (f : nat) => wc <- pget p ;; i_op (I sd f) k (OHash (fst wc))); intros _; exact X.
  Qed.

  Lemma delattr_unary n : unary (fun v => ODelattr v n).
  Proof.
    split; [bare|]. intros k p s K F HO. cbn [run_op]. unfold proxy_delattr, py_delattr. ee.
    apply relg_impl with (p := fun (sd : bool) (f : nat) =>
        if String.eqb n "_wrapped" || String.eqb n "_checker" then raise (EAttribute "")
        else wc <- pget p ;; i_check (I sd f) MSetattr (snd wc) (fst wc) n ;;;
             i_op (I sd f) k (ODelattr (fst wc) n))
      (q := fun (sd : bool) (f : nat) => c_check0 (I sd f) p MSetattr n (fun w => i_op (I sd f) k (ODelattr w n)));
      intros _.
    - destruct (String.eqb n "_wrapped" || String.eqb n "_checker");
        [apply relg_raise; [exact F|discriminate]|].
      apply relg_with_parts with (k := fun (sd : bool) (f : nat) wc =>
        i_check (I sd f) MSetattr (snd wc) (fst wc) n ;;; i_op (I sd f) k (ODelattr (fst wc) n)); [exact F|].
      intros w c _ Hw _ _. cbn [fst snd].
      eapply relg_bind with (k := fun (sd : bool) (f : nat) _ => i_op (I sd f) k (ODelattr w n));
        [apply relg_check_bare; assumption|]. intros _ s1 K1 F1 _ _. apply (HO w s1 K1 Hw F1).
    - apply relg_c_check0 with (operation := fun (sd : bool) (f : nat) w => i_op (I sd f) k (ODelattr w n)); assumption.
  Qed.

  Lemma relg_default_repr_c w s K : Rel s K -> relg (fun sd f => default_repr_c (EE sd) (I sd f) w) s K knownv.
  Proof.
    intros F. unfold default_repr_c. ee.
    pose (fin := fun nm om => match om with
    | Some m => ret (VStr ("<security proxied " ++ name_text m ++ "." ++ name_text nm
                           ++ " instance at " ++ e_addr E w ++ ">"))
    | None => ret (VStr ("<security proxied " ++ name_text nm
                         ++ " instance at " ++ e_addr E w ++ ">"))
    end).
    eapply relg_bind with (k := fun (sd : bool) (f : nat) klass =>
      nm <- i_op (I sd f) Probe (OGetattr klass "__name__" None) ;;
      om <- catch (m <- i_op (I sd f) Probe (OGetattr klass "__module__" None) ;; ret (Some m)) (fun _ => ret None) ;;
      fin nm om); [apply relg_read, F|]. intros kl s1 K1 F1 _ _.
    eapply relg_bind with (k := fun (sd : bool) (f : nat) nm =>
      om <- catch (m <- i_op (I sd f) Probe (OGetattr kl "__module__" None) ;; ret (Some m)) (fun _ => ret None) ;;
      fin nm om); [apply relg_read, F1|]. intros nm s2 K2 F2 _ _.
    eapply relg_bind with (V := any) (k := fun (_ : bool) (_ : nat) om => fin nm om).
    - apply relg_catch with (h := fun (_ : bool) (_ : nat) _ => ret None).
      + eapply relg_bind with (k := fun (_ : bool) (_ : nat) m => ret (Some m)); [apply relg_read, F2|].
        intros m s3 K3 F3 _ _. apply relg_ret; [exact F3|exact Logic.I].
      + intros e s3 K3 F3 _ _. apply relg_ret; [exact F3|exact Logic.I].
    - intros om s3 K3 F3 _ _. unfold fin. destruct om; apply relg_ret; try exact F3; exact Logic.I.
  Qed.

  Lemma relg_default_repr_py w s K : Rel s K -> relg (fun sd f => default_repr_py (EE sd) (I sd f) w) s K knownv.
  Proof.
    intros F. unfold default_repr_py. ee.
    pose (fin := fun m nm => ret (VStr ("<security proxied " ++ name_text m ++ "." ++ name_text nm
               ++ " instance at " ++ e_addr E w ++ ">"))).
    eapply relg_bind with (k := fun (sd : bool) (f : nat) k1 =>
      m <- i_op (I sd f) Probe (OGetattr k1 "__module__" None) ;;
      k2 <- i_op (I sd f) Probe (OGetattr w "__class__" None) ;;
      nm <- i_op (I sd f) Probe (OGetattr k2 "__name__" None) ;; fin m nm); [apply relg_read, F|].
    intros k1 s1 K1 F1 _ _.
    eapply relg_bind with (k := fun (sd : bool) (f : nat) m =>
      k2 <- i_op (I sd f) Probe (OGetattr w "__class__" None) ;;
      nm <- i_op (I sd f) Probe (OGetattr k2 "__name__" None) ;; fin m nm); [apply relg_read, F1|].
    intros m s2 K2 F2 _ _.
    eapply relg_bind with (k := fun (sd : bool) (f : nat) k2 =>
      nm <- i_op (I sd f) Probe (OGetattr k2 "__name__" None) ;; fin m nm); [apply relg_read, F2|].
    intros k2 s3 K3 F3 _ _.
    eapply relg_bind with (k := fun (_ : bool) (_ : nat) nm => fin m nm); [apply relg_read, F3|].
    intros nm s4 K4 F4 _ _. apply relg_ret; [exact F4|exact Logic.I].
  Qed.

  Lemma relg_str_like p n operation s K :
    inner operation -> Rel s K ->
    relg (fun sd f => match e_impl E with
                   | ImplPy => py_str_like (EE sd) (I sd f) p n (operation sd f)
                   | ImplC => c_str_like (EE sd) (I sd f) p n (operation sd f)
                   end) s K knownv.
  Proof.
    intros HO F.
    apply relg_impl with (p := fun (sd : bool) (f : nat) => py_str_like (EE sd) (I sd f) p n (operation sd f))
      (q := fun (sd : bool) (f : nat) => c_str_like (EE sd) (I sd f) p n (operation sd f)); intros _.
    - unfold py_str_like. apply relg_catch with (h := fun (sd : bool) (f : nat) e =>
        if is_type_error e then raise e else wc <- pget p ;; default_repr_py (EE sd) (I sd f) (fst wc)).
      + apply relg_py_check_name; assumption.
      + intros e s1 K1 F1 _ He. destruct (is_type_error e); [apply relg_raise; assumption|].
        apply relg_with_parts with (k := fun (sd : bool) (f : nat) wc => default_repr_py (EE sd) (I sd f) (fst wc));
          [exact F1|]. intros w c _ _ _ _. cbn [fst snd]. apply relg_default_repr_py, F1.
    - unfold c_str_like. eapply relg_bind with (V := any) (k := fun (sd : bool) (f : nat) (ok : bool) =>
        wc <- pget p ;; if ok then operation sd f (fst wc) else default_repr_c (EE sd) (I sd f) (fst wc)).
      + apply relg_catch with (h := fun (_ : bool) (_ : nat) _ => ret false).
        * eapply relg_bind with (k := fun (_ : bool) (_ : nat) _ => ret true); [apply relg_c_check, F|].
          intros _ s1 K1 F1 _ _. apply relg_ret; [exact F1|exact Logic.I].
        * intros e s1 K1 F1 _ _. apply relg_ret; [exact F1|exact Logic.I].
      + intros ok s1 K1 F1 _ _. apply relg_with_parts with (k := fun (sd : bool) (f : nat) wc =>
          if ok then operation sd f (fst wc) else default_repr_c (EE sd) (I sd f) (fst wc)); [exact F1|].
        intros w c _ Hw _ _. cbn [fst snd].
        destruct ok; [apply HO; assumption|apply relg_default_repr_c, F1].
  Qed.

  Lemma str_unary : unary OStr.
  Proof.
    split; [bare|]. intros k p s K F HO. cbn [run_op]. ee.
    eapply relg_bind with (k := fun (_ : bool) (_ : nat) r => coerce (OStr (VProxy p)) r);
      [apply relg_str_like with (operation := fun (sd : bool) (f : nat) w => i_op (I sd f) k (OStr w)); assumption|].
    intros v s1 K1 F1 _ Hv. apply relg_coerce; assumption.
  Qed.

  Lemma repr_unary : unary ORepr.
  Proof.
    split; [bare|]. intros k p s K F HO. cbn [run_op]. ee.
    eapply relg_bind with (k := fun (_ : bool) (_ : nat) r => coerce (ORepr (VProxy p)) r);
      [apply relg_str_like with (operation := fun (sd : bool) (f : nat) w => i_op (I sd f) k (ORepr w)); assumption|].
    intros v s1 K1 F1 _ Hv. apply relg_coerce; assumption.
  Qed.

  Lemma lenhint_unary : unary OLenHint.
  Proof.
    split; [bare|]. intros k p s K F _. cbn [run_op]. unfold py_length_hint, c_length_hint. ee.
    apply relg_impl with (p := fun (sd : bool) (f : nat) => wc <- pget p ;;
        oh <- catch (h <- i_op (I sd f) k (OGetattr (fst wc) "__length_hint__" (Some (VProxy p))) ;; ret (Some h))
                (fun e => if is_attribute_error e then ret None else raise e) ;;
        match oh with None => ret VNotImpl | Some h => i_op (I sd f) k (OCall h []) end)
      (q := fun (sd : bool) (f : nat) => wc <- pget p ;;
        catch (h <- i_op (I sd f) k (OGetattr (fst wc) "__length_hint__" None) ;; i_op (I sd f) k (OCall h []))
          (fun e => if is_attribute_error e then ret VNotImpl else raise e)); intros _.
    - apply relg_with_parts with (k := fun (sd : bool) (f : nat) wc =>
        oh <- catch (h <- i_op (I sd f) k (OGetattr (fst wc) "__length_hint__" (Some (VProxy p))) ;; ret (Some h))
                (fun e => if is_attribute_error e then ret None else raise e) ;;
        match oh with None => ret VNotImpl | Some h => i_op (I sd f) k (OCall h []) end); [exact F|].
      intros w c _ _ _ _. cbn [fst snd].
      eapply relg_bind with (V := any) (k := fun (sd : bool) (f : nat) oh =>
        match oh with None => ret VNotImpl | Some h => i_op (I sd f) k (OCall h []) end).
      + apply relg_catch with (h := fun (_ : bool) (_ : nat) e => if is_attribute_error e then ret None else raise e).
        * eapply relg_bind with (k := fun (_ : bool) (_ : nat) h => ret (Some h)); [apply relg_read, F|].
          intros h s1 K1 F1 _ _. apply relg_ret; [exact F1|exact Logic.I].
        * intros e s1 K1 F1 _ He. apply relg_reraise; auto. exact Logic.I.
      + intros oh s1 K1 F1 _ _. destruct oh as [h|].
        * apply (relg_unary _ (call_unary [])), F1.
        * apply relg_ret; [exact F1|exact Logic.I].
    - apply relg_with_parts with (k := fun (sd : bool) (f : nat) wc =>
        catch (h <- i_op (I sd f) k (OGetattr (fst wc) "__length_hint__" None) ;; i_op (I sd f) k (OCall h []))
          (fun e => if is_attribute_error e then ret VNotImpl else raise e)); [exact F|].
      intros w c _ _ _ _. cbn [fst snd].
      apply relg_catch with (h := fun (_ : bool) (_ : nat) e => if is_attribute_error e then ret VNotImpl else raise e).
      + eapply relg_bind with (k := fun (sd : bool) (f : nat) h => i_op (I sd f) k (OCall h [])); [apply relg_read, F|].
        intros h s1 K1 F1 _ _. apply (relg_unary _ (call_unary [])), F1.
      + intros e s1 K1 F1 _ He. apply relg_reraise; auto. exact Logic.I.
  Qed.

  (** *** Operators with several operands *)

  (** An operation on values none of which is a proxy. *)
  Lemma relg_all_bare k o s K :
    (forall (sd : bool) f, run_op (EE sd) (I sd f) k o = raw (EE sd) k o) ->
    Rel s K -> relg (fun sd f => i_op (I sd f) k o) s K knownv.
  Proof.
    intros H F. apply relg_S. cbn [interp_n i_op].
    apply relg_ext with (m := fun (sd : bool) (_ : nat) => raw (EE sd) k o); [| |apply relg_raw, F].
    - intros f. exact (f_equal (fun m => m s) (H false f)).
    - intros f. exact (f_equal (fun m => m (set_chks K s)) (H true f)).
  Qed.

  (** A foreign attempt first, the proxy's reflected method if that returns NotImplemented. *)
  Lemma relg_reflected k o (m : bool -> nat -> M value) s K :
    Rel s K -> (forall s1 K1, Rel s1 K1 -> relg m s1 K1 knownv) ->
    relg (fun sd f => v <- raw (EE sd) k o ;; if value_eqb v VNotImpl then m sd f else ret v) s K knownv.
  Proof.
    intros F H. eapply relg_bind with (m := fun (sd : bool) (_ : nat) => raw (EE sd) k o)
      (k := fun (sd : bool) (f : nat) v => if value_eqb v VNotImpl then m sd f else ret v); [apply relg_raw, F|].
    intros v s1 K1 F1 _ Hv. destruct (value_eqb v VNotImpl); [apply H, F1|apply relg_ret; assumption].
  Qed.

  Lemma relg_bin_bare_l k b l r s K :
    is_proxy l = false -> Rel s K -> relg (fun sd f => i_op (I sd f) k (OBin b l r)) s K knownv.
  Proof.
    intros Hl F. destruct (is_proxy r) eqn:Hr.
    - destruct r; try discriminate Hr. apply relg_S. cbn [interp_n i_op].
      eapply relg_ext; [| |apply (relg_reflected k (OBin b l (VProxy p))
        (fun sd f => proxy_bin_right (EE sd) (I sd f) k p b l) s K F)].
      + intros f. destruct l; try discriminate Hl; reflexivity.
      + intros f. destruct l; try discriminate Hl; reflexivity.
      + intros s1 K1 F1. unfold proxy_bin_right. ee.
        apply relg_guard with (operation := fun (sd : bool) (f : nat) w => i_op (I sd f) k (OBin b l w)); [|exact F1].
        intros w s2 K2 Hw F2. apply relg_all_bare; [|exact F2].
        intros sd f. destruct l; try discriminate Hl; destruct w; try discriminate Hw; reflexivity.
    - apply relg_all_bare; [|exact F]. intros sd f.
      destruct l; try discriminate Hl; destruct r; try discriminate Hr; reflexivity.
  Qed.

  Lemma relg_bin k b l r s K : Rel s K -> relg (fun sd f => i_op (I sd f) k (OBin b l r)) s K knownv.
  Proof.
    intros F. destruct (is_proxy l) eqn:Hl; [|apply relg_bin_bare_l; assumption].
    destruct l; try discriminate Hl. apply relg_S. cbn [interp_n i_op run_op]. unfold proxy_bin_left. ee.
    apply relg_guard with (operation := fun (sd : bool) (f : nat) w => i_op (I sd f) k (OBin b w r)); [|exact F].
    intros w s1 K1 Hw F1. apply relg_bin_bare_l; assumption.
  Qed.

  Lemma relg_pow_none k a b m s K :
    is_proxy a = false -> is_proxy b = false -> is_proxy m = false -> Rel s K ->
    relg (fun sd f => i_op (I sd f) k (OPow3 a b m)) s K knownv.
  Proof.
    intros Ha Hb Hm F. apply relg_all_bare; [|exact F]. intros sd f. cbn [run_op]. unfold proxy_pow3.
    rewrite Hb, Hm. destruct a; try reflexivity. discriminate Ha.
  Qed.

  (** Only the second or the third argument may be a proxy. *)
  Lemma relg_pow_ba k a b m s K (next : bool -> nat -> M value) :
    is_proxy a = false -> is_proxy b || is_proxy m = true -> Rel s K ->
    (forall (sd : bool) f v, next sd f = match b, m with
                | VProxy p, _ => c_check1 (EE sd) (I sd f) p MCheck "__rpow__" (fun w => i_op (I sd f) k (OPow3 a w m))
                | _, VProxy p => c_check1 (EE sd) (I sd f) p MCheck "__3pow__" (fun w => i_op (I sd f) k (OPow3 a b w))
                | _, _ => ret v end) ->
    (forall s1 K1, Rel s1 K1 -> relg next s1 K1 knownv) ->
    relg (fun sd f => i_op (I sd f) k (OPow3 a b m)) s K knownv.
  Proof.
    intros Ha Hbm F Hn HR. apply relg_S. cbn [interp_n i_op run_op]. unfold proxy_pow3. ee. rewrite Hbm.
    eapply relg_ext; [| |apply (relg_reflected k (OPow3 a b m) (fun sd f => match e_impl E with
      | ImplPy => raise (EType "unsupported operand type(s) for pow()") | ImplC => next sd f end) s K F)].
    - intros f. transitivity ((v <- raw (EE false) k (OPow3 a b m) ;;
        if value_eqb v VNotImpl then match e_impl E with
          | ImplPy => raise (EType "unsupported operand type(s) for pow()")
          | ImplC => match b, m with
                | VProxy p, _ => c_check1 (EE false) (I false f) p MCheck "__rpow__" (fun w => i_op (I false f) k (OPow3 a w m))
                | _, VProxy p => c_check1 (EE false) (I false f) p MCheck "__3pow__" (fun w => i_op (I false f) k (OPow3 a b w))
                | _, _ => ret v end
          end else ret v) s).
      + destruct a; try reflexivity. discriminate Ha.
      + unfold bind. destruct (raw (EE false) k (OPow3 a b m) s) as [[[v|e] s1] t1]; [|reflexivity].
        rewrite (Hn false f v). reflexivity.
    - intros f. transitivity ((v <- raw (EE true) k (OPow3 a b m) ;;
        if value_eqb v VNotImpl then match e_impl E with
          | ImplPy => raise (EType "unsupported operand type(s) for pow()")
          | ImplC => match b, m with
                | VProxy p, _ => c_check1 (EE true) (I true f) p MCheck "__rpow__" (fun w => i_op (I true f) k (OPow3 a w m))
                | _, VProxy p => c_check1 (EE true) (I true f) p MCheck "__3pow__" (fun w => i_op (I true f) k (OPow3 a b w))
                | _, _ => ret v end
          end else ret v) (set_chks K s)).
      + destruct a; try reflexivity. discriminate Ha.
      + unfold bind. destruct (raw (EE true) k (OPow3 a b m) (set_chks K s)) as [[[v|e] s1] t1]; [|reflexivity].
        rewrite (Hn true f v). reflexivity.
    - intros s1 K1 F1. apply relg_impl with (p := fun (_ : bool) (_ : nat) =>
        raise (EType "unsupported operand type(s) for pow()")) (q := next); intros _.
      + apply relg_raise; [exact F1|discriminate].
      + apply HR, F1.
  Qed.

  Lemma relg_pow_ab k a b m s K :
    is_proxy a = false -> is_proxy b = false -> Rel s K ->
    relg (fun sd f => i_op (I sd f) k (OPow3 a b m)) s K knownv.
  Proof.
    intros Ha Hb F. destruct (is_proxy m) eqn:Hm; [|apply relg_pow_none; assumption].
    destruct m; try discriminate Hm.
    apply relg_pow_ba with (next := fun (sd : bool) (f : nat) =>
      c_check1 (EE sd) (I sd f) p MCheck "__3pow__" (fun w => i_op (I sd f) k (OPow3 a b w)));
      [exact Ha|rewrite Hb; reflexivity|exact F| |].
    - intros sd f v. destruct b; try reflexivity. discriminate Hb.
    - intros s1 K1 F1. apply relg_c_check1 with (operation := fun (sd : bool) (f : nat) w => i_op (I sd f) k (OPow3 a b w));
        [|exact F1]. intros w s2 K2 Hw F2. apply relg_pow_none; assumption.
  Qed.

  Lemma relg_pow_a k a b m s K :
    is_proxy a = false -> Rel s K -> relg (fun sd f => i_op (I sd f) k (OPow3 a b m)) s K knownv.
  Proof.
    intros Ha F. destruct (is_proxy b) eqn:Hb; [|apply relg_pow_ab; assumption].
    destruct b; try discriminate Hb.
    apply relg_pow_ba with (next := fun (sd : bool) (f : nat) =>
      c_check1 (EE sd) (I sd f) p MCheck "__rpow__" (fun w => i_op (I sd f) k (OPow3 a w m))); [exact Ha|reflexivity|exact F| |].
    - intros sd f v. reflexivity.
    - intros s1 K1 F1. apply relg_c_check1 with (operation := fun (sd : bool) (f : nat) w => i_op (I sd f) k (OPow3 a w m));
        [|exact F1]. intros w s2 K2 Hw F2. apply relg_pow_ab; assumption.
  Qed.

  Lemma relg_pow k a b m s K : Rel s K -> relg (fun sd f => i_op (I sd f) k (OPow3 a b m)) s K knownv.
  Proof.
    intros F. destruct (is_proxy a) eqn:Ha; [|apply relg_pow_a; assumption].
    destruct a; try discriminate Ha. apply relg_S. cbn [interp_n i_op run_op]. unfold proxy_pow3.
    apply relg_guard with (operation := fun (sd : bool) (f : nat) w => i_op (I sd f) k (OPow3 w b m)); [|exact F].
    intros w s1 K1 Hw F1. apply relg_pow_a; assumption.
  Qed.

  (** Comparisons: the method of a proxy, given that the comparison of what it wraps is fine. *)
  Lemma relg_compare k c p other s K :
    (forall w s1 K1, is_proxy w = false -> Rel s1 K1 ->
       relg (fun sd f => i_op (I sd f) k (OCmp c w other)) s1 K1 knownv) ->
    Rel s K ->
    relg (fun sd f => match e_impl E with
                     | ImplPy => py_compare (I sd f) k p c other
                     | ImplC => c_richcompare (EE sd) (I sd f) k p c other
                     end) s K knownv.
  Proof.
    intros H F. apply relg_impl with (p := fun (sd : bool) (f : nat) => py_compare (I sd f) k p c other)
      (q := fun (sd : bool) (f : nat) => c_richcompare (EE sd) (I sd f) k p c other); intros _.
    - unfold py_compare.
      apply relg_with_parts with (k := fun (sd : bool) (f : nat) wc => i_op (I sd f) k (OCmp c (fst wc) other)); [exact F|].
      intros w ch _ Hw _ _. cbn [fst snd]. apply H; assumption.
    - unfold c_richcompare.
      apply relg_with_parts with (k := fun (sd : bool) (f : nat) wc => r <- i_op (I sd f) k (OCmp c (fst wc) other) ;;
        match r with VBool _ => ret r | _ => c_proxy_result (EE sd) (I sd f) p r end); [exact F|].
      intros w ch _ Hw _ _. cbn [fst snd].
      eapply relg_bind with (k := fun (sd : bool) (f : nat) r =>
        match r with VBool _ => ret r | _ => c_proxy_result (EE sd) (I sd f) p r end); [apply H; assumption|].
      intros v s1 K1 F1 _ Hv.
      destruct v; try (apply relg_c_proxy_result; assumption). apply relg_ret; [exact F1|exact Logic.I].
  Qed.

  Lemma relg_cmp_bare_l k c l r s K :
    is_proxy l = false -> Rel s K -> relg (fun sd f => i_op (I sd f) k (OCmp c l r)) s K knownv.
  Proof.
    intros Hl F. destruct (is_proxy r) eqn:Hr.
    - destruct r; try discriminate Hr. apply relg_S. cbn [interp_n i_op].
      eapply relg_ext; [| |apply (relg_reflected k (OCmp c l (VProxy p)) (fun sd f => match e_impl E with
                     | ImplPy => py_compare (I sd f) k p (swap_cmp c) l
                     | ImplC => c_richcompare (EE sd) (I sd f) k p (swap_cmp c) l
                     end) s K F)].
      + intros f. destruct l; try discriminate Hl; reflexivity.
      + intros f. destruct l; try discriminate Hl; reflexivity.
      + intros s1 K1 F1. apply relg_compare; [|exact F1].
        intros w s2 K2 Hw F2. apply relg_all_bare; [|exact F2].
        intros sd f. destruct l; try discriminate Hl; destruct w; try discriminate Hw; reflexivity.
    - apply relg_all_bare; [|exact F]. intros sd f.
      destruct l; try discriminate Hl; destruct r; try discriminate Hr; reflexivity.
  Qed.

  Lemma relg_cmp k c l r s K : Rel s K -> relg (fun sd f => i_op (I sd f) k (OCmp c l r)) s K knownv.
  Proof.
    intros F. destruct (is_proxy l) eqn:Hl; [|apply relg_cmp_bare_l; assumption].
    destruct l; try discriminate Hl. apply relg_S. cbn [interp_n i_op run_op]. ee. apply relg_compare; [|exact F].
    intros w s1 K1 Hw F1. apply relg_cmp_bare_l; assumption.
  Qed.

  Lemma relg_in_bare_l k b l r s K :
    is_proxy l = false -> Rel s K -> relg (fun sd f => i_op (I sd f) k (OIn b l r)) s K knownv.
  Proof.
    intros Hl F. destruct (is_proxy r) eqn:Hr.
    - destruct r; try discriminate Hr. apply relg_S. cbn [interp_n i_op].
      eapply relg_ext; [| |apply (relg_reflected k (OIn b l (VProxy p))
        (fun sd f => proxy_bin_right (EE sd) (I sd f) k p (inop_bin b) l) s K F)].
      + intros f. destruct l; try discriminate Hl; reflexivity.
      + intros f. destruct l; try discriminate Hl; reflexivity.
      + intros s1 K1 F1. unfold proxy_bin_right. ee.
        apply relg_guard with (operation := fun (sd : bool) (f : nat) w => i_op (I sd f) k (OBin (inop_bin b) l w));
          [|exact F1]. intros w s2 K2 Hw F2. apply relg_bin, F2.
    - apply relg_all_bare; [|exact F]. intros sd f.
      destruct l; try discriminate Hl; destruct r; try discriminate Hr; reflexivity.
  Qed.

  Lemma relg_in k b l r s K :
    Rel s K -> (is_proxy l = true -> e_impl E = ImplC) ->
    relg (fun sd f => i_op (I sd f) k (OIn b l r)) s K knownv.
  Proof.
    intros F HC. destruct (is_proxy l) eqn:Hl; [|apply relg_in_bare_l; assumption].
    destruct l; try discriminate Hl. apply relg_S. cbn [interp_n i_op run_op]. unfold proxy_inplace. ee.
    apply relg_impl with (p := fun (sd : bool) (f : nat) => py_check_name_inplace (I sd f) k p (py_inop_name b) r)
      (q := fun (sd : bool) (f : nat) => c_check2i (EE sd) (I sd f) p (c_inop_name b)
               (fun w => i_op (I sd f) k (OIn b w r))).
    - intros X. rewrite X in HC. discriminate (HC eq_refl).
    - intros _. unfold c_check2i.
      eapply relg_bind with (k := fun (sd : bool) (f : nat) _ => wc <- pget p ;;
        r0 <- i_op (I sd f) k (OIn b (fst wc) r) ;; wc2 <- pget p ;;
        if value_eqb r0 (fst wc2) then ret (VProxy p) else c_proxy_result (EE sd) (I sd f) p r0);
        [apply relg_c_check, F|].
      intros _ s1 K1 F1 _ _.
      apply relg_with_parts with (k := fun (sd : bool) (f : nat) wc =>
        r0 <- i_op (I sd f) k (OIn b (fst wc) r) ;; wc2 <- pget p ;;
        if value_eqb r0 (fst wc2) then ret (VProxy p) else c_proxy_result (EE sd) (I sd f) p r0); [exact F1|].
      intros w c _ Hw _ _. cbn [fst snd].
      eapply relg_bind with (k := fun (sd : bool) (f : nat) r0 => wc2 <- pget p ;;
        if value_eqb r0 (fst wc2) then ret (VProxy p) else c_proxy_result (EE sd) (I sd f) p r0);
        [apply relg_in_bare_l; assumption|].
      intros v s2 K2 F2 _ Hv.
      apply relg_with_parts with (k := fun (sd : bool) (f : nat) wc2 =>
        if value_eqb v (fst wc2) then ret (VProxy p) else c_proxy_result (EE sd) (I sd f) p v); [exact F2|].
      intros w' c' Hp' _ _ _. cbn [fst snd]. destruct (value_eqb v w').
      + apply relg_ret; [exact F2|]. destruct (fd_proxy s2 (rel_founded s2 K2 F2) p w' c' Hp') as (X & _). exact X.
      + apply relg_c_proxy_result; assumption.
  Qed.

  Lemma relg_setattr_bare k v n x s K :
    is_proxy v = false -> Rel s K -> known s x ->
    relg (fun sd f => i_op (I sd f) k (OSetattr v n x)) s K knownv.
  Proof.
    intros Hp F Hx. apply relg_S. cbn [interp_n i_op].
    destruct v; try discriminate Hp; try (apply relg_raw, F). cbn [run_op]. unfold deco_setattr.
    destruct (String.eqb n "__Security_checker__"); [apply relg_raise; [exact F|discriminate]|].
    destruct (st_decos s d) as [y|] eqn:Hy.
    2: { apply relg_ext with (m := fun _ _ => raise (EType "dangling decorator"));
           [| |apply relg_raise; [exact F|discriminate]]; intros f; rewrite bind_get.
         - rewrite Hy. reflexivity.
         - change (st_decos (set_chks K s) d) with (st_decos s d). rewrite Hy. reflexivity. }
    destruct (String.eqb n "__parent__" && String.eqb (dc_class y) "LocationProxy") eqn:Hb.
    2: { apply relg_ext with (m := fun (sd : bool) (_ : nat) => raw (EE sd) k (OSetattr (VDeco d) n x));
           [| |apply relg_raw, F]; intros f; rewrite bind_get.
         - rewrite Hy, Hb. reflexivity.
         - change (st_decos (set_chks K s) d) with (st_decos s d). rewrite Hy, Hb. reflexivity. }
    pose proof (rel_founded s K F) as Fd. destruct (fd_deco s Fd d y Hy) as (K1 & K2 & K3).
    exists 0, (Ok VNone), (set_decos (upd (st_decos s) d (Some (mkDeco (dc_class y) (dc_obj y) x))) s), [], K, [].
    split. { intros f _. rewrite bind_get, Hy, Hb. reflexivity. }
    split. { intros f _. rewrite bind_get. change (st_decos (set_chks K s) d) with (st_decos s d).
             rewrite Hy, Hb. reflexivity. }
    split; [discriminate|].
    split; [|split; [constructor|split; [apply le_n|intros a Ha; injection Ha as <-; exact Logic.I]]].
    split.
    - reflexivity.
    - exact (mt_checkers E _ _ F).
    - split; simpl.
      + exact (fd_next s Fd).
      + exact (fd_proxy s Fd).
      + intros e z H. unfold upd in H. destruct (Nat.eqb_spec e d) as [->|He].
        * injection H as <-. simpl. auto.
        * exact (fd_deco s Fd e z H).
      + exact (fd_checker s Fd).
      + exact (fd_registry s Fd).
    - exact (mt_bare E _ _ F).
    - exact (mt_public E _ _ F).
  Qed.

  Lemma relg_setattr k v n x s K :
    Rel s K -> known s x -> (e_impl E = ImplPy -> n <> "_wrapped" /\ n <> "_checker") ->
    relg (fun sd f => i_op (I sd f) k (OSetattr v n x)) s K knownv.
  Proof.
    intros F Hx Hn. destruct (is_proxy v) eqn:Hp; [|apply relg_setattr_bare; assumption].
    destruct v; try discriminate Hp. apply relg_S. cbn [interp_n i_op run_op]. unfold proxy_setattr. ee.
    apply relg_impl with (p := fun (sd : bool) (f : nat) => py_setattr (I sd f) k p n x)
      (q := fun (sd : bool) (f : nat) => c_check0 (I sd f) p MSetattr n (fun w => i_op (I sd f) k (OSetattr w n x))).
    - intros HP. unfold py_setattr. destruct (Hn HP) as [N1 N2].
      apply String.eqb_neq in N1. apply String.eqb_neq in N2. rewrite N1, N2.
      apply relg_with_parts with (k := fun (sd : bool) (f : nat) wc =>
        i_check (I sd f) MSetattr (snd wc) (fst wc) n ;;; i_op (I sd f) k (OSetattr (fst wc) n x)); [exact F|].
      intros w c _ Hw _ _. cbn [fst snd].
      eapply relg_bind with (k := fun (sd : bool) (f : nat) _ => i_op (I sd f) k (OSetattr w n x));
        [apply relg_check_bare; assumption|]. intros _ s1 K1 F1 L1 _.
      apply relg_setattr_bare; [exact Hw|exact F1|]. eapply known_mono; eassumption.
    - intros _. unfold c_check0.
      eapply relg_bind with (k := fun (sd : bool) (f : nat) _ => wc <- pget p ;; i_op (I sd f) k (OSetattr (fst wc) n x));
        [apply relg_c_check, F|]. intros _ s1 K1 F1 L1 _.
      apply relg_with_parts with (k := fun (sd : bool) (f : nat) wc => i_op (I sd f) k (OSetattr (fst wc) n x)); [exact F1|].
      intros w c _ Hw _ _. cbn [fst snd].
      apply relg_setattr_bare; [exact Hw|exact F1|]. eapply known_mono; eassumption.
  Qed.

  (** *** All operations *)

  Lemma relg_op k o s K :
    Rel s K -> keeps_proxies E s o -> relg (fun sd f => i_op (I sd f) k o) s K knownv.
  Proof.
    intros F H. destruct o as [v n fr|v n w|v n|v args|u v|u v|b l r|x y z|b l r|v key|v key w|v key|v key
      |v|v|v|v|v|c v w|v|v|v].
    - apply relg_read, F.
    - destruct H as [Hw Hn]. apply relg_setattr; assumption.
    - apply (relg_unary _ (delattr_unary n)), F.
    - apply (relg_unary _ (call_unary args)), F.
    - apply (relg_unary _ (un_unary u)), F.
    - apply (relg_unary _ (unx_unary u)), F.
    - apply relg_bin, F.
    - apply relg_pow, F.
    - apply relg_in; [exact F|]. intros Hl. destruct l; try discriminate Hl. exact H.
    - apply (relg_unary _ (getitem_unary key)), F.
    - apply (relg_unary _ (setitem_unary key w)), F.
    - apply (relg_unary _ (delitem_unary key)), F.
    - apply (relg_unary _ (contains_unary key)), F.
    - apply (relg_unary _ len_unary), F.
    - apply (relg_unary _ iter_unary), F.
    - apply (relg_unary _ next_unary), F.
    - apply (relg_unary _ hash_unary), F.
    - apply relg_bool, F.
    - apply relg_cmp, F.
    - apply (relg_unary _ str_unary), F.
    - apply (relg_unary _ repr_unary), F.
    - apply (relg_unary _ lenhint_unary), F.
  Qed.

  (** *** ProxyFactory *)

  Lemma relg_ProxyFactory obj c s K :
    Rel s K -> known s obj -> known s c -> relg (fun sd f => ProxyFactory (EE sd) (I sd f) obj c) s K knownv.
  Proof.
    intros F Ko Kc. unfold ProxyFactory. destruct (is_proxy obj) eqn:Hp.
    - assert (X : relg (fun _ _ => c0 <- getChecker obj ;; if value_eqb c c0 then ret obj
        else raise (EType "Tried to use ProxyFactory to change a Proxy's checker.")) s K knownv).
      { destruct obj; try discriminate Hp.
        eapply relg_bind with (m := fun (_ : bool) (_ : nat) => getChecker (VProxy p))
          (k := fun (_ : bool) (_ : nat) c0 => if value_eqb c c0 then ret (VProxy p)
             else raise (EType "Tried to use ProxyFactory to change a Proxy's checker.")); [apply relg_getChecker, F|].
        intros c0 s1 K1 F1 L1 _. destruct (value_eqb c c0); [|apply relg_raise; [exact F1|discriminate]].
        apply relg_ret; [exact F1|]. eapply known_mono; eassumption. }
      destruct c; try exact X. apply relg_ret; assumption.
    - destruct c; try (apply relg_new_proxy; assumption).
      eapply relg_bind with (k := fun (sd : bool) (f : nat) c1 => match c1 with
        | VNone => oc <- selectChecker (EE sd) (I sd f) obj ;;
                   match oc with None => ret obj | Some c2 => new_proxy obj c2 end
        | _ => new_proxy obj c1 end); [apply relg_getattr_sec; assumption|]. intros c1 s1 K1 F1 L1 Hc1.
      assert (Ko1 : known s1 obj) by (eapply known_mono; eassumption).
      destruct c1; try (apply relg_new_proxy; assumption). apply relg_select_then; assumption.
  Qed.

  (** *** In the words of the specification *)

  Lemma relg_alike {A} (m : bool -> nat -> M A) s0 s (V : A -> state -> Prop) :
    matches E s0 s -> (forall K, Rel s0 K -> relg m s0 K V) ->
    alike E (m false) (m true) s0 s.
  Proof.
    intros M H. pose proof (mt_rest E s0 s M) as Hs.
    assert (F : Rel s0 (st_chks s)) by (unfold Rel; rewrite <- Hs; exact M).
    destruct (H (st_chks s) F) as (n & r & s0' & t0 & K' & t & H0 & H1 & Hr & F' & L & _).
    exists n, r, s0', t0, (set_chks K' s0'), t.
    split; [exact H0|]. split; [rewrite Hs; exact H1|]. split; [exact Hr|]. split; [exact F'|exact L].
  Qed.

  Lemma relg_session c : forall s K, careful E c s -> Rel s K ->
    relg (fun sd f => session (EE sd) f c) s K any.
  Proof.
    induction c as [|o k IH]; intros s K HC F.
    - apply (relg_ret (A := list (res value)) [] s K any F Logic.I).
    - destruct HC as [Ho Hk].
      destruct (relg_op Client o s K F Ho) as (n & r & s1 & t0 & K1 & t & H0 & H1 & Hr & F1 & L & N & Hv).
      destruct (IH r s1 K1 (Hk r s1 N Hv) F1)
        as (n' & r' & s2 & t0' & K2 & t' & H0' & H1' & Hr' & F2 & L' & N' & _).
      exists (Nat.max n n'), (match r' with Ok l => Ok (r :: l) | Exc e => Exc e end), s2,
        (t0 ++ t0')%list, K2, (t ++ t')%list.
      split. { intros f Hf. cbn [session]. unfold perform. rewrite H0 by lia. rewrite H0' by lia. reflexivity. }
      split. { intros f Hf. cbn [session]. unfold perform. rewrite H1 by lia. rewrite H1' by lia. reflexivity. }
      split; [destruct r'; [discriminate|congruence]|]. split; [exact F2|].
      split; [apply Logged_app; assumption|]. split; [lia|]. intros a _. exact Logic.I.
  Qed.
End Watch.

(** ** The theorems *)

Lemma EE_unwatched E run0 : e_watch E <> 0 -> forall A (m : env -> nat -> M A) s0 s V,
  matches E s0 s ->
  (forall K, Rel E s0 K -> relg E (fun (sd : bool) f => m
     (mkEnv (e_impl E) (e_cimpl E) (if sd then e_watch E else 0) (e_tid E) (e_type E) (e_meta E)
           (e_isexc E) (e_addr E) (if sd then e_run E else run0)) f) s0 K V) ->
  alike E (m (unwatched E run0)) (m E) s0 s.
Proof.
  intros HW A m s0 s V M H. pose proof (relg_alike E _ s0 s V M H) as X. cbv beta iota in X.
  replace (mkEnv (e_impl E) (e_cimpl E) (e_watch E) (e_tid E) (e_type E) (e_meta E)
           (e_isexc E) (e_addr E) (e_run E)) with E in X by (destruct E; reflexivity).
  exact X.
Qed.

Lemma watch_ops_lemma E run0 s0 s o :
  e_watch E <> 0 -> indifferent E run0 -> reprs E -> matches E s0 s -> keeps_proxies E s0 o ->
  alike E (fun f => perform (unwatched E run0) f o) (fun f => perform E f o) s0 s.
Proof.
  intros HW HI HR M H.
  apply (EE_unwatched E run0 HW value (fun E f => perform E f o) s0 s knownv M).
  intros K F. apply (relg_op E run0 HW HI HR Client o s0 K F H).
Qed.

Lemma watch_functions_lemma E run0 s0 s :
  e_watch E <> 0 -> indifferent E run0 -> reprs E -> matches E s0 s ->
  (forall m c obj n, is_proxy obj = false ->
     alike E (fun f => do_check (unwatched E run0) f m c obj n) (fun f => do_check E f m c obj n) s0 s) /\
  (forall obj, alike E (fun f => do_select (unwatched E run0) f obj) (fun f => do_select E f obj) s0 s) /\
  (forall obj c, known s0 obj -> known s0 c ->
     alike E (fun f => do_ProxyFactory (unwatched E run0) f obj c) (fun f => do_ProxyFactory E f obj c) s0 s) /\
  (forall c v, known s0 v ->
     alike E (fun f => do_proxy (unwatched E run0) f c v) (fun f => do_proxy E f c v) s0 s).
Proof.
  intros HW HI HR M. split; [|split; [|split]].
  - intros m c obj n Hp.
    apply (EE_unwatched E run0 HW unit (fun E f => do_check E f m c obj n) s0 s any M).
    intros K F. apply (relg_check_bare E run0 HW HI HR m c obj n s0 K Hp F).
  - intros obj. apply (EE_unwatched E run0 HW _ (fun E f => do_select E f obj) s0 s settled M).
    intros K F. apply (relg_selectChecker E run0 HW HI obj s0 K F).
  - intros obj c Ho Hc. apply (EE_unwatched E run0 HW _ (fun E f => do_ProxyFactory E f obj c) s0 s knownv M).
    intros K F. apply (relg_ProxyFactory E run0 HW HI obj c s0 K F Ho Hc).
  - intros c v Hv. apply (EE_unwatched E run0 HW _ (fun E f => do_proxy E f c v) s0 s knownv M).
    intros K F. apply (relg_checker_proxy E run0 HW HI c v s0 K F Hv).
Qed.

Lemma watch_clients_lemma E run0 s0 s c :
  e_watch E <> 0 -> indifferent E run0 -> reprs E -> matches E s0 s -> careful E c s0 ->
  alike E (fun f => session (unwatched E run0) f c) (fun f => session E f c) s0 s.
Proof.
  intros HW HI HR M H.
  apply (EE_unwatched E run0 HW _ (fun E f => session E f c) s0 s any M).
  intros K F. apply (relg_session E run0 HW HI HR c s0 K H F).
Qed.

Lemma Logged_visible t0 t : Logged t0 t -> filter visible t0 = filter visible t.
Proof.
  intros H. induction H as [|e t0 t _ IH|t0 t n v _ IH|t0 t l n v _ IH].
  - reflexivity.
  - simpl. rewrite IH. reflexivity.
  - exact IH.
  - exact IH.
Qed.
