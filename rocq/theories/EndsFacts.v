(** * EndsFacts: every operation on proxies comes to an end. *)

From Coq Require Import List String Bool Arith ZArith Lia.
From Verif Require Import Base Domain CheckerModel ProxyModel Adapter MFacts Spec RegSpec RegistryFacts EndsSpec.
Import ListNotations.
Open Scope string_scope.
Open Scope m_scope.
Local Arguments String.eqb : simpl never.

(** ** Computations indexed by a depth *)

Definition Good (s : state) {A} (V : A -> state -> Prop) (r : res A) (s' : state) : Prop :=
  founded s' /\ st_next s <= st_next s' /\ (forall a, r = Ok a -> V a s').

Definition any {A} (a : A) (s : state) : Prop := True.
Definition knownv (v : value) (s : state) : Prop := known s v.

Definition endg {A} (m : nat -> M A) (s : state) (V : A -> state -> Prop) : Prop :=
  ends_with m s (Good s V).

Lemma known_mono s s' v : st_next s <= st_next s' -> known s v -> known s' v.
Proof. destruct v; simpl; auto; lia. Qed.

Lemma ends_with_S {A} (m : nat -> M A) s Q :
  ends_with (fun f => m (S f)) s Q -> ends_with m s Q.
Proof.
  intros (n & r & s' & t & H & X). exists (S n), r, s', t. split; [|exact X].
  intros f Hf. destruct f as [|f]; [lia|]. apply H. lia.
Qed.

Lemma endg_S {A} (m : nat -> M A) s (V : A -> state -> Prop) : endg (fun f => m (S f)) s V -> endg m s V.
Proof. apply ends_with_S. Qed.

Lemma endg_weaken {A} (m : nat -> M A) s (V V' : A -> state -> Prop) :
  (forall a s', founded s' -> V a s' -> V' a s') -> endg m s V -> endg m s V'.
Proof.
  intros HV (n & r & s' & t & H & Hr & (F & L & X)). exists n, r, s', t. split; [exact H|].
  split; [exact Hr|]. split; [exact F|]. split; [exact L|]. intros a Ha. apply HV; [exact F|]. apply X, Ha.
Qed.

Lemma endg_any {A} (m : nat -> M A) s (V : A -> state -> Prop) : endg m s V -> endg m s any.
Proof. apply endg_weaken. intros; exact I. Qed.

Lemma endg_ret {A} (a : A) s (V : A -> state -> Prop) : founded s -> V a s -> endg (fun _ => ret a) s V.
Proof.
  intros F X. exists 0, (Ok a), s, []. split; [reflexivity|]. split; [discriminate|].
  split; [exact F|]. split; [lia|]. intros b Hb. injection Hb as <-. exact X.
Qed.

Lemma endg_raise {A} e s (V : A -> state -> Prop) : founded s -> e <> EFuel -> endg (fun _ => raise e) s V.
Proof.
  intros F X. exists 0, (Exc e), s, []. split; [reflexivity|]. split; [congruence|].
  split; [exact F|]. split; [lia|]. discriminate.
Qed.

Lemma endg_bind {A B} (m : nat -> M A) (k : nat -> A -> M B) s (V : A -> state -> Prop) (W : B -> state -> Prop) :
  endg m s V ->
  (forall a s1, founded s1 -> st_next s <= st_next s1 -> V a s1 -> endg (fun f => k f a) s1 W) ->
  endg (fun f => bind (m f) (k f)) s W.
Proof.
  intros (n & r & s1 & t & H & Hr & (F & L & X)) Hk. destruct r as [a|e].
  - destruct (Hk a s1 F L (X a eq_refl)) as (n' & r' & s2 & t' & H' & Hr' & (F' & L' & X')).
    exists (Nat.max n n'), r', s2, (t ++ t')%list. split.
    + intros f Hf. unfold bind. rewrite H by lia. rewrite H' by lia. reflexivity.
    + split; [exact Hr'|]. split; [exact F'|]. split; [lia|exact X'].
  - exists n, (Exc e), s1, t. split.
    + intros f Hf. unfold bind. rewrite H by lia. reflexivity.
    + split; [congruence|]. split; [exact F|]. split; [exact L|discriminate].
Qed.

Lemma endg_catch {A} (m : nat -> M A) (h : nat -> exn -> M A) s (V : A -> state -> Prop) :
  endg m s V ->
  (forall e s1, founded s1 -> st_next s <= st_next s1 -> e <> EFuel -> endg (fun f => h f e) s1 V) ->
  endg (fun f => catch (m f) (h f)) s V.
Proof.
  intros (n & r & s1 & t & H & Hr & (F & L & X)) Hk. destruct r as [a|e].
  - exists n, (Ok a), s1, t. split.
    + intros f Hf. unfold catch. rewrite H by lia. reflexivity.
    + split; [discriminate|]. split; [exact F|]. split; [exact L|exact X].
  - assert (He : e <> EFuel) by congruence.
    destruct (Hk e s1 F L He) as (n' & r' & s2 & t' & H' & Hr' & (F' & L' & X')).
    exists (Nat.max n n'), r', s2, (t ++ t')%list. split.
    + intros f Hf. unfold catch. rewrite H by lia. rewrite H' by lia. reflexivity.
    + split; [exact Hr'|]. split; [exact F'|]. split; [lia|exact X'].
Qed.

(** [get] does not change anything: the rest of the computation starts in the same state. *)
Lemma endg_get {B} (k : nat -> state -> M B) s (W : B -> state -> Prop) :
  endg (fun f => k f s) s W -> endg (fun f => bind get (k f)) s W.
Proof.
  intros (n & r & s1 & t & H & X). exists n, r, s1, t. split; [|exact X].
  intros f Hf. rewrite bind_get. apply H, Hf.
Qed.

Lemma endg_emit {B} e (k : nat -> unit -> M B) s (W : B -> state -> Prop) :
  endg (fun f => k f tt) s W -> endg (fun f => bind (emit e) (k f)) s W.
Proof.
  intros (n & r & s1 & t & H & X). exists n, r, s1, (e :: t). split; [|exact X].
  intros f Hf. unfold bind, emit. rewrite H by exact Hf. reflexivity.
Qed.

Section Ends.
  Variable E : env.
  Hypothesis HW : e_watch E = 0.
  Hypothesis HT : tame E.

  Lemma endg_foreign k c s : founded s -> endg (fun _ => foreign E k c) s knownv.
  Proof.
    intros F. unfold foreign. destruct (e_run E (e_tid E) c s) as [r s'] eqn:H.
    destruct (tame_ends E HT c s r s' F H) as (F' & L & Hr & Hv).
    exists 0, r, s', [ECall k (e_tid E) c]. split; [intros f _; rewrite H; reflexivity|].
    split; [exact Hr|]. split; [exact F'|]. split; [exact L|exact Hv].
  Qed.

  Lemma endg_foreign_quiet c s : founded s -> endg (fun _ => foreign_quiet E c) s knownv.
  Proof.
    intros F. unfold foreign_quiet. destruct (e_run E (e_tid E) c s) as [r s'] eqn:H.
    destruct (tame_ends E HT c s r s' F H) as (F' & L & Hr & Hv).
    exists 0, r, s', []. split; [intros f _; rewrite H; reflexivity|].
    split; [exact Hr|]. split; [exact F'|]. split; [exact L|exact Hv].
  Qed.

  Lemma endg_coerce o v s : founded s -> known s v -> endg (fun _ => coerce o v) s knownv.
  Proof.
    intros F Hv.
    assert (H0 : endg (fun _ => ret v) s knownv) by (apply endg_ret; assumption).
    assert (H1 : endg (fun _ => ret VNone) s knownv) by (apply endg_ret; [assumption|exact I]).
    assert (H2 : forall msg, endg (fun _ => raise (EType msg)) s knownv).
    { intros msg. apply endg_raise; [assumption|discriminate]. }
    destruct o; simpl; try assumption; destruct v; try assumption; apply H2.
  Qed.

  Lemma endg_raw k o s : founded s -> endg (fun _ => raw E k o) s knownv.
  Proof.
    intros F. unfold raw. eapply endg_bind with (V := knownv) (m := fun _ => foreign E k (CallOp o))
      (k := fun _ v => coerce o v); [apply endg_foreign, F|].
    intros v s1 F1 _ Hv. apply endg_coerce; assumption.
  Qed.

  Notation I f := (interp_n E f).

  (** What a value needs: the number of a proxy, one for the rest. *)
  Definition rank (v : value) : nat := match v with VProxy p => S p | _ => 0 end.

  Lemma endg_pget p s :
    founded s ->
    endg (fun _ => pget p) s (fun wc s' => s' = s /\ st_prox s p = Some wc).
  Proof.
    intros F. unfold pget. apply endg_get. destruct (st_prox s p) as [wc|] eqn:H.
    - apply endg_ret; [exact F|]. split; reflexivity.
    - apply endg_raise; [exact F|discriminate].
  Qed.

  Lemma wrapped_rank s p w c : founded s -> st_prox s p = Some (w, c) -> rank w < S p.
  Proof.
    intros F H. destruct (fd_proxy s F p w c H) as (_ & _ & _ & X).
    destruct w; simpl; try lia. specialize (X p0 eq_refl). lia.
  Qed.

  Lemma wrapped_known s p w c : founded s -> st_prox s p = Some (w, c) -> known s w /\ known s c.
  Proof. intros F H. destruct (fd_proxy s F p w c H) as (_ & X & Y & _). auto. Qed.

  (** A step that first fetches the parts of a proxy. *)
  Lemma endg_with_parts {B} p (k : nat -> value * value -> M B) s (W : B -> state -> Prop) :
    founded s ->
    (forall w c, st_prox s p = Some (w, c) -> rank w < S p -> known s w -> known s c ->
       endg (fun f => k f (w, c)) s W) ->
    endg (fun f => bind (pget p) (k f)) s W.
  Proof.
    intros F H. eapply endg_bind with (m := fun _ => pget p); [apply endg_pget, F|].
    intros [w c] s1 F1 _ [-> Hp]. destruct (wrapped_known s p w c F Hp).
    apply H; auto. eapply wrapped_rank; eauto.
  Qed.

  (** *** Truth values *)

  Lemma endg_bool n : forall k v s, rank v <= n -> founded s ->
    endg (fun f => i_op (I f) k (OBool v)) s knownv.
  Proof.
    induction n as [|n IH]; intros k v s Hn F; apply endg_S; cbn [interp_n i_op run_op].
    - destruct v; try apply endg_raw, F. simpl in Hn. lia.
    - destruct v; try (apply endg_raw, F). simpl in Hn.
      assert (X : endg (fun f => wc <- pget p ;; i_op (I f) k (OBool (fst wc))) s knownv).
      { apply endg_with_parts; [exact F|]. intros w c _ Hr _ _. simpl. apply IH; [lia|exact F]. }
      destruct (e_impl E); exact X.
  Qed.

  Lemma endg_truth v s : founded s -> endg (fun f => truth (I f) v) s any.
  Proof.
    intros F. assert (X : endg (fun f => r <- i_op (I f) Probe (OBool v) ;;
      match r with VBool b => ret b | _ => raise (EType "__bool__") end) s any).
    { eapply endg_bind; [eapply endg_bool; [apply le_n|exact F]|]. intros r s1 F1 _ _.
      destruct r; first [apply endg_ret; [exact F1|exact Logic.I] | apply endg_raise; [exact F1|discriminate]]. }
    unfold truth. destruct v; try exact X; apply endg_ret; auto; exact Logic.I.
  Qed.

  (** *** Questions to the policy *)

  Lemma endg_ask iv p obj s : founded s -> endg (fun f => ask E (I f) iv p obj) s any.
  Proof.
    intros F.
    assert (X : endg (fun f =>
      b <- catch (v <- foreign_quiet E (CallPerm iv p obj) ;; truth (I f) v)
                 (fun e => emit (EAsk (e_tid E) iv p obj None) ;;; raise e) ;;
      emit (EAsk (e_tid E) iv p obj (Some b)) ;;; ret b) s any).
    { eapply endg_bind with (V := any).
      - apply endg_catch with (h := fun _ e => emit (EAsk (e_tid E) iv p obj None) ;;; raise e).
        + eapply endg_bind with (m := fun _ => foreign_quiet E (CallPerm iv p obj));
            [apply endg_foreign_quiet, F|].
          intros v s1 F1 _ _. apply endg_truth, F1.
        + intros e s1 F1 _ He. apply endg_emit with (k := fun _ _ => raise e).
          apply endg_raise; assumption.
      - intros b s1 F1 _ _. apply endg_emit with (k := fun _ _ => ret b).
        apply endg_ret; [exact F1|exact Logic.I]. }
    unfold ask. destruct iv; try exact X; try (apply endg_raise; [exact F|discriminate]).
    apply endg_get. destruct (st_inters s i) as [x|]; [|apply endg_raise; [exact F|discriminate]].
    apply endg_emit with (k := fun _ _ => ret _). apply endg_ret; [exact F|exact Logic.I].
  Qed.

  Lemma endg_tl p obj s : founded s -> endg (fun f => tl_checkPermission E (I f) p obj) s any.
  Proof.
    intros F. unfold tl_checkPermission. apply endg_get.
    destruct (tl_inter (st_tls s (e_tid E))); [apply endg_ask, F|].
    apply endg_raise; [exact F|discriminate].
  Qed.

  (** *** Selecting checkers *)

  Definition settled (s : state) (oc : option value) : Prop :=
    match oc with Some c => is_Checker E s c = true | None => True end.
  Definition settledv (oc : option value) (s : state) : Prop := settled s oc.

  Lemma checker_known s c : founded s -> is_Checker E s c = true -> known s c.
  Proof.
    intros F H. destruct c; try discriminate H. simpl in *.
    destruct (st_chks s c) as [k|] eqn:Hk; [|discriminate H]. apply (fd_checker s F c k Hk).
  Qed.

  Lemma endg_final c obj s :
    founded s -> c = VNone \/ c = VNoProxy \/ is_Checker E s c = true ->
    endg (fun f => if value_eqb c VNoProxy || value_eqb c VNone then ret None
                   else i_select (I f) c obj) s settledv.
  Proof.
    intros F [-> | [-> | H]]; simpl; try (apply endg_ret; [exact F|exact Logic.I]).
    destruct c; try discriminate H. simpl. apply endg_S. cbn [interp_n i_select]. unfold select_loop.
    apply endg_get. rewrite H. apply endg_ret; [exact F|exact H].
  Qed.

  (** A registered factory, called. *)
  Lemma endg_call_factory k c obj s :
    founded s -> dget rkey_eqb (st_reg s) k = Some c -> c <> VModFun ->
    endg (fun f => call_factory (I f) c obj) s
         (fun v s' => v = VNone \/ v = VNoProxy \/ is_Checker E s' v = true).
  Proof.
    intros F Hk Hm. destruct (fd_registry s F k c Hk) as (_ & Hp & _).
    assert (X : (forall p, c <> VProxy p) ->
      endg (fun f => i_op (I f) Probe (OCall c [obj])) s
         (fun v s' => v = VNone \/ v = VNoProxy \/ is_Checker E s' v = true)).
    { intros _. apply endg_S. cbn [interp_n i_op].
      assert (R : forall f, run_op E (I f) Probe (OCall c [obj]) = raw E Probe (OCall c [obj])).
      { intros f. destruct c; try reflexivity. destruct (Hp p eq_refl). }
      destruct (e_run E (e_tid E) (CallOp (OCall c [obj])) s) as [r s'] eqn:HR.
      destruct (tame_ends E HT _ s r s' F HR) as (F' & L & Hr & Hv).
      exists 0, r, s', [ECall Probe (e_tid E) (CallOp (OCall c [obj]))]. split.
      { intros f _. rewrite R. unfold raw, bind, foreign. rewrite HR. destruct r; reflexivity. }
      split; [exact Hr|]. split; [exact F'|]. split; [exact L|]. intros v ->.
      exact (tame_factory E HT s k c obj v s' F Hk HR). }
    unfold call_factory.
    destruct c; try (exact (X Hp)); try (apply endg_raise; [exact F|discriminate]).
    contradiction.
  Qed.

  Lemma endg_select_registered k c obj s :
    founded s -> dget rkey_eqb (st_reg s) k = Some c -> c <> VModFun ->
    endg (fun f => i_select (I f) c obj) s settledv.
  Proof.
    intros F Hk Hm. apply endg_S. cbn [interp_n i_select]. unfold select_loop. apply endg_get.
    destruct (is_Checker E s c) eqn:Hc.
    - apply endg_ret; [exact F|exact Hc].
    - eapply endg_bind; [eapply endg_call_factory; eassumption|].
      intros v s1 F1 _ Hv. apply endg_final; assumption.
  Qed.

  Lemma endg_select_checker i obj s :
    founded s -> endg (fun f => i_select (I f) (VChk i) obj) s settledv.
  Proof.
    intros F. apply endg_S. cbn [interp_n i_select]. unfold select_loop. apply endg_get.
    destruct (is_Checker E s (VChk i)) eqn:Hc.
    - apply endg_ret; [exact F|exact Hc].
    - eapply endg_bind with (m := fun f => call_factory (I f) (VChk i) obj) (V := fun _ _ => False).
      + simpl. apply endg_raise; [exact F|discriminate].
      + intros v s1 _ _ [].
  Qed.

  Lemma endg_select k c obj s :
    founded s -> dget rkey_eqb (st_reg s) k = Some c ->
    endg (fun f => i_select (I f) c obj) s settledv.
  Proof.
    intros F Hk. destruct (value_eqb_spec c VModFun) as [->|Hm];
      [|eapply endg_select_registered; eassumption].
    apply endg_S. cbn [interp_n i_select]. unfold select_loop. apply endg_get. simpl.
    assert (N : endg (fun f => i_select (I f) (VChk named_cid) obj) s settledv)
      by apply endg_select_checker, F.
    assert (X : forall v, (v = VChk named_cid \/
                           exists k', dget rkey_eqb (st_reg s) k' = Some v /\ v <> VModFun) ->
      endg (fun f => bind (ret v) (fun c' =>
        if value_eqb c' VNoProxy || value_eqb c' VNone then ret None else i_select (I f) c' obj)) s settledv).
    { intros v Hv.
      assert (Y : endg (fun f => if value_eqb v VNoProxy || value_eqb v VNone then ret None
                                 else i_select (I f) v obj) s settledv).
      { destruct (value_eqb v VNoProxy || value_eqb v VNone).
        - apply endg_ret; [exact F|exact Logic.I].
        - destruct Hv as [->|(k' & Hk' & Hm)]; [exact N|]. eapply endg_select_registered; eassumption. }
      eapply endg_bind with (m := fun _ => ret v) (V := fun a s1 => a = v /\ s1 = s)
        (k := fun f c' => if value_eqb c' VNoProxy || value_eqb c' VNone then ret None else i_select (I f) c' obj).
      - apply endg_ret; [exact F|auto].
      - intros a s1 _ _ [-> ->]. exact Y. }
    unfold call_factory.
    assert (G : endg (fun f => bind (bind get (fun s0 => match obj with
        | VMod m => ret match dget rkey_eqb (st_reg s0) (KMod m) with Some v => v | None => VChk named_cid end
        | _ => ret (VChk named_cid) end)) (fun c' =>
        if value_eqb c' VNoProxy || value_eqb c' VNone then ret None else i_select (I f) c' obj)) s settledv).
    { eapply endg_bind with (m := fun _ => bind get (fun s0 => match obj with
        | VMod m => ret match dget rkey_eqb (st_reg s0) (KMod m) with Some v => v | None => VChk named_cid end
        | _ => ret (VChk named_cid) end))
        (V := fun v s1 => s1 = s /\ (v = VChk named_cid \/
                           exists k', dget rkey_eqb (st_reg s) k' = Some v /\ v <> VModFun)).
      - apply endg_get. destruct obj; try (apply endg_ret; [exact F|auto]).
        destruct (dget rkey_eqb (st_reg s) (KMod m)) as [v|] eqn:Hv; [|auto].
        split; [reflexivity|]. right. exists (KMod m). split; [exact Hv|].
        destruct (fd_registry s F (KMod m) v Hv) as (_ & _ & Y). exact (Y m eq_refl).
      - intros v s1 F1 _ [-> Hv]. specialize (X v Hv).
        destruct X as (n & r & s2 & t & H & Z). exists n, r, s2, t. split; [|exact Z].
        intros f Hf. specialize (H f Hf). unfold bind, ret in H.
        destruct (value_eqb v VNoProxy || value_eqb v VNone).
        + exact H.
        + destruct (i_select (I f) v obj s) as [[r3 s3] t3]. exact H. }
    exact G.
  Qed.

  Lemma endg_selectChecker obj s :
    founded s -> endg (fun f => selectChecker E (I f) obj) s settledv.
  Proof.
    intros F. pose (c := registered E s obj).
    assert (X : endg (fun f => i_select (I f) c obj) s settledv).
    { unfold c, registered. destruct (dget rkey_eqb (st_reg s) (KType (type_of E s obj))) as [v|] eqn:H.
      - eapply endg_select; eassumption.
      - apply endg_select_checker, F. }
    assert (Y : endg (fun _ => ret None) s settledv) by (apply endg_ret; [exact F|exact Logic.I]).
    unfold selectChecker, selectCheckerPy, selectCheckerC.
    destruct (e_cimpl E); apply endg_get; fold c; destruct (value_eqb c VNoProxy); try exact Y; try exact X.
    destruct (value_eqb c (VChk default_cid) && e_isexc E (type_of E s obj)); [exact Y|exact X].
  Qed.

  (** *** Creating proxies and checkers *)

  Lemma founded_proxy s v c :
    founded s -> known s v -> known s c ->
    founded (set_prox (upd (st_prox s) (st_next s) (Some (v, c))) (set_next (S (st_next s)) s)).
  Proof.
    intros F Hv Hc.
    assert (K : forall u, known s u ->
      known (set_prox (upd (st_prox s) (st_next s) (Some (v, c))) (set_next (S (st_next s)) s)) u).
    { intros u. apply known_mono. simpl. lia. }
    split; simpl.
    - pose proof (fd_next s F). lia.
    - intros p w c' H. unfold upd in H. destruct (Nat.eqb_spec p (st_next s)) as [->|Hp].
      + injection H as <- <-. split; [lia|]. split; [apply K, Hv|]. split; [apply K, Hc|].
        intros q ->. exact Hv.
      + destruct (fd_proxy s F p w c' H) as (A & B & C & D). split; [lia|]. auto.
    - intros d x H. destruct (fd_deco s F d x H) as (A & B & C). auto.
    - intros i k H. destruct (fd_checker s F i k H) as (A & B). split; [lia|exact B].
    - intros k u H. destruct (fd_registry s F k u H) as (A & B & C). auto.
  Qed.

  Lemma endg_new_proxy v c s :
    founded s -> known s v -> known s c -> endg (fun _ => new_proxy v c) s knownv.
  Proof.
    intros F Hv Hc. unfold new_proxy.
    assert (X : endg (fun _ => p <- fresh ;; s0 <- get ;;
      put (set_prox (upd (st_prox s0) p (Some (v, c))) s0) ;;; ret (VProxy p)) s knownv).
    { exists 0, (Ok (VProxy (st_next s))),
        (set_prox (upd (st_prox s) (st_next s) (Some (v, c))) (set_next (S (st_next s)) s)), []. split; [intros f _; reflexivity|].
      split; [discriminate|]. split; [apply founded_proxy; assumption|]. split; [simpl; lia|].
      intros a H. injection H as <-. simpl. red. simpl. lia. }
    destruct c; try exact X. apply endg_raise; [exact F|discriminate].
  Qed.

  Lemma endg_combined c1 c2 s :
    founded s -> known s c1 -> known s c2 -> endg (fun _ => CombinedChecker_new E c1 c2) s knownv.
  Proof.
    intros F H1 H2. unfold CombinedChecker_new. rewrite HW. apply endg_get.
    destruct c1; try (apply endg_raise; [exact F|discriminate]).
    destruct (st_chks s c) as [k|]; [|apply endg_raise; [exact F|discriminate]].
    exists 0, (Ok (VChk (st_next s))),
      (set_chks (upd (st_chks s) (st_next s) (Some (mkChecker (ck_get k) (ck_set k) (CkCombined c2))))
         (set_next (S (st_next s)) s)), []. split; [intros f _; reflexivity|].
    split; [discriminate|]. split; [|split; [simpl; lia|intros a H; injection H as <-; red; simpl; lia]].
    assert (K : forall u, known s u ->
      known (set_chks (upd (st_chks s) (st_next s) (Some (mkChecker (ck_get k) (ck_set k) (CkCombined c2))))
               (set_next (S (st_next s)) s)) u).
    { intros u. apply known_mono. simpl. lia. }
    split; simpl.
    - pose proof (fd_next s F). lia.
    - intros p w c' H. destruct (fd_proxy s F p w c' H) as (A & B & C & D). split; [lia|]. auto.
    - intros d x H. destruct (fd_deco s F d x H) as (A & B & C). auto.
    - intros i k' H. unfold upd in H. destruct (Nat.eqb_spec i (st_next s)) as [->|Hi].
      + injection H as <-. split; [lia|]. right. exists c2. split; [reflexivity|]. intros j ->. exact H2.
      + destruct (fd_checker s F i k' H) as (A & B). split; [lia|exact B].
    - intros k' u H. destruct (fd_registry s F k' u H) as (A & B & C). auto.
  Qed.

  (** *** [__Security_checker__] *)

  Definition drank (v : value) : nat := match v with VDeco d => S d | _ => 0 end.

  Lemma endg_sec n : forall k v fr s, drank v <= n -> is_proxy v = false -> founded s ->
    endg (fun f => i_op (I f) k (OGetattr v "__Security_checker__" fr)) s knownv.
  Proof.
    assert (B : forall k v fr s, drank v = 0 -> is_proxy v = false -> founded s ->
      endg (fun f => i_op (I f) k (OGetattr v "__Security_checker__" fr)) s knownv).
    { intros k v fr s Hd Hp F. apply endg_S. cbn [interp_n i_op run_op].
      destruct v; try discriminate Hp; try discriminate Hd; simpl;
        first [apply endg_raw, F | apply endg_raise; [exact F|discriminate]]. }
    induction n as [|n IH]; intros k v fr s Hd Hp F; [apply B; auto; lia|].
    destruct v; try (apply B; auto; fail). simpl in Hd. apply endg_S. cbn [interp_n i_op run_op].
    unfold deco_getattr. rewrite String.eqb_refl. unfold Decorated_get. apply endg_get.
    destruct (st_decos s d) as [x|] eqn:Hx; [|apply endg_raise; [exact F|discriminate]].
    destruct (fd_deco s F d x Hx) as (Ko & _ & Hlt).
    eapply endg_bind with (V := fun oc s' => forall c, oc = Some c -> known s' c).
    - destruct (is_proxy (dc_obj x)) eqn:Hi.
      + destruct (dc_obj x) as [| | | | | | | |q| | | | |]; try discriminate Hi. unfold getChecker.
        eapply endg_bind with (V := knownv) (k := fun _ c => ret (Some c)) (m := fun _ => _).
        * apply endg_get. destruct (st_prox s q) as [[w c]|] eqn:Hq.
          -- apply endg_ret; [exact F|]. destruct (wrapped_known s q w c F Hq). assumption.
          -- apply endg_raise; [exact F|discriminate].
        * intros c s1 F1 _ Hc. apply endg_ret; [exact F1|]. intros c' X. injection X as <-. exact Hc.
      + eapply endg_bind with (V := knownv).
        * unfold getattr_sec_checker. apply endg_catch with
            (h := fun _ e => if is_attribute_error e then ret VNone else raise e).
          -- apply IH; [|exact Hi|exact F]. destruct (dc_obj x); simpl; try lia.
             specialize (Hlt d0 eq_refl). lia.
          -- intros e s1 F1 _ He. destruct (is_attribute_error e).
             ++ apply endg_ret; [exact F1|exact Logic.I].
             ++ apply endg_raise; assumption.
        * intros c s1 F1 _ Hc.
          assert (X : endg (fun _ => ret (Some c)) s1 (fun oc s' => forall c0, oc = Some c0 -> known s' c0)).
          { apply endg_ret; [exact F1|]. intros c0 Y. injection Y as <-. exact Hc. }
          destruct c; try exact X.
          eapply endg_weaken; [|apply endg_selectChecker, F1]. intros oc s2 F2 Hs c0 ->.
          apply checker_known; assumption.
    - intros oc s1 F1 L1 Hoc.
      eapply endg_bind; [apply endg_selectChecker, F1|]. intros ow s2 F2 L2 Hw.
      assert (Kw : forall w, ow = Some w -> known s2 w) by (intros w ->; apply checker_known; assumption).
      assert (Kc : forall c, oc = Some c -> known s2 c)
        by (intros c Hc; eapply known_mono; [exact L2|exact (Hoc c Hc)]).
      destruct ow as [w|], oc as [c|].
      + apply endg_combined; auto.
      + apply endg_ret; [exact F2|apply Kw; reflexivity].
      + apply endg_ret; [exact F2|apply Kc; reflexivity].
      + apply endg_raise; [exact F2|discriminate].
  Qed.
  (** Handlers that look at the exception only. *)
  Lemma endg_reraise {A} (b : bool) (x : A) e s (V : A -> state -> Prop) :
    founded s -> e <> EFuel -> V x s -> endg (fun _ => if b then ret x else raise e) s V.
  Proof.
    intros F He Hx. destruct b; [apply endg_ret; assumption|apply endg_raise; assumption].
  Qed.

  Lemma endg_getattr_sec v s :
    is_proxy v = false -> founded s -> endg (fun f => getattr_sec_checker (I f) v) s knownv.
  Proof.
    intros Hp F. unfold getattr_sec_checker.
    apply endg_catch with (h := fun _ e => if is_attribute_error e then ret VNone else raise e).
    - eapply endg_sec; eauto.
    - intros e s1 F1 _ He. apply endg_reraise; auto. exact Logic.I.
  Qed.

  Lemma endg_checker_proxy c v s :
    founded s -> known s v -> endg (fun f => checker_proxy E (I f) c v) s knownv.
  Proof.
    intros F Hv.
    assert (S1 : forall s1, founded s1 -> st_next s <= st_next s1 ->
      endg (fun f => oc <- selectChecker E (I f) v ;;
              match oc with None => ret v | Some c' => new_proxy v c' end) s1 knownv).
    { intros s1 F1 L1. eapply endg_bind; [apply endg_selectChecker, F1|].
      intros oc s2 F2 L2 Hc. assert (Hv2 : known s2 v) by (eapply known_mono; [|exact Hv]; lia).
      destruct oc as [c'|].
      - apply endg_new_proxy; auto. eapply checker_known; eauto.
      - apply endg_ret; assumption. }
    unfold checker_proxy.
    destruct c; try (apply endg_foreign; assumption).
    assert (S2 : forall s1, founded s1 -> st_next s <= st_next s1 -> e_cimpl E = ImplC ->
      endg (fun f => sc <- selectCheckerC E (I f) v ;;
              match sc with None => ret v | Some c' => new_proxy v c' end) s1 knownv).
    { intros s1 F1 L1 HC. pose proof (S1 s1 F1 L1) as X. unfold selectChecker in X. rewrite HC in X. exact X. }
    destruct (e_cimpl E) eqn:HC.
    - unfold CheckerPy_proxy. destruct (is_proxy v) eqn:Hp; [apply endg_ret; assumption|].
      eapply endg_bind; [apply endg_getattr_sec; assumption|].
      intros c0 s1 F1 L1 Hc0. assert (Hv1 : known s1 v) by (eapply known_mono; eauto).
      destruct c0; try (apply endg_new_proxy; assumption). apply S1; assumption.
    - unfold CheckerC_proxy. destruct (is_proxy v) eqn:Hp; [apply endg_ret; assumption|].
      eapply endg_bind with (V := fun oc s' => forall c0, oc = Some c0 -> known s' c0).
      + unfold getattr_sec_checker_c. apply endg_catch with (h := fun _ _ => ret None).
        * eapply endg_bind; [eapply endg_sec; eauto|]. intros c0 s1 F1 _ Hc0. apply endg_ret; [exact F1|].
          intros c1 X. injection X as <-. exact Hc0.
        * intros e s1 F1 _ _. apply endg_ret; [exact F1|discriminate].
      + intros oc s1 F1 L1 Hoc. assert (Hv1 : known s1 v) by (eapply known_mono; eauto).
        destruct oc as [c0|]; [|apply S2; auto].
        specialize (Hoc c0 eq_refl).
        destruct c0; try (apply endg_new_proxy; assumption). apply endg_raise; [exact F1|discriminate].
  Qed.

  (** *** Checks and attributes *)

  Definition checks_end (r : nat) : Prop :=
    forall m c obj n s, rank obj <= r -> founded s ->
      endg (fun f => i_check (I f) m c obj n) s any.

  Definition reads_end (r : nat) : Prop :=
    forall k obj n fr s, rank obj <= r -> founded s ->
      endg (fun f => i_op (I f) k (OGetattr obj n fr)) s knownv.

  Lemma endg_decide p obj n s :
    founded s ->
    endg (fun f => b <- tl_checkPermission E (I f) p obj ;;
                   if b then ret tt else raise (EUnauthorized obj n p)) s any.
  Proof.
    intros F. eapply endg_bind; [apply endg_tl, F|]. intros b s1 F1 _ _.
    destruct b; [apply endg_ret; [exact F1|exact Logic.I]|apply endg_raise; [exact F1|discriminate]].
  Qed.

  Lemma endg_plain_setattr k obj n s :
    founded s -> endg (fun f => Checker_check_setattr E (I f) k obj n) s any.
  Proof.
    intros F. unfold Checker_check_setattr, CheckerPy_check_setattr, CheckerC_check_setattr, CheckerC_checkPermission.
    assert (R : endg (fun _ => ret tt) s any) by (apply endg_ret; [exact F|exact Logic.I]).
    assert (B : endg (fun _ => raise (EForbidden n obj)) s (@any unit)) by (apply endg_raise; [exact F|discriminate]).
    destruct (e_cimpl E); apply endg_get.
    - destruct (negb (perm_eqb (match st_dicts s (ck_set k) with
                                | [] => PNone | (_ :: _) as d => get_or_none d n end) PNone)); [|exact B].
      destruct (perm_eqb _ PPublic); [exact R|apply endg_decide, F].
    - destruct (dget String.eqb (st_dicts s (ck_set k)) n) as [p|]; [|exact B].
      destruct (negb (perm_eqb p PPublic)); [apply endg_decide, F|exact R].
  Qed.

  Lemma endg_plain_check r k obj n s :
    reads_end r -> rank obj <= r -> founded s ->
    endg (fun f => Checker_check E (I f) k obj n) s any.
  Proof.
    intros HR Hr F. unfold Checker_check, CheckerPy_check, CheckerC_check_int, CheckerC_checkPermission.
    assert (R : endg (fun _ => ret tt) s any) by (apply endg_ret; [exact F|exact Logic.I]).
    assert (B : forall s1, founded s1 -> endg (fun _ => raise (EForbidden n obj)) s1 (@any unit))
      by (intros s1 F1; apply endg_raise; [exact F1|discriminate]).
    destruct (e_cimpl E); apply endg_get.
    - destruct (negb (perm_eqb _ PNone)).
      + destruct (perm_eqb _ PPublic); [exact R|apply endg_decide, F].
      + destruct (mem n available_by_default); [exact R|].
        eapply endg_bind with (V := any).
        * destruct (negb (String.eqb n "__iter__")).
          -- apply endg_ret; [exact F|exact Logic.I].
          -- unfold hasattr_py. apply endg_catch with
               (h := fun _ e => if is_attribute_error e then ret false else raise e).
             ++ eapply endg_bind; [apply HR; assumption|]. intros v s1 F1 _ _.
                apply endg_ret; [exact F1|exact Logic.I].
             ++ intros e s1 F1 _ He. apply endg_reraise; auto. exact Logic.I.
        * intros b s1 F1 _ _. destruct b; [apply B, F1|apply endg_ret; [exact F1|exact Logic.I]].
    - destruct (dget String.eqb (st_dicts s (ck_get k)) n) as [p|].
      + destruct (perm_eqb p PPublic); [exact R|apply endg_decide, F].
      + destruct (is_operator n); [|apply B, F]. destruct (mem n available_by_default); [exact R|].
        destruct (String.eqb n "__iter__"); [|apply B, F].
        eapply endg_bind with (V := any).
        * unfold hasattr_c. apply endg_catch with (h := fun _ _ => ret false).
          -- eapply endg_bind; [apply HR; assumption|]. intros v s1 F1 _ _.
             apply endg_ret; [exact F1|exact Logic.I].
          -- intros e s1 F1 _ _. apply endg_ret; [exact F1|exact Logic.I].
        * intros b s1 F1 _ _. destruct (negb b); [apply endg_ret; [exact F1|exact Logic.I]|apply B, F1].
  Qed.

  Lemma endg_combine (m1 m2 : nat -> M unit) s :
    endg m1 s any -> (forall s1, founded s1 -> endg m2 s1 any) ->
    endg (fun f => combine (m1 f) (m2 f)) s any.
  Proof.
    intros H1 H2. unfold combine. apply endg_catch with (h := fun f e =>
      if is_forbidden e then m2 f
      else if is_unauthorized e
           then catch (m2 f) (fun e2 => if is_forbidden e2 then raise e else raise e2) else raise e).
    - exact H1.
    - intros e s1 F1 _ He. destruct (is_forbidden e); [apply H2, F1|].
      destruct (is_unauthorized e); [|apply endg_raise; assumption].
      apply endg_catch with (h := fun _ e2 => if is_forbidden e2 then raise e else raise e2).
      + apply H2, F1.
      + intros e2 s2 F2 _ He2. destruct (is_forbidden e2); apply endg_raise; assumption.
  Qed.

  Definition crank (c : value) : nat := match c with VChk i => S i | _ => 0 end.

  Lemma checks_of_reads r : reads_end r -> checks_end r.
  Proof.
    intros HR. assert (X : forall b m c obj n s, crank c <= b -> rank obj <= r -> founded s ->
      endg (fun f => i_check (I f) m c obj n) s any).
    { induction b as [|b IH]; intros m c obj n s Hc Hr F; apply endg_S; cbn [interp_n i_check];
        unfold checker_check.
      - destruct c; try (eapply endg_bind with (m := fun _ => foreign E Probe _) (k := fun _ _ => ret tt);
          [apply endg_foreign; assumption|intros v s1 F1 _ _; apply endg_ret; [exact F1|exact Logic.I]]).
        simpl in Hc. lia.
      - destruct c; try (eapply endg_bind with (m := fun _ => foreign E Probe _) (k := fun _ _ => ret tt);
          [apply endg_foreign; assumption|intros v s1 F1 _ _; apply endg_ret; [exact F1|exact Logic.I]]).
        apply endg_get. destruct (st_chks s c) as [k|] eqn:Hk; [|apply endg_raise; [exact F|discriminate]].
        destruct (fd_checker s F c k Hk) as (_ & [Kp|(c2 & Kc & Hlt)]).
        + rewrite Kp. destruct m; first [eapply endg_plain_check; eassumption | apply endg_plain_setattr, F].
        + rewrite Kc.
          assert (Hc2 : crank c2 <= b).
          { destruct c2; simpl; try lia. specialize (Hlt c0 eq_refl). simpl in Hc. lia. }
          assert (C1 : endg (fun f => Combined_check E (I f) k c2 obj n) s any).
          { unfold Combined_check. apply endg_combine.
            - unfold Combined_first_check. rewrite HW. eapply endg_plain_check; eassumption.
            - intros s1 F1. apply IH; assumption. }
          assert (C2 : endg (fun f => Combined_check_setattr E (I f) k c2 obj n) s any).
          { unfold Combined_check_setattr. apply endg_combine.
            - unfold Combined_first_check_setattr. rewrite HW. apply endg_plain_setattr, F.
            - intros s1 F1. apply IH; assumption. }
          destruct m; assumption. }
    intros m c obj n s. apply X with (b := crank c). apply le_n.
  Qed.

  (** *** Guarded operations *)

  (** [operation] ends for objects of lower rank than the proxy. *)
  Definition inner_ends (p : id) (operation : nat -> value -> M value) : Prop :=
    forall w s, rank w < S p -> founded s -> endg (fun f => operation f w) s knownv.

  Lemma endg_c_check p m n s :
    (forall r, r < S p -> checks_end r) -> founded s -> endg (fun f => c_check (I f) p m n) s any.
  Proof.
    intros HC F. unfold c_check. apply endg_with_parts; [exact F|]. intros w c _ Hr _ _. simpl.
    assert (X : forall m', endg (fun f => i_check (I f) m' c w n) s any).
    { intros m'. eapply HC; [exact Hr|apply le_n|exact F]. }
    apply endg_get. destruct m; apply X.
  Qed.

  Lemma endg_c_check1 p m n operation s :
    (forall r, r < S p -> checks_end r) -> inner_ends p operation -> founded s ->
    endg (fun f => c_check1 E (I f) p m n (operation f)) s knownv.
  Proof.
    intros HC HO F. unfold c_check1. eapply endg_bind; [apply endg_c_check; assumption|].
    intros _ s1 F1 _ _. apply endg_with_parts; [exact F1|]. intros w c _ Hr _ _. simpl.
    eapply endg_bind; [apply HO; assumption|]. intros v s2 F2 _ Hv. unfold c_proxy_result.
    apply endg_with_parts; [exact F2|]. intros w' c' _ _ _ _. simpl. apply endg_checker_proxy; assumption.
  Qed.

  Lemma endg_c_check0 p m n operation s :
    (forall r, r < S p -> checks_end r) -> inner_ends p operation -> founded s ->
    endg (fun f => c_check0 (I f) p m n (operation f)) s knownv.
  Proof.
    intros HC HO F. unfold c_check0. eapply endg_bind; [apply endg_c_check; assumption|].
    intros _ s1 F1 _ _. apply endg_with_parts; [exact F1|]. intros w c _ Hr _ _. simpl.
    apply HO; assumption.
  Qed.

  Lemma endg_py_check_name p n operation s :
    (forall r, r < S p -> checks_end r) -> inner_ends p operation -> founded s ->
    endg (fun f => py_check_name E (I f) p n (operation f)) s knownv.
  Proof.
    intros HC HO F. unfold py_check_name. apply endg_with_parts; [exact F|]. intros w c _ Hr _ _. simpl.
    eapply endg_bind; [eapply HC; [exact Hr|apply le_n|exact F]|]. intros _ s1 F1 _ _.
    apply endg_with_parts; [exact F1|]. intros w' c' _ Hr' _ _. simpl.
    eapply endg_bind; [apply HO; assumption|]. intros v s2 F2 _ Hv. apply endg_checker_proxy; assumption.
  Qed.

  Lemma endg_py_check_name_nowrap p n operation s :
    (forall r, r < S p -> checks_end r) -> inner_ends p operation -> founded s ->
    endg (fun f => py_check_name_nowrap (I f) p n (operation f)) s knownv.
  Proof.
    intros HC HO F. unfold py_check_name_nowrap. apply endg_with_parts; [exact F|].
    intros w c _ Hr _ _. simpl.
    eapply endg_bind; [eapply HC; [exact Hr|apply le_n|exact F]|]. intros _ s1 F1 _ _.
    apply endg_with_parts; [exact F1|]. intros w' c' _ Hr' _ _. simpl. apply HO; assumption.
  Qed.

  Lemma endg_guard p m n operation s :
    (forall r, r < S p -> checks_end r) -> inner_ends p operation -> founded s ->
    endg (fun f => proxy_guard E (I f) p m n (operation f)) s knownv.
  Proof.
    intros HC HO F. unfold proxy_guard. destruct (e_impl E).
    - apply endg_py_check_name; assumption.
    - apply endg_c_check1; assumption.
  Qed.

  (** *** Reading attributes *)

  Lemma endg_py_getattr p k n fr s :
    (forall r, r < S p -> checks_end r) -> (forall r, r < S p -> reads_end r) -> founded s ->
    endg (fun f => py_getattr E (I f) k p n fr) s knownv.
  Proof.
    intros HC HR F. unfold py_getattr. apply endg_catch with (h := fun f e =>
      if is_attribute_error e then py_getattr_fallback (I f) p n else raise e).
    - unfold py_getattribute.
      destruct ((String.eqb n "_wrapped" || String.eqb n "_checker") &&
                negb (match fr with Some v => value_eqb v (VProxy p) | None => false end));
        [apply endg_raise; [exact F|discriminate]|].
      apply endg_with_parts; [exact F|]. intros w c _ Hr Kw Kc. cbn [fst snd].
      destruct (String.eqb n "_wrapped"); [apply endg_ret; assumption|].
      destruct (String.eqb n "_checker"); [apply endg_ret; assumption|].
      eapply endg_bind with (V := any).
      + destruct (mem n py_unchecked_names); [apply endg_ret; [exact F|exact Logic.I]|].
        eapply HC; [exact Hr|apply le_n|exact F].
      + intros _ s1 F1 _ _. apply endg_with_parts; [exact F1|]. intros w' c' _ Hr' _ _. cbn [fst snd].
        eapply endg_bind with (V := knownv).
        * destruct (String.eqb n "__reduce__" || String.eqb n "__reduce_ex__" || String.eqb n "__module__").
          -- eapply HR; [exact Hr|apply le_n|exact F1].
          -- eapply HR; [exact Hr'|apply le_n|exact F1].
        * intros v s2 F2 _ Hv. apply endg_checker_proxy; assumption.
    - intros e s1 F1 _ He. destruct (is_attribute_error e); [|apply endg_raise; assumption].
      unfold py_getattr_fallback. apply endg_with_parts; [exact F1|]. intros w c _ Hr _ _. cbn [fst snd].
      eapply endg_bind; [eapply HC; [exact Hr|apply le_n|exact F1]|]. intros _ s2 F2 _ _.
      apply endg_raise; [exact F2|discriminate].
  Qed.

  Lemma endg_deco_getattr d k n fr s :
    founded s -> endg (fun f => deco_getattr E (I f) k d n fr) s knownv.
  Proof.
    intros F. destruct (String.eqb_spec n "__Security_checker__") as [->|Hn].
    - destruct (endg_sec (S d) k (VDeco d) fr s (le_n _) eq_refl F)
        as (m & r & s' & t & H & X). exists m, r, s', t. split; [|exact X].
      intros f Hf. exact (H (S f) (le_S _ _ Hf)).
    - unfold deco_getattr. apply String.eqb_neq in Hn. rewrite Hn. apply endg_get.
      destruct (st_decos s d) as [x|] eqn:Hx; [|apply endg_raise; [exact F|discriminate]].
      destruct (String.eqb n "__parent__" && String.eqb (dc_class x) "LocationProxy").
      + apply endg_ret; [exact F|]. destruct (fd_deco s F d x Hx) as (_ & X & _). exact X.
      + apply endg_raw; assumption.
  Qed.

  Lemma reads_all : forall r, reads_end r.
  Proof.
    assert (X : forall r, (forall r', r' < r -> reads_end r') -> reads_end r).
    { intros r IH k obj n fr s Hr F. apply endg_S. cbn [interp_n i_op run_op].
      destruct obj; try (apply endg_deco_getattr, F);
        try (destruct (is_atom _ && String.eqb n "__Security_checker__");
             [apply endg_raise; [exact F|discriminate]|apply endg_raw; assumption]).
      simpl in Hr.
      assert (HR : forall r', r' < S p -> reads_end r') by (intros r' Hr'; apply IH; lia).
      assert (HC : forall r', r' < S p -> checks_end r') by (intros r' Hr'; apply checks_of_reads, HR, Hr').
      unfold proxy_getattr. destruct (e_impl E).
      - apply endg_py_getattr; assumption.
      - apply endg_c_check1; [exact HC| |exact F]. intros w s1 Hw F1. eapply HR; [exact Hw|apply le_n|exact F1]. }
    intros r. induction r as [r IH] using (well_founded_induction Wf_nat.lt_wf). apply X. exact IH.
  Qed.

  Lemma checks_all r : checks_end r.
  Proof. apply checks_of_reads, reads_all. Qed.

  Lemma endg_read k obj n fr s :
    founded s -> endg (fun f => i_op (I f) k (OGetattr obj n fr)) s knownv.
  Proof. intros F. eapply reads_all; [apply le_n|exact F]. Qed.

  Lemma endg_check m c obj n s : founded s -> endg (fun f => i_check (I f) m c obj n) s any.
  Proof. intros F. eapply checks_all; [apply le_n|exact F]. Qed.

  (** *** Operators with one proxy *)

  (** A shape of operation on one operand: on proxies guarded, otherwise foreign. *)
  Definition unary (mk : value -> op) : Prop :=
    (forall f k v, is_proxy v = false -> run_op E (I f) k (mk v) = raw E k (mk v)) /\
    (forall k p s, founded s -> inner_ends p (fun f w => i_op (I f) k (mk w)) ->
       endg (fun f => run_op E (I f) k (mk (VProxy p))) s knownv).

  Lemma endg_unary mk : unary mk -> forall k v s, founded s ->
    endg (fun f => i_op (I f) k (mk v)) s knownv.
  Proof.
    intros [H1 H2]. assert (X : forall r k v s, rank v <= r -> founded s ->
      endg (fun f => i_op (I f) k (mk v)) s knownv).
    { induction r as [|r IH]; intros k v s Hr F; apply endg_S; cbn [interp_n i_op].
      - assert (Hp : is_proxy v = false) by (destruct v; try reflexivity; simpl in Hr; lia).
        destruct (endg_raw k (mk v) s F) as (m & x & s' & t & H & Y). exists m, x, s', t.
        split; [|exact Y]. intros f Hf. rewrite (H1 f k v Hp). apply (H f Hf).
      - destruct (is_proxy v) eqn:Hp.
        + destruct v; try discriminate Hp. apply H2; [exact F|]. intros w s1 Hw F1. apply IH; [|exact F1].
          simpl in Hr. lia.
        + destruct (endg_raw k (mk v) s F) as (m & x & s' & t & H & Y). exists m, x, s', t.
          split; [|exact Y]. intros f Hf. rewrite (H1 f k v Hp). apply (H f Hf). }
    intros k v s. apply X with (r := rank v). apply le_n.
  Qed.

  Ltac bare := let f := fresh in let k := fresh in let v := fresh in let H := fresh in
    intros f k v H; destruct v; try reflexivity; discriminate H.

  Lemma all_checks p : forall r, r < S p -> checks_end r.
  Proof. intros r _. apply checks_all. Qed.

  Lemma unary_guarded mk m n :
    (forall f k v, is_proxy v = false -> run_op E (I f) k (mk v) = raw E k (mk v)) ->
    (forall f k p, run_op E (I f) k (mk (VProxy p)) =
                   proxy_guard E (I f) p m n (fun w => i_op (I f) k (mk w))) ->
    unary mk.
  Proof.
    intros H1 H2. split; [exact H1|]. intros k p s F HO.
    destruct (endg_guard p m n (fun f w => i_op (I f) k (mk w)) s (all_checks p) HO F)
      as (j & x & s' & t & H & Y). exists j, x, s', t. split; [|exact Y].
    intros f Hf. rewrite H2. apply H, Hf.
  Qed.

  Lemma call_unary args : unary (fun v => OCall v args).
  Proof. eapply unary_guarded; [bare|intros; reflexivity]. Qed.
  Lemma un_unary u : unary (OUn u).
  Proof. eapply unary_guarded; [bare|intros; reflexivity]. Qed.
  Lemma getitem_unary key : unary (fun v => OGetitem v key).
  Proof. eapply unary_guarded; [bare|intros; reflexivity]. Qed.
  Lemma iter_unary : unary OIter.
  Proof. eapply unary_guarded; [bare|intros; reflexivity]. Qed.
  Lemma next_unary : unary ONext.
  Proof. eapply unary_guarded; [bare|intros; reflexivity]. Qed.

  Lemma unx_unary u : unary (OUnX u).
  Proof.
    split; [bare|]. intros k p s F HO. cbn [run_op]. destruct (e_impl E).
    - apply endg_py_check_name; [apply all_checks|exact HO|exact F].
    - apply endg_raw; assumption.
  Qed.

  Lemma endg_then_none (m : nat -> M value) s :
    endg m s knownv -> endg (fun f => m f ;;; ret VNone) s knownv.
  Proof.
    intros H. eapply endg_bind; [exact H|]. intros v s1 F1 _ _. apply endg_ret; [exact F1|exact Logic.I].
  Qed.

  Lemma setitem_unary key x : unary (fun v => OSetitem v key x).
  Proof.
    split; [bare|]. intros k p s F HO. cbn [run_op]. destruct (e_impl E).
    - apply endg_then_none. apply endg_py_check_name; [apply all_checks|exact HO|exact F].
    - apply endg_c_check0; [apply all_checks|exact HO|exact F].
  Qed.

  Lemma delitem_unary key : unary (fun v => ODelitem v key).
  Proof.
    split; [bare|]. intros k p s F HO. cbn [run_op]. destruct (e_impl E).
    - apply endg_then_none. apply endg_py_check_name; [apply all_checks|exact HO|exact F].
    - apply endg_c_check0; [apply all_checks|exact HO|exact F].
  Qed.

  Lemma contains_unary key : unary (fun v => OContains v key).
  Proof.
    split; [bare|]. intros k p s F HO. cbn [run_op]. destruct (e_impl E).
    - eapply endg_bind; [apply endg_py_check_name; [apply all_checks|exact HO|exact F]|].
      intros v s1 F1 _ _. eapply endg_bind; [apply endg_truth, F1|]. intros b s2 F2 _ _.
      apply endg_ret; [exact F2|exact Logic.I].
    - apply endg_c_check0; [apply all_checks|exact HO|exact F].
  Qed.

  Lemma len_unary : unary OLen.
  Proof.
    split; [bare|]. intros k p s F HO. cbn [run_op]. destruct (e_impl E).
    - apply endg_py_check_name_nowrap; [apply all_checks|exact HO|exact F].
    - apply endg_c_check0; [apply all_checks|exact HO|exact F].
  Qed.

  Lemma hash_unary : unary OHash.
  Proof.
    split; [bare|]. intros k p s F HO. cbn [run_op]. unfold py_hash.
    assert (X : endg (fun f => wc <- pget p ;; i_op (I f) k (OHash (fst wc))) s knownv).
    { apply endg_with_parts; [exact F|]. intros w c _ Hr _ _. simpl. apply HO; assumption. }
    destruct (e_impl E); exact X.
  Qed.

  Lemma delattr_unary n : unary (fun v => ODelattr v n).
  Proof.
    split; [bare|]. intros k p s F HO. cbn [run_op]. unfold proxy_delattr, py_delattr. destruct (e_impl E).
    - destruct (String.eqb n "_wrapped" || String.eqb n "_checker");
        [apply endg_raise; [exact F|discriminate]|].
      apply endg_with_parts; [exact F|]. intros w c _ Hr _ _. simpl.
      eapply endg_bind; [apply endg_check, F|]. intros _ s1 F1 _ _. apply HO; assumption.
    - apply endg_c_check0; [apply all_checks|exact HO|exact F].
  Qed.

  Lemma endg_default_repr_c w s : founded s -> endg (fun f => default_repr_c E (I f) w) s knownv.
  Proof.
    intros F. unfold default_repr_c. eapply endg_bind; [apply endg_read, F|]. intros kl s1 F1 _ _.
    eapply endg_bind; [apply endg_read, F1|]. intros nm s2 F2 _ _.
    eapply endg_bind with (V := any).
    - apply endg_catch with (h := fun _ _ => ret None).
      + eapply endg_bind; [apply endg_read, F2|]. intros m s3 F3 _ _. apply endg_ret; [exact F3|exact Logic.I].
      + intros e s3 F3 _ _. apply endg_ret; [exact F3|exact Logic.I].
    - intros om s3 F3 _ _. destruct om; apply endg_ret; try exact F3; exact Logic.I.
  Qed.

  Lemma endg_default_repr_py w s : founded s -> endg (fun f => default_repr_py E (I f) w) s knownv.
  Proof.
    intros F. unfold default_repr_py. eapply endg_bind; [apply endg_read, F|]. intros k1 s1 F1 _ _.
    eapply endg_bind; [apply endg_read, F1|]. intros m s2 F2 _ _.
    eapply endg_bind; [apply endg_read, F2|]. intros k2 s3 F3 _ _.
    eapply endg_bind; [apply endg_read, F3|]. intros nm s4 F4 _ _.
    apply endg_ret; [exact F4|exact Logic.I].
  Qed.

  Lemma endg_str_like p n operation s :
    inner_ends p operation -> founded s ->
    endg (fun f => match e_impl E with
                   | ImplPy => py_str_like E (I f) p n (operation f)
                   | ImplC => c_str_like E (I f) p n (operation f)
                   end) s knownv.
  Proof.
    intros HO F. destruct (e_impl E).
    - unfold py_str_like. apply endg_catch with (h := fun f e =>
        if is_type_error e then raise e else wc <- pget p ;; default_repr_py E (I f) (fst wc)).
      + apply endg_py_check_name; [apply all_checks|exact HO|exact F].
      + intros e s1 F1 _ He. destruct (is_type_error e); [apply endg_raise; assumption|].
        apply endg_with_parts; [exact F1|]. intros w c _ _ _ _. simpl. apply endg_default_repr_py, F1.
    - unfold c_str_like. eapply endg_bind with (V := any).
      + apply endg_catch with (h := fun _ _ => ret false).
        * eapply endg_bind; [apply endg_c_check; [apply all_checks|exact F]|]. intros _ s1 F1 _ _.
          apply endg_ret; [exact F1|exact Logic.I].
        * intros e s1 F1 _ _. apply endg_ret; [exact F1|exact Logic.I].
      + intros ok s1 F1 _ _. apply endg_with_parts; [exact F1|]. intros w c _ Hr _ _. simpl.
        destruct ok; [apply HO; assumption|apply endg_default_repr_c, F1].
  Qed.

  Lemma str_unary : unary OStr.
  Proof.
    split; [bare|]. intros k p s F HO. cbn [run_op].
    eapply endg_bind; [apply endg_str_like with (operation := fun f w => i_op (I f) k (OStr w)); assumption|].
    intros v s1 F1 _ Hv. apply endg_coerce; assumption.
  Qed.

  Lemma repr_unary : unary ORepr.
  Proof.
    split; [bare|]. intros k p s F HO. cbn [run_op].
    eapply endg_bind; [apply endg_str_like with (operation := fun f w => i_op (I f) k (ORepr w)); assumption|].
    intros v s1 F1 _ Hv. apply endg_coerce; assumption.
  Qed.

  Lemma lenhint_unary : unary OLenHint.
  Proof.
    split; [bare|]. intros k p s F _. cbn [run_op]. destruct (e_impl E).
    - unfold py_length_hint. apply endg_with_parts; [exact F|]. intros w c _ _ _ _. simpl.
      eapply endg_bind with (V := any).
      + apply endg_catch with (h := fun _ e => if is_attribute_error e then ret None else raise e).
        * eapply endg_bind; [apply endg_read, F|]. intros h s1 F1 _ _. apply endg_ret; [exact F1|exact Logic.I].
        * intros e s1 F1 _ He. apply endg_reraise; auto. exact Logic.I.
      + intros oh s1 F1 _ _. destruct oh as [h|].
        * apply (endg_unary _ (call_unary [])), F1.
        * apply endg_ret; [exact F1|exact Logic.I].
    - unfold c_length_hint. apply endg_with_parts; [exact F|]. intros w c _ _ _ _. simpl.
      apply endg_catch with (h := fun _ e => if is_attribute_error e then ret VNotImpl else raise e).
      + eapply endg_bind; [apply endg_read, F|]. intros h s1 F1 _ _. apply (endg_unary _ (call_unary [])), F1.
      + intros e s1 F1 _ He. apply endg_reraise; auto. exact Logic.I.
  Qed.

  (** *** Operators with several operands *)

  Lemma endg_bin n : forall k b l r s, rank l + rank r <= n -> founded s ->
    endg (fun f => i_op (I f) k (OBin b l r)) s knownv.
  Proof.
    induction n as [n IH] using (well_founded_induction Wf_nat.lt_wf).
    intros k b l r s Hn F. apply endg_S. cbn [interp_n i_op].
    destruct (is_proxy l) eqn:Hl.
    - destruct l; try discriminate Hl. cbn [run_op]. unfold proxy_bin_left.
      apply endg_guard with (operation := fun f w => i_op (I f) k (OBin b w r)); [apply all_checks| |exact F].
      intros w s1 Hw F1. apply IH with (y := rank w + rank r); [simpl in Hn; lia|apply le_n|exact F1].
    - destruct (is_proxy r) eqn:Hr.
      + destruct r; try discriminate Hr.
        assert (X : endg (fun f => v <- raw E k (OBin b l (VProxy p)) ;;
          if value_eqb v VNotImpl then proxy_bin_right E (I f) k p b l else ret v) s knownv).
        { eapply endg_bind with (m := fun _ => raw E k (OBin b l (VProxy p))); [apply endg_raw, F|].
          intros v s1 F1 _ Hv. destruct (value_eqb v VNotImpl); [|apply endg_ret; assumption].
          unfold proxy_bin_right.
          apply endg_guard with (operation := fun f w => i_op (I f) k (OBin b l w)); [apply all_checks| |exact F1].
          intros w s2 Hw F2. apply IH with (y := rank l + rank w); [simpl in Hn; lia|apply le_n|exact F2]. }
        destruct l; try discriminate Hl; exact X.
      + assert (X : endg (fun _ => raw E k (OBin b l r)) s knownv) by apply endg_raw, F.
        destruct l; try discriminate Hl; destruct r; try discriminate Hr; exact X.
  Qed.

  Lemma endg_pow n : forall k a b m s, rank a + rank b + rank m <= n -> founded s ->
    endg (fun f => i_op (I f) k (OPow3 a b m)) s knownv.
  Proof.
    induction n as [n IH] using (well_founded_induction Wf_nat.lt_wf).
    intros k a b m s Hn F. apply endg_S. cbn [interp_n i_op run_op]. unfold proxy_pow3.
    destruct (is_proxy a) eqn:Ha.
    - destruct a; try discriminate Ha.
      apply endg_guard with (operation := fun f w => i_op (I f) k (OPow3 w b m)); [apply all_checks| |exact F].
      intros w s1 Hw F1. apply IH with (y := rank w + rank b + rank m); [simpl in Hn; lia|apply le_n|exact F1].
    - assert (X : endg (fun f => if is_proxy b || is_proxy m then
          v <- raw E k (OPow3 a b m) ;;
          if value_eqb v VNotImpl then
            match e_impl E with
            | ImplPy => raise (EType "unsupported operand type(s) for pow()")
            | ImplC =>
                match b, m with
                | VProxy p, _ => c_check1 E (I f) p MCheck "__rpow__" (fun w => i_op (I f) k (OPow3 a w m))
                | _, VProxy p => c_check1 E (I f) p MCheck "__3pow__" (fun w => i_op (I f) k (OPow3 a b w))
                | _, _ => ret v
                end
            end
          else ret v
        else raw E k (OPow3 a b m)) s knownv).
      { destruct (is_proxy b || is_proxy m) eqn:Hp; [|apply endg_raw, F].
        eapply endg_bind with (m := fun _ => raw E k (OPow3 a b m)); [apply endg_raw, F|].
        intros v s1 F1 _ Hv. destruct (value_eqb v VNotImpl); [|apply endg_ret; assumption].
        destruct (e_impl E); [apply endg_raise; [exact F1|discriminate]|].
        destruct (is_proxy b) eqn:Hb.
        - destruct b; try discriminate Hb.
          apply endg_c_check1 with (operation := fun f w => i_op (I f) k (OPow3 a w m)); [apply all_checks| |exact F1].
          intros w s2 Hw F2. apply IH with (y := rank a + rank w + rank m); [simpl in Hn; lia|apply le_n|exact F2].
        - destruct m; try (destruct b; discriminate Hp).
          assert (Y : endg (fun f => c_check1 E (I f) p MCheck "__3pow__"
                               (fun w => i_op (I f) k (OPow3 a b w))) s1 knownv).
          { apply endg_c_check1 with (operation := fun f w => i_op (I f) k (OPow3 a b w)); [apply all_checks| |exact F1].
            intros w s2 Hw F2. apply IH with (y := rank a + rank b + rank w); [simpl in Hn; lia|apply le_n|exact F2]. }
          destruct b; try discriminate Hb; exact Y. }
      destruct a; try discriminate Ha; exact X.
  Qed.

  Lemma endg_cmp n : forall k c l r s, rank l + rank r <= n -> founded s ->
    endg (fun f => i_op (I f) k (OCmp c l r)) s knownv.
  Proof.
    induction n as [n IH] using (well_founded_induction Wf_nat.lt_wf).
    assert (P : forall k c p other s, S p + rank other <= n -> founded s ->
      endg (fun f => match e_impl E with
                     | ImplPy => py_compare (I f) k p c other
                     | ImplC => c_richcompare E (I f) k p c other
                     end) s knownv).
    { intros k c p other s Hn F. unfold py_compare, c_richcompare. destruct (e_impl E).
      - apply endg_with_parts; [exact F|]. intros w ch _ Hw _ _. cbn [fst snd].
        apply IH with (y := rank w + rank other); [lia|apply le_n|exact F].
      - apply endg_with_parts; [exact F|]. intros w ch _ Hw _ _. cbn [fst snd].
        eapply endg_bind; [apply IH with (y := rank w + rank other); [lia|apply le_n|exact F]|].
        intros v s1 F1 _ Hv.
        assert (Y : endg (fun f => c_proxy_result E (I f) p v) s1 knownv).
        { unfold c_proxy_result. apply endg_with_parts; [exact F1|]. intros w' c' _ _ _ _. cbn [fst snd].
          apply endg_checker_proxy; assumption. }
        destruct v; try exact Y. apply endg_ret; [exact F1|exact Logic.I]. }
    intros k c l r s Hn F. apply endg_S. cbn [interp_n i_op].
    destruct (is_proxy l) eqn:Hl.
    - destruct l; try discriminate Hl. apply P; [exact Hn|exact F].
    - destruct (is_proxy r) eqn:Hr.
      + destruct r; try discriminate Hr.
        assert (X : endg (fun f => v <- raw E k (OCmp c l (VProxy p)) ;;
          if value_eqb v VNotImpl then
            match e_impl E with
            | ImplPy => py_compare (I f) k p (swap_cmp c) l
            | ImplC => c_richcompare E (I f) k p (swap_cmp c) l
            end
          else ret v) s knownv).
        { eapply endg_bind with (m := fun _ => raw E k (OCmp c l (VProxy p))); [apply endg_raw, F|].
          intros v s1 F1 _ Hv. destruct (value_eqb v VNotImpl); [|apply endg_ret; assumption].
          apply P; [simpl in Hn; lia|exact F1]. }
        destruct l; try discriminate Hl; exact X.
      + assert (X : endg (fun _ => raw E k (OCmp c l r)) s knownv) by apply endg_raw, F.
        destruct l; try discriminate Hl; destruct r; try discriminate Hr; exact X.
  Qed.

  Lemma endg_in n : forall k b l r s,
    rank l + rank r <= n -> founded s -> (is_proxy l = true -> e_impl E = ImplC) ->
    endg (fun f => i_op (I f) k (OIn b l r)) s knownv.
  Proof.
    induction n as [n IH] using (well_founded_induction Wf_nat.lt_wf).
    intros k b l r s Hn F HI. apply endg_S. cbn [interp_n i_op].
    destruct (is_proxy l) eqn:Hl.
    - destruct l; try discriminate Hl. cbn [run_op]. unfold proxy_inplace. rewrite (HI eq_refl).
      unfold c_check2i. eapply endg_bind; [apply endg_c_check; [apply all_checks|exact F]|].
      intros _ s1 F1 _ _. apply endg_with_parts; [exact F1|]. intros w c Hp Hw _ _. cbn [fst snd].
      eapply endg_bind.
      { apply IH with (y := rank w + rank r); [simpl in Hn; lia|apply le_n|exact F1|].
        intros _. apply HI. reflexivity. }
      intros v s2 F2 _ Hv. apply endg_with_parts; [exact F2|]. intros w' c' Hp' _ _ _. cbn [fst snd].
      destruct (value_eqb v w').
      + apply endg_ret; [exact F2|]. destruct (fd_proxy s2 F2 p w' c' Hp') as (X & _). exact X.
      + unfold c_proxy_result. apply endg_with_parts; [exact F2|]. intros w2 c2 _ _ _ _. cbn [fst snd].
        apply endg_checker_proxy; assumption.
    - destruct (is_proxy r) eqn:Hr.
      + destruct r; try discriminate Hr.
        assert (X : endg (fun f => v <- raw E k (OIn b l (VProxy p)) ;;
          if value_eqb v VNotImpl then proxy_bin_right E (I f) k p (inop_bin b) l else ret v) s knownv).
        { eapply endg_bind with (m := fun _ => raw E k (OIn b l (VProxy p))); [apply endg_raw, F|].
          intros v s1 F1 _ Hv. destruct (value_eqb v VNotImpl); [|apply endg_ret; assumption].
          unfold proxy_bin_right.
          apply endg_guard with (operation := fun f w => i_op (I f) k (OBin (inop_bin b) l w));
            [apply all_checks| |exact F1].
          intros w s2 Hw F2. eapply endg_bin; [apply le_n|exact F2]. }
        destruct l; try discriminate Hl; exact X.
      + assert (X : endg (fun _ => raw E k (OIn b l r)) s knownv) by apply endg_raw, F.
        destruct l; try discriminate Hl; destruct r; try discriminate Hr; exact X.
  Qed.

  Lemma endg_setattr r : forall k v n x s,
    rank v <= r -> founded s -> known s x ->
    (e_impl E = ImplPy -> n <> "_wrapped" /\ n <> "_checker") ->
    endg (fun f => i_op (I f) k (OSetattr v n x)) s knownv.
  Proof.
    induction r as [r IH] using (well_founded_induction Wf_nat.lt_wf).
    intros k v n x s Hr F Hx Hn. apply endg_S. cbn [interp_n i_op].
    destruct v; try apply endg_raw, F.
    - cbn [run_op]. unfold proxy_setattr.
      destruct (e_impl E) eqn:HI.
      + unfold py_setattr. destruct (Hn eq_refl) as [N1 N2].
        apply String.eqb_neq in N1. apply String.eqb_neq in N2. rewrite N1, N2.
        apply endg_with_parts; [exact F|]. intros w c _ Hw _ _. cbn [fst snd].
        eapply endg_bind; [apply endg_check, F|]. intros _ s1 F1 L1 _.
        apply IH with (y := rank w); [simpl in Hr; lia|apply le_n|exact F1| |exact Hn].
        eapply known_mono; eassumption.
      + unfold c_check0. eapply endg_bind; [apply endg_c_check; [apply all_checks|exact F]|].
        intros _ s1 F1 L1 _. apply endg_with_parts; [exact F1|]. intros w c _ Hw _ _. cbn [fst snd].
        apply IH with (y := rank w); [simpl in Hr; lia|apply le_n|exact F1| |exact Hn].
        eapply known_mono; eassumption.
    - cbn [run_op]. unfold deco_setattr.
      destruct (String.eqb n "__Security_checker__"); [apply endg_raise; [exact F|discriminate]|].
      apply endg_get. destruct (st_decos s d) as [y|] eqn:Hy; [|apply endg_raise; [exact F|discriminate]].
      destruct (String.eqb n "__parent__" && String.eqb (dc_class y) "LocationProxy"); [|apply endg_raw, F].
      exists 0, (Ok VNone), (set_decos (upd (st_decos s) d (Some (mkDeco (dc_class y) (dc_obj y) x))) s), [].
      split; [reflexivity|]. split; [discriminate|].
      split; [|split; [apply le_n|intros a Ha; injection Ha as <-; exact Logic.I]].
      destruct (fd_deco s F d y Hy) as (K1 & K2 & K3).
      split; simpl.
      + exact (fd_next s F).
      + exact (fd_proxy s F).
      + intros e z H. unfold upd in H. destruct (Nat.eqb_spec e d) as [->|He].
        * injection H as <-. simpl. auto.
        * exact (fd_deco s F e z H).
      + exact (fd_checker s F).
      + exact (fd_registry s F).
  Qed.

  (** *** All operations *)

  Lemma endg_op k o s :
    founded s -> keeps_proxies E s o -> endg (fun f => i_op (I f) k o) s knownv.
  Proof.
    intros F H. destruct o as [v n fr|v n w|v n|v args|u v|u v|b l r|x y z|b l r|v key|v key w|v key|v key
      |v|v|v|v|v|c v w|v|v|v].
    - apply endg_read, F.
    - destruct H as [Hw Hn]. eapply endg_setattr; [apply le_n|exact F|exact Hw|exact Hn].
    - apply (endg_unary _ (delattr_unary n)), F.
    - apply (endg_unary _ (call_unary args)), F.
    - apply (endg_unary _ (un_unary u)), F.
    - apply (endg_unary _ (unx_unary u)), F.
    - eapply endg_bin; [apply le_n|exact F].
    - eapply endg_pow; [apply le_n|exact F].
    - eapply endg_in; [apply le_n|exact F|]. intros Hl. destruct l; try discriminate Hl. exact H.
    - apply (endg_unary _ (getitem_unary key)), F.
    - apply (endg_unary _ (setitem_unary key w)), F.
    - apply (endg_unary _ (delitem_unary key)), F.
    - apply (endg_unary _ (contains_unary key)), F.
    - apply (endg_unary _ len_unary), F.
    - apply (endg_unary _ iter_unary), F.
    - apply (endg_unary _ next_unary), F.
    - apply (endg_unary _ hash_unary), F.
    - eapply endg_bool; [apply le_n|exact F].
    - eapply endg_cmp; [apply le_n|exact F].
    - apply (endg_unary _ str_unary), F.
    - apply (endg_unary _ repr_unary), F.
    - apply (endg_unary _ lenhint_unary), F.
  Qed.

  (** *** The operations that change what a Python proxy is made of *)

  Lemma endg_ends {A} (m : nat -> M A) s (V : A -> state -> Prop) : endg m s V -> ends m s.
  Proof.
    intros (n & r & s' & t & H & Hr & _). exists n, (r, s', t). split; [exact H|exact Hr].
  Qed.

  Lemma ends_bind {A B} (m : nat -> M A) (k : nat -> A -> M B) s (V : A -> state -> Prop) :
    endg m s V -> (forall a s1, founded s1 -> V a s1 -> ends (fun f => k f a) s1) ->
    ends (fun f => bind (m f) (k f)) s.
  Proof.
    intros (n & r & s1 & t & H & Hr & (F & L & X)) Hk. destruct r as [a|e].
    - destruct (Hk a s1 F (X a eq_refl)) as (n' & [[r' s2] t'] & H' & Hr').
      exists (Nat.max n n'), (r', s2, (t ++ t')%list). split; [|exact Hr'].
      intros f Hf. unfold bind. rewrite H by lia. rewrite H' by lia. reflexivity.
    - exists n, (Exc e, s1, t). split.
      + intros f Hf. unfold bind. rewrite H by lia. reflexivity.
      + simpl. congruence.
  Qed.

  Lemma ends_S {A} (m : nat -> M A) s : ends (fun f => m (S f)) s -> ends m s.
  Proof.
    intros (n & x & H & X). exists (S n), x. split; [|exact X].
    intros f Hf. destruct f as [|f]; [lia|]. apply H. lia.
  Qed.

  Lemma ends_now {A} (m : M A) s : fst (fst (m s)) <> Exc EFuel -> ends (fun _ => m) s.
  Proof. intros H. exists 0, (m s). split; [reflexivity|exact H]. Qed.

  Lemma ends_pset p r (v : value) s : ends (fun _ => pset_wrapped p r ;;; ret v) s.
  Proof.
    apply ends_now. unfold pset_wrapped, pget. rewrite bind_assoc, bind_assoc, bind_get.
    destruct (st_prox s p); simpl; discriminate.
  Qed.

  Lemma ends_inplace k p n arg s :
    founded s -> ends (fun f => py_check_name_inplace (I f) k p n arg) s.
  Proof.
    intros F. unfold py_check_name_inplace.
    eapply ends_bind with (m := fun _ => pget p); [apply endg_pget, F|].
    intros [w c] s1 F1 [-> Hp]. cbn [fst snd]. destruct (wrapped_known s p w c F Hp) as [Kw Kc].
    eapply ends_bind with (V := fun _ s' => st_next s <= st_next s').
    { destruct (endg_check MCheck c w n s F) as (j & r & s' & t & H & Hr & (F' & L' & _)).
      exists j, r, s', t. split; [exact H|]. split; [exact Hr|]. split; [exact F'|]. split; [exact L'|auto]. }
    intros _ s2 F2 L2.
    eapply ends_bind with (V := fun _ s' => st_next s2 <= st_next s').
    { destruct (endg_catch (fun f => i_op (I f) k (OGetattr w n (Some (VProxy p))))
        (fun _ e => if is_attribute_error e then ret VNone else raise e) s2 knownv)
        as (j & r & s' & t & H & Hr & (F' & L' & _)).
      - apply endg_read, F2.
      - intros e s3 F3 _ He. apply endg_reraise; auto. exact Logic.I.
      - exists j, r, s', t. split; [exact H|]. split; [exact Hr|]. split; [exact F'|]. split; [exact L'|auto]. }
    intros wm s3 F3 L3.
    assert (X : ends (fun f => r <- i_op (I f) k (OCall wm [arg]) ;; pset_wrapped p r ;;; ret (VProxy p)) s3).
    { eapply ends_bind; [apply (endg_unary _ (call_unary [arg])), F3|]. intros r s4 _ _. apply ends_pset. }
    destruct wm; try exact X. clear X.
    eapply endg_ends with (V := knownv).
    eapply endg_bind; [apply endg_read, F3|]. intros m s4 F4 L4 _.
    eapply endg_bind; [apply (endg_unary _ (call_unary [arg])), F4|]. intros r s5 F5 L5 Hr.
    apply endg_new_proxy; auto. eapply known_mono; [|exact Kc]. lia.
  Qed.

  Lemma ends_setattr r : forall k v n x s,
    rank v <= r -> founded s -> ends (fun f => i_op (I f) k (OSetattr v n x)) s.
  Proof.
    induction r as [r IH] using (well_founded_induction Wf_nat.lt_wf).
    intros k v n x s Hr F. apply ends_S. cbn [interp_n i_op].
    destruct v; try (eapply endg_ends; apply endg_raw, F).
    - cbn [run_op]. unfold proxy_setattr. destruct (e_impl E) eqn:HI.
      + unfold py_setattr. destruct (String.eqb n "_wrapped"); [apply ends_pset|].
        destruct (String.eqb n "_checker").
        { apply ends_now. unfold pset_checker, pget. rewrite !bind_assoc, bind_get.
          destruct (st_prox s p); simpl; discriminate. }
        eapply ends_bind with (m := fun _ => pget p); [apply endg_pget, F|].
        intros [w c] s1 F1 [-> Hp]. cbn [fst snd].
        eapply ends_bind; [apply endg_check, F|]. intros _ s2 F2 _.
        apply IH with (y := rank w); [|apply le_n|exact F2].
        pose proof (wrapped_rank s p w c F Hp). simpl in Hr. lia.
      + unfold c_check0. eapply ends_bind; [apply endg_c_check; [apply all_checks|exact F]|].
        intros _ s1 F1 _. eapply ends_bind with (m := fun _ => pget p); [apply endg_pget, F1|].
        intros [w c] s2 F2 [-> Hp]. cbn [fst snd].
        apply IH with (y := rank w); [|apply le_n|exact F1].
        pose proof (wrapped_rank s1 p w c F1 Hp). simpl in Hr. lia.
    - cbn [run_op]. unfold deco_setattr.
      destruct (String.eqb n "__Security_checker__"); [apply ends_now; discriminate|].
      destruct (st_decos s d) as [y|] eqn:Hy.
      + destruct (String.eqb n "__parent__" && String.eqb (dc_class y) "LocationProxy") eqn:Hb.
        * apply ends_now. rewrite bind_get, Hy, Hb. simpl. discriminate.
        * destruct (endg_raw k (OSetattr (VDeco d) n x) s F) as (j & r' & s' & t & H & Hr' & _).
          exists j, (r', s', t). split; [|exact Hr']. intros f Hf. rewrite bind_get, Hy, Hb. apply (H f Hf).
      + apply ends_now. rewrite bind_get, Hy. discriminate.
  Qed.

  Lemma ends_op k o s : founded s -> ends (fun f => i_op (I f) k o) s.
  Proof.
    intros F.
    assert (D : keeps_proxies E s o -> ends (fun f => i_op (I f) k o) s).
    { intros H. eapply endg_ends, endg_op; eassumption. }
    destruct o as [v n fr|v n w|v n|v args|u v|u v|b l r|x y z|b l r|v key|v key w|v key|v key
      |v|v|v|v|v|c v w|v|v|v]; try (apply D; exact Logic.I).
    - eapply ends_setattr; [apply le_n|exact F].
    - destruct l; try (apply D; exact Logic.I). destruct (e_impl E) eqn:HI; [|apply D; exact HI].
      clear D. apply ends_S. cbn [interp_n i_op run_op]. unfold proxy_inplace. rewrite HI.
      apply ends_inplace, F.
  Qed.

  (** *** The functions of checker.py *)

  Lemma endg_ProxyFactory obj c s :
    founded s -> known s obj -> known s c -> endg (fun f => ProxyFactory E (I f) obj c) s knownv.
  Proof.
    intros F Ko Kc. unfold ProxyFactory. destruct (is_proxy obj) eqn:Hp.
    - assert (X : endg (fun _ => c0 <- getChecker obj ;; if value_eqb c c0 then ret obj
        else raise (EType "Tried to use ProxyFactory to change a Proxy's checker.")) s knownv).
      { destruct obj; try discriminate Hp. unfold getChecker.
        eapply endg_bind with (V := any) (m := fun _ => _)
          (k := fun _ c0 => if value_eqb c c0 then ret (VProxy p)
             else raise (EType "Tried to use ProxyFactory to change a Proxy's checker.")).
        - apply endg_get. destruct (st_prox s p) as [[w c0]|]; [apply endg_ret; [exact F|exact Logic.I]|].
          apply endg_raise; [exact F|discriminate].
        - intros c0 s1 F1 L1 _. destruct (value_eqb c c0); [|apply endg_raise; [exact F1|discriminate]].
          apply endg_ret; [exact F1|]. eapply known_mono; eassumption. }
      destruct c; try exact X. apply endg_ret; assumption.
    - destruct c; try (apply endg_new_proxy; assumption).
      eapply endg_bind; [apply endg_getattr_sec; assumption|]. intros c1 s1 F1 L1 Hc1.
      assert (Ko1 : known s1 obj) by (eapply known_mono; eassumption).
      destruct c1; try (apply endg_new_proxy; assumption).
      eapply endg_bind; [apply endg_selectChecker, F1|]. intros oc s2 F2 L2 Hs.
      assert (Ko2 : known s2 obj) by (eapply known_mono; eassumption).
      destruct oc as [c2|]; [|apply endg_ret; assumption].
      apply endg_new_proxy; auto. eapply checker_known; eassumption.
  Qed.

  Lemma endg_getChecker v s : founded s -> endg (fun _ => getChecker v) s knownv.
  Proof.
    intros F. destruct v; try (apply endg_raise; [exact F|discriminate]). unfold getChecker.
    apply endg_get. destruct (st_prox s p) as [[w c]|] eqn:Hp; [|apply endg_raise; [exact F|discriminate]].
    apply endg_ret; [exact F|]. destruct (wrapped_known s p w c F Hp). assumption.
  Qed.

  Lemma endg_canAccess obj n s :
    founded s -> known s obj -> endg (fun f => canAccess E (I f) obj n) s any.
  Proof.
    intros F Ko. unfold canAccess. eapply endg_bind; [apply endg_ProxyFactory; [exact F|exact Ko|exact Logic.I]|].
    intros o s1 F1 _ _. eapply endg_bind with (m := fun _ => getChecker o); [apply endg_getChecker, F1|].
    intros c s2 F2 _ _.
    apply endg_catch with (h := fun _ e => if is_unauthorized e then ret false else raise e).
    - eapply endg_bind; [apply endg_check, F2|]. intros _ s3 F3 _ _. apply endg_ret; [exact F3|exact Logic.I].
    - intros e s3 F3 _ He. apply endg_reraise; auto. exact Logic.I.
  Qed.

  Lemma endg_canWrite obj n s :
    founded s -> known s obj -> endg (fun f => canWrite E (I f) obj n) s any.
  Proof.
    intros F Ko. unfold canWrite. eapply endg_bind; [apply endg_ProxyFactory; [exact F|exact Ko|exact Logic.I]|].
    intros o s1 F1 _ _. eapply endg_bind with (m := fun _ => getChecker o); [apply endg_getChecker, F1|].
    intros c s2 F2 _ _.
    apply endg_catch with (h := fun f e =>
             if is_unauthorized e then ret false
             else if is_forbidden e then
               catch (i_check (I f) MGetattr c o n)
                     (fun e2 => if is_unauthorized e2 then ret tt else raise e2) ;;;
               ret false
             else raise e).
    - eapply endg_bind; [apply endg_check, F2|]. intros _ s3 F3 _ _. apply endg_ret; [exact F3|exact Logic.I].
    - intros e s3 F3 _ He. destruct (is_unauthorized e); [apply endg_ret; [exact F3|exact Logic.I]|].
      destruct (is_forbidden e); [|apply endg_raise; assumption].
      eapply endg_bind with (V := any).
      + apply endg_catch with (h := fun _ e2 => if is_unauthorized e2 then ret tt else raise e2).
        * apply endg_check, F3.
        * intros e2 s4 F4 _ He2. apply endg_reraise; auto. exact Logic.I.
      + intros _ s4 F4 _ _. apply endg_ret; [exact F4|exact Logic.I].
  Qed.

  (** *** adapter.py *)

  Definition knowns (l : list value) (s : state) : Prop := Forall (known s) l.

  Lemma knowns_mono s s' l : st_next s <= st_next s' -> knowns l s -> knowns l s'.
  Proof. intros L H. eapply Forall_impl; [|exact H]. intros v. apply known_mono, L. Qed.

  Lemma endg_kop k o s (V : value -> state -> Prop) :
    founded s -> keeps_proxies E s o -> (forall v s', known s' v -> V v s') ->
    endg (fun f => i_op (I f) k o) s V.
  Proof.
    intros F H HV. eapply endg_weaken; [|apply endg_op; eassumption]. intros v s' _. apply HV.
  Qed.

  Lemma endg_providedBy a s : founded s -> endg (fun f => ILocation_providedBy (I f) a) s any.
  Proof.
    intros F. unfold ILocation_providedBy.
    eapply endg_bind; [apply endg_op; [exact F|exact Logic.I]|]. intros v s1 F1 _ _.
    apply endg_truth, F1.
  Qed.

  Lemma endg_LocationProxy a s : founded s -> known s a -> endg (fun _ => LocationProxy a) s knownv.
  Proof.
    intros F Ka. unfold LocationProxy.
    exists 0, (Ok (VDeco (st_next s))),
      (set_decos (upd (st_decos s) (st_next s) (Some (mkDeco "LocationProxy" a VNone)))
         (set_next (S (st_next s)) s)), [].
    split; [reflexivity|]. split; [discriminate|].
    split; [|split; [simpl; lia|intros v Hv; injection Hv as <-; unfold knownv; simpl; lia]].
    assert (K : forall u, known s u ->
      known (set_decos (upd (st_decos s) (st_next s) (Some (mkDeco "LocationProxy" a VNone)))
         (set_next (S (st_next s)) s)) u).
    { intros u. apply known_mono. simpl. lia. }
    split; simpl.
    - pose proof (fd_next s F). lia.
    - intros p w c H. destruct (fd_proxy s F p w c H) as (A & B & C & D). split; [lia|]. auto.
    - intros d x H. unfold upd in H. destruct (Nat.eqb_spec d (st_next s)) as [->|Hd].
      + injection H as <-. simpl. split; [apply K, Ka|]. split; [exact Logic.I|].
        intros e ->. exact Ka.
      + destruct (fd_deco s F d x H) as (A & B & C). auto.
    - intros i k H. destruct (fd_checker s F i k H) as (A & B). split; [lia|exact B].
    - intros k u H. destruct (fd_registry s F k u H) as (A & B & C). auto.
  Qed.

  Lemma parent_keeps s v x : known s x -> keeps_proxies E s (OSetattr v "__parent__" x).
  Proof. intros H. split; [exact H|]. intros _. split; discriminate. Qed.

  Lemma endg_set_parent a b x s :
    founded s -> known s x -> known s b ->
    endg (fun f => i_op (I f) Client (OSetattr a "__parent__" x) ;;; ret b) s knownv.
  Proof.
    intros F Kx Kb. eapply endg_bind; [apply endg_op; [exact F|apply parent_keeps, Kx]|].
    intros _ s1 F1 L1 _. apply endg_ret; [exact F1|]. eapply known_mono; eassumption.
  Qed.

  Lemma endg_parent a x s :
    founded s -> known s a -> known s x ->
    endg (fun f => q <- i_op (I f) Client (OGetattr a "__parent__" None) ;;
      if value_eqb q VNone then i_op (I f) Client (OSetattr a "__parent__" x) ;;; ret a else ret a) s knownv.
  Proof.
    intros F Ka Kx. eapply endg_bind; [apply endg_op; [exact F|exact Logic.I]|]. intros q s1 F1 L1 _.
    destruct (value_eqb q VNone).
    - apply endg_set_parent; [exact F1|eapply known_mono; eassumption|eapply known_mono; eassumption].
    - apply endg_ret; [exact F1|]. eapply known_mono; eassumption.
  Qed.

  Lemma endg_assertLocation a x s :
    founded s -> known s a -> known s x -> endg (fun f => assertLocation (I f) a x) s knownv.
  Proof.
    intros F Ka Kx. unfold assertLocation. eapply endg_bind; [apply endg_providedBy, F|].
    intros b s1 F1 L1 _.
    assert (Ka1 : known s1 a) by (eapply known_mono; eassumption).
    assert (Kx1 : known s1 x) by (eapply known_mono; eassumption).
    destruct b; simpl negb; cbv iota; [apply endg_parent; assumption|].
    eapply endg_bind with (m := fun _ => LocationProxy a); [apply endg_LocationProxy; assumption|].
    intros l s2 F2 L2 Kl. apply endg_set_parent; [exact F2| |exact Kl]. eapply known_mono; eassumption.
  Qed.

  Lemma endg_customizeUnprotected a x s :
    founded s -> known s a -> known s x -> endg (fun f => customizeUnprotected (I f) a x) s knownv.
  Proof.
    intros F Ka Kx. unfold customizeUnprotected. eapply endg_bind; [apply endg_providedBy, F|].
    intros b s1 F1 L1 _.
    assert (Ka1 : known s1 a) by (eapply known_mono; eassumption).
    assert (Kx1 : known s1 x) by (eapply known_mono; eassumption).
    destruct b; [apply endg_parent; assumption|]. apply endg_ret; assumption.
  Qed.

  Lemma endg_customizeProtected k a x s :
    founded s -> known s a -> known s x -> endg (fun f => customizeProtected (I f) k a x) s knownv.
  Proof.
    intros F Ka Kx. destruct k; [apply endg_assertLocation|apply endg_customizeUnprotected]; assumption.
  Qed.

  Lemma endg_removeSecurityProxy v s :
    founded s -> known s v -> endg (fun _ => removeSecurityProxy v) s knownv.
  Proof.
    intros F Kv. unfold removeSecurityProxy. destruct v; try (apply endg_ret; assumption).
    apply endg_get. destruct (st_prox s p) as [[w c]|] eqn:Hp; [|apply endg_raise; [exact F|discriminate]].
    apply endg_ret; [exact F|]. destruct (wrapped_known s p w c F Hp). assumption.
  Qed.

  Lemma endg_unproxied l : forall s, founded s -> knowns l s -> endg (fun _ => unproxied l) s knowns.
  Proof.
    induction l as [|v l IH]; intros s F K; cbn [unproxied].
    - apply endg_ret; [exact F|constructor].
    - inversion K as [|? ? Kv Kl]; subst.
      eapply endg_bind with (m := fun _ => removeSecurityProxy v)
        (k := fun _ y => ys <- unproxied l ;; ret (y :: ys)); [apply endg_removeSecurityProxy; assumption|].
      intros y s1 F1 L1 Ky.
      eapply endg_bind with (m := fun _ => unproxied l) (k := fun _ ys => ret (y :: ys)).
      + apply IH; [exact F1|]. eapply knowns_mono; eassumption.
      + intros ys s2 F2 L2 Kys. apply endg_ret; [exact F2|]. constructor; [|exact Kys].
        eapply known_mono; eassumption.
  Qed.

  Lemma endg_some_proxied l : forall s, founded s -> knowns l s -> endg (fun _ => some_proxied l) s any.
  Proof.
    induction l as [|v l IH]; intros s F K; cbn [some_proxied].
    - apply endg_ret; [exact F|exact Logic.I].
    - inversion K as [|? ? Kv Kl]; subst.
      eapply endg_bind with (m := fun _ => removeSecurityProxy v)
        (k := fun _ y => if negb (value_eqb y v) then ret true else some_proxied l);
        [apply endg_removeSecurityProxy; assumption|].
      intros y s1 F1 L1 _. destruct (negb (value_eqb y v)); [apply endg_ret; [exact F1|exact Logic.I]|].
      apply IH; [exact F1|]. eapply knowns_mono; eassumption.
  Qed.

  Lemma endg_first l s : founded s -> knowns l s -> endg (fun _ => first l) s knownv.
  Proof.
    intros F K. destruct l as [|v l]; [apply endg_raise; [exact F|discriminate]|].
    inversion K; subst. apply endg_ret; assumption.
  Qed.

  Lemma endg_trusted k factory args s :
    founded s -> knowns args s -> endg (fun f => trusted_call E (I f) k factory args) s knownv.
  Proof.
    intros F K. unfold trusted_call.
    eapply endg_bind with (m := fun _ => some_proxied args); [apply endg_some_proxied; assumption|].
    intros b s1 F1 L1 _. assert (K1 : knowns args s1) by (eapply knowns_mono; eassumption).
    destruct b.
    - eapply endg_bind with (m := fun _ => unproxied args); [apply endg_unproxied; assumption|].
      intros args' s2 F2 L2 K2.
      eapply endg_bind; [apply endg_op; [exact F2|exact Logic.I]|]. intros a s3 F3 L3 Ka.
      eapply endg_bind with (m := fun _ => first args');
        [apply endg_first; [exact F3|eapply knowns_mono; eassumption]|].
      intros x s4 F4 L4 Kx.
      eapply endg_bind;
        [apply endg_customizeProtected; [exact F4|eapply known_mono; eassumption|exact Kx]|].
      intros a' s5 F5 L5 Ka'. apply endg_ProxyFactory; [exact F5|exact Ka'|exact Logic.I].
    - eapply endg_bind; [apply endg_op; [exact F1|exact Logic.I]|]. intros a s3 F3 L3 Ka.
      eapply endg_bind with (m := fun _ => first args);
        [apply endg_first; [exact F3|eapply knowns_mono; eassumption]|].
      intros x s4 F4 L4 Kx. apply endg_customizeUnprotected; [exact F4|eapply known_mono; eassumption|exact Kx].
  Qed.

  Lemma endg_untrusted factory args s :
    founded s -> knowns args s -> endg (fun f => untrusted_call (I f) factory args) s knownv.
  Proof.
    intros F K. unfold untrusted_call.
    eapply endg_bind; [apply endg_op; [exact F|exact Logic.I]|]. intros a s3 F3 L3 Ka.
    eapply endg_bind with (m := fun _ => first args);
      [apply endg_first; [exact F3|eapply knowns_mono; eassumption]|].
    intros x s4 F4 L4 Kx. apply endg_assertLocation; [exact F4|eapply known_mono; eassumption|exact Kx].
  Qed.

  (** *** The statements *)

  Lemma endg_kept {A} (m : nat -> M A) s (V : A -> state -> Prop) :
    endg m s V -> ends_with m s (fun r s' => founded s' /\ st_next s <= st_next s' /\
                                             forall a, r = Ok a -> V a s').
  Proof. intros H. exact H. Qed.

  Lemma select_ends_lemma obj s :
    founded s -> no_proxied_factories E s ->
    ends_with (fun f => do_select E f obj) s (fun r s' => exists t, SelectChecker E s obj r s' t).
  Proof.
    intros F Hn. destruct (endg_selectChecker obj s F) as (n & r & s' & t & H & Hr & _).
    exists n, r, s', t. split; [exact H|]. split; [exact Hr|]. exists t.
    destruct (selectChecker_exact_lemma E n obj s r s' t Hn (H n (le_n _))) as [X|X]; [congruence|exact X].
  Qed.
End Ends.

Arguments knowns _ _ /.

Lemma kept {A} (m : nat -> M A) s (V : A -> state -> Prop) (Q : res A -> state -> Prop) :
  endg m s V -> (forall r s', founded s' -> (forall a, r = Ok a -> V a s') -> Q r s') -> ends_with m s Q.
Proof.
  intros (n & r & s' & t & H & Hr & (F & _ & X)) HQ. exists n, r, s', t.
  split; [exact H|]. split; [exact Hr|]. apply HQ; assumption.
Qed.

Lemma functions_end_lemma E s :
  e_watch E = 0 -> tame E -> founded s ->
  (forall m c obj n, ends_with (fun f => do_check E f m c obj n) s (fun _ s' => founded s')) /\
  (forall obj, ends_with (fun f => do_select E f obj) s (fun _ s' => founded s')) /\
  (forall obj c, known s obj -> known s c ->
     ends_with (fun f => do_ProxyFactory E f obj c) s
       (fun r s' => founded s' /\ forall v, r = Ok v -> known s' v)) /\
  (forall c v, known s v ->
     ends_with (fun f => do_proxy E f c v) s
       (fun r s' => founded s' /\ forall v, r = Ok v -> known s' v)) /\
  (forall obj n, known s obj ->
     ends_with (fun f => do_canAccess E f obj n) s (fun _ s' => founded s') /\
     ends_with (fun f => do_canWrite E f obj n) s (fun _ s' => founded s')).
Proof.
  intros HW HT F. repeat split; intros.
  - eapply kept; [apply endg_check; assumption|auto].
  - eapply kept; [apply endg_selectChecker; assumption|auto].
  - eapply kept; [apply endg_ProxyFactory; assumption|auto].
  - eapply kept; [apply endg_checker_proxy; assumption|auto].
  - eapply kept; [apply endg_canAccess; assumption|auto].
  - eapply kept; [apply endg_canWrite; assumption|auto].
Qed.

Lemma adapters_end_lemma E s factory args :
  e_watch E = 0 -> tame E -> founded s -> Forall (known s) args ->
  (forall k, ends_with (fun f => do_trusted E f k factory args) s
     (fun r s' => founded s' /\ forall v, r = Ok v -> known s' v)) /\
  ends_with (fun f => do_untrusted E f factory args) s
    (fun r s' => founded s' /\ forall v, r = Ok v -> known s' v).
Proof.
  intros HW HT F K. split; [intros k|].
  - eapply kept; [apply endg_trusted; assumption|auto].
  - eapply kept; [apply endg_untrusted; assumption|auto].
Qed.
