(** * BuildProps: the builds compared, at the level of the API. *)

From Coq Require Import List String Bool Arith ZArith Lia.
From Verif Require Import Base Domain CheckerModel ProxyModel Spec RegSpec ProxySpec
     MediationSpec MFacts CheckFacts Witness ProxyTable BuildSpec BuildFacts.
Import ListNotations.
Open Scope string_scope.

Local Arguments String.eqb : simpl never.

Section Compare.
  Variable E : env.
  Variable cb : impl.
  Hypothesis Hw : e_watch E = 0.
  Hypothesis HC : ordinary_code E.

  Lemma sim_outcome {A} (Q : A -> Prop) m1 m2 s :
    sim E Q m1 m2 -> ordinary E s -> ~ out_of_fuel (m1 s) ->
    same_outcome (m1 s) (m2 s) /\ ordinary E (snd (fst (m1 s))).
  Proof.
    intros Hs HO Hf. unfold out_of_fuel in Hf.
    destruct (m1 s) as [[r1 s1] t1] eqn:H1. destruct (m2 s) as [[r2 s2] t2] eqn:H2.
    simpl in *. destruct (Hs _ _ _ _ _ _ _ HO H1 H2) as [->|(-> & -> & Ht & HO1 & _)];
      [congruence|]. auto.
  Qed.

  Lemma operations_lemma f o s :
    ordinary E s -> common_op o ->
    ~ out_of_fuel (perform (build ImplPy E) f o s) ->
    same_outcome (perform (build ImplPy E) f o s) (perform (builds ImplC cb E) f o s).
  Proof.
    intros HO Hc Hf. eapply sim_outcome; eauto.
    apply (si_op _ _ _ (interp_sim E cb Hw HC f)); auto.
  Qed.

  Lemma checks_lemma f m c obj n s :
    ordinary E s -> n <> "__iter__" \/ plain_object obj ->
    ~ out_of_fuel (do_check (build ImplPy E) f m c obj n s) ->
    same_outcome (do_check (build ImplPy E) f m c obj n s)
                 (do_check (builds ImplC cb E) f m c obj n s).
  Proof.
    intros HO Hc Hf. eapply sim_outcome; eauto.
    apply (si_check _ _ _ (interp_sim E cb Hw HC f)); auto.
  Qed.

  Lemma select_lemma f obj s :
    ordinary E s -> ~ out_of_fuel (do_select (build ImplPy E) f obj s) ->
    same_outcome (do_select (build ImplPy E) f obj s) (do_select (builds ImplC cb E) f obj s).
  Proof.
    intros HO Hf. eapply sim_outcome; eauto.
    apply (sim_selectChecker E cb _ _ (interp_sim E cb Hw HC f)).
  Qed.

  Lemma deco_free v : (forall d, v <> VDeco d) -> not_deco v.
  Proof. intros H. destruct v; simpl; auto. eapply H. reflexivity. Qed.

  Lemma proxy_lemma f c v s :
    ordinary E s -> (forall d, v <> VDeco d) ->
    ~ out_of_fuel (do_proxy (build ImplPy E) f c v s) ->
    same_outcome (do_proxy (build ImplPy E) f c v s) (do_proxy (builds ImplC cb E) f c v s).
  Proof.
    intros HO Hd Hf. eapply sim_outcome; eauto.
    apply (sim_checker_proxy E cb Hw HC _ _ (interp_sim E cb Hw HC f)). apply deco_free. auto.
  Qed.

  Lemma factory_lemma f obj c s :
    ordinary E s -> (forall d, obj <> VDeco d) ->
    ~ out_of_fuel (do_ProxyFactory (build ImplPy E) f obj c s) ->
    same_outcome (do_ProxyFactory (build ImplPy E) f obj c s)
                 (do_ProxyFactory (builds ImplC cb E) f obj c s).
  Proof.
    intros HO Hd Hf. eapply sim_outcome; eauto.
    apply (sim_ProxyFactory E cb Hw _ _ (interp_sim E cb Hw HC f)). apply deco_free. auto.
  Qed.

  Lemma canAccess_lemma f obj n s :
    ordinary E s -> (forall d, obj <> VDeco d) -> n <> "__iter__" ->
    ~ out_of_fuel (do_canAccess (build ImplPy E) f obj n s) ->
    same_outcome (do_canAccess (build ImplPy E) f obj n s)
                 (do_canAccess (builds ImplC cb E) f obj n s).
  Proof.
    intros HO Hd Hn Hf. eapply sim_outcome; eauto.
    apply (sim_canAccess E cb Hw _ _ (interp_sim E cb Hw HC f)); auto. apply deco_free. auto.
  Qed.

  Lemma canWrite_lemma f obj n s :
    ordinary E s -> (forall d, obj <> VDeco d) -> n <> "__iter__" ->
    ~ out_of_fuel (do_canWrite (build ImplPy E) f obj n s) ->
    same_outcome (do_canWrite (build ImplPy E) f obj n s)
                 (do_canWrite (builds ImplC cb E) f obj n s).
  Proof.
    intros HO Hd Hn Hf. eapply sim_outcome; eauto.
    apply (sim_canWrite E cb Hw _ _ (interp_sim E cb Hw HC f)); auto. apply deco_free. auto.
  Qed.

  Lemma item_full f o p w c s :
    ordinary E s -> item_of o = Some p -> st_prox s p = Some (w, VChk c) ->
    ~ out_of_fuel (perform (build ImplPy E) f o s) ->
    same_outcome (perform (build ImplPy E) f o s) (perform (builds ImplC cb E) f o s) /\
    ordinary E (snd (fst (perform (build ImplPy E) f o s))).
  Proof.
    intros HO Ho Hp Hf. unfold out_of_fuel in Hf. unfold perform in *.
    assert (Ho' : match o with
      | OSetitem (VProxy q) _ _ | ODelitem (VProxy q) _ | OContains (VProxy q) _ => q = p
      | _ => False
      end).
    { destruct o as [| | | | | | | | | |v x y|v x|v x| | | | | | | | |]; try discriminate;
        destruct v; try discriminate; injection Ho as ->; reflexivity. }
    assert (Hs := item_sim E cb Hw HC f Client o p w c Ho' (or_wrapped E s HO p w _ Hp)).
    destruct (i_op (interp_n (build ImplPy E) f) Client o s) as [[r1 s1] t1] eqn:H1.
    destruct (i_op (interp_n (builds ImplC cb E) f) Client o s) as [[r2 s2] t2] eqn:H2.
    simpl in *. destruct (Hs _ _ _ _ _ _ _ HO Hp H1 H2) as [->|(-> & -> & Ht & HO1 & _)];
      [congruence|]. auto.
  Qed.

  Lemma items_lemma f o p w c s :
    ordinary E s -> item_of o = Some p -> st_prox s p = Some (w, VChk c) ->
    ~ out_of_fuel (perform (build ImplPy E) f o s) ->
    same_outcome (perform (build ImplPy E) f o s) (perform (builds ImplC cb E) f o s).
  Proof. intros HO Ho Hp Hf. apply (item_full f o p w c s HO Ho Hp Hf). Qed.

  (** Attribute access: how the two results are related. *)
  Lemma getattr_cases f p n fr s r1 s1 t1 r2 s2 t2 :
    ordinary E s -> common_name n ->
    perform (build ImplPy E) f (OGetattr (VProxy p) n fr) s = (r1, s1, t1) ->
    perform (builds ImplC cb E) f (OGetattr (VProxy p) n fr) s = (r2, s2, t2) ->
    r1 <> Exc EFuel ->
    (exists e2 e1, r2 = Exc e2 /\ attribute_error e2 /\ r1 = Exc e1) \/
    (r1 = r2 /\ s1 = s2 /\ same_trace t1 t2 /\ ordinary E s1).
  Proof.
    intros HO Hn H1 H2 Hf. destruct f as [|f].
    { unfold perform in H1. simpl in H1. unfold raise in H1. congruence. }
    change (catch (py_getattribute (build ImplPy E) (interp_n (build ImplPy E) f) Client p n fr)
              (fun e => if is_attribute_error e
                        then py_getattr_fallback (interp_n (build ImplPy E) f) p n
                        else raise e) s = (r1, s1, t1)) in H1.
    change (c_check1 (builds ImplC cb E) (interp_n (builds ImplC cb E) f) p MGetattr n
              (fun w => i_op (interp_n (builds ImplC cb E) f) Client (OGetattr w n None)) s
            = (r2, s2, t2)) in H2.
    destruct (py_getattribute (build ImplPy E) (interp_n (build ImplPy E) f) Client p n fr s)
      as [[x1 y1] z1] eqn:G1.
    destruct (sim_getattribute E cb Hw HC _ _ (interp_sim E cb Hw HC f) Client p n fr Hn
                _ _ _ _ _ _ _ HO G1 H2) as [->|(<- & <- & Ht & HO1 & _)].
    { rewrite (catch_exc _ _ _ _ _ _ G1) in H1. simpl in H1. minj H1. congruence. }
    destruct x1 as [v|e].
    - rewrite (catch_ok _ _ _ _ _ _ G1) in H1. minj H1. right. auto.
    - rewrite (catch_exc _ _ _ _ _ _ G1) in H1. cbv beta in H1.
      destruct (is_attribute_error e) eqn:He.
      + left. apply attribute_error_iff in He.
        destruct (py_getattr_fallback (interp_n (build ImplPy E) f) p n y1) as [[a b] c] eqn:Hb.
        minj H1. unfold py_getattr_fallback in Hb.
        destruct r1 as [v|e1]; [exfalso|eauto].
        apply bind_inv in Hb. destruct Hb as [(e' & _ & Hb)|(wc & q1 & q2 & q3 & _ & Hb & _)];
          [discriminate|].
        apply bind_inv in Hb. destruct Hb as [(e' & _ & Hb)|(wc' & q4 & q5 & q6 & _ & Hb & _)];
          discriminate.
      + simpl in H1. minj H1. right. rewrite app_nil_r. auto.
  Qed.

  Lemma getattr_lemma f p n fr s v :
    ordinary E s -> common_name n ->
    fst (fst (perform (build ImplPy E) f (OGetattr (VProxy p) n fr) s)) = Ok v ->
    same_outcome (perform (build ImplPy E) f (OGetattr (VProxy p) n fr) s)
                 (perform (builds ImplC cb E) f (OGetattr (VProxy p) n fr) s).
  Proof.
    intros HO Hn Hv.
    destruct (perform (build ImplPy E) f (OGetattr (VProxy p) n fr) s) as [[r1 s1] t1] eqn:H1.
    destruct (perform (builds ImplC cb E) f (OGetattr (VProxy p) n fr) s) as [[r2 s2] t2] eqn:H2.
    simpl in Hv. subst r1. simpl.
    destruct (getattr_cases _ _ _ _ _ _ _ _ _ _ _ HO Hn H1 H2)
      as [(e2 & e1 & _ & _ & Hx)|(A & B & C & _)]; try discriminate. auto.
  Qed.

  Lemma getattr_error_lemma f p n fr s r1 s1 t1 e2 s2 t2 :
    ordinary E s -> common_name n ->
    perform (build ImplPy E) f (OGetattr (VProxy p) n fr) s = (r1, s1, t1) ->
    perform (builds ImplC cb E) f (OGetattr (VProxy p) n fr) s = (Exc e2, s2, t2) ->
    r1 <> Exc EFuel ->
    (exists e1, r1 = Exc e1) /\
    (~ attribute_error e2 -> r1 = Exc e2 /\ s1 = s2 /\ same_trace t1 t2).
  Proof.
    intros HO Hn H1 H2 Hf.
    destruct (getattr_cases _ _ _ _ _ _ _ _ _ _ _ HO Hn H1 H2 Hf)
      as [(e & e1 & He & Ha & ->)|(-> & -> & Ht & _)].
    - injection He as <-. split; [eauto|]. tauto.
    - split; [eauto|]. auto.
  Qed.

  (** ** Programs *)

  Lemma no_none_ordinary s d : ordinary E s -> no_none (table_of (st_dicts s d)).
  Proof.
    intros HO n Hn. apply (dget_In String.eqb String.eqb_spec) in Hn. exact (or_tables E s HO d n PNone Hn eq_refl).
  Qed.

  Lemma step_lemma f o s r s1 t1 :
    ordinary E s -> comparable s o r -> r <> Exc EFuel ->
    perform (build ImplPy E) (S (S (S f))) o s = (r, s1, t1) ->
    exists t2, perform (builds ImplC cb E) (S (S (S f))) o s = (r, s1, t2) /\
               same_trace t1 t2 /\ ordinary E s1.
  Proof.
    intros HO Hc Hf H1.
    destruct (perform (builds ImplC cb E) (S (S (S f))) o s) as [[r2 s2] t2] eqn:H2.
    assert (Hg : same_outcome (perform (build ImplPy E) (S (S (S f))) o s)
                              (perform (builds ImplC cb E) (S (S (S f))) o s) /\
                 ordinary E (snd (fst (perform (build ImplPy E) (S (S (S f))) o s))) ->
                 exists t3, (r2, s2, t2) = (r, s1, t3) /\ same_trace t1 t3 /\ ordinary E s1).
    { rewrite H1, H2. simpl. intros [(-> & -> & Ht) HO1]. eauto. }
    assert (Hn : ~ out_of_fuel (perform (build ImplPy E) (S (S (S f))) o s))
      by (rewrite H1; exact Hf).
    destruct Hc as [o r Hc|o r p w c Ho Hp|p n fr v Hn'|p n fr r w c g wt Hn' Hp Hpc Hg' Hav Hi].
    - apply Hg. eapply sim_outcome; eauto. apply (si_op _ _ _ (interp_sim E cb Hw HC _)); auto.
    - apply Hg. eapply item_full; eauto.
    - destruct (getattr_cases _ _ _ _ _ _ _ _ _ _ _ HO Hn' H1 H2 Hf)
        as [(e2 & e1 & _ & _ & Hx)|(<- & <- & Ht & HO1)]; [discriminate|]. eauto.
    - assert (HF : forall b d, perform (builds b d E) (S (S (S f))) (OGetattr (VProxy p) n fr) s =
                             (Exc (EForbidden n w), s, [])).
      { intros b d.
        assert (Hgn : no_none (table_of g) /\ no_none (table_of wt)).
        { destruct Hpc as (i & k & Hc & Hk & Hkk & <- & <-).
          split; apply no_none_ordinary; exact HO. }
        destruct Hgn as [Hng Hnw].
        eapply forbidden_lemma with (a := Read); eauto.
        - simpl. destruct b; simpl; [|reflexivity].
          destruct Hn' as [Hint Hu]. unfold internal_name in Hint. rewrite Hu.
          unfold internal_nameb.
          destruct (String.eqb_spec n "_wrapped"); [tauto|].
          destruct (String.eqb_spec n "_checker"); [tauto|]. reflexivity.
        }
      unfold build in H1. rewrite HF in H1. rewrite HF in H2. minj H1. minj H2. eexists. split; [reflexivity|].
      split; [reflexivity|exact HO].
  Qed.

  Lemma programs_lemma f c s h s' t :
    ordinary E s ->
    Runs (build ImplPy E) (S (S (S f))) (fun s o r => comparable s o r /\ r <> Exc EFuel)
         c s h s' t ->
    exists t', Runs (builds ImplC cb E) (S (S (S f))) (fun _ _ _ => True) c s h s' t' /\
               same_trace t t'.
  Proof.
    intros HO H. induction H as [s|o k s r s1 t1 h s' t Hp [Hc Hf] Hr IH].
    - exists []. split; [constructor|reflexivity].
    - destruct (step_lemma f o s r s1 t1 HO Hc Hf Hp) as (t2 & H2 & Ht & HO1).
      destruct (IH HO1) as (t' & Hr' & Ht').
      exists (t2 ++ t')%list. split; [econstructor; eauto|]. apply same_trace_app; auto.
  Qed.
End Compare.

(** ** Concrete programs *)

(** Foreign code that leaves the state alone.  Attributes hold the object [VObj 9],
    which cannot be called; there is no attribute [gone]; pow() with three arguments is
    left to the other operands; the str() of application objects is not defined. *)
Definition common_run (t : id) (c : call) (s : state) : res value * state :=
  match c with
  | CallOp (OCmp _ _ _) => (Ok (VBool true), s)
  | CallOp (OGetattr _ n _) =>
      (if String.eqb n "__Security_checker__" || String.eqb n "gone"
       then Exc (EAttribute n) else Ok (VObj 9), s)
  | CallOp (OCall _ _) => (Exc (EAttribute "func"), s)
  | CallOp (OPow3 _ _ _) => (Ok VNotImpl, s)
  | CallOp (OStr _) => (Exc (EValue "no text"), s)
  | CallPerm _ _ _ => (Ok (VBool true), s)
  | _ => quiet_run t c s
  end.

Definition common_env : env := wenv_run ImplPy common_run.

Definition b_dicts (i : id) : list (name * perm) :=
  match i with
  | 20 => [("foo", PPublic); ("bar", p_view); ("gone", p_view); ("__setitem__", PPublic);
           ("__contains__", PPublic); ("__add__", PPublic); ("__iadd__", PPublic);
           ("__str__", PPublic)]
  | 21 => [("bar", p_edit); ("foo", PPublic)]
  | 22 => [("nil", PNone)]
  | _ => []
  end.

Definition b_chks (i : id) : option checker :=
  match i with
  | 0 => Some (mkChecker 30 31 CkPlain)
  | 10 => Some (mkChecker 20 21 CkPlain)
  | _ => None
  end.

Definition b_prox (i : id) : option (value * value) :=
  match i with
  | 40 => Some (VObj 5, VChk 10)
  | _ => None
  end.

(** A proxy (identity 40) around [VObj 5] with checker 10; None and bool registered as
    not to be wrapped; an interaction object of the application in thread 0. *)
Definition b_state_with (dicts : id -> list (name * perm)) : state :=
  mkState 50 dicts b_chks b_prox (fun _ => None)
          [(KType "NoneType", VNoProxy); (KType "bool", VNoProxy)] []
          (fun t => match t with 0 => mkTl (Some (VObj 77)) None | _ => no_tl end)
          PolParanoid (fun _ => None) (fun _ => mkPart SystemUser None) 0.

Definition b_state : state :=
  b_state_with (fun i => match i with 22 => [] | _ => b_dicts i end).
(** The same with a None entry in the table of the checker. *)
Definition b_state_none : state :=
  b_state_with (fun i => match i with 20 => b_dicts 22 | _ => [] end).

Lemma common_code : ordinary_code common_env.
Proof.
  constructor.
  - intros t c s r s' H HO. assert (s' = s); [|subst; split; [exact HO|split; [lia|auto]]].
    destruct c as [o| | | |]; try (simpl in H; congruence).
    destruct o; simpl in H; try congruence.
  - intros t c s. destruct c as [o| | | |]; try reflexivity. destruct o; reflexivity.
  - intros t v fr s c s' H. simpl in H. discriminate.
  - intros t v fr s e s' H. simpl in H. injection H as <- _. exact I.
  - intros t v fr s e s' H. simpl in H. discriminate.
  - intros t c l r s v s' H. simpl in H. injection H as <- _. left. eexists. reflexivity.
  - intros t c s d s' H. destruct c as [o| | | |]; try (simpl in H; discriminate).
    destruct o; simpl in H; try discriminate. destruct (_ || _)%bool; discriminate.
Qed.

Lemma b_state_ordinary : ordinary common_env b_state.
Proof.
  constructor; simpl.
  - intros p x H. do 40 (destruct p as [|p]; [discriminate H|]).
    destruct p as [|p]; [|discriminate H]. simpl. lia.
  - intros p w c H. do 40 (destruct p as [|p]; [discriminate H|]).
    destruct p as [|p]; [injection H as <- <-; exact I|discriminate H].
  - intros d n p H ->.
    do 20 (destruct d as [|d]; [contradiction H|]).
    destruct d as [|d]; [simpl in H; repeat (destruct H as [H|H]; [discriminate H|]); exact H|].
    destruct d as [|d]; [simpl in H; repeat (destruct H as [H|H]; [discriminate H|]); exact H|].
    destruct d as [|d]; [contradiction H|]. contradiction H.
  - intros i k H. destruct i as [|i]; [injection H as <-; auto|].
    do 9 (destruct i as [|i]; [discriminate H|]).
    destruct i as [|i]; [injection H as <-; auto|discriminate H].
  - reflexivity.
  - reflexivity.
  - discriminate.
  - reflexivity.
Qed.

(** The result of an operation in build [b]. *)
Definition result (b : impl) (E : env) (o : op) (s : state) : res value :=
  fst (fst (perform (build b E) 9 o s)).
Definition asks (b : impl) (E : env) (o : op) (s : state) : nat :=
  List.length (filter is_ask (snd (perform (build b E) 9 o s))).

(** A program: read an attribute, compare what it gave with itself, store the result of
    that under the attribute, try to delete a forbidden one. *)
Definition b_client : client :=
  Do (OGetattr (VProxy 40) "foo" None) (fun r =>
    match r with
    | Ok v => Do (OCmp CEq v v) (fun r2 =>
        match r2 with
        | Ok x => Do (OSetitem (VProxy 40) x v) (fun _ =>
                  Do (OSetattr (VProxy 40) "foo" x) (fun _ =>
                  Do (OGetattr (VProxy 40) "secret" None) (fun _ =>
                  Do (ODelattr (VProxy 40) "baz") (fun _ => Done))))
        | Exc _ => Done
        end)
    | Exc _ => Done
    end).

Lemma b_client_runs :
  exists s' t,
    Runs (build ImplPy common_env) 9 (fun s o r => comparable s o r /\ r <> Exc EFuel)
      b_client b_state
      [(OGetattr (VProxy 40) "foo" None, Ok (VProxy 50));
       (OCmp CEq (VProxy 50) (VProxy 50), Ok (VBool true));
       (OSetitem (VProxy 40) (VBool true) (VProxy 50), Ok VNone);
       (OSetattr (VProxy 40) "foo" (VBool true), Ok VNone);
       (OGetattr (VProxy 40) "secret" None, Exc (EForbidden "secret" (VObj 5)));
       (ODelattr (VProxy 40) "baz", Exc (EForbidden "baz" (VObj 5)))]
      s' t.
Proof.
  assert (Hn : forall n, n <> "_wrapped" -> n <> "_checker" -> unchecked_read n = false ->
                         common_name n).
  { intros n H1 H2 H3. split; [|exact H3]. unfold internal_name. tauto. }
  eexists _, _.
  econstructor; [reflexivity|split; [apply Cm_read; apply Hn; try reflexivity; discriminate|discriminate]|].
  econstructor; [reflexivity|split; [apply Cm_common; exact I|discriminate]|].
  econstructor; [reflexivity|split; [|discriminate]|].
  { eapply Cm_item; reflexivity. }
  econstructor; [reflexivity|split; [|discriminate]|].
  { apply Cm_common. simpl. intros [H|H]; discriminate. }
  econstructor; [reflexivity|split; [|discriminate]|].
  { eapply Cm_refused.
    - apply Hn; try reflexivity; discriminate.
    - reflexivity.
    - eexists 10, _. repeat split.
    - reflexivity.
    - unfold always_available. simpl. intuition discriminate.
    - discriminate. }
  econstructor; [reflexivity|split; [|discriminate]|].
  { apply Cm_common. simpl. intros [H|H]; discriminate. }
  constructor.
Qed.

(** ** Where the builds differ *)

Lemma internal_refuted :
  exists E s p x, e_watch E = 0 /\ ordinary_code E /\ ordinary E s /\
    result ImplPy E (OSetattr (VProxy p) "_wrapped" x) s = Ok VNone /\
    exists n w, result ImplC E (OSetattr (VProxy p) "_wrapped" x) s = Exc (EForbidden n w).
Proof.
  exists common_env, b_state, 40, (VObj 6). split; [reflexivity|].
  split; [apply common_code|]. split; [apply b_state_ordinary|].
  split; [reflexivity|]. eexists _, _. reflexivity.
Qed.

Lemma cmp_read_refuted :
  exists E s p v, e_watch E = 0 /\ ordinary_code E /\ ordinary E s /\
    result ImplPy E (OGetattr (VProxy p) "__cmp__" None) s = Ok v /\
    exists n w, result ImplC E (OGetattr (VProxy p) "__cmp__" None) s = Exc (EForbidden n w).
Proof.
  exists common_env, b_state, 40, (VProxy 50). split; [reflexivity|].
  split; [apply common_code|]. split; [apply b_state_ordinary|].
  split; [reflexivity|]. eexists _, _. reflexivity.
Qed.

Lemma inplace_refuted :
  exists E s p x, e_watch E = 0 /\ ordinary_code E /\ ordinary E s /\ is_proxy x = false /\
    result ImplPy E (OIn IAdd (VProxy p) x) s <> result ImplC E (OIn IAdd (VProxy p) x) s.
Proof.
  exists common_env, b_state, 40, (VObj 6). split; [reflexivity|].
  split; [apply common_code|]. split; [apply b_state_ordinary|].
  split; [reflexivity|]. vm_compute. discriminate.
Qed.

(** An exception of the object's own [__str__]: shown as the fallback text by the Python
    proxy. *)
Lemma str_refuted :
  exists E s p txt e, e_watch E = 0 /\ ordinary_code E /\ ordinary E s /\
    result ImplPy E (OStr (VProxy p)) s = Ok (VStr txt) /\
    result ImplC E (OStr (VProxy p)) s = Exc e.
Proof.
  eexists common_env, b_state, 40, _, _. split; [reflexivity|].
  split; [apply common_code|]. split; [apply b_state_ordinary|]. split; reflexivity.
Qed.

(** An AttributeError raised inside [__length_hint__]. *)
Lemma length_hint_refuted :
  exists E s p n, e_watch E = 0 /\ ordinary_code E /\ ordinary E s /\
    result ImplPy E (OLenHint (VProxy p)) s = Exc (EAttribute n) /\
    result ImplC E (OLenHint (VProxy p)) s = Ok VNotImpl.
Proof.
  eexists common_env, b_state, 40, _. split; [reflexivity|].
  split; [apply common_code|]. split; [apply b_state_ordinary|]. split; reflexivity.
Qed.

(** pow(x, y, proxy): only the C proxy is consulted. *)
Lemma pow_refuted :
  exists E s p x y msg n w, e_watch E = 0 /\ ordinary_code E /\ ordinary E s /\
    result ImplPy E (OPow3 x y (VProxy p)) s = Exc (EType msg) /\
    result ImplC E (OPow3 x y (VProxy p)) s = Exc (EForbidden n w).
Proof.
  eexists common_env, b_state, 40, (VObj 6), (VObj 7), _, _, _.
  split; [reflexivity|]. split; [apply common_code|]. split; [apply b_state_ordinary|].
  split; reflexivity.
Qed.

(** A permitted attribute that is missing: the Python proxy asks the policy twice. *)
Lemma asked_twice_refuted :
  exists E s p n, e_watch E = 0 /\ ordinary_code E /\ ordinary E s /\ common_name n /\
    asks ImplPy E (OGetattr (VProxy p) n None) s = 2 /\
    asks ImplC E (OGetattr (VProxy p) n None) s = 1.
Proof.
  exists common_env, b_state, 40, "gone". split; [reflexivity|].
  split; [apply common_code|]. split; [apply b_state_ordinary|].
  split; [|split; reflexivity]. split; [|reflexivity]. unfold internal_name.
  intros [H|H]; discriminate.
Qed.

(** A table with a None entry. *)
Lemma none_entry_refuted :
  exists E s p n, e_watch E = 0 /\ ordinary_code E /\
    In (n, PNone) (st_dicts s 20) /\
    result ImplPy E (OGetattr (VProxy p) n None) s <>
    result ImplC E (OGetattr (VProxy p) n None) s.
Proof.
  exists common_env, b_state_none, 40, "nil". split; [reflexivity|].
  split; [apply common_code|]. split; [simpl; auto|]. vm_compute. discriminate.
Qed.

(** Exception objects whose class has no checker are wrapped by the Python
    implementation only. *)
Lemma exceptions_refuted :
  exists E s p n q v, e_watch E = 0 /\ ordinary_code E /\
    (forall T, e_isexc E T = true -> dget rkey_eqb (st_reg s) (KType T) = None) /\
    result ImplPy E (OGetattr (VProxy p) n None) s = Ok (VProxy q) /\
    result ImplC E (OGetattr (VProxy p) n None) s = Ok v /\ is_proxy v = false.
Proof.
  exists (mkEnv ImplPy ImplPy 0 0 (fun _ => "app.Error") (fun _ => "type")
            (fun T => String.eqb T "app.Error") (fun _ => "0x1") common_run),
         b_state, 40, "foo", 50, (VObj 9).
  split; [reflexivity|]. split.
  - assert (H := common_code). constructor.
    + intros t c s r s' Hr HO.
      assert (s' = s); [|subst; split; [exact HO|split; [lia|auto]]].
      simpl in Hr. destruct c as [o| | | |]; try (simpl in Hr; congruence).
      destruct o; simpl in Hr; congruence.
    + exact (oc_erase _ H).
    + exact (oc_own _ H).
    + exact (oc_own_exc _ H).
    + exact (oc_iter_exc _ H).
    + exact (oc_compare _ H).
    + exact (oc_decorators _ H).
  - split; [|repeat split]. intros T HT. simpl in HT. apply String.eqb_eq in HT. subst T.
    reflexivity.
Qed.

(** An object whose [__Security_checker__] is None, raises something other than an
    AttributeError; a comparison that does not give a boolean; [__iter__] raising. *)
Definition odd_run (own cmp iter : res value) (t : id) (c : call) (s : state)
  : res value * state :=
  match c with
  | CallOp (OCmp _ _ _) => (cmp, s)
  | CallOp (OGetattr _ n _) =>
      (if String.eqb n "__Security_checker__" then own
       else if String.eqb n "__iter__" then iter else Ok (VObj 9), s)
  | _ => quiet_run t c s
  end.
Definition odd_env own cmp iter : env := wenv_run ImplPy (odd_run own cmp iter).
Definition no_own : res value := Exc (EAttribute "__Security_checker__").

Lemma b_state_odd own cmp iter : ordinary (odd_env own cmp iter) b_state.
Proof. destruct b_state_ordinary as [A B C D F G K L]. constructor; auto. Qed.

Lemma own_none_refuted :
  exists E s p n q msg, e_watch E = 0 /\ ordinary E s /\
    (forall t v fr s0, e_run E t (CallOp (OGetattr v "__Security_checker__" fr)) s0
                       = (Ok VNone, s0)) /\
    result ImplPy E (OGetattr (VProxy p) n None) s = Ok (VProxy q) /\
    result ImplC E (OGetattr (VProxy p) n None) s = Exc (EValue msg).
Proof.
  eexists (odd_env (Ok VNone) (Ok (VBool true)) (Ok (VObj 9))), b_state, 40, "foo", _, _.
  split; [reflexivity|]. split; [apply b_state_odd|]. repeat split.
Qed.

Lemma own_error_refuted :
  exists E s p n q e, e_watch E = 0 /\ ordinary E s /\ ~ attribute_error e /\
    result ImplPy E (OGetattr (VProxy p) n None) s = Exc e /\
    result ImplC E (OGetattr (VProxy p) n None) s = Ok (VProxy q).
Proof.
  eexists (odd_env (Exc (EValue "broken")) (Ok (VBool true)) (Ok (VObj 9))), b_state, 40, "foo", _,
    (EValue "broken").
  split; [reflexivity|]. split; [apply b_state_odd|]. split; [intros H; exact H|]. repeat split.
Qed.

Lemma comparison_refuted :
  exists E s p x q v, e_watch E = 0 /\ ordinary E s /\ is_proxy v = false /\
    result ImplPy E (OCmp CEq (VProxy p) x) s = Ok v /\
    result ImplC E (OCmp CEq (VProxy p) x) s = Ok (VProxy q).
Proof.
  eexists (odd_env no_own (Ok (VObj 9)) (Ok (VObj 9))), b_state, 40, (VObj 6), _, (VObj 9).
  split; [reflexivity|]. split; [apply b_state_odd|]. repeat split.
Qed.

Lemma iter_refuted :
  exists E s c obj e, e_watch E = 0 /\ ordinary E s /\ ~ attribute_error e /\
    fst (fst (do_check (build ImplPy E) 9 MCheck c obj "__iter__" s)) = Exc e /\
    fst (fst (do_check (build ImplC E) 9 MCheck c obj "__iter__" s)) = Ok tt.
Proof.
  eexists (odd_env no_own (Ok (VBool true)) (Exc (EValue "broken"))), b_state, (VChk 10),
    (VObj 5), (EValue "broken").
  split; [reflexivity|]. split; [apply b_state_odd|].
  split; [intros H; exact H|]. split; reflexivity.
Qed.
