(** * AdapterProps: lemmas in the form used by Properties_Adapter. *)

From Coq Require Import List String Bool Arith ZArith Lia.
From Verif Require Import Base Domain CheckerModel ProxyModel MFacts Spec RegSpec Witness
  CheckFacts CombineFacts CheckProps RegistryFacts RegistryProps ProxySpec FactorySpec SafeFacts
  ProxyFacts ProxyOps ProxyResults Factory Adapter AdapterSpec AdapterFacts DecoFacts.
Import ListNotations.
Open Scope string_scope.
Open Scope m_scope.

Lemma proxied_lemma E f k factory args args' s r s' t :
  is_proxy factory = false -> no_self_wrap s -> Stripped s args args' -> some_proxy args ->
  do_trusted E (S f) k factory args s = (r, s', t) ->
  (exists rest, t = factory_call E factory args' :: rest) /\
  (forall e s1, e_run E (e_tid E) (CallOp (OCall factory args')) s = (Exc e, s1) ->
     r = Exc e /\ s' = s1 /\ t = [factory_call E factory args']) /\
  (forall u, r = Ok u -> is_proxy u = true \/ needs_none E s' t u).
Proof.
  intros Hf Hn HS Hp H.
  rewrite (trusted_proxied_lemma E f k factory args args' s Hf Hn HS Hp) in H.
  destruct (e_run E (e_tid E) (CallOp (OCall factory args')) s) as [[a|e] s1].
  - destruct ((b <- place (interp_n E (S f)) (wraps_protected k) a (hd VNone args') ;;
               do_ProxyFactory E (S f) b VNone) s1) as [[r2 s2] t2] eqn:Hb.
    minj H. split; [eauto|]. split; [intros; discriminate|].
    intros u ->. mbind Hb; [discriminate|]. apply factory_protected in Hf0.
    destruct Hf0 as [Hu|[-> HR]]; [auto|]. right. eapply needs_none_more; [|exact HR].
    subst. apply incl_tl, incl_appr, incl_refl.
  - minj H. split; [eauto|]. split; [|intros; discriminate].
    intros e0 s0 He. minj He. auto.
Qed.

Lemma located_proxied_lemma E f k factory args args' s a s1 :
  is_proxy factory = false -> no_self_wrap s -> Stripped s args args' -> some_proxy args ->
  provided_is_bool E ->
  e_run E (e_tid E) (CallOp (OCall factory args')) s = (Ok a, s1) -> plain_object a ->
  exists r2 s2 t2,
    Placed E (match k with Locating => true | Plain => false end) a (hd VNone args') s1 r2 s2 t2 /\
    match r2 with
    | Exc e => do_trusted E (S f) k factory args s =
               (Exc e, s2, factory_call E factory args' :: t2)
    | Ok b => exists r s' t3,
        do_ProxyFactory E (S f) b VNone s2 = (r, s', t3) /\
        do_trusted E (S f) k factory args s =
        (r, s', factory_call E factory args' :: t2 ++ t3)
    end.
Proof.
  intros Hf Hn HS Hp Hb Hr Ha.
  destruct (placed_lemma E f (wraps_protected k) a (hd VNone args') s1 Ha Hb)
    as (r2 & s2 & t2 & Hpl & HP).
  exists r2, s2, t2. split; [destruct k; exact HP|].
  rewrite (trusted_proxied_lemma E f k factory args args' s Hf Hn HS Hp), Hr.
  destruct r2 as [b|e].
  - destruct (do_ProxyFactory E (S f) b VNone s2) as [[r s3] t3] eqn:HF.
    exists r, s3, t3. split; [reflexivity|].
    rewrite (bind_ok _ _ _ _ _ _ Hpl), HF. reflexivity.
  - rewrite (bind_exc _ _ _ _ _ _ Hpl). reflexivity.
Qed.

Lemma plain_args_lemma E f k factory args s r s' t :
  is_proxy factory = false -> ~ some_proxy args ->
  do_trusted E (S f) k factory args s = (r, s', t) ->
  (exists rest, t = factory_call E factory args :: rest) /\
  (forall u, r = Ok u ->
     exists s1, e_run E (e_tid E) (CallOp (OCall factory args)) s = (Ok u, s1)).
Proof.
  intros Hf Hp H. rewrite (trusted_plain_lemma E f k factory args s Hf Hp) in H.
  destruct (e_run E (e_tid E) (CallOp (OCall factory args)) s) as [[a|e] s1].
  - destruct args as [|c args].
    + minj H. split; [eauto|]. intros; discriminate.
    + destruct (place (interp_n E (S f)) false a c s1) as [[r2 s2] t2] eqn:Hpl. minj H.
      split; [eauto|]. intros u ->.
      destruct (place_result E f false a c s1 u s' t2 Hpl) as [->|[Hx _]]; [eauto|discriminate].
  - minj H. split; [eauto|]. intros; discriminate.
Qed.

(** The three factories on plain adapters, context [c]. *)
Lemma located_plain_lemma E f k factory c args s a s1 :
  is_proxy factory = false -> ~ some_proxy (c :: args) -> provided_is_bool E ->
  e_run E (e_tid E) (CallOp (OCall factory (c :: args))) s = (Ok a, s1) -> plain_object a ->
  exists r s' t, Placed E false a c s1 r s' t /\
    do_trusted E (S f) k factory (c :: args) s =
    (r, s', factory_call E factory (c :: args) :: t).
Proof.
  intros Hf Hp Hb Hr Ha.
  destruct (placed_lemma E f false a c s1 Ha Hb) as (r2 & s2 & t2 & Hpl & HP).
  exists r2, s2, t2. split; [exact HP|].
  rewrite (trusted_plain_lemma E f k factory _ s Hf Hp), Hr, Hpl. reflexivity.
Qed.

Lemma located_untrusted_lemma E f factory c args s a s1 :
  is_proxy factory = false -> provided_is_bool E ->
  e_run E (e_tid E) (CallOp (OCall factory (c :: args))) s = (Ok a, s1) -> plain_object a ->
  exists r s' t, Placed E true a c s1 r s' t /\
    do_untrusted E (S f) factory (c :: args) s =
    (r, s', factory_call E factory (c :: args) :: t).
Proof.
  intros Hf Hb Hr Ha.
  destruct (placed_lemma E f true a c s1 Ha Hb) as (r2 & s2 & t2 & Hpl & HP).
  exists r2, s2, t2. split; [exact HP|].
  rewrite (untrusted_lemma E f factory _ s Hf), Hr, Hpl. reflexivity.
Qed.

Lemma assert_lemma E f a parent s :
  plain_object a -> provided_is_bool E ->
  exists r s' t, do_assertLocation E (S f) a parent s = (r, s', t) /\
                 Placed E true a parent s r s' t.
Proof. exact (placed_lemma E f true a parent s). Qed.

Lemma assert_any_lemma E f a parent s u s' t :
  do_assertLocation E (S f) a parent s = (Ok u, s', t) ->
  u = a \/ exists d, u = VDeco d /\ st_decos s' d = Some (mkDeco "LocationProxy" a parent).
Proof.
  intros H. destruct (place_result E f true a parent s u s' t H) as [->|[_ Hd]]; auto.
Qed.

Lemma never_overwrites_lemma E wrap a parent s r s' t b q :
  Placed E wrap a parent s r s' t ->
  In (ECall Client (e_tid E) (write_parent b q)) t ->
  b = a /\ q = parent /\
  exists s1 s2, e_run E (e_tid E) (ask_located a) s = (Ok (VBool true), s1) /\
                e_run E (e_tid E) (read_parent a) s1 = (Ok VNone, s2).
Proof.
  intros HP Hin.
  assert (HA : ECall Client (e_tid E) (write_parent b q) <> ECall Probe (e_tid E) (ask_located a))
    by discriminate.
  assert (HR : ECall Client (e_tid E) (write_parent b q) <> ECall Client (e_tid E) (read_parent a))
    by discriminate.
  assert (HW : ECall Client (e_tid E) (write_parent a parent) =
               ECall Client (e_tid E) (write_parent b q) -> b = a /\ q = parent)
    by (intros H; injection H; auto).
  destruct HP; cbn [In] in Hin.
  all: try (exfalso; intuition congruence).
  all: assert (Hbq : b = a /\ q = parent) by (apply HW; intuition congruence).
  all: destruct Hbq as [Hb Hq].
  all: refine (conj Hb (conj Hq _)).
  all: do 2 eexists.
  all: split; eassumption.
Qed.

(** ** Witnesses *)

(** Nested proxies: 42 wraps proxy 40. *)
Definition nested_state : state :=
  set_prox (upd w_prox 42 (Some (VProxy 40, VChk 10))) w_state.

Lemma nested_refuted_lemma :
  exists E k factory args args' s r s' t,
    is_proxy factory = false /\ no_self_wrap s /\ Stripped s args args' /\
    do_trusted E 3 k factory args s = (r, s', t) /\
    In (factory_call E factory args') t /\ some_proxy args'.
Proof.
  exists (wenv ImplPy), Plain, (VObj 9), [VProxy 42], [VProxy 40], nested_state.
  do 3 eexists. split; [reflexivity|]. split.
  { intros p w c H. unfold nested_state in H. simpl in H. unfold upd in H.
    destruct (Nat.eqb_spec 42 p) as [<-|Hne].
    - injection H as <- _. discriminate.
    - destruct (Nat.eqb_spec p 42); [congruence|]. unfold w_prox in H.
      repeat (destruct p as [|p]; try (injection H as <- _; discriminate); try discriminate). }
  split.
  { eapply St_proxy; [reflexivity|constructor]. }
  split; [vm_compute; reflexivity|]. split; [left; reflexivity|]. exists 40. left. reflexivity.
Qed.

(** A decorator (identity 43, class app.Deco) on object 5; app.Deco is registered with
    checker [c], app.Thing with checker [c2]. *)
Definition deco_state (c c2 : value) : state :=
  set_reg [(KType "app.Deco", c); (KType "app.Thing", c2)]
    (set_decos (fun i => match i with 43 => Some (mkDeco "app.Deco" (VObj 5) VNone)
                                 | _ => None end) (w_state_in false)).

Lemma combined_wrapper_refuted_lemma :
  exists E s d x c s' t,
    e_watch E = 0 /\ st_decos s d = Some x /\
    do_select E 3 (VDeco d) s = (Ok (Some c), s, []) /\
    do_check E 3 MGetattr c (VDeco d) "baz" s = (Ok tt, s, []) /\
    exists c',
      perform E 3 (OGetattr (VDeco d) sec None) s = (Ok c', s', t) /\
      do_check E 3 MGetattr c' (VDeco d) "baz" s' = (Exc (EForbidden "baz" (VDeco d)), s', []).
Proof.
  exists (wenv ImplPy), (deco_state (VChk 12) (VChk 15)), 43, (mkDeco "app.Deco" (VObj 5) VNone),
    (VChk 12).
  eexists. eexists. split; [reflexivity|]. split; [reflexivity|].
  split; [vm_compute; reflexivity|]. split; [vm_compute; reflexivity|].
  eexists. split; [vm_compute; reflexivity|]. vm_compute. reflexivity.
Qed.

Lemma wenv_provided b : provided_is_bool (wenv_run b (fun t c s =>
  match c with
  | CallOp (OCall (VClass "zope.location.interfaces.ILocation.providedBy") _) =>
      (Ok (VBool false), s)
  | CallOp (OCall _ _) => (Ok (VObj 8), s)
  | _ => quiet_run t c s
  end)).
Proof.
  intros a s v s1 H. simpl in H. injection H as <- <-. eauto.
Qed.
