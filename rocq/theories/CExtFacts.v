(** * CExtFacts: a small program logic for the C code, and proofs. *)

From Coq Require Import List Bool Arith ZArith Lia.
From Verif Require Import CExt CExtSpec.
Import ListNotations.
Open Scope Z_scope.

Definition wp {A} (m : C A) (s : cst) (Q : A -> cst -> Prop) : Prop :=
  match m s with None => True | Some (a, s') => Q a s' end.

Lemma wp_ret {A} (a : A) s (Q : A -> cst -> Prop) : Q a s -> wp (ret a) s Q.
Proof. auto. Qed.

Lemma wp_bind {A B} (m : C A) (f : A -> C B) s (Q : B -> cst -> Prop) :
  wp m s (fun a s' => wp (f a) s' Q) -> wp (bind m f) s Q.
Proof. unfold wp, bind. destruct (m s) as [[a s']|]; auto. Qed.

Lemma wp_mono {A} (m : C A) s (Q Q' : A -> cst -> Prop) :
  wp m s Q -> (forall a s', Q a s' -> Q' a s') -> wp m s Q'.
Proof. unfold wp. destruct (m s) as [[a s']|]; auto. Qed.

Lemma bump_same o z L : bump o z L o = L o + z.
Proof. unfold bump. rewrite Nat.eqb_refl. reflexivity. Qed.

Section Logic.
  Variable oracle : nat -> answer.
  Variable args : list obj.

  Record A (L : obj -> Z) (e : bool) (W : list obj) (F1 F2 : obj -> ptr) (s : cst) : Prop := mkA {
    A_fault : fault s = false;
    A_own : forall o, own s o = L o;
    A_pos : forall o, 0 <= L o;
    A_exc : exc s = e;
    A_weak : forall o, In o W -> In o (weak s) /\ kept oracle o;
    A_f1 : forall x, f1 s x = F1 x;
    A_f2 : forall x, f2 s x = F2 x }.

  (** Why an object is known to exist. *)
  Definition safe (L : obj -> Z) (W : list obj) (F1 F2 : obj -> ptr) (o : obj) : Prop :=
    static o = true \/ In o args \/ (exists a, In a args /\ (F1 a = Some o \/ F2 a = Some o)) \/
    0 < L o \/ In o W.
  Definition safe_ptr L W F1 F2 (p : ptr) : Prop := exists o, p = Some o /\ safe L W F1 F2 o.

  Lemma safe_alive L e W F1 F2 s o : A L e W F1 F2 s -> safe L W F1 F2 o -> alive args s o = true.
  Proof.
    intros [_ Ho _ _ Hw H1 H2] Hs. unfold alive. rewrite !orb_true_iff, !existsb_exists.
    destruct Hs as [H|[H|[[a [Ha H]]|[H|H]]]].
    - auto.
    - left. left. left. right. exists o. split; [exact H|apply Nat.eqb_refl].
    - left. left. right. exists a. split; [exact Ha|]. rewrite H1, H2.
      destruct H as [->| ->]; unfold is_ptr; rewrite Nat.eqb_refl, ?orb_true_r; reflexivity.
    - left. right. apply Z.ltb_lt. rewrite Ho. exact H.
    - right. exists o. split; [apply Hw, H|apply Nat.eqb_refl].
  Qed.

  Lemma wp_use L e W F1 F2 p s (Q : unit -> cst -> Prop) :
    A L e W F1 F2 s -> safe_ptr L W F1 F2 p -> Q tt s -> wp (use args p) s Q.
  Proof.
    intros HA [o [-> Ho]] HQ. unfold wp, use. rewrite (safe_alive L e W F1 F2 s o HA Ho). exact HQ.
  Qed.

  Lemma wp_uses L e W F1 F2 l s (Q : unit -> cst -> Prop) :
    A L e W F1 F2 s -> (forall p, In p l -> safe_ptr L W F1 F2 p) -> Q tt s -> wp (uses args l) s Q.
  Proof.
    intros HA. induction l as [|p l IH]; intros Hl HQ; [exact HQ|].
    cbn [uses]. apply wp_bind. apply (wp_use L e W F1 F2); [exact HA|apply Hl; left; reflexivity|].
    apply IH; [intros q Hq; apply Hl; right; exact Hq|exact HQ].
  Qed.

  Lemma A_step L e W F1 F2 s : A L e W F1 F2 s ->
    A L e W F1 F2 (mkC (own s) (exc s)
      (filter (fun o => negb (an_drops (oracle (step s)) o)) (weak s)) (fault s) (S (step s)) (f1 s) (f2 s) (log s)).
  Proof.
    intros [Hf Ho Hp He Hw H1 H2]. split; simpl; auto.
    intros o Hi. destruct (Hw o Hi) as [Hin Hk]. split; [|exact Hk].
    apply filter_In. split; [exact Hin|]. rewrite (Hk (step s)). reflexivity.
  Qed.

  Lemma wp_elsewhere L e W F1 F2 s (Q : answer -> cst -> Prop) :
    A L e W F1 F2 s -> (forall a s', A L e W F1 F2 s' -> Q a s') -> wp (elsewhere oracle) s Q.
  Proof. intros HA HQ. unfold wp, elsewhere. apply HQ, A_step, HA. Qed.

  Lemma wp_call L W F1 F2 l s (Q : answer -> cst -> Prop) :
    A L false W F1 F2 s -> (forall p, In p l -> safe_ptr L W F1 F2 p) ->
    (forall a s', A L false W F1 F2 s' -> Q a s') -> wp (call oracle args l) s Q.
  Proof.
    intros HA Hl HQ. unfold call. apply wp_bind. apply (wp_uses L false W F1 F2); auto.
    apply wp_bind. unfold wp. rewrite (A_exc _ _ _ _ _ _ HA). apply (wp_elsewhere L false W F1 F2); auto.
  Qed.

  Lemma A_setexc L e b W F1 F2 s : A L e W F1 F2 s -> A L b W F1 F2 (set_exc b s).
  Proof. intros [Hf Ho Hp He Hw H1 H2]. split; simpl; auto. Qed.

  Lemma A_bump L e W F1 F2 s o z : A L e W F1 F2 s -> 0 <= L o + z ->
    A (bump o z L) e W F1 F2 (set_own (bump o z (own s)) s).
  Proof.
    intros [Hf Ho Hp He Hw H1 H2] Hz. split; simpl; auto.
    - intros x. unfold bump. rewrite Ho. reflexivity.
    - intros x. unfold bump. destruct (Nat.eqb_spec x o) as [->|_]; auto.
  Qed.

  Lemma wp_raise L e W F1 F2 s (Q : unit -> cst -> Prop) :
    A L e W F1 F2 s -> (forall s', A L true W F1 F2 s' -> Q tt s') -> wp raise_exc s Q.
  Proof. intros HA HQ. unfold wp, raise_exc. apply HQ. eapply A_setexc, HA. Qed.

  Lemma wp_err_clear L e W F1 F2 s (Q : unit -> cst -> Prop) :
    A L e W F1 F2 s -> (forall s', A L false W F1 F2 s' -> Q tt s') -> wp PyErr_Clear s Q.
  Proof. intros HA HQ. unfold wp, PyErr_Clear. apply HQ. eapply A_setexc, HA. Qed.

  Lemma wp_note L e W F1 F2 k l x s (Q : unit -> cst -> Prop) :
    A L e W F1 F2 s -> (forall s', A L e W F1 F2 s' -> Q tt s') -> wp (note k l x) s Q.
  Proof. intros [Hf Ho Hp He Hw H1 H2] HQ. apply HQ. split; auto. Qed.

  Lemma wp_call_new L W F1 F2 k l s (Q : ptr -> cst -> Prop) :
    A L false W F1 F2 s -> (forall p, In p l -> safe_ptr L W F1 F2 p) ->
    (forall s', A L true W F1 F2 s' -> Q None s') ->
    (forall o s', A (bump o 1 L) false W F1 F2 s' -> Q (Some o) s') ->
    wp (call_new oracle args k l) s Q.
  Proof.
    intros HA Hl HN HS. unfold call_new. apply wp_bind. apply (wp_call L W F1 F2); auto.
    intros a s' HA'. destruct (an_ptr a) as [o|]; apply wp_bind;
      apply (wp_note L false W F1 F2 _ _ _ _ _ HA'); intros s2 HA2.
    - unfold wp. apply HS. apply A_bump; auto. pose proof (A_pos _ _ _ _ _ _ HA2 o). lia.
    - apply wp_bind. apply (wp_raise L false W F1 F2); auto.
  Qed.

  Lemma wp_call_int L W F1 F2 k l s (Q : Z -> cst -> Prop) :
    A L false W F1 F2 s -> (forall p, In p l -> safe_ptr L W F1 F2 p) ->
    (forall s', A L true W F1 F2 s' -> Q (-1) s') ->
    (forall n s', A L false W F1 F2 s' -> 0 <= n -> Q n s') ->
    wp (call_int oracle args k l) s Q.
  Proof.
    intros HA Hl HN HS. unfold call_int. apply wp_bind. apply (wp_call L W F1 F2); auto.
    intros a s' HA'. destruct (an_neg a); apply wp_bind;
      apply (wp_note L false W F1 F2 _ _ _ _ _ HA'); intros s2 HA2.
    - apply wp_bind. apply (wp_raise L false W F1 F2); auto.
    - apply wp_ret. apply HS; [exact HA2|lia].
  Qed.

  Lemma wp_call_flag L W F1 F2 k l s (Q : bool -> cst -> Prop) :
    A L false W F1 F2 s -> (forall p, In p l -> safe_ptr L W F1 F2 p) ->
    (forall b s', A L false W F1 F2 s' -> Q b s') ->
    wp (call_flag oracle args k l) s Q.
  Proof.
    intros HA Hl HQ. unfold call_flag. apply wp_bind. apply (wp_call L W F1 F2); auto.
    intros a s' HA'. apply wp_bind. apply (wp_note L false W F1 F2 _ _ _ _ _ HA'). intros s2 HA2.
    apply wp_ret. auto.
  Qed.

  Lemma wp_getitem L W F1 F2 d k s (Q : ptr -> cst -> Prop) :
    A L false W F1 F2 s -> safe_ptr L W F1 F2 d -> safe_ptr L W F1 F2 k ->
    (forall s', A L false W F1 F2 s' -> Q None s') ->
    (forall o s', A L false W F1 F2 s' -> In o (weak s') -> Q (Some o) s') ->
    wp (PyDict_GetItem oracle args d k) s Q.
  Proof.
    intros HA Hd Hk HN HS. unfold PyDict_GetItem. apply wp_bind. apply (wp_call L W F1 F2); auto.
    { intros p [<-|[<-|[]]]; assumption. }
    intros a s' HA'. destruct (an_ptr a) as [o|]; apply wp_bind;
      apply (wp_note L false W F1 F2 _ _ _ _ _ HA'); intros s2 HA2; [|apply wp_ret; auto].
    unfold wp. apply HS; [|left; reflexivity].
    destruct HA2 as [Hf Ho Hp He Hw H1 H2]. split; simpl; auto.
    intros x Hx. destruct (Hw x Hx). split; [right|]; assumption.
  Qed.

  (** Counting on a borrowed reference. *)
  Lemma A_borrow L e W F1 F2 s o :
    A L e W F1 F2 s -> In o (weak s) -> kept oracle o -> A L e (o :: W) F1 F2 s.
  Proof.
    intros [Hf Ho Hp He Hw H1 H2] Hi Hk. split; auto.
    intros x [<-|Hx]; auto.
  Qed.

  Lemma wp_incref L e W F1 F2 p o s (Q : unit -> cst -> Prop) :
    A L e W F1 F2 s -> p = Some o -> safe L W F1 F2 o \/ In o (weak s) ->
    (forall s', A (bump o 1 L) e W F1 F2 s' -> Q tt s') ->
    wp (incref args p) s Q.
  Proof.
    intros HA -> Hs HQ. unfold incref. apply wp_bind. unfold wp at 1, use.
    assert (Ha : alive args s o = true).
    { destruct Hs as [Hs|Hs]; [exact (safe_alive L e W F1 F2 s o HA Hs)|].
      unfold alive. rewrite !orb_true_iff, !existsb_exists. right. exists o.
      split; [exact Hs|apply Nat.eqb_refl]. }
    rewrite Ha. unfold wp. apply HQ. apply A_bump; [exact HA|].
    pose proof (A_pos _ _ _ _ _ _ HA o). lia.
  Qed.

  Lemma wp_decref L e W F1 F2 p o s (Q : unit -> cst -> Prop) :
    A L e W F1 F2 s -> p = Some o -> 0 < L o ->
    (forall s', A (bump o (-1) L) e W F1 F2 s' -> Q tt s') ->
    wp (decref oracle p) s Q.
  Proof.
    intros HA -> HL HQ. unfold decref. apply wp_bind. unfold wp at 1.
    rewrite (A_own _ _ _ _ _ _ HA o). rewrite (proj2 (Z.ltb_lt 0 (L o)) HL).
    apply wp_bind. apply (wp_elsewhere (bump o (-1) L) e W F1 F2).
    - apply A_bump; [exact HA|lia].
    - intros a s' HA'. apply wp_ret. auto.
  Qed.

  Lemma wp_get1 L e W F1 F2 x s (Q : ptr -> cst -> Prop) :
    A L e W F1 F2 s -> safe L W F1 F2 x -> Q (F1 x) s -> wp (get1 args x) s Q.
  Proof.
    intros HA Hx HQ. unfold get1. apply wp_bind.
    apply (wp_use L e W F1 F2); [exact HA|exists x; auto|].
    unfold wp. rewrite (A_f1 _ _ _ _ _ _ HA). exact HQ.
  Qed.

  Lemma wp_get2 L e W F1 F2 x s (Q : ptr -> cst -> Prop) :
    A L e W F1 F2 s -> safe L W F1 F2 x -> Q (F2 x) s -> wp (get2 args x) s Q.
  Proof.
    intros HA Hx HQ. unfold get2. apply wp_bind.
    apply (wp_use L e W F1 F2); [exact HA|exists x; auto|].
    unfold wp. rewrite (A_f2 _ _ _ _ _ _ HA). exact HQ.
  Qed.

  Lemma wp_deref L e W F1 F2 p o s (Q : obj -> cst -> Prop) :
    A L e W F1 F2 s -> p = Some o -> safe L W F1 F2 o -> Q o s -> wp (deref args p) s Q.
  Proof.
    intros HA -> Ho HQ. unfold deref. apply wp_bind.
    apply (wp_use L e W F1 F2); [exact HA|exists o; auto|exact HQ].
  Qed.

  Lemma wp_setobject L e W F1 F2 c v s (Q : unit -> cst -> Prop) :
    A L e W F1 F2 s -> safe_ptr L W F1 F2 c -> safe_ptr L W F1 F2 v ->
    (forall s', A L true W F1 F2 s' -> Q tt s') -> wp (PyErr_SetObject args c v) s Q.
  Proof.
    intros HA Hc Hv HQ. unfold PyErr_SetObject. apply wp_bind.
    apply (wp_uses L e W F1 F2); [exact HA|intros p [<-|[<-|[]]]; assumption|].
    apply wp_bind. apply (wp_note L e W F1 F2); [exact HA|]. intros s1 HA1.
    apply (wp_raise L e W F1 F2); auto.
  Qed.

  (** ** _proxy.c *)
  Variables is_proxy is_checker is_str exact_proxy has_sub has_ass has_num has_next : obj -> bool.
  Variables char0 char1 is_iter : obj -> bool.

  Section Fixed.
    Variables F1 F2 : obj -> ptr.
    Hypothesis complete : forall x, In x args -> is_proxy x = true -> F1 x <> None /\ F2 x <> None.

    (** A proxy argument: its struct. *)
    Lemma proxy_fields p : In p args -> is_proxy p = true ->
      exists ob chk, F1 p = Some ob /\ F2 p = Some chk /\
        (forall L W, safe L W F1 F2 ob) /\ (forall L W, safe L W F1 F2 chk).
    Proof.
      intros Hi Hp. destruct (complete p Hi Hp) as [H1 H2].
      destruct (F1 p) as [ob|] eqn:E1; [|congruence]. destruct (F2 p) as [chk|] eqn:E2; [|congruence].
      exists ob, chk. split; [reflexivity|]. split; [reflexivity|].
      split; intros L W; right; right; left; exists p; auto.
    Qed.

    Lemma safe_arg L W x : In x args -> safe L W F1 F2 x.
    Proof. right. left. exact H. Qed.
    Lemma safe_static L W x : static x = true -> safe L W F1 F2 x.
    Proof. left. exact H. Qed.

    (** An object that is known to exist throughout. *)
    Definition good (p : ptr) : Prop := exists o, p = Some o /\ (static o = true \/ In o args).
    Lemma good_safe L W p : good p -> safe_ptr L W F1 F2 p.
    Proof. intros [o [-> H]]. exists o. split; [reflexivity|]. destruct H as [H|H]; [left|right; left]; exact H. Qed.

    Lemma wp_check L W self meth name s (Q : Z -> cst -> Prop) :
      A L false W F1 F2 s -> In self args -> is_proxy self = true ->
      static meth = true -> safe L W F1 F2 name ->
      (forall s', A L true W F1 F2 s' -> Q (-1) s') ->
      (forall n s', A L false W F1 F2 s' -> 0 <= n -> Q n s') ->
      wp (check oracle args has_ass self meth name) s Q.
    Proof.
      intros HA Hi Hp Hm Hn HN HS.
      destruct (proxy_fields self Hi Hp) as [ob [chk [E1 [E2 [S1 S2]]]]].
      unfold check. apply wp_bind. apply (wp_get2 L false W F1 F2); [exact HA|apply safe_arg, Hi|].
      rewrite E2. apply wp_bind. apply (wp_deref L false W F1 F2 _ chk); auto.
      apply wp_bind. apply (wp_get1 L false W F1 F2); [exact HA|apply safe_arg, Hi|]. rewrite E1.
      destruct (has_ass chk && negb (Nat.eqb meth str_check_setattr)).
      - apply (wp_call_int L W F1 F2); auto.
        intros p [<-|[<-|[<-|[]]]]; eexists; split; try reflexivity; auto.
      - apply wp_bind. apply (wp_call_new L W F1 F2 _ _ _ _ HA).
        + intros p [<-|[<-|[<-|[<-|[]]]]]; eexists; split; try reflexivity; auto.
          apply safe_static, Hm.
        + intros s' HA'. apply wp_ret. auto.
        + intros o s' HA'. apply wp_bind. apply (wp_decref (bump o 1 L) false W F1 F2 _ o _ _ HA' eq_refl).
          * rewrite bump_same. pose proof (A_pos _ _ _ _ _ _ HA o). lia.
          * intros s2 HA2. apply wp_ret. apply HS; [|lia].
            destruct HA2 as [Hf Ho HP He Hw H1 H2]. split; auto.
            -- intros x. rewrite Ho. unfold bump. destruct (Nat.eqb x o); lia.
            -- exact (A_pos _ _ _ _ _ _ HA).
    Qed.

    Lemma wp_PROXY_RESULT L W self r s (Q : ptr -> cst -> Prop) :
      (forall o, 0 <= L o) -> In self args -> is_proxy self = true ->
      match r with
      | None => Q None s
      | Some o =>
          A (bump o 1 L) false W F1 F2 s /\
          (forall s', A L true W F1 F2 s' -> Q None s') /\
          (forall o' s', A (bump o' 1 L) false W F1 F2 s' -> Q (Some o') s')
      end ->
      wp (PROXY_RESULT oracle args has_sub self r) s Q.
    Proof.
      intros HP Hi Hp. destruct r as [o|]; [|auto]. intros [HA [HN HS]].
      destruct (proxy_fields self Hi Hp) as [ob [chk [E1 [E2 [S1 S2]]]]].
      unfold PROXY_RESULT. apply wp_bind.
      apply (wp_get2 (bump o 1 L) false W F1 F2); [exact HA|apply safe_arg, Hi|]. rewrite E2.
      apply wp_bind. apply (wp_deref (bump o 1 L) false W F1 F2 _ chk); auto.
      assert (Hso : safe (bump o 1 L) W F1 F2 o).
      { right. right. right. left. rewrite bump_same. specialize (HP o). lia. }
      assert (Hrest : forall k l, (forall p, In p l -> safe_ptr (bump o 1 L) W F1 F2 p) ->
        wp (call_new oracle args k l) s (fun tmp s' => wp (decref oracle (Some o) ;;; ret tmp) s' Q)).
      { intros k l Hl. apply (wp_call_new (bump o 1 L) W F1 F2 _ _ _ _ HA Hl).
        - intros s' HA'. apply wp_bind.
          apply (wp_decref (bump o 1 L) true W F1 F2 _ o _ _ HA' eq_refl).
          + rewrite bump_same. specialize (HP o). lia.
          + intros s2 [Hf Ho HP2 He Hw H1 H2]. apply wp_ret, HN. split; auto.
            intros x. rewrite Ho. unfold bump. destruct (Nat.eqb x o); lia.
        - intros o' s' HA'. apply wp_bind.
          apply (wp_decref (bump o' 1 (bump o 1 L)) false W F1 F2 _ o _ _ HA' eq_refl).
          + unfold bump. rewrite Nat.eqb_refl. specialize (HP o). destruct (Nat.eqb o o'); lia.
          + intros s2 [Hf Ho HP2 He Hw H1 H2]. apply wp_ret, HS. split; auto.
            * intros x. rewrite Ho. unfold bump. destruct (Nat.eqb x o), (Nat.eqb x o'); lia.
            * intros x. unfold bump. specialize (HP x). destruct (Nat.eqb x o'); lia. }
      apply wp_bind. destruct (has_sub chk).
      - apply Hrest. intros p [<-|[<-|[]]]; eexists; split; try reflexivity; auto.
      - apply Hrest. intros p [<-|[<-|[<-|[]]]]; eexists; split; try reflexivity; auto.
        apply safe_static. reflexivity.
    Qed.

    Lemma A_pos' L e W s : A L e W F1 F2 s -> forall o, 0 <= L o.
    Proof. intros H. exact (A_pos _ _ _ _ _ _ H). Qed.

    (** Calling with the object of the proxy and then proxying the result. *)
    Lemma wp_checked L W self meth name others s (Q : ptr -> cst -> Prop) :
      A L false W F1 F2 s -> In self args -> is_proxy self = true ->
      static meth = true -> safe L W F1 F2 name ->
      (forall p, In p others -> safe_ptr L W F1 F2 p) ->
      (forall s', A L true W F1 F2 s' -> Q None s') ->
      (forall o s', A (bump o 1 L) false W F1 F2 s' -> Q (Some o) s') ->
      wp (checked oracle args has_sub has_ass self meth name others) s Q.
    Proof.
      intros HA Hi Hp Hm Hn Ho HN HS.
      destruct (proxy_fields self Hi Hp) as [ob [chk [E1 [E2 [S1 S2]]]]].
      unfold checked. apply wp_bind. apply (wp_check L W _ _ _ _ _ HA Hi Hp Hm Hn); [exact HN|].
      intros n s1 HA1 Hn0. rewrite (proj2 (Z.leb_le 0 n) Hn0).
      apply wp_bind. apply (wp_get1 L false W F1 F2); [exact HA1|apply safe_arg, Hi|]. rewrite E1.
      apply wp_bind. apply (wp_call_new L W F1 F2 _ _ _ _ HA1).
      - intros p [<-|Hin]; [eexists; split; [reflexivity|auto]|auto].
      - intros s2 HA2. apply (wp_PROXY_RESULT L W); [exact (A_pos' _ _ _ _ HA)|exact Hi|exact Hp|]. auto.
      - intros o s2 HA2. apply (wp_PROXY_RESULT L W); [exact (A_pos' _ _ _ _ HA)|exact Hi|exact Hp|]. auto.
    Qed.

    (** ** Functions that are right on every path *)

    Lemma A_ext L L' e W s : A L e W F1 F2 s -> (forall x, L' x = L x) -> A L' e W F1 F2 s.
    Proof.
      intros [Hf Ho HP He Hw H1 H2] HE. split; auto; intros x; rewrite HE; auto.
    Qed.

    Definition obj_post (L : obj -> Z) (W : list obj) (r : ptr) (s' : cst) : Prop :=
      match r with
      | None => A L true W F1 F2 s'
      | Some o => A (bump o 1 L) false W F1 F2 s'
      end.
    Definition int_post (L : obj -> Z) (W : list obj) (i : Z) (s' : cst) : Prop :=
      (i < 0 /\ A L true W F1 F2 s') \/ (0 <= i /\ A L false W F1 F2 s').
    Definition obj_ok (m : C ptr) : Prop :=
      forall L W s, A L false W F1 F2 s -> wp m s (obj_post L W).
    Definition int_ok (m : C Z) : Prop :=
      forall L W s, A L false W F1 F2 s -> wp m s (int_post L W).

    Ltac led :=
      unfold bump; rewrite ?Nat.eqb_refl;
      repeat match goal with
             | |- context [Nat.eqb ?a ?b] => destruct (Nat.eqb_spec a b); subst
             end;
      repeat match goal with
             | HP : forall o : obj, 0 <= ?L o |- context [?L ?x] =>
                 lazymatch goal with
                 | _ : 0 <= L x |- _ => fail
                 | _ => pose proof (HP x)
                 end
             end; try lia.
    Ltac safe_tac :=
      first [ assumption
            | left; reflexivity
            | right; left; assumption
            | right; right; right; left; led; fail
            | right; right; right; right; left; reflexivity ].
    Ltac safes :=
      intros; repeat match goal with
                     | H : In ?p _ |- _ => progress simpl in H
                     | H : _ \/ _ |- _ => destruct H as [<-|H]
                     | H : False |- _ => destruct H
                     end;
      eexists; split; [reflexivity|]; auto; safe_tac.

    Lemma wp_not_implemented L W s :
      A L false W F1 F2 s -> wp (not_implemented args) s (obj_post L W).
    Proof.
      intros HA. unfold not_implemented. apply wp_bind.
      apply (wp_incref L false W F1 F2 _ Py_NotImplemented _ _ HA eq_refl).
      - left. left. reflexivity.
      - intros s' HA'. apply wp_ret. exact HA'.
    Qed.

    Lemma wp_none L W s : A L false W F1 F2 s -> wp (none args) s (obj_post L W).
    Proof.
      intros HA. unfold none. apply wp_bind.
      apply (wp_incref L false W F1 F2 _ Py_None _ _ HA eq_refl).
      - left. left. reflexivity.
      - intros s' HA'. apply wp_ret. exact HA'.
    Qed.

    Lemma checked_ok self meth name others :
      In self args -> is_proxy self = true -> static meth = true ->
      (static name = true \/ In name args) ->
      (forall p, In p others -> good p) ->
      obj_ok (checked oracle args has_sub has_ass self meth name others).
    Proof.
      intros Hi Hp Hm Hn Ho L W s HA.
      apply (wp_checked L W _ _ _ _ _ _ HA Hi Hp Hm).
      - destruct Hn; [left|right; left]; assumption.
      - intros p Hin. apply good_safe; auto.
      - auto.
      - auto.
    Qed.

    Lemma check2_ok self other opname ropname :
      In self args -> In other args -> static opname = true -> static ropname = true ->
      obj_ok (check2 oracle args is_proxy has_sub has_ass self other opname ropname).
    Proof.
      intros Hs Ho Hn Hrn L W s HA. unfold check2.
      destruct (is_proxy self) eqn:Hp.
      - destruct (proxy_fields self Hs Hp) as [ob [chk [E1 [E2 [S1 S2]]]]].
        apply wp_bind. apply (wp_check L W _ _ _ _ _ HA Hs Hp); [reflexivity|left; exact Hn|auto|].
        intros n s1 HA1 Hn0. rewrite (proj2 (Z.leb_le 0 n) Hn0).
        apply wp_bind. apply (wp_get1 L false W F1 F2); [exact HA1|apply safe_arg, Hs|]. rewrite E1.
        apply wp_bind. apply (wp_call_new L W F1 F2 _ _ _ _ HA1).
        + intros p [<-|[<-|[]]]; eexists; split; try reflexivity; [auto|right; left; exact Ho].
        + intros s2 HA2. apply (wp_PROXY_RESULT L W); [exact (A_pos' _ _ _ _ HA)|exact Hs|exact Hp|]. exact HA2.
        + intros o s2 HA2. apply (wp_PROXY_RESULT L W); [exact (A_pos' _ _ _ _ HA)|exact Hs|exact Hp|]. auto.
      - destruct (is_proxy other) eqn:Hp2; [|apply wp_not_implemented; exact HA].
        destruct (proxy_fields other Ho Hp2) as [ob [chk [E1 [E2 [S1 S2]]]]].
        apply wp_bind. apply (wp_check L W _ _ _ _ _ HA Ho Hp2); [reflexivity|left; exact Hrn|auto|].
        intros n s1 HA1 Hn0. rewrite (proj2 (Z.leb_le 0 n) Hn0).
        apply wp_bind. apply (wp_get1 L false W F1 F2); [exact HA1|apply safe_arg, Ho|]. rewrite E1.
        apply wp_bind. apply (wp_call_new L W F1 F2 _ _ _ _ HA1).
        + intros p [<-|[<-|[]]]; eexists; split; try reflexivity; [right; left; exact Hs|auto].
        + intros s2 HA2. apply (wp_PROXY_RESULT L W); [exact (A_pos' _ _ _ _ HA)|exact Ho|exact Hp2|]. exact HA2.
        + intros o s2 HA2. apply (wp_PROXY_RESULT L W); [exact (A_pos' _ _ _ _ HA)|exact Ho|exact Hp2|]. auto.
    Qed.

    Lemma check2i_ok self other opname :
      In self args -> is_proxy self = true -> In other args -> static opname = true ->
      obj_ok (check2i oracle args has_sub has_ass self other opname).
    Proof.
      intros Hs Hp Ho Hn L W s HA. unfold check2i.
      destruct (proxy_fields self Hs Hp) as [ob [chk [E1 [E2 [S1 S2]]]]].
      assert (HP := A_pos' _ _ _ _ HA).
      apply wp_bind. apply (wp_check L W _ _ _ _ _ HA Hs Hp); [reflexivity|left; exact Hn|auto|].
      intros n s1 HA1 Hn0. rewrite (proj2 (Z.leb_le 0 n) Hn0).
      apply wp_bind. apply (wp_get1 L false W F1 F2); [exact HA1|apply safe_arg, Hs|]. rewrite E1.
      apply wp_bind. apply (wp_call_new L W F1 F2 _ _ _ _ HA1).
      - intros p [<-|[<-|[]]]; eexists; split; try reflexivity; [auto|right; left; exact Ho].
      - intros s2 HA2. apply wp_bind.
        apply (wp_get1 L true W F1 F2); [exact HA2|apply safe_arg, Hs|]. rewrite E1. cbn [ptr_eqb].
        apply (wp_PROXY_RESULT L W); [exact HP|exact Hs|exact Hp|]. exact HA2.
      - intros o s2 HA2. apply wp_bind.
        apply (wp_get1 (bump o 1 L) false W F1 F2); [exact HA2|apply safe_arg, Hs|]. rewrite E1. cbn [ptr_eqb].
        destruct (Nat.eqb_spec o ob) as [->|_].
        + apply wp_bind. apply (wp_decref (bump ob 1 L) false W F1 F2 _ ob _ _ HA2 eq_refl); [led|].
          intros s3 HA3. apply wp_bind.
          apply (wp_incref _ false W F1 F2 _ self _ _ HA3 eq_refl); [left; apply safe_arg, Hs|].
          intros s4 HA4. apply wp_ret. unfold obj_post. refine (A_ext _ _ _ _ _ HA4 _). intros x. led.
        + apply (wp_PROXY_RESULT L W); [exact HP|exact Hs|exact Hp|]. auto.
    Qed.

    Lemma richcompare_ok self other :
      In self args -> is_proxy self = true -> In other args ->
      obj_ok (proxy_richcompare oracle args has_sub self other).
    Proof.
      intros Hs Hp Ho L W s HA. unfold proxy_richcompare.
      destruct (proxy_fields self Hs Hp) as [ob [chk [E1 [E2 [S1 S2]]]]].
      apply wp_bind. apply (wp_get1 L false W F1 F2); [exact HA|apply safe_arg, Hs|]. rewrite E1.
      apply wp_bind. apply (wp_call_new L W F1 F2 _ _ _ _ HA).
      - intros p [<-|[<-|[]]]; eexists; split; try reflexivity; [auto|right; left; exact Ho].
      - intros s2 HA2. cbn [ptr_eqb orb].
        apply (wp_PROXY_RESULT L W); [exact (A_pos' _ _ _ _ HA)|exact Hs|exact Hp|]. exact HA2.
      - intros o s2 HA2. destruct (ptr_eqb (Some o) (Some Py_True) || ptr_eqb (Some o) (Some Py_False)).
        + apply wp_ret. exact HA2.
        + apply (wp_PROXY_RESULT L W); [exact (A_pos' _ _ _ _ HA)|exact Hs|exact Hp|]. auto.
    Qed.

    Lemma number_ok self name :
      In self args -> is_proxy self = true -> static name = true ->
      obj_ok (proxy_number oracle args has_sub has_ass has_num name self).
    Proof.
      intros Hs Hp Hst L W s HA. unfold proxy_number.
      destruct (proxy_fields self Hs Hp) as [ob [chk [E1 [E2 [S1 S2]]]]].
      apply wp_bind. apply (wp_check L W _ _ _ _ _ HA Hs Hp); [reflexivity|left; exact Hst|auto|].
      intros n s1 HA1 Hn0. rewrite (proj2 (Z.leb_le 0 n) Hn0).
      apply wp_bind. apply (wp_get1 L false W F1 F2); [exact HA1|apply safe_arg, Hs|]. rewrite E1.
      apply wp_bind. unfold call_number. apply wp_bind.
      apply (wp_deref L false W F1 F2 _ ob); auto.
      destruct (has_num ob).
      - apply (wp_call_new L W F1 F2 _ _ _ _ HA1).
        + intros p [<-|[]]. eexists; split; [reflexivity|auto].
        + intros s2 HA2. apply (wp_PROXY_RESULT L W); [exact (A_pos' _ _ _ _ HA)|exact Hs|exact Hp|]. exact HA2.
        + intros o s2 HA2. apply (wp_PROXY_RESULT L W); [exact (A_pos' _ _ _ _ HA)|exact Hs|exact Hp|]. auto.
      - apply wp_bind. apply (wp_raise L false W F1 F2 _ _ HA1). intros s2 HA2. apply wp_ret.
        apply (wp_PROXY_RESULT L W); [exact (A_pos' _ _ _ _ HA)|exact Hs|exact Hp|]. exact HA2.
    Qed.

    (** A slot in which the proxy is not the first operand *)
    Lemma wp_slot3 L W self name s (arg : ptr -> list ptr) :
      A L false W F1 F2 s -> In self args -> is_proxy self = true -> static name = true ->
      (forall ob, safe_ptr L W F1 F2 ob -> forall p, In p (arg ob) -> safe_ptr L W F1 F2 p) ->
      wp (i <- check oracle args has_ass self str_check name ;;
          if Z.leb 0 i then
            ob <- get1 args self ;;
            result <- call_new oracle args AOp (arg ob) ;;
            PROXY_RESULT oracle args has_sub self result
          else ret None) s (obj_post L W).
    Proof.
      intros HA Hs Hp Hn Ha.
      destruct (proxy_fields self Hs Hp) as [ob [chk [E1 [E2 [S1 S2]]]]].
      apply wp_bind. apply (wp_check L W _ _ _ _ _ HA Hs Hp); [reflexivity|left; exact Hn|auto|].
      intros n s1 HA1 Hn0. rewrite (proj2 (Z.leb_le 0 n) Hn0).
      apply wp_bind. apply (wp_get1 L false W F1 F2); [exact HA1|apply safe_arg, Hs|]. rewrite E1.
      apply wp_bind. apply (wp_call_new L W F1 F2 _ _ _ _ HA1).
      - apply Ha. eexists; split; [reflexivity|auto].
      - intros s2 HA2. apply (wp_PROXY_RESULT L W); [exact (A_pos' _ _ _ _ HA)|exact Hs|exact Hp|]. exact HA2.
      - intros o s2 HA2. apply (wp_PROXY_RESULT L W); [exact (A_pos' _ _ _ _ HA)|exact Hs|exact Hp|]. auto.
    Qed.

    Lemma pow_ok self other modulus :
      In self args -> In other args -> In modulus args ->
      obj_ok (proxy_pow oracle args is_proxy has_sub has_ass self other modulus).
    Proof.
      intros Hs Ho Hm. unfold proxy_pow.
      assert (G : forall x, In x args -> good (Some x)) by (intros x Hx; exists x; auto).
      destruct (is_proxy self) eqn:E1; [|destruct (is_proxy other) eqn:E2; [|destruct (is_proxy modulus) eqn:E3]].
      - apply checked_ok; auto; intros p [<-|[<-|[]]]; auto.
      - intros L W s HA. apply (wp_slot3 L W other _ _ (fun ob => [Some self; ob; Some modulus]) HA Ho E2); [reflexivity|].
        intros ob Hob p [<-|[<-|[<-|[]]]]; auto using good_safe.
      - intros L W s HA. apply (wp_slot3 L W modulus _ _ (fun ob => [Some self; Some other; ob]) HA Hm E3); [reflexivity|].
        intros ob Hob p [<-|[<-|[<-|[]]]]; auto using good_safe.
      - intros L W s HA. apply wp_not_implemented, HA.
    Qed.

    Lemma length_hint_ok matches self :
      In self args -> is_proxy self = true -> obj_ok (proxy_length_hint oracle args matches self).
    Proof.
      intros Hs Hp L W s HA. unfold proxy_length_hint.
      destruct (proxy_fields self Hs Hp) as [ob [chk [E1 [E2 [S1 S2]]]]].
      apply wp_bind. apply (wp_get1 L false W F1 F2); [exact HA|apply safe_arg, Hs|]. rewrite E1.
      apply wp_bind. apply (wp_call_new L W F1 F2 _ _ _ _ HA).
      - intros p [<-|[]]. eexists; split; [reflexivity|auto].
      - intros s2 HA2. destruct matches; [|apply wp_ret; exact HA2].
        apply wp_bind. apply (wp_err_clear L true W F1 F2 _ _ HA2). intros s3 HA3.
        apply wp_not_implemented, HA3.
      - intros o s2 HA2. apply wp_ret. exact HA2.
    Qed.

    Lemma checked_int_ok self name others :
      In self args -> is_proxy self = true -> static name = true ->
      (forall p, In p others -> good p) ->
      int_ok (checked_int oracle args has_ass self name others).
    Proof.
      intros Hs Hp Hn Ho L W s HA. unfold checked_int.
      destruct (proxy_fields self Hs Hp) as [ob [chk [E1 [E2 [S1 S2]]]]].
      apply wp_bind. apply (wp_check L W _ _ _ _ _ HA Hs Hp); [reflexivity|left; exact Hn| |].
      - intros s1 HA1. apply wp_ret. left. split; [lia|exact HA1].
      - intros n s1 HA1 Hn0. rewrite (proj2 (Z.leb_le 0 n) Hn0).
        apply wp_bind. apply (wp_get1 L false W F1 F2); [exact HA1|apply safe_arg, Hs|]. rewrite E1.
        apply (wp_call_int L W F1 F2 _ _ _ _ HA1).
        + intros p [<-|Hin]; [eexists; split; [reflexivity|auto]|apply good_safe; auto].
        + intros s2 HA2. left. split; [lia|exact HA2].
        + intros i s2 HA2 Hi0. right. auto.
    Qed.

    Lemma setattro_ok self name value :
      In self args -> is_proxy self = true -> In name args ->
      (forall v, value = Some v -> In v args) ->
      int_ok (proxy_setattro oracle args has_ass self name value).
    Proof.
      intros Hs Hp Hn Hv L W s HA. unfold proxy_setattro.
      destruct (proxy_fields self Hs Hp) as [ob [chk [E1 [E2 [S1 S2]]]]].
      apply wp_bind. apply (wp_check L W _ _ _ _ _ HA Hs Hp); [reflexivity|apply safe_arg, Hn| |].
      - intros s1 HA1. apply wp_ret. left. split; [lia|exact HA1].
      - intros n s1 HA1 Hn0. rewrite (proj2 (Z.leb_le 0 n) Hn0).
        apply wp_bind. apply (wp_get1 L false W F1 F2); [exact HA1|apply safe_arg, Hs|]. rewrite E1.
        apply (wp_call_int L W F1 F2 _ _ _ _ HA1).
        + intros p [<-|[<-|Hin]]; try (eexists; split; [reflexivity|auto; apply safe_arg; auto]).
          destruct value as [v|]; [|destruct Hin]. destruct Hin as [<-|[]].
          exists v. split; [reflexivity|]. apply safe_arg. auto.
        + intros s2 HA2. left. split; [lia|exact HA2].
        + intros i s2 HA2 Hi0. right. auto.
    Qed.

    Lemma plain_int_ok self :
      In self args -> is_proxy self = true -> int_ok (proxy_hash oracle args self).
    Proof.
      intros Hs Hp L W s HA. unfold proxy_hash.
      destruct (proxy_fields self Hs Hp) as [ob [chk [E1 [E2 [S1 S2]]]]].
      apply wp_bind. apply (wp_get1 L false W F1 F2); [exact HA|apply safe_arg, Hs|]. rewrite E1.
      apply (wp_call_int L W F1 F2 _ _ _ _ HA).
      - intros p [<-|[]]. eexists; split; [reflexivity|auto].
      - intros s2 HA2. left. split; [lia|exact HA2].
      - intros i s2 HA2 Hi0. right. auto.
    Qed.

    Lemma igetitem_ok self :
      In self args -> is_proxy self = true ->
      obj_ok (proxy_igetitem oracle args has_sub has_ass self).
    Proof.
      intros Hs Hp L W s HA. unfold proxy_igetitem. assert (HP := A_pos' _ _ _ _ HA).
      apply wp_bind. apply (wp_call_new L W F1 F2 _ _ _ _ HA).
      - intros p [].
      - intros s1 HA1. apply wp_ret. exact HA1.
      - intros k s1 HA1. apply wp_bind. unfold proxy_getitem.
        assert (HP1 : forall o, 0 <= bump k 1 L o) by (intros o; led).
        apply (wp_checked (bump k 1 L) W _ _ _ _ _ _ HA1 Hs Hp).
        { reflexivity. }
        + left. reflexivity.
        + intros p [<-|[]]. exists k. split; [reflexivity|]. right. right. right. left. led.
        + intros s2 HA2. apply wp_bind.
          apply (wp_decref (bump k 1 L) true W F1 F2 _ k _ _ HA2 eq_refl); [led|].
          intros s3 HA3. apply wp_ret. refine (A_ext _ _ _ _ _ HA3 _). intros x. led.
        + intros o s2 HA2. apply wp_bind.
          apply (wp_decref _ false W F1 F2 _ k _ _ HA2 eq_refl); [led|].
          intros s3 HA3. apply wp_ret. refine (A_ext _ _ _ _ _ HA3 _). intros x. led.
    Qed.

    Lemma wp_checked_int L W self name others s (Q : Z -> cst -> Prop) :
      A L false W F1 F2 s -> In self args -> is_proxy self = true -> static name = true ->
      (forall p, In p others -> safe_ptr L W F1 F2 p) ->
      (forall i s', int_post L W i s' -> Q i s') ->
      wp (checked_int oracle args has_ass self name others) s Q.
    Proof.
      intros HA Hs Hp Hn Ho HQ. unfold checked_int.
      destruct (proxy_fields self Hs Hp) as [ob [chk [E1 [E2 [S1 S2]]]]].
      apply wp_bind. apply (wp_check L W _ _ _ _ _ HA Hs Hp); [reflexivity|left; exact Hn| |].
      - intros s1 HA1. apply wp_ret, HQ. left. split; [lia|exact HA1].
      - intros n s1 HA1 Hn0. rewrite (proj2 (Z.leb_le 0 n) Hn0).
        apply wp_bind. apply (wp_get1 L false W F1 F2); [exact HA1|apply safe_arg, Hs|]. rewrite E1.
        apply (wp_call_int L W F1 F2 _ _ _ _ HA1).
        + intros p [<-|Hin]; [eexists; split; [reflexivity|auto]|auto].
        + intros s2 HA2. apply HQ. left. split; [lia|exact HA2].
        + intros i s2 HA2 Hi0. apply HQ. right. auto.
    Qed.

    Lemma wp_setitem L W self k value s (Q : Z -> cst -> Prop) :
      A L false W F1 F2 s -> In self args -> is_proxy self = true -> safe L W F1 F2 k ->
      (forall v, value = Some v -> In v args) ->
      (forall i s', int_post L W i s' -> Q i s') ->
      wp (proxy_setitem oracle args has_ass self k value) s Q.
    Proof.
      intros HA Hs Hp Hk Hv HQ. unfold proxy_setitem. destruct value as [v|].
      - apply (wp_checked_int L W _ _ _ _ _ HA Hs Hp); [reflexivity| |exact HQ].
        intros p [<-|[<-|[]]]; eexists; (split; [reflexivity|]); [exact Hk|apply safe_arg; auto].
      - apply (wp_checked_int L W _ _ _ _ _ HA Hs Hp); [reflexivity| |exact HQ].
        intros p [<-|[]]; eexists; (split; [reflexivity|exact Hk]).
    Qed.

    Lemma isetitem_ok self value :
      In self args -> is_proxy self = true -> (forall v, value = Some v -> In v args) ->
      int_ok (proxy_isetitem oracle args has_ass self value).
    Proof.
      intros Hs Hp Hv L W s HA. unfold proxy_isetitem. assert (HP := A_pos' _ _ _ _ HA).
      apply wp_bind. apply (wp_call_new L W F1 F2 _ _ _ _ HA).
      - intros p [].
      - intros s1 HA1. apply wp_ret. left. split; [lia|exact HA1].
      - intros k s1 HA1. apply wp_bind.
        apply (wp_setitem (bump k 1 L) W _ _ _ _ _ HA1 Hs Hp).
        + right. right. right. left. led.
        + exact Hv.
        + intros i s2 [[Hi HA2]|[Hi HA2]]; apply wp_bind.
          * apply (wp_decref _ true W F1 F2 _ k _ _ HA2 eq_refl); [led|].
            intros s3 HA3. apply wp_ret. left. split; [exact Hi|].
            refine (A_ext _ _ _ _ _ HA3 _). intros x. led.
          * apply (wp_decref _ false W F1 F2 _ k _ _ HA2 eq_refl); [led|].
            intros s3 HA3. apply wp_ret. right. split; [exact Hi|].
            refine (A_ext _ _ _ _ _ HA3 _). intros x. led.
    Qed.

    Lemma getChecker_ok arg : In arg args -> obj_ok (module_getChecker args is_proxy arg).
    Proof.
      intros Hi L W s HA. unfold module_getChecker. destruct (is_proxy arg) eqn:Hp.
      - destruct (proxy_fields arg Hi Hp) as [ob [chk [E1 [E2 [S1 S2]]]]].
        apply wp_bind. apply (wp_get2 L false W F1 F2); [exact HA|apply safe_arg, Hi|]. rewrite E2.
        apply wp_bind. apply (wp_incref L false W F1 F2 _ chk _ _ HA eq_refl); [left; auto|].
        intros s1 HA1. apply wp_ret. exact HA1.
      - apply wp_bind. apply (wp_raise L false W F1 F2 _ _ HA). intros s1 HA1. apply wp_ret. exact HA1.
    Qed.

    Lemma getObject_ok arg : In arg args -> obj_ok (module_getObject args is_proxy arg).
    Proof.
      intros Hi L W s HA. unfold module_getObject. apply wp_bind. destruct (is_proxy arg) eqn:Hp.
      - destruct (proxy_fields arg Hi Hp) as [ob [chk [E1 [E2 [S1 S2]]]]].
        apply (wp_get1 L false W F1 F2); [exact HA|apply safe_arg, Hi|]. rewrite E1.
        apply wp_bind. apply (wp_incref L false W F1 F2 _ ob _ _ HA eq_refl); [left; auto|].
        intros s1 HA1. apply wp_ret. exact HA1.
      - apply wp_ret. apply wp_bind.
        apply (wp_incref L false W F1 F2 _ arg _ _ HA eq_refl); [left; apply safe_arg, Hi|].
        intros s1 HA1. apply wp_ret. exact HA1.
    Qed.

    (** The iterator protocol, for objects that are iterators. *)
    Lemma iternext_ok self L W s :
      In self args -> is_proxy self = true ->
      (forall o, F1 self = Some o -> has_next o = true) ->
      A L false W F1 F2 s ->
      wp (proxy_iternext oracle args has_sub has_ass has_next self) s
         (fun r s' => match r with
                      | None => exists e, A L e W F1 F2 s'
                      | Some o => A (bump o 1 L) false W F1 F2 s'
                      end).
    Proof.
      intros Hs Hp Hnx HA. unfold proxy_iternext.
      destruct (proxy_fields self Hs Hp) as [ob [chk [E1 [E2 [S1 S2]]]]].
      apply wp_bind. apply (wp_check L W _ _ _ _ _ HA Hs Hp); [reflexivity|left; reflexivity| |].
      { intros s1 HA1. apply wp_ret. exists true. exact HA1. }
      intros n s1 HA1 Hn0. rewrite (proj2 (Z.leb_le 0 n) Hn0).
      apply wp_bind. apply (wp_get1 L false W F1 F2); [exact HA1|apply safe_arg, Hs|].
      rewrite E1. specialize (Hnx ob E1).
      apply wp_bind. unfold PyIter_Next. apply wp_bind.
      apply (wp_use L false W F1 F2); [exact HA1|eexists; split; [reflexivity|auto]|].
      rewrite Hnx. apply wp_bind. apply (wp_call L W F1 F2 _ _ _ HA1).
      { intros p [<-|[]]. eexists; split; [reflexivity|auto]. }
      intros a s2 HA2. assert (HP := A_pos' _ _ _ _ HA).
      destruct (an_ptr a) as [o|].
      - apply wp_bind. apply (wp_note L false W F1 F2 _ _ _ _ _ HA2). clear HA2. intros s2' HA2.
        unfold wp at 1. apply (wp_PROXY_RESULT L W); [exact HP|exact Hs|exact Hp|].
        split; [apply A_bump; [exact HA2|specialize (HP o); lia]|].
        split; [intros s3 HA3; exists true; exact HA3|intros o' s3 HA3; exact HA3].
      - destruct (an_neg a).
        + apply wp_bind. apply (wp_note L false W F1 F2 _ _ _ _ _ HA2). clear HA2. intros s2' HA2.
          apply wp_bind. apply (wp_raise L false W F1 F2 _ _ HA2). intros s3 HA3. apply wp_ret.
          apply (wp_PROXY_RESULT L W); [exact HP|exact Hs|exact Hp|]. exists true. exact HA3.
        + apply wp_bind. apply (wp_note L false W F1 F2 _ _ _ _ _ HA2). clear HA2. intros s2' HA2.
          apply wp_ret. apply (wp_PROXY_RESULT L W); [exact HP|exact Hs|exact Hp|].
          exists false. exact HA2.
    Qed.

    (** ** _zope_security_checker.c *)

    Lemma permission_id_ok1 self name :
      In self args -> In name args -> obj_ok (permission_id oracle args (get1 args) self name).
    Proof.
      intros Hs Hn L W s HA. unfold permission_id.
      apply wp_bind. apply (wp_get1 L false W F1 F2); [exact HA|apply safe_arg, Hs|].
      apply wp_bind. destruct (F1 self) as [d|] eqn:E1.
      - apply wp_bind. apply (wp_getitem L W F1 F2 _ _ _ _ HA).
        + exists d. split; [reflexivity|]. right. right. left. exists self. auto.
        + exists name. split; [reflexivity|]. apply safe_arg, Hn.
        + intros s1 HA1. apply wp_ret. apply wp_bind.
          apply (wp_incref L false W F1 F2 _ Py_None _ _ HA1 eq_refl); [left; left; reflexivity|].
          intros s2 HA2. apply wp_ret. exact HA2.
        + intros o s1 HA1 Hw. apply wp_ret. apply wp_bind.
          apply (wp_incref L false W F1 F2 _ o _ _ HA1 eq_refl); [right; exact Hw|].
          intros s2 HA2. apply wp_ret. exact HA2.
      - apply wp_ret. apply wp_bind.
        apply (wp_incref L false W F1 F2 _ Py_None _ _ HA eq_refl); [left; left; reflexivity|].
        intros s2 HA2. apply wp_ret. exact HA2.
    Qed.

    Lemma permission_id_ok2 self name :
      In self args -> In name args -> obj_ok (permission_id oracle args (get2 args) self name).
    Proof.
      intros Hs Hn L W s HA. unfold permission_id.
      apply wp_bind. apply (wp_get2 L false W F1 F2); [exact HA|apply safe_arg, Hs|].
      apply wp_bind. destruct (F2 self) as [d|] eqn:E2.
      - apply wp_bind. apply (wp_getitem L W F1 F2 _ _ _ _ HA).
        + exists d. split; [reflexivity|]. right. right. left. exists self. auto.
        + exists name. split; [reflexivity|]. apply safe_arg, Hn.
        + intros s1 HA1. apply wp_ret. apply wp_bind.
          apply (wp_incref L false W F1 F2 _ Py_None _ _ HA1 eq_refl); [left; left; reflexivity|].
          intros s2 HA2. apply wp_ret. exact HA2.
        + intros o s1 HA1 Hw. apply wp_ret. apply wp_bind.
          apply (wp_incref L false W F1 F2 _ o _ _ HA1 eq_refl); [right; exact Hw|].
          intros s2 HA2. apply wp_ret. exact HA2.
      - apply wp_ret. apply wp_bind.
        apply (wp_incref L false W F1 F2 _ Py_None _ _ HA eq_refl); [left; left; reflexivity|].
        intros s2 HA2. apply wp_ret. exact HA2.
    Qed.

    (** A permission that somebody keeps. *)
    Lemma checkPermission_ok permission object name :
      In object args -> In name args ->
      forall L W s, In permission W \/ static permission = true \/ In permission args ->
      A L false W F1 F2 s ->
      wp (checkPermission oracle args (Some permission) object name) s (int_post L W).
    Proof.
      intros Ho Hn L W s Hperm HA. unfold checkPermission. assert (HP := A_pos' _ _ _ _ HA).
      assert (Hsp : forall L', safe L' W F1 F2 permission).
      { intros L'. unfold safe. destruct Hperm as [H|[H|H]]; auto 6. }
      apply wp_bind. apply (wp_call_new L W F1 F2 _ _ _ _ HA).
      { intros p [<-|[<-|[]]]; eexists; split; try reflexivity; left; reflexivity. }
      { intros s1 HA1. apply wp_ret. left. split; [lia|exact HA1]. }
      intros i s1 HA1. apply wp_bind.
      apply (wp_call_new (bump i 1 L) W F1 F2 _ _ _ _ HA1).
      { intros p [<-|[<-|[<-|[<-|[]]]]]; eexists; split; try reflexivity;
          [right; right; right; left; led|left; reflexivity|auto|apply safe_arg, Ho]. }
      { intros s2 HA2. apply wp_bind.
        apply (wp_decref _ true W F1 F2 _ i _ _ HA2 eq_refl); [led|].
        intros s3 HA3. apply wp_ret. left. split; [lia|]. refine (A_ext _ _ _ _ _ HA3 _). intros x. led. }
      intros r s2 HA2. apply wp_bind.
      apply (wp_decref _ false W F1 F2 _ i _ _ HA2 eq_refl); [led|].
      intros s3 HA3'. apply wp_bind.
      assert (HA3 : A (bump r 1 L) false W F1 F2 s3) by (refine (A_ext _ _ _ _ _ HA3' _); intros x; led).
      clear HA3'.
      apply (wp_call_int (bump r 1 L) W F1 F2 _ _ _ _ HA3).
      { intros p [<-|[]]. eexists. split; [reflexivity|]. right. right. right. left. led. }
      { intros s4 HA4. apply wp_bind.
        apply (wp_decref _ true W F1 F2 _ r _ _ HA4 eq_refl); [led|].
        intros s5 HA5. cbn. left. split; [lia|]. refine (A_ext _ _ _ _ _ HA5 _). intros x. led. }
      intros n s4 HA4 Hn0. apply wp_bind.
      apply (wp_decref _ false W F1 F2 _ r _ _ HA4 eq_refl); [led|].
      intros s5 HA5'.
      assert (HA5 : A L false W F1 F2 s5) by (refine (A_ext _ _ _ _ _ HA5' _); intros x; led).
      clear HA5'.
      rewrite (proj2 (Z.ltb_ge n 0) Hn0). destruct (Z.eqb n 0).
      2:{ apply wp_ret. right. split; [lia|exact HA5]. }
      apply wp_bind. apply (wp_call_new L W F1 F2 _ _ _ _ HA5).
      { intros p [<-|[<-|[<-|[]]]]; eexists; split; try reflexivity;
          [apply safe_arg, Ho|apply safe_arg, Hn|auto]. }
      { intros s6 HA6. apply wp_ret. left. split; [lia|exact HA6]. }
      intros t s6 HA6. apply wp_bind. apply (wp_setobject _ false W F1 F2 _ _ _ _ HA6).
      { eexists. split; [reflexivity|]. left. reflexivity. }
      { eexists. split; [reflexivity|]. right. right. right. left. led. }
      intros s7 HA7. apply wp_bind.
      apply (wp_decref _ true W F1 F2 _ t _ _ HA7 eq_refl); [led|].
      intros s8 HA8. apply wp_ret. left. split; [lia|]. refine (A_ext _ _ _ _ _ HA8 _). intros x. led.
    Qed.

    Lemma forbidden_ok object name L W s :
      In object args -> In name args -> A L false W F1 F2 s ->
      wp (forbidden oracle args object name) s (fun i s' => i = -1 /\ A L true W F1 F2 s').
    Proof.
      intros Ho Hn HA. unfold forbidden. assert (HP := A_pos' _ _ _ _ HA).
      apply wp_bind. apply (wp_call_new L W F1 F2 _ _ _ _ HA).
      { intros p [<-|[<-|[]]]; eexists; split; try reflexivity; apply safe_arg; assumption. }
      { intros s1 HA1. apply wp_ret. auto. }
      intros t s6 HA6. apply wp_bind. apply (wp_setobject _ false W F1 F2 _ _ _ _ HA6).
      { eexists. split; [reflexivity|]. left. reflexivity. }
      { eexists. split; [reflexivity|]. right. right. right. left. led. }
      intros s7 HA7. apply wp_bind.
      apply (wp_decref _ true W F1 F2 _ t _ _ HA7 eq_refl); [led|].
      intros s8 HA8. apply wp_ret. split; [reflexivity|]. refine (A_ext _ _ _ _ _ HA8 _). intros x. led.
    Qed.

    Lemma A_forget L e o W s : A L e (o :: W) F1 F2 s -> A L e W F1 F2 s.
    Proof. intros [Hf Ho HP He Hw H1 H2]. split; auto. intros x Hx. apply Hw. right. exact Hx. Qed.

    (** Looking up a permission: what is found is kept. *)
    Lemma wp_lookup L W d name s (Q : ptr -> cst -> Prop) :
      A L false W F1 F2 s -> safe_ptr L W F1 F2 d -> In name args ->
      (forall o, an_ptr (oracle (step s)) = Some o -> kept oracle o) ->
      (an_ptr (oracle (step s)) = None -> forall s', A L false W F1 F2 s' -> Q None s') ->
      (forall o s', an_ptr (oracle (step s)) = Some o -> A L false (o :: W) F1 F2 s' -> Q (Some o) s') ->
      wp (PyDict_GetItem oracle args d (Some name)) s Q.
    Proof.
      intros HA Hd Hn Hk HN HS. unfold PyDict_GetItem, call.
      apply wp_bind. apply wp_bind. apply (wp_uses L false W F1 F2); [exact HA| |].
      { intros p [<-|[<-|[]]]; [exact Hd|]. eexists. split; [reflexivity|]. apply safe_arg, Hn. }
      apply wp_bind. unfold wp at 1. rewrite (A_exc _ _ _ _ _ _ HA).
      unfold wp at 1, elsewhere. pose proof (A_step _ _ _ _ _ _ HA) as HA'.
      destruct (an_ptr (oracle (step s))) as [o|] eqn:Ea.
      - unfold wp. simpl. apply (HS o); [reflexivity|].
        destruct HA' as [Hf Ho HP He Hw H1 H2]. split; simpl in *; auto.
        intros x [<-|Hx]; [split; [left; reflexivity|apply Hk; reflexivity]|].
        destruct (Hw x Hx). split; [right|]; assumption.
      - apply wp_bind. apply (wp_note L false W F1 F2 _ _ _ _ _ HA'). intros s2 HA2.
        apply wp_ret. apply HN; [reflexivity|exact HA2].
    Qed.

    (** check, when the table has the name and the permission found is kept. *)
    Lemma check_int_found self object name d L W s :
      In self args -> In object args -> In name args -> F1 self = Some d ->
      A L false W F1 F2 s ->
      (forall p, an_ptr (oracle (step s)) = Some p -> kept oracle p) ->
      (an_ptr (oracle (step s)) = None -> is_str name = false) ->
      wp (Checker_check_int oracle args is_str char0 char1 is_iter self object name) s (int_post L W).
    Proof.
      intros Hs Ho Hn Hd HA Hk Hno. unfold Checker_check_int.
      apply wp_bind. apply (wp_get1 L false W F1 F2); [exact HA|apply safe_arg, Hs|]. rewrite Hd.
      apply wp_bind. apply (wp_lookup L W _ _ _ _ HA).
      - exists d. split; [reflexivity|]. right. right. left. exists self. auto.
      - exact Hn.
      - exact Hk.
      - intros HN s1 HA1. rewrite (Hno HN). apply wp_bind, wp_ret.
        eapply wp_mono; [apply (forbidden_ok object name L W _ Ho Hn HA1)|].
        intros i s2 [-> HA2]. left. split; [lia|exact HA2].
      - intros p s1 Hp HA1. destruct (Nat.eqb p CheckerPublic).
        + apply wp_ret. right. split; [lia|]. exact (A_forget _ _ _ _ _ HA1).
        + apply wp_bind. eapply wp_mono; [apply (checkPermission_ok p object name Ho Hn L (p :: W) s1); [left; left; reflexivity|exact HA1]|].
          intros i s2 [[Hi HA2]|[Hi HA2]].
          * rewrite (proj2 (Z.ltb_lt i 0) Hi). apply wp_ret. left. split; [lia|exact (A_forget _ _ _ _ _ HA2)].
          * rewrite (proj2 (Z.ltb_ge i 0) Hi). apply wp_ret. right. split; [lia|exact (A_forget _ _ _ _ _ HA2)].
    Qed.

    Lemma check_setattr_ok self parsed L W s :
      In self args -> (forall o n, parsed = Some (o, n) -> In o args /\ In n args) ->
      A L false W F1 F2 s ->
      (forall p, an_ptr (oracle (step s)) = Some p -> kept oracle p) ->
      wp (Checker_check_setattr oracle args self parsed) s (obj_post L W).
    Proof.
      intros Hs Hpar HA Hk. unfold Checker_check_setattr.
      destruct parsed as [[object name]|].
      2:{ apply wp_bind. apply (wp_raise L false W F1 F2 _ _ HA). intros s1 HA1. apply wp_ret. exact HA1. }
      destruct (Hpar _ _ eq_refl) as [Ho Hn].
      apply wp_bind. apply (wp_get2 L false W F1 F2); [exact HA|apply safe_arg, Hs|].
      assert (Hforb : forall s1, A L false W F1 F2 s1 ->
        wp (_ <- forbidden oracle args object name ;; ret None) s1 (obj_post L W)).
      { intros s1 HA1. apply wp_bind. eapply wp_mono; [apply (forbidden_ok object name L W _ Ho Hn HA1)|].
        intros i s2 [_ HA2]. apply wp_ret. exact HA2. }
      apply wp_bind. destruct (F2 self) as [d|] eqn:E2.
      2:{ apply wp_ret. apply Hforb. exact HA. }
      apply (wp_lookup L W _ _ _ _ HA).
      - exists d. split; [reflexivity|]. right. right. left. exists self. auto.
      - exact Hn.
      - exact Hk.
      - intros _ s1 HA1. apply Hforb, HA1.
      - intros p s1 Hp HA1. destruct (Nat.eqb p CheckerPublic).
        + apply wp_none. exact (A_forget _ _ _ _ _ HA1).
        + apply wp_bind. eapply wp_mono; [apply (checkPermission_ok p object name Ho Hn L (p :: W) s1); [left; left; reflexivity|exact HA1]|].
          intros i s2 [[Hi HA2]|[Hi HA2]].
          * rewrite (proj2 (Z.ltb_lt i 0) Hi). apply wp_ret. exact (A_forget _ _ _ _ _ HA2).
          * rewrite (proj2 (Z.ltb_ge i 0) Hi). apply wp_none. exact (A_forget _ _ _ _ _ HA2).
    Qed.

    Lemma select_loop_ok object : In object args ->
      forall fuel c L W s, A (bump c 1 L) false W F1 F2 s -> (forall o, 0 <= L o) ->
      wp (select_loop oracle args is_checker fuel (Some c) object) s (obj_post L W).
    Proof.
      intros Ho. induction fuel as [|fuel IH]; intros c L W s HA HP; [exact I|].
      cbn [select_loop]. apply wp_bind. apply (wp_deref (bump c 1 L) false W F1 F2 _ c); auto.
      { right. right. right. left. led. }
      destruct (is_checker c); [apply wp_ret; exact HA|].
      apply wp_bind. apply (wp_call_new _ W F1 F2 _ _ _ _ HA).
      { intros p [<-|[<-|[]]]; eexists; split; try reflexivity;
          [right; right; right; left; led|apply safe_arg, Ho]. }
      { intros s1 HA1. apply wp_bind. apply (wp_decref _ true W F1 F2 _ c _ _ HA1 eq_refl); [led|].
        intros s2 HA2. apply wp_ret. refine (A_ext _ _ _ _ _ HA2 _). intros x. led. }
      intros n s1 HA1. apply wp_bind. apply (wp_decref _ false W F1 F2 _ c _ _ HA1 eq_refl); [led|].
      intros s2 HA2'.
      assert (HA2 : A (bump n 1 L) false W F1 F2 s2) by (refine (A_ext _ _ _ _ _ HA2' _); intros x; led).
      destruct (Nat.eqb n NoProxy || Nat.eqb n Py_None).
      - apply wp_bind. apply (wp_decref _ false W F1 F2 _ n _ _ HA2 eq_refl); [led|].
        intros s3 HA3. apply wp_none. refine (A_ext _ _ _ _ _ HA3 _). intros x. led.
      - apply IH; assumption.
    Qed.

    (** selectChecker: balanced in any case; if PyObject_IsInstance fails, the result comes
        with an exception set. *)
    Definition select_post (L : obj -> Z) (W : list obj) (r : ptr) (s' : cst) : Prop :=
      match r with
      | None => A L true W F1 F2 s'
      | Some o => exists e, A (bump o 1 L) e W F1 F2 s' /\ (e = true -> o = Py_None) /\
                            ((forall k, an_neg (oracle k) = false) -> e = false)
      end.

    Lemma wp_isinstance L W k l s (Q : Z -> cst -> Prop) :
      A L false W F1 F2 s -> (forall p, In p l -> safe_ptr L W F1 F2 p) ->
      (forall i e s', A L e W F1 F2 s' -> (e = true -> i = -1) ->
         ((forall k, an_neg (oracle k) = false) -> e = false) -> Q i s') ->
      wp (call_int oracle args k l) s Q.
    Proof.
      intros HA Hl HQ. unfold call_int, call. apply wp_bind. apply wp_bind.
      apply (wp_uses L false W F1 F2); [exact HA|exact Hl|].
      apply wp_bind. unfold wp at 1. rewrite (A_exc _ _ _ _ _ _ HA).
      unfold wp at 1, elsewhere. pose proof (A_step _ _ _ _ _ _ HA) as HA'.
      destruct (an_neg (oracle (step s))) eqn:En.
      - apply wp_bind. apply (wp_note L false W F1 F2 _ _ _ _ _ HA'). intros s1 HA1.
        apply wp_bind. apply (wp_raise L false W F1 F2 _ _ HA1). intros s2 HA2. apply wp_ret.
        apply (HQ _ true); [exact HA2|reflexivity|]. intros H. rewrite (H (step s)) in En. discriminate En.
      - apply wp_bind. apply (wp_note L false W F1 F2 _ _ _ _ _ HA'). clear HA'. intros s1 HA'.
        apply wp_ret. apply (HQ _ false); [exact HA'|intros H; discriminate H|reflexivity].
    Qed.

    Lemma selectChecker_ok fuel object L W s :
      In object args -> A L false W F1 F2 s ->
      wp (selectChecker oracle args is_checker fuel object) s (select_post L W).
    Proof.
      intros Ho HA. unfold selectChecker. assert (HP := A_pos' _ _ _ _ HA).
      assert (Hnone : forall e s1, A L e W F1 F2 s1 ->
        ((forall k, an_neg (oracle k) = false) -> e = false) ->
        wp (none args) s1 (select_post L W)).
      { intros e s1 HA1 He. unfold none. apply wp_bind.
        apply (wp_incref L e W F1 F2 _ Py_None _ _ HA1 eq_refl); [left; left; reflexivity|].
        intros s2 HA2. apply wp_ret. exists e. auto. }
      assert (Hloop : forall c s1, A L false W F1 F2 s1 -> safe L W F1 F2 c \/ In c (weak s1) ->
        wp (incref args (Some c) ;;; select_loop oracle args is_checker fuel (Some c) object) s1
           (select_post L W)).
      { intros c s1 HA1 Hc. apply wp_bind.
        apply (wp_incref L false W F1 F2 _ c _ _ HA1 eq_refl); [exact Hc|].
        intros s2 HA2. eapply wp_mono; [apply (select_loop_ok object Ho fuel c L W s2 HA2 HP)|].
        intros r s3 H3. destruct r as [o|]; [|exact H3]. exists false.
        split; [exact H3|]. split; [intros E; discriminate E|reflexivity]. }
      assert (Hrest : forall c s1, A L false W F1 F2 s1 ->
        (safe L W F1 F2 c \/ In c (weak s1)) ->
        wp (if ptr_eqb (Some c) (Some NoProxy) then none args
            else excluded <- (if ptr_eqb (Some c) (Some defaultChecker) then
                     i <- call_int oracle args AInstance [Some object; Some PyExc_Exception] ;; ret (negb (Z.eqb i 0))
                   else ret false) ;;
                 if excluded : bool then none args
                 else incref args (Some c) ;;; select_loop oracle args is_checker fuel (Some c) object)
           s1 (select_post L W)).
      { intros c s1 HA1 Hc. destruct (ptr_eqb (Some c) (Some NoProxy)).
        { apply (Hnone false); auto. }
        apply wp_bind. destruct (ptr_eqb (Some c) (Some defaultChecker)) eqn:Ed.
        - apply wp_bind. apply (wp_isinstance L W _ _ _ _ HA1).
          { intros p [<-|[<-|[]]]; eexists; split; try reflexivity; [apply safe_arg, Ho|left; reflexivity]. }
          intros i e s2 HA2 Hi He. apply wp_ret. destruct (Z.eqb i 0) eqn:Ei.
          + cbn [negb]. destruct e.
            { apply Z.eqb_eq in Ei. specialize (Hi eq_refl). lia. }
            apply Hloop; [exact HA2|]. left. left. cbn [ptr_eqb] in Ed. apply Nat.eqb_eq in Ed.
            subst c. reflexivity.
          + cbn [negb]. apply (Hnone e); auto.
        - apply wp_ret. apply Hloop; assumption. }
      apply wp_bind. apply (wp_getitem L W F1 F2 _ _ _ _ HA).
      { eexists. split; [reflexivity|]. left. reflexivity. }
      { eexists. split; [reflexivity|]. apply safe_arg, Ho. }
      - intros s1 HA1. apply (Hrest defaultChecker); [exact HA1|]. left. left. reflexivity.
      - intros c s1 HA1 Hw. apply (Hrest c); [exact HA1|]. right. exact Hw.
    Qed.

    (** Checker.proxy: references to None aside, balanced. *)
    Definition proxy_post (k0 : nat) (L : obj -> Z) (W : list obj) (r : ptr) (s' : cst) : Prop :=
      exists L' e, A L' e W F1 F2 s' /\
        (forall o, o <> Py_None -> L' o = L o + returned r o) /\
        L Py_None + returned r Py_None <= L' Py_None /\
        (r = None -> e = true) /\
        ((forall k, an_neg (oracle k) = false) -> e = true -> r = None) /\
        (an_ptr (oracle k0) <> Some Py_None -> forall o, L' o = L o + returned r o).

    Lemma wp_call_new' L W k l s (Q : ptr -> cst -> Prop) :
      A L false W F1 F2 s -> (forall p, In p l -> safe_ptr L W F1 F2 p) ->
      (forall s', an_ptr (oracle (step s)) = None -> A L true W F1 F2 s' -> Q None s') ->
      (forall o s', an_ptr (oracle (step s)) = Some o -> A (bump o 1 L) false W F1 F2 s' -> Q (Some o) s') ->
      wp (call_new oracle args k l) s Q.
    Proof.
      intros HA Hl HN HS. unfold call_new, call. apply wp_bind. apply wp_bind.
      apply (wp_uses L false W F1 F2); [exact HA|exact Hl|].
      apply wp_bind. unfold wp at 1. rewrite (A_exc _ _ _ _ _ _ HA).
      unfold wp at 1, elsewhere. pose proof (A_step _ _ _ _ _ _ HA) as HA'.
      destruct (an_ptr (oracle (step s))) as [o|] eqn:Ea.
      - apply wp_bind. apply (wp_note L false W F1 F2 _ _ _ _ _ HA'). intros s1 HA1.
        unfold wp. apply HS; [reflexivity|]. apply A_bump; [exact HA1|].
        pose proof (A_pos _ _ _ _ _ _ HA o). lia.
      - apply wp_bind. apply (wp_note L false W F1 F2 _ _ _ _ _ HA'). intros s1 HA1.
        apply wp_bind. apply (wp_raise L false W F1 F2 _ _ HA1). intros s2 HA2. apply wp_ret. auto.
    Qed.

    Lemma post_proxy k0 L W r s' : obj_post L W r s' -> proxy_post k0 L W r s'.
    Proof.
      destruct r as [o|]; cbn [obj_post]; intros HA.
      - exists (bump o 1 L), false. split; [exact HA|].
        assert (H : forall x, bump o 1 L x = L x + returned (Some o) x).
        { intros x. unfold bump, returned. destruct (Nat.eqb x o); lia. }
        split; [auto|]. split; [rewrite H; lia|]. split; [intros E; discriminate E|].
        split; [intros _ E; discriminate E|auto].
      - exists L, true. split; [exact HA|]. unfold returned. split; [intros; lia|]. split; [lia|].
        split; [auto|]. split; [auto|]. intros; lia.
    Qed.

    Lemma Checker_proxy_ok fuel value L W s :
      In value args -> A L false W F1 F2 s ->
      wp (Checker_proxy oracle args is_checker exact_proxy fuel value) s (proxy_post (step s) L W).
    Proof.
      intros Hv HA. unfold Checker_proxy. assert (HP := A_pos' _ _ _ _ HA).
      assert (Hval : forall s1, A L false W F1 F2 s1 ->
        wp (incref args (Some value) ;;; ret (Some value)) s1 (proxy_post (step s) L W)).
      { intros s1 HA1. apply wp_bind.
        apply (wp_incref L false W F1 F2 _ value _ _ HA1 eq_refl); [left; apply safe_arg, Hv|].
        intros s2 HA2. apply wp_ret. apply post_proxy. exact HA2. }
      assert (Hmake : forall c s1, A (bump c 1 L) false W F1 F2 s1 ->
        wp (r <- call_new oracle args AProxy [Some Proxy; Some value; Some c] ;; decref oracle (Some c) ;;; ret r)
           s1 (proxy_post (step s) L W)).
      { intros c s1 HA1. apply wp_bind. apply (wp_call_new _ W F1 F2 _ _ _ _ HA1).
        - intros p [<-|[<-|[<-|[]]]]; eexists; split; try reflexivity;
            [left; reflexivity|apply safe_arg, Hv|right; right; right; left; led].
        - intros s2 HA2. apply wp_bind. apply (wp_decref _ true W F1 F2 _ c _ _ HA2 eq_refl); [led|].
          intros s3 HA3. apply wp_ret, post_proxy. refine (A_ext _ _ _ _ _ HA3 _). intros x. led.
        - intros r s2 HA2. apply wp_bind. apply (wp_decref _ false W F1 F2 _ c _ _ HA2 eq_refl); [led|].
          intros s3 HA3. apply wp_ret, post_proxy. refine (A_ext _ _ _ _ _ HA3 _). intros x. led. }
      destruct (exact_proxy value); [apply Hval, HA|].
      apply wp_bind. apply (wp_call_new' L W _ _ _ _ HA).
      { intros p [<-|[<-|[]]]; eexists; split; try reflexivity; [apply safe_arg, Hv|left; reflexivity]. }
      - intros s1 _ HA1. apply wp_bind. apply (wp_err_clear L true W F1 F2 _ _ HA1). intros s2 HA2.
        apply wp_bind. eapply wp_mono; [apply (selectChecker_ok fuel value L W s2 Hv HA2)|].
        intros r s3 H3. destruct r as [c|].
        2:{ apply wp_ret, post_proxy. exact H3. }
        destruct H3 as [e [HA3 [HeN He]]]. destruct (Nat.eqb c Py_None) eqn:Ec.
        + apply wp_bind. apply (wp_decref _ e W F1 F2 _ c _ _ HA3 eq_refl); [led|].
          intros s4 HA4'.
          assert (HA4 : A L e W F1 F2 s4) by (refine (A_ext _ _ _ _ _ HA4' _); intros x; led).
          apply wp_bind. apply (wp_incref L e W F1 F2 _ value _ _ HA4 eq_refl); [left; apply safe_arg, Hv|].
          intros s5 HA5. apply wp_ret. exists (bump value 1 L), e. split; [exact HA5|].
          assert (H : forall x, bump value 1 L x = L x + returned (Some value) x).
          { intros x. unfold bump, returned. destruct (Nat.eqb x value); lia. }
          split; [auto|]. split; [rewrite H; lia|]. split; [intros E; discriminate E|].
          split; [intros Hk Ee; rewrite (He Hk) in Ee; discriminate Ee|auto].
        + destruct e.
          * apply Nat.eqb_neq in Ec. destruct (Ec (HeN eq_refl)).
          * apply Hmake, HA3.
      - intros c s1 Hc HA1. destruct (Nat.eqb_spec c Py_None) as [->|Hnone]; [|apply Hmake, HA1].
        apply wp_bind. apply (wp_call_new _ W F1 F2 _ _ _ _ HA1).
        { intros p [<-|[]]. eexists. split; [reflexivity|]. apply safe_arg, Hv. }
        + intros s2 HA2. apply wp_ret. exists (bump Py_None 1 L), true. split; [exact HA2|].
          unfold returned. split; [intros o Ho; unfold bump; destruct (Nat.eqb_spec o Py_None); [congruence|lia]|].
          split; [led|]. split; [auto|]. split; [auto|].
          intros Hk. destruct (Hk Hc).
        + intros ev s2 HA2. apply wp_bind. apply (wp_setobject _ false W F1 F2 _ _ _ _ HA2).
          { eexists. split; [reflexivity|]. left. reflexivity. }
          { eexists. split; [reflexivity|]. right. right. right. left. led. }
          intros s3 HA3. apply wp_bind. apply (wp_decref _ true W F1 F2 _ ev _ _ HA3 eq_refl); [led|].
          intros s4 HA4. apply wp_ret. exists (bump Py_None 1 L), true.
          split; [refine (A_ext _ _ _ _ _ HA4 _); intros x; led|].
          unfold returned. split; [intros o Ho; unfold bump; destruct (Nat.eqb_spec o Py_None); [congruence|lia]|].
          split; [led|]. split; [auto|]. split; [auto|].
          intros Hk. destruct (Hk Hc).
    Qed.
  End Fixed.
End Logic.
