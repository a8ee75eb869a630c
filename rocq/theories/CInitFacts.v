(** * CInitFacts: proofs about the initialisation of the extensions. *)

From Coq Require Import List String Bool Arith ZArith Lia.
From Verif Require Import CInit CInitSpec.
Import ListNotations.
Open Scope string_scope.

Lemma bind_inv {A B} (m : I A) (f : A -> I B) s b s' :
  bind m f s = (Some b, s') -> exists a s1, m s = (Some a, s1) /\ f a s1 = (Some b, s').
Proof. unfold bind. destruct (m s) as [[a|] s1]; [eauto|discriminate]. Qed.

(** What a stretch of the program has done that ended well: [vs] were assigned; [x] counts the
    references beyond those the variables hold. *)
Definition filled (vs : list (string * call)) (x : obj -> Z) (s s' : ist) : Prop :=
  (forall v k, In (v, k) vs -> has_result s' v k) /\
  (forall v, ~ In v (map fst vs) -> vars s' v = vars s v) /\
  incl (log s) (log s') /\
  (forall o, own s' o = own s o + held (map fst vs) s' o + x o)%Z.

Lemma held_frame vs s s' :
  (forall v, In v vs -> vars s' v = vars s v) -> forall o, held vs s' o = held vs s o.
Proof.
  intros E o. unfold held. induction vs as [|v vs IH]; [reflexivity|]. cbn [fold_right].
  rewrite (E v (or_introl eq_refl)), IH; [reflexivity|]. intros w W. apply E. now right.
Qed.
Lemma held_app a b s o : held (a ++ b)%list s o = (held a s o + held b s o)%Z.
Proof. unfold held. induction a as [|v a IH]; cbn [fold_right app]; lia. Qed.

Lemma filled_nil s : filled [] (fun _ => 0%Z) s s.
Proof.
  split; [intros v k []|]. split; [auto|]. split; [apply incl_refl|]. intros o. cbn. lia.
Qed.

(** No two variables of a stretch are the same. *)
Fixpoint distinct (l : list string) : bool :=
  match l with
  | [] => true
  | v :: l' => negb (existsb (String.eqb v) l') && distinct l'
  end.
Lemma existsb_false v l : existsb (String.eqb v) l = false -> ~ In v l.
Proof.
  intros E I. assert (existsb (String.eqb v) l = true); [|congruence].
  apply existsb_exists. exists v. split; [exact I|apply String.eqb_refl].
Qed.
Lemma distinct_app a b : distinct (a ++ b)%list = true -> forall v, In v a -> ~ In v b.
Proof.
  induction a as [|w a IH]; intros D v I; [contradiction|]. cbn in D.
  apply andb_prop in D as [D1 D2]. apply negb_true_iff in D1.
  destruct I as [<- | I]; [|exact (IH D2 v I)].
  intros C. apply (existsb_false _ _ D1). apply in_or_app. now right.
Qed.

Lemma filled_app a b x y s s1 s2 :
  distinct (map fst (a ++ b)%list) = true ->
  filled a x s s1 -> filled b y s1 s2 -> filled (a ++ b)%list (fun o => x o + y o)%Z s s2.
Proof.
  intros D (A1 & A2 & A3 & A4) (B1 & B2 & B3 & B4).
  rewrite map_app in D.
  assert (Fr : forall v, In v (map fst a) -> vars s2 v = vars s1 v).
  { intros v I. apply B2. exact (distinct_app _ _ D v I). }
  split; [|split; [|split]].
  - intros v k I. apply in_app_or in I as [I|I]; [|exact (B1 v k I)].
    destruct (A1 v k I) as (o & E & L). exists o. split; [|exact (B3 _ L)].
    rewrite Fr; [exact E|]. apply in_map_iff. exists (v, k). auto.
  - intros v N. rewrite map_app in N. rewrite B2, A2; auto using in_or_app.
  - exact (incl_tran A3 B3).
  - intros o. rewrite B4, A4, map_app, held_app, (held_frame _ _ _ Fr). lia.
Qed.

Section Init.
  Variable oracle : list (call * option obj) -> call -> option obj.
  Variable type : obj.
  Variable hook : string -> ist -> ist.

  Lemma filled_store v k s u s' :
    store oracle v k s = (Some u, s') -> filled [(v, k)] (fun _ => 0%Z) s s'.
  Proof.
    unfold store, new, setvar. destruct (oracle (log s) k) as [o|]; [|discriminate].
    intros E. injection E as <- <-. split; [|split; [|split]].
    - intros w j [Q|[]]. injection Q as <- <-. exists o. cbn. rewrite String.eqb_refl. auto.
    - intros w N. cbn. destruct (String.eqb_spec w v) as [->|]; [|reflexivity].
      exfalso. apply N. now left.
    - intros e X. now right.
    - intros o'. cbn. rewrite String.eqb_refl. unfold bump.
      destruct (Nat.eqb_spec o' o) as [->|N]; lia.
  Qed.

  Lemma filled_each {A} (f : A -> string) (g : A -> call) l : forall s u s',
    distinct (map f l) = true ->
    each (fun a => store oracle (f a) (g a)) l s = (Some u, s') ->
    filled (map (fun a => (f a, g a)) l) (fun _ => 0%Z) s s'.
  Proof.
    induction l as [|a l IH]; intros s u s' D E.
    - injection E as <- <-. apply filled_nil.
    - cbn [each] in E. apply bind_inv in E as ([] & s1 & E1 & E2). cbn [map].
      change ((f a, g a) :: map (fun a => (f a, g a)) l)
        with ([(f a, g a)] ++ map (fun a => (f a, g a)) l)%list.
      change (fun _ : obj => 0%Z) with (fun o : obj => (0 + 0)%Z).
      apply (filled_app [(f a, g a)] _ (fun _ => 0%Z) (fun _ => 0%Z) s s1 s').
      + cbn [app map fst]. rewrite map_map. cbn [fst]. exact D.
      + apply (filled_store _ _ _ _ _ E1).
      + apply (IH s1 u s'); [|exact E2]. cbn in D. now apply andb_prop in D.
  Qed.

  Lemma filled_new k s o s' :
    new oracle k s = (Some o, s') -> filled [] (one o) s s' /\ In (k, Some o) (log s').
  Proof.
    unfold new. destruct (oracle (log s) k) as [o1|]; [|discriminate].
    intros E. injection E as <- <-. split; [|now left]. split; [intros v j []|].
    split; [auto|]. split; [intros e X; now right|].
    intros x. cbn. unfold bump, one. destruct (Nat.eqb x o1); lia.
  Qed.
  Lemma filled_status k s u s' :
    status oracle k s = (Some u, s') -> filled [] (fun _ => 0%Z) s s' /\ exists o, In (k, Some o) (log s').
  Proof.
    unfold status. destruct (oracle (log s) k) as [o1|]; [|discriminate].
    intros E. injection E as <- <-. split; [|exists o1; now left]. split; [intros v j []|].
    split; [auto|]. split; [intros e X; now right|]. intros x. cbn. lia.
  Qed.
  Lemma filled_decref o s u s' :
    decref o s = (Some u, s') -> filled [] (fun x => - one o x)%Z s s'.
  Proof.
    unfold decref. intros E. injection E as <- <-. split; [intros v j []|]. split; [auto|].
    split; [apply incl_refl|]. intros x. cbn. unfold bump, one. destruct (Nat.eqb x o); lia.
  Qed.

  Lemma filled_add m n o s u s' :
    add oracle m n o s = (Some u, s') -> exc s' = false ->
    filled [] (fun _ => 0%Z) s s' /\ exported s' m n o.
  Proof.
    unfold add, bind, incref. cbn. destruct (oracle (log s) (KAdd m n o)) as [r|];
      intros E X; injection E as <- <-; cbn in X; [|discriminate X].
    split; [|exists r; now left]. split; [intros v j []|]. split; [auto|].
    split; [intros e Y; now right|]. intros x. cbn. unfold bump. destruct (Nat.eqb x o); lia.
  Qed.

  (** ** Failures *)

  Definition fails_right {A} (m : I A) : Prop :=
    forall s r s', m s = (r, s') ->
      exists calls, log s' = (calls ++ log s)%list /\
        (r = None <-> exists k, In (k, None) calls /\ is_add k = false) /\
        (exc s' = true <-> exc s = true \/ exists k, In (k, None) calls).

  Lemma fr_ret {A} (a : A) : fails_right (ret a).
  Proof.
    intros s r s' E. injection E as <- <-. exists []. split; [reflexivity|]. split.
    - split; [discriminate|intros (k & [] & _)].
    - split; [auto|intros [X|(k & [])]; exact X].
  Qed.
  (** A call that ends the function if it fails. *)
  Lemma fr_call {A} (m : I A) (k : I A -> call) :
    is_add (k m) = false ->
    (forall s, match oracle (log s) (k m) with
               | Some o => exists a s', m s = (Some a, s') /\ log s' = (k m, Some o) :: log s /\ exc s' = exc s
               | None => exists s', m s = (None, s') /\ log s' = (k m, None) :: log s /\ exc s' = true
               end) -> fails_right m.
  Proof.
    intros NA H s r s' E. specialize (H s). destruct (oracle (log s) (k m)) as [o|].
    - destruct H as (a & s1 & E1 & L & X). rewrite E in E1. injection E1 as -> ->.
      exists [(k m, Some o)]. split; [exact L|]. split.
      + split; [discriminate|]. intros (j & [Q|[]] & _). discriminate Q.
      + rewrite X. split; [auto|]. intros [Y|(j & [Q|[]])]; [exact Y|discriminate Q].
    - destruct H as (s1 & E1 & L & X). rewrite E in E1. injection E1 as -> ->.
      exists [(k m, None)]. split; [exact L|]. split.
      + split; [|reflexivity]. intros _. exists (k m). split; [now left|exact NA].
      + split; [|auto]. intros _. right. exists (k m). now left.
  Qed.
  Lemma fr_new k : is_add k = false -> fails_right (new oracle k).
  Proof.
    intros NA. apply (fr_call _ (fun _ => k) NA). intros s. unfold new.
    destruct (oracle (log s) k) as [o|]; [exists o|]; eexists; (split; [reflexivity|]); split; reflexivity.
  Qed.
  Lemma fr_status k : is_add k = false -> fails_right (status oracle k).
  Proof.
    intros NA. apply (fr_call _ (fun _ => k) NA). intros s. unfold status.
    destruct (oracle (log s) k) as [o|]; [exists tt|]; eexists; (split; [reflexivity|]); split; reflexivity.
  Qed.
  Lemma fr_store v k : is_add k = false -> fails_right (store oracle v k).
  Proof.
    intros NA. apply (fr_call _ (fun _ => k) NA). intros s. unfold store, new, setvar.
    destruct (oracle (log s) k) as [o|]; [exists tt|]; eexists; (split; [reflexivity|]); split; reflexivity.
  Qed.
  Lemma fr_quiet {A} (m : I A) :
    (forall s, exists a s', m s = (Some a, s') /\ log s' = log s /\ exc s' = exc s) -> fails_right m.
  Proof.
    intros H s r s' E. destruct (H s) as (a & s1 & E1 & L & X). rewrite E in E1. injection E1 as -> ->.
    exists []. split; [exact L|]. split.
    - split; [discriminate|intros (k & [] & _)].
    - rewrite X. split; [auto|intros [Y|(k & [])]; exact Y].
  Qed.
  Lemma fr_decref o : fails_right (decref o).
  Proof. apply fr_quiet. intros s. eexists _, _. split; [reflexivity|]. split; reflexivity. Qed.
  Lemma fr_getvar v : fails_right (getvar v).
  Proof.
    apply fr_quiet. intros s. unfold getvar. destruct (vars s v); eexists _, _;
      (split; [reflexivity|]); split; reflexivity.
  Qed.
  Lemma fr_bind {A B} (m : I A) (f : A -> I B) :
    fails_right m -> (forall a, fails_right (f a)) -> fails_right (bind m f).
  Proof.
    intros Hm Hf s r s' E. unfold bind in E. destruct (m s) as [[a|] s1] eqn:Em.
    - destruct (Hm _ _ _ Em) as (c1 & L1 & R1 & X1). destruct (Hf a _ _ _ E) as (c2 & L2 & R2 & X2).
      exists (c2 ++ c1)%list. split; [now rewrite L2, L1, app_assoc|]. split.
      + rewrite R2. split.
        * intros (k & I & NA). exists k. split; [apply in_or_app; now left|exact NA].
        * intros (k & I & NA). apply in_app_or in I as [I|I]; [now exists k|].
          assert (Q : Some a = None) by (apply R1; now exists k). discriminate Q.
      + rewrite X2, X1. split.
        * intros [[Y|(k & I)]|(k & I)]; [now left|right; exists k; apply in_or_app; now right|right; exists k; apply in_or_app; now left].
        * intros [Y|(k & I)]; [auto|]. apply in_app_or in I as [I|I]; [right|left; right]; now exists k.
    - injection E as <- <-. destruct (Hm _ _ _ Em) as (c1 & L1 & R1 & X1).
      exists c1. split; [exact L1|]. split; [|exact X1]. split; [|reflexivity]. intros _. now apply R1.
  Qed.
  Lemma fr_each {A} (f : A -> I unit) l : (forall a, fails_right (f a)) -> fails_right (each f l).
  Proof.
    intros H. induction l as [|a l IH]; cbn [each]; [apply fr_ret|]. apply fr_bind; auto.
  Qed.
  Lemma fr_add m n o : fails_right (add oracle m n o).
  Proof.
    unfold add. apply fr_bind.
    - apply fr_quiet. intros s. eexists _, _. split; [reflexivity|]. split; reflexivity.
    - intros _ s r s' E. destruct (oracle (log s) (KAdd m n o)) as [x|]; injection E as <- <-.
      + exists [(KAdd m n o, Some x)]. split; [reflexivity|]. split.
        * split; [discriminate|]. intros (j & [Q|[]] & _). discriminate Q.
        * cbn. split; [auto|]. intros [Y|(j & [Q|[]])]; [exact Y|discriminate Q].
      + exists [(KAdd m n o, None)]. split; [reflexivity|]. split.
        * split; [discriminate|]. intros (j & [Q|[]] & N). injection Q as <-. discriminate N.
        * cbn. split; [|reflexivity]. intros _. right. exists (KAdd m n o). now left.
  Qed.
  Lemma fr_import n : (forall n s, hook n s = s) -> fails_right (import_ oracle hook n).
  Proof.
    intros H s r s' E. unfold import_ in E. rewrite H in E. exact (fr_new (KImport n) eq_refl s r s' E).
  Qed.

  Lemma proxy_fails : fails_right (init_proxy oracle type).
  Proof.
    unfold init_proxy, INIT_STRING, INIT_STRING_OP.
    repeat first [apply fr_add | apply fr_bind; [|intros ?] | apply fr_each; intros ? | apply fr_store; reflexivity
                 | apply fr_new; reflexivity | apply fr_status; reflexivity | apply fr_ret].
  Qed.
  Lemma checker_fails : (forall n s, hook n s = s) -> fails_right (init_checker oracle type hook).
  Proof.
    intros H. unfold init_checker, INIT_STRING.
    repeat first [apply fr_add | apply fr_bind; [|intros ?] | apply fr_each; intros ? | apply fr_store; reflexivity
                 | apply fr_new; reflexivity | apply fr_status; reflexivity | apply fr_ret
                 | apply fr_decref | apply fr_getvar | apply fr_import; exact H].
  Qed.

  (** ** Success *)

  Ltac chain F F' G :=
    pose proof (fun D => filled_app _ _ _ _ _ _ _ D F F') as G; specialize (G eq_refl).
  Ltac step E x s1 E1 := apply bind_inv in E as (x & s1 & E1 & E).

  Lemma filled_weaken vs x y s s' : (forall o, x o = y o) -> filled vs x s s' -> filled vs y s s'.
  Proof. intros E (A & B & C & D). repeat split; auto. intros o. rewrite D, E. reflexivity. Qed.

  Definition proxy_filling : list (string * call) :=
    map (fun v => (v, KIntern (text_of v))) declared_strings ++
    [("__class__str", KFromString "__class__"); ("__name__str", KFromString "__name__");
     ("__module__str", KFromString "__module__")].

  Lemma proxy_filled s m s' :
    init_proxy oracle type s = (Some m, s') -> exc s' = false ->
    filled proxy_filling (one m) s s' /\ exported s' m "_Proxy" type /\
    In (KCreate "_proxy", Some m) (log s').
  Proof.
    intros E X. unfold init_proxy, INIT_STRING, INIT_STRING_OP in E.
    step E m0 s1 E1. step E u2 s2 E2. step E u3 s3 E3. step E u4 s4 E4. step E u5 s5 E5.
    step E u6 s6 E6. step E u7 s7 E7. step E u8 s8 E8. step E u9 s9 E9. step E u10 s10 E10.
    injection E as -> ->.
    apply filled_new in E1 as (F1 & L1). apply filled_status in E2 as (F2 & _).
    apply (filled_each (fun S => "str_" ++ S) KIntern) in E3; [|vm_compute; reflexivity].
    apply (filled_each (fun S => "str_op_" ++ S) (fun S => KIntern ("__" ++ S ++ "__"))) in E4; [|vm_compute; reflexivity].
    apply (filled_each (fun S => "str_" ++ S) KIntern) in E5; [|vm_compute; reflexivity].
    apply filled_store in E6, E7, E8. apply filled_status in E9 as (F9 & _).
    apply filled_add in E10 as (F10 & Ex); [|exact X].
    chain F1 F2 G.
    chain G E3 G1.
    chain G1 E4 G2.
    chain G2 E5 G3.
    chain G3 E6 G4.
    chain G4 E7 G5.
    chain G5 E8 G6.
    chain G6 F9 G7.
    chain G7 F10 G8.
    split; [|split; [exact Ex|]].
    - apply (filled_weaken _ _ (one m)) in G8; [|intros o; lia]. exact G8.
    - destruct F2 as (_ & _ & I2 & _). destruct E3 as (_ & _ & I3 & _). destruct E4 as (_ & _ & I4 & _).
      destruct E5 as (_ & _ & I5 & _). destruct E6 as (_ & _ & I6 & _). destruct E7 as (_ & _ & I7 & _).
      destruct E8 as (_ & _ & I8 & _). destruct F9 as (_ & _ & I9 & _). destruct F10 as (_ & _ & I10 & _).
      apply I10, I9, I8, I7, I6, I5, I4, I3, I2, L1.
  Qed.

  Lemma proxy_lemma s m s' :
    init_proxy oracle type s = (Some m, s') -> exc s' = false ->
    In (KCreate "_proxy", Some m) (log s') /\
    (forall v, In v declared_strings -> has_result s' v (KIntern (text_of v))) /\
    has_result s' "__class__str" (KFromString "__class__") /\
    has_result s' "__name__str" (KFromString "__name__") /\
    has_result s' "__module__str" (KFromString "__module__") /\
    exported s' m "_Proxy" type /\
    (forall o, own s' o = own s o + held proxy_vars s' o + one m o)%Z.
  Proof.
    intros E X. destruct (proxy_filled s m s' E X) as ((A & _ & _ & D) & Ex & C).
    split; [exact C|]. split; [|split; [|split; [|split; [|split]]]].
    - intros v I. apply A. unfold proxy_filling. apply in_or_app. left. apply in_map_iff. exists v. auto.
    - apply A. unfold proxy_filling. apply in_or_app. right. cbn. auto.
    - apply A. unfold proxy_filling. apply in_or_app. right. cbn. auto.
    - apply A. unfold proxy_filling. apply in_or_app. right. cbn. auto.
    - exact Ex.
    - intros o. rewrite D. reflexivity.
  Qed.

  Lemma filled_var v o s s' vs x :
    filled vs x s s' -> ~ In v (map fst vs) -> vars s v = Some o -> vars s' v = Some o.
  Proof. intros (_ & B & _) N E. now rewrite B. Qed.

  Lemma getvar_add m n o s u s' :
    vars s n = Some o ->
    (x <- getvar n ;; add oracle m n x) s = (Some u, s') -> exc s' = false ->
    filled [] (fun _ => 0%Z) s s' /\ exported s' m n o.
  Proof.
    intros V E X. step E x s1 E1. unfold getvar in E1. rewrite V in E1. injection E1 as <- <-.
    exact (filled_add _ _ _ _ _ _ E X).
  Qed.
  (** The exception flag is never reset. *)
  Lemma exc_before {A} (m : I A) s r s' : fails_right m -> m s = (r, s') -> exc s' = false -> exc s = false.
  Proof.
    intros F E X. destruct (F _ _ _ E) as (c & _ & _ & Q). destruct (exc s); [|reflexivity].
    assert (exc s' = true) by (apply Q; now left). congruence.
  Qed.

  Lemma exports_lemma m ns : forall s u s',
    each (fun n => o <- getvar n ;; add oracle m n o) ns s = (Some u, s') -> exc s' = false ->
    (forall n, In n ns -> vars s n <> None) ->
    filled [] (fun _ => 0%Z) s s' /\
    forall n o, In n ns -> vars s n = Some o -> exported s' m n o.
  Proof.
    induction ns as [|n ns IH]; intros s u s' E X V.
    - injection E as <- <-. split; [apply filled_nil|intros n o []].
    - cbn [each] in E. step E u1 s1 E1.
      destruct (vars s n) as [o|] eqn:Vn; [|exfalso; exact (V n (or_introl eq_refl) Vn)].
      assert (X1 : exc s1 = false).
      { apply (exc_before _ _ _ _ (fr_each _ ns (fun a => fr_bind _ _ (fr_getvar a) (fun o => fr_add m a o))) E X). }
      destruct (getvar_add _ _ _ _ _ _ Vn E1 X1) as (F1 & Ex1).
      assert (Vs : forall w, vars s1 w = vars s w) by (intros w; apply F1; cbn; auto).
      destruct (IH s1 u s' E X) as (F2 & Ex2).
      { intros w W. rewrite Vs. apply V. now right. }
      split.
      + chain F1 F2 G. exact G.
      + intros w o' [<- | W] Vw.
        * rewrite Vn in Vw. injection Vw as <-. destruct Ex1 as (r & I). exists r. apply F2, I.
        * apply Ex2; [exact W|]. now rewrite Vs.
  Qed.

  Lemma filled_import n s o s' :
    (forall n s, hook n s = s) -> import_ oracle hook n s = (Some o, s') ->
    filled [] (one o) s s' /\ In (KImport n, Some o) (log s').
  Proof. intros H E. unfold import_ in E. rewrite H in E. exact (filled_new _ _ _ _ E). Qed.

  Lemma checker_lemma s m s' :
    (forall n s, hook n s = s) ->
    init_checker oracle type hook s = (Some m, s') -> exc s' = false ->
    In (KCreate "_zope_security_checker", Some m) (log s') /\
    has_result s' "_checkers" KNewDict /\ has_result s' "_defaultChecker" KNewChecker /\
    has_result s' "_available_by_default" KNewList /\ has_result s' "NoProxy" KNewObject /\
    from_module s' "Proxy" "zope.security._proxy" "_Proxy" /\
    from_module s' "thread_local" "zope.security._definitions" "thread_local" /\
    from_module s' "ForbiddenAttribute" "zope.security.interfaces" "ForbiddenAttribute" /\
    from_module s' "Unauthorized" "zope.security.interfaces" "Unauthorized" /\
    from_module s' "CheckerPublic" "zope.security.checker" "CheckerPublic" /\
    has_result s' "str_checkPermission" (KIntern "checkPermission") /\
    has_result s' "str___Security_checker__" (KIntern "__Security_checker__") /\
    has_result s' "str_interaction" (KIntern "interaction") /\
    (forall n, In n ["_checkers"; "_defaultChecker"; "_available_by_default"; "NoProxy"] ->
       exists o, vars s' n = Some o /\ exported s' m n o) /\
    exported s' m "Checker" type /\
    (forall o, own s' o = own s o + held checker_vars s' o + one m o)%Z.
  Proof.
    intros H E X. unfold init_checker, INIT_STRING in E.
    step E m0 s1 E1. step E u2 s2 E2. step E u3 s3 E3. step E u4 s4 E4. step E u5 s5 E5.
    step E u6 s6 E6. step E m7 s7 E7. step E u8 s8 E8. step E u9 s9 E9. step E m10 s10 E10.
    step E u11 s11 E11. step E u12 s12 E12. step E m13 s13 E13. step E u14 s14 E14.
    step E u15 s15 E15. step E u16 s16 E16. step E m17 s17 E17. step E u18 s18 E18.
    step E u19 s19 E19. step E u20 s20 E20. step E u21 s21 E21. step E u22 s22 E22.
    injection E as -> ->.
    apply filled_new in E1 as (F1 & L1). apply filled_status in E2 as (F2 & _).
    apply filled_store in E3.
    apply (filled_each (fun S => "str_" ++ S) KIntern) in E4; [|vm_compute; reflexivity].
    apply filled_store in E5, E6. apply (filled_import _ _ _ _ H) in E7 as (F7 & L7).
    apply filled_store in E8. apply filled_decref in E9.
    apply (filled_import _ _ _ _ H) in E10 as (F10 & L10). apply filled_store in E11. apply filled_decref in E12.
    apply (filled_import _ _ _ _ H) in E13 as (F13 & L13). apply filled_store in E14, E15. apply filled_decref in E16.
    apply (filled_import _ _ _ _ H) in E17 as (F17 & L17). apply filled_store in E18. apply filled_decref in E19.
    apply filled_store in E20.
    assert (X21 : exc s21 = false) by exact (exc_before _ _ _ _ (fr_add _ _ _) E22 X).
    apply filled_add in E22 as (F22 & Ex22); [|exact X].
    chain F1 F2 G2. chain G2 E3 G3. chain G3 E4 G4. chain G4 E5 G5. chain G5 E6 G6. chain G6 F7 G7.
    chain G7 E8 G8. chain G8 E9 G9. chain G9 F10 G10. chain G10 E11 G11. chain G11 E12 G12.
    chain G12 F13 G13. chain G13 E14 G14. chain G14 E15 G15. chain G15 E16 G16. chain G16 F17 G17.
    chain G17 E18 G18. chain G18 E19 G19. chain G19 E20 G20.
    cbn [app map] in G20.
    assert (V20 : forall n, In n ["_checkers"; "NoProxy"; "_defaultChecker"; "_available_by_default"] ->
                    exists o, vars s20 n = Some o).
    { destruct G20 as (R & _).
      intros n [<-|[<-|[<-|[<-|[]]]]]; [destruct (R "_checkers" KNewDict) as (o & Q & _)
        |destruct (R "NoProxy" KNewObject) as (o & Q & _)
        |destruct (R "_defaultChecker" KNewChecker) as (o & Q & _)
        |destruct (R "_available_by_default" KNewList) as (o & Q & _)]; cbn; auto 20; now exists o. }
    destruct (exports_lemma _ _ _ _ _ E21 X21) as (F21 & Ex21).
    { intros n I. destruct (V20 n I) as (o & ->). discriminate. }
    chain G20 F21 G21. chain G21 F22 G22. cbn [app] in G22.
    destruct G22 as (R & _ & _ & Ow).
    assert (Inc : forall e, In e (log s20) -> In e (log s')) by (intros e Y; apply F22, F21, Y).
    assert (Inc16 : forall e, In e (log s16) -> In e (log s20)).
    { intros e Y. apply E20, E19, E18, F17, Y. }
    assert (Inc12 : forall e, In e (log s12) -> In e (log s16)).
    { intros e Y. apply E16, E15, E14, F13, Y. }
    assert (Inc9 : forall e, In e (log s9) -> In e (log s12)).
    { intros e Y. apply E12, E11, F10, Y. }
    assert (Inc1 : forall e, In e (log s1) -> In e (log s9)).
    { intros e Y. apply E9, E8, F7, E6, E5, E4, E3, F2, Y. }
    split; [apply Inc, Inc16, Inc12, Inc9, Inc1, L1|].
    split; [apply R; cbn; auto 20|]. split; [apply R; cbn; auto 20|].
    split; [apply R; cbn; auto 20|]. split; [apply R; cbn; auto 20|].
    split. { exists m7. split; [apply Inc, Inc16, Inc12, Inc9, E9, E8, L7|apply R; cbn; auto 20]. }
    split. { exists m10. split; [apply Inc, Inc16, Inc12, E12, E11, L10|apply R; cbn; auto 20]. }
    split. { exists m13. split; [apply Inc, Inc16, E16, E15, E14, L13|apply R; cbn; auto 20]. }
    split. { exists m13. split; [apply Inc, Inc16, E16, E15, E14, L13|apply R; cbn; auto 20]. }
    split. { exists m17. split; [apply Inc, E20, E19, E18, L17|apply R; cbn; auto 20]. }
    split; [apply R; cbn; auto 20|]. split; [apply R; cbn; auto 20|]. split; [apply R; cbn; auto 20|].
    split; [|split; [exact Ex22|]].
    - intros n I.
      assert (I' : In n ["_checkers"; "NoProxy"; "_defaultChecker"; "_available_by_default"])
        by (cbn in I |- *; tauto).
      destruct (V20 n I') as (o & V). exists o. split.
      + destruct F21 as (_ & V21 & _). destruct F22 as (_ & V22 & _).
        rewrite V22, V21; [exact V| |]; cbn; auto.
      + destruct (Ex21 n o I' V) as (r & Y). exists r. apply F22, Y.
    - intros o. rewrite Ow. cbn [map fst append]. unfold held, checker_vars. cbn [fold_right]. lia.
  Qed.
End Init.
