(** * CExtLeaks: where the C functions do not give back what they take, or crash. *)

From Coq Require Import List Bool Arith ZArith Lia.
From Verif Require Import CExt CExtSpec CExtFacts CExtSound.
Import ListNotations.
Open Scope Z_scope.

(** What is undefined stays undefined. *)
Definition stuck {A} (m : C A) : Prop :=
  forall s a s', m s = Some (a, s') -> fault s = true -> fault s' = true.

Lemma stuck_ret {A} (a : A) : stuck (ret a).
Proof. intros s b s' H Hf. injection H as _ <-. exact Hf. Qed.
Lemma stuck_bind {A B} (m : C A) (f : A -> C B) :
  stuck m -> (forall a, stuck (f a)) -> stuck (bind m f).
Proof.
  intros Hm Hf s b s' H Hs. unfold bind in H.
  destruct (m s) as [[a s1]|] eqn:E; [|discriminate H].
  exact (Hf a s1 b s' H (Hm s a s1 E Hs)).
Qed.
Lemma stuck_wp {A} (m : C A) s (Q : A -> cst -> Prop) :
  stuck m -> fault s = true -> (forall a s', fault s' = true -> Q a s') -> wp m s Q.
Proof.
  intros Hm Hs HQ. unfold wp. destruct (m s) as [[a s']|] eqn:E; [|exact I].
  apply HQ, (Hm s a s' E Hs).
Qed.

Section Leaks.
  Variable oracle : nat -> answer.
  Variable args : list obj.
  Variables is_proxy is_checker is_str exact_proxy has_sub has_ass has_num has_next : obj -> bool.
  Variables char0 char1 is_iter : obj -> bool.

  Lemma stuck_use p : stuck (use args p).
  Proof.
    intros s a s' H Hf. unfold use in H. destruct p as [o|].
    - destruct (alive args s o); injection H as _ <-; [exact Hf|reflexivity].
    - injection H as _ <-. reflexivity.
  Qed.
  Lemma stuck_uses l : stuck (uses args l).
  Proof.
    induction l as [|p l IH]; cbn [uses]; [apply stuck_ret|].
    apply stuck_bind; [apply stuck_use|intros _; exact IH].
  Qed.
  Lemma stuck_elsewhere : stuck (elsewhere oracle).
  Proof. intros s a s' H Hf. injection H as _ <-. exact Hf. Qed.
  Lemma stuck_call l : stuck (call oracle args l).
  Proof.
    unfold call. apply stuck_bind; [apply stuck_uses|]. intros _.
    apply stuck_bind; [|intros _; apply stuck_elsewhere].
    intros s a s' H Hf. destruct (exc s); injection H as _ <-; [reflexivity|exact Hf].
  Qed.
  Lemma stuck_raise : stuck raise_exc.
  Proof. intros s a s' H Hf. injection H as _ <-. exact Hf. Qed.
  Lemma stuck_clear : stuck PyErr_Clear.
  Proof. intros s a s' H Hf. injection H as _ <-. exact Hf. Qed.
  Lemma stuck_own (o : obj) (p : ptr) z : stuck (fun s => Some (p, set_own (bump o z (own s)) s)).
  Proof. intros s a s' H Hf. injection H as _ <-. exact Hf. Qed.
  Lemma stuck_note k l x : stuck (note k l x).
  Proof. intros s a s' H Hf. injection H as _ <-. exact Hf. Qed.
  Lemma stuck_call_new k l : stuck (call_new oracle args k l).
  Proof.
    unfold call_new. apply stuck_bind; [apply stuck_call|]. intros a.
    destruct (an_ptr a); (apply stuck_bind; [apply stuck_note|intros _]); [apply stuck_own|].
    apply stuck_bind; [apply stuck_raise|intros _; apply stuck_ret].
  Qed.
  Lemma stuck_call_int k l : stuck (call_int oracle args k l).
  Proof.
    unfold call_int. apply stuck_bind; [apply stuck_call|]. intros a.
    destruct (an_neg a); (apply stuck_bind; [apply stuck_note|intros _]); [|apply stuck_ret].
    apply stuck_bind; [apply stuck_raise|intros _; apply stuck_ret].
  Qed.
  Lemma stuck_call_flag k l : stuck (call_flag oracle args k l).
  Proof.
    unfold call_flag. apply stuck_bind; [apply stuck_call|intros a].
    apply stuck_bind; [apply stuck_note|intros _; apply stuck_ret].
  Qed.
  Lemma stuck_from_format ob l : stuck (from_format oracle args ob l).
  Proof.
    unfold from_format. apply stuck_bind; [apply stuck_uses|]. intros _.
    apply stuck_bind; [apply stuck_elsewhere|]. intros a.
    destruct (an_ptr a); apply stuck_bind; try apply stuck_note; intros _; [apply stuck_own|].
    apply stuck_bind; [apply stuck_raise|intros _; apply stuck_ret].
  Qed.
  Lemma stuck_decref p : stuck (decref oracle p).
  Proof.
    unfold decref. destruct p as [o|].
    - apply stuck_bind.
      + intros s a s' H Hf. destruct (0 <? own s o); injection H as _ <-; [exact Hf|reflexivity].
      + intros _. apply stuck_bind; [apply stuck_elsewhere|intros _; apply stuck_ret].
    - intros s a s' H Hf. injection H as _ <-. reflexivity.
  Qed.
  Lemma stuck_xdecref p : stuck (xdecref oracle p).
  Proof. destruct p; [apply stuck_decref|apply stuck_ret]. Qed.
  Lemma stuck_setobject c v : stuck (PyErr_SetObject args c v).
  Proof. unfold PyErr_SetObject. apply stuck_bind; [apply stuck_uses|intros _; apply stuck_bind; [apply stuck_note|intros _; apply stuck_raise]]. Qed.
  Lemma stuck_forbidden object name : stuck (forbidden oracle args object name).
  Proof.
    unfold forbidden. apply stuck_bind; [apply stuck_call_new|]. intros a.
    destruct a; [|apply stuck_ret].
    apply stuck_bind; [apply stuck_setobject|intros _].
    apply stuck_bind; [apply stuck_decref|intros _; apply stuck_ret].
  Qed.

  Ltac stucks :=
    repeat first
      [ apply stuck_ret | apply stuck_use | apply stuck_uses | apply stuck_call_new
      | apply stuck_call_int | apply stuck_call_flag | apply stuck_from_format
      | apply stuck_decref | apply stuck_xdecref | apply stuck_forbidden | apply stuck_clear
      | apply stuck_note
      | apply stuck_bind | match goal with |- forall _, _ => intro end
      | match goal with
        | |- stuck (if ?b then _ else _) => destruct b
        | |- stuck (match ?p with Some _ => _ | None => _ end) => destruct p
        end ].

  Lemma wp_null {A} (f : unit -> C A) s (Q : A -> cst -> Prop) :
    stuck (f tt) -> (forall a s', fault s' = true -> Q a s') -> wp (bind (chars args None) f) s Q.
  Proof.
    intros Hf HQ. apply wp_bind. unfold wp at 1, chars, use.
    apply stuck_wp; [exact Hf|reflexivity|exact HQ].
  Qed.

  Lemma uses_null l s (Q : unit -> cst -> Prop) :
    (forall s', fault s' = true -> Q tt s') -> wp (uses args (None :: l)) s Q.
  Proof.
    intros HQ. cbn [uses]. apply wp_bind. unfold wp at 1. cbn [use].
    apply stuck_wp; [apply stuck_uses|reflexivity|]. intros [] s' H. auto.
  Qed.

  (** ** Checker.check: a string that is not in the table *)
  Lemma check_int_other self object name d s i s' :
    entered s -> In self args -> In object args -> In name args ->
    f1 s self = Some d -> an_ptr (oracle (step s)) = None -> is_str name = true ->
    Checker_check_int oracle args is_str char0 char1 is_iter self object name s = Some (i, s') ->
    match an_ptr (oracle (S (step s))) with
    | None => fault s' = true
    | Some b => fault s' = true \/ own s b < own s' b
    end.
  Proof.
    intros He Hs Ho Hn Hd Hno Hstr E. pose proof (start oracle s He) as HA.
    cut (wp (Checker_check_int oracle args is_str char0 char1 is_iter self object name) s
      (fun i s' => match an_ptr (oracle (S (step s))) with
                   | None => fault s' = true
                   | Some b => fault s' = true \/ own s b < own s' b end)).
    { unfold wp. rewrite E. auto. }
    clear E i s'. unfold Checker_check_int. apply wp_bind.
    apply (wp_get1 oracle args _ false [] _ _ _ _ _ HA); [right; left; exact Hs|]. rewrite Hd.
    apply wp_bind. unfold PyDict_GetItem at 1, call at 1. apply wp_bind. apply wp_bind.
    apply (wp_uses oracle args (own s) false [] (f1 s) (f2 s)); [exact HA| |].
    { intros p [<-|[<-|[]]]; eexists; split; try reflexivity.
      - right. right. left. exists self. auto.
      - right. left. exact Hn. }
    apply wp_bind. unfold wp at 1. rewrite (A_exc _ _ _ _ _ _ _ HA).
    unfold wp at 1, elsewhere at 1. rewrite Hno. apply wp_ret. rewrite Hstr.
    apply (A_step oracle) in HA.
    match goal with |- wp _ ?x _ => set (s1 := x) end.
    assert (HA1 : A oracle (own s) false [] (f1 s) (f2 s) s1)
      by (destruct HA as [Hf' Ho' HP' He' Hw' H1' H2']; split; assumption). clear HA.
    replace (S (step s)) with (step s1) by reflexivity.
    assert (HP : forall o, 0 <= own s o) by apply He.
    clearbody s1. apply wp_bind. apply wp_bind. unfold MAKE_STRING at 1.
    assert (Harg : forall L p, In p [Some name] -> safe_ptr args L [] (f1 s) (f2 s) p).
    { intros L p [<-|[]]. eexists; split; [reflexivity|]. right. left. exact Hn. }
    apply (wp_call_new' oracle args (f1 s) (f2 s) (own s) [] _ _ _ _ HA1 (Harg _)).
    { intros s2 HN HA2. rewrite HN. apply wp_null; [stucks|]. intros u s3 H3.
      apply stuck_wp; [stucks|exact H3|]. auto. }
    intros b s2 HS HA2. rewrite HS. clear HS HA1 s1.
    apply wp_bind. unfold chars at 1. apply (wp_use oracle args _ false [] _ _ _ _ _ HA2).
    { eexists; split; [reflexivity|]. right. right. right. left. rewrite bump_same. specialize (HP b). lia. }
    assert (Hrest : forall s3 L, A oracle L false [] (f1 s) (f2 s) s3 -> own s b < L b ->
      wp (forbidden oracle args object name) s3 (fun _ s' => fault s' = true \/ own s b < own s' b)).
    { intros s3 L HA3 HL. eapply wp_mono; [apply (forbidden_ok oracle args (f1 s) (f2 s) object name L []); assumption|].
      intros i s4 [_ HA4]. right. rewrite (A_own _ _ _ _ _ _ _ HA4). exact HL. }
    assert (HL1 : own s b < bump b 1 (own s) b) by (rewrite bump_same; lia).
    assert (Hup : forall (L : obj -> Z) x, own s b < L b -> own s b < bump x 1 L b).
    { intros L x H. unfold bump. destruct (Nat.eqb b x); lia. }
    destruct (char0 name); [|apply wp_ret; apply (Hrest _ _ HA2 HL1)].
    apply wp_bind. unfold MAKE_STRING at 1.
    apply (wp_call_new oracle args _ _ _ _ _ _ _ _ HA2 (Harg _)).
    { intros s3 HA3. apply wp_null; [stucks|]. intros u s4 H4. apply stuck_wp; [stucks|exact H4|]. auto. }
    intros b1 s3 HA3. specialize (Hup _ b1 HL1) as HL2.
    apply wp_bind. unfold chars at 1. apply (wp_use oracle args _ false [] _ _ _ _ _ HA3).
    { eexists; split; [reflexivity|]. right. right. right. left. rewrite bump_same.
      pose proof (A_pos _ _ _ _ _ _ _ HA2 b1). lia. }
    apply wp_ret. destruct (char1 name); [|apply (Hrest _ _ HA3 HL2)].
    apply wp_bind. apply (wp_call_int oracle args _ _ _ _ _ _ _ _ HA3).
    { intros p [<-|[<-|[]]]; eexists; split; try reflexivity; [left; reflexivity|right; left; exact Hn]. }
    { intros s4 HA4. apply wp_ret. right. rewrite (A_own _ _ _ _ _ _ _ HA4). exact HL2. }
    intros n s4 HA4 Hn0. rewrite (proj2 (Z.ltb_ge n 0) Hn0). destruct (Z.eqb n 0); cbn [negb].
    2:{ apply wp_ret. right. rewrite (A_own _ _ _ _ _ _ _ HA4). exact HL2. }
    apply wp_bind. unfold MAKE_STRING at 1.
    apply (wp_call_new oracle args _ _ _ _ _ _ _ _ HA4 (Harg _)).
    { intros s5 HA5. apply wp_null; [stucks|]. auto. }
    intros b2 s5 HA5. specialize (Hup _ b2 HL2) as HL3.
    apply wp_bind. unfold chars at 1. apply (wp_use oracle args _ false [] _ _ _ _ _ HA5).
    { eexists; split; [reflexivity|]. right. right. right. left. rewrite bump_same.
      pose proof (A_pos _ _ _ _ _ _ _ HA4 b2). lia. }
    apply wp_bind. destruct (is_iter name); [|apply wp_ret; apply (Hrest _ _ HA5 HL3)].
    apply wp_bind. apply (wp_call_flag oracle args _ _ _ _ _ _ _ _ HA5).
    { intros p [<-|[<-|[]]]; eexists; split; try reflexivity; right; left; assumption. }
    intros h s6 HA6. apply wp_ret. destruct (negb h); [|apply (Hrest _ _ HA6 HL3)].
    apply wp_ret. right. rewrite (A_own _ _ _ _ _ _ _ HA6). exact HL3.
  Qed.

  (** ** The default representation *)
  Definition text_leaks (s : cst) (r : ptr) (s' : cst) : Prop :=
    match r with
    | None => True
    | Some _ => fault s' = true \/ exists o, own s o + returned r o < own s' o
    end.

  Ltac led :=
    unfold bump; rewrite ?Nat.eqb_refl;
    repeat match goal with
           | |- context [Nat.eqb ?a ?b] => destruct (Nat.eqb_spec a b); subst
           end; try congruence; try lia.

  Lemma repr_leaks F1 F2 object L s :
    A oracle L false [] F1 F2 s -> (forall L', safe args L' [] F1 F2 object) ->
    wp (default_repr oracle args (Some object)) s (fun r s' =>
      match r with
      | None => True
      | Some _ => fault s' = true \/ exists o, L o + returned r o < own s' o
      end).
  Proof.
    intros HA Hob. unfold default_repr.
    assert (HP := A_pos _ _ _ _ _ _ _ HA).
    assert (Hstuck : forall {B} (m : C B) f s0, stuck m -> (forall b, stuck (f b)) -> fault s0 = true ->
      wp (bind m f) s0 (fun (r : ptr) s' =>
        match r with None => True | Some _ => fault s' = true \/ exists o, L o + returned r o < own s' o end)).
    { intros B m f s0 H1 H2 H3. apply stuck_wp; [apply stuck_bind; assumption|exact H3|].
      intros [r|] s1 H4; auto. }
    apply wp_bind. apply (wp_call_new oracle args _ _ _ _ _ _ _ _ HA).
    { intros p [<-|[<-|[]]]; eexists; split; try reflexivity; [auto|left; reflexivity]. }
    { intros s1 _. apply wp_ret. exact I. }
    intros k s1 HA1. apply wp_bind. apply (wp_call_new oracle args _ _ _ _ _ _ _ _ HA1).
    { intros p [<-|[<-|[]]]; eexists; split; try reflexivity; [|left; reflexivity].
      right. right. right. left. rewrite bump_same. specialize (HP k). lia. }
    { intros s2 HA2. apply wp_bind.
      apply (wp_decref oracle _ true [] _ _ _ k _ _ HA2 eq_refl); [rewrite bump_same; specialize (HP k); lia|].
      intros s3 HA3. apply wp_ret. exact I. }
    intros n s2 HA2. pose proof (A_pos _ _ _ _ _ _ _ HA1) as HP1.
    apply wp_bind. unfold MAKE_STRING at 1. apply (wp_call_new oracle args _ _ _ _ _ _ _ _ HA2).
    { intros p [<-|[]]; eexists; split; [reflexivity|].
      right. right. right. left. rewrite bump_same. specialize (HP1 n). lia. }
    { (* the name has no text: an exception is set when the module is looked up *)
      intros s3 HA3. apply wp_bind. unfold call_new at 1. apply wp_bind. unfold call at 1. apply wp_bind.
      apply (wp_uses oracle args _ true [] F1 F2 _ _ _ HA3).
      { intros p [<-|[<-|[]]]; eexists; split; try reflexivity; [|left; reflexivity].
        right. right. right. left. unfold bump. rewrite Nat.eqb_refl. specialize (HP k).
        destruct (Nat.eqb k n); lia. }
      apply wp_bind. unfold wp at 1. rewrite (A_exc _ _ _ _ _ _ _ HA3).
      unfold wp at 1, elsewhere at 1. cbv zeta.
      match goal with |- wp ?m ?st ?Q => set (m' := m); assert (Hst : fault st = true) by reflexivity;
        assert (Hm : stuck m') end.
      { subst m'. destruct (an_ptr _); stucks. apply stuck_own. apply stuck_raise. }
      apply (stuck_wp m'); [exact Hm|exact Hst|]. intros a s4 H4.
      apply Hstuck; [destruct a; stucks|intros b; stucks|exact H4]. }
    intros b s3 HA3. pose proof (A_pos _ _ _ _ _ _ _ HA2) as HP2. pose proof (A_pos _ _ _ _ _ _ _ HA3) as HP3.
    set (L3 := bump b 1 (bump n 1 (bump k 1 L))) in *.
    assert (Hbig : forall o, L o <= L3 o) by (intros o; unfold L3, bump; destruct (Nat.eqb o b), (Nat.eqb o n), (Nat.eqb o k); lia).
    (* the end, with the ledger of the names still held *)
    assert (Hend : forall X r s4,
      match r with
      | None => exists e, A oracle (bump b 1 (bump n 1 (bump k 1 X))) e [] F1 F2 s4
      | Some o => A oracle (bump o 1 (bump b 1 (bump n 1 (bump k 1 X)))) false [] F1 F2 s4
      end -> (forall o, L o <= X o) -> forall m,
      (forall x, m = Some x -> L x < X x) ->
      wp (decref oracle (Some k) ;;; xdecref oracle (Some n) ;;; xdecref oracle m ;;; ret r) s4
        (fun r s' => match r with
                     | None => True
                     | Some _ => fault s' = true \/ exists o, L o + returned r o < own s' o end)).
    { intros X r s4 HX HLX m Hm.
      destruct r as [o|].
      2:{ unfold wp. destruct ((decref oracle (Some k);;; (xdecref oracle (Some n);;; (xdecref oracle m;;; ret None))) s4)
            as [[r' s']|] eqn:Er; [|exact I].
          unfold bind at 1 in Er. destruct (decref oracle (Some k) s4) as [[u1 t1]|]; [|discriminate Er].
          unfold bind at 1 in Er. destruct (xdecref oracle (Some n) t1) as [[u2 t2]|]; [|discriminate Er].
          unfold bind at 1 in Er. destruct (xdecref oracle m t2) as [[u3 t3]|]; [|discriminate Er].
          injection Er as <- <-. exact I. }
      apply wp_bind. apply (wp_decref oracle _ false [] _ _ _ k _ _ HX eq_refl).
      { specialize (HP k). specialize (HLX k). led. }
      intros s5 HA5. apply wp_bind. cbn [xdecref]. apply (wp_decref oracle _ false [] _ _ _ n _ _ HA5 eq_refl).
      { specialize (HP n). specialize (HLX n). led. }
      intros s6 HA6. apply wp_bind. destruct m as [x|].
      - cbn [xdecref]. apply (wp_decref oracle _ false [] _ _ _ x _ _ HA6 eq_refl).
        { specialize (Hm x eq_refl). specialize (HP x). led. }
        intros s7 HA7. apply wp_ret. right. exists b. rewrite (A_own _ _ _ _ _ _ _ HA7).
        specialize (HLX b). pose proof (Hm x eq_refl) as Hx. unfold returned. led.
      - apply wp_ret. apply wp_ret. right. exists b. rewrite (A_own _ _ _ _ _ _ _ HA6).
        specialize (HLX b). unfold returned. led. }
    assert (Hb : forall X, (forall o, 0 <= X o) -> safe args (bump b 1 X) [] F1 F2 b).
    { intros X HX. right. right. right. left. rewrite bump_same. specialize (HX b). lia. }
    assert (Hformat : forall ob texts X s4 (Q : ptr -> cst -> Prop), A oracle X false [] F1 F2 s4 ->
      (forall p, In p texts -> safe_ptr args X [] F1 F2 p) ->
      (forall s', A oracle X true [] F1 F2 s' -> Q None s') ->
      (forall o s', A oracle (bump o 1 X) false [] F1 F2 s' -> Q (Some o) s') ->
      wp (from_format oracle args ob texts) s4 Q).
    { intros ob texts X s4 Q HA4 Ht HN HS. unfold from_format. apply wp_bind.
      apply (wp_uses oracle args _ false [] _ _ _ _ _ HA4 Ht).
      apply wp_bind. apply (wp_elsewhere oracle _ _ _ _ _ _ _ HA4). intros a s5 HA5.
      destruct (an_ptr a) as [o|]; apply wp_bind, (wp_note oracle _ _ _ _ _ _ _ _ _ _ HA5);
        clear s5 HA5; intros s5 HA5.
      - unfold wp. apply HS. apply A_bump; [exact HA5|]. pose proof (A_pos _ _ _ _ _ _ _ HA5 o). lia.
      - apply wp_bind. apply (wp_raise oracle _ _ _ _ _ _ _ HA5). intros s6 HA6. apply wp_ret. auto. }
    apply wp_bind. apply (wp_call_new oracle args _ _ _ _ _ _ _ _ HA3).
    { intros p [<-|[<-|[]]]; eexists; split; try reflexivity; [|left; reflexivity].
      right. right. right. left. unfold L3. specialize (HP k). led. }
    - intros s4 HA4. apply wp_bind. apply wp_bind. apply (wp_err_clear oracle _ _ _ _ _ _ _ HA4).
      intros s5 HA5. apply (Hformat _ [Some b] L3 s5 _ HA5).
      + intros p [<-|[]]. eexists; split; [reflexivity|]. apply Hb, HP2.
      + intros s6 HA6. apply (Hend L None s6); [exists true; exact HA6|intros; lia|intros x X; discriminate X].
      + intros o s6 HA6. apply (Hend L (Some o) s6); [exact HA6|intros; lia|intros x X; discriminate X].
    - intros m s4 HA4. apply wp_bind. apply wp_bind. unfold MAKE_STRING at 1.
      pose proof (A_pos _ _ _ _ _ _ _ HA4) as HP4.
      apply (wp_call_new oracle args _ _ _ _ _ _ _ _ HA4).
      { intros p [<-|[]]. eexists; split; [reflexivity|]. right. right. right. left. rewrite bump_same.
        specialize (HP3 m). lia. }
      + intros s5 HA5. unfold from_format at 1. apply wp_bind. apply uses_null. intros s6 H6.
        apply stuck_wp; [|exact H6|].
        { apply stuck_bind; [apply stuck_elsewhere|]. intros a. destruct (an_ptr a); stucks;
          first [apply stuck_own|apply stuck_raise|apply stuck_note]. }
        intros r s7 H7. apply Hstuck; [stucks|intros; stucks|exact H7].
      + intros b2 s5 HA5. apply (Hformat _ [Some b2; Some b] _ s5 _ HA5).
        * intros p [<-|[<-|[]]]; eexists; split; try reflexivity; right; right; right; left.
          -- rewrite bump_same. specialize (HP4 b2). lia.
          -- specialize (HP b). unfold L3. led.
        * intros s6 HA6. apply (Hend (bump b2 1 (bump m 1 L)) None s6).
          -- exists true. refine (A_ext _ _ _ _ _ _ _ _ HA6 _). intros x. unfold L3. led.
          -- intros x. led.
          -- intros x [= <-]. led.
        * intros o s6 HA6. apply (Hend (bump b2 1 (bump m 1 L)) (Some o) s6).
          -- refine (A_ext _ _ _ _ _ _ _ _ HA6 _). intros x. unfold L3. led.
          -- intros x. led.
          -- intros x [= <-]. led.
  Qed.

  Lemma str_lemma name self s i s1 r s' :
    entered s -> static name = true -> proxies_complete args is_proxy s -> a_proxy args is_proxy self ->
    check oracle args has_ass self str_check name s = Some (i, s1) ->
    proxy_text oracle args has_ass name self s = Some (r, s') ->
    (0 <= i -> balanced s r s' /\ (r = None <-> exc s' = true)) /\
    (i < 0 -> r <> None -> fault s' = true \/ exists o, own s o + returned r o < own s' o).
  Proof.
    intros He Hst Hc [Hs Hp] Ec E. pose proof (start oracle s He) as HA.
    destruct (proxy_fields args is_proxy (f1 s) (f2 s) Hc self Hs Hp) as [ob [chk [E1 [E2 [S1 S2]]]]].
    assert (Hw : wp (check oracle args has_ass self str_check name) s
      (fun i s1 => (i < 0 /\ A oracle (own s) true [] (f1 s) (f2 s) s1) \/
                   (0 <= i /\ A oracle (own s) false [] (f1 s) (f2 s) s1))).
    { apply (wp_check oracle args is_proxy has_ass (f1 s) (f2 s) Hc (own s) [] self _ _ _ _ HA Hs Hp).
      - reflexivity.
      - left. exact Hst.
      - intros s2 HA2. left. split; [lia|exact HA2].
      - intros n s2 HA2 Hn. right. auto. }
    unfold wp in Hw. rewrite Ec in Hw. unfold proxy_text, bind at 1 in E. rewrite Ec in E.
    destruct Hw as [[Hi HA1]|[Hi HA1]].
    - split; [lia|]. intros _ Hr. rewrite (proj2 (Z.leb_gt 0 i) Hi) in E.
      assert (Hw : wp (PyErr_Clear ;;; ob <- get1 args self ;; default_repr oracle args ob) s1 (fun r s' =>
        match r with
        | None => True
        | Some _ => fault s' = true \/ exists o, own s o + returned r o < own s' o
        end)).
      { apply wp_bind. apply (wp_err_clear oracle _ _ _ _ _ _ _ HA1). intros s2 HA2.
        apply wp_bind. apply (wp_get1 oracle args _ _ _ _ _ _ _ _ HA2); [right; left; exact Hs|].
        rewrite E1. apply (repr_leaks (f1 s) (f2 s) ob (own s) s2 HA2). intros L'. apply S1. }
      unfold wp in Hw. rewrite E in Hw. destruct r as [o|]; [exact Hw|congruence].
    - split; [|lia]. intros _. rewrite (proj2 (Z.leb_le 0 i) Hi) in E.
      assert (Hw : wp (ob <- get1 args self ;; call_new oracle args AOp [ob]) s1
        (obj_post oracle (f1 s) (f2 s) (own s) [])).
      { apply wp_bind. apply (wp_get1 oracle args _ _ _ _ _ _ _ _ HA1); [right; left; exact Hs|].
        rewrite E1. apply (wp_call_new oracle args _ _ _ _ _ _ _ _ HA1); [|auto|auto].
        intros p [<-|[]]. eexists; split; [reflexivity|apply S1]. }
      unfold wp in Hw. rewrite E in Hw. destruct r as [o|]; destruct Hw as [Hf Ho HP Hx Hw H1 H2].
      + split; [split; [exact Hf|]; split; [|auto]|split; [intros X; discriminate X|congruence]].
        intros x. rewrite Ho. unfold bump, returned. destruct (Nat.eqb x o); lia.
      + split; [split; [exact Hf|]; split; [|auto]|split; auto].
        intros x. rewrite Ho. unfold returned. lia.
  Qed.

  (** ** next() on what is not an iterator *)
  Lemma stuck_get2 self : stuck (get2 args self).
  Proof.
    unfold get2. apply stuck_bind; [apply stuck_use|]. intros _ s a s' H Hf. injection H as _ <-. exact Hf.
  Qed.
  Lemma stuck_deref p : stuck (deref args p).
  Proof. unfold deref. apply stuck_bind; [apply stuck_use|]. intros _. destruct p; apply stuck_ret. Qed.
  Lemma stuck_result self r : stuck (PROXY_RESULT oracle args has_sub self r).
  Proof.
    unfold PROXY_RESULT. destruct r; [|apply stuck_ret].
    apply stuck_bind; [apply stuck_get2|]. intros chk. apply stuck_bind; [apply stuck_deref|]. intros c.
    apply stuck_bind; [destruct (has_sub c); apply stuck_call_new|]. intros t.
    apply stuck_bind; [apply stuck_decref|]. intros _. apply stuck_ret.
  Qed.

  Lemma next_crash self ob s r s' :
    entered s -> proxies_complete args is_proxy s -> a_proxy args is_proxy self ->
    f1 s self = Some ob -> has_next ob = false ->
    proxy_iternext oracle args has_sub has_ass has_next self s = Some (r, s') ->
    (r = None /\ exc s' = true /\ balanced s r s') \/ fault s' = true.
  Proof.
    intros He Hc [Hs Hp] E1 Hn E. pose proof (start oracle s He) as HA.
    cut (wp (proxy_iternext oracle args has_sub has_ass has_next self) s (fun r s' =>
      (r = None /\ A oracle (own s) true [] (f1 s) (f2 s) s') \/ fault s' = true)).
    { unfold wp. rewrite E. intros [[-> [Hf Ho HP Hx Hw H1 H2]]|H]; [left|right; exact H].
      split; [reflexivity|]. split; [exact Hx|]. split; [exact Hf|]. split; [|auto].
      intros o. rewrite Ho. unfold returned. lia. }
    clear E r s'. unfold proxy_iternext.
    destruct (proxy_fields args is_proxy (f1 s) (f2 s) Hc self Hs Hp) as [ob' [chk [E1' [E2 [S1 S2]]]]].
    rewrite E1 in E1'. injection E1' as <-.
    apply wp_bind.
    apply (wp_check oracle args is_proxy has_ass (f1 s) (f2 s) Hc (own s) [] self _ _ _ _ HA Hs Hp).
    { reflexivity. }
    { left. reflexivity. }
    { intros s1 HA1. apply wp_ret. left. auto. }
    intros n s1 HA1 Hn0. rewrite (proj2 (Z.leb_le 0 n) Hn0).
    apply wp_bind. apply (wp_get1 oracle args _ _ _ _ _ _ _ _ HA1); [right; left; exact Hs|]. rewrite E1.
    apply wp_bind. unfold PyIter_Next. apply wp_bind.
    apply (wp_use oracle args _ _ _ _ _ _ _ _ HA1); [eexists; split; [reflexivity|apply S1]|].
    rewrite Hn. unfold crash at 1, wp at 1. apply stuck_wp; [apply stuck_result|reflexivity|auto].
  Qed.

  (** ** A value whose [__Security_checker__] is None *)
  Lemma proxy_none_leak fuel value s r s' :
    entered s -> In value args -> exact_proxy value = false ->
    an_ptr (oracle (step s)) = Some Py_None ->
    Checker_proxy oracle args is_checker exact_proxy fuel value s = Some (r, s') ->
    r = None /\ exc s' = true /\ own s' Py_None = own s Py_None + 1.
  Proof.
    intros He Hv Hx Hk E. pose proof (start oracle s He) as HA.
    cut (wp (Checker_proxy oracle args is_checker exact_proxy fuel value) s (fun r s' =>
      r = None /\ A oracle (bump Py_None 1 (own s)) true [] (f1 s) (f2 s) s')).
    { unfold wp. rewrite E. intros [-> [Hf Ho HP Hx' Hw H1 H2]]. split; [reflexivity|]. split; [exact Hx'|].
      rewrite Ho, bump_same. reflexivity. }
    clear E r s'. unfold Checker_proxy. rewrite Hx. apply wp_bind.
    apply (wp_call_new' oracle args (f1 s) (f2 s) (own s) [] _ _ _ _ HA).
    { intros p [<-|[<-|[]]]; eexists; split; try reflexivity; [right; left; exact Hv|left; reflexivity]. }
    { intros s1 HN. rewrite Hk in HN. discriminate HN. }
    intros c s1 HS HA1. rewrite Hk in HS. injection HS as <-. cbn [Nat.eqb Py_None].
    pose proof (A_pos _ _ _ _ _ _ _ HA1) as HP1.
    apply wp_bind. apply (wp_call_new oracle args _ _ _ _ _ _ _ _ HA1).
    { intros p [<-|[]]. eexists; split; [reflexivity|]. right. left. exact Hv. }
    { intros s2 HA2. apply wp_ret. auto. }
    intros ev s2 HA2. apply wp_bind. apply (wp_setobject oracle args _ _ _ _ _ _ _ _ _ HA2).
    { eexists; split; [reflexivity|]. left. reflexivity. }
    { eexists; split; [reflexivity|]. right. right. right. left. rewrite bump_same. specialize (HP1 ev). lia. }
    intros s3 HA3. apply wp_bind. apply (wp_decref oracle _ _ _ _ _ _ ev _ _ HA3 eq_refl).
    { rewrite bump_same. specialize (HP1 ev). lia. }
    intros s4 HA4. apply wp_ret. split; [reflexivity|]. refine (A_ext _ _ _ _ _ _ _ _ HA4 _).
    intros x. unfold bump. destruct (Nat.eqb x ev), (Nat.eqb x Py_None); lia.
  Qed.
End Leaks.
