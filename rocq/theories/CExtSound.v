(** * CExtSound: the C functions give back what they take. *)

From Coq Require Import List Bool Arith ZArith Lia.
From Verif Require Import CExt CExtSpec CExtFacts.
Import ListNotations.
Open Scope Z_scope.

Section Sound.
  Variable oracle : nat -> answer.
  Variable args : list obj.
  Variables is_proxy is_checker is_str exact_proxy has_sub has_ass has_num has_next : obj -> bool.
  Variables char0 char1 is_iter : obj -> bool.

  Lemma start s : entered s -> A oracle (own s) false [] (f1 s) (f2 s) s.
  Proof.
    intros [Hf [He Hp]]. split; auto. intros o [].
  Qed.

  Lemma obj_sound m :
    (forall F1 F2, (forall x, In x args -> is_proxy x = true -> F1 x <> None /\ F2 x <> None) ->
       obj_ok oracle F1 F2 m) ->
    object_sound (proxies_complete args is_proxy) m.
  Proof.
    intros H s r s' He Hc E.
    pose proof (H (f1 s) (f2 s) Hc (own s) [] s (start s He)) as Hw.
    unfold wp in Hw. rewrite E in Hw. destruct r as [o|]; destruct Hw as [Hf Ho HP Hx Hw H1 H2].
    - split; [split; [exact Hf|]; split; [|auto]|split; [intros X; discriminate X|congruence]].
      intros x. rewrite Ho. unfold bump, returned. destruct (Nat.eqb x o); lia.
    - split; [split; [exact Hf|]; split; [|auto]|split; auto].
      intros x. rewrite Ho. unfold returned. lia.
  Qed.

  Lemma int_sound_ok m :
    (forall F1 F2, (forall x, In x args -> is_proxy x = true -> F1 x <> None /\ F2 x <> None) ->
       int_ok oracle F1 F2 m) ->
    int_sound (proxies_complete args is_proxy) m.
  Proof.
    intros H s r s' He Hc E.
    pose proof (H (f1 s) (f2 s) Hc (own s) [] s (start s He)) as Hw.
    unfold wp in Hw. rewrite E in Hw. destruct Hw as [[Hi [Hf Ho HP Hx Hw H1 H2]]|[Hi [Hf Ho HP Hx Hw H1 H2]]].
    - split; [split; [exact Hf|]; split; [|auto]|split; auto].
      intros x. rewrite Ho. unfold returned. lia.
    - split; [split; [exact Hf|]; split; [|auto]|split; [lia|congruence]].
      intros x. rewrite Ho. unfold returned. lia.
  Qed.

  Lemma object_functions_lemma m :
    object_function oracle args is_proxy has_sub has_ass has_num m ->
    object_sound (proxies_complete args is_proxy) m.
  Proof.
    intros Hm. apply obj_sound. intros F1 F2 HC.
    assert (G : forall x, In x args -> good args (Some x)) by (intros x Hx; exists x; auto).
    destruct Hm.
    - destruct H. eapply checked_ok; eauto. intros p [].
    - eapply check2_ok; eauto.
    - destruct H. eapply check2i_ok; eauto.
    - destruct H. eapply richcompare_ok; eauto.
    - destruct H. eapply checked_ok; eauto. intros p [].
    - destruct H. eapply checked_ok; eauto. intros p [<-|[]]; auto.
    - destruct H. eapply checked_ok; eauto. intros p [<-|Hin]; auto.
      destruct kwds as [k|]; [|destruct Hin]. destruct Hin as [<-|[]]. apply G, H1. reflexivity.
    - destruct H. eapply number_ok; eauto.
    - eapply pow_ok; eauto.
    - destruct H. eapply length_hint_ok; eauto.
    - destruct H. eapply checked_ok; eauto. intros p [<-|[]]; auto.
    - destruct H. eapply igetitem_ok; eauto.
    - eapply getChecker_ok; eauto.
    - eapply getObject_ok; eauto.
  Qed.

  Lemma int_functions_lemma m :
    int_function oracle args is_proxy has_ass m ->
    int_sound (proxies_complete args is_proxy) m.
  Proof.
    intros Hm. apply int_sound_ok. intros F1 F2 HC.
    assert (G : forall x, In x args -> good args (Some x)) by (intros x Hx; exists x; auto).
    destruct Hm; destruct H.
    - eapply setattro_ok; eauto.
    - eapply plain_int_ok; eauto.
    - eapply plain_int_ok; eauto.
    - eapply checked_int_ok; eauto. intros p [].
    - eapply checked_int_ok; eauto. intros p [<-|[]]; auto.
    - intros L W s HA. eapply wp_setitem; eauto. right. left. exact H0.
    - eapply isetitem_ok; eauto.
  Qed.

  Lemma iternext_lemma self :
    a_proxy args is_proxy self ->
    next_sound (fun s => proxies_complete args is_proxy s /\
                         forall o, f1 s self = Some o -> has_next o = true)
      (proxy_iternext oracle args has_sub has_ass has_next self).
  Proof.
    intros [Hs Hp] s r s' He [Hc Hn] E.
    pose proof (iternext_ok oracle args is_proxy has_sub has_ass has_next (f1 s) (f2 s) Hc
                  self (own s) [] s Hs Hp Hn (start s He)) as Hw.
    unfold wp in Hw. rewrite E in Hw. destruct r as [o|].
    - destruct Hw as [Hf Ho HP Hx Hw H1 H2].
      split; [split; [exact Hf|]; split; [|auto]|congruence].
      intros x. rewrite Ho. unfold bump, returned. destruct (Nat.eqb x o); lia.
    - destruct Hw as [e [Hf Ho HP Hx Hw H1 H2]].
      split; [split; [exact Hf|]; split; [|auto]|auto].
      intros x. rewrite Ho. unfold returned. lia.
  Qed.

  (** ** Structs *)

  Lemma upd_eq {B} (f : obj -> B) x a : upd f x a x = a.
  Proof. unfold upd. rewrite Nat.eqb_refl. reflexivity. Qed.
  Lemma upd_ne {B} (f : obj -> B) x a y : y <> x -> upd f x a y = f y.
  Proof. intros H. unfold upd. apply Nat.eqb_neq in H. rewrite H. reflexivity. Qed.

  Lemma A_f1set L e W F1 F2 x p s :
    A oracle L e W F1 F2 s -> A oracle L e W (upd F1 x p) F2 (set_f1 (upd (f1 s) x p) s).
  Proof.
    intros [Hf Ho HP He Hw H1 H2]. split; simpl; auto.
    intros y. unfold upd. destruct (Nat.eqb y x); auto.
  Qed.
  Lemma A_f2set L e W F1 F2 x p s :
    A oracle L e W F1 F2 s -> A oracle L e W F1 (upd F2 x p) (set_f2 (upd (f2 s) x p) s).
  Proof.
    intros [Hf Ho HP He Hw H1 H2]. split; simpl; auto.
    intros y. unfold upd. destruct (Nat.eqb y x); auto.
  Qed.

  Lemma new_lemma object checker fresh s r s' :
    entered s -> In object args -> In checker args -> checker <> Py_None ->
    f1 s fresh = None -> f2 s fresh = None ->
    proxy_new oracle args (Some (object, checker)) (Some fresh) s = Some (r, s') ->
    r = Some fresh /\ f1 s' fresh = Some object /\ f2 s' fresh = Some checker /\
    balanced_with fresh s r s' /\ exc s' = false.
  Proof.
    intros He Ho Hc Hn N1 N2 E. pose proof (start s He) as HA.
    cut (wp (proxy_new oracle args (Some (object, checker)) (Some fresh)) s (fun r s' =>
      r = Some fresh /\ f1 s' fresh = Some object /\ f2 s' fresh = Some checker /\
      balanced_with fresh s r s' /\ exc s' = false)).
    { unfold wp. rewrite E. auto. }
    clear E r s'. unfold proxy_new. apply Nat.eqb_neq in Hn. rewrite Hn.
    apply wp_bind. apply (wp_call oracle args _ _ _ _ _ _ _ HA); [intros p []|].
    intros _ s1 HA1. apply wp_bind. unfold wp at 1.
    assert (HA2 : A oracle (bump fresh 1 (own s)) false [] (upd (f1 s) fresh None) (upd (f2 s) fresh None)
      (set_f2 (upd (f2 s1) fresh None) (set_f1 (upd (f1 s1) fresh None) (set_own (bump fresh 1 (own s1)) s1)))).
    { assert (HB : A oracle (bump fresh 1 (own s)) false [] (f1 s) (f2 s) (set_own (bump fresh 1 (own s1)) s1)).
      { apply A_bump; [exact HA1|]. destruct He as [_ [_ Hp]]. specialize (Hp fresh). lia. }
      apply (A_f1set _ _ _ _ _ fresh None) in HB. apply (A_f2set _ _ _ _ _ fresh None) in HB. exact HB. }
    apply wp_bind. apply (wp_incref oracle args _ false [] _ _ _ object _ _ HA2 eq_refl).
    { left. right. left. exact Ho. }
    intros s3 HA3. apply wp_bind. apply (wp_incref oracle args _ false [] _ _ _ checker _ _ HA3 eq_refl).
    { left. right. left. exact Hc. }
    intros s4 HA4. apply wp_bind. unfold wp at 1. apply wp_bind. unfold wp at 1. apply wp_ret.
    apply (A_f1set _ _ _ _ _ fresh (Some object)) in HA4.
    apply (A_f2set _ _ _ _ _ fresh (Some checker)) in HA4.
    destruct HA4 as [Hf HO HP Hx Hw H1 H2]. split; [reflexivity|].
    rewrite H1, H2, !upd_eq. split; [reflexivity|]. split; [reflexivity|]. split; [|exact Hx].
    split; [exact Hf|]. split.
    - intros o. rewrite HO. unfold in_struct. rewrite H1, H2, !upd_eq, N1, N2.
      unfold bump, returned. destruct (Nat.eqb o checker), (Nat.eqb o object), (Nat.eqb o fresh); lia.
    - intros y Hy. rewrite H1, H2, !upd_ne by exact Hy. auto.
  Qed.

  (** A refused construction leaves nothing behind. *)
  Lemma new_refused_lemma parsed fresh s r s' :
    entered s -> (forall ob c, parsed = Some (ob, c) -> c = Py_None \/ fresh = None) ->
    proxy_new oracle args parsed fresh s = Some (r, s') ->
    r = None /\ exc s' = true /\ balanced s r s'.
  Proof.
    intros He Hbad E. pose proof (start s He) as HA.
    cut (wp (proxy_new oracle args parsed fresh) s (fun r s' =>
      r = None /\ A oracle (own s) true [] (f1 s) (f2 s) s')).
    { unfold wp. rewrite E. intros [-> [Hf Ho HP Hx Hw H1 H2]]. split; [reflexivity|]. split; [exact Hx|].
      split; [exact Hf|]. split; [|auto]. intros o. rewrite Ho. unfold returned. lia. }
    clear E r s'. unfold proxy_new. destruct parsed as [[ob c]|].
    2:{ apply wp_bind. apply (wp_raise oracle _ false [] _ _ _ _ HA). intros s1 HA1. apply wp_ret. auto. }
    destruct (Nat.eqb_spec c Py_None) as [_|Hn].
    { apply wp_bind. apply (wp_raise oracle _ false [] _ _ _ _ HA). intros s1 HA1. apply wp_ret. auto. }
    destruct (Hbad ob c eq_refl) as [->| ->]; [congruence|].
    apply wp_bind. apply (wp_call oracle args _ _ _ _ _ _ _ HA); [intros p []|]. intros _ s1 HA1.
    apply wp_bind. apply (wp_raise oracle _ false [] _ _ _ _ HA1). intros s2 HA2. apply wp_ret. auto.
  Qed.

  Lemma clear_lemma self s s' u :
    fault s = false ->
    proxy_clear oracle self s = Some (u, s') \/ Checker_clear oracle self s = Some (u, s') ->
    balanced_with self s None s' /\ f1 s' self = None /\ f2 s' self = None /\ exc s' = exc s.
  Proof.
    intros Hf H. unfold proxy_clear, Checker_clear, bind, clear1, clear2 in H.
    assert (R : forall x o, bump o (-1) (own s) x = own s x - returned (Some o) x).
    { intros x o. unfold bump, returned. destruct (Nat.eqb x o); lia. }
    destruct (f1 s self) as [a|] eqn:E1, (f2 s self) as [b|] eqn:E2;
      destruct H as [H|H]; cbn in H; rewrite ?E1, ?E2 in H; cbn in H; injection H as <- <-;
      unfold balanced_with, in_struct; cbn; rewrite ?upd_eq, ?E1, ?E2;
      (split; [split; [exact Hf|]; split|auto]);
      try (intros x; unfold bump, returned;
           repeat match goal with |- context [Nat.eqb ?u ?v] => destruct (Nat.eqb u v) end; lia);
      intros y Hy; rewrite ?upd_ne by exact Hy; auto.
  Qed.

  Lemma init_lemma self getperms setperms s i s' :
    entered s -> In getperms args -> an_arg args setperms ->
    Checker_init args self (Some (getperms, setperms)) s = Some (i, s') ->
    i = 0 /\ exc s' = false /\ fault s' = false /\
    f1 s' self = Some getperms /\ f2 s' self = setperms /\
    (forall y, y <> self -> f1 s' y = f1 s y /\ f2 s' y = f2 s y) /\
    (forall o, own s' o = own s o + in_struct s' self o).
  Proof.
    intros He Hg Hsp E. pose proof (start s He) as HA.
    cut (wp (Checker_init args self (Some (getperms, setperms))) s (fun i s' => i = 0 /\
      exists L, A oracle L false [] (upd (f1 s) self (Some getperms)) (upd (f2 s) self setperms) s' /\
        forall o, L o = own s o + (returned (Some getperms) o + returned setperms o))).
    { unfold wp. rewrite E. intros [-> [L [[Hf Ho HP Hx Hw H1 H2] HL]]].
      split; [reflexivity|]. split; [exact Hx|]. split; [exact Hf|].
      unfold in_struct. rewrite H1, H2, !upd_eq. split; [reflexivity|]. split; [reflexivity|]. split.
      - intros y Hy. rewrite H1, H2, !upd_ne by exact Hy. auto.
      - intros o. rewrite Ho, HL. reflexivity. }
    clear E i s'. unfold Checker_init.
    apply wp_bind. apply (wp_incref oracle args _ false [] _ _ _ getperms _ _ HA eq_refl).
    { left. right. left. exact Hg. }
    intros s1 HA1. apply wp_bind. unfold wp at 1. apply (A_f1set _ _ _ _ _ self (Some getperms)) in HA1.
    apply wp_bind. destruct setperms as [sp|].
    - apply (wp_incref oracle args _ false [] _ _ _ sp _ _ HA1 eq_refl).
      { left. right. left. apply Hsp. reflexivity. }
      intros s2 HA2. apply wp_bind. unfold wp at 1. apply (A_f2set _ _ _ _ _ self (Some sp)) in HA2.
      apply wp_ret. split; [reflexivity|]. eexists. split; [exact HA2|].
      intros o. unfold bump, returned. destruct (Nat.eqb o sp), (Nat.eqb o getperms); lia.
    - apply wp_ret. apply wp_bind. unfold wp at 1. apply (A_f2set _ _ _ _ _ self None) in HA1.
      apply wp_ret. split; [reflexivity|]. eexists. split; [exact HA1|].
      intros o. unfold bump, returned. destruct (Nat.eqb o getperms); lia.
  Qed.

  Lemma init_once self getperms setperms s i s' :
    entered s -> In getperms args -> an_arg args setperms ->
    f1 s self = None -> f2 s self = None ->
    Checker_init args self (Some (getperms, setperms)) s = Some (i, s') ->
    i = 0 /\ exc s' = false /\ f1 s' self = Some getperms /\ f2 s' self = setperms /\
    balanced_with self s None s'.
  Proof.
    intros He Hg Hsp N1 N2 E.
    destruct (init_lemma _ _ _ _ _ _ He Hg Hsp E) as [-> [Hx [Hf [H1 [H2 [Hy Ho]]]]]].
    split; [reflexivity|]. split; [exact Hx|]. split; [exact H1|]. split; [exact H2|].
    split; [exact Hf|]. split; [|exact Hy]. intros o. rewrite Ho.
    assert (in_struct s self o = 0) by (unfold in_struct; rewrite N1, N2; reflexivity).
    unfold returned. lia.
  Qed.

  Lemma init_twice self getperms setperms s i s' d :
    entered s -> In getperms args -> an_arg args setperms ->
    f1 s self = Some d \/ f2 s self = Some d ->
    Checker_init args self (Some (getperms, setperms)) s = Some (i, s') ->
    own s d + in_struct s' self d - in_struct s self d < own s' d.
  Proof.
    intros He Hg Hsp Hd E.
    destruct (init_lemma _ _ _ _ _ _ He Hg Hsp E) as [-> [Hx [Hf [H1 [H2 [Hy Ho]]]]]].
    rewrite Ho. assert (0 < in_struct s self d); [|lia].
    unfold in_struct, returned. destruct Hd as [-> | ->]; rewrite Nat.eqb_refl.
    - destruct (f2 s self) as [x|]; [destruct (Nat.eqb d x)|]; lia.
    - destruct (f1 s self) as [x|]; [destruct (Nat.eqb d x)|]; lia.
  Qed.

  Lemma getter_lemma self s r s' :
    entered s -> In self args ->
    Checker_get_get_permissions oracle args self s = Some (r, s') \/
    Checker_get_set_permissions oracle args self s = Some (r, s') ->
    balanced_with self s r s' /\ (r = None <-> exc s' = true).
  Proof.
    intros He Hs E. pose proof (start s He) as HA.
    assert (HP : forall o, 0 <= own s o) by apply He.
    assert (Hsame : forall s1 r1, A oracle (fun o => own s o + returned r1 o) (match r1 with None => true | _ => false end)
        [] (f1 s) (f2 s) s1 -> balanced_with self s r1 s1 /\ (r1 = None <-> exc s1 = true)).
    { intros s1 r1 [Hf Ho HP1 Hx Hw H1 H2]. split.
      - split; [exact Hf|]. split; [|auto]. intros o. rewrite Ho. unfold in_struct. rewrite H1, H2. lia.
      - rewrite Hx. destruct r1; split; congruence. }
    destruct E as [E|E].
    - cut (wp (Checker_get_get_permissions oracle args self) s (fun r s' =>
             balanced_with self s r s' /\ (r = None <-> exc s' = true))).
      { unfold wp. rewrite E. auto. }
      clear E r s'. unfold Checker_get_get_permissions. apply wp_bind.
      apply (wp_get1 oracle args _ false [] _ _ _ _ _ HA); [right; left; exact Hs|].
      destruct (f1 s self) as [t|] eqn:E1.
      + apply wp_bind. apply (wp_incref oracle args _ false [] _ _ _ t _ _ HA eq_refl).
        { left. right. right. left. exists self. auto. }
        intros s1 HA1. apply wp_ret. apply Hsame. refine (A_ext _ _ _ _ _ _ _ _ HA1 _).
        intros o. unfold bump, returned. destruct (Nat.eqb o t); lia.
      + apply wp_bind. apply (wp_call_new oracle args _ _ _ _ _ _ _ _ HA); [intros p []| |].
        * intros s1 HA1. apply wp_bind. unfold wp at 1.
          apply (A_f1set _ _ _ _ _ self None) in HA1. apply wp_ret. apply Hsame.
          destruct HA1 as [Hf Ho HP1 Hx Hw H1 H2]. split; auto.
          -- intros o. rewrite Ho. unfold returned. lia.
          -- intros o. unfold returned. specialize (HP o). lia.
          -- intros x. rewrite H1. unfold upd. destruct (Nat.eqb_spec x self); subst; auto.
        * intros d s1 HA1. apply wp_bind. unfold wp at 1.
          apply (A_f1set _ _ _ _ _ self (Some d)) in HA1.
          apply wp_bind. apply (wp_incref oracle args _ false [] _ _ _ d _ _ HA1 eq_refl).
          { left. right. right. right. left. rewrite bump_same. specialize (HP d). lia. }
          intros s2 [Hf Ho HP1 Hx Hw H1 H2]. apply wp_ret. split.
          -- split; [exact Hf|]. split.
             ++ intros o. rewrite Ho. unfold in_struct. rewrite H1, H2, upd_eq, E1.
                unfold bump, returned. destruct (Nat.eqb o d); lia.
             ++ intros y Hy. rewrite H1, H2, upd_ne by exact Hy. auto.
          -- rewrite Hx. split; congruence.
    - cut (wp (Checker_get_set_permissions oracle args self) s (fun r s' =>
             balanced_with self s r s' /\ (r = None <-> exc s' = true))).
      { unfold wp. rewrite E. auto. }
      clear E r s'. unfold Checker_get_set_permissions. apply wp_bind.
      apply (wp_get2 oracle args _ false [] _ _ _ _ _ HA); [right; left; exact Hs|].
      destruct (f2 s self) as [t|] eqn:E1.
      + apply wp_bind. apply (wp_incref oracle args _ false [] _ _ _ t _ _ HA eq_refl).
        { left. right. right. left. exists self. auto. }
        intros s1 HA1. apply wp_ret. apply Hsame. refine (A_ext _ _ _ _ _ _ _ _ HA1 _).
        intros o. unfold bump, returned. destruct (Nat.eqb o t); lia.
      + apply wp_bind. apply (wp_call_new oracle args _ _ _ _ _ _ _ _ HA); [intros p []| |].
        * intros s1 HA1. apply wp_bind. unfold wp at 1.
          apply (A_f2set _ _ _ _ _ self None) in HA1. apply wp_ret. apply Hsame.
          destruct HA1 as [Hf Ho HP1 Hx Hw H1 H2]. split; auto.
          -- intros o. rewrite Ho. unfold returned. lia.
          -- intros o. unfold returned. specialize (HP o). lia.
          -- intros x. rewrite H2. unfold upd. destruct (Nat.eqb_spec x self); subst; auto.
        * intros d s1 HA1. apply wp_bind. unfold wp at 1.
          apply (A_f2set _ _ _ _ _ self (Some d)) in HA1.
          apply wp_bind. apply (wp_incref oracle args _ false [] _ _ _ d _ _ HA1 eq_refl).
          { left. right. right. right. left. rewrite bump_same. specialize (HP d). lia. }
          intros s2 [Hf Ho HP1 Hx Hw H1 H2]. apply wp_ret. split.
          -- split; [exact Hf|]. split.
             ++ intros o. rewrite Ho. unfold in_struct. rewrite H1, H2, upd_eq, E1.
                unfold bump, returned. destruct (Nat.eqb o d); lia.
             ++ intros y Hy. rewrite H1, H2, upd_ne by exact Hy. auto.
          -- rewrite Hx. split; congruence.
  Qed.

  (** ** _zope_security_checker.c *)

  Lemma permission_id_lemma self name :
    In self args -> In name args ->
    object_sound (fun _ => True) (permission_id oracle args (get1 args) self name) /\
    object_sound (fun _ => True) (permission_id oracle args (get2 args) self name).
  Proof.
    intros Hs Hn. split; intros s r s' He _ E.
    - pose proof (permission_id_ok1 oracle args (f1 s) (f2 s) self name Hs Hn (own s) [] s (start s He)) as Hw.
      unfold wp in Hw. rewrite E in Hw. destruct r as [o|]; destruct Hw as [Hf Ho HP Hx Hw H1 H2].
      + split; [split; [exact Hf|]; split; [|auto]|split; [intros X; discriminate X|congruence]].
        intros x. rewrite Ho. unfold bump, returned. destruct (Nat.eqb x o); lia.
      + split; [split; [exact Hf|]; split; [|auto]|split; auto].
        intros x. rewrite Ho. unfold returned. lia.
    - pose proof (permission_id_ok2 oracle args (f1 s) (f2 s) self name Hs Hn (own s) [] s (start s He)) as Hw.
      unfold wp in Hw. rewrite E in Hw. destruct r as [o|]; destruct Hw as [Hf Ho HP Hx Hw H1 H2].
      + split; [split; [exact Hf|]; split; [|auto]|split; [intros X; discriminate X|congruence]].
        intros x. rewrite Ho. unfold bump, returned. destruct (Nat.eqb x o); lia.
      + split; [split; [exact Hf|]; split; [|auto]|split; auto].
        intros x. rewrite Ho. unfold returned. lia.
  Qed.

  Lemma check_int_lemma self object name :
    In self args -> In object args -> In name args ->
    int_sound (fun s => f1 s self <> None /\
        (forall p, an_ptr (oracle (step s)) = Some p -> kept oracle p) /\
        (an_ptr (oracle (step s)) = None -> is_str name = false))
      (Checker_check_int oracle args is_str char0 char1 is_iter self object name).
  Proof.
    intros Hs Ho Hn s i s' He [Hd [Hk Hno]] E.
    destruct (f1 s self) as [d|] eqn:Ed; [|congruence].
    pose proof (check_int_found oracle args is_str char0 char1 is_iter (f1 s) (f2 s)
                  self object name d (own s) [] s Hs Ho Hn Ed (start s He) Hk Hno) as Hw.
    unfold wp in Hw. rewrite E in Hw.
    destruct Hw as [[Hi [Hf HO HP Hx Hw H1 H2]]|[Hi [Hf HO HP Hx Hw H1 H2]]].
    - split; [split; [exact Hf|]; split; [|auto]|split; auto].
      intros x. rewrite HO. unfold returned. lia.
    - split; [split; [exact Hf|]; split; [|auto]|split; [lia|congruence]].
      intros x. rewrite HO. unfold returned. lia.
  Qed.

  Lemma check_setattr_lemma self parsed :
    In self args -> (forall o n, parsed = Some (o, n) -> In o args /\ In n args) ->
    object_sound (fun s => forall p, an_ptr (oracle (step s)) = Some p -> kept oracle p)
      (Checker_check_setattr oracle args self parsed).
  Proof.
    intros Hs Hpar s r s' He Hk E.
    pose proof (check_setattr_ok oracle args (f1 s) (f2 s) self parsed (own s) [] s Hs Hpar
                  (start s He) Hk) as Hw.
    unfold wp in Hw. rewrite E in Hw. destruct r as [o|]; destruct Hw as [Hf Ho HP Hx Hw H1 H2].
    - split; [split; [exact Hf|]; split; [|auto]|split; [intros X; discriminate X|congruence]].
      intros x. rewrite Ho. unfold bump, returned. destruct (Nat.eqb x o); lia.
    - split; [split; [exact Hf|]; split; [|auto]|split; auto].
      intros x. rewrite Ho. unfold returned. lia.
  Qed.

  Lemma select_lemma fuel object s r s' :
    entered s -> In object args ->
    selectChecker oracle args is_checker fuel object s = Some (r, s') ->
    balanced s r s' /\ (r = None -> exc s' = true) /\
    ((forall k, an_neg (oracle k) = false) -> exc s' = true -> r = None).
  Proof.
    intros He Ho E.
    pose proof (selectChecker_ok oracle args is_checker (f1 s) (f2 s) fuel object (own s) [] s Ho (start s He)) as Hw.
    unfold wp in Hw. rewrite E in Hw. destruct r as [o|].
    - destruct Hw as [e [[Hf HO HP Hx Hw H1 H2] [_ Hn]]].
      split; [split; [exact Hf|]; split; [|auto]|split; [intros X; discriminate X|]].
      + intros x. rewrite HO. unfold bump, returned. destruct (Nat.eqb x o); lia.
      + intros Hk X. rewrite Hx, (Hn Hk) in X. discriminate X.
    - destruct Hw as [Hf HO HP Hx Hw H1 H2].
      split; [split; [exact Hf|]; split; [|auto]|auto].
      intros x. rewrite HO. unfold returned. lia.
  Qed.

  Lemma proxy_lemma fuel value s r s' :
    entered s -> In value args ->
    Checker_proxy oracle args is_checker exact_proxy fuel value s = Some (r, s') ->
    fault s' = false /\
    (forall x, f1 s' x = f1 s x /\ f2 s' x = f2 s x) /\
    (forall o, o <> Py_None -> own s' o = own s o + returned r o) /\
    own s Py_None + returned r Py_None <= own s' Py_None /\
    (r = None -> exc s' = true) /\
    ((forall k, an_neg (oracle k) = false) -> exc s' = true -> r = None) /\
    (an_ptr (oracle (step s)) <> Some Py_None -> balanced s r s').
  Proof.
    intros He Hv E.
    pose proof (Checker_proxy_ok oracle args is_checker exact_proxy (f1 s) (f2 s) fuel value
                  (own s) [] s Hv (start s He)) as Hw.
    unfold wp in Hw. rewrite E in Hw.
    destruct Hw as [L [e [[Hf HO HP Hx Hw H1 H2] [B1 [B2 [B3 [B4 B5]]]]]]].
    split; [exact Hf|]. split; [auto|]. rewrite Hx.
    split; [intros o Ho; rewrite HO; auto|]. split; [rewrite HO; exact B2|].
    split; [exact B3|]. split; [exact B4|].
    intros Hk. split; [exact Hf|]. split; [|auto]. intros o. rewrite HO. auto.
  Qed.
End Sound.

Lemma init_first args self getperms setperms s i s' :
  entered s -> In getperms args -> an_arg args setperms ->
  f1 s self = None -> f2 s self = None ->
  Checker_init args self (Some (getperms, setperms)) s = Some (i, s') ->
  i = 0 /\ exc s' = false /\ f1 s' self = Some getperms /\ f2 s' self = setperms /\
  balanced_with self s None s'.
Proof. apply (init_once (fun _ => mkAns None false 0 (fun _ => false))). Qed.

Lemma init_again args self getperms setperms s i s' d :
  entered s -> In getperms args -> an_arg args setperms ->
  f1 s self = Some d \/ f2 s self = Some d ->
  Checker_init args self (Some (getperms, setperms)) s = Some (i, s') ->
  own s d + in_struct s' self d - in_struct s self d < own s' d.
Proof. apply (init_twice (fun _ => mkAns None false 0 (fun _ => false))). Qed.
