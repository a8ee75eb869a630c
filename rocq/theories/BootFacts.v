(** * BootFacts: reading integers, and the choice of implementations. *)

From Coq Require Import List String Ascii Bool ZArith Lia.
From Verif Require Import Base Domain CheckerModel Boot BootSpec.
Import ListNotations.
Open Scope string_scope.

(** ** Characters *)

Lemma is_space_spec a : is_space a = true <-> space a.
Proof.
  unfold space. split.
  - destruct a as [[] [] [] [] [] [] [] []]; intros H; try discriminate H; simpl; tauto.
  - intros H. simpl in H. repeat (destruct H as [<-|H]; [reflexivity|]). destruct H.
Qed.

Lemma digit_spec a x : digit a = Some x <-> decimal a x.
Proof.
  unfold decimal. split.
  - destruct a as [[] [] [] [] [] [] [] []]; intros H; vm_compute in H; try discriminate H;
      injection H as <-; vm_compute; tauto.
  - intros H. repeat (destruct H as [H|H]; [injection H as <- <-; reflexivity|]). destruct H.
Qed.

Lemma digit_not_space a x : digit a = Some x -> is_space a = false.
Proof.
  intros H. apply digit_spec in H. unfold decimal in H.
  repeat (destruct H as [H|H]; [injection H as <- <-; reflexivity|]). destruct H.
Qed.

Lemma digit_not_sign a x : digit a = Some x ->
  Ascii.eqb a "-" = false /\ Ascii.eqb a "+" = false /\ Ascii.eqb a "_" = false.
Proof.
  intros H. apply digit_spec in H. unfold decimal in H.
  repeat (destruct H as [H|H]; [injection H as <- <-; repeat split|]). destruct H.
Qed.

Lemma space_not_digit a : is_space a = true -> digit a = None.
Proof. destruct (digit a) eqn:H; [|reflexivity]. rewrite (digit_not_space _ _ H). discriminate. Qed.

(** ** Spaces *)

Lemma skip_spaces_app l s : spaces l -> skip_spaces (l ++ s) = skip_spaces s.
Proof.
  induction l as [|a l IH]; intros H; [reflexivity|]. destruct H as [Ha Hl].
  apply is_space_spec in Ha. simpl. rewrite Ha. apply IH, Hl.
Qed.

Lemma skip_spaces_split s : exists l, spaces l /\ s = l ++ skip_spaces s.
Proof.
  induction s as [|a s IH]; simpl.
  - exists "". split; [exact I|reflexivity].
  - destruct (is_space a) eqn:Ha.
    + destruct IH as [l [Hl Hs]]. exists (String a l). split.
      * split; [apply is_space_spec, Ha|exact Hl].
      * simpl. f_equal. exact Hs.
    + exists "". split; [exact I|reflexivity].
Qed.

Lemma append_empty s : s ++ "" = s.
Proof. induction s as [|a s IH]; simpl; [reflexivity|rewrite IH; reflexivity]. Qed.

Lemma only_spaces_spec s : only_spaces s = true <-> spaces s.
Proof.
  unfold only_spaces. split.
  - intros H. destruct (skip_spaces_split s) as [l [Hl Hs]].
    destruct (skip_spaces s); [|discriminate H]. rewrite append_empty in Hs. subst s. exact Hl.
  - intros H. pose proof (skip_spaces_app s "" H) as X. rewrite append_empty in X. rewrite X.
    reflexivity.
Qed.

(** ** Digits *)

Lemma more_digits_end acc r : spaces r -> more_digits acc r = Some acc.
Proof.
  destruct r as [|a r]; [reflexivity|]. intros H. pose proof H as [Ha _].
  apply is_space_spec in Ha. cbn [more_digits]. rewrite (space_not_digit a Ha).
  destruct (Ascii.eqb_spec a "_") as [->|_]; [discriminate Ha|].
  apply only_spaces_spec in H. rewrite H. reflexivity.
Qed.

Lemma digits_read v ds z r : digits v ds z -> spaces r ->
  exists a x s, ds = String a s /\ digit a = Some x /\ more_digits (10 * v + x) (s ++ r) = Some z.
Proof.
  intros H Hr. induction H as [v a x Ha|v a x s z Ha Hs IH|v a x s z Ha Hs IH];
    apply digit_spec in Ha; exists a, x; eexists; (split; [reflexivity|]); (split; [exact Ha|]).
  - apply more_digits_end. exact Hr.
  - destruct IH as (b & y & t & -> & Hb & IH). simpl. rewrite Hb. exact IH.
  - destruct IH as (b & y & t & -> & Hb & IH). simpl. rewrite Hb. exact IH.
Qed.

Lemma more_digits_inv n : forall acc s z, String.length s <= n -> more_digits acc s = Some z ->
  forall v a x, acc = (10 * v + x)%Z -> decimal a x ->
  exists ds r, String a s = ds ++ r /\ digits v ds z /\ spaces r.
Proof.
  induction n as [|n IH]; intros acc s z Hn H v a x Hacc Ha.
  - destruct s as [|b s]; [|simpl in Hn; lia]. injection H as <-. subst acc.
    exists (String a ""), "". split; [reflexivity|]. split; [constructor; exact Ha|exact I].
  - destruct s as [|b s].
    { injection H as <-. subst acc. exists (String a ""), "". split; [reflexivity|].
      split; [constructor; exact Ha|exact I]. }
    cbn [more_digits] in H. destruct (digit b) as [y|] eqn:Hb.
    + apply digit_spec in Hb. assert (Hl : String.length s <= n) by (simpl in Hn; lia).
      destruct (IH _ s z Hl H acc b y eq_refl Hb) as (ds & r & Hs & Hd & Hr).
      exists (String a ds), r. split; [simpl; rewrite Hs; reflexivity|]. split; [|exact Hr].
      apply digits_next with x; [exact Ha|]. rewrite <- Hacc. exact Hd.
    + destruct (Ascii.eqb_spec b "_") as [->|Hu].
      * destruct s as [|c s]; [discriminate H|]. destruct (digit c) as [y|] eqn:Hc; [|discriminate H].
        apply digit_spec in Hc. assert (Hl : String.length s <= n) by (simpl in Hn; lia).
        destruct (IH _ s z Hl H acc c y eq_refl Hc) as (ds & r & Hs & Hd & Hr).
        exists (String a (String "_" ds)), r. split; [simpl; rewrite Hs; reflexivity|].
        split; [|exact Hr]. apply digits_under with x; [exact Ha|]. rewrite <- Hacc. exact Hd.
      * destruct (only_spaces (String b s)) eqn:Ho; [|discriminate H]. injection H as <-.
        apply only_spaces_spec in Ho. subst acc. exists (String a ""), (String b s).
        split; [reflexivity|]. split; [constructor; exact Ha|exact Ho].
Qed.

Lemma unsigned_spec s z :
  unsigned s = Some z <-> exists ds r, s = ds ++ r /\ digits 0 ds z /\ spaces r.
Proof.
  split.
  - destruct s as [|a s]; [discriminate|]. cbn [unsigned]. destruct (digit a) as [x|] eqn:Ha; [|discriminate].
    intros H. apply digit_spec in Ha. eapply more_digits_inv; [apply le_n|exact H| |exact Ha].
    lia.
  - intros (ds & r & -> & Hd & Hr). destruct (digits_read 0 ds z r Hd Hr) as (a & x & s & -> & Ha & H).
    simpl. rewrite Ha. exact H.
Qed.

Lemma digits_start v ds z r : digits v ds z ->
  exists a x s, ds ++ r = String a s /\ digit a = Some x.
Proof.
  intros H. destruct H as [a x Ha|a x s z Ha _|a x s z Ha _]; apply digit_spec in Ha;
    exists a, x; eexists; (split; [reflexivity|exact Ha]).
Qed.

Lemma py_int_lemma s z : py_int s = Some z <-> int_literal s z.
Proof.
  split.
  - intros H. destruct (skip_spaces_split s) as [l [Hl Hs]]. unfold py_int in H.
    destruct (skip_spaces s) as [|a t] eqn:Ht; [discriminate H|]. rewrite Hs.
    destruct (Ascii.eqb_spec a "-") as [->|Hm].
    + destruct (unsigned t) as [u|] eqn:Hu; [|discriminate H]. injection H as <-.
      apply unsigned_spec in Hu. destruct Hu as (ds & r & -> & Hd & Hr).
      exact (literal_minus l ds r u Hl Hd Hr).
    + destruct (Ascii.eqb_spec a "+") as [->|Hp].
      * apply unsigned_spec in H. destruct H as (ds & r & -> & Hd & Hr).
        exact (literal_plus l ds r z Hl Hd Hr).
      * apply unsigned_spec in H. destruct H as (ds & r & -> & Hd & Hr).
        exact (literal_plain l ds r z Hl Hd Hr).
  - intros H. destruct H as [l ds r z Hl Hd Hr|l ds r z Hl Hd Hr|l ds r z Hl Hd Hr];
      unfold py_int; rewrite (skip_spaces_app l _ Hl).
    + destruct (digits_start 0 ds z r Hd) as (a & x & s & Hs & Ha). rewrite Hs. cbn [skip_spaces].
      rewrite (digit_not_space a x Ha). destruct (digit_not_sign a x Ha) as (H1 & H2 & _).
      rewrite H1, H2. rewrite <- Hs. apply unsigned_spec. exists ds, r. auto.
    + change (unsigned (ds ++ r) = Some z). apply unsigned_spec. exists ds, r. auto.
    + change (option_map Z.opp (unsigned (ds ++ r)) = Some (- z)%Z).
      replace (unsigned (ds ++ r)) with (Some z); [reflexivity|].
      symmetry. apply unsigned_spec. exists ds, r. auto.
Qed.

(** ** PURE_PYTHON and ZOPE_WATCH_CHECKERS *)

Lemma pure_lemma x b :
  python_wanted x b <-> exists z, PURE_PYTHON x = Imported z /\ b = negb (z =? 0)%Z.
Proof.
  unfold PURE_PYTHON. split.
  - intros H. destruct H as [v z Hv Hz|Hv]; rewrite Hv.
    + apply py_int_lemma in Hz. rewrite Hz. exists z. auto.
    + eexists. split; [reflexivity|]. destruct (x_pypy x); reflexivity.
  - intros (z & H & ->). destruct (x_environ x "PURE_PYTHON") as [v|] eqn:Hv.
    + destruct (py_int v) as [u|] eqn:Hz; [|discriminate H]. injection H as <-.
      apply py_int_lemma in Hz. exact (wanted_set x v u Hv Hz).
    + injection H as <-. pose proof (wanted_unset x Hv) as X. destruct (x_pypy x); exact X.
Qed.

Lemma wanted_one x b b' : python_wanted x b -> python_wanted x b' -> b = b'.
Proof.
  intros H H'. apply pure_lemma in H. apply pure_lemma in H'.
  destruct H as (z & H & ->). destruct H' as (z' & H' & ->). congruence.
Qed.

Lemma watch_lemma x z : watch_level x z <-> WATCH_CHECKERS x = z.
Proof.
  unfold WATCH_CHECKERS. split.
  - intros H. destruct H as [Hv|Hv|v z Hv Hz|v Hv Hn Hz]; rewrite Hv; try reflexivity.
    + apply py_int_lemma in Hz. destruct v; [discriminate Hz|]. rewrite Hz. reflexivity.
    + destruct v as [|a v]; [contradiction|]. destruct (py_int (String a v)) as [z|] eqn:H; [|reflexivity].
      apply py_int_lemma in H. destruct (Hz _ H).
  - intros <-. destruct (x_environ x "ZOPE_WATCH_CHECKERS") as [v|] eqn:Hv; [|constructor; exact Hv].
    destruct v as [|a v]; [apply watch_empty; exact Hv|].
    destruct (py_int (String a v)) as [z|] eqn:Hz.
    + apply py_int_lemma in Hz. exact (watch_number x _ z Hv Hz).
    + apply watch_word with (String a v); [exact Hv|discriminate|].
      intros z H. apply py_int_lemma in H. congruence.
Qed.

(** ** The package *)

Lemma harmless_spec e : harmless e <-> match e with Some f => tolerated f = true | None => True end.
Proof.
  unfold harmless. destruct e as [[| | |m]|]; simpl; split; intros H; auto; try discriminate H;
    destruct H as [H|[H|H]]; discriminate H.
Qed.

Lemma succeeds_lemma x :
  (exists w, import_package x = Imported w) <->
  exists b, python_wanted x b /\ (b = false -> harmless (x_proxy x) /\ harmless (x_checker x)).
Proof.
  unfold import_package. split.
  - intros [w H]. destruct (PURE_PYTHON x) as [z|e] eqn:Hp; [|discriminate H].
    exists (negb (z =? 0)%Z). split; [apply pure_lemma; exists z; auto|].
    intros Hz. apply negb_false_iff in Hz. simpl in H.
    unfold import_proxy in H. rewrite Hz in H. rewrite !harmless_spec.
    destruct (x_proxy x) as [e|] eqn:Hx.
    + destruct (tolerated e) eqn:Ht; [|discriminate H]. split; [reflexivity|].
      simpl in H. unfold import_checker_module, get_optimized in H. rewrite Hz in H.
      unfold init_statics in H. destruct (x_checker x) as [e'|]; [|exact I].
      destruct (tolerated e'); [reflexivity|discriminate H].
    + split; [exact I|]. simpl in H. unfold import_checker_module, get_optimized in H. rewrite Hz in H.
      unfold init_statics in H. destruct (x_checker x) as [e'|]; [|exact I].
      destruct (tolerated e'); [reflexivity|discriminate H].
  - intros (b & Hb & Hh). apply pure_lemma in Hb. destruct Hb as (z & Hp & ->). rewrite Hp. simpl.
    unfold import_proxy, import_checker_module, get_optimized, init_statics.
    destruct (z =? 0)%Z; simpl in *; [|eexists; reflexivity].
    destruct (Hh eq_refl) as [H1 H2]. rewrite harmless_spec in H1, H2.
    destruct (x_proxy x) as [e|]; [rewrite H1|]; simpl;
      destruct (x_checker x) as [e'|]; try rewrite H2; try rewrite H1; simpl; eexists; reflexivity.
Qed.

(** What an import can give. *)
Lemma import_inv x w : import_package x = Imported w ->
  exists pure, PURE_PYTHON x = Imported pure /\
    let watch := WATCH_CHECKERS x in
    let up g := if (watch =? 0)%Z then g else watching g in
    let lists g := assign (fun _ => []) (g_available g) available_by_default in
    (exists c : statics, (pure =? 0)%Z = true /\ x_proxy x = None /\ x_checker x = None /\
       let g := up (after_choice (optimized_globals (python_globals ImplC) c)) in
       c = mkStatics CCheckers CDefault CAvailable CNoProxy ImplC PublicProxy /\
       w = mkWorld g (Some c) first_classes (lists g) watch) \/
    (exists pb, (pb = ImplC <-> (pure =? 0)%Z = true /\ x_proxy x = None) /\
       (pb = ImplC -> x_checker x <> None) /\
       let g := up (after_choice (python_globals pb)) in
       w = mkWorld g None
             (if (watch =? 0)%Z then first_classes
              else assign first_classes (g_default g) (Some (g_Checker g))) (lists g) watch).
Proof.
  intros H. unfold import_package in H. destruct (PURE_PYTHON x) as [pure|e] eqn:Hp; [|discriminate H].
  exists pure. split; [reflexivity|]. simpl in H. unfold import_proxy in H.
  destruct (pure =? 0)%Z eqn:Hz.
  - destruct (x_proxy x) as [e|] eqn:Hx.
    + destruct (tolerated e) eqn:Ht; [|discriminate H]. simpl in H. right. exists ImplPy.
      split; [split; [discriminate|intros [_ X]; discriminate X]|]. split; [discriminate|].
      unfold import_checker_module, get_optimized, init_statics in H. rewrite Hz in H. rewrite Hx in H.
      destruct (x_checker x) as [e'|]; [destruct (tolerated e')|rewrite Ht in H];
        try discriminate H; simpl in H; injection H as <-; destruct (WATCH_CHECKERS x =? 0)%Z; reflexivity.
    + simpl in H. unfold import_checker_module, get_optimized, init_statics in H. rewrite Hz, Hx in H.
      destruct (x_checker x) as [e'|] eqn:Hc.
      * destruct (tolerated e') eqn:Ht; [|discriminate H]. right. exists ImplC.
        split; [split; auto|]. split; [discriminate|]. simpl in H. injection H as <-.
        destruct (WATCH_CHECKERS x =? 0)%Z; reflexivity.
      * left. eexists. split; [reflexivity|]. split; [reflexivity|]. split; [reflexivity|].
        split; [reflexivity|]. simpl in H. injection H as <-.
        destruct (WATCH_CHECKERS x =? 0)%Z; reflexivity.
  - right. exists ImplPy. split; [split; [discriminate|intros [X _]; discriminate X]|].
    split; [discriminate|]. simpl in H. unfold import_checker_module, get_optimized in H. rewrite Hz in H.
    simpl in H. injection H as <-. destruct (WATCH_CHECKERS x =? 0)%Z; reflexivity.
Qed.

Lemma builds_lemma x w :
  import_package x = Imported w ->
  let g := w_globals w in
  (g_Proxy g = ImplC <-> python_wanted x false /\ x_proxy x = None) /\
  (g_selectChecker g = ImplC <-> python_wanted x false /\ x_proxy x = None /\ x_checker x = None) /\
  subclass (g_Checker g) (KPlain (g_selectChecker g)) = true /\
  subclass (g_CombinedChecker g) (KPlain (g_selectChecker g)) = true.
Proof.
  intros H. destruct (import_inv x w H) as (pure & Hp & [(c & Hz & H1 & H2 & Hc & Hw)|(pb & Hb & Hc & Hw)]).
  - assert (Hwant : python_wanted x false).
    { apply pure_lemma. exists pure. rewrite Hz. auto. }
    cbv zeta in Hw. subst c w. simpl. destruct (WATCH_CHECKERS x =? 0)%Z; simpl; tauto.
  - assert (Hwant : python_wanted x false <-> (pure =? 0)%Z = true).
    { rewrite pure_lemma. split.
      - intros (z & X & Y). rewrite Hp in X. injection X as <-. symmetry in Y. apply negb_false_iff in Y. exact Y.
      - intros X. exists pure. rewrite X. auto. }
    cbv zeta. rewrite Hwant. clear Hwant. cbv zeta in Hw. subst w.
    assert (Hno : ~ ((pure =? 0)%Z = true /\ x_proxy x = None /\ x_checker x = None)).
    { intros (A & B & C). assert (X : pb = ImplC) by (apply Hb; auto). exact (Hc X C). }
    simpl. destruct (WATCH_CHECKERS x =? 0)%Z; simpl;
      (split; [exact Hb|]); (split; [split; [discriminate|intros X; destruct (Hno X)]|]);
      split; reflexivity.
Qed.

Lemma consistent_lemma x w :
  import_package x = Imported w ->
  let g := w_globals w in
  selection_uses w = Some (g_checkers g, g_default g, g_NoProxy g) /\
  g_getChecker g = g_checkers g /\
  forall b, b = ImplPy \/ b = g_selectChecker g ->
    checks_use w b = Some (available_by_default, g_CheckerPublic g) /\
    proxies_made w b = Some (g_Proxy g).
Proof.
  intros H. destruct (import_inv x w H) as (pure & Hp & [(c & Hz & H1 & H2 & Hc & Hw)|(pb & Hb & Hc & Hw)]).
  - cbv zeta in Hw. subst c w. simpl. destruct (WATCH_CHECKERS x =? 0)%Z; simpl;
      (split; [reflexivity|]); (split; [reflexivity|]); intros b [-> | ->]; split; reflexivity.
  - cbv zeta in Hw. subst w. simpl. destruct (WATCH_CHECKERS x =? 0)%Z; simpl;
      (split; [reflexivity|]); (split; [reflexivity|]); intros b [-> | ->]; split; reflexivity.
Qed.

Lemma accepted_lemma x w :
  import_package x = Imported w ->
  let g := w_globals w in
  (exists c, w_class w (g_default g) = Some c /\ subclass c (selection_class w) = true) /\
  subclass (g_Checker g) (selection_class w) = true /\
  subclass (g_CombinedChecker g) (selection_class w) = true.
Proof.
  intros H. destruct (import_inv x w H) as (pure & Hp & [(c & Hz & H1 & H2 & Hc & Hw)|(pb & Hb & Hc & Hw)]).
  - cbv zeta in Hw. subst c w. unfold selection_class. simpl. destruct (WATCH_CHECKERS x =? 0)%Z; simpl;
      (split; [eexists; split; reflexivity|]); split; reflexivity.
  - cbv zeta in Hw. subst w. unfold selection_class. simpl. destruct (WATCH_CHECKERS x =? 0)%Z; simpl;
      (split; [eexists; split; reflexivity|]); split; reflexivity.
Qed.

Lemma watching_lemma x w :
  import_package x = Imported w ->
  watch_level x (w_watch w) /\
  let b := g_selectChecker (w_globals w) in
  (w_watch w = 0%Z -> g_Checker (w_globals w) = KPlain b /\ g_CombinedChecker (w_globals w) = KCombined b) /\
  (w_watch w <> 0%Z ->
   g_Checker (w_globals w) = KWatching b /\ g_CombinedChecker (w_globals w) = KWatchingCombined b).
Proof.
  intros H. rewrite watch_lemma.
  destruct (import_inv x w H) as (pure & Hp & [(c & Hz & H1 & H2 & Hc & Hw)|(pb & Hb & Hc & Hw)]);
    cbv zeta in Hw; subst w; simpl; (split; [reflexivity|]).
  - subst c. destruct (Z.eqb_spec (WATCH_CHECKERS x) 0) as [X|X]; simpl; split; intros Y; try contradiction;
      split; reflexivity.
  - destruct (Z.eqb_spec (WATCH_CHECKERS x) 0) as [X|X]; simpl; split; intros Y; try contradiction;
      split; reflexivity.
Qed.

Lemma model_lemma x w E :
  import_package x = Imported w -> runs_in w E ->
  (e_cimpl E = ImplC -> e_impl E = ImplC) /\
  class_of E (Checker_class E) = g_Checker (w_globals w) /\
  forall s i k, st_chks s i = Some k ->
    is_Checker E s (VChk i) = subclass (class_of E (ck_kind k)) (selection_class w).
Proof.
  intros H (HP & HC & HW).
  destruct (builds_lemma x w H) as (B1 & B2 & _ & _).
  destruct (watching_lemma x w H) as (_ & W0 & W1). rewrite <- HC in W0, W1.
  split. { rewrite HP, HC, B1, B2. tauto. }
  unfold Checker_class.
  assert (HS : selection_class w = match e_cimpl E with ImplPy => g_Checker (w_globals w) | ImplC => KPlain ImplC end).
  { unfold selection_class. rewrite <- HC. reflexivity. }
  rewrite HS. destruct (e_watch E) as [|v] eqn:Hv.
  - destruct (W0 (eq_sym HW)) as [-> _]. split; [reflexivity|]. intros s i k Hk. simpl. rewrite Hk, Hv.
    destruct (e_cimpl E) eqn:Hi; unfold class_of; rewrite Hi; destruct (ck_kind k); reflexivity.
  - assert (Hn : w_watch w <> 0%Z) by lia. destruct (W1 Hn) as [-> _]. split; [reflexivity|].
    intros s i k Hk. simpl. rewrite Hk, Hv.
    destruct (e_cimpl E) eqn:Hi; unfold class_of; rewrite Hi; destruct (ck_kind k); reflexivity.
Qed.
