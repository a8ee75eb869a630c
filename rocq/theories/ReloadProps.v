(** * ReloadProps: proofs about loading several files. *)

From Coq Require Import List String Bool Arith Lia.
From Verif Require Import Base Domain CheckerModel Spec ProtectSpec Zcml ZcmlSpec MFacts
  ZcmlFacts ZcmlProps ReloadSpec.
Import ListNotations.
Open Scope string_scope.

Definition orelse (o p : option perm) : option perm := match o with Some x => Some x | None => p end.

Lemma rkey_dec (a b : rkey) : {a = b} + {a <> b}.
Proof. destruct (rkey_eqb_spec a b); [left|right]; assumption. Qed.

(** ** Locality *)

Definition same_on (P : rkey -> Prop) (f g : protection) : Prop := forall k n, P k -> f k n = g k n.

Lemma protect_on (P : rkey -> Prop) k ns t f g : same_on P f g -> same_on P (protect k ns t f) (protect k ns t g).
Proof. intros H k' n Hp. unfold protect. destruct (_ && _); [reflexivity|apply H; exact Hp]. Qed.

Lemma liken_on (P : rkey -> Prop) k like f g : P k -> (forall l, like = Some l -> P l) ->
  same_on P f g -> same_on P (liken k like f) (liken k like g).
Proof.
  intros Hk Hl H k' n Hp. destruct like as [l|]; [|apply H; exact Hp]. simpl. unfold inherit.
  destruct (rkey_eqb k' k); [|apply H; exact Hp]. rewrite (H l n), (H k n); auto.
Qed.

(** Steps on classes: reading side and writing side alike. *)
Definition is_csub_step (S : meaning -> rkey -> protection -> csub -> protection) : Prop :=
  forall m k d,
    (forall f, S m k f d = f) \/
    exists like, (forall l, like = Some l -> In l (csub_likes d)) /\
      ((forall f, S m k f d = liken k like f) \/
       exists ns t, forall f, S m k f d = protect k ns t (liken k like f)).

Lemma reads_step : is_csub_step csub_reads.
Proof.
  intros m k d. destruct d as [[t|] a i like sa ss|a i| |]; simpl.
  - right. exists like. split; [intros l ->; left; reflexivity|]. right. eexists. eexists. reflexivity.
  - right. exists like. split; [intros l ->; left; reflexivity|]. left. reflexivity.
  - right. exists None. split; [discriminate|]. right. eexists. eexists. reflexivity.
  - left. reflexivity.
  - left. reflexivity.
Qed.

Lemma writes_step : is_csub_step csub_writes.
Proof.
  intros m k d. destruct d as [[t|] a i like sa ss|a i| |]; simpl.
  - right. exists like. split; [intros l ->; left; reflexivity|]. right. eexists. eexists. reflexivity.
  - right. exists like. split; [intros l ->; left; reflexivity|]. left. reflexivity.
  - left. reflexivity.
  - left. reflexivity.
  - left. reflexivity.
Qed.

Section Steps.
  Variable S : meaning -> rkey -> protection -> csub -> protection.
  Hypothesis HS : is_csub_step S.

  Lemma step_on (P : rkey -> Prop) m k d f g : P k -> (forall l, In l (csub_likes d) -> P l) ->
    same_on P f g -> same_on P (S m k f d) (S m k g d).
  Proof.
    intros Hk Hl H. destruct (HS m k d) as [E|(like & Hin & [E|(ns & t & E)])].
    - rewrite !E. exact H.
    - rewrite !E. apply liken_on; auto.
    - rewrite !E. apply protect_on, liken_on; auto.
  Qed.

  Lemma step_out m k d f k' n : k' <> k -> S m k f d k' n = f k' n.
  Proof.
    intros Hne. destruct (HS m k d) as [E|(like & Hin & [E|(ns & t & E)])].
    - rewrite E. reflexivity.
    - rewrite E. apply liken_other. exact Hne.
    - rewrite E, protect_other, liken_other; auto.
  Qed.

  Lemma steps_on (P : rkey -> Prop) m k subs : forall f g, P k ->
    (forall l, In l (flat_map csub_likes subs) -> P l) -> same_on P f g ->
    same_on P (fold_left (S m k) subs f) (fold_left (S m k) subs g).
  Proof.
    induction subs as [|d subs IH]; intros f g Hk Hl H; simpl; [exact H|].
    apply IH; [exact Hk|intros l Hi; apply Hl; simpl; apply in_or_app; auto|].
    apply step_on; [exact Hk|intros l Hi; apply Hl; simpl; apply in_or_app; auto|exact H].
  Qed.

  Lemma steps_out m k subs : forall f k' n, k' <> k -> fold_left (S m k) subs f k' n = f k' n.
  Proof.
    induction subs as [|d subs IH]; intros f k' n H; simpl; [reflexivity|].
    rewrite IH by exact H. apply step_out. exact H.
  Qed.

  (** The same additions to two protections [f] and [f']. *)
  Definition alike (f f' h h' : protection) : Prop :=
    forall k n, exists o, h k n = orelse o (f k n) /\ h' k n = orelse o (f' k n).

  Lemma alike_protect f f' h h' k ns t : alike f f' h h' ->
    alike f f' (protect k ns t h) (protect k ns t h').
  Proof.
    intros H k' n. unfold protect. destruct (_ && _); [|apply H].
    exists (Some (protect_by t)). split; reflexivity.
  Qed.

  Lemma alike_liken f f' h h' k like : alike f f' h h' ->
    (forall l, like = Some l -> forall n, h l n = f' l n) ->
    alike f f' (liken k like h) (liken k like h').
  Proof.
    intros H Hl k' n. destruct like as [l|]; [|apply H]. simpl. unfold inherit.
    destruct (rkey_eqb k' k) eqn:Hk; [|apply H].
    destruct (rkey_eqb_spec k' k) as [->|]; [|discriminate].
    destruct (H k n) as (o & E1 & E2). destruct (H l n) as (ol & F1 & F2).
    specialize (Hl l eq_refl n). rewrite Hl in F1.
    assert (F3 : h' l n = f' l n).
    { rewrite F2. destruct ol; simpl in *; [congruence|reflexivity]. }
    rewrite Hl, F3, E1, E2. exists (orelse (f' l n) o).
    destruct (f' l n); split; reflexivity.
  Qed.

  Lemma alike_step f f' h h' m k d : alike f f' h h' ->
    (forall l, In l (csub_likes d) -> forall n, h l n = f' l n) ->
    alike f f' (S m k h d) (S m k h' d).
  Proof.
    intros H Hl. destruct (HS m k d) as [E|(like & Hin & [E|(ns & t & E)])].
    - rewrite !E. exact H.
    - rewrite !E. apply alike_liken; auto.
    - rewrite !E. apply alike_protect, alike_liken; auto.
  Qed.

  Lemma alike_steps f f' m k subs : forall h h', alike f f' h h' ->
    (forall l, In l (flat_map csub_likes subs) -> l <> k /\ forall n, h l n = f' l n) ->
    alike f f' (fold_left (S m k) subs h) (fold_left (S m k) subs h').
  Proof.
    induction subs as [|d subs IH]; intros h h' H Hl; simpl; [exact H|].
    apply IH.
    - apply alike_step; [exact H|]. intros l Hi. apply Hl. simpl. apply in_or_app. left. exact Hi.
    - intros l Hi. destruct (Hl l) as [H1 H2]; [simpl; apply in_or_app; right; exact Hi|].
      split; [exact H1|]. intros n. rewrite step_out by exact H1. apply H2.
  Qed.
End Steps.

Lemma msub_on (P : rkey -> Prop) m k d f g : same_on P f g -> same_on P (msub_reads m k f d) (msub_reads m k g d).
Proof. destruct d; apply protect_on. Qed.
Lemma msub_out m k d f k' n : k' <> k -> msub_reads m k f d k' n = f k' n.
Proof. destruct d; apply protect_other. Qed.
Lemma msubs_on (P : rkey -> Prop) m k subs : forall f g, same_on P f g ->
  same_on P (fold_left (msub_reads m k) subs f) (fold_left (msub_reads m k) subs g).
Proof. induction subs as [|d subs IH]; intros f g H; simpl; [exact H|]. apply IH, msub_on, H. Qed.
Lemma msubs_out m k subs : forall f k' n, k' <> k -> fold_left (msub_reads m k) subs f k' n = f k' n.
Proof.
  induction subs as [|d subs IH]; intros f k' n H; simpl; [reflexivity|].
  rewrite IH by exact H. apply msub_out, H.
Qed.
Lemma alike_msubs f f' m k subs : forall h h', alike f f' h h' ->
  alike f f' (fold_left (msub_reads m k) subs h) (fold_left (msub_reads m k) subs h').
Proof.
  induction subs as [|d subs IH]; intros h h' H; simpl; [exact H|].
  apply IH. destruct d; apply alike_protect; exact H.
Qed.

(** ** Files *)

Section Files.
  (* reading or writing *)
  Variable D : meaning -> protection -> directive -> protection.
  Variable F : meaning -> list directive -> protection -> protection.
  Hypothesis F_nil : forall m f, F m [] f = f.
  Hypothesis F_cons : forall m d ds f, F m (d :: ds) f = F (next m d) ds (D m f d).
  Hypothesis D_on : forall (P : rkey -> Prop) m d f g, (forall k, In k (touched [d] ++ likes [d]) -> P k) ->
    same_on P f g -> same_on P (D m f d) (D m g d).
  Hypothesis D_out : forall m d f k n, ~ In k (touched [d]) -> D m f d k n = f k n.
  Hypothesis D_alike : forall f f' m d h h', alike f f' h h' ->
    (forall l, In l (likes [d]) -> ~ In l (touched [d]) /\ forall n, h l n = f' l n) ->
    alike f f' (D m h d) (D m h' d).

  Lemma touched_cons d ds : touched (d :: ds) = (touched [d] ++ touched ds)%list.
  Proof. unfold touched. simpl. rewrite app_nil_r. reflexivity. Qed.
  Lemma likes_cons d ds : likes (d :: ds) = (likes [d] ++ likes ds)%list.
  Proof. unfold likes. simpl. rewrite app_nil_r. reflexivity. Qed.

  Lemma F_on (P : rkey -> Prop) ds : forall m f g, (forall k, In k (touched ds ++ likes ds) -> P k) ->
    same_on P f g -> same_on P (F m ds f) (F m ds g).
  Proof.
    induction ds as [|d ds IH]; intros m f g Hp H; [rewrite !F_nil; exact H|].
    rewrite touched_cons, likes_cons in Hp. rewrite !F_cons. apply IH.
    - intros k Hk. apply Hp. rewrite !in_app_iff in *. tauto.
    - apply D_on; [|exact H]. intros k Hk. apply Hp. rewrite !in_app_iff in *. tauto.
  Qed.

  Lemma F_out ds : forall m f k n, ~ In k (touched ds) -> F m ds f k n = f k n.
  Proof.
    induction ds as [|d ds IH]; intros m f k n H; [rewrite F_nil; reflexivity|].
    rewrite touched_cons, in_app_iff in H. rewrite F_cons, IH, D_out; tauto.
  Qed.

  Lemma F_ext ds m f g : (forall k n, f k n = g k n) -> forall k n, F m ds f k n = F m ds g k n.
  Proof.
    intros H k n. apply (F_on (fun _ => True)); [auto| |exact I]. intros k' n' _. apply H.
  Qed.

  Lemma described_cons d ds : described_first (d :: ds) ->
    (forall l, In l (likes [d]) -> ~ In l (touched [d]) /\ ~ In l (touched ds)) /\
    described_first ds.
  Proof.
    destruct d as [| | |k subs|]; simpl; try (intros H; split; [intros l []|exact H]).
    intros [H1 H2]. split; [|exact H2]. intros l Hl. rewrite app_nil_r in Hl.
    destruct (H1 l Hl) as [H3 H4]. split; [|exact H4]. intros [<-|[]]. exact (H3 eq_refl).
  Qed.

  Lemma F_alike f f' ds : described_first ds -> forall m h h',
    alike f f' h h' -> (forall k n, F m ds h k n = f' k n) ->
    alike f f' (F m ds h) (F m ds h').
  Proof.
    induction ds as [|d ds IH]; intros Hd m h h' H Hf; [rewrite !F_nil; exact H|].
    apply described_cons in Hd. destruct Hd as [Hl Hd]. rewrite !F_cons in *.
    apply IH; [exact Hd| |exact Hf]. apply D_alike; [exact H|].
    intros l Hi. destruct (Hl l Hi) as [H1 H2]. split; [exact H1|]. intros n.
    rewrite <- Hf, F_out, D_out; [reflexivity|exact H1|exact H2].
  Qed.

  Lemma F_again m ds f : described_first ds -> forall k n, F m ds (F m ds f) k n = F m ds f k n.
  Proof.
    intros Hd k n.
    destruct (F_alike f (F m ds f) ds Hd m f (F m ds f)) with (k := k) (n := n) as (o & E1 & E2).
    - intros k' n'. exists None. split; reflexivity.
    - reflexivity.
    - rewrite E2. destruct o as [x|]; simpl in *; [symmetry; exact E1|reflexivity].
  Qed.

  Lemma F_swap m ds ds' f : 
    (forall k, In k (touched ds ++ likes ds) -> ~ In k (touched ds')) ->
    (forall k, In k (touched ds' ++ likes ds') -> ~ In k (touched ds)) ->
    forall k n, F m ds' (F m ds f) k n = F m ds (F m ds' f) k n.
  Proof.
    intros H1 H2 k n.
    destruct (In_dec rkey_dec k (touched ds)) as [Hk|Hk].
    - rewrite F_out by (apply H1, in_or_app; left; exact Hk).
      apply (F_on (fun k => In k (touched ds ++ likes ds))); [auto| |apply in_or_app; left; exact Hk].
      intros k' n' Hk'. rewrite F_out; [reflexivity|]. apply H1. exact Hk'.
    - rewrite (F_out ds) by exact Hk.
      destruct (In_dec rkey_dec k (touched ds')) as [Hk'|Hk'].
      + apply (F_on (fun k => In k (touched ds' ++ likes ds')));
          [auto| |apply in_or_app; left; exact Hk'].
        intros k' n' Hx. rewrite F_out; [reflexivity|]. apply H2. exact Hx.
      + rewrite !F_out by assumption. reflexivity.
  Qed.
End Files.

Lemma directive_reads_on (P : rkey -> Prop) m d f g :
  (forall k, In k (touched [d] ++ likes [d]) -> P k) ->
  same_on P f g -> same_on P (directive_reads m f d) (directive_reads m g d).
Proof.
  intros Hp H. destruct d as [| | |k subs|k subs]; simpl in *; try exact H.
  - apply steps_on; [exact reads_step|apply Hp; auto| |exact H].
    intros l Hl. apply Hp. right. rewrite app_nil_r. exact Hl.
  - apply msubs_on. exact H.
Qed.
Lemma directive_writes_on (P : rkey -> Prop) m d f g :
  (forall k, In k (touched [d] ++ likes [d]) -> P k) ->
  same_on P f g -> same_on P (directive_writes m f d) (directive_writes m g d).
Proof.
  intros Hp H. destruct d as [| | |k subs|k subs]; simpl in *; try exact H.
  apply steps_on; [exact writes_step|apply Hp; auto| |exact H].
  intros l Hl. apply Hp. right. rewrite app_nil_r. exact Hl.
Qed.
Lemma directive_reads_out m d f k n : ~ In k (touched [d]) -> directive_reads m f d k n = f k n.
Proof.
  intros H. destruct d as [| | |k' subs|k' subs]; simpl in *; try reflexivity.
  - apply steps_out; [exact reads_step|]. intros ->. apply H. auto.
  - apply msubs_out. intros ->. apply H. auto.
Qed.
Lemma directive_writes_out m d f k n : ~ In k (touched [d]) -> directive_writes m f d k n = f k n.
Proof.
  intros H. destruct d as [| | |k' subs|k' subs]; simpl in *; try reflexivity.
  apply steps_out; [exact writes_step|]. intros ->. apply H. auto.
Qed.
Lemma directive_reads_alike f f' m d h h' : alike f f' h h' ->
  (forall l, In l (likes [d]) -> ~ In l (touched [d]) /\ forall n, h l n = f' l n) ->
  alike f f' (directive_reads m h d) (directive_reads m h' d).
Proof.
  intros H Hl. destruct d as [| | |k subs|k subs]; simpl in *; try exact H.
  - apply alike_steps; [exact reads_step|exact H|]. rewrite app_nil_r in Hl.
    intros l Hi. destruct (Hl l Hi) as [H1 H2]. split; [|exact H2]. intros ->. apply H1. auto.
  - apply alike_msubs. exact H.
Qed.
Lemma directive_writes_alike f f' m d h h' : alike f f' h h' ->
  (forall l, In l (likes [d]) -> ~ In l (touched [d]) /\ forall n, h l n = f' l n) ->
  alike f f' (directive_writes m h d) (directive_writes m h' d).
Proof.
  intros H Hl. destruct d as [| | |k subs|k subs]; simpl in *; try exact H.
  apply alike_steps; [exact writes_step|exact H|]. rewrite app_nil_r in Hl.
  intros l Hi. destruct (Hl l Hi) as [H1 H2]. split; [|exact H2]. intros ->. apply H1. auto.
Qed.

Lemma reads_again m ds f : described_first ds -> forall k n,
  file_reads m ds (file_reads m ds f) k n = file_reads m ds f k n.
Proof.
  apply (F_again directive_reads file_reads); auto using directive_reads_out, directive_reads_alike.
Qed.
Lemma writes_again m ds f : described_first ds -> forall k n,
  file_writes m ds (file_writes m ds f) k n = file_writes m ds f k n.
Proof.
  apply (F_again directive_writes file_writes); auto using directive_writes_out, directive_writes_alike.
Qed.
Lemma reads_ext m ds f g : (forall k n, f k n = g k n) -> forall k n,
  file_reads m ds f k n = file_reads m ds g k n.
Proof. apply (F_ext directive_reads file_reads); auto using directive_reads_on. Qed.
Lemma writes_ext m ds f g : (forall k n, f k n = g k n) -> forall k n,
  file_writes m ds f k n = file_writes m ds g k n.
Proof. apply (F_ext directive_writes file_writes); auto using directive_writes_on. Qed.
Lemma reads_swap m ds ds' f :
  (forall k, In k (touched ds ++ likes ds) -> ~ In k (touched ds')) ->
  (forall k, In k (touched ds' ++ likes ds') -> ~ In k (touched ds)) ->
  forall k n, file_reads m ds' (file_reads m ds f) k n = file_reads m ds (file_reads m ds' f) k n.
Proof.
  apply (F_swap directive_reads file_reads); auto using directive_reads_out, directive_reads_on.
Qed.
Lemma writes_swap m ds ds' f :
  (forall k, In k (touched ds ++ likes ds) -> ~ In k (touched ds')) ->
  (forall k, In k (touched ds' ++ likes ds') -> ~ In k (touched ds)) ->
  forall k n, file_writes m ds' (file_writes m ds f) k n = file_writes m ds (file_writes m ds' f) k n.
Proof.
  apply (F_swap directive_writes file_writes); auto using directive_writes_out, directive_writes_on.
Qed.

(** ** Permissions and policy *)

Definition add_perms (ps : list (string * string)) (d : list (string * string)) :=
  fold_left (fun d e => dset String.eqb d (fst e) (snd e)) ps d.

Lemma string_eqb_refl_spec (a b : string) : reflect (a = b) (String.eqb a b).
Proof. apply String.eqb_spec. Qed.

Lemma add_perms_get ps : forall d id, NoDup (map fst ps) ->
  dget String.eqb (add_perms ps d) id =
  match dget String.eqb ps id with Some t => Some t | None => dget String.eqb d id end.
Proof.
  induction ps as [|[i t] ps IH]; intros d id Hn; simpl; [reflexivity|].
  simpl in Hn. apply NoDup_cons_iff in Hn. destruct Hn as [Hi Hn].
  unfold add_perms in *. simpl. rewrite IH by exact Hn.
  rewrite (dget_dset String.eqb string_eqb_refl_spec).
  destruct (String.eqb_spec i id) as [->|Hne].
  - apply (dget_None String.eqb string_eqb_refl_spec) in Hi. rewrite Hi. reflexivity.
  - reflexivity.
Qed.

Lemma perm_claims ds id : In id (map fst (perms_of ds)) -> In (ClPermission id) (claims ds).
Proof.
  rewrite perms_of_In. intros [t H]. unfold claims. apply in_flat_map.
  exists (ZPermission id t). split; [exact H|left; reflexivity].
Qed.

Lemma perms_nodup ds : NoDup (claims ds) -> NoDup (map fst (perms_of ds)).
Proof.
  induction ds as [|d ds IH]; intros H; [constructor|].
  change (claims (d :: ds)) with (directive_claims d ++ claims ds)%list in H.
  assert (Hd := NoDup_app_r _ _ H).
  destruct d as [id t| | | |]; simpl; auto. simpl in H. apply NoDup_cons_iff in H.
  destruct H as [H _]. constructor; [|auto]. intros Hi. apply H, perm_claims, Hi.
Qed.

Lemma policy_cases ds :
  (forall p, policy_of ds p = p) \/ (In ClPolicy (claims ds) /\ exists q, forall p, policy_of ds p = q).
Proof.
  induction ds as [|d ds IH]; [left; reflexivity|].
  change (claims (d :: ds)) with (directive_claims d ++ claims ds)%list.
  destruct IH as [IH|[Hi [q IH]]].
  - destruct d; try (left; intros p'; apply IH).
    right. split; [left; reflexivity|]. eexists. intros p'. apply IH.
  - right. split; [apply in_or_app; right; exact Hi|]. exists q. intros p. apply IH.
Qed.

Lemma accepted_kept E ds ds' w w' : loaded E ds w w' -> accepted ds' w -> accepted ds' w'.
Proof.
  intros (_ & _ & Hp & _) (H1 & H2 & H3). split; [exact H1|]. split; [exact H2|].
  intros t Ht. destruct (H3 t Ht) as [H|[H|H]]; [left; exact H| |right; right; exact H].
  right. left. rewrite Hp. apply fold_dset_keys. left. exact H.
Qed.

Lemma loadable_kept E ds ds' w w' : loaded E ds w w' -> loadable ds' w -> loadable ds' w'.
Proof.
  intros (_ & _ & _ & _ & _ & _ & _ & _ & H) [H1 H2]. split; [apply H; exact H1|exact H2].
Qed.

Lemma again_lemma E ds w w1 : described_first ds -> loadable ds w ->
  configure E ds w = (Ok tt, w1) ->
  exists w2, configure E ds w1 = (Ok tt, w2) /\ agree w1 w2.
Proof.
  intros Hd Hl Hc. assert (HL := load_effect_lemma E ds w w1 Hl Hc).
  assert (Ha := proj1 (load_ok_lemma E ds w Hl) (ex_intro _ w1 Hc)).
  assert (Hl1 := loadable_kept E ds ds w w1 HL Hl). assert (Ha1 := accepted_kept E ds ds w w1 HL Ha).
  destruct (proj2 (load_ok_lemma E ds w1 Hl1) Ha1) as [w2 Hc2]. exists w2. split; [exact Hc2|].
  assert (HL2 := load_effect_lemma E ds w1 w2 Hl1 Hc2).
  destruct HL as (R & W & P & _ & Q & _). destruct HL2 as (R2 & W2 & P2 & _ & Q2 & _).
  destruct Ha as (_ & Hn & _). apply perms_nodup in Hn.
  split; [|split; [|split]].
  - intros k n. rewrite R2, (reads_ext literal ds _ _ R), reads_again by exact Hd. symmetry. apply R.
  - intros k n. rewrite W2, (writes_ext literal ds _ _ W), writes_again by exact Hd. symmetry. apply W.
  - intros id. rewrite P2. fold (add_perms (perms_of ds) (w_perms w1)).
    rewrite add_perms_get by exact Hn. rewrite P. fold (add_perms (perms_of ds) (w_perms w)).
    rewrite add_perms_get by exact Hn. destruct (dget String.eqb (perms_of ds) id); reflexivity.
  - rewrite Q2. destruct (policy_cases ds) as [H|[_ [q H]]]; [apply H|]. rewrite Q, !H. reflexivity.
Qed.

Lemma apart_perms ds ds' id : (forall c, In c (claims ds) -> ~ In c (claims ds')) ->
  In id (map fst (perms_of ds)) -> dget String.eqb (perms_of ds') id = None.
Proof.
  intros H Hi. apply (dget_None String.eqb string_eqb_refl_spec). intros Hi'.
  exact (H _ (perm_claims ds id Hi) (perm_claims ds' id Hi')).
Qed.

Lemma swap_lemma E ds ds' w : apart ds ds' -> apart ds' ds ->
  loadable ds w -> loadable ds' w -> accepted ds w -> accepted ds' w ->
  exists w1 w12 w2 w21,
    configure E ds w = (Ok tt, w1) /\ configure E ds' w1 = (Ok tt, w12) /\
    configure E ds' w = (Ok tt, w2) /\ configure E ds w2 = (Ok tt, w21) /\ agree w12 w21.
Proof.
  intros [A1 C1] [A2 C2] L1 L2 K1 K2.
  destruct (proj2 (load_ok_lemma E ds w L1) K1) as [w1 H1].
  destruct (proj2 (load_ok_lemma E ds' w L2) K2) as [w2 H2].
  assert (G1 := load_effect_lemma E ds w w1 L1 H1). assert (G2 := load_effect_lemma E ds' w w2 L2 H2).
  assert (L12 := loadable_kept E ds ds' w w1 G1 L2). assert (L21 := loadable_kept E ds' ds w w2 G2 L1).
  destruct (proj2 (load_ok_lemma E ds' w1 L12) (accepted_kept E ds ds' w w1 G1 K2)) as [w12 H12].
  destruct (proj2 (load_ok_lemma E ds w2 L21) (accepted_kept E ds' ds w w2 G2 K1)) as [w21 H21].
  assert (G12 := load_effect_lemma E ds' w1 w12 L12 H12).
  assert (G21 := load_effect_lemma E ds w2 w21 L21 H21).
  exists w1, w12, w2, w21. do 4 (split; [assumption|]).
  destruct G1 as (R1 & W1 & P1 & _ & Q1 & _). destruct G2 as (R2 & W2 & P2 & _ & Q2 & _).
  destruct G12 as (R12 & W12 & P12 & _ & Q12 & _). destruct G21 as (R21 & W21 & P21 & _ & Q21 & _).
  destruct K1 as (_ & N1 & _). destruct K2 as (_ & N2 & _). apply perms_nodup in N1, N2.
  split; [|split; [|split]].
  - intros k n. rewrite R21, R12, (reads_ext literal ds _ _ R2), (reads_ext literal ds' _ _ R1).
    apply reads_swap; assumption.
  - intros k n. rewrite W21, W12, (writes_ext literal ds _ _ W2), (writes_ext literal ds' _ _ W1).
    apply writes_swap; assumption.
  - intros id. rewrite P21, P12.
    fold (add_perms (perms_of ds) (w_perms w2)). fold (add_perms (perms_of ds') (w_perms w1)).
    rewrite !add_perms_get by assumption. rewrite P1, P2.
    fold (add_perms (perms_of ds) (w_perms w)). fold (add_perms (perms_of ds') (w_perms w)).
    rewrite !add_perms_get by assumption.
    destruct (dget String.eqb (perms_of ds) id) as [t|] eqn:He.
    + assert (Hi : In id (map fst (perms_of ds)))
        by (apply dget_In in He; [apply (in_map fst) in He; exact He|exact string_eqb_refl_spec]).
      rewrite (apart_perms ds ds' id C1 Hi). reflexivity.
    + reflexivity.
  - rewrite Q21, Q12, Q2, Q1.
    destruct (policy_cases ds) as [H|[Hi [q H]]], (policy_cases ds') as [H'|[Hi' [q' H']]];
      rewrite ?H, ?H'; try rewrite H; try rewrite H'; try reflexivity.
    destruct (C1 _ Hi Hi').
Qed.
