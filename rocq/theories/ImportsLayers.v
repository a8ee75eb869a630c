(** * ImportsLayers: the modules outside the core, and sequences of imports. *)

From Coq Require Import List String Bool Arith Lia.
From Verif Require Import Imports ImportsSpec ImportsFacts.
Import ListNotations.
Open Scope string_scope.

(** ** The core *)

(** The state after importing the package into a new process. *)
Definition base (pure watch hp hc : bool) : st :=
  match imp pure watch hp hc (fun _ => []) body_package 16 "" start with
  | Some (_, s) => s
  | None => start
  end.

Lemma base_run pure watch hp hc foreign :
  imp pure watch hp hc foreign body_package 16 "" start = Some (true, base pure watch hp hc).
Proof. destruct pure, watch, hp, hc; vm_compute; reflexivity. Qed.

Definition is_some {A : Type} (o : option A) : bool := match o with Some _ => true | None => false end.
Definition value_eqb (a b : value) : bool :=
  match a, b with
  | VMod x, VMod y => String.eqb x y
  | VObj x, VObj y => Nat.eqb x y
  | _, _ => false
  end.
Lemma value_eqb_eq a b : value_eqb a b = true -> a = b.
Proof.
  destruct a, b; cbn; try discriminate; intro H.
  - apply String.eqb_eq in H. congruence.
  - apply Nat.eqb_eq in H. congruence.
Qed.

Definition is_val (o : option value) (v : value) : bool :=
  match o with Some w => value_eqb w v | None => false end.
Lemma is_val_eq o v : is_val o v = true -> o = Some v.
Proof. destruct o as [w|]; cbn; [|discriminate]. intro H. rewrite (value_eqb_eq _ _ H). reflexivity. Qed.

Definition all_modules : list string := (core ++ outer ++ extensions)%list.

Definition runs_to (pure watch hp hc : bool) (foreign : string -> list (string * string)) (B : st) : Prop :=
  imp pure watch hp hc foreign body_package 16 "" start = Some (true, B).

Section Base.
  Variables pure watch hp hc : bool.
  Variable foreign : string -> list (string * string).
  Notation B := (base pure watch hp hc).

  Lemma base_keys : forallb (fun e => inner (fst e)) (mods B) = true.
  Proof. destruct pure, watch, hp, hc; vm_compute; reflexivity. Qed.
  Lemma base_known : forallb (fun m => known m B) core = true.
  Proof. destruct pure, watch, hp, hc; vm_compute; reflexivity. Qed.
  Lemma base_complete :
    forallb (fun e => forallb (fun n => is_some (val (fst e) n B)) (all_names foreign (fst e))) (mods B) = true.
  Proof. destruct pure, watch, hp, hc; vm_compute; reflexivity. Qed.
  Lemma base_takes :
    forallb (fun e => match e with (m, t, n, v) => negb (is_foreign t) && is_val (val t n B) v end) (takes B) = true.
  Proof. destruct pure, watch, hp, hc; vm_compute; reflexivity. Qed.
  Lemma base_package :
    forallb (fun m => match val "" m B with Some v => value_eqb v (VMod m) | None => true end) all_modules = true.
  Proof. destruct pure, watch, hp, hc; vm_compute; reflexivity. Qed.
  Lemma base_flags :
    patched B = true /\ running B = 0 /\ nested B = false /\
    completed B = (if known "_zope_security_checker" B then 1 else 0).
  Proof. destruct pure, watch, hp, hc; vm_compute; repeat split; reflexivity. Qed.
  Lemma base_ext :
    known "_zope_security_checker" B = hp && hc && negb pure /\ known "_proxy" B = hp && negb pure.
  Proof. destruct pure, watch, hp, hc; vm_compute; repeat split; reflexivity. Qed.
  Lemma base_submodules :
    forallb (fun m => is_val (val "" m B) (VMod m)) (tl core) = true.
  Proof. destruct pure, watch, hp, hc; vm_compute; reflexivity. Qed.
  Lemma base_outer : forallb (fun m => negb (known m B)) outer = true.
  Proof. destruct pure, watch, hp, hc; vm_compute; reflexivity. Qed.
End Base.

Lemma in_known {A : Type} k (l : list (string * A)) v : lookup k l = Some v -> In (k, v) l.
Proof.
  induction l as [|[k' v'] l IH]; cbn; [discriminate|].
  destruct (String.eqb k k') eqn:E; [|auto]. apply String.eqb_eq in E. subst. intro H.
  injection H as ->. left. reflexivity.
Qed.

Lemma known_in k s : known k s = true -> exists v, In (k, v) (mods s).
Proof.
  unfold known. destruct (lookup k (mods s)) as [v|] eqn:E; [|discriminate]. intros _.
  exists v. exact (in_known _ _ _ E).
Qed.

Lemma foreign_not k : is_foreign k = true -> inner k = false /\ ~ In k all_modules /\ is_ext k = false.
Proof.
  intro H. repeat split.
  - destruct (inner k) eqn:E; [|reflexivity]. rewrite (inner_not_foreign _ E) in H. discriminate.
  - intro Hin. cbn in Hin. repeat (destruct Hin as [<-|Hin]; [discriminate H|]). contradiction.
  - destruct (is_ext k) eqn:E; [|reflexivity]. unfold is_ext in E. apply orb_true_iff in E.
    destruct E as [E|E]; apply String.eqb_eq in E; subst; discriminate H.
Qed.

Lemma outer_facts m : In m outer ->
  is_foreign m = false /\ is_ext m = false /\ m <> "" /\ inner m = false /\ In m all_modules.
Proof.
  intro H. cbn in H.
  repeat (destruct H as [<-|H]; [repeat split; try reflexivity; try discriminate; cbn; tauto|]).
  contradiction.
Qed.

Lemma core_facts m : In m core -> is_foreign m = false /\ is_ext m = false /\ inner m = true.
Proof.
  intro H. cbn in H. repeat (destruct H as [<-|H]; [repeat split; reflexivity|]). contradiction.
Qed.

Lemma nodup_app (l1 l2 : list string) :
  NoDup (l1 ++ l2)%list -> NoDup l1 /\ NoDup l2 /\ forall x, In x l1 -> In x l2 -> False.
Proof.
  induction l1 as [|y l1 IH]; cbn [app]; intro H.
  - split; [constructor|]. split; [exact H|intros x []].
  - inversion H as [|y' l' H1 H2 E]. subst. destruct (IH H2) as (I1 & I2 & I3). repeat split.
    + constructor; [|exact I1]. intro Hy. apply H1. apply in_or_app. left. exact Hy.
    + exact I2.
    + intros x [<-|Hx] Hx2; [|exact (I3 x Hx Hx2)]. apply H1. apply in_or_app. right. exact Hx2.
Qed.

Section Layers.
  Variables pure watch hp hc : bool.
  Variable foreign : string -> list (string * string).
  (** [B] is [base]; its definition is not to be unfolded. *)
  Variable B : st.
  Hypothesis B_run : runs_to pure watch hp hc foreign B.
  Hypothesis B_keys : forallb (fun e => inner (fst e)) (mods B) = true.
  Hypothesis B_core : forallb (fun m => known m B) core = true.
  Hypothesis B_complete :
    forallb (fun e => forallb (fun n => is_some (val (fst e) n B)) (all_names foreign (fst e))) (mods B) = true.
  Hypothesis B_takes :
    forallb (fun e => match e with (m, t, n, v) => negb (is_foreign t) && is_val (val t n B) v end) (takes B) = true.
  Hypothesis B_package :
    forallb (fun m => match val "" m B with Some v => value_eqb v (VMod m) | None => true end) all_modules = true.
  Hypothesis B_flags :
    patched B = true /\ running B = 0 /\ nested B = false /\
    completed B = (if known "_zope_security_checker" B then 1 else 0).
  Hypothesis B_submodules : forallb (fun m => is_val (val "" m B) (VMod m)) (tl core) = true.
  Hypothesis B_ext :
    known "_zope_security_checker" B = hp && hc && negb pure /\ known "_proxy" B = hp && negb pure.
  Hypothesis B_outer : forallb (fun m => negb (known m B)) outer = true.
  Notation IMP := (imp pure watch hp hc foreign body_package).
  Notation EXT := "_zope_security_checker".
  Notation text := (body foreign body_package).
  Notation complete := (complete foreign).
  Notation all_names := (all_names foreign).

  Lemma base_known_in k : In k core -> known k B = true.
  Proof. intro H. exact (proj1 (forallb_forall _ _) B_core k H). Qed.

  Lemma base_inner k : known k B = true -> inner k = true.
  Proof.
    intro H. destruct (known_in _ _ H) as (v & Hv).
    exact (proj1 (forallb_forall _ _) B_keys _ Hv).
  Qed.

  Lemma base_complete_in k : known k B = true -> complete k B.
  Proof.
    intro H. split; [exact H|]. intros n Hn E. destruct (known_in _ _ H) as (v & Hv).
    assert (Hc := proj1 (forallb_forall _ _) B_complete _ Hv). cbn [fst] in Hc.
    assert (Hb := proj1 (forallb_forall _ _) Hc n Hn). cbn beta in Hb. rewrite E in Hb. discriminate.
  Qed.

  (** Nothing of the package has been imported yet. *)
  Definition Fresh (s : st) : Prop :=
    exists l, s = fr l start /\ forall e, In e l -> is_foreign (fst e) = true.

  Definition takes_ok (s : st) : Prop :=
    forall k t n v, In (k, t, n, v) (takes s) -> is_foreign t = false /\ val t n s = Some v.

  (** The core is there. *)
  Record Loaded (s : st) : Prop := {
    L_core : forall k, k <> "" -> known k B = true -> lookup k (mods s) = lookup k (mods B);
    L_package : forall n v, val "" n B = Some v -> val "" n s = Some v;
    L_known : known "" s = true;
    L_modules : forall m v, In m all_modules -> val "" m s = Some v -> v = VMod m;
    L_takes : takes_ok s;
    L_patched : patched s = true;
    L_running : running s = 0;
    L_nested : nested s = false;
    L_completed : completed s = if known EXT s then 1 else 0;
    L_hp : known "_proxy" s = true -> hp = true;
    L_hc : known EXT s = true -> hp && hc = true }.

  Definition Pre (s : st) : Prop := Fresh s \/ Loaded s.

  (** What an import may do to the modules that are there. *)
  Record Step (s s' : st) : Prop := {
    S_keep : forall k, k <> "" -> known k s = true -> lookup k (mods s') = lookup k (mods s);
    S_package : known "" s = true -> known "" s' = true;
    S_names : forall n v, val "" n s = Some v -> val "" n s' = Some v;
    S_new : forall k, known k s' = true -> known k s = true \/ complete k s' }.

  Lemma step_refl s : Step s s.
  Proof. split; auto. Qed.

  Lemma step_known s s' k : Step s s' -> known k s = true -> known k s' = true.
  Proof.
    intros H Hk. destruct (string_dec k "") as [->|Hne]; [exact (S_package _ _ H Hk)|].
    unfold known. rewrite (S_keep _ _ H k Hne Hk). exact Hk.
  Qed.

  Lemma step_complete s s' k : Step s s' -> complete k s -> complete k s'.
  Proof.
    intros H (Hk & Hc). split; [exact (step_known _ _ _ H Hk)|]. intros n Hn.
    destruct (string_dec k "") as [->|Hne].
    - destruct (val "" n s) as [v|] eqn:E; [|destruct (Hc n Hn E)]. rewrite (S_names _ _ H n v E). discriminate.
    - unfold val. rewrite (S_keep _ _ H k Hne Hk). exact (Hc n Hn).
  Qed.

  Lemma step_trans s1 s2 s3 : Step s1 s2 -> Step s2 s3 -> Step s1 s3.
  Proof.
    intros H12 H23. split.
    - intros k Hne Hk. rewrite (S_keep _ _ H23 k Hne (step_known _ _ _ H12 Hk)). exact (S_keep _ _ H12 k Hne Hk).
    - intro Hk. exact (S_package _ _ H23 (S_package _ _ H12 Hk)).
    - intros n v Hv. exact (S_names _ _ H23 n v (S_names _ _ H12 n v Hv)).
    - intros k Hk. destruct (S_new _ _ H23 k Hk) as [Hk2|Hc]; [|right; exact Hc].
      destruct (S_new _ _ H12 k Hk2) as [Hk1|Hc]; [left; exact Hk1|right; exact (step_complete _ _ _ H23 Hc)].
  Qed.

  Lemma fresh_known l k : (forall e : string * names, In e l -> is_foreign (fst e) = true) ->
    known k (fr l start) = true -> is_foreign k = true.
  Proof.
    intros Hl Hk. destruct (known_in _ _ Hk) as (v & Hv). cbn in Hv. exact (Hl _ Hv).
  Qed.

  Lemma fresh_inner l : (forall e : string * names, In e l -> is_foreign (fst e) = true) ->
    forall k, inner k = true -> lookup k l = None.
  Proof.
    intros Hl k Hk. destruct (lookup k l) as [v|] eqn:E; [|reflexivity].
    assert (H := Hl _ (in_known _ _ _ E)). cbn [fst] in H. rewrite (inner_not_foreign _ Hk) in H. discriminate.
  Qed.

  Lemma fresh_package s : Fresh s -> known "" s = false.
  Proof.
    intros (l & -> & Hl). destruct (known "" (fr l start)) eqn:E; [|reflexivity].
    assert (H := fresh_known l "" Hl E). discriminate H.
  Qed.

  Lemma val_known k n s : val k n s <> None -> known k s = true.
  Proof. unfold val, known. destruct (lookup k (mods s)); [reflexivity|]. intro H. destruct (H eq_refl). Qed.

  Lemma fresh_load s f : Fresh s -> 16 <= f ->
    exists s', IMP f "" s = Some (true, s') /\ Step s s' /\ Loaded s'.
  Proof.
    intros (l & -> & Hl) Hf. exists (fr l B).
    assert (Hi := fresh_inner l Hl).
    assert (E := imp_fr pure watch hp hc foreign l Hi 16 "" start eq_refl).
    unfold runs_to in B_run. rewrite B_run in E. cbn [mapr option_map fst snd] in E.
    split; [exact (imp_more pure watch hp hc foreign body_package 16 f _ _ _ E Hf)|].
    split.
    - split.
      + intros k Hne Hk. assert (Hfk := fresh_known l k Hl Hk).
        cbn [fr set_mods mods start app]. rewrite lookup_app.
        destruct (lookup k (mods B)) as [v|] eqn:Ek; [|reflexivity].
        assert (Hb : known k B = true) by (unfold known; rewrite Ek; reflexivity).
        assert (H := base_inner k Hb).
        rewrite (proj1 (foreign_not k Hfk)) in H. discriminate.
      + intros _. rewrite known_fr by (exact Hi || reflexivity). apply base_known_in. left. reflexivity.
      + intros n v Hv. assert (Hk : known "" (fr l start) = true).
        { apply (val_known "" n). rewrite Hv. discriminate. }
        assert (H := fresh_known l "" Hl Hk). discriminate H.
      + intros k Hk. destruct (inner k) eqn:Ek.
        * right. rewrite known_fr in Hk by assumption. destruct (base_complete_in k Hk) as (_ & Hc).
          split; [rewrite known_fr by assumption; exact Hk|]. intros n Hn.
          rewrite val_fr by assumption. exact (Hc n Hn).
        * left. unfold known in *. cbn [fr set_mods mods start app] in *. rewrite lookup_app in Hk.
          destruct (lookup k (mods B)) as [v|] eqn:Eb; [|exact Hk].
          assert (H : inner k = true) by (apply base_inner; unfold known; rewrite Eb; reflexivity).
          rewrite Ek in H. discriminate.
    - destruct B_flags as (F1 & F2 & F3 & F4). split.
      + intros k Hne Hk. apply lookup_fr; [exact Hi|]. exact (base_inner k Hk).
      + intros n v Hv. rewrite val_fr by (exact Hi || reflexivity). exact Hv.
      + rewrite known_fr by (exact Hi || reflexivity). apply base_known_in. left. reflexivity.
      + intros m v Hm Hv. rewrite val_fr in Hv by (exact Hi || reflexivity).
        assert (H := proj1 (forallb_forall _ _) B_package m Hm). cbn beta in H.
        rewrite Hv in H. exact (value_eqb_eq _ _ H).
      + intros k t n v Hin. cbn [fr set_mods takes] in Hin.
        assert (H := proj1 (forallb_forall _ _) B_takes _ Hin). cbn beta iota in H.
        apply andb_true_iff in H. destruct H as (H1 & H2). apply negb_true_iff in H1. split; [exact H1|].
        apply is_val_eq in H2. rewrite val_fr; [exact H2|exact Hi|].
        apply base_inner. apply (val_known t n). rewrite H2. discriminate.
      + cbn [fr set_mods patched]. exact F1.
      + cbn [fr set_mods running]. exact F2.
      + cbn [fr set_mods nested]. exact F3.
      + rewrite known_fr by (exact Hi || reflexivity). cbn [fr set_mods completed]. exact F4.
      + rewrite known_fr by (exact Hi || reflexivity). rewrite (proj2 B_ext). intro H.
        apply andb_true_iff in H. exact (proj1 H).
      + rewrite known_fr by (exact Hi || reflexivity). rewrite (proj1 B_ext). intro H.
        apply andb_true_iff in H. exact (proj1 H).
  Qed.

  Lemma loaded_core s k : Loaded s -> In k core -> complete k s.
  Proof.
    intros H Hk. assert (Hb := base_known_in k Hk). destruct (base_complete_in k Hb) as (_ & Hc).
    destruct (string_dec k "") as [->|Hne].
    - split; [exact (L_known _ H)|]. intros n Hn. destruct (val "" n B) as [v|] eqn:E; [|destruct (Hc n Hn E)].
      rewrite (L_package _ H n v E). discriminate.
    - assert (E := L_core _ H k Hne Hb). split.
      + unfold known in *. rewrite E. exact Hb.
      + intros n Hn. unfold val. rewrite E. exact (Hc n Hn).
  Qed.

  Lemma imp_known f m s : known m s = true -> 0 < f -> IMP f m s = Some (true, s).
  Proof. intros H Hf. destruct f as [|f]; [lia|]. cbn [imp]. rewrite H. reflexivity. Qed.

  Lemma imp_package s f : Pre s -> 16 <= f ->
    exists s', IMP f "" s = Some (true, s') /\ Step s s' /\ Loaded s'.
  Proof.
    intros [H|H] Hf; [exact (fresh_load s f H Hf)|].
    exists s. split; [apply imp_known; [exact (L_known _ H)|lia]|]. split; [apply step_refl|exact H].
  Qed.

  Lemma imp_core s f m : Pre s -> In m core -> 17 <= f ->
    exists s', IMP f m s = Some (true, s') /\ Step s s' /\ Loaded s'.
  Proof.
    intros H Hm Hf. destruct (string_dec m "") as [->|Hne]; [apply imp_package; [exact H|lia]|].
    destruct (core_facts m Hm) as (Hfor & Hext & _).
    destruct f as [|f]; [lia|]. cbn [imp]. destruct (known m s) eqn:Hk.
    - exists s. split; [reflexivity|]. split; [apply step_refl|].
      destruct H as [(l & -> & Hl)|H]; [|exact H].
      rewrite (fresh_known l m Hl Hk) in Hfor. discriminate.
    - destruct (imp_package s f H ltac:(lia)) as (s' & E & Hs & HL).
      assert (En : String.eqb m "" = false) by (apply String.eqb_neq; exact Hne).
      rewrite En, Hfor. cbn [orb]. rewrite E. cbn [then_].
      rewrite (proj1 (loaded_core s' m HL Hm)). exists s'. auto.
  Qed.

  (** *** Changing the state *)

  Lemma lookup_add m l s k :
    lookup k (mods (add_module m l s)) = if String.eqb k m then Some l else lookup k (mods s).
  Proof. reflexivity. Qed.

  Lemma fresh_bind m a v s : Fresh s -> Fresh (bind m a v s).
  Proof.
    intros (l & -> & Hl). exists (bindl m a v l). split; [reflexivity|]. intros e He.
    unfold bindl in He. apply in_map_iff in He. destruct He as (e' & <- & He').
    destruct (String.eqb m (fst e')); exact (Hl _ He').
  Qed.

  Lemma loaded_bind m a v s :
    Loaded s -> known m B = false -> m <> "" -> (is_foreign m = true \/ val m a s = None) ->
    Loaded (bind m a v s).
  Proof.
    intros H Hb Hne Ha. assert (En : String.eqb m "" = false) by (apply String.eqb_neq; exact Hne). split.
    - intros k Hk Hkb. rewrite lookup_bind. destruct (String.eqb m k) eqn:E.
      { apply String.eqb_eq in E. subst k. rewrite Hkb in Hb. discriminate. }
      rewrite (L_core _ H k Hk Hkb). destruct (lookup k (mods B)); reflexivity.
    - intros n w Hw. rewrite val_bind, En. exact (L_package _ H n w Hw).
    - rewrite known_bind. exact (L_known _ H).
    - intros k w Hk Hw. rewrite val_bind, En in Hw. exact (L_modules _ H k w Hk Hw).
    - intros k t n w Hin. destruct (L_takes _ H k t n w Hin) as (H1 & H2). split; [exact H1|].
      rewrite val_bind. destruct (String.eqb m t && known m s && String.eqb n a) eqn:E; [|exact H2].
      apply andb_true_iff in E. destruct E as (E & En'). apply andb_true_iff in E. destruct E as (E & _).
      apply String.eqb_eq in E, En'. subst t n. destruct Ha as [Ha|Ha]; congruence.
    - exact (L_patched _ H).
    - exact (L_running _ H).
    - exact (L_nested _ H).
    - rewrite known_bind. exact (L_completed _ H).
    - rewrite known_bind. exact (L_hp _ H).
    - rewrite known_bind. exact (L_hc _ H).
  Qed.

  Lemma loaded_tick s : Loaded s -> Loaded (tick s).
  Proof. intros [H1 H2 H3 H4 H5 H6 H7 H8 H9 H10 H11]. split; assumption. Qed.

  Lemma loaded_took m t n v s :
    Loaded s -> is_foreign t = false -> val t n s = Some v -> Loaded (took m t n v s).
  Proof.
    intros [H1 H2 H3 H4 H5 H6 H7 H8 H9 H10 H11] Hf Hv. split; try assumption.
    intros k t' n' w [Heq|Hin]; [|exact (H5 _ _ _ _ Hin)]. injection Heq as <- <- <- <-. auto.
  Qed.

  Lemma loaded_add m s :
    Loaded s -> known m s = false -> m <> EXT -> (m = "_proxy" -> hp = true) -> Loaded (add_module m [] s).
  Proof.
    intros H Hk Hext Hpr.
    assert (Hne : m <> "") by (intros ->; rewrite (L_known _ H) in Hk; discriminate).
    assert (Hl : lookup m (mods s) = None) by (unfold known in Hk; destruct (lookup m (mods s)); [discriminate|reflexivity]).
    assert (Ev : forall t n w, val t n s = Some w -> val t n (add_module m [] s) = Some w).
    { intros t n w Hw. unfold val in *. rewrite lookup_add. destruct (String.eqb t m) eqn:E; [|exact Hw].
      apply String.eqb_eq in E. subst t. rewrite Hl in Hw. discriminate. }
    split.
    - intros k Hkn Hkb. rewrite lookup_add. destruct (String.eqb k m) eqn:E; [|exact (L_core _ H k Hkn Hkb)].
      apply String.eqb_eq in E. subst k. assert (E := L_core _ H m Hkn Hkb). rewrite Hl in E.
      unfold known in Hkb. rewrite <- E in Hkb. discriminate.
    - intros n v Hv. apply Ev. exact (L_package _ H n v Hv).
    - unfold known. rewrite lookup_add. destruct (String.eqb "" m); [reflexivity|]. exact (L_known _ H).
    - intros k v Hin Hv. apply (L_modules _ H k v Hin). unfold val in *. rewrite lookup_add in Hv.
      destruct (String.eqb "" m) eqn:E; [|exact Hv]. apply String.eqb_eq in E. congruence.
    - intros k t n v Hin. destruct (L_takes _ H k t n v Hin) as (H1 & H2). split; [exact H1|]. apply Ev. exact H2.
    - exact (L_patched _ H).
    - exact (L_running _ H).
    - exact (L_nested _ H).
    - change (completed (add_module m [] s)) with (completed s). rewrite (L_completed _ H).
      unfold known. rewrite lookup_add. destruct (String.eqb EXT m) eqn:E; [|reflexivity].
      apply String.eqb_eq in E. congruence.
    - unfold known. rewrite lookup_add. destruct (String.eqb "_proxy" m) eqn:E; [|exact (L_hp _ H)].
      apply String.eqb_eq in E. intros _. apply Hpr. congruence.
    - unfold known. rewrite lookup_add. destruct (String.eqb EXT m) eqn:E; [|exact (L_hc _ H)].
      apply String.eqb_eq in E. congruence.
  Qed.

  Lemma loaded_submodule m s : Loaded s -> In m all_modules -> Loaded (bind "" m (VMod m) s).
  Proof.
    intros H Hm. assert (Hk := L_known _ H).
    assert (Ev : forall t n w, val t n s = Some w -> val t n (bind "" m (VMod m) s) = Some w).
    { intros t n w Hw. rewrite val_bind. destruct (String.eqb "" t && known "" s && String.eqb n m) eqn:E; [|exact Hw].
      apply andb_true_iff in E. destruct E as (E & En'). apply andb_true_iff in E. destruct E as (E & _).
      apply String.eqb_eq in E, En'. subst t n. rewrite (L_modules _ H m w Hm Hw). reflexivity. }
    split.
    - intros k Hkn Hkb. rewrite lookup_bind, (L_core _ H k Hkn Hkb).
      destruct (String.eqb "" k) eqn:E; [apply String.eqb_eq in E; congruence|].
      destruct (lookup k (mods B)); reflexivity.
    - intros n v Hv. apply Ev. exact (L_package _ H n v Hv).
    - rewrite known_bind. exact Hk.
    - intros k v Hin Hv. rewrite val_bind in Hv. cbn [String.eqb andb] in Hv. rewrite Hk in Hv. cbn [andb] in Hv.
      destruct (String.eqb k m) eqn:E; [|exact (L_modules _ H k v Hin Hv)].
      apply String.eqb_eq in E. congruence.
    - intros k t n v Hin. destruct (L_takes _ H k t n v Hin) as (H1 & H2). split; [exact H1|]. apply Ev. exact H2.
    - exact (L_patched _ H).
    - exact (L_running _ H).
    - exact (L_nested _ H).
    - rewrite known_bind. exact (L_completed _ H).
    - rewrite known_bind. exact (L_hp _ H).
    - rewrite known_bind. exact (L_hc _ H).
  Qed.

  (** *** Modules outside the core *)

  Variable rank : string -> nat.
  Hypothesis Hlay : layered foreign rank.

  Definition layer (k : string) : Prop := In k outer \/ is_foreign k = true.

  (** The same while [m] is being executed. *)
  Record RStep (m : string) (s s' : st) : Prop := {
    R_keep : forall k, k <> "" -> k <> m -> known k s = true -> lookup k (mods s') = lookup k (mods s);
    R_known : known m s' = true;
    R_package : known "" s = true -> known "" s' = true;
    R_names : forall n v, val "" n s = Some v -> val "" n s' = Some v;
    R_new : forall k, known k s' = true -> known k s = true \/ complete k s' }.

  Record Ready (m : string) (s : st) : Prop := {
    Y_known : known m s = true;
    Y_pre : Pre s;
    Y_loaded : In m outer -> Loaded s;
    Y_lower : forall k, layer k -> rank k < rank m -> known k s = true -> complete k s }.

  Lemma rstep_known m s s' k : RStep m s s' -> known k s = true -> known k s' = true.
  Proof.
    intros H Hk. destruct (string_dec k "") as [->|Hne]; [exact (R_package _ _ _ H Hk)|].
    destruct (string_dec k m) as [->|Hm]; [exact (R_known _ _ _ H)|].
    unfold known. rewrite (R_keep _ _ _ H k Hne Hm Hk). exact Hk.
  Qed.

  Lemma rstep_complete m s s' k : RStep m s s' -> k <> m -> complete k s -> complete k s'.
  Proof.
    intros H Hm (Hk & Hc). split; [exact (rstep_known _ _ _ _ H Hk)|]. intros n Hn.
    destruct (string_dec k "") as [->|Hne].
    - destruct (val "" n s) as [v|] eqn:E; [|destruct (Hc n Hn E)]. rewrite (R_names _ _ _ H n v E). discriminate.
    - unfold val. rewrite (R_keep _ _ _ H k Hne Hm Hk). exact (Hc n Hn).
  Qed.

  Lemma rstep_trans m s1 s2 s3 : known m s1 = true -> RStep m s1 s2 -> RStep m s2 s3 -> RStep m s1 s3.
  Proof.
    intros Hm H12 H23. split.
    - intros k Hne Hk Hkn. rewrite (R_keep _ _ _ H23 k Hne Hk (rstep_known _ _ _ _ H12 Hkn)).
      exact (R_keep _ _ _ H12 k Hne Hk Hkn).
    - exact (R_known _ _ _ H23).
    - intro Hk. exact (R_package _ _ _ H23 (R_package _ _ _ H12 Hk)).
    - intros n v Hv. exact (R_names _ _ _ H23 n v (R_names _ _ _ H12 n v Hv)).
    - intros k Hk. destruct (string_dec k m) as [->|Hkm]; [left; exact Hm|].
      destruct (R_new _ _ _ H23 k Hk) as [Hk2|Hc]; [|right; exact Hc].
      destruct (R_new _ _ _ H12 k Hk2) as [Hk1|Hc]; [left; exact Hk1|right].
      exact (rstep_complete _ _ _ _ H23 Hkm Hc).
  Qed.

  Lemma rstep_of_step m s s' : known m s = true -> Step s s' -> RStep m s s'.
  Proof.
    intros Hm H. split.
    - intros k Hne _ Hk. exact (S_keep _ _ H k Hne Hk).
    - exact (step_known _ _ _ H Hm).
    - exact (S_package _ _ H).
    - exact (S_names _ _ H).
    - exact (S_new _ _ H).
  Qed.

  Lemma rstep_refl m s : known m s = true -> RStep m s s.
  Proof. intro H. apply rstep_of_step; [exact H|apply step_refl]. Qed.

  Lemma rstep_bind m a v s : m <> "" -> known m s = true -> RStep m s (bind m a v s).
  Proof.
    intros Hne Hm. assert (En : String.eqb m "" = false) by (apply String.eqb_neq; exact Hne). split.
    - intros k Hk Hkm Hkn. rewrite lookup_bind. destruct (String.eqb m k) eqn:E.
      { apply String.eqb_eq in E. congruence. }
      destruct (lookup k (mods s)); reflexivity.
    - rewrite known_bind. exact Hm.
    - intro H. rewrite known_bind. exact H.
    - intros n w Hw. rewrite val_bind, En. exact Hw.
    - intros k Hk. rewrite known_bind in Hk. left. exact Hk.
  Qed.

  Lemma layer_facts m : layer m -> m <> "" /\ known m B = false /\ is_ext m = false /\ m <> EXT /\ ~ In m core.
  Proof.
    intros [H|H].
    - destruct (outer_facts m H) as (_ & He & Hne & Hi & _). repeat split; try assumption.
      + exact (proj1 (negb_true_iff _) (proj1 (forallb_forall _ _) B_outer m H)).
      + intros ->. discriminate He.
      + intro Hc. destruct (core_facts m Hc) as (_ & _ & Hi'). congruence.
    - destruct (foreign_not m H) as (Hi & Hn & He). repeat split; try assumption.
      + intros ->. discriminate H.
      + destruct (known m B) eqn:E; [|reflexivity]. rewrite (base_inner m E) in Hi. discriminate.
      + intros ->. discriminate H.
      + intro Hc. destruct (core_facts m Hc) as (_ & _ & Hi'). congruence.
  Qed.

  Lemma ready_step m s s' : Ready m s -> RStep m s s' -> Pre s' -> (In m outer -> Loaded s') -> Ready m s'.
  Proof.
    intros H Hs Hp HL. split; [exact (R_known _ _ _ Hs)|exact Hp|exact HL|].
    intros k Hk Hr Hkn. assert (Hkm : k <> m) by (intros ->; lia).
    destruct (R_new _ _ _ Hs k Hkn) as [Hk'|Hc]; [|exact Hc].
    exact (rstep_complete _ _ _ _ Hs Hkm (Y_lower _ _ H k Hk Hr Hk')).
  Qed.

  Lemma pre_bind m a v s : Pre s -> layer m -> (In m outer -> Loaded s) ->
    (is_foreign m = true \/ val m a s = None) -> Pre (bind m a v s) /\ (In m outer -> Loaded (bind m a v s)).
  Proof.
    intros Hp Hm HL Ha. destruct (layer_facts m Hm) as (Hne & Hb & _).
    assert (K : Loaded s -> Loaded (bind m a v s)) by (intro H; apply loaded_bind; assumption).
    split; [|intro Ho; exact (K (HL Ho))].
    destruct Hp as [Hp|Hp]; [left; apply fresh_bind; exact Hp|right; exact (K Hp)].
  Qed.

  Definition good_stmt (m : string) (x : stmt) : Prop :=
    match x with
    | SImport t => In t core \/ In t outer /\ rank t < rank m
    | SForeign t => is_foreign t = true /\ rank t < rank m
    | SFrom t n a => (In t core \/ In t outer /\ rank t < rank m) /\
                     (In n (all_names t) \/ t = "" /\ In n (tl core))
    | SBind l => In m outer
    | _ => False
    end.

  Definition mem (x : string) (l : list string) : bool := existsb (String.eqb x) l.
  Lemma mem_in x l : mem x l = true -> In x l.
  Proof.
    unfold mem. intro H. apply existsb_exists in H. destruct H as (y & Hy & E). apply String.eqb_eq in E.
    congruence.
  Qed.

  Definition good_bool (x : stmt) : bool :=
    match x with
    | SImport t => mem t core || mem t outer
    | SForeign t => is_foreign t
    | SFrom t n a => (mem t core || mem t outer) &&
                     (mem n (all_names t) || String.eqb t "" && mem n (tl core))
    | SBind l => true
    | _ => false
    end.

  Lemma outer_bodies m : In m outer -> forallb good_bool (text m) = true.
  Proof.
    intro H. cbn in H. repeat (destruct H as [<-|H]; [vm_compute; reflexivity|]). contradiction.
  Qed.

  Fixpoint nodup (l : list string) : bool :=
    match l with [] => true | x :: l' => negb (mem x l') && nodup l' end.
  Lemma nodup_ok l : nodup l = true -> NoDup l.
  Proof.
    induction l as [|x l IH]; cbn; intro H; constructor; apply andb_true_iff in H; destruct H as (H1 & H2); [|auto].
    intro Hin. apply negb_true_iff in H1. unfold mem in H1.
    assert (Ht : existsb (String.eqb x) l = true) by (apply existsb_exists; exists x; split; [exact Hin|apply String.eqb_refl]).
    congruence.
  Qed.
  Lemma outer_nodup m : In m outer -> NoDup (flat_map promised (text m)).
  Proof.
    intro H. apply nodup_ok. cbn in H.
    repeat (destruct H as [<-|H]; [vm_compute; reflexivity|]). contradiction.
  Qed.

  Lemma text_foreign p : is_foreign p = true ->
    text p = map (fun e => SFrom (fst e) (snd e) (snd e)) (foreign p).
  Proof.
    intro H. unfold body.
    repeat match goal with
    | |- context [String.eqb p ?x] =>
        destruct (String.eqb p x) eqn:?E; [apply String.eqb_eq in E; subst p; discriminate H|clear E]
    end. reflexivity.
  Qed.

  Lemma layer_stmts m x : layer m -> In x (text m) -> good_stmt m x.
  Proof.
    intros [Hm|Hm] Hx.
    - assert (Hg := proj1 (forallb_forall _ _) (outer_bodies m Hm) x Hx).
      assert (Hr : forall t, In t (targets x) -> In t core \/ rank t < rank m) by (intros t; apply (proj1 Hlay m x t Hm Hx)).
      destruct x as [t|t n a|l|w l|p| |t l]; cbn [good_bool] in Hg; cbn [targets] in Hr; cbn [good_stmt]; try discriminate Hg; [| |exact Hm|].
      + apply orb_true_iff in Hg. destruct Hg as [Hg|Hg]; apply mem_in in Hg; [left; exact Hg|].
        destruct (Hr t (or_introl eq_refl)) as [Hc|Hc]; [left; exact Hc|right; auto].
      + apply andb_true_iff in Hg. destruct Hg as (Hg & Hn). split.
        * apply orb_true_iff in Hg. destruct Hg as [Hg|Hg]; apply mem_in in Hg; [left; exact Hg|].
          destruct (Hr t (or_introl eq_refl)) as [Hc|Hc]; [left; exact Hc|right; auto].
        * apply orb_true_iff in Hn. destruct Hn as [Hn|Hn]; [left; exact (mem_in _ _ Hn)|].
          apply andb_true_iff in Hn. destruct Hn as (E & Hn). apply String.eqb_eq in E. right. split; [exact E|exact (mem_in _ _ Hn)].
      + split; [exact Hg|]. destruct (Hr p (or_introl eq_refl)) as [Hc|Hc]; [|exact Hc].
        destruct (core_facts p Hc) as (Hf & _). congruence.
    - rewrite (text_foreign m Hm) in Hx. apply in_map_iff in Hx. destruct Hx as ((t & n) & <- & Hin).
      cbn [fst snd good_stmt]. destruct (proj2 Hlay m t n Hm Hin) as (H1 & H2). auto.
  Qed.

  (** What importing [t] achieves. *)
  Definition Imported (f : nat) (t : string) : Prop :=
    forall s, Pre s -> (forall k, layer k -> rank k <= rank t -> known k s = true -> complete k s) ->
    exists s', IMP f t s = Some (true, s') /\ Step s s' /\ Pre s' /\ complete t s' /\
               (In t outer \/ In t core -> Loaded s').

  Section Body.
    Variable f : nat.
    Variable m : string.
    Hypothesis Hm : layer m.
    Hypothesis Hf : 17 <= f.
    Hypothesis IH : forall t, layer t -> rank t < rank m -> Imported f t.

    Definition freshly (l : list string) (s : st) : Prop :=
      is_foreign m = true \/ NoDup l /\ forall n, In n l -> val m n s = None.

    Lemma imp_in t s : Ready m s -> In t core \/ layer t /\ rank t < rank m ->
      exists s', IMP f t s = Some (true, s') /\ RStep m s s' /\ Ready m s' /\ complete t s' /\
        (In t outer \/ In t core -> Loaded s') /\ (forall n, val m n s' = val m n s).
    Proof.
      intros HY Ht. destruct (layer_facts m Hm) as (Hne & Hmb & _ & _ & Hmc).
      assert (E : exists s', IMP f t s = Some (true, s') /\ Step s s' /\ Pre s' /\ complete t s' /\
                    (In t outer \/ In t core -> Loaded s')).
      { destruct Ht as [Hc|(Hl & Hr)].
        - destruct (imp_core s f t (Y_pre _ _ HY) Hc Hf) as (s' & E & Hs & HL). exists s'.
          split; [exact E|]. split; [exact Hs|]. split; [right; exact HL|]. split; [exact (loaded_core _ _ HL Hc)|].
          intros _. exact HL.
        - apply (IH t Hl Hr s (Y_pre _ _ HY)). intros k Hk Hrk. apply (Y_lower _ _ HY k Hk). lia. }
      destruct E as (s' & E & Hs & Hp & Hc & HL). exists s'.
      assert (Hrs := rstep_of_step m s s' (Y_known _ _ HY) Hs).
      split; [exact E|]. split; [exact Hrs|]. split.
      { apply (ready_step m s s' HY Hrs Hp). intro Ho. assert (L := Y_loaded _ _ HY Ho).
        destruct Hp as [Hfr|Hp]; [|exact Hp].
        assert (Hk := S_package _ _ Hs (L_known _ L)). rewrite (fresh_package _ Hfr) in Hk. discriminate. }
      split; [exact Hc|]. split; [exact HL|]. intro n. unfold val.
      rewrite (S_keep _ _ Hs m Hne (Y_known _ _ HY)). reflexivity.
    Qed.

    Lemma bind_in a v s : Ready m s -> (is_foreign m = true \/ val m a s = None) ->
      RStep m s (bind m a v s) /\ Ready m (bind m a v s) /\ val m a (bind m a v s) = Some v /\
      (forall n, n <> a -> val m n (bind m a v s) = val m n s).
    Proof.
      intros HY Ha. destruct (layer_facts m Hm) as (Hne & _).
      assert (Hs := rstep_bind m a v s Hne (Y_known _ _ HY)).
      destruct (pre_bind m a v s (Y_pre _ _ HY) Hm (Y_loaded _ _ HY) Ha) as (Hp & HL).
      split; [exact Hs|]. split; [exact (ready_step m s _ HY Hs Hp HL)|]. split.
      - rewrite val_bind, !String.eqb_refl, (Y_known _ _ HY). reflexivity.
      - intros n Hn. rewrite val_bind. assert (E : String.eqb n a = false) by (apply String.eqb_neq; exact Hn).
        rewrite E, !andb_false_r. reflexivity.
    Qed.

    Lemma define_in l s : In m outer -> Ready m s -> NoDup l -> (forall n, In n l -> val m n s = None) ->
      RStep m s (define m l s) /\ Ready m (define m l s) /\
      (forall n, In n l -> val m n (define m l s) <> None) /\
      (forall n, ~ In n l -> val m n (define m l s) = val m n s).
    Proof.
      intro Ho. revert s. induction l as [|a l IHl]; intros s HY Hnd Hv; cbn [define].
      { split; [apply rstep_refl; exact (Y_known _ _ HY)|]. split; [exact HY|]. split; [intros n []|auto]. }
      inversion Hnd as [|a' l' Hal Hnd' Ea]. subst a' l'.
      assert (HT : Ready m (tick s)).
      { destruct HY as [H1 H2 H3 H4]. assert (L := loaded_tick s (H3 Ho)).
        split; [exact H1|right; exact L|intros _; exact L|exact H4]. }
      assert (RT : RStep m s (tick s)).
      { apply rstep_of_step; [exact (Y_known _ _ HY)|]. split; auto. }
      destruct (bind_in a (VObj (clock s)) (tick s) HT) as (R1 & Y1 & V1 & V2).
      { right. exact (Hv a (or_introl eq_refl)). }
      destruct (IHl _ Y1 Hnd') as (R2 & Y2 & V3 & V4).
      { intros n Hn. rewrite V2; [exact (Hv n (or_intror Hn))|]. intros ->. exact (Hal Hn). }
      split; [|split; [exact Y2|split]].
      - apply (rstep_trans m s (tick s)); [exact (Y_known _ _ HY)|exact RT|].
        apply (rstep_trans m (tick s) _ _ (Y_known _ _ HT) R1 R2).
      - intros n [<-|Hn]; [|exact (V3 n Hn)]. rewrite V4 by exact Hal. rewrite V1. discriminate.
      - intros n Hn. rewrite V4 by (intro H; apply Hn; right; exact H).
        rewrite V2 by (intros ->; apply Hn; left; reflexivity). reflexivity.
    Qed.

    Lemma take_in t n a s :
      Ready m s -> (In t core \/ In t outer /\ rank t < rank m) ->
      (In n (all_names t) \/ t = "" /\ In n (tl core)) ->
      (is_foreign m = true \/ val m a s = None) ->
      exists s', take (IMP f) m t n a s = Some (true, s') /\ RStep m s s' /\ Ready m s' /\
        val m a s' <> None /\ (forall n', n' <> a -> val m n' s' = val m n' s).
    Proof.
      intros HY Ht Hn Ha.
      destruct (imp_in t s HY) as (s1 & E & R1 & Y1 & Hc & HL & V1).
      { destruct Ht as [Ht|(Ht & Hr)]; [left; exact Ht|right]. split; [left; exact Ht|exact Hr]. }
      assert (L : Loaded s1) by (apply HL; destruct Ht as [Ht|(Ht & _)]; auto).
      assert (Hv : exists v, val t n s1 = Some v).
      { destruct Hn as [Hn|(-> & Hn)].
        - destruct (val t n s1) as [v|] eqn:Ev; [exists v; reflexivity|]. destruct (proj2 Hc n Hn Ev).
        - exists (VMod n). apply (L_package _ L). apply is_val_eq.
          exact (proj1 (forallb_forall _ _) B_submodules n Hn). }
      destruct Hv as (v & Hv).
      assert (Htf : is_foreign t = false).
      { destruct Ht as [Ht|(Ht & _)]; [exact (proj1 (core_facts t Ht))|exact (proj1 (outer_facts t Ht))]. }
      assert (L2 := loaded_took m t n v s1 L Htf Hv).
      assert (Y2 : Ready m (took m t n v s1)).
      { destruct Y1 as [H1 H2 H3 H4]. split; [exact H1|right; exact L2|intros _; exact L2|exact H4]. }
      destruct (bind_in a v (took m t n v s1) Y2) as (R3 & Y3 & V3 & V4).
      { destruct Ha as [Ha|Ha]; [left; exact Ha|right]. change (val m a s1 = None). rewrite V1. exact Ha. }
      exists (bind m a v (took m t n v s1)). split.
      { unfold take. rewrite E. cbn [then_]. rewrite Hv. reflexivity. }
      assert (R2 : RStep m s1 (took m t n v s1)).
      { apply rstep_of_step; [exact (Y_known _ _ Y1)|]. split; auto. }
      split.
      { apply (rstep_trans m s s1); [exact (Y_known _ _ HY)|exact R1|].
        exact (rstep_trans m s1 _ _ (Y_known _ _ Y1) R2 R3). }
      split; [exact Y3|]. split; [rewrite V3; discriminate|].
      intros n' Hn'. rewrite V4 by exact Hn'. exact (V1 n').
    Qed.

    Lemma exec_in x s :
      Ready m s -> good_stmt m x -> freshly (promised x) s ->
      exists s', exec pure watch (IMP f) m x s = Some (true, s') /\ RStep m s s' /\ Ready m s' /\
        (forall n, In n (promised x) -> val m n s' <> None) /\
        (forall n, ~ In n (promised x) -> val m n s' = val m n s).
    Proof.
      intros HY Hg Hfr. destruct x as [t|t n a|l|w l|p| |t l]; cbn [good_stmt] in Hg; cbn [exec promised] in *;
        try contradiction.
      - destruct (imp_in t s HY) as (s1 & E & R1 & Y1 & Hc & HL & V1).
        { destruct Hg as [Ht|(Ht & Hr)]; [left; exact Ht|right]. split; [left; exact Ht|exact Hr]. }
        exists s1. split; [exact E|]. split; [exact R1|]. split; [exact Y1|]. split; [intros n []|intros n _; apply V1].
      - destruct Hg as (Ht & Hn). destruct (take_in t n a s HY Ht Hn) as (s1 & E & R1 & Y1 & V1 & V2).
        { destruct Hfr as [H|(_ & H)]; [left; exact H|right]. apply H. left. reflexivity. }
        exists s1. split; [exact E|]. split; [exact R1|]. split; [exact Y1|]. split.
        + intros n' [<-|[]]. exact V1.
        + intros n' Hn'. apply V2. intros ->. apply Hn'. left. reflexivity.
      - destruct Hfr as [H|(Hnd & Hv)]; [destruct (outer_facts m Hg) as (H' & _); congruence|].
        destruct (define_in l s Hg HY Hnd Hv) as (R1 & Y1 & V1 & V2).
        exists (define m l s). split; [reflexivity|]. split; [exact R1|]. split; [exact Y1|]. split; [exact V1|exact V2].
      - destruct Hg as (Ht & Hr).
        destruct (imp_in p s HY) as (s1 & E & R1 & Y1 & Hc & HL & V1).
        { right. split; [right; exact Ht|exact Hr]. }
        exists s1. split; [exact E|]. split; [exact R1|]. split; [exact Y1|]. split; [intros n []|intros n _; apply V1].
    Qed.

    Lemma run_in l s :
      Ready m s -> (forall x, In x l -> good_stmt m x) -> freshly (flat_map promised l) s ->
      exists s', run pure watch (IMP f) m l s = Some (true, s') /\ RStep m s s' /\ Ready m s' /\
        (forall n, In n (flat_map promised l) -> val m n s' <> None) /\
        (forall n, ~ In n (flat_map promised l) -> val m n s' = val m n s).
    Proof.
      revert s. induction l as [|x l IHl]; intros s HY Hg Hfr; cbn [run flat_map].
      { exists s. split; [reflexivity|]. split; [apply rstep_refl; exact (Y_known _ _ HY)|].
        split; [exact HY|]. split; [intros n []|auto]. }
      cbn [flat_map] in Hfr.
      destruct (exec_in x s HY (Hg x (or_introl eq_refl))) as (s1 & E1 & R1 & Y1 & V1 & V2).
      { destruct Hfr as [H|(Hnd & Hv)]; [left; exact H|right]. split; [exact (proj1 (nodup_app _ _ Hnd))|].
        intros n Hn. apply Hv. apply in_or_app. left. exact Hn. }
      destruct (IHl s1 Y1 (fun y Hy => Hg y (or_intror Hy))) as (s2 & E2 & R2 & Y2 & V3 & V4).
      { destruct Hfr as [H|(Hnd & Hv)]; [left; exact H|right]. split; [exact (proj1 (proj2 (nodup_app _ _ Hnd)))|].
        intros n Hn. rewrite V2; [apply Hv; apply in_or_app; right; exact Hn|]. intro Hx.
        exact (proj2 (proj2 (nodup_app _ _ Hnd)) n Hx Hn). }
      exists s2. rewrite E1. cbn [then_]. split; [exact E2|].
      split; [exact (rstep_trans m s s1 s2 (Y_known _ _ HY) R1 R2)|]. split; [exact Y2|]. split.
      - intros n Hn. destruct (in_dec string_dec n (flat_map promised l)) as [Hl|Hl]; [exact (V3 n Hl)|].
        rewrite V4 by exact Hl. apply in_app_or in Hn. destruct Hn as [Hn|Hn]; [exact (V1 n Hn)|contradiction].
      - intros n Hn. rewrite V4 by (intro H; apply Hn; apply in_or_app; right; exact H).
        apply V2. intro H. apply Hn. apply in_or_app. left. exact H.
    Qed.
  End Body.

  Lemma fresh_add m s : Fresh s -> is_foreign m = true -> Fresh (add_module m [] s).
  Proof.
    intros (l & -> & Hl) Hm. exists ((m, []) :: l). split; [reflexivity|].
    intros e [<-|He]; [exact Hm|exact (Hl e He)].
  Qed.

  Lemma step_add_run m s s2 :
    m <> "" -> known m s = false -> RStep m (add_module m [] s) s2 -> complete m s2 -> Step s s2.
  Proof.
    intros Hne Hk R Hc. assert (En : String.eqb "" m = false) by (apply String.eqb_neq; congruence).
    assert (Ek : forall k, known k s = true -> known k (add_module m [] s) = true).
    { intros k H. unfold known. rewrite lookup_add. destruct (String.eqb k m); [reflexivity|exact H]. }
    split.
    - intros k Hkn H. assert (Hkm : k <> m) by (intros ->; congruence).
      rewrite (R_keep _ _ _ R k Hkn Hkm (Ek k H)), lookup_add.
      assert (E : String.eqb k m = false) by (apply String.eqb_neq; exact Hkm). rewrite E. reflexivity.
    - intro H. exact (R_package _ _ _ R (Ek "" H)).
    - intros n v Hv. apply (R_names _ _ _ R). unfold val. rewrite lookup_add, En. exact Hv.
    - intros k H. destruct (string_dec k m) as [->|Hkm]; [right; exact Hc|].
      destruct (R_new _ _ _ R k H) as [H'|H']; [left|right; exact H'].
      unfold known in *. rewrite lookup_add in H'.
      assert (E : String.eqb k m = false) by (apply String.eqb_neq; exact Hkm). rewrite E in H'. exact H'.
  Qed.

  Lemma step_submodule m s : Loaded s -> In m all_modules -> Step s (bind "" m (VMod m) s).
  Proof.
    intros H Hm. assert (Hk := L_known _ H). split.
    - intros k Hkn Hkk. rewrite lookup_bind.
      destruct (String.eqb "" k) eqn:E; [apply String.eqb_eq in E; congruence|].
      destruct (lookup k (mods s)); reflexivity.
    - intros _. rewrite known_bind. exact Hk.
    - intros n v Hv. rewrite val_bind, Hk. cbn [String.eqb andb].
      destruct (String.eqb n m) eqn:E; [|exact Hv]. apply String.eqb_eq in E. subst n.
      rewrite (L_modules _ H m v Hm Hv). reflexivity.
    - intros k H'. rewrite known_bind in H'. left. exact H'.
  Qed.

  Lemma names_layer m : layer m -> all_names m = flat_map promised (text m).
  Proof. intro H. unfold ImportsSpec.all_names. destruct (layer_facts m H) as (_ & _ & He & _). rewrite He. reflexivity. Qed.

  Lemma run_layer f m s :
    layer m -> 17 <= f -> (forall t, layer t -> rank t < rank m -> Imported f t) ->
    known m s = false -> Pre s -> (In m outer -> Loaded s) ->
    (forall k, layer k -> rank k <= rank m -> known k s = true -> complete k s) ->
    exists s', run pure watch (IMP f) m (text m) (add_module m [] s) = Some (true, s') /\
      Step s s' /\ Pre s' /\ complete m s' /\ (In m outer -> Loaded s').
  Proof.
    intros Hm Hf IH Hk Hp HL Hlow. destruct (layer_facts m Hm) as (Hne & Hmb & Hext & Hxt & Hmc).
    assert (L' : Loaded s -> Loaded (add_module m [] s)).
    { intro H. apply loaded_add; try assumption. intros ->. discriminate Hext. }
    assert (HY : Ready m (add_module m [] s)).
    { split.
      - unfold known. rewrite lookup_add, String.eqb_refl. reflexivity.
      - destruct Hp as [Hp|Hp]; [|right; exact (L' Hp)]. destruct Hm as [Hm|Hm]; [right; exact (L' (HL Hm))|].
        left. apply fresh_add; assumption.
      - intro Ho. exact (L' (HL Ho)).
      - intros k Hkl Hr Hkn. assert (Hkm : k <> m) by (intros ->; lia).
        assert (E : String.eqb k m = false) by (apply String.eqb_neq; exact Hkm).
        unfold known in Hkn. rewrite lookup_add, E in Hkn.
        destruct (Hlow k Hkl ltac:(lia) Hkn) as (_ & Hc). split.
        + unfold known. rewrite lookup_add, E. exact Hkn.
        + intros n Hn. unfold val. rewrite lookup_add, E. exact (Hc n Hn). }
    destruct (run_in f m Hm Hf IH (text m) _ HY) as (s2 & E2 & R2 & Y2 & V1 & V2).
    { intros x Hx. exact (layer_stmts m x Hm Hx). }
    { destruct Hm as [Hm|Hm]; [right|left; exact Hm]. split; [exact (outer_nodup m Hm)|].
      intros n _. unfold val. rewrite lookup_add, String.eqb_refl. reflexivity. }
    assert (Hc : complete m s2).
    { split; [exact (R_known _ _ _ R2)|]. intros n Hn. rewrite (names_layer m Hm) in Hn. exact (V1 n Hn). }
    exists s2. split; [exact E2|]. split; [exact (step_add_run m s s2 Hne Hk R2 Hc)|].
    split; [exact (Y_pre _ _ Y2)|]. split; [exact Hc|exact (Y_loaded _ _ Y2)].
  Qed.

  Lemma imp_layer r : forall m f, layer m -> rank m <= r -> rank m + 18 <= f -> Imported f m.
  Proof.
    induction r as [r IHr] using lt_wf_ind. intros m f Hm Hr Hf s Hp Hlow.
    destruct (layer_facts m Hm) as (Hne & Hmb & Hext & Hxt & Hmc).
    assert (En : String.eqb m "" = false) by (apply String.eqb_neq; exact Hne).
    destruct f as [|f]; [lia|]. cbn [imp]. destruct (known m s) eqn:Hk.
    { exists s. split; [reflexivity|]. split; [apply step_refl|]. split; [exact Hp|].
      split; [exact (Hlow m Hm (le_n _) Hk)|]. intros [Ho|Ho]; [|contradiction].
      destruct Hp as [(l & -> & Hl)|Hp]; [|exact Hp].
      assert (Hfk := fresh_known l m Hl Hk). destruct (outer_facts m Ho) as (Hff & _). congruence. }
    assert (IH : forall t, layer t -> rank t < rank m -> Imported f t).
    { intros t Ht Hrt. apply (IHr (rank t) ltac:(lia) t f Ht); lia. }
    rewrite En, Hext. cbn [orb]. destruct (is_foreign m) eqn:Hfor.
    - cbn [then_]. rewrite Hk.
      destruct (run_layer f m s Hm ltac:(lia) IH Hk Hp) as (s2 & E2 & S2 & P2 & C2 & L2).
      { intro Ho. destruct (outer_facts m Ho) as (Hff & _). congruence. }
      { exact Hlow. }
      rewrite E2. exists s2. split; [reflexivity|]. split; [exact S2|]. split; [exact P2|]. split; [exact C2|].
      intros [Ho|Ho]; [exact (L2 Ho)|contradiction].
    - assert (Ho : In m outer) by (destruct Hm as [H|H]; [exact H|congruence]).
      destruct (imp_package s f Hp ltac:(lia)) as (s1 & E1 & S1 & L1). rewrite E1. cbn [then_].
      destruct (known m s1) eqn:Hk1.
      { exists s1. split; [reflexivity|]. split; [exact S1|]. split; [right; exact L1|]. split; [|intros _; exact L1].
        destruct (S_new _ _ S1 m Hk1) as [H|H]; [congruence|exact H]. }
      destruct (run_layer f m s1 Hm ltac:(lia) IH Hk1 (or_intror L1) (fun _ => L1)) as (s2 & E2 & S2 & P2 & C2 & L2).
      { intros k Hkl Hrk Hkn. destruct (S_new _ _ S1 k Hkn) as [H|H]; [|exact H].
        exact (step_complete _ _ _ S1 (Hlow k Hkl Hrk H)). }
      assert (Hall : In m all_modules) by (exact (proj2 (proj2 (proj2 (proj2 (outer_facts m Ho)))))).
      rewrite E2. exists (bind "" m (VMod m) s2). split; [reflexivity|].
      assert (S3 := step_submodule m s2 (L2 Ho) Hall).
      split; [exact (step_trans _ _ _ S1 (step_trans _ _ _ S2 S3))|].
      assert (L3 := loaded_submodule m s2 (L2 Ho) Hall).
      split; [right; exact L3|]. split; [exact (step_complete _ _ _ S3 C2)|intros _; exact L3].
  Qed.

  (** *** Extension modules *)

  Lemma define_keep m l s k : k <> m -> lookup k (mods (define m l s)) = lookup k (mods s).
  Proof.
    intro Hk. revert s. induction l as [|a l IH]; intro s; cbn [define]; [reflexivity|].
    rewrite IH, lookup_bind. cbn [tick mods].
    destruct (String.eqb m k) eqn:E; [apply String.eqb_eq in E; congruence|].
    destruct (lookup k (mods s)); reflexivity.
  Qed.

  Lemma define_known m l s k : known k (define m l s) = known k s.
  Proof.
    revert s. induction l as [|a l IH]; intro s; cbn [define]; [reflexivity|].
    rewrite IH, known_bind. reflexivity.
  Qed.

  Lemma define_more m l s n : val m n s <> None -> val m n (define m l s) <> None.
  Proof.
    revert s. induction l as [|a l IH]; intros s H; cbn [define]; [exact H|].
    apply IH. rewrite val_bind. destruct (String.eqb m m && known m (tick s) && String.eqb n a); [discriminate|exact H].
  Qed.

  Lemma define_names m l s n : known m s = true -> In n l -> val m n (define m l s) <> None.
  Proof.
    revert s. induction l as [|a l IH]; intros s Hk Hn; cbn [define]; [contradiction|].
    destruct Hn as [<-|Hn].
    - apply define_more. rewrite val_bind, !String.eqb_refl. change (known m (tick s)) with (known m s).
      rewrite Hk. discriminate.
    - apply IH; [rewrite known_bind; exact Hk|exact Hn].
  Qed.

  Lemma loaded_define m l s :
    Loaded s -> known m B = false -> m <> "" -> NoDup l -> (forall n, In n l -> val m n s = None) ->
    Loaded (define m l s).
  Proof.
    intros L Hb Hne. revert s L. induction l as [|a l IH]; intros s L Hnd Hv; cbn [define]; [exact L|].
    inversion Hnd as [|a' l' H1 H2 E]. subst. apply IH; [|exact H2|].
    - apply loaded_bind; [apply loaded_tick; exact L|exact Hb|exact Hne|right]. exact (Hv a (or_introl eq_refl)).
    - intros n Hn. rewrite val_bind. assert (E : String.eqb n a = false) by (apply String.eqb_neq; congruence).
      rewrite E, !andb_false_r. exact (Hv n (or_intror Hn)).
  Qed.

  Lemma bind_unknown m a v s : known m s = false -> bind m a v s = s.
  Proof.
    intro H. unfold known in H. destruct (lookup m (mods s)) eqn:E; [discriminate H|].
    assert (Eb := bindl_fresh m a v (mods s) E). unfold bindl in Eb. unfold bind. rewrite Eb.
    destruct s; reflexivity.
  Qed.

  (** Loading an extension that imports nothing else. *)
  Definition installed (m : string) (s : st) : st :=
    bind "" m (VMod m) (define m (exports m) (add_module m [] s)).

  Lemma installed_step m s : Loaded (add_module m [] s) -> known m s = false -> m <> "" -> is_ext m = true ->
    In m all_modules -> known m B = false -> NoDup (exports m) ->
    Loaded (installed m s) /\ Step s (installed m s) /\ complete m (installed m s).
  Proof.
    intros L Hk Hne He Hall Hb Hnd.
    assert (Hmk : known m (add_module m [] s) = true) by (unfold known; rewrite lookup_add, String.eqb_refl; reflexivity).
    assert (Hd : Loaded (define m (exports m) (add_module m [] s))).
    { apply loaded_define; try assumption. intros n _. unfold val. rewrite lookup_add, String.eqb_refl. reflexivity. }
    assert (Hc : complete m (define m (exports m) (add_module m [] s))).
    { split; [rewrite define_known; exact Hmk|]. intros n Hn. unfold ImportsSpec.all_names in Hn. rewrite He in Hn.
      apply define_names; assumption. }
    assert (S1 : Step s (define m (exports m) (add_module m [] s))).
    { apply (step_add_run m); [exact Hne|exact Hk| |exact Hc]. split.
      - intros k _ Hkm _. apply define_keep. exact Hkm.
      - rewrite define_known. exact Hmk.
      - rewrite define_known. auto.
      - intros n v Hv. unfold val. rewrite define_keep by congruence. exact Hv.
      - intros k H. rewrite define_known in H. left. exact H. }
    assert (S2 := step_submodule m _ Hd Hall).
    split; [exact (loaded_submodule m _ Hd Hall)|]. split; [exact (step_trans _ _ _ S1 S2)|exact (step_complete _ _ _ S2 Hc)].
  Qed.

  Definition with_proxy (s : st) : st := if known "_proxy" s then s else installed "_proxy" s.

  Lemma imp_proxy_run f s : known "" s = true -> 2 <= f ->
    (known "_proxy" s = true -> hp = true) ->
    IMP f "_proxy" s = Some (hp, if hp then with_proxy s else s).
  Proof.
    intros H Hf Hh. destruct f as [|f]; [lia|]. destruct f as [|f]; [lia|].
    unfold with_proxy. remember (S f) as g eqn:Eg. cbn [imp].
    destruct (known "_proxy" s) eqn:Hk; [rewrite (Hh eq_refl); reflexivity|].
    change (String.eqb "_proxy" "" || is_foreign "_proxy") with false. cbn iota.
    rewrite (imp_known g "" s H ltac:(lia)). cbn [then_]. rewrite Hk.
    change (is_ext "_proxy") with true. change (available hp hc "_proxy") with hp. cbn iota.
    destruct hp; reflexivity.
  Qed.

  Lemma proxy_names : NoDup (exports "_proxy") /\ NoDup (exports EXT).
  Proof. split; apply nodup_ok; vm_compute; reflexivity. Qed.

  Lemma unknown_base m s : Loaded s -> m <> "" -> known m s = false -> known m B = false.
  Proof.
    intros L Hne Hk. destruct (known m B) eqn:E; [|reflexivity].
    unfold known in Hk. rewrite (L_core _ L m Hne E) in Hk. unfold known in E. congruence.
  Qed.

  Lemma with_proxy_ok s : Loaded s -> hp = true ->
    Loaded (with_proxy s) /\ Step s (with_proxy s) /\ complete "_proxy" (with_proxy s) \/
    known "_proxy" s = true /\ with_proxy s = s.
  Proof.
    intros L Hh. unfold with_proxy. destruct (known "_proxy" s) eqn:Hk; [right; auto|left].
    apply installed_step.
    - apply loaded_add; [exact L|exact Hk|intro E; discriminate E|auto].
    - exact Hk.
    - intro E; discriminate E.
    - reflexivity.
    - cbn. tauto.
    - apply (unknown_base _ s L); [intro E; discriminate E|exact Hk].
    - exact (proj1 proxy_names).
  Qed.

  Lemma complete_known k s : (forall k, known k s = true -> complete k s) -> known k s = true -> complete k s.
  Proof. intros H Hk. exact (H k Hk). Qed.

  Lemma imp_proxy s f : Pre s -> 18 <= f -> (forall k, known k s = true -> complete k s) ->
    exists s', IMP f "_proxy" s = Some (hp, s') /\ Step s s' /\ Loaded s' /\ (hp = true -> complete "_proxy" s').
  Proof.
    intros Hp Hf Hall. destruct f as [|f]; [lia|].
    destruct (imp_package s f Hp ltac:(lia)) as (s1 & E1 & S1 & L1).
    assert (Hk1 : known "_proxy" s1 = true -> complete "_proxy" s1).
    { intro H. destruct (S_new _ _ S1 _ H) as [H'|H']; [|exact H']. exact (step_complete _ _ _ S1 (Hall _ H')). }
    assert (E : IMP (S f) "_proxy" s = Some (hp, if hp then with_proxy s1 else s1)).
    { rewrite <- (imp_proxy_run (S f) s1 (L_known _ L1) ltac:(lia) (L_hp _ L1)).
      cbn [imp]. destruct (known "_proxy" s) eqn:Hk.
      - destruct Hp as [(l & -> & Hl)|Hp]; [assert (H := fresh_known l _ Hl Hk); discriminate H|].
        assert (Es : s1 = s).
        { rewrite (imp_known f "" s (L_known _ Hp) ltac:(lia)) in E1. injection E1 as E1. congruence. }
        rewrite Es, Hk. reflexivity.
      - change (String.eqb "_proxy" "" || is_foreign "_proxy") with false. cbn iota.
        rewrite E1, (imp_known f "" s1 (L_known _ L1) ltac:(lia)). cbn [then_].
        destruct (known "_proxy" s1); reflexivity. }
    rewrite E. destruct (Bool.bool_dec hp true) as [Eh|Eh].
    - assert (Ew : (if hp then with_proxy s1 else s1) = with_proxy s1) by (rewrite Eh; reflexivity).
      rewrite Ew. exists (with_proxy s1). split; [reflexivity|].
      destruct (with_proxy_ok s1 L1 Eh) as [(W1 & W2 & W3)|(W1 & W2)].
      + split; [exact (step_trans _ _ _ S1 W2)|]. split; [exact W1|]. intros _. exact W3.
      + rewrite W2. split; [exact S1|]. split; [exact L1|]. intros _. exact (Hk1 W1).
    - assert (Ew : (if hp then with_proxy s1 else s1) = s1) by (destruct hp; [destruct (Eh eq_refl)|reflexivity]).
      rewrite Ew. exists s1. split; [reflexivity|]. split; [exact S1|]. split; [exact L1|]. intro H. destruct (Eh H).
  Qed.

  (** *** _zope_security_checker *)

  Definition begun (s : st) : st := begin_init EXT s.

  Lemma take_known f m t n a s v :
    known t s = true -> val t n s = Some v -> 0 < f -> known m s = false ->
    take (IMP f) m t n a s = Some (true, took m t n v s).
  Proof.
    intros Hk Hv Hf Hm. unfold take. rewrite (imp_known f t s Hk Hf). cbn [then_]. rewrite Hv.
    rewrite bind_unknown; [reflexivity|exact Hm].
  Qed.

  Definition takings (l : list (string * string * string * value)) (s : st) : st :=
    mkSt (mods s) (clock s) (l ++ takes s)%list (patched s) (running s) (completed s) (nested s).

  Lemma run_takes f m (l : list (string * string * string)) : forall s,
    0 < f -> known m s = false ->
    (forall t n a, In (t, n, a) l -> known t s = true /\ val t n s <> None) ->
    exists new, run pure watch (IMP f) m (map (fun e => SFrom (fst (fst e)) (snd (fst e)) (snd e)) l) s =
                Some (true, takings new s) /\
                (forall k t n v, In (k, t, n, v) new -> val t n s = Some v /\ exists a, In (t, n, a) l).
  Proof.
    induction l as [|((t & n) & a) l IH]; intros s Hf Hm Hl.
    - exists []. split; [|intros k t n v []]. cbn [map run takings app]. destruct s; reflexivity.
    - cbn [map run fst snd exec]. destruct (Hl t n a (or_introl eq_refl)) as (Hk & Hv).
      destruct (val t n s) as [v|] eqn:Ev; [|destruct (Hv eq_refl)].
      rewrite (take_known f m t n a s v Hk Ev Hf Hm). cbn [then_].
      destruct (IH (took m t n v s) Hf Hm) as (new & E & Hn).
      { intros t' n' a' Hin. exact (Hl t' n' a' (or_intror Hin)). }
      exists (new ++ [(m, t, n, v)])%list. split.
      + rewrite E. unfold takings, took. cbn [mods clock takes patched running completed nested].
        rewrite <- app_assoc. reflexivity.
      + intros k t' n' v' Hin. apply in_app_or in Hin. destruct Hin as [Hin|[Hin|[]]].
        * destruct (Hn k t' n' v' Hin) as (H1 & a' & H2). split; [exact H1|]. exists a'. right. exact H2.
        * injection Hin as <- <- <- <-. split; [exact Ev|]. exists a. left. reflexivity.
  Qed.

  Lemma ext_names s : Loaded s ->
    forall t n a, In (t, n, a) [("_definitions", "thread_local", "thread_local");
      ("interfaces", "ForbiddenAttribute", "ForbiddenAttribute"); ("interfaces", "Unauthorized", "Unauthorized");
      ("checker", "CheckerPublic", "CheckerPublic")] -> known t s = true /\ val t n s <> None.
  Proof.
    intros L t n a Hin.
    assert (Ht : In t core) by (cbn in Hin; destruct Hin as [E|[E|[E|[E|[]]]]]; injection E as <- <- <-; cbn; tauto).
    destruct (loaded_core s t L Ht) as (Hk & Hc). split; [exact Hk|]. apply Hc. apply mem_in.
    cbn in Hin. destruct Hin as [E|[E|[E|[E|[]]]]]; injection E as <- <- <-; vm_compute; reflexivity.
  Qed.

  Lemma known_installed m s k : known k (installed m s) = String.eqb k m || known k s.
  Proof.
    unfold installed. rewrite known_bind, define_known. unfold known. rewrite lookup_add.
    destruct (String.eqb k m); reflexivity.
  Qed.

  Lemma step_mods s s' : mods s' = mods s -> Step s s'.
  Proof.
    intro E. split.
    - intros k _ _. rewrite E. reflexivity.
    - intro H. unfold known in *. rewrite E. exact H.
    - intros n v H. unfold val in *. rewrite E. exact H.
    - intros k H. left. unfold known in *. rewrite E in H. exact H.
  Qed.

  Lemma loaded_add_ext s new :
    Loaded s -> known EXT s = false -> hp && hc = true ->
    (forall k t n v, In (k, t, n, v) new -> is_foreign t = false /\ val t n s = Some v) ->
    Loaded (add_module EXT [] (end_init EXT true (takings new (begun s)))).
  Proof.
    intros L Hk Hh Hnew.
    assert (Hl : lookup EXT (mods s) = None) by (unfold known in Hk; destruct (lookup EXT (mods s)); [discriminate Hk|reflexivity]).
    assert (Em : forall k, lookup k (mods (add_module EXT [] (end_init EXT true (takings new (begun s))))) =
                           if String.eqb k EXT then Some [] else lookup k (mods s)) by reflexivity.
    assert (Ev : forall t n w, val t n s = Some w ->
       val t n (add_module EXT [] (end_init EXT true (takings new (begun s)))) = Some w).
    { intros t n w Hw. unfold val in *. rewrite Em. destruct (String.eqb t EXT) eqn:E; [|exact Hw].
      apply String.eqb_eq in E. subst t. rewrite Hl in Hw. discriminate Hw. }
    split.
    - intros k Hkn Hkb. rewrite Em. destruct (String.eqb k EXT) eqn:E; [|exact (L_core _ L k Hkn Hkb)].
      apply String.eqb_eq in E. subst k. rewrite (unknown_base EXT s L Hkn Hk) in Hkb. discriminate Hkb.
    - intros n v Hv. apply Ev. exact (L_package _ L n v Hv).
    - exact (L_known _ L).
    - intros k v Hin Hv. exact (L_modules _ L k v Hin Hv).
    - intros k t n v Hin.
      change (In (k, t, n, v) (new ++ takes s)%list) in Hin. apply in_app_or in Hin. destruct Hin as [Hin|Hin].
      + destruct (Hnew k t n v Hin) as (H1 & H2). split; [exact H1|]. apply Ev. exact H2.
      + destruct (L_takes _ L k t n v Hin) as (H1 & H2). split; [exact H1|]. apply Ev. exact H2.
    - exact (L_patched _ L).
    - change (S (running s) - 1 = 0). rewrite (L_running _ L). reflexivity.
    - change (nested s || negb (Nat.eqb (running s) 0) = false). rewrite (L_running _ L), (L_nested _ L). reflexivity.
    - change (S (completed s) = 1). rewrite (L_completed _ L), Hk. reflexivity.
    - intro H. exact (L_hp _ L H).
    - intros _. exact Hh.
  Qed.

  Lemma run_ext f s : Loaded s -> known EXT s = false -> (forall k, known k s = true -> complete k s) ->
    2 <= f -> hp && hc = true ->
    exists new, run pure watch (IMP f) EXT (text EXT) (begun s) = Some (true, takings new (begun (with_proxy s))) /\
      forall k t n v, In (k, t, n, v) new -> is_foreign t = false /\ val t n (with_proxy s) = Some v.
  Proof.
    intros L Hk Hall Hf Hh. apply andb_true_iff in Hh. destruct Hh as (Hh & Hhc).
    assert (K : Loaded (with_proxy s) /\ complete "_proxy" (with_proxy s)).
    { destruct (with_proxy_ok s L Hh) as [(W1 & W2 & W3)|(W1 & W2)]; [auto|]. rewrite W2. auto. }
    destruct K as (L0 & C0).
    assert (Hk0 : known EXT (with_proxy s) = false).
    { unfold with_proxy. destruct (known "_proxy" s); [exact Hk|]. rewrite known_installed. exact Hk. }
    set (l := [("_proxy", "_Proxy", "Proxy"); ("_definitions", "thread_local", "thread_local");
      ("interfaces", "ForbiddenAttribute", "ForbiddenAttribute"); ("interfaces", "Unauthorized", "Unauthorized");
      ("checker", "CheckerPublic", "CheckerPublic")]).
    destruct (run_takes f EXT l (begun (with_proxy s)) ltac:(lia) Hk0) as (new & E & Hnew).
    { intros t n a [Heq|Hin]; [|exact (ext_names _ L0 t n a Hin)]. injection Heq as <- <- <-.
      split; [exact (proj1 C0)|]. apply (proj2 C0). left. reflexivity. }
    exists new. split.
    - rewrite <- E. change (text EXT) with (map (fun e => SFrom (fst (fst e)) (snd (fst e)) (snd e)) l).
      unfold l. cbn [map run exec fst snd]. f_equal. unfold take.
      rewrite (imp_known f "_proxy" (begun (with_proxy s)) (proj1 C0) ltac:(lia)).
      rewrite (imp_proxy_run f (begun s) (L_known _ L) Hf (L_hp _ L)). rewrite Hh. cbn [then_].
      assert (Ec : with_proxy (begun s) = begun (with_proxy s)).
      { unfold with_proxy. change (known "_proxy" (begun s)) with (known "_proxy" s).
        destruct (known "_proxy" s); reflexivity. }
      rewrite Ec. reflexivity.
    - intros k t n v Hin. destruct (Hnew k t n v Hin) as (H1 & a & H2). split; [|exact H1].
      unfold l in H2. cbn in H2. repeat (destruct H2 as [H2|H2]; [injection H2 as <- <- <-; reflexivity|]). contradiction.
  Qed.

  Lemma imp_ext s f : Pre s -> 20 <= f -> (forall k, known k s = true -> complete k s) ->
    exists s', IMP f EXT s = Some (hp && hc, s') /\ Step s s' /\ Loaded s' /\ (hp && hc = true -> complete EXT s').
  Proof.
    intros Hp Hf Hall. destruct f as [|f]; [lia|]. cbn [imp].
    destruct (known EXT s) eqn:Hk.
    { destruct Hp as [(l & -> & Hl)|Hp]; [assert (H := fresh_known l _ Hl Hk); discriminate H|].
      exists s. rewrite (L_hc _ Hp Hk). split; [reflexivity|]. split; [apply step_refl|]. split; [exact Hp|].
      intros _. exact (Hall _ Hk). }
    destruct (imp_package s f Hp ltac:(lia)) as (s1 & E1 & S1 & L1).
    assert (Hall1 : forall k, known k s1 = true -> complete k s1).
    { intros k H. destruct (S_new _ _ S1 _ H) as [H'|H']; [|exact H']. exact (step_complete _ _ _ S1 (Hall _ H')). }
    change (String.eqb EXT "" || is_foreign EXT) with false. cbn iota. rewrite E1. cbn [then_].
    destruct (known EXT s1) eqn:Hk1.
    { exists s1. rewrite (L_hc _ L1 Hk1). split; [reflexivity|]. split; [exact S1|]. split; [exact L1|].
      intros _. exact (Hall1 _ Hk1). }
    change (is_ext EXT) with true. change (available hp hc EXT) with hc. cbn iota.
    destruct (Bool.bool_dec hc true) as [Eh|Eh].
    - destruct (Bool.bool_dec hp true) as [Ep|Ep].
      + assert (Hh : hp && hc = true) by (rewrite Eh, Ep; reflexivity).
        destruct (run_ext f s1 L1 Hk1 Hall1 ltac:(lia) Hh) as (new & Er & Hnew).
        change (begin_init EXT s1) with (begun s1). rewrite Er.
        set (Y := end_init EXT true (takings new (begun (with_proxy s1)))).
        assert (K : Loaded (with_proxy s1) /\ Step s1 (with_proxy s1)).
        { destruct (with_proxy_ok s1 L1 Ep) as [(W1 & W2 & W3)|(W1 & W2)]; [auto|]. rewrite W2. split; [exact L1|apply step_refl]. }
        destruct K as (L0 & S0).
        assert (Hk0 : known EXT (with_proxy s1) = false).
        { unfold with_proxy. destruct (known "_proxy" s1); [exact Hk1|]. rewrite known_installed. exact Hk1. }
        assert (Hb : known EXT B = false) by (apply (unknown_base _ _ L0); [intro E; discriminate E|exact Hk0]).
        destruct (installed_step EXT Y) as (L2 & S2 & C2).
        * exact (loaded_add_ext _ _ L0 Hk0 Hh Hnew).
        * exact Hk0.
        * intro E; discriminate E.
        * reflexivity.
        * cbn. tauto.
        * exact Hb.
        * exact (proj2 proxy_names).
        * exists (installed EXT Y). rewrite Hh.
          split; [destruct hc; [reflexivity|discriminate Eh]|].
          split; [|split; [exact L2|intros _; exact C2]].
          apply (step_trans _ _ _ S1). apply (step_trans _ _ _ S0). apply (step_trans _ Y); [|exact S2].
          apply step_mods. reflexivity.
      + exists s1. assert (Hh : hp && hc = false) by (destruct hp; [destruct (Ep eq_refl)|reflexivity]).
        rewrite Hh. split; [|split; [exact S1|split; [exact L1|intro H; discriminate H]]].
        assert (Er : run pure watch (IMP f) EXT (text EXT) (begin_init EXT s1) = Some (false, begun s1)).
        { change (text EXT) with body__zope_security_checker. unfold body__zope_security_checker.
          cbn [run exec]. unfold take. change (begin_init EXT s1) with (begun s1).
          rewrite (imp_proxy_run f (begun s1) (L_known _ L1) ltac:(lia) (L_hp _ L1)).
          destruct hp; [destruct (Ep eq_refl)|reflexivity]. }
        rewrite Er, Eh. f_equal. f_equal. unfold end_init, begun, begin_init. cbn [String.eqb].
        change (String.eqb EXT EXT) with true. cbn iota. cbn [mods clock takes patched running completed nested].
        rewrite (L_running _ L1), (L_nested _ L1). cbn. assert (H1 := L_running _ L1). assert (H2 := L_nested _ L1).
        destruct s1; cbn in *. congruence.
    - exists s1. assert (Hh : hp && hc = false) by (destruct hc; [destruct (Eh eq_refl)|apply andb_false_r]).
      rewrite Hh. split; [destruct hc; [destruct (Eh eq_refl)|reflexivity]|].
      split; [exact S1|]. split; [exact L1|]. intro H; discriminate H.
  Qed.

  (** *** Sequences *)

  Lemma imp_any m f s : valid m -> rank m + 20 <= f -> Pre s -> (forall k, known k s = true -> complete k s) ->
    exists s', IMP f m s = Some (importable hp hc m, s') /\ Step s s' /\ Pre s' /\
      (importable hp hc m = true -> complete m s') /\ (is_foreign m = false -> Loaded s').
  Proof.
    intros Hm Hf Hp Hall. destruct Hm as [Hm|[Hm|[Hm|Hm]]].
    - destruct (imp_core s f m Hp Hm ltac:(lia)) as (s' & E & S1 & L1).
      assert (Ei : importable hp hc m = true).
      { cbn in Hm. repeat (destruct Hm as [<-|Hm]; [reflexivity|]). contradiction. }
      rewrite Ei. exists s'. split; [exact E|]. split; [exact S1|]. split; [right; exact L1|].
      split; [intros _; exact (loaded_core _ _ L1 Hm)|intros _; exact L1].
    - destruct (imp_layer (rank m) m f (or_introl Hm) (le_n _) ltac:(lia) s Hp) as (s' & E & S1 & P1 & C1 & L1).
      { intros k _ _ Hk. exact (Hall k Hk). }
      assert (Ei : importable hp hc m = true).
      { clear - Hm. cbn in Hm. repeat (destruct Hm as [<-|Hm]; [reflexivity|]). contradiction. }
      rewrite Ei. exists s'. split; [exact E|]. split; [exact S1|]. split; [exact P1|].
      split; [intros _; exact C1|]. intros _. apply L1. left. exact Hm.
    - destruct Hm as [<-|[<-|[]]].
      + destruct (imp_proxy s f Hp ltac:(lia) Hall) as (s' & E & S1 & L1 & C1). exists s'.
        split; [exact E|]. split; [exact S1|]. split; [right; exact L1|]. split; [exact C1|intros _; exact L1].
      + destruct (imp_ext s f Hp ltac:(lia) Hall) as (s' & E & S1 & L1 & C1). exists s'.
        split; [exact E|]. split; [exact S1|]. split; [right; exact L1|]. split; [exact C1|intros _; exact L1].
    - destruct (imp_layer (rank m) m f (or_intror Hm) (le_n _) ltac:(lia) s Hp) as (s' & E & S1 & P1 & C1 & L1).
      { intros k _ _ Hk. exact (Hall k Hk). }
      assert (Ei : importable hp hc m = true).
      { unfold importable. destruct (String.eqb m "_proxy") eqn:E1; [apply String.eqb_eq in E1; subst m; discriminate Hm|].
        destruct (String.eqb m EXT) eqn:E2; [apply String.eqb_eq in E2; subst m; discriminate Hm|]. reflexivity. }
      rewrite Ei. exists s'. split; [exact E|]. split; [exact S1|]. split; [exact P1|].
      split; [intros _; exact C1|]. intro H. congruence.
  Qed.

  Lemma imports_any f l : forall s,
    (forall m, In m l -> valid m /\ rank m + 20 <= f) -> Pre s -> (forall k, known k s = true -> complete k s) ->
    exists s', imports pure watch hp hc foreign body_package f l s = Some (map (importable hp hc) l, s') /\
      Step s s' /\ Pre s' /\ (forall k, known k s' = true -> complete k s') /\
      (forall m, In m l -> importable hp hc m = true -> complete m s') /\
      (forall m, In m l -> is_foreign m = false -> Loaded s').
  Proof.
    induction l as [|m l IH]; intros s Hl Hp Hall; cbn [imports map].
    { exists s. split; [reflexivity|]. split; [apply step_refl|]. split; [exact Hp|]. split; [exact Hall|].
      split; intros m []. }
    destruct (Hl m (or_introl eq_refl)) as (Hv & Hf).
    destruct (imp_any m f s Hv Hf Hp Hall) as (s1 & E1 & S1 & P1 & C1 & L1). rewrite E1.
    assert (Hall1 : forall k, known k s1 = true -> complete k s1).
    { intros k H. destruct (S_new _ _ S1 _ H) as [H'|H']; [|exact H']. exact (step_complete _ _ _ S1 (Hall _ H')). }
    destruct (IH s1 (fun k Hk => Hl k (or_intror Hk)) P1 Hall1) as (s2 & E2 & S2 & P2 & A2 & C2 & L2).
    rewrite E2. exists s2. split; [reflexivity|]. split; [exact (step_trans _ _ _ S1 S2)|].
    split; [exact P2|]. split; [exact A2|]. split.
    - intros k [<-|Hk] Hi; [exact (step_complete _ _ _ S2 (C1 Hi))|exact (C2 k Hk Hi)].
    - intros k [<-|Hk] Hi; [|exact (L2 k Hk Hi)].
      destruct P2 as [P2|P2]; [|exact P2]. assert (H := S_package _ _ S2 (L_known _ (L1 Hi))).
      rewrite (fresh_package _ P2) in H. discriminate H.
  Qed.

  Lemma start_fresh : Fresh start.
  Proof. exists []. split; [reflexivity|intros e []]. Qed.
End Layers.

(** ** The theorems *)

Definition same_val (a b : option value) : bool :=
  match a, b with Some v, Some w => value_eqb v w | _, _ => false end.

Lemma base_shared pure watch hp hc :
  hp && hc && negb pure = true ->
  forallb (fun n => same_val (val "checker" n (base pure watch hp hc))
                             (val "_zope_security_checker" n (base pure watch hp hc)))
          (if watch then shared else "Checker" :: shared) = true.
Proof. destruct pure, watch, hp, hc; intro H; try discriminate H; vm_compute; reflexivity. Qed.

Lemma base_proxy pure watch hp hc :
  hp && negb pure = true ->
  forallb (fun e => same_val (val "proxy" (fst e) (base pure watch hp hc))
                             (val "_proxy" (snd e) (base pure watch hp hc))) c_proxy = true.
Proof. destruct pure, watch, hp, hc; intro H; try discriminate H; vm_compute; reflexivity. Qed.

Definition same_names (b : st) (l : list (string * string * string * string)) : bool :=
  forallb (fun e => match e with (m, n, t, o) => same_val (val m n b) (val t o b) end) l.
Lemma base_names pure watch hp hc : same_names (base pure watch hp hc) aliases = true.
Proof. destruct pure, watch, hp, hc; vm_compute; reflexivity. Qed.
Lemma base_watching pure watch hp hc : watch = true -> same_names (base pure watch hp hc) watching = true.
Proof. intros ->. destruct pure, hp, hc; vm_compute; reflexivity. Qed.
Lemma base_python pure watch hp hc : watch = false -> hp && hc && negb pure = false ->
  same_names (base pure watch hp hc) [("checker", "Checker", "checker", "CheckerPy")] = true.
Proof. intros ->. destruct pure, hp, hc; intro H; try discriminate H; vm_compute; reflexivity. Qed.
Lemma base_python_proxy pure watch hp hc : hp && negb pure = false ->
  same_names (base pure watch hp hc) python_proxy = true.
Proof. destruct pure, watch, hp, hc; intro H; try discriminate H; vm_compute; reflexivity. Qed.
Lemma base_python_select pure watch hp hc : hp && hc && negb pure = false ->
  same_names (base pure watch hp hc) [("checker", "selectChecker", "checker", "selectCheckerPy")] = true.
Proof. destruct pure, watch, hp, hc; intro H; try discriminate H; vm_compute; reflexivity. Qed.
Lemma same_val_eq a b : same_val a b = true -> a = b /\ a <> None.
Proof.
  destruct a as [v|], b as [w|]; cbn; try discriminate. intro H. rewrite (value_eqb_eq _ _ H). split; [reflexivity|discriminate].
Qed.

Lemma loaded_known hp hc B m s : Loaded hp hc B s -> m <> "" -> known m B = true -> known m s = true.
Proof. intros L Hne Hk. unfold known in *. rewrite (L_core _ _ _ _ L m Hne Hk). exact Hk. Qed.

Lemma loaded_val hp hc B m n s : Loaded hp hc B s -> m <> "" -> known m B = true -> val m n s = val m n B.
Proof. intros L Hne Hk. unfold val. rewrite (L_core _ _ _ _ L m Hne Hk). reflexivity. Qed.

Lemma same_names_agree hp hc B s l :
  Loaded hp hc B s -> (forall k, In k core -> known k B = true) ->
  forallb (fun e => mem (fst (fst (fst e))) (tl core) && mem (snd (fst e)) (tl core)) l = true ->
  same_names B l = true -> agree s l.
Proof.
  intros L Kc Hc Hs m n t o Hin. assert (X := proj1 (forallb_forall _ _) Hs _ Hin). cbv beta iota in X.
  assert (Y := proj1 (forallb_forall _ _) Hc _ Hin). cbn [fst snd] in Y.
  apply andb_true_iff in Y. destruct Y as (H1 & H2). apply mem_in in H1. apply mem_in in H2.
  assert (N : forall k, In k (tl core) -> k <> "").
  { intros k Hk ->. cbn in Hk. repeat (destruct Hk as [Hk|Hk]; [discriminate|]). contradiction. }
  rewrite (loaded_val _ _ _ m n s L (N _ H1) (Kc _ (or_intror H1))).
  rewrite (loaded_val _ _ _ t o s L (N _ H2) (Kc _ (or_intror H2))).
  exact (same_val_eq _ _ X).
Qed.

Section Main.
  Variables pure watch hp hc : bool.
  Variable foreign : string -> list (string * string).
  Variable rank : string -> nat.
  Hypothesis Hlay : layered foreign rank.

  Lemma main_lemma fuel l :
    (forall m, In m l -> valid m /\ rank m + 20 <= fuel) ->
    exists s, imports pure watch hp hc foreign body_package fuel l start = Some (map (importable hp hc) l, s) /\
      Pre hp hc (base pure watch hp hc) s /\
      (forall k, known k s = true -> complete foreign k s) /\
      (forall m, In m l -> importable hp hc m = true -> complete foreign m s) /\
      (forall m, In m l -> is_foreign m = false -> Loaded hp hc (base pure watch hp hc) s).
  Proof.
    intro Hl.
    destruct (imports_any pure watch hp hc foreign (base pure watch hp hc)
      (base_run pure watch hp hc foreign) (base_keys pure watch hp hc) (base_known pure watch hp hc)
      (base_complete pure watch hp hc foreign) (base_takes pure watch hp hc) (base_package pure watch hp hc)
      (base_flags pure watch hp hc) (base_submodules pure watch hp hc) (base_ext pure watch hp hc)
      (base_outer pure watch hp hc) rank Hlay fuel l start Hl (or_introl start_fresh)) as (s & E & _ & H1 & H2 & H3 & H4).
    { intros k H. discriminate H. }
    exists s. auto.
  Qed.

  Lemma run_state fuel l oks s :
    (forall m, In m l -> valid m /\ rank m + 20 <= fuel) ->
    imports pure watch hp hc foreign body_package fuel l start = Some (oks, s) ->
    oks = map (importable hp hc) l /\ Pre hp hc (base pure watch hp hc) s /\
    (forall k, known k s = true -> complete foreign k s) /\
    (forall m, In m l -> importable hp hc m = true -> complete foreign m s) /\
    (forall m, In m l -> is_foreign m = false -> Loaded hp hc (base pure watch hp hc) s).
  Proof.
    intros Hl E. destruct (main_lemma fuel l Hl) as (s' & E' & H). rewrite E' in E. injection E as <- <-. auto.
  Qed.

  Lemma imports_lemma fuel l :
    (forall m, In m l -> valid m /\ rank m + 20 <= fuel) ->
    exists s, imports pure watch hp hc foreign body_package fuel l start = Some (map (importable hp hc) l, s) /\
      forall m, In m l -> importable hp hc m = true -> complete foreign m s.
  Proof. intro Hl. destruct (main_lemma fuel l Hl) as (s & E & _ & _ & H & _). exists s. auto. Qed.

  Lemma same_lemma fuel l oks s :
    (forall m, In m l -> valid m /\ rank m + 20 <= fuel) ->
    imports pure watch hp hc foreign body_package fuel l start = Some (oks, s) ->
    same_objects s.
  Proof.
    intros Hl E. destruct (run_state fuel l oks s Hl E) as (_ & Hp & _). intros m t n v Hin.
    destruct Hp as [(l' & -> & _)|L]; [destruct Hin|]. exact (proj2 (L_takes _ _ _ _ L m t n v Hin)).
  Qed.

  Lemma once_lemma fuel l oks s :
    (forall m, In m l -> valid m /\ rank m + 20 <= fuel) ->
    imports pure watch hp hc foreign body_package fuel l start = Some (oks, s) ->
    nested s = false /\ running s = 0 /\
    completed s = (if known "_zope_security_checker" s then 1 else 0).
  Proof.
    intros Hl E. destruct (run_state fuel l oks s Hl E) as (_ & Hp & _).
    destruct Hp as [Hf|L].
    - assert (Hk : known "_zope_security_checker" s = false).
      { destruct Hf as (l' & -> & Hl'). destruct (known "_zope_security_checker" (fr l' start)) eqn:K; [|reflexivity].
        assert (H := fresh_known l' _ Hl' K). discriminate H. }
      rewrite Hk. destruct Hf as (l' & -> & _). repeat split.
    - split; [exact (L_nested _ _ _ _ L)|]. split; [exact (L_running _ _ _ _ L)|exact (L_completed _ _ _ _ L)].
  Qed.

  Lemma effects_lemma fuel l oks s m :
    (forall m, In m l -> valid m /\ rank m + 20 <= fuel) ->
    imports pure watch hp hc foreign body_package fuel l start = Some (oks, s) ->
    In m l -> is_foreign m = false ->
    patched s = true /\ (forall k, In k core -> complete foreign k s) /\
    (pure = false -> hp = true -> forall n c, In (n, c) c_proxy ->
       val "proxy" n s = val "_proxy" c s /\ val "proxy" n s <> None) /\
    (pure = false -> hp = true -> hc = true ->
       completed s = 1 /\
       (forall n, In n shared -> val "checker" n s = val "_zope_security_checker" n s /\ val "checker" n s <> None) /\
       (watch = false -> val "checker" "Checker" s = val "_zope_security_checker" "Checker" s)).
  Proof.
    intros Hl E Hm Hf. destruct (run_state fuel l oks s Hl E) as (_ & _ & Hall & _ & HL). assert (L := HL m Hm Hf).
    split; [exact (L_patched _ _ _ _ L)|]. split.
    { intros k Hk. apply Hall. destruct (string_dec k "") as [->|Hne]; [exact (L_known _ _ _ _ L)|].
      apply (loaded_known _ _ _ k s L Hne). exact (proj1 (forallb_forall _ _) (base_known pure watch hp hc) k Hk). }
    assert (Kc : forall k, In k core -> known k (base pure watch hp hc) = true).
    { intros k Hk. exact (proj1 (forallb_forall _ _) (base_known pure watch hp hc) k Hk). }
    split.
    - intros Ep Eh n c Hn. assert (H : hp && negb pure = true) by (rewrite Ep, Eh; reflexivity).
      rewrite (loaded_val _ _ _ "proxy" _ s L); [|discriminate|apply Kc; cbn; tauto].
      rewrite (loaded_val _ _ _ "_proxy" _ s L); [|discriminate|rewrite (proj2 (base_ext pure watch hp hc)); exact H].
      exact (same_val_eq _ _ (proj1 (forallb_forall _ _) (base_proxy pure watch hp hc H) (n, c) Hn)).
    - intros Ep Eh Ec. assert (H : hp && hc && negb pure = true) by (rewrite Ep, Eh, Ec; reflexivity).
      assert (Kx : known "_zope_security_checker" (base pure watch hp hc) = true).
      { rewrite (proj1 (base_ext pure watch hp hc)). exact H. }
      assert (Hs := base_shared pure watch hp hc H).
      assert (Vc : forall n, val "checker" n s = val "checker" n (base pure watch hp hc)).
      { intro n. apply (loaded_val _ _ _ _ _ s L); [discriminate|apply Kc; cbn; tauto]. }
      assert (Vx : forall n, val "_zope_security_checker" n s = val "_zope_security_checker" n (base pure watch hp hc)).
      { intro n. apply (loaded_val _ _ _ _ _ s L); [discriminate|exact Kx]. }
      split; [|split].
      + rewrite (L_completed _ _ _ _ L), (loaded_known _ _ _ _ s L); [reflexivity|discriminate|exact Kx].
      + intros n Hn. rewrite Vc, Vx. apply same_val_eq.
        refine (proj1 (forallb_forall _ _) Hs n _). destruct watch; [exact Hn|right; exact Hn].
      + intro Ew. rewrite Vc, Vx. apply (fun X => proj1 (same_val_eq _ _ X)).
        refine (proj1 (forallb_forall _ _) Hs "Checker" _). rewrite Ew. left. reflexivity.
  Qed.

  Lemma names_lemma fuel l oks s m :
    (forall m, In m l -> valid m /\ rank m + 20 <= fuel) ->
    imports pure watch hp hc foreign body_package fuel l start = Some (oks, s) ->
    In m l -> is_foreign m = false ->
    agree s aliases /\
    (watch = true -> agree s watching) /\
    (watch = false -> hp && hc && negb pure = false -> agree s [("checker", "Checker", "checker", "CheckerPy")]) /\
    (hp && negb pure = false -> agree s python_proxy) /\
    (hp && hc && negb pure = false -> agree s [("checker", "selectChecker", "checker", "selectCheckerPy")]).
  Proof.
    intros Hl E Hm Hf. destruct (run_state fuel l oks s Hl E) as (_ & _ & Hall & _ & HL). assert (L := HL m Hm Hf).
    assert (Kc : forall k, In k core -> known k (base pure watch hp hc) = true).
    { intros k Hk. exact (proj1 (forallb_forall _ _) (base_known pure watch hp hc) k Hk). }
    split; [|split; [|split; [|split]]].
    - refine (same_names_agree _ _ _ s _ L Kc _ (base_names pure watch hp hc)). reflexivity.
    - intro Ew. refine (same_names_agree _ _ _ s _ L Kc _ (base_watching pure watch hp hc Ew)). reflexivity.
    - intros Ew Eh. refine (same_names_agree _ _ _ s _ L Kc _ (base_python pure watch hp hc Ew Eh)). reflexivity.
    - intros Eh. refine (same_names_agree _ _ _ s _ L Kc _ (base_python_proxy pure watch hp hc Eh)). reflexivity.
    - intros Eh. refine (same_names_agree _ _ _ s _ L Kc _ (base_python_select pure watch hp hc Eh)). reflexivity.
  Qed.
End Main.
