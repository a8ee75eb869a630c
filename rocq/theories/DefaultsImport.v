(** * DefaultsImport: the registry after import. *)

From Coq Require Import List String Bool Arith ZArith Lia.
From Verif Require Import Base Domain CheckerModel ProxyModel MFacts Spec RegSpec
  TableFacts Defaults DefaultsSpec DefaultsFacts.
Import ListNotations.
Open Scope string_scope.
Open Scope m_scope.
Local Arguments String.eqb : simpl never.

(** ** The fixups *)

Lemma add_if_absent_get v d t k :
  dget rkey_eqb (add_if_absent v d t) k =
  match dget rkey_eqb d k with
  | Some x => Some x
  | None => if rkey_eqb (KType t) k then Some v else None
  end.
Proof.
  unfold add_if_absent. destruct (dget rkey_eqb d (KType t)) as [x|] eqn:Ht.
  - destruct (dget rkey_eqb d k) eqn:Hk; [reflexivity|].
    destruct (rkey_eqb_spec (KType t) k) as [<-|]; [congruence|reflexivity].
  - rewrite (dget_dset _ rkey_eqb_spec).
    destruct (rkey_eqb_spec (KType t) k) as [<-|]; [rewrite Ht; reflexivity|].
    destruct (dget rkey_eqb d k); reflexivity.
Qed.

Lemma add_all_get v ts d k :
  dget rkey_eqb (fold_left (add_if_absent v) ts d) k =
  match dget rkey_eqb d k with
  | Some x => Some x
  | None => if existsb (fun t => rkey_eqb (KType t) k) ts then Some v else None
  end.
Proof.
  revert d. induction ts as [|t ts IH]; intros d; cbn [fold_left existsb].
  - destruct (dget rkey_eqb d k); reflexivity.
  - rewrite IH, add_if_absent_get. destruct (dget rkey_eqb d k); [reflexivity|].
    destruct (rkey_eqb (KType t) k); reflexivity.
Qed.

Lemma add_all_NoDup v ts d :
  NoDup (map fst d) -> NoDup (map fst (fold_left (add_if_absent v) ts d)).
Proof.
  revert d. induction ts as [|t ts IH]; intros d H; simpl; auto.
  apply IH. unfold add_if_absent. destruct (dget rkey_eqb d (KType t)); auto.
  apply (NoDup_dset _ rkey_eqb_spec); auto.
Qed.

Lemma type_in_iff t ts :
  existsb (fun t0 => rkey_eqb (KType t0) (KType t)) ts = true <-> In t ts.
Proof.
  rewrite existsb_exists. split.
  - intros (x & Hx & He). destruct (rkey_eqb_spec (KType x) (KType t)); congruence.
  - intros H. exists t. split; [exact H|]. destruct (rkey_eqb_spec (KType t) (KType t)); congruence.
Qed.

(** The registry after import: entry by entry. *)
Definition AfterImport (pf : platform) (s : state) (it : value) (lit : list (rkey * value)) : Prop :=
  forall k, dget rkey_eqb (st_reg s) k =
    match k with
    | KType t =>
        if in_dec string_dec t (rock_types pf) then Some VNoProxy
        else if in_dec string_dec t ["Implements"; "ProvidesClass"] then Some VNoProxy
        else match dget rkey_eqb lit k with
             | Some v => Some v
             | None => if in_dec string_dec t (found_types pf) then Some it else None
             end
    | _ => None
    end.

Lemma basic_get pf t :
  dget rkey_eqb (dupdate rkey_eqb [] (basic_types pf)) (KType t) =
  if in_dec string_dec t (rock_types pf) then Some VNoProxy else None.
Proof.
  rewrite (dget_dupdate _ rkey_eqb_spec).
  assert (H : forall l, dget rkey_eqb (rev (map (fun t => (KType t, VNoProxy)) l)) (KType t) =
                        if in_dec string_dec t l then Some VNoProxy else None).
  { intros l. rewrite <- map_rev.
    assert (Hr : forall l, dget rkey_eqb (map (fun t => (KType t, VNoProxy)) l) (KType t) =
                           if in_dec string_dec t l then Some VNoProxy else None).
    { clear l. induction l as [|x l IH]; [reflexivity|]. cbn [map dget].
      destruct (rkey_eqb_spec (KType x) (KType t)) as [Hx|Hx].
      - injection Hx as ->. destruct (in_dec string_dec t (t :: l)) as [|Hn]; [reflexivity|].
        exfalso. apply Hn. left. reflexivity.
      - rewrite IH. destruct (in_dec string_dec t l) as [Hi|Hi];
          destruct (in_dec string_dec t (x :: l)) as [Hj|Hj]; auto.
        + exfalso. apply Hj. right. exact Hi.
        + exfalso. destruct Hj as [->|Hj]; [congruence|auto]. }
    rewrite Hr. destruct (in_dec string_dec t (rev l)) as [Hi|Hi];
      destruct (in_dec string_dec t l) as [Hj|Hj]; auto.
    - exfalso. apply Hj, in_rev. exact Hi.
    - exfalso. apply Hi. apply in_rev in Hj. exact Hj. }
  assert (Hb : basic_types pf = map (fun t => (KType t, VNoProxy)) (rock_types pf)).
  { unfold basic_types, rock_types. rewrite map_app. destruct (pf_pytz pf); reflexivity. }
  rewrite Hb, H. destruct (in_dec string_dec t (rock_types pf)); reflexivity.
Qed.

Lemma basic_get_other pf k :
  (forall t, k <> KType t) ->
  dget rkey_eqb (dupdate rkey_eqb [] (basic_types pf)) k = None.
Proof.
  intros Hk. apply (dget_None _ rkey_eqb_spec). intros Hin.
  unfold basic_types in Hin. destruct (pf_pytz pf); cbv in Hin;
    repeat (destruct Hin as [Hin|Hin]; [symmetry in Hin; exact (Hk _ Hin)|]); exact Hin.
Qed.

Lemma dget_update_NoDup (d : list (rkey * value)) k :
  NoDup (map fst d) -> dget rkey_eqb (dupdate rkey_eqb [] d) k = dget rkey_eqb d k.
Proof.
  intros Hnd. rewrite (dget_dupdate _ rkey_eqb_spec). simpl.
  destruct (dget rkey_eqb d k) as [v|] eqn:Hk.
  - apply (dget_In _ rkey_eqb_spec) in Hk.
    rewrite (dget_NoDup_In _ rkey_eqb_spec (rev d) k v); [reflexivity| |].
    + rewrite map_rev. apply NoDup_rev. exact Hnd.
    + apply in_rev in Hk. exact Hk.
  - apply (dget_None _ rkey_eqb_spec) in Hk.
    assert (Hr : dget rkey_eqb (rev d) k = None).
    { apply (dget_None _ rkey_eqb_spec). rewrite map_rev. intros Hin. apply Hk, in_rev. exact Hin. }
    rewrite Hr. reflexivity.
Qed.

Definition fixed (pf : platform) (it : value) (lit : list (rkey * value)) : list (rkey * value) :=
  fixup_itertools pf it (fixup_zope_interface (fixup_btrees pf it
    (fixup_dictlike it (pf_dictlike pf) lit))).

Lemma fixed_NoDup pf it lit : NoDup (map fst lit) -> NoDup (map fst (fixed pf it lit)).
Proof.
  intros H. unfold fixed, fixup_itertools. apply add_all_NoDup.
  unfold fixup_zope_interface. apply (NoDup_dset _ rkey_eqb_spec), (NoDup_dset _ rkey_eqb_spec).
  unfold fixup_btrees, fixup_dictlike. destruct (pf_btrees pf).
  - apply add_all_NoDup, (NoDup_dset _ rkey_eqb_spec), add_all_NoDup, H.
  - apply add_all_NoDup, H.
Qed.

Lemma fixed_get pf it lit t :
  (forall v, dget rkey_eqb lit (KType "BTrees._base._TreeItems") = Some v -> False) ->
  dget rkey_eqb (fixed pf it lit) (KType t) =
  if in_dec string_dec t ["Implements"; "ProvidesClass"] then Some VNoProxy
  else match dget rkey_eqb lit (KType t) with
       | Some v => Some v
       | None => if in_dec string_dec t (found_types pf) then Some it else None
       end.
Proof.
  intros Hbt. unfold fixed, fixup_itertools. rewrite add_all_get.
  unfold fixup_zope_interface. rewrite !(dget_dset _ rkey_eqb_spec).
  destruct (in_dec string_dec t ["Implements"; "ProvidesClass"]) as [Hi|Hi].
  { destruct Hi as [<-|[<-|[]]]; reflexivity. }
  destruct (rkey_eqb_spec (KType "ProvidesClass") (KType t)) as [H1|H1].
  { exfalso. apply Hi. injection H1 as <-. right; left; reflexivity. }
  destruct (rkey_eqb_spec (KType "Implements") (KType t)) as [H2|H2].
  { exfalso. apply Hi. injection H2 as <-. left; reflexivity. }
  assert (Hex : forall l, existsb (fun t0 => rkey_eqb (KType t0) (KType t)) l =
                          if in_dec string_dec t l then true else false).
  { intros l. destruct (in_dec string_dec t l) as [Hl|Hl].
    - apply type_in_iff. exact Hl.
    - apply not_true_iff_false. rewrite type_in_iff. exact Hl. }
  assert (Hd : dget rkey_eqb (fixup_btrees pf it (fixup_dictlike it (pf_dictlike pf) lit)) (KType t) =
    match dget rkey_eqb lit (KType t) with
    | Some v => Some v
    | None => if in_dec string_dec t (pf_dictlike pf ++ match pf_btrees pf with
                     | Some l => "BTrees._base._TreeItems" :: l | None => [] end)%list
              then Some it else None
    end).
  { unfold fixup_btrees, fixup_dictlike. destruct (pf_btrees pf) as [l|].
    - rewrite add_all_get, (dget_dset _ rkey_eqb_spec), add_all_get, !Hex.
      destruct (rkey_eqb_spec (KType "BTrees._base._TreeItems") (KType t)) as [Ht|Ht].
      + injection Ht as <-.
        destruct (dget rkey_eqb lit (KType "BTrees._base._TreeItems")) as [v|] eqn:Hl.
        { destruct (Hbt v eq_refl). }
        destruct (in_dec string_dec _ _) as [_|Hn]; [reflexivity|].
        exfalso. apply Hn. apply in_or_app. right. left. reflexivity.
      + destruct (dget rkey_eqb lit (KType t)); [reflexivity|].
        destruct (in_dec string_dec t (pf_dictlike pf)) as [H3|H3];
          destruct (in_dec string_dec t l) as [H4|H4];
          destruct (in_dec string_dec t (pf_dictlike pf ++ "BTrees._base._TreeItems" :: l)%list)
            as [H5|H5]; auto;
          try (exfalso; apply H5, in_or_app; simpl; tauto).
        exfalso. apply in_app_or in H5. simpl in H5. destruct H5 as [H5|[H5|H5]]; auto.
        apply Ht. congruence.
    - rewrite add_all_get, Hex, app_nil_r.
      destruct (in_dec string_dec t (pf_dictlike pf)); reflexivity. }
  rewrite Hd, Hex. clear Hd Hex. destruct (dget rkey_eqb lit (KType t)); [reflexivity|].
  unfold found_types.
  destruct (in_dec string_dec t (pf_dictlike pf ++ _)%list) as [H3|H3];
    destruct (in_dec string_dec t (pf_itertools pf)) as [H4|H4];
    destruct (in_dec string_dec t (pf_dictlike pf ++ _ ++ pf_itertools pf)%list) as [H5|H5]; auto;
    exfalso; rewrite ?in_app_iff in *; tauto.
Qed.

Lemma fixed_other pf it lit k :
  (forall t, k <> KType t) -> (forall v, dget rkey_eqb lit k <> Some v) ->
  dget rkey_eqb (fixed pf it lit) k = None.
Proof.
  intros Hk Hl.
  assert (Hf : forall ts, existsb (fun t0 => rkey_eqb (KType t0) k) ts = false).
  { intros ts. apply not_true_iff_false. rewrite existsb_exists. intros (x & _ & Hx).
    destruct (rkey_eqb_spec (KType x) k) as [He|]; [exact (Hk x (eq_sym He))|discriminate]. }
  assert (Hs : forall (d : list (rkey * value)) t v, dget rkey_eqb (dset rkey_eqb d (KType t) v) k = dget rkey_eqb d k).
  { intros d t v. rewrite (dget_dset _ rkey_eqb_spec).
    destruct (rkey_eqb_spec (KType t) k) as [He|]; [destruct (Hk t (eq_sym He))|reflexivity]. }
  assert (Hn : dget rkey_eqb lit k = None).
  { destruct (dget rkey_eqb lit k) as [v|] eqn:H; [destruct (Hl v eq_refl)|reflexivity]. }
  unfold fixed, fixup_itertools, fixup_zope_interface, fixup_btrees, fixup_dictlike.
  rewrite add_all_get, Hf, !Hs.
  destruct (pf_btrees pf); rewrite !add_all_get, ?Hs, ?add_all_get, Hn, !Hf; reflexivity.
Qed.

Lemma no_tree_items pf : ~ In "BTrees._base._TreeItems" (map fst (lit_spec pf)).
Proof.
  cbv [map fst lit_spec]. intros Hin.
  repeat (destruct Hin as [Hin|Hin]; [discriminate Hin|]). exact Hin.
Qed.

Lemma import_lemma E pf s :
  e_watch E = 0 -> 3 <= st_next s ->
  exists it lit s', import_checker E pf s = (Ok (fixed pf it lit), s', []) /\
    Grow only_named s s' /\ Literal pf s' it lit /\ AfterImport pf s' it lit.
Proof.
  intros Hw Hn.
  destruct (literal_lemma E pf (set_reg [] s) Hw Hn) as (it & lit & s1 & HR & HG & HL).
  exists it, lit.
  eexists. split.
  { unfold import_checker. unfold bind at 1. unfold get at 1.
    unfold bind at 1. unfold put at 1.
    unfold default_checkers. rewrite bind_assoc, (bind_ok _ _ _ _ _ _ HR). reflexivity. }
  split; [exact HG|]. split; [exact HL|].
  destruct HL as (_ & Hnd & _ & _ & _ & _ & Hall).
  intros k. cbn [st_reg set_reg].
  change (dget rkey_eqb (dupdate rkey_eqb (dupdate rkey_eqb [] (fixed pf it lit))
            (dupdate rkey_eqb [] (basic_types pf))) k = 
          match k with
          | KType t =>
              if in_dec string_dec t (rock_types pf) then Some VNoProxy
              else if in_dec string_dec t ["Implements"; "ProvidesClass"] then Some VNoProxy
              else match dget rkey_eqb lit k with
                   | Some v => Some v
                   | None => if in_dec string_dec t (found_types pf) then Some it else None
                   end
          | _ => None
          end).
  assert (Hup : forall b d : list (rkey * value), NoDup (map fst b) ->
    dget rkey_eqb (dupdate rkey_eqb d b) k =
    match dget rkey_eqb b k with Some v => Some v | None => dget rkey_eqb d k end).
  { intros b d Hb. rewrite (dget_dupdate _ rkey_eqb_spec).
    assert (Hx := dget_update_NoDup b k Hb). rewrite (dget_dupdate _ rkey_eqb_spec) in Hx.
    cbn [dget] in Hx.
    destruct (dget rkey_eqb (rev b) k); destruct (dget rkey_eqb b k); try congruence;
      try discriminate; reflexivity. }
  rewrite Hup.
  2:{ unfold dupdate, basic_types. destruct (pf_pytz pf); cbv -[In not];
        repeat constructor; simpl; intuition discriminate. }
  rewrite (dget_update_NoDup (fixed pf it lit)) by (apply fixed_NoDup; exact Hnd).
  destruct k as [t|m|j].
  - rewrite basic_get. destruct (in_dec string_dec t (rock_types pf)); [reflexivity|].
    rewrite fixed_get; [reflexivity|].
    intros v Hv. apply Hall in Hv.
    destruct Hv as [[Hv _]|[[Hv _]|(t0 & ns & Hv & Hin)]]; [discriminate|discriminate|].
    injection Hv as <-. apply (in_map fst) in Hin. revert Hin. apply no_tree_items.
  - rewrite basic_get_other by discriminate. apply fixed_other; [discriminate|].
    intros v Hv. apply Hall in Hv.
    destruct Hv as [[Hv _]|[[Hv _]|(t0 & ns & Hv & Hin)]]; discriminate.
  - rewrite basic_get_other by discriminate. apply fixed_other; [discriminate|].
    intros v Hv. apply Hall in Hv.
    destruct Hv as [[Hv _]|[[Hv _]|(t0 & ns & Hv & Hin)]]; discriminate.
Qed.
