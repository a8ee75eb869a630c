(** * DeclThreadFacts: concurrent declarations are serializable. *)

From Coq Require Import List String Bool Arith Lia.
From Verif Require Import Base Domain CheckerModel MFacts RegistryFacts Protect ProtectSpec
  ProtectFacts DeclThreads DeclThreadSpec.
Import ListNotations.
Open Scope string_scope.

(** ** States *)

Lemma leaves_live s s1 : registry_wf s -> leaves_tables s s1 -> forall k i c,
  live s1 k i c <-> live s k i c.
Proof.
  intros Hw (Hr & _ & Hi) k i c. unfold live. rewrite Hr. split; intros [H1 H2]; (split; [exact H1|]);
    destruct (Hw k i H1) as (Hn & _); destruct (Hi i Hn) as [Hc _]; congruence.
Qed.

Lemma leaves_wf s s1 : registry_wf s -> leaves_tables s s1 -> registry_wf s1.
Proof.
  intros Hw (Hr & Hn & Hi) k i H. rewrite Hr in H.
  destruct (Hw k i H) as (Hlt & c & Hc & Hg & Hs & N1 & N2). split; [lia|].
  exists c. split; [rewrite (proj1 (Hi i Hlt)); exact Hc|]. split; [lia|]. split; [lia|].
  rewrite (proj2 (Hi _ Hg)), (proj2 (Hi _ Hs)). split; assumption.
Qed.

Lemma leaves_read s s1 : registry_wf s -> leaves_tables s s1 -> forall k n,
  read_protection s1 k n = read_protection s k n.
Proof.
  intros Hw (Hr & Hn & Hi) k n. unfold read_protection. rewrite Hr.
  destruct (dget rkey_eqb (st_reg s) k) as [[]|] eqn:He; try reflexivity.
  destruct (Hw k _ He) as (Hlt & c' & Hc & Hg & _). rewrite (proj1 (Hi _ Hlt)), Hc, (proj2 (Hi _ Hg)).
  reflexivity.
Qed.

Lemma leaves_write s s1 : registry_wf s -> leaves_tables s s1 -> forall k n,
  write_protection s1 k n = write_protection s k n.
Proof.
  intros Hw (Hr & Hn & Hi) k n. unfold write_protection. rewrite Hr.
  destruct (dget rkey_eqb (st_reg s) k) as [[]|] eqn:He; try reflexivity.
  destruct (Hw k _ He) as (Hlt & c' & Hc & _ & Hg & _).
  rewrite (proj1 (Hi _ Hlt)), Hc, (proj2 (Hi _ Hg)). reflexivity.
Qed.

Lemma leaves_unshared s s1 k : registry_wf s -> leaves_tables s s1 -> unshared s k -> unshared s1 k.
Proof.
  intros Hw Hl Hu i c H. apply (leaves_live s s1 Hw Hl) in H. destruct (Hu i c H) as [H1 H2].
  split; [exact H1|]. intros k' i' c' Hk H'. apply (leaves_live s s1 Hw Hl) in H'. eauto.
Qed.

Lemma new_leaves E s : leaves_tables s (new_checker E s).
Proof.
  split; [reflexivity|]. simpl. split; [lia|]. intros i Hi. rewrite !upd_ne by lia. split; reflexivity.
Qed.

Section Serial.
  Variable E : env.
  Variable s0 : state.
  Variable ds : id -> list decl.
  Hypothesis Hsingle : forall t d, In d (ds t) -> single d.
  Hypothesis Hclass : forall t d, In d (ds t) -> is_class_or_module (target d).
  Hypothesis Hrace : no_race ds s0.

  (** A new checker that is not registered yet. *)
  Definition Pending (s : state) (m : id) : Prop :=
    S (S m) < st_next s /\
    st_chks s (S (S m)) = Some (mkChecker m (S m) (Checker_class E)) /\
    st_dicts s m = [] /\ st_dicts s (S m) = [] /\
    forall k i c, live s k i c ->
      i <> S (S m) /\ ck_get c <> m /\ ck_get c <> S m /\ ck_set c <> m /\ ck_set c <> S m.

  Definition mk (w : bool) (k : rkey) (n : name) (q : perm) : decl :=
    if w then DSet k n q else DName k n q.

  Definition none (s : state) (k : rkey) : Prop := dget rkey_eqb (st_reg s) k = None.

  (** Where a thread is, given what it has still to do. *)
  Inductive At (s : state) : option id -> dprog (res unit) -> list decl -> Prop :=
  | At_start rest : At s None (p_decls rest) rest
  | At_new w k n q rest : none s k ->
      At s None
        (tbind (tbind (p_new_checker k) (fun c => p_store w c n q)) (fun _ => p_decls rest))
        (mk w k n q :: rest)
  | At_check w k n q m rest : none s k ->
      At s (Some m)
        (tbind (tbind (tbind (p_defineChecker k (VChk (S (S m)))) (fun _ => DRet (Ok (VChk (S (S m))))))
           (fun c => p_store w c n q)) (fun _ => p_decls rest))
        (mk w k n q :: rest)
  | At_set w k n q m rest : none s k ->
      At s (Some m)
        (tbind (tbind (tbind (DSetReg k (VChk (S (S m))) (DRet (Ok tt)))
                  (fun _ => DRet (Ok (VChk (S (S m))))))
           (fun c => p_store w c n q)) (fun _ => p_decls rest))
        (mk w k n q :: rest)
  | At_table w k n q i c rest : live s k i c ->
      At s None (tbind (p_store w (VChk i) n q) (fun _ => p_decls rest)) (mk w k n q :: rest)
  | At_put (w : bool) k n q i c rest : live s k i c ->
      At s None
        (DPut (if w then ck_set c else ck_get c) n (translate q) (p_decls rest))
        (mk w k n q :: rest).

  Definition T (k : rkey) : Prop := exists t d, In d (ds t) /\ target d = k.

  Record Inv (c : id -> dprog (res unit)) (s : state) (o : list (id * decl))
         (pend : id -> option id) (rest : id -> list decl) : Prop := {
    i_wf : registry_wf s;
    i_plain : forall k, T k -> plain_entry s k;
    i_unshared : forall k, T k -> unshared s k;
    i_grow : forall k v, dget rkey_eqb (st_reg s0) k = Some v -> dget rkey_eqb (st_reg s) k = Some v;
    i_order : declared_in_order (map snd o) s0 s;
    i_rest : forall t, ds t = (part_of t o ++ rest t)%list;
    i_at : forall t, At s (pend t) (c t) (rest t);
    i_pend : forall t m, pend t = Some m -> Pending s m;
    i_apart : forall t t' m m', t <> t' -> pend t = Some m -> pend t' = Some m' ->
                m + 3 <= m' \/ m' + 3 <= m
  }.

  Lemma rest_T c s o pend rest t d l : Inv c s o pend rest -> rest t = d :: l ->
    In d (ds t) /\ T (target d).
  Proof.
    intros H He. assert (Hi : In d (ds t)).
    { rewrite (i_rest _ _ _ _ _ H t), He. apply in_or_app. right. left. reflexivity. }
    split; [exact Hi|]. exists t, d. auto.
  Qed.

  (** ** Moves that leave the tables alone *)

  Lemma At_leaves s s1 o p rest : registry_wf s -> leaves_tables s s1 ->
    At s o p rest -> At s1 o p rest.
  Proof.
    intros Hw Hl H. assert (Hr : st_reg s1 = st_reg s) by apply Hl.
    destruct H; econstructor; unfold none in *; rewrite ?Hr; eauto;
      apply (leaves_live s s1 Hw Hl); eassumption.
  Qed.

  Lemma Pending_leaves s s1 m : registry_wf s -> leaves_tables s s1 -> Pending s m -> Pending s1 m.
  Proof.
    intros Hw Hl (H1 & H2 & H3 & H4 & H5). assert (Hl' := Hl). destruct Hl' as (_ & Hn & Hi).
    split; [lia|]. rewrite (proj1 (Hi (S (S m)) H1)).
    rewrite (proj2 (Hi m ltac:(lia))), (proj2 (Hi (S m) ltac:(lia))).
    repeat (split; [assumption|]). intros k i c H. apply (H5 k).
    apply (leaves_live s s1 Hw Hl). exact H.
  Qed.

  (** Moves of thread [t] that leave the tables alone. *)
  Lemma Inv_leaves c s o pend rest s1 : leaves_tables s s1 ->
    Inv c s o pend rest -> Inv c s1 o pend rest.
  Proof.
    intros Hl H. assert (Hw := i_wf _ _ _ _ _ H). assert (Hr : st_reg s1 = st_reg s) by apply Hl.
    constructor.
    - exact (leaves_wf s s1 Hw Hl).
    - intros k Hk. unfold plain_entry. rewrite Hr. exact (i_plain _ _ _ _ _ H k Hk).
    - intros k Hk. apply (leaves_unshared s s1 k Hw Hl). exact (i_unshared _ _ _ _ _ H k Hk).
    - intros k v Hk. rewrite Hr. exact (i_grow _ _ _ _ _ H k v Hk).
    - destruct (i_order _ _ _ _ _ H) as [H1 H2]. split; intros k n.
      + rewrite (leaves_read s s1 Hw Hl). apply H1.
      + rewrite (leaves_write s s1 Hw Hl). apply H2.
    - exact (i_rest _ _ _ _ _ H).
    - intros t. apply (At_leaves s s1 _ _ _ Hw Hl). exact (i_at _ _ _ _ _ H t).
    - intros t m Hp. apply (Pending_leaves s s1 m Hw Hl). exact (i_pend _ _ _ _ _ H t m Hp).
    - exact (i_apart _ _ _ _ _ H).
  Qed.

  (** A thread moves on without changing anything. *)
  Lemma Inv_at c s o pend rest t p : Inv c s o pend rest ->
    At s (pend t) p (rest t) -> Inv (upd c t p) s o pend rest.
  Proof.
    intros H Ha. destruct H. constructor; try assumption.
    intros t'. destruct (Nat.eq_dec t' t) as [->|Hne]; [rewrite upd_eq|rewrite upd_ne by exact Hne]; auto.
  Qed.

  (** ** Allocation *)
  Lemma Inv_new c s o pend rest t w k n q l : Inv c s o pend rest ->
    pend t = None -> rest t = mk w k n q :: l -> none s k ->
    Inv (upd c t (tbind (tbind (tbind (p_defineChecker k (VChk (S (S (st_next s)))))
                          (fun _ => DRet (Ok (VChk (S (S (st_next s)))))))
           (fun c => p_store w c n q)) (fun _ => p_decls l)))
        (new_checker E s) o (upd pend t (Some (st_next s))) rest.
  Proof.
    intros H Hp Hr Hn. assert (Hw := i_wf _ _ _ _ _ H).
    assert (H1 := Inv_leaves c s o pend rest _ (new_leaves E s) H).
    assert (HP : Pending (new_checker E s) (st_next s)).
    { split; [simpl; lia|]. split; [simpl; apply upd_eq|].
      split; [simpl; rewrite upd_ne, upd_eq by lia; reflexivity|].
      split; [simpl; apply upd_eq|]. intros k' i c' Hl.
      apply (leaves_live s _ Hw (new_leaves E s)) in Hl. destruct Hl as [L1 L2].
      destruct (Hw k' i L1) as (Hi & c2 & Hc2 & Hg & Hs & _).
      assert (c2 = c') by congruence. subst. lia. }
    constructor.
    - exact (i_wf _ _ _ _ _ H1).
    - exact (i_plain _ _ _ _ _ H1).
    - exact (i_unshared _ _ _ _ _ H1).
    - exact (i_grow _ _ _ _ _ H1).
    - exact (i_order _ _ _ _ _ H1).
    - exact (i_rest _ _ _ _ _ H1).
    - intros t'. destruct (Nat.eq_dec t' t) as [->|Hne].
      + rewrite !upd_eq, Hr. constructor. exact Hn.
      + rewrite !upd_ne by exact Hne. exact (i_at _ _ _ _ _ H1 t').
    - intros t' m. destruct (Nat.eq_dec t' t) as [->|Hne].
      + rewrite upd_eq. intros [= <-]. exact HP.
      + rewrite upd_ne by exact Hne. exact (i_pend _ _ _ _ _ H1 t' m).
    - assert (HQ : forall t' m, t' <> t -> pend t' = Some m -> m + 3 <= st_next s).
      { intros t' m _ Hm. destruct (i_pend _ _ _ _ _ H t' m Hm) as [Hlt _]. lia. }
      intros t1 t2 m1 m2 Hne. destruct (Nat.eq_dec t1 t) as [->|N1]; [rewrite upd_eq|rewrite upd_ne by exact N1];
        (destruct (Nat.eq_dec t2 t) as [->|N2]; [rewrite ?upd_eq|rewrite ?(upd_ne pend t2) by exact N2]).
      + congruence.
      + rewrite upd_ne by exact N2. intros [= <-] Hm. right. exact (HQ t2 m2 N2 Hm).
      + intros Hm [= <-]. left. exact (HQ t1 m1 N1 Hm).
      + rewrite upd_ne by exact N2. intros Ha Hb. exact (i_apart _ _ _ _ _ H t1 t2 m1 m2 Hne Ha Hb).
  Qed.

  (** ** Registration *)
  Lemma Inv_register c s o pend rest t w k n q l m : Inv c s o pend rest ->
    pend t = Some m -> rest t = mk w k n q :: l -> none s k ->
    Inv (upd c t (tbind (p_store w (VChk (S (S m))) n q) (fun _ => p_decls l)))
        (set_reg (dset rkey_eqb (st_reg s) k (VChk (S (S m)))) s) o (upd pend t None) rest.
  Proof.
    intros H Hp Hr Hn. assert (Hw := i_wf _ _ _ _ _ H).
    destruct (i_pend _ _ _ _ _ H t m Hp) as (P1 & P2 & P3 & P4 & P5).
    set (i := S (S m)) in *. set (ch := mkChecker m (S m) (Checker_class E)) in *.
    set (s1 := set_reg (dset rkey_eqb (st_reg s) k (VChk i)) s).
    assert (Hg : forall k', dget rkey_eqb (st_reg s1) k' =
                   if rkey_eqb k k' then Some (VChk i) else dget rkey_eqb (st_reg s) k').
    { intros k'. apply rdget_dset. }
    assert (Hnew : live s1 k i ch).
    { split; [rewrite Hg, (dict_eqb_refl rkey_eqb rkey_eqb_spec); reflexivity|exact P2]. }
    assert (Hold : forall k' i' c', live s1 k' i' c' -> k' <> k -> live s k' i' c').
    { intros k' i' c' [L1 L2] Hne. rewrite Hg in L1. destruct (rkey_eqb_spec k k') as [->|_]; [congruence|].
      split; assumption. }
    assert (Hkeep : forall k' i' c', live s k' i' c' -> live s1 k' i' c').
    { intros k' i' c' [L1 L2]. split; [|exact L2]. rewrite Hg.
      destruct (rkey_eqb_spec k k') as [->|_]; [|exact L1]. unfold none in Hn. congruence. }
    destruct (rest_T _ _ _ _ _ t _ _ H Hr) as [Hin HT].
    assert (Htk : target (mk w k n q) = k) by (destruct w; reflexivity). rewrite Htk in HT.
    assert (Hread : forall k' n', read_protection s1 k' n' = read_protection s k' n').
    { intros k' n'. destruct (rkey_eqb_spec k k') as [<-|Hne].
      - rewrite (read_live s1 k i ch n' Hnew). unfold read_protection. unfold none in Hn. rewrite Hn.
        change (dget String.eqb (st_dicts s m) n' = None). rewrite P3. reflexivity.
      - unfold read_protection. rewrite Hg. destruct (rkey_eqb_spec k k'); [congruence|reflexivity]. }
    assert (Hwrite : forall k' n', write_protection s1 k' n' = write_protection s k' n').
    { intros k' n'. destruct (rkey_eqb_spec k k') as [<-|Hne].
      - rewrite (write_live s1 k i ch n' Hnew). unfold write_protection. unfold none in Hn. rewrite Hn.
        change (dget String.eqb (st_dicts s (S m)) n' = None). rewrite P4. reflexivity.
      - unfold write_protection. rewrite Hg. destruct (rkey_eqb_spec k k'); [congruence|reflexivity]. }
    constructor.
    - intros k' i' Hk'. rewrite Hg in Hk'. destruct (rkey_eqb_spec k k') as [<-|Hne].
      + injection Hk' as <-. split; [exact P1|]. exists ch. split; [exact P2|].
        change (m < st_next s /\ S m < st_next s /\ NoDup (map fst (st_dicts s m)) /\
                NoDup (map fst (st_dicts s (S m)))).
        rewrite P3, P4. unfold i in P1. split; [lia|]. split; [lia|]. split; constructor.
      + exact (Hw k' i' Hk').
    - intros k' Hk'. unfold plain_entry. rewrite Hg. destruct (rkey_eqb k k'); [right; eexists; reflexivity|].
      exact (i_plain _ _ _ _ _ H k' Hk').
    - intros k' Hk' i' c' Hl. destruct (rkey_eqb_spec k' k) as [->|Hne].
      + destruct (live_unique _ _ _ _ _ _ Hnew Hl) as [_ ->]. split; [simpl; lia|].
        intros k2 i2 c2 Hne2 Hl2. apply Hold in Hl2; [|exact Hne2].
        destruct (P5 k2 i2 c2 Hl2) as (_ & Q1 & Q2 & Q3 & Q4). simpl. auto.
      + assert (Hl0 := Hold k' i' c' Hl Hne). destruct (i_unshared _ _ _ _ _ H k' Hk' i' c' Hl0) as [U1 U2].
        split; [exact U1|]. intros k2 i2 c2 Hne2 Hl2. destruct (rkey_eqb_spec k2 k) as [->|Hk2].
        * destruct (live_unique _ _ _ _ _ _ Hnew Hl2) as [_ ->].
          destruct (P5 k' i' c' Hl0) as (_ & Q1 & Q2 & Q3 & Q4). simpl. auto.
        * exact (U2 k2 i2 c2 Hne2 (Hold _ _ _ Hl2 Hk2)).
    - intros k' v Hk'. rewrite Hg. destruct (rkey_eqb_spec k k') as [<-|Hne].
      + apply (i_grow _ _ _ _ _ H) in Hk'. unfold none in Hn. congruence.
      + exact (i_grow _ _ _ _ _ H k' v Hk').
    - destruct (i_order _ _ _ _ _ H) as [O1 O2]. split; intros k' n'; [rewrite Hread|rewrite Hwrite]; auto.
    - exact (i_rest _ _ _ _ _ H).
    - intros t'. destruct (Nat.eq_dec t' t) as [->|Hne].
      + rewrite !upd_eq, Hr. apply (At_table s1 w k n q i ch l Hnew).
      + rewrite !upd_ne by exact Hne. assert (Ha := i_at _ _ _ _ _ H t').
        assert (Hother : forall w' k' n' q' l', rest t' = mk w' k' n' q' :: l' -> none s k' -> none s1 k').
        { intros w' k' n' q' l' Hr' Hn'. unfold none. rewrite Hg.
          destruct (rkey_eqb_spec k k') as [<-|_]; [|exact Hn'].
          destruct (rest_T _ _ _ _ _ t' _ _ H Hr') as [Hin' _].
          destruct (Hrace t t' _ _ Hin Hin') as [i' Hi']; [rewrite Htk; destruct w'; reflexivity|auto|].
          rewrite Htk in Hi'. apply (i_grow _ _ _ _ _ H) in Hi'. unfold none in Hn. congruence. }
        remember (rest t') as r. destruct Ha; econstructor; eauto.
    - intros t' m'. destruct (Nat.eq_dec t' t) as [->|Hne]; [rewrite upd_eq; discriminate|].
      rewrite upd_ne by exact Hne. intros Hm'.
      destruct (i_pend _ _ _ _ _ H t' m' Hm') as (Q1 & Q2 & Q3 & Q4 & Q5).
      do 4 (split; [assumption|]). intros k' i' c' Hl.
      destruct (rkey_eqb_spec k' k) as [->|Hk'].
      + destruct (live_unique _ _ _ _ _ _ Hnew Hl) as [-> ->].
        assert (Hap := i_apart _ _ _ _ _ H t t' m m' (not_eq_sym Hne) Hp Hm'). unfold i. simpl. lia.
      + exact (Q5 k' i' c' (Hold _ _ _ Hl Hk')).
    - intros t1 t2 m1 m2 Hne. destruct (Nat.eq_dec t1 t) as [->|N1]; [rewrite upd_eq; discriminate|].
      destruct (Nat.eq_dec t2 t) as [->|N2]; [rewrite upd_eq; discriminate|].
      rewrite !upd_ne by assumption. apply (i_apart _ _ _ _ _ H); assumption.
  Qed.

  (** ** Storing *)
  Lemma part_of_snoc t o t' d :
    part_of t (o ++ [(t', d)]) = (part_of t o ++ if Nat.eqb t' t then [d] else [])%list.
  Proof.
    unfold part_of. rewrite filter_app, map_app. simpl. destruct (Nat.eqb t' t); reflexivity.
  Qed.

  Lemma Inv_put c s o pend rest t w k n q l i ch : Inv c s o pend rest ->
    pend t = None -> rest t = mk w k n q :: l -> live s k i ch ->
    let d := if w then ck_set ch else ck_get ch in
    Inv (upd c t (p_decls l))
        (set_dicts (upd (st_dicts s) d (dset String.eqb (st_dicts s d) n (translate q))) s)
        (o ++ [(t, mk w k n q)]) pend (upd rest t l).
  Proof.
    intros H Hp Hr Hl d. assert (Hw := i_wf _ _ _ _ _ H).
    destruct (rest_T _ _ _ _ _ t _ _ H Hr) as [Hin HT].
    assert (Htk : target (mk w k n q) = k) by (destruct w; reflexivity). rewrite Htk in HT.
    assert (Hu := i_unshared _ _ _ _ _ H k HT).
    destruct (wf_live s k i ch Hw Hl) as [Ng Ns].
    set (D := dset String.eqb (st_dicts s d) n (translate q)).
    change (set_dicts (upd (st_dicts s) d D) s) with (with_dict s d D).
    assert (HD : NoDup (map fst D)) by (apply sNoDup_dset; unfold d; destruct w; assumption).
    constructor.
    - apply with_dict_wf; assumption.
    - exact (i_plain _ _ _ _ _ H).
    - exact (i_unshared _ _ _ _ _ H).
    - exact (i_grow _ _ _ _ _ H).
    - destruct (i_order _ _ _ _ _ H) as [O1 O2]. rewrite map_app. simpl.
      unfold declared_in_order.
      assert (X1 : forall a b f, declared_reads (a ++ b) f = declared_reads b (declared_reads a f)).
      { induction a as [|x a IH]; intros b f; simpl; [reflexivity|apply IH]. }
      assert (X2 : forall a b f, declared_writes (a ++ b) f = declared_writes b (declared_writes a f)).
      { induction a as [|x a IH]; intros b f; simpl; [reflexivity|apply IH]. }
      split; intros k' n'; [rewrite X1|rewrite X2]; simpl; unfold D, d; destruct w; simpl.
      + rewrite (with_set_read s k i ch _ Hu Hl). apply O1.
      + rewrite (with_get_read s k i ch _ Hu Hl). unfold declare.
        destruct (rkey_eqb_spec k' k) as [->|Hne]; [|apply O1].
        rewrite sdget_dset, String.eqb_sym, translate_meant.
        destruct (String.eqb n' n); [reflexivity|]. simpl.
        rewrite <- O1. symmetry. apply (read_live s k i ch n' Hl).
      + rewrite (with_set_write s k i ch _ Hu Hl). unfold declare.
        destruct (rkey_eqb_spec k' k) as [->|Hne]; [|apply O2].
        rewrite sdget_dset, String.eqb_sym, translate_meant.
        destruct (String.eqb n' n); [reflexivity|]. simpl.
        rewrite <- O2. symmetry. apply (write_live s k i ch n' Hl).
      + rewrite (with_get_write s k i ch _ Hu Hl). apply O2.
    - intros t'. rewrite part_of_snoc, (i_rest _ _ _ _ _ H t').
      destruct (Nat.eqb_spec t t') as [<-|Hne].
      + rewrite upd_eq, Hr, <- app_assoc. reflexivity.
      + rewrite upd_ne, app_nil_r by auto. reflexivity.
    - intros t'. destruct (Nat.eq_dec t' t) as [->|Hne].
      + rewrite !upd_eq, Hp. constructor.
      + rewrite !upd_ne by exact Hne. destruct (i_at _ _ _ _ _ H t'); econstructor; eassumption.
    - intros t' m Hm. destruct (i_pend _ _ _ _ _ H t' m Hm) as (Q1 & Q2 & Q3 & Q4 & Q5).
      destruct (Q5 k i ch Hl) as (_ & R1 & R2 & R3 & R4).
      split; [exact Q1|]. split; [exact Q2|]. simpl.
      split; [rewrite upd_ne by (unfold d; destruct w; auto); exact Q3|].
      split; [rewrite upd_ne by (unfold d; destruct w; auto); exact Q4|]. exact Q5.
    - exact (i_apart _ _ _ _ _ H).
  Qed.

  (** ** One step *)
  Lemma Inv_step c s o pend rest t p s1 : Inv c s o pend rest ->
    dstep E (c t) s = Some (p, s1) -> exists o' pend' rest', Inv (upd c t p) s1 o' pend' rest'.
  Proof.
    intros H Hs. assert (Ha := i_at _ _ _ _ _ H t).
    remember (pend t) as pt eqn:Hpt. remember (c t) as ct eqn:Hct. remember (rest t) as rt eqn:Hrt.
    symmetry in Hpt, Hrt.
    destruct Ha as [rt|w k n q l Hn|w k n q m l Hn|w k n q m l Hn|w k n q i ch l Hl|w k n q i ch l Hl].
    - destruct rt as [|d l]; [discriminate|].
      destruct (rest_T _ _ _ _ _ t _ _ H Hrt) as [Hin HT].
      assert (Hd : exists w k n q, d = mk w k n q).
      { assert (X := Hsingle t d Hin). destruct d as [k n q|k n q|]; [exists false|exists true|destruct X];
          exists k, n, q; reflexivity. }
      destruct Hd as (w & k & n & q & ->).
      assert (Htk : target (mk w k n q) = k) by (destruct w; reflexivity). rewrite Htk in HT.
      assert (Hp : p = tbind (tbind (match dget rkey_eqb (st_reg s) k with
                                     | None | Some VNone => p_new_checker k
                                     | Some c => DRet (Ok c) end) (fun c => p_store w c n q))
                         (fun _ => p_decls l) /\ s1 = s).
      { destruct w; injection Hs as <- <-; split; reflexivity. }
      destruct Hp as [-> ->]. exists o, pend, rest. apply Inv_at; [exact H|]. rewrite Hpt, Hrt.
      destruct (i_plain _ _ _ _ _ H k HT) as [Hnone|[i Hi]].
      + rewrite Hnone. apply At_new. exact Hnone.
      + rewrite Hi. destruct (i_wf _ _ _ _ _ H k i Hi) as (_ & ch & Hch & _).
        apply (At_table s w k n q i ch l). split; assumption.
    - injection Hs as <- <-. exists o, (upd pend t (Some (st_next s))), rest.
      apply (Inv_new c s o pend rest t w k n q l H Hpt Hrt Hn).
    - destruct (rest_T _ _ _ _ _ t _ _ H Hrt) as [Hin _].
      assert (Htk : target (mk w k n q) = k) by (destruct w; reflexivity).
      assert (Hk := Hclass t _ Hin). rewrite Htk in Hk.
      assert (Hp : p = tbind (tbind (tbind (match dget rkey_eqb (st_reg s) k with
                                            | Some _ => DRet (Exc (EDuplication "type_"))
                                            | None => DSetReg k (VChk (S (S m))) (DRet (Ok tt)) end)
                  (fun _ => DRet (Ok (VChk (S (S m)))))) (fun c => p_store w c n q))
                  (fun _ => p_decls l) /\ s1 = s).
      { destruct k; [| |destruct Hk]; injection Hs as <- <-; split; reflexivity. }
      destruct Hp as [-> ->]. exists o, pend, rest. apply Inv_at; [exact H|]. rewrite Hpt, Hrt.
      assert (Hn' := Hn). unfold none in Hn'. rewrite Hn'. apply At_set. exact Hn.
    - injection Hs as <- <-. exists o, (upd pend t None), rest.
      apply (Inv_register c s o pend rest t w k n q l m H Hpt Hrt Hn).
    - exists o, pend, rest. injection Hs as <- <-. apply Inv_at; [exact H|]. rewrite Hpt, Hrt.
      assert (Hl' := Hl). destruct Hl' as [_ Hc]. rewrite Hc. simpl.
      apply (At_put s w k n q i ch l Hl).
    - injection Hs as <- <-. exists (o ++ [(t, mk w k n q)])%list, pend, (upd rest t l).
      apply (Inv_put c s o pend rest t w k n q l i ch H Hpt Hrt Hl).
  Qed.

  Lemma Inv_runs c s c' s' : Runs E c s c' s' -> forall o pend rest, Inv c s o pend rest ->
    exists o' pend' rest', Inv c' s' o' pend' rest'.
  Proof.
    induction 1 as [c s|c s t p s1 c' s' Hs HR IH|c s s1 c' s' Hl HR IH]; intros o pend rest H.
    - eauto.
    - destruct (Inv_step c s o pend rest t p s1 H Hs) as (o1 & p1 & r1 & H1). exact (IH o1 p1 r1 H1).
    - exact (IH o pend rest (Inv_leaves c s o pend rest s1 Hl H)).
  Qed.

  Lemma decls_running d l : forall r, p_decls (d :: l) <> DRet r.
  Proof. intros r. destruct d as [? ? ?|? ? ?|? ?]; discriminate. Qed.

  Lemma At_done s o r rest k0 : (forall d, In d rest -> is_class_or_module (target d)) ->
    At s o k0 rest -> k0 = DRet r -> rest = [] /\ r = Ok tt.
  Proof.
    intros Hc H Hp.
    destruct H as [rt|w k n q l Hn|w k n q m l Hn|w k n q m l Hn|w k n q i ch l Hl|w k n q i ch l Hl];
      try discriminate Hp.
    - destruct rt as [|d l].
      + injection Hp as <-. auto.
      + destruct (decls_running d l r Hp).
    - exfalso. assert (Hk := Hc _ (or_introl eq_refl)).
      assert (Htk : target (mk w k n q) = k) by (destruct w; reflexivity). rewrite Htk in Hk.
      destruct k; [| |destruct Hk]; discriminate Hp.
  Qed.
End Serial.

Lemma serial_lemma E ds s c s' :
  registry_wf s ->
  (forall t d, In d (ds t) -> single d /\ is_class_or_module (target d) /\
     plain_entry s (target d) /\ unshared s (target d)) ->
  no_race ds s ->
  Runs E (fun t => p_decls (ds t)) s c s' ->
  exists o,
    declared_in_order (map snd o) s s' /\
    (forall t, exists rest, ds t = (part_of t o ++ rest)%list) /\
    (forall t r, c t = DRet r -> r = Ok tt /\ part_of t o = ds t).
Proof.
  intros Hw Hd Hrace HR.
  assert (H0 : Inv E s ds (fun t => p_decls (ds t)) s [] (fun _ => None) ds).
  { constructor; auto.
    - intros k (t & d & Hi & <-). apply (Hd t d Hi).
    - intros k (t & d & Hi & <-). apply (Hd t d Hi).
    - split; reflexivity.
    - intros t. constructor.
    - discriminate.
    - discriminate. }
  destruct (Inv_runs E s ds (fun t d Hi => proj1 (Hd t d Hi)) (fun t d Hi => proj1 (proj2 (Hd t d Hi)))
              Hrace _ _ _ _ HR _ _ _ H0) as (o & pend & rest & H).
  exists o. split; [exact (i_order _ _ _ _ _ _ _ _ H)|]. split.
  - intros t. exists (rest t). exact (i_rest _ _ _ _ _ _ _ _ H t).
  - intros t r Ht. assert (Hr := i_rest _ _ _ _ _ _ _ _ H t).
    destruct (At_done s' (pend t) r (rest t) (c t)) as [He ->].
    + intros d Hi. apply (Hd t). rewrite Hr. apply in_or_app. right. exact Hi.
    + exact (i_at _ _ _ _ _ _ _ _ H t).
    + exact Ht.
    + split; [reflexivity|]. rewrite Hr, He, app_nil_r. reflexivity.
Qed.

(** ** Particular interleavings *)

Fixpoint schedule {A} (E : env) (l : list id) (c : id -> dprog A) (s : state)
  : (id -> dprog A) * state :=
  match l with
  | [] => (c, s)
  | t :: l' =>
      match dstep E (c t) s with
      | Some (p, s1) => schedule E l' (upd c t p) s1
      | None => schedule E l' c s
      end
  end.

Lemma schedule_runs {A} E l : forall (c : id -> dprog A) s,
  Runs E c s (fst (schedule E l c s)) (snd (schedule E l c s)).
Proof.
  induction l as [|t l IH]; intros c s; simpl; [constructor|].
  destruct (dstep E (c t) s) as [[p s1]|] eqn:He; [|apply IH].
  apply (Runs_step E c s t p s1 _ _ He). apply IH.
Qed.
