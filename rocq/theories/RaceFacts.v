(** * RaceFacts: whatever the interleaving, tables contain what somebody granted. *)

From Coq Require Import List String Bool Arith Lia.
From Verif Require Import Base Domain CheckerModel MFacts RegistryFacts Protect ProtectSpec
  ProtectFacts DeclThreads DeclThreadSpec DeclThreadFacts RaceSpec.
Import ListNotations.
Open Scope string_scope.

Section Race.
  Variable E : env.
  Variable s0 : state.
  Variable ds : id -> list decl.
  Notation granted := (granted ds s0).

  (** Whose a checker is; whose a dictionary is. *)
  Record labels := mkL { l_chk : id -> rkey -> Prop; l_dict : id -> rkey -> bool -> Prop }.
  Definition le (L L' : labels) : Prop :=
    (forall i k, l_chk L i k -> l_chk L' i k) /\ (forall d k w, l_dict L d k w -> l_dict L' d k w).

  Lemma le_refl L : le L L.
  Proof. split; auto. Qed.
  Lemma le_trans L1 L2 L3 : le L1 L2 -> le L2 L3 -> le L1 L3.
  Proof. intros [A1 A2] [B1 B2]. split; auto. Qed.

  (** What a lookup in the registry may give. *)
  Definition reg_ok (L : labels) (k : rkey) (o : option value) : Prop :=
    forall i, o = Some (VChk i) -> l_chk L i k.

  Definition table_ok (L : labels) (w : bool) (c : value) (r : res id) : Prop :=
    match c with
    | VChk i => forall k d, l_chk L i k -> r = Ok d -> l_dict L d k w
    | _ => exists e, r = Exc e
    end.

  (** Programs that only store what is granted. *)
  Fixpoint good {A} (L : labels) (p : dprog A) : Prop :=
    match p with
    | DRet _ => True
    | DGetReg k f => forall o L', le L L' -> reg_ok L' k o -> good L' (f o)
    | DSetReg k v f => reg_ok L k (Some v) /\ forall L', le L L' -> good L' f
    | DNew f => exists k, forall i L', le L L' -> l_chk L' i k -> good L' (f (VChk i))
    | DTable w c f => forall r L', le L L' -> table_ok L' w c r -> good L' (f r)
    | DPut d n q f => (exists k w, l_dict L d k w /\ granted w k n q) /\
                      forall L', le L L' -> good L' f
    | DLen d f => forall x L', le L L' -> good L' (f x)
    | DNext d l i f => forall r L', le L L' -> good L' (f r)
    | DItem d n f => forall r L', le L L' ->
        (forall p k w, r = Ok p -> l_dict L' d k w -> granted w k n p) -> good L' (f r)
    end.

  Lemma reg_ok_le L L' k o : le L L' -> reg_ok L k o -> reg_ok L' k o.
  Proof. intros Hl H i Hi. apply Hl, H, Hi. Qed.

  Lemma good_le {A} (p : dprog A) : forall L L', le L L' -> good L p -> good L' p.
  Proof.
    destruct p; simpl; intros L L' Hl H; auto.
    - intros o L2 H2. apply H. eapply le_trans; eauto.
    - destruct H as [H1 H2]. split; [eapply reg_ok_le; eauto|]. intros L2 H3. apply H2.
      eapply le_trans; eauto.
    - destruct H as [k H]. exists k. intros i L2 H2. apply H. eapply le_trans; eauto.
    - intros r L2 H2. apply H. eapply le_trans; eauto.
    - destruct H as [(k & w & H1 & H2) H3]. split; [exists k, w; split; [apply Hl|]; auto|].
      intros L2 H4. apply H3. eapply le_trans; eauto.
    - intros x L2 H2. apply H. eapply le_trans; eauto.
    - intros x L2 H2. apply H. eapply le_trans; eauto.
    - intros x L2 H2. apply H. eapply le_trans; eauto.
  Qed.

  (** Sequencing: a program that is good and whose results satisfy [Q]. *)
  Fixpoint gives {A} (Q : labels -> A -> Prop) (L : labels) (p : dprog (res A)) : Prop :=
    match p with
    | DRet (Ok a) => Q L a
    | DRet (Exc _) => True
    | DGetReg k f => forall o L', le L L' -> reg_ok L' k o -> gives Q L' (f o)
    | DSetReg k v f => reg_ok L k (Some v) /\ forall L', le L L' -> gives Q L' f
    | DNew f => exists k, forall i L', le L L' -> l_chk L' i k -> gives Q L' (f (VChk i))
    | DTable w c f => forall r L', le L L' -> table_ok L' w c r -> gives Q L' (f r)
    | DPut d n q f => (exists k w, l_dict L d k w /\ granted w k n q) /\
                      forall L', le L L' -> gives Q L' f
    | DLen d f => forall x L', le L L' -> gives Q L' (f x)
    | DNext d l i f => forall r L', le L L' -> gives Q L' (f r)
    | DItem d n f => forall r L', le L L' ->
        (forall p k w, r = Ok p -> l_dict L' d k w -> granted w k n p) -> gives Q L' (f r)
    end.

  Lemma gives_good {A} Q (p : dprog (res A)) : forall L, gives Q L p -> good L p.
  Proof.
    induction p as [r|k f IH|k v f IH|f IH|w c f IH|d n q f IH|d f IH|d l i f IH|d n f IH];
      simpl; intros L H; auto.
    - destruct H as [H1 H2]. split; auto.
    - destruct H as [k H]. exists k. auto.
    - destruct H as [H1 H2]. split; auto.
  Qed.

  Lemma gives_bind {A B} Q R (p : dprog (res A)) (g : A -> dprog (res B)) : forall L,
    gives Q L p ->
    (forall a L', le L L' -> Q L' a -> gives R L' (g a)) ->
    gives R L (tbind p g).
  Proof.
    induction p as [r|k f IH|k v f IH|f IH|w c f IH|d n q f IH|d f IH|d l i f IH|d n f IH];
      simpl; intros L H Hg.
    - destruct r as [a|e]; [apply Hg; auto using le_refl|exact I].
    - intros o L' Hl Ho. apply IH; auto. intros a L2 H2. apply Hg. eapply le_trans; eauto.
    - destruct H as [H1 H2]. split; [exact H1|]. intros L' Hl. apply IH; auto.
      intros a L2 H3. apply Hg. eapply le_trans; eauto.
    - destruct H as [k H]. exists k. intros i L' Hl Hi. apply IH; auto.
      intros a L2 H3. apply Hg. eapply le_trans; eauto.
    - intros r L' Hl Ho. apply IH; auto. intros a L2 H2. apply Hg. eapply le_trans; eauto.
    - destruct H as [H1 H2]. split; [exact H1|]. intros L' Hl. apply IH; auto.
      intros a L2 H3. apply Hg. eapply le_trans; eauto.
    - intros x L' Hl. apply IH; auto. intros a L2 H2. apply Hg. eapply le_trans; eauto.
    - intros x L' Hl. apply IH; auto. intros a L2 H2. apply Hg. eapply le_trans; eauto.
    - intros r L' Hl Ho. apply IH; auto. intros a L2 H2. apply Hg. eapply le_trans; eauto.
  Qed.

  (** A value that may be the checker of [k]. *)
  Definition checker_ok (k : rkey) (L : labels) (c : value) : Prop :=
    forall i, c = VChk i -> l_chk L i k.

  Lemma define_gives k c L : checker_ok k L c -> gives (fun _ _ => True) L (p_defineChecker k c).
  Proof.
    intros Hc. destruct k; simpl; try exact I; intros o L' Hl Ho; destruct o; simpl; auto;
      (split; [|intros; exact I]); intros i Hi; injection Hi as Hi; apply Hl, Hc; exact Hi.
  Qed.

  Lemma new_gives k L : gives (checker_ok k) L (p_new_checker k).
  Proof.
    unfold p_new_checker. simpl. exists k. intros i L' Hl Hi.
    apply (gives_bind (fun _ _ => True)).
    - apply define_gives. intros j Hj. injection Hj as <-. exact Hi.
    - intros _ L2 H2 _. simpl. intros j Hj. injection Hj as <-. apply H2. exact Hi.
  Qed.

  Lemma for_gives k L : gives (checker_ok k) L (p_checker_for k).
  Proof.
    unfold p_checker_for. intros o L' Hl Ho.
    destruct o as [v|]; [|apply new_gives].
    destruct v; try apply new_gives; simpl; intros j Hj; apply Ho; congruence.
  Qed.

  Definition dict_ok (k : rkey) (w : bool) (L : labels) (d : id) : Prop := l_dict L d k w.

  Lemma table_gives k w c L : checker_ok k L c -> gives (dict_ok k w) L (p_table w c).
  Proof.
    intros Hc r L' Hl Hr. simpl. destruct r as [d|e]; [|exact I].
    destruct c; simpl in Hr; try (destruct Hr as [e Hr]; discriminate Hr).
    apply (Hr k d); [|reflexivity]. apply Hl, Hc. reflexivity.
  Qed.

  Lemma store_gives (w : bool) k c n p L : checker_ok k L c ->
    granted w k n (translate p) -> gives (fun _ _ => True) L (p_store w c n p).
  Proof.
    intros Hc Hg. unfold p_store. apply (gives_bind (dict_ok k w)); [apply table_gives; exact Hc|].
    intros d L' Hl Hd. simpl. split; [exists k, w; auto|auto].
  Qed.

  Lemma protect_gives (w : bool) k n p L : granted w k n (translate p) ->
    gives (fun _ _ => True) L (p_protect w k n p).
  Proof.
    intros Hg. unfold p_protect. apply (gives_bind (checker_ok k)); [apply for_gives|].
    intros c L' Hl Hc. apply (store_gives w k); assumption.
  Qed.

  Lemma loop_gives w k l dst src len : forall more pos L,
    (forall n p, granted w l n p -> granted w k n p) ->
    l_dict L dst k w -> l_dict L src l w ->
    gives (fun _ _ => True) L (p_loop dst src len more pos).
  Proof.
    induction more as [|more IH]; intros pos L Hkl Hd Hs; simpl; intros r L' Hl.
    - destruct r as [[n|]|e]; exact I.
    - destruct r as [[n|]|e]; simpl; auto. intros q L2 H2 Hq.
      destruct q as [p|e]; simpl; auto. split.
      + exists k, w. split; [apply H2, Hl, Hd|]. apply Hkl. apply (Hq p l w eq_refl).
        apply H2, Hl, Hs.
      + intros L3 H3. apply IH; auto; apply H3, H2, Hl; assumption.
  Qed.

  Lemma copy_gives w k l dst src L :
    (forall n p, granted w l n p -> granted w k n p) ->
    l_dict L dst k w -> l_dict L src l w ->
    gives (fun _ _ => True) L (p_copy dst src).
  Proof.
    intros Hkl Hd Hs x L' Hl. apply (loop_gives w k l); auto; apply Hl; assumption.
  Qed.

  Lemma like_gives t k l L : In (DLike k l) (ds t) -> gives (fun _ _ => True) L (p_like k l).
  Proof.
    intros Hin. unfold p_like. intros o L1 H1 Ho.
    assert (Hkl : forall w n p, granted w l n p -> granted w k n p)
      by (intros w n p; apply (granted_like ds s0 t); exact Hin).
    assert (Hmain : forall u, checker_ok l L1 u -> gives (fun _ _ => True) L1
      (tbind (p_table false u) (fun ug =>
        tbind (p_table true u) (fun uw =>
        tbind (p_checker_for k) (fun c =>
        tbind (p_table false c) (fun g =>
        tbind (p_copy g ug) (fun _ =>
        tbind (p_table true c) (fun w =>
        p_copy w uw)))))))).
    { intros u Hu.
      apply (gives_bind (dict_ok l false)); [apply table_gives; exact Hu|]. intros ug L2 H2 Hug.
      apply (gives_bind (dict_ok l true)).
      { apply table_gives. intros i Hi. apply H2, Hu, Hi. }
      intros uw L3 H3 Huw.
      apply (gives_bind (checker_ok k)); [apply for_gives|]. intros c L4 H4 Hc.
      apply (gives_bind (dict_ok k false)); [apply table_gives; exact Hc|]. intros g L5 H5 Hg.
      apply (gives_bind (fun _ _ => True)).
      { apply (copy_gives false k l); [apply Hkl|exact Hg|]. apply H5, H4, H3, Hug. }
      intros _ L6 H6 _.
      apply (gives_bind (dict_ok k true)).
      { apply table_gives. intros i Hi. apply H6, H5, Hc, Hi. }
      intros w L7 H7 Hw.
      apply (copy_gives true k l); [apply Hkl|exact Hw|]. apply H7, H6, H5, H4, Huw. }
    destruct o as [v|]; [|exact I].
    destruct v; try exact I; apply Hmain; intros j Hj; apply Ho; congruence.
  Qed.

  Lemma decl_gives t d L : In d (ds t) -> gives (fun _ _ => True) L (p_decl d).
  Proof.
    intros Hin. destruct d as [k n p|k n p|k l]; simpl.
    - apply protect_gives. rewrite translate_meant. apply (granted_name ds s0 t); exact Hin.
    - apply protect_gives. rewrite translate_meant. apply (granted_set ds s0 t); exact Hin.
    - apply (like_gives t); exact Hin.
  Qed.

  Lemma decls_gives t l : forall L, (forall d, In d l -> In d (ds t)) ->
    gives (fun _ _ => True) L (p_decls l).
  Proof.
    induction l as [|d l IH]; intros L Hin; simpl; [exact I|].
    apply (gives_bind (fun _ _ => True)).
    - apply (decl_gives t). apply Hin. left. reflexivity.
    - intros _ L' Hl _. apply IH. intros d' Hd'. apply Hin. right. exact Hd'.
  Qed.

  (** ** The state *)

  Record Safe (L : labels) (s : state) : Prop := {
    sf_reg : forall k i, dget rkey_eqb (st_reg s) k = Some (VChk i) -> l_chk L i k;
    sf_chk : forall i k, l_chk L i k -> i < st_next s /\
               exists c, st_chks s i = Some c /\ l_dict L (ck_get c) k false /\
                         l_dict L (ck_set c) k true;
    sf_dict : forall d k w, l_dict L d k w -> d < st_next s /\
               forall n p, dget String.eqb (st_dicts s d) n = Some p -> granted w k n p;
    sf_one : forall d k w k' w', l_dict L d k w -> l_dict L d k' w' ->
               (k = k' /\ w = w') \/ (holds s0 k w d /\ holds s0 k' w' d)
  }.

  Definition L0 : labels :=
    mkL (fun i k => dget rkey_eqb (st_reg s0) k = Some (VChk i)) (fun d k w => holds s0 k w d).

  Lemma Safe_start : registry_wf s0 -> Safe L0 s0.
  Proof.
    intros Hw. constructor; simpl.
    - auto.
    - intros i k H. destruct (Hw k i H) as (H1 & c & H2 & _). split; [exact H1|]. exists c.
      split; [exact H2|]. split; exists i, c; (split; [split; assumption|reflexivity]).
    - intros d k w (i & c & [H1 H2] & ->). destruct (Hw k i H1) as (H3 & c' & H4 & H5 & H6 & _).
      assert (c' = c) by congruence. subst c'. split; [destruct w; assumption|].
      intros n p Hd. destruct w.
      + apply granted_write. unfold write_protection. rewrite H1, H2. exact Hd.
      + apply granted_read. unfold read_protection. rewrite H1, H2. exact Hd.
    - auto.
  Qed.

  Lemma Safe_leaves L s s1 : Safe L s -> leaves_tables s s1 -> Safe L s1.
  Proof.
    intros H (Hr & Hn & Hi). constructor.
    - rewrite Hr. apply (sf_reg _ _ H).
    - intros i k Hl. destruct (sf_chk _ _ H i k Hl) as (H1 & c & H2 & H3). split; [lia|].
      exists c. rewrite (proj1 (Hi i H1)). auto.
    - intros d k w Hl. destruct (sf_dict _ _ H d k w Hl) as (H1 & H2). split; [lia|].
      rewrite (proj2 (Hi d H1)). exact H2.
    - apply (sf_one _ _ H).
  Qed.

  (** The labels after a new checker has been made for [k]. *)
  Definition Lnew (L : labels) (m : id) (k : rkey) : labels :=
    mkL (fun i k' => l_chk L i k' \/ (i = S (S m) /\ k' = k))
        (fun d k' w => l_dict L d k' w \/ (k' = k /\ d = if w then S m else m)).

  Lemma Safe_new L s k : Safe L s -> Safe (Lnew L (st_next s) k) (new_checker E s).
  Proof.
    intros H. set (m := st_next s). constructor; simpl.
    - intros k' i Hr. left. apply (sf_reg _ _ H). exact Hr.
    - intros i k' [Hl|[-> ->]].
      + destruct (sf_chk _ _ H i k' Hl) as (H1 & c & H2 & H3 & H4). fold m in H1. split; [lia|].
        exists c. rewrite upd_ne by lia. auto.
      + split; [lia|]. rewrite upd_eq. eexists. split; [reflexivity|]. simpl.
        split; right; split; reflexivity.
    - intros d k' w [Hl|[-> ->]].
      + destruct (sf_dict _ _ H d k' w Hl) as (H1 & H2). fold m in H1. split; [lia|].
        rewrite !upd_ne by lia. exact H2.
      + split; [destruct w; lia|]. intros n p. fold m. destruct w.
        * rewrite upd_eq. discriminate.
        * rewrite upd_ne by lia. rewrite upd_eq. discriminate.
    - intros d k1 w1 k2 w2 [Hl|[-> Hd]] [Hl'|[-> Hd']].
      + apply (sf_one _ _ H d); assumption.
      + destruct (sf_dict _ _ H d _ _ Hl) as (H1 & _). fold m in H1. destruct w2; lia.
      + destruct (sf_dict _ _ H d _ _ Hl') as (H1 & _). fold m in H1. destruct w1; lia.
      + left. split; [reflexivity|]. subst d. destruct w1, w2; auto; lia.
  Qed.

  Lemma Lnew_le L m k : le L (Lnew L m k).
  Proof. split; simpl; auto. Qed.

  (** One step of a good program. *)
  Lemma good_step {A} L s (p : dprog A) p' s' :
    Safe L s -> good L p -> dstep E p s = Some (p', s') ->
    exists L', le L L' /\ Safe L' s' /\ good L' p'.
  Proof.
    intros HS Hg H. destruct p as [a|k f|k v f|f|w c f|d n q f|d f|d l i f|d n f]; simpl in H;
      try discriminate H; injection H as <- <-; simpl in Hg.
    - exists L. split; [apply le_refl|]. split; [exact HS|]. apply Hg; [apply le_refl|].
      intros i Hi. apply (sf_reg _ _ HS). exact Hi.
    - destruct Hg as [Hr Hg]. exists L. split; [apply le_refl|]. split; [|apply Hg, le_refl].
      constructor; simpl.
      + intros k' i Hi. rewrite rdget_dset in Hi. destruct (rkey_eqb_spec k k') as [<-|_].
        * apply Hr. exact Hi.
        * apply (sf_reg _ _ HS). exact Hi.
      + apply (sf_chk _ _ HS).
      + apply (sf_dict _ _ HS).
      + apply (sf_one _ _ HS).
    - destruct Hg as [k Hg]. exists (Lnew L (st_next s) k). split; [apply Lnew_le|].
      split; [apply Safe_new; exact HS|]. apply Hg; [apply Lnew_le|]. simpl. right. auto.
    - exists L. split; [apply le_refl|]. split; [exact HS|]. apply Hg; [apply le_refl|].
      destruct c; simpl; try (eexists; reflexivity).
      intros k d Hl Hd. destruct (sf_chk _ _ HS _ _ Hl) as (_ & ch & Hc & H1 & H2).
      rewrite Hc in Hd. injection Hd as <-. destruct w; assumption.
    - destruct Hg as [(k & w & Hl & Hgr) Hg]. exists L. split; [apply le_refl|].
      split; [|apply Hg, le_refl]. constructor; simpl.
      + apply (sf_reg _ _ HS).
      + apply (sf_chk _ _ HS).
      + intros d' k' w' Hl'. destruct (sf_dict _ _ HS d' k' w' Hl') as (H1 & H2).
        split; [exact H1|]. intros n' p'. destruct (Nat.eq_dec d' d) as [->|Hne].
        * rewrite upd_eq, sdget_dset. destruct (String.eqb_spec n n') as [<-|_]; [|apply H2].
          intros Hp. injection Hp as <-.
          destruct (sf_one _ _ HS d _ _ _ _ Hl' Hl) as [[-> ->]|[Ha Hb]]; [exact Hgr|].
          eapply granted_shared; eauto.
        * rewrite upd_ne by congruence. apply H2.
      + apply (sf_one _ _ HS).
    - exists L. split; [apply le_refl|]. split; [exact HS|]. apply Hg, le_refl.
    - exists L. split; [apply le_refl|]. split; [exact HS|]. apply Hg, le_refl.
    - exists L. split; [apply le_refl|]. split; [exact HS|]. apply Hg; [apply le_refl|].
      intros p k w Hp Hl. unfold item in Hp.
      destruct (dget String.eqb (st_dicts s d) n) as [q|] eqn:Hq; [|discriminate Hp].
      injection Hp as <-. destruct (sf_dict _ _ HS d k w Hl) as (_ & H2). apply H2. exact Hq.
  Qed.

  Lemma runs_safe {A} (c : id -> dprog A) s c' s' : Runs E c s c' s' ->
    forall L, Safe L s -> (forall t, good L (c t)) ->
    exists L', le L L' /\ Safe L' s' /\ forall t, good L' (c' t).
  Proof.
    intros HR. induction HR as [c s|c s t p s1 c' s' Hs HR IH|c s s1 c' s' Hl HR IH];
      intros L HS Hg.
    - exists L. split; [apply le_refl|]. auto.
    - destruct (good_step L s (c t) p s1 HS (Hg t) Hs) as (L1 & H1 & HS1 & Hp).
      destruct (IH L1 HS1) as (L2 & H2 & HS2 & Hg2).
      { intros t'. destruct (Nat.eq_dec t' t) as [->|Hne]; [rewrite upd_eq; exact Hp|].
        rewrite upd_ne by congruence. eapply good_le; eauto. }
      exists L2. split; [eapply le_trans; eauto|]. auto.
    - apply IH; [eapply Safe_leaves; eauto|exact Hg].
  Qed.

  (** Checkers that exist stay what they are. *)
  Lemma runs_checkers {A} (c : id -> dprog A) s c' s' : Runs E c s c' s' ->
    st_next s <= st_next s' /\ forall i, i < st_next s -> st_chks s' i = st_chks s i.
  Proof.
    intros HR. induction HR as [c s|c s t p s1 c' s' Hs HR IH|c s s1 c' s' Hl HR IH].
    - auto.
    - assert (Hst : st_next s <= st_next s1 /\ forall i, i < st_next s -> st_chks s1 i = st_chks s i).
      { destruct (c t); simpl in Hs; try discriminate Hs; injection Hs as _ <-; simpl;
          (split; [lia|]); intros i Hi; rewrite ?upd_ne by lia; reflexivity. }
      destruct Hst as [A1 A2], IH as [B1 B2]. split; [lia|]. intros i Hi.
      rewrite B2 by lia. apply A2. exact Hi.
    - destruct Hl as (_ & A1 & A2), IH as [B1 B2]. split; [lia|]. intros i Hi.
      rewrite B2 by lia. apply A2. exact Hi.
  Qed.

  Lemma excess_lemma c1 s1 c2 s2 k i ch :
    registry_wf s0 -> Runs E (fun t => p_decls (ds t)) s0 c1 s1 -> Runs E c1 s1 c2 s2 ->
    live s1 k i ch ->
    st_chks s2 i = Some ch /\
    (forall n p, dget String.eqb (st_dicts s2 (ck_get ch)) n = Some p -> granted false k n p) /\
    (forall n p, dget String.eqb (st_dicts s2 (ck_set ch)) n = Some p -> granted true k n p).
  Proof.
    intros Hw H1 H2 [Hr Hc].
    destruct (runs_safe _ _ _ _ H1 L0 (Safe_start Hw)) as (L1 & _ & HS1 & Hg1).
    { intros t. apply (gives_good (fun _ _ => True)). apply (decls_gives t). auto. }
    destruct (runs_safe _ _ _ _ H2 L1 HS1 Hg1) as (L2 & Hle & HS2 & _).
    assert (Hl1 : l_chk L1 i k) by (apply (sf_reg _ _ HS1); exact Hr).
    assert (Hl : l_chk L2 i k) by (apply Hle; exact Hl1).
    destruct (sf_chk _ _ HS2 i k Hl) as (_ & ch' & Hc' & Hd1 & Hd2).
    assert (ch' = ch).
    { destruct (runs_checkers _ _ _ _ H2) as [_ Hk].
      rewrite Hk in Hc' by apply (sf_chk _ _ HS1 i k Hl1). congruence. }
    subst ch'. split; [exact Hc'|]. split.
    - apply (sf_dict _ _ HS2 _ _ _ Hd1).
    - apply (sf_dict _ _ HS2 _ _ _ Hd2).
  Qed.
End Race.

Lemma moment_lemma E ds s c s' :
  registry_wf s -> Runs E (fun t => p_decls (ds t)) s c s' ->
  (forall k n p, read_protection s' k n = Some p -> granted ds s false k n p) /\
  (forall k n p, write_protection s' k n = Some p -> granted ds s true k n p).
Proof.
  intros Hw HR. split; intros k n p H.
  - unfold read_protection in H. destruct (dget rkey_eqb (st_reg s') k) as [[]|] eqn:Hr; try discriminate H.
    destruct (st_chks s' c0) as [ch|] eqn:Hc; [|discriminate H].
    destruct (excess_lemma E s ds c s' c s' k c0 ch Hw HR (Runs_none E c s') (conj Hr Hc))
      as (_ & H1 & _). apply H1. exact H.
  - unfold write_protection in H. destruct (dget rkey_eqb (st_reg s') k) as [[]|] eqn:Hr; try discriminate H.
    destruct (st_chks s' c0) as [ch|] eqn:Hc; [|discriminate H].
    destruct (excess_lemma E s ds c s' c s' k c0 ch Hw HR (Runs_none E c s') (conj Hr Hc))
      as (_ & _ & H1). apply H1. exact H.
Qed.

Lemma granted_not_none ds s w k n : never_none ds s -> ~ granted ds s w k n PNone.
Proof.
  intros [H1 H2] H. remember PNone as p eqn:Hp. induction H as [k n p H|k n p H|t k n p H|t k n p H| |].
  - subst p. destruct (H1 k n) as [A _]. contradiction.
  - subst p. destruct (H1 k n) as [_ A]. contradiction.
  - destruct (H2 t k n) as [A _]. apply A.
    destruct p as [| |j x]; [discriminate Hp|exact H|].
    change (meant (PId j x) = PNone) in Hp. rewrite <- translate_meant in Hp. unfold translate in Hp.
    destruct (String.eqb x zope_Public); discriminate Hp.
  - destruct (H2 t k n) as [_ A]. apply A.
    destruct p as [| |j x]; [discriminate Hp|exact H|].
    change (meant (PId j x) = PNone) in Hp. rewrite <- translate_meant in Hp. unfold translate in Hp.
    destruct (String.eqb x zope_Public); discriminate Hp.
  - auto.
  - auto.
Qed.
