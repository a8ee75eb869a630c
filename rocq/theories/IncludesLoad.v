(** * IncludesLoad: what loading a configuration of several files does. *)

From Coq Require Import List String Bool Arith ZArith Lia Permutation.
From Verif Require Import Base Domain CheckerModel ProxyModel MFacts Spec RegSpec CheckFacts
  RegistryFacts Management Protect ProtectSpec ProtectFacts Zcml ZcmlSpec ZcmlFacts ZcmlProps
  Includes IncludesSpec IncludesFacts IncludesProps.
Import ListNotations.
Open Scope string_scope.

(** ** Loading *)

Lemma files_iff_lemma E ns w : files_loadable ns w ->
  ((exists w', configure_files E ns w = (Ok tt, w')) <-> files_accepted ns w).
Proof.
  intros Hl. unfold files_accepted.
  destruct (files_lemma E ns w Hl) as [(Hno & e & Hr & _)|[(Hok & Hno & Hr)|
    (Hok & Hc & u & l & w' & _ & _ & _ & [[Hd Hr]|[Hd Hr]])]]; rewrite Hr.
  - split; [intros (w' & H); discriminate|]. intros (H & _). contradiction.
  - split; [intros (w' & H); discriminate|]. intros (_ & H & _). contradiction.
  - split; [intros _; auto|intros _; exists w'; reflexivity].
  - split; [intros (x & H); discriminate|]. intros (_ & _ & H). contradiction.
Qed.

Lemma files_loaded E ns w w' : files_loadable ns w -> configure_files E ns w = (Ok tt, w') ->
  exists u l, facts 0 u (statements ns) l /\ executed E (resolved l) w w' /\ NoDup (discrs (resolved l)).
Proof.
  intros Hl H.
  destruct (files_lemma E ns w Hl) as [(Hno & e & Hr & _)|[(Hok & Hno & Hr)|
    (Hok & Hc & u & l & w1 & F & X & N & [[Hd Hr]|[Hd Hr]])]]; rewrite Hr in H; try discriminate.
  injection H as ->. exists u, l. auto.
Qed.

Lemma decides_lemma E ns w w' : files_loadable ns w -> configure_files E ns w = (Ok tt, w') ->
  (forall s k n t, in_force ns s (ClRead k n) -> protects (sm_meaning s) (sm_dir s) (ClRead k n) t ->
     unclaimed ns (ClModule k n) -> ~ copying k (directives ns) ->
     read_protection (w_core w') k n = Some (protect_by t)) /\
  (forall s k n t, in_force ns s (ClModule k n) -> protects (sm_meaning s) (sm_dir s) (ClModule k n) t ->
     unclaimed ns (ClRead k n) -> ~ copying k (directives ns) ->
     read_protection (w_core w') k n = Some (protect_by t)) /\
  (forall s k n t, in_force ns s (ClWrite k n) -> protects (sm_meaning s) (sm_dir s) (ClWrite k n) t ->
     ~ copying k (directives ns) ->
     write_protection (w_core w') k n = Some (protect_by t)) /\
  (forall s q, in_force ns s ClPolicy -> sm_dir s = ZPolicy q -> st_policy (w_core w') = q) /\
  (forall s id title, in_force ns s (ClPermission id) -> sm_dir s = ZPermission id title ->
     dget String.eqb (w_perms w') id = Some title).
Proof.
  intros Hl H. destruct (files_loaded E ns w w' Hl H) as (u & l & F & (X1 & X2 & X3 & X4 & _) & N).
  split; [|split; [|split; [|split]]].
  - intros s k n t H1 H2 H3 H4. rewrite X1. exact (resolved_read _ _ _ _ F N s k n t _ H1 H2 H3 H4).
  - intros s k n t H1 H2 H3 H4. rewrite X1. exact (resolved_module _ _ _ _ F N s k n t _ H1 H2 H3 H4).
  - intros s k n t H1 H2 H3. rewrite X2. exact (resolved_write _ _ _ _ F N s k n t _ H1 H2 H3).
  - intros s q H1 H2. rewrite X4. exact (resolved_policy _ _ _ _ F N s q _ H1 H2).
  - intros s id title H1 H2. rewrite X3. exact (resolved_perm _ _ _ _ F N s id title _ H1 H2).
Qed.

Lemma kept_lemma E ns w w' : files_loadable ns w -> configure_files E ns w = (Ok tt, w') ->
  (forall k n, unclaimed ns (ClRead k n) -> unclaimed ns (ClModule k n) -> ~ copying k (directives ns) ->
     read_protection (w_core w') k n = read_protection (w_core w) k n) /\
  (forall k n, unclaimed ns (ClWrite k n) -> ~ copying k (directives ns) ->
     write_protection (w_core w') k n = write_protection (w_core w) k n) /\
  (unclaimed ns ClPolicy -> st_policy (w_core w') = st_policy (w_core w)) /\
  (forall id, unclaimed ns (ClPermission id) ->
     dget String.eqb (w_perms w') id = dget String.eqb (w_perms w) id) /\
  (forall k, ~ In k (touched (directives ns)) ->
     dget rkey_eqb (st_reg (w_core w')) k = dget rkey_eqb (st_reg (w_core w)) k).
Proof.
  intros Hl H. destruct (files_loaded E ns w w' Hl H) as (u & l & F & (X1 & X2 & X3 & X4 & X5 & _) & N).
  split; [|split; [|split; [|split]]].
  - intros k n H1 H2 H3. rewrite X1. exact (resolved_read_kept _ _ _ _ F k n _ H1 H2 H3).
  - intros k n H1 H2. rewrite X2. exact (resolved_write_kept _ _ _ _ F k n _ H1 H2).
  - intros H1. rewrite X4. exact (resolved_policy_kept _ _ _ _ F _ H1).
  - intros id H1. rewrite X3. exact (resolved_perm_kept _ _ _ _ F id _ H1).
  - intros k Hk. apply X5. intros Hin. apply Hk. apply in_map_iff in Hin. destruct Hin as (d & <- & Hd).
    apply (fc_targets _ _ _ _ F). refine (decls_incl _ _ _ d Hd). intros a. apply resolved_incl.
Qed.

(** Two files, neither above the other, and nobody else above. *)
Lemma rivals_lemma E ns w i j p q c :
  files_loadable ns w -> i <> j ->
  nth_error (claimed (statements ns)) i = Some (p, c) ->
  nth_error (claimed (statements ns)) j = Some (q, c) ->
  stands (claimed (statements ns)) p c -> stands (claimed (statements ns)) q c ->
  exists e, configure_files E ns w = (Exc e, w).
Proof.
  intros Hl Hij Hi Hj Hp Hq.
  destruct (files_lemma E ns w Hl) as [(Hno & e & Hr & _)|[(Hok & Hno & Hr)|(Hok & Hc & _)]].
  - exists e. exact Hr.
  - exists (EConfiguration "conflict"). exact Hr.
  - exfalso. apply Hij. exact (Hc i j p q c Hi Hj Hp Hq).
Qed.

(** ** The first file *)

Lemma read_node_dir p d r : read_node p (NDir d) r =
  ([mkStatement p (rd_meaning r) d],
   mkReading (rd_redefined r || is_redefinition d) (next (rd_meaning r) d) (rd_seen r)).
Proof. reflexivity. Qed.

Lemma meaning_kept p n r : rd_redefined r = false ->
  match n with NDir d => is_redefinition d = false | _ => True end ->
  rd_redefined (snd (read_node p n r)) = false /\
  rd_meaning (snd (read_node p n r)) = rd_meaning r.
Proof.
  intros Hr Hn. destruct n as [d|ns|f ns].
  - simpl. rewrite Hr, Hn. split; [reflexivity|]. destruct d; simpl in *; try reflexivity. discriminate.
  - rewrite read_group. destruct (read_nodes p ns r) as [l r1]. simpl. unfold after_group. rewrite Hr. auto.
  - rewrite read_include. destruct (existsb _ _); [simpl; auto|].
    destruct (read_nodes _ ns _) as [l r1]. simpl. unfold after_group. rewrite Hr. auto.
Qed.

Lemma own_statement p ns : forall r d, rd_redefined r = false ->
  (forall d, In (NDir d) ns -> is_redefinition d = false) ->
  In (NDir d) ns -> In (mkStatement p (rd_meaning r) d) (fst (read_nodes p ns r)).
Proof.
  induction ns as [|n ns IH]; intros r d Hr Hno Hin; [contradiction|]. simpl.
  destruct (read_node p n r) as [l r1] eqn:Hn.
  assert (Hk := meaning_kept p n r Hr). rewrite Hn in Hk. simpl in Hk.
  destruct Hk as [Hk1 Hk2].
  { destruct n; auto. apply Hno. left. reflexivity. }
  specialize (IH r1 d Hk1 (fun d' Hd => Hno d' (or_intror Hd))).
  destruct (read_nodes p ns r1) as [l' r2] eqn:Hns. simpl in *. apply in_or_app.
  destruct Hin as [->|Hin].
  - left. rewrite read_node_dir in Hn. injection Hn as <- _. left. reflexivity.
  - right. rewrite <- Hk2. exact (IH Hin).
Qed.

Lemma first_stands T c : stands T [] c.
Proof.
  intros q _ (r & Hr & H). symmetry in H. apply app_eq_nil in H. destruct H as [_ H]. contradiction.
Qed.

Lemma own_in_force ns d c : redefines_nothing ns -> In (NDir d) ns -> In c (directive_claims d) ->
  in_force ns (mkStatement [] literal d) c.
Proof.
  intros Hno Hin Hc. split; [|split; [exact Hc|apply first_stands]].
  exact (own_statement [] ns beginning d eq_refl Hno Hin).
Qed.

Lemma first_lemma E ns w w' : files_loadable ns w -> configure_files E ns w = (Ok tt, w') ->
  redefines_nothing ns ->
  forall d, In (NDir d) ns ->
  (forall k n t, protects literal d (ClRead k n) t -> unclaimed ns (ClModule k n) ->
     ~ copying k (directives ns) -> read_protection (w_core w') k n = Some (protect_by t)) /\
  (forall k n t, protects literal d (ClModule k n) t -> unclaimed ns (ClRead k n) ->
     ~ copying k (directives ns) -> read_protection (w_core w') k n = Some (protect_by t)) /\
  (forall k n t, protects literal d (ClWrite k n) t ->
     ~ copying k (directives ns) -> write_protection (w_core w') k n = Some (protect_by t)) /\
  (forall q, d = ZPolicy q -> st_policy (w_core w') = q) /\
  (forall id title, d = ZPermission id title -> dget String.eqb (w_perms w') id = Some title).
Proof.
  intros Hl H Hno d Hd. destruct (decides_lemma E ns w w' Hl H) as (D1 & D2 & D3 & D4 & D5).
  split; [|split; [|split; [|split]]].
  - intros k n t Hp. apply (D1 (mkStatement [] literal d)); [|exact Hp].
    apply own_in_force; auto. exact (protects_ok_claims _ _ _ _ Hp).
  - intros k n t Hp. apply (D2 (mkStatement [] literal d)); [|exact Hp].
    apply own_in_force; auto. exact (protects_ok_claims _ _ _ _ Hp).
  - intros k n t Hp. apply (D3 (mkStatement [] literal d)); [|exact Hp].
    apply own_in_force; auto. exact (protects_ok_claims _ _ _ _ Hp).
  - intros q ->. apply (D4 (mkStatement [] literal (ZPolicy q))); [|reflexivity].
    apply own_in_force; auto. left. reflexivity.
  - intros id title ->. apply (D5 (mkStatement [] literal (ZPermission id title))); [|reflexivity].
    apply own_in_force; auto. left. reflexivity.
Qed.

(** ** Splitting a file *)

Definition framed {A} (m : Z A) : Prop := forall c,
  m c = (fst (m (mkCtx [] (cx_unique c) (cx_map c))),
         let c0 := snd (m (mkCtx [] (cx_unique c) (cx_map c))) in
         mkCtx (cx_actions c ++ cx_actions c0) (cx_unique c0) (cx_map c0)).

Lemma framed_ret A (a : A) : framed (zret a).
Proof. intros [l u o]. unfold zret. simpl. rewrite app_nil_r. reflexivity. Qed.
Lemma framed_raise A e : framed (@zraise A e).
Proof. intros [l u o]. unfold zraise. simpl. rewrite app_nil_r. reflexivity. Qed.
Lemma framed_bind A B (m : Z A) (f : A -> Z B) :
  framed m -> (forall a, framed (f a)) -> framed (zbind m f).
Proof.
  intros H1 H2 [l u o]. unfold zbind. rewrite (H1 (mkCtx l u o)). simpl.
  destruct (m (mkCtx [] u o)) as [[a|e] [l0 u0 o0]] eqn:Hm; simpl; [|reflexivity].
  rewrite (H2 a (mkCtx (l ++ l0) u0 o0)), (H2 a (mkCtx l0 u0 o0)). simpl.
  rewrite app_assoc. reflexivity.
Qed.
Lemma framed_action d a l : framed (z_action d a l).
Proof. intros [l0 u o]. reflexivity. Qed.
Lemma framed_object : framed z_object.
Proof. intros [l u o]. unfold z_object. simpl. rewrite app_nil_r. reflexivity. Qed.
Lemma framed_each A (f : A -> Z unit) l : (forall a, framed (f a)) -> framed (z_each f l).
Proof.
  intros H. induction l as [|a l IH]; simpl; [apply framed_ret|].
  apply framed_bind; [apply H|intros _; exact IH].
Qed.
Lemma framed_from t : framed (Permission_fromUnicode t).
Proof.
  intros [l u o]. rewrite !fromUnicode_eq. simpl. reflexivity.
Qed.

Ltac frame :=
  repeat first [apply framed_ret | apply framed_raise | apply framed_action | apply framed_object
    | apply framed_from | apply framed_bind; [|intros] | apply framed_each; intros].

Lemma framed_require k p a i like sa ss : framed (cd_require k p a i like sa ss).
Proof.
  unfold cd_require, cd_mimic, cd_protectByInterface, cd_protectNames, cd_protectName,
    cd_protectSetAttributes, cd_protectSetSchema.
  apply framed_bind; [destruct like; frame|intros _].
  destruct (negb _); [destruct like; frame|].
  destruct p as [t|]; [|frame]. destruct (String.eqb t ""); [frame|]. cbv zeta. frame.
  destruct (dget String.eqb (if_names a3) a4) as [[[|]|]|]; frame.
Qed.
Lemma framed_csub k d : framed (process_csub k d).
Proof.
  destruct d as [p a i like sa ss|a i|is|oid]; simpl.
  - apply framed_bind; [destruct p; frame|intros q; apply framed_require].
  - apply framed_require.
  - unfold cd_implements. frame.
  - unfold cd_factory. frame.
Qed.
Lemma framed_msub k d : framed (process_msub k d).
Proof. destruct d; simpl; unfold md_require, md_allow; frame. Qed.
Lemma framed_directive d : framed (process_directive d).
Proof.
  destruct d as [id title|a b|q|k subs|k subs]; simpl.
  - unfold permission_directive. frame.
  - frame. intros [l u o]. unfold redefinePermission. simpl. rewrite app_nil_r. reflexivity.
  - unfold securityPolicy. frame.
  - apply framed_bind; [destruct k; simpl; frame|intros _]. apply framed_each. intros s. apply framed_csub.
  - apply framed_each. intros s. apply framed_msub.
Qed.

Lemma z_each_app {A} (f : A -> Z unit) l l' c :
  z_each f (l ++ l') c =
  match z_each f l c with (Ok _, c1) => z_each f l' c1 | (Exc e, c1) => (Exc e, c1) end.
Proof.
  revert c. induction l as [|a l IH]; intros c; simpl; [reflexivity|].
  unfold zbind. destruct (f a c) as [[v|e] c1]; [apply IH|reflexivity].
Qed.

Definition alike (x : tctx) : ctx := mkCtx (map snd (t_actions x)) (t_unique x) None.

Lemma nearest_tl a : nearest a = None -> nearest (tl a) = None.
Proof. destruct a as [|[m|] a]; simpl; auto. intros H. discriminate H. Qed.

Lemma flat_lemma ns : forall p x r,
  nearest (t_maps x) = None -> rd_seen r = t_seen x ->
  (forall d, In d (map sm_dir (fst (read_nodes p ns r))) -> is_redefinition d = false) ->
  process (map sm_dir (fst (read_nodes p ns r))) (alike x) =
    (fst (process_nodes p ns x), alike (snd (process_nodes p ns x))) /\
  nearest (t_maps (snd (process_nodes p ns x))) = None /\
  (forall v, fst (process_nodes p ns x) = Ok v ->
     rd_seen (snd (read_nodes p ns r)) = t_seen (snd (process_nodes p ns x))).
Proof.
  set (Q := fun ns => forall p x r,
    nearest (t_maps x) = None -> rd_seen r = t_seen x ->
    (forall d, In d (map sm_dir (fst (read_nodes p ns r))) -> is_redefinition d = false) ->
    process (map sm_dir (fst (read_nodes p ns r))) (alike x) =
      (fst (process_nodes p ns x), alike (snd (process_nodes p ns x))) /\
    nearest (t_maps (snd (process_nodes p ns x))) = None /\
    (forall v, fst (process_nodes p ns x) = Ok v ->
       rd_seen (snd (read_nodes p ns r)) = t_seen (snd (process_nodes p ns x)))).
  set (P := fun n => forall p x r,
    nearest (t_maps x) = None -> rd_seen r = t_seen x ->
    (forall d, In d (map sm_dir (fst (read_node p n r))) -> is_redefinition d = false) ->
    process (map sm_dir (fst (read_node p n r))) (alike x) =
      (fst (process_node p n x), alike (snd (process_node p n x))) /\
    nearest (t_maps (snd (process_node p n x))) = None /\
    (forall v, fst (process_node p n x) = Ok v ->
       rd_seen (snd (read_node p n r)) = t_seen (snd (process_node p n x)))).
  revert ns. apply (nodes_ind2 P Q); unfold P, Q; clear P Q.
  - intros d p x r Hm Hs Hno.
    assert (Hd : is_redefinition d = false).
    { apply Hno. left. reflexivity. }
    assert (Hf := framed_directive d (alike x)).
    destruct (process_directive d (mkCtx [] (t_unique x) None)) as [o c] eqn:Hp.
    assert (Hk := directive_keeps d Hd _ _ _ Hp). simpl in Hk.
    change (mkCtx [] (cx_unique (alike x)) (cx_map (alike x))) with (mkCtx [] (t_unique x) None) in Hf.
    rewrite Hp in Hf. cbv zeta in Hf. simpl fst in Hf. simpl snd in Hf. rewrite Hk in Hf.
    assert (Hq : process_node p (NDir d) x =
      (o, mkT (t_actions x ++ map (pair p) (cx_actions c)) (cx_unique c) (t_seen x) (t_maps x))).
    { change (process_node p (NDir d) x) with (process_in p d x). unfold process_in. rewrite Hm.
      change (@None mapping) with (@None (list (string * string))). rewrite Hp, Hk.
      reflexivity. }
    rewrite read_node_dir, Hq. simpl fst. simpl snd.
    assert (He : mkCtx (cx_actions (alike x) ++ cx_actions c) (cx_unique c) None =
                 alike (mkT (t_actions x ++ map (pair p) (cx_actions c)) (cx_unique c) (t_seen x) (t_maps x))).
    { unfold alike. simpl. rewrite map_app, map_snd_pair. reflexivity. }
    rewrite He in Hf. simpl map. unfold process. simpl z_each. unfold zbind. rewrite Hf.
    split; [destruct o as [[]|e]; reflexivity|]. split; [exact Hm|]. intros _ _. exact Hs.
  - intros ns IH p x r Hm Hs Hno. rewrite read_group in Hno |- *. rewrite process_group.
    specialize (IH p (opened x) r Hm Hs).
    destruct (read_nodes p ns r) as [l r1]. simpl in Hno, IH |- *. specialize (IH Hno).
    destruct (process_nodes p ns (opened x)) as [o x1]. simpl in IH |- *.
    destruct IH as (I1 & I2 & I3). split; [exact I1|]. split; [apply nearest_tl; exact I2|].
    intros v Hv. rewrite <- (I3 v Hv). unfold after_group. destruct (rd_redefined r); reflexivity.
  - intros f ns IH p x r Hm Hs Hno. rewrite read_include in Hno |- *. rewrite process_include.
    rewrite <- Hs. destruct (existsb (String.eqb f) (rd_seen r)) eqn:Hx.
    { simpl. split; [reflexivity|]. split; [exact Hm|]. intros _ _. exact Hs. }
    specialize (IH (p ++ [f])%list (opened (marked f x)) (mkReading (rd_redefined r) (rd_meaning r) (f :: rd_seen r))
                   Hm).
    simpl rd_seen in IH. simpl t_seen in IH. rewrite Hs in IH. specialize (IH eq_refl).
    rewrite Hs in Hno |- *.
    destruct (read_nodes (p ++ [f])%list ns _) as [l r1]. simpl in Hno, IH |- *. specialize (IH Hno).
    destruct (process_nodes (p ++ [f])%list ns (opened (marked f x))) as [o x1]. simpl in IH |- *.
    destruct IH as (I1 & I2 & I3). split; [exact I1|]. split; [apply nearest_tl; exact I2|].
    intros v Hv. rewrite <- (I3 v Hv). unfold after_group. destruct (rd_redefined r); reflexivity.
  - intros p x r Hm Hs _. simpl. split; [reflexivity|]. split; [exact Hm|]. intros _ _. exact Hs.
  - intros n ns IHn IHs p x r Hm Hs Hno. simpl in Hno |- *.
    specialize (IHn p x r Hm Hs). destruct (read_node p n r) as [l r1].
    specialize (IHs p (snd (process_node p n x)) r1).
    destruct (read_nodes p ns r1) as [l' r2]. simpl in *. rewrite map_app in Hno |- *.
    specialize (IHn (fun d Hd => Hno d (in_or_app _ _ _ (or_introl Hd)))).
    destruct IHn as (I1 & I2 & I3). unfold process in *. rewrite z_each_app, I1.
    destruct (process_node p n x) as [[v|e] x1]; simpl in *.
    + apply IHs; [exact I2|exact (I3 v eq_refl)|]. intros d Hd. apply Hno. apply in_or_app. right. exact Hd.
    + split; [reflexivity|]. split; [exact I2|]. intros v H. discriminate.
Qed.

Lemma leads_irrefl p : leads p p = false.
Proof. induction p as [|a p IH]; simpl; [reflexivity|]. rewrite String.eqb_refl. exact IH. Qed.

Lemma resolved_all l : NoDup (discrs (map snd l)) -> resolved l = map snd l.
Proof.
  intros Hn. unfold resolved. f_equal.
  assert (H : forall l', incl l' l -> filter (fun a => negb (overridden l a)) l' = l').
  { induction l' as [|[p a] l' IH]; intros Hin; [reflexivity|]. simpl.
    assert (Ho : overridden l (p, a) = false).
    { unfold overridden. simpl. destruct (a_discr a) as [d|] eqn:Hd; [|reflexivity].
      apply not_true_iff_false. intros H. apply existsb_exists in H. destruct H as ([q b] & Hb & H).
      simpl in H. apply andb_true_iff in H. destruct H as [H1 H2].
      destruct (a_discr b) as [d'|] eqn:Hd'; [|discriminate].
      destruct (discr_eqb_spec d d') as [->|]; [|discriminate].
      assert (Ha : In (p, a) l) by (apply Hin; left; reflexivity).
      enough ((q, b) = (p, a)) as He.
      { injection He as -> ->. rewrite leads_irrefl in H1. discriminate. }
      clear -Hn Ha Hb Hd Hd'. induction l as [|[p0 a0] l IH]; [contradiction|].
      assert (Hl : NoDup (discrs (map snd l))).
      { unfold discrs in *. simpl in Hn. destruct (a_discr a0); simpl in Hn; [inversion Hn; assumption|exact Hn]. }
      destruct Ha as [Ha|Ha], Hb as [Hb|Hb]; try congruence; [| |exact (IH Hl Hb Ha)].
      - exfalso. injection Ha as -> ->. unfold discrs in Hn. simpl in Hn. rewrite Hd in Hn.
        inversion Hn as [|y z Hni _]; subst. apply Hni. apply (in_discrs b d'); [|exact Hd'].
        apply (in_map snd l (q, b)). exact Hb.
      - exfalso. injection Hb as -> ->. unfold discrs in Hn. simpl in Hn. rewrite Hd' in Hn.
        inversion Hn as [|y z Hni _]; subst. apply Hni. apply (in_discrs a d'); [|exact Hd].
        apply (in_map snd l (p, a)). exact Ha. }
    rewrite Ho. simpl. f_equal. apply IH. intros x Hx. apply Hin. right. exact Hx. }
  apply H. intros x Hx. exact Hx.
Qed.

Lemma split_lemma E ns w :
  (forall d, In d (directives ns) -> is_redefinition d = false) ->
  (forall i, In i (ifaces (directives ns)) -> iface_wf i) ->
  NoDup (claims (directives ns)) ->
  configure_files E ns w = configure E (directives ns) w.
Proof.
  intros Hno Hwf Hn. unfold configure_files, configure.
  destruct (flat_lemma ns [] start beginning eq_refl eq_refl Hno) as (H1 & _ & _).
  fold (statements ns) in H1. fold (directives ns) in H1. change (alike start) with empty_ctx in H1.
  rewrite H1.
  assert (Hawf : all_wf (statements ns)).
  { intros s i Hs Hi. apply Hwf. unfold ifaces in *. simpl in Hi. rewrite app_nil_r in Hi.
    apply in_flat_map. exists (sm_dir s). split; [apply in_map; exact Hs|exact Hi]. }
  assert (Hst : matches start beginning).
  { split; [discriminate|]. split; [reflexivity|]. split; [reflexivity|]. split; [discriminate|].
    intros H. exfalso. apply H. reflexivity. }
  destruct (nodes_outcome ns [] start beginning Hst Hawf)
    as [(_ & x & l & Hr & _ & _ & Ha & Hmd)|(_ & e & x & Hr & _)];
    rewrite Hr; simpl; [|reflexivity].
  fold (statements ns) in Hmd. simpl in Ha, Hmd. assert (F := made_facts _ _ _ _ Hmd Hawf). rewrite Ha.
  rewrite resolved_all; [reflexivity|].
  apply (discrs_nodup _ (fc_usual _ _ _ _ F)).
  - rewrite (fc_uniques _ _ _ _ F). apply seq_NoDup.
  - rewrite claims_tagged.
    assert (Hp : Permutation (map snd (tagged l)) (claims (directives ns))).
    { rewrite (Permutation_map snd (fc_claims _ _ _ _ F)). unfold claimed, claims, directives.
      generalize (statements ns) as S. clear. induction S as [|s S IH]; simpl; [constructor|].
      rewrite map_app, map_map. simpl. rewrite map_id. apply Permutation_app_head. exact IH. }
    apply (Permutation_NoDup (Permutation_sym Hp)). exact Hn.
Qed.

(** ** The configuration of the package *)

Definition shipped : list statement :=
  fst (read_node [] (NInclude "zope.security/configure.zcml" configure_zcml) beginning).

Lemma application_shipped post s : In s shipped -> In s (statements (application post)).
Proof.
  intros H. unfold statements, application, shipped in *.
  change (read_nodes [] (NInclude "zope.security/configure.zcml" configure_zcml :: post) beginning)
    with (let (l, r1) := read_node [] (NInclude "zope.security/configure.zcml" configure_zcml) beginning in
          let (l', r2) := read_nodes [] post r1 in ((l ++ l')%list, r2)).
  destruct (read_node [] (NInclude "zope.security/configure.zcml" configure_zcml) beginning) as [l r1].
  destruct (read_nodes [] post r1) as [l' r2]. apply in_or_app. left. exact H.
Qed.

Lemma title_exists E ns w w' s id title :
  files_loadable ns w -> configure_files E ns w = (Ok tt, w') ->
  In s (statements ns) -> sm_dir s = ZPermission id title ->
  exists title', dget String.eqb (w_perms w') id = Some title'.
Proof.
  intros Hl H Hs Hd. destruct (standing_perm _ s id title Hs Hd) as (s' & title' & Hs' & Hd' & Hst).
  exists title'. destruct (decides_lemma E ns w w' Hl H) as (_ & _ & _ & _ & D).
  apply (D s'); [|exact Hd']. split; [exact Hs'|]. split; [rewrite Hd'; left; reflexivity|exact Hst].
Qed.


Lemma shipped_permission id : In id shipped_permissions ->
  exists s title, In s shipped /\ sm_dir s = ZPermission id title.
Proof.
  intros H.
  assert (Hb : existsb (fun s => match sm_dir s with ZPermission i _ => String.eqb i id | _ => false end)
                 shipped = true).
  { unfold shipped_permissions in H.
    repeat (destruct H as [<-|H]; [vm_compute; reflexivity|]). contradiction. }
  apply existsb_exists in Hb. destruct Hb as (s & Hs & Hd).
  destruct (sm_dir s) as [i title| | | |] eqn:Hi; try discriminate Hd.
  apply String.eqb_eq in Hd. subst i. exists s, title. auto.
Qed.

Lemma shipped_paths p c : In (p, c) (claimed shipped) ->
  forall q, above q p -> q = [] \/ q = ["zope.security/configure.zcml"].
Proof.
  intros Hin q Hq.
  assert (Hp : p = ["zope.security/configure.zcml"] \/
               p = ["zope.security/configure.zcml"; "zope.security/permissions.zcml"]).
  { unfold claimed in Hin. apply in_flat_map in Hin. destruct Hin as (s & Hs & Hin).
    apply in_map_iff in Hin. destruct Hin as (c' & Hx & _). injection Hx as <- _.
    assert (Hb : forallb (fun s => if list_eq_dec string_dec (sm_path s) ["zope.security/configure.zcml"]
                                   then true else if list_eq_dec string_dec (sm_path s)
                                     ["zope.security/configure.zcml"; "zope.security/permissions.zcml"]
                                   then true else false) shipped = true) by (vm_compute; reflexivity).
    rewrite forallb_forall in Hb. specialize (Hb s Hs).
    destruct (list_eq_dec _ _ _) as [->|_] in Hb; [auto|].
    destruct (list_eq_dec _ _ _) as [->|_] in Hb; [auto|discriminate]. }
  apply leads_spec in Hq. destruct q as [|x q]; [auto|]. right.
  destruct Hp as [->| ->].
  - simpl in Hq. apply andb_true_iff in Hq. destruct Hq as [_ Hq]. destruct q; discriminate.
  - change (String.eqb x "zope.security/configure.zcml" && leads q ["zope.security/permissions.zcml"] = true) in Hq.
    apply andb_true_iff in Hq. destruct Hq as [Hx Hq]. apply String.eqb_eq in Hx. subst x.
    destruct q as [|y q]; [reflexivity|]. simpl in Hq. apply andb_true_iff in Hq.
    destruct Hq as [_ Hq]. destruct q; discriminate.
Qed.


Lemma seen_lemma f ns : forall p r, In f (rd_seen r) -> ~ In f p ->
  In f (rd_seen (snd (read_nodes p ns r))) /\
  forall s, In s (fst (read_nodes p ns r)) -> ~ In f (sm_path s).
Proof.
  revert ns.
  set (Q := fun ns => forall p r, In f (rd_seen r) -> ~ In f p ->
    In f (rd_seen (snd (read_nodes p ns r))) /\
    forall s, In s (fst (read_nodes p ns r)) -> ~ In f (sm_path s)).
  set (P := fun n => forall p r, In f (rd_seen r) -> ~ In f p ->
    In f (rd_seen (snd (read_node p n r))) /\
    forall s, In s (fst (read_node p n r)) -> ~ In f (sm_path s)).
  apply (nodes_ind2 P Q); unfold P, Q; clear P Q.
  - intros d p r Hr Hp. simpl. split; [exact Hr|]. intros s [<-|[]]. exact Hp.
  - intros ns IH p r Hr Hp. rewrite read_group. specialize (IH p r Hr Hp).
    destruct (read_nodes p ns r) as [l r1]. simpl in *. destruct IH as [I1 I2]. split; [|exact I2].
    unfold after_group. destruct (rd_redefined r); exact I1.
  - intros g ns IH p r Hr Hp. rewrite read_include. destruct (existsb (String.eqb g) (rd_seen r)) eqn:Hx.
    { simpl. split; [exact Hr|]. intros s []. }
    assert (Hg : f <> g).
    { intros ->. apply not_true_iff_false in Hx. apply Hx. apply existsb_exists. exists g.
      split; [exact Hr|apply String.eqb_refl]. }
    specialize (IH (p ++ [g])%list (mkReading (rd_redefined r) (rd_meaning r) (g :: rd_seen r))
                   (or_intror Hr)).
    assert (Hp' : ~ In f (p ++ [g])%list).
    { intros H. apply in_app_or in H. destruct H as [H|[H|[]]]; [exact (Hp H)|congruence]. }
    specialize (IH Hp'). destruct (read_nodes _ ns _) as [l r1]. simpl in *. destruct IH as [I1 I2].
    split; [|exact I2]. unfold after_group. destruct (rd_redefined r); exact I1.
  - intros p r Hr Hp. simpl. split; [exact Hr|]. intros s [].
  - intros n ns IHn IHs p r Hr Hp. simpl. specialize (IHn p r Hr Hp).
    destruct (read_node p n r) as [l r1]. simpl in IHn. destruct IHn as [I1 I2].
    specialize (IHs p r1 I1 Hp). destruct (read_nodes p ns r1) as [l' r2]. simpl in *.
    destruct IHs as [J1 J2]. split; [exact J1|]. intros s Hs. apply in_app_or in Hs.
    destruct Hs as [Hs|Hs]; [exact (I2 s Hs)|exact (J2 s Hs)].
Qed.

Lemma application_statements post s : In s (statements (application post)) ->
  In s shipped \/ ~ In "zope.security/configure.zcml" (sm_path s).
Proof.
  unfold statements, application, shipped.
  change (read_nodes [] (NInclude "zope.security/configure.zcml" configure_zcml :: post) beginning)
    with (let (l, r1) := read_node [] (NInclude "zope.security/configure.zcml" configure_zcml) beginning in
          let (l', r2) := read_nodes [] post r1 in ((l ++ l')%list, r2)).
  assert (Hs : In "zope.security/configure.zcml"
    (rd_seen (snd (read_node [] (NInclude "zope.security/configure.zcml" configure_zcml) beginning)))).
  { vm_compute. tauto. }
  destruct (read_node [] (NInclude "zope.security/configure.zcml" configure_zcml) beginning) as [l r1].
  simpl in Hs. destruct (seen_lemma "zope.security/configure.zcml" post [] r1 Hs (fun x => x)) as [_ H].
  destruct (read_nodes [] post r1) as [l' r2]. simpl in *. intros Hin. apply in_app_or in Hin.
  destruct Hin as [Hin|Hin]; [left; exact Hin|right; exact (H s Hin)].
Qed.

Lemma shipped_disjoint s s' c : In s shipped -> In s' shipped -> In c (directive_claims (sm_dir s)) ->
  In c (directive_claims (sm_dir s')) -> ~ above (sm_path s') (sm_path s).
Proof.
  intros Hs Hs' Hc Hc' Ha. apply leads_spec in Ha.
  assert (Hb : forallb (fun a => forallb (fun b => negb (leads (sm_path b) (sm_path a)) ||
      forallb (fun c => negb (existsb (claim_eqb c) (directive_claims (sm_dir b))))
        (directive_claims (sm_dir a))) shipped) shipped = true) by (vm_compute; reflexivity).
  rewrite forallb_forall in Hb. specialize (Hb s Hs). rewrite forallb_forall in Hb. specialize (Hb s' Hs').
  rewrite Ha in Hb. simpl in Hb. rewrite forallb_forall in Hb. specialize (Hb c Hc).
  apply negb_true_iff in Hb. apply not_true_iff_false in Hb. apply Hb. apply existsb_exists.
  exists c. split; [exact Hc'|]. apply claim_eqb_spec. reflexivity.
Qed.

Lemma shipped_in_force post s c : In s shipped -> In c (directive_claims (sm_dir s)) ->
  leaves (application post) c -> in_force (application post) s c.
Proof.
  intros Hs Hc Hl. split; [apply application_shipped; exact Hs|]. split; [exact Hc|].
  intros q Hq Ha. unfold claimed in Hq. apply in_flat_map in Hq. destruct Hq as (s' & Hs' & Hq).
  apply in_map_iff in Hq. destruct Hq as (c' & Hx & Hq). injection Hx as Hx1 Hx2. subst c' q.
  assert (Hin : In (sm_path s, c) (claimed shipped)).
  { unfold claimed. apply in_flat_map. exists s. split; [exact Hs|]. apply in_map. exact Hc. }
  destruct (shipped_paths _ c Hin _ Ha) as [Hp|Hp]; [exact (Hl s' Hs' Hp Hq)|].
  destruct (application_statements post s' Hs') as [H|H].
  - exact (shipped_disjoint s s' c Hs H Hc Hq Ha).
  - apply H. rewrite Hp. left. reflexivity.
Qed.

Lemma shipped_lemma E post w w' :
  files_loadable (application post) w -> configure_files E (application post) w = (Ok tt, w') ->
  (forall id, In id shipped_permissions -> exists title, dget String.eqb (w_perms w') id = Some title) /\
  (forall n, In n ["id"; "title"; "description"] ->
     leaves (application post) (ClRead Permission_class n) ->
     unclaimed (application post) (ClModule Permission_class n) ->
     ~ copying Permission_class (directives (application post)) ->
     read_protection (w_core w') Permission_class n = Some PPublic) /\
  (forall s id title, In s shipped -> sm_dir s = ZPermission id title ->
     leaves (application post) (ClPermission id) -> dget String.eqb (w_perms w') id = Some title).
Proof.
  intros Hl H. destruct (decides_lemma E _ w w' Hl H) as (D1 & _ & _ & _ & D5). split; [|split].
  - intros id Hid. destruct (shipped_permission id Hid) as (s & title & Hs & Hd).
    exact (title_exists E _ w w' s id title Hl H (application_shipped post s Hs) Hd).
  - intros n Hn Hlv Hm Hc.
    set (s := mkStatement ["zope.security/configure.zcml"] literal
                (ZClass Permission_class [CAllow [] [IPermission]])).
    assert (Hs : In s shipped) by (vm_compute; left; reflexivity).
    assert (Hr : In n (read_names [] [IPermission])) by exact Hn.
    assert (Hp : protects (sm_meaning s) (sm_dir s) (ClRead Permission_class n) "zope.Public").
    { apply (PrClass _ _ _ (CAllow [] [IPermission])); [left; reflexivity|]. constructor. exact Hr. }
    rewrite (D1 s Permission_class n "zope.Public"); [reflexivity| |exact Hp|exact Hm|exact Hc].
    apply shipped_in_force; [exact Hs| |exact Hlv]. exact (protects_ok_claims _ _ _ _ Hp).
  - intros s id title Hs Hd Hlv. apply (D5 s); [|exact Hd].
    apply shipped_in_force; [exact Hs| |exact Hlv]. rewrite Hd. left. reflexivity.
Qed.

(** ** Enforcement *)

Lemma reads_cases ds : forall (f : protection) k n, (forall l, ~ In (DLike k l) ds) ->
  declared_reads ds f k n = f k n \/
  exists p, In (DName k n p) ds /\ declared_reads ds f k n = Some (meant p).
Proof.
  induction ds as [|d ds IH]; intros f k n Hl; [left; reflexivity|].
  change (declared_reads (d :: ds) f) with (declared_reads ds (declared_read d f)).
  destruct (IH (declared_read d f) k n (fun l H => Hl l (or_intror H))) as [H|(p & Hp & H)]; rewrite H.
  - destruct d as [k' n' p'|k' n' p'|k' l']; simpl; [unfold declare|left; reflexivity|unfold inherit].
    + destruct (rkey_eqb_spec k k') as [->|]; simpl; [|left; reflexivity].
      destruct (String.eqb_spec n n') as [->|]; [|left; reflexivity].
      right. exists p'. split; [left; reflexivity|reflexivity].
    + destruct (rkey_eqb_spec k k') as [->|]; [|left; reflexivity].
      exfalso. exact (Hl l' (or_introl eq_refl)).
  - right. exists p. split; [right; exact Hp|reflexivity].
Qed.

Lemma writes_cases ds : forall (f : protection) k n, (forall l, ~ In (DLike k l) ds) ->
  declared_writes ds f k n = f k n \/
  exists p, In (DSet k n p) ds /\ declared_writes ds f k n = Some (meant p).
Proof.
  induction ds as [|d ds IH]; intros f k n Hl; [left; reflexivity|].
  change (declared_writes (d :: ds) f) with (declared_writes ds (declared_write d f)).
  destruct (IH (declared_write d f) k n (fun l H => Hl l (or_intror H))) as [H|(p & Hp & H)]; rewrite H.
  - destruct d as [k' n' p'|k' n' p'|k' l']; simpl; [left; reflexivity|unfold declare|unfold inherit].
    + destruct (rkey_eqb_spec k k') as [->|]; simpl; [|left; reflexivity].
      destruct (String.eqb_spec n n') as [->|]; [|left; reflexivity].
      right. exists p'. split; [left; reflexivity|reflexivity].
    + destruct (rkey_eqb_spec k k') as [->|]; [|left; reflexivity].
      exfalso. exact (Hl l' (or_introl eq_refl)).
  - right. exists p. split; [right; exact Hp|reflexivity].
Qed.

Lemma protect_by_not_none t : protect_by t <> PNone.
Proof. unfold protect_by. destruct (String.eqb t "zope.Public"); discriminate. Qed.

Lemma unregistered_none s k n : dget rkey_eqb (st_reg s) k = None ->
  read_protection s k n = None /\ write_protection s k n = None.
Proof. intros H. unfold read_protection, write_protection. rewrite H. auto. Qed.

Lemma files_enforced_lemma E ns w w' cls obj :
  files_loadable ns w -> configure_files E ns w = (Ok tt, w') -> e_watch E = 0 ->
  dget rkey_eqb (st_reg (w_core w)) (KType cls) = None ->
  ~ copying (KType cls) (directives ns) ->
  let R := read_protection (w_core w') (KType cls) in
  let W := write_protection (w_core w') (KType cls) in
  (exists n, R n <> None \/ W n <> None) ->
  exists c,
    (concrete_type E (w_core w') obj = cls ->
     forall f, do_select E (S f) obj (w_core w') = (Ok (Some c), w_core w', [])) /\
    reads_checked E (w_core w') R c obj /\ writes_checked E (w_core w') W c obj.
Proof.
  intros Hl Hc HW Hn Hcp R W (n & Hex).
  destruct (files_loaded E ns w w' Hl Hc) as (u & l & F & (X1 & X2 & _ & _ & _ & Hk) & _).
  assert (Hlk : forall l', ~ In (DLike (KType cls) l') (decls_in (resolved l))).
  { intros l' H. exact (Hcp (like_copying _ _ _ _ F _ _ H)). }
  assert (HnR : no_none R).
  { intros x H. unfold R in H. rewrite X1 in H.
    destruct (reads_cases _ (read_protection (w_core w)) (KType cls) x Hlk) as [H1|(p & Hp & H1)];
      rewrite H1 in H.
    - rewrite (proj1 (unregistered_none _ _ x Hn)) in H. discriminate.
    - destruct (name_from _ _ _ _ F _ _ _ Hp) as (s & t & _ & -> & _). rewrite meant_zperm in H.
      injection H as H. exact (protect_by_not_none t H). }
  assert (HnW : no_none W).
  { intros x H. unfold W in H. rewrite X2 in H.
    destruct (writes_cases _ (write_protection (w_core w)) (KType cls) x Hlk) as [H1|(p & Hp & H1)];
      rewrite H1 in H.
    - rewrite (proj2 (unregistered_none _ _ x Hn)) in H. discriminate.
    - destruct (set_from _ _ _ _ F _ _ _ Hp) as (s & t & _ & -> & _). rewrite meant_zperm in H.
      injection H as H. exact (protect_by_not_none t H). }
  assert (Hlive : exists i c, live (w_core w') (KType cls) i c).
  { destruct Hex as [H|H].
    - destruct (R n) as [p|] eqn:HR; [|congruence]. exact (read_some_live _ _ n p HR).
    - destruct (W n) as [p|] eqn:HR; [|congruence]. exact (write_some_live _ _ n p HR). }
  destruct Hlive as (i & c & Hlv).
  destruct (Hk _ _ _ Hlv) as [[H0 _]|[Hkind Hi]]; [congruence|].
  assert (Hplain : ck_kind c = CkPlain).
  { rewrite Hkind. unfold Checker_class. rewrite HW. reflexivity. }
  destruct (live_enforced E _ _ i c obj Hlv Hplain HnR HnW) as [Hrd Hwr].
  exists (VChk i). split; [|split; [exact Hrd|exact Hwr]].
  intros Hty f. apply (live_selected E _ cls i c obj f HW Hlv Hi Hty).
Qed.

Lemma shipped_enforced_lemma E post w w' obj :
  files_loadable (application post) w -> configure_files E (application post) w = (Ok tt, w') ->
  e_watch E = 0 -> dget rkey_eqb (st_reg (w_core w)) Permission_class = None ->
  ~ copying Permission_class (directives (application post)) ->
  (forall n, leaves (application post) (ClRead Permission_class n) /\
             unclaimed (application post) (ClModule Permission_class n) /\
             unclaimed (application post) (ClWrite Permission_class n)) ->
  exists c,
    (concrete_type E (w_core w') obj = "zope.security.permission.Permission" ->
     forall f, do_select E (S f) obj (w_core w') = (Ok (Some c), w_core w', [])) /\
    (forall f m n r s tr, m <> MSetattr -> In n ["id"; "title"; "description"] ->
       do_check E (S (S f)) m c obj n (w_core w') = (r, s, tr) -> r = Ok tt /\ s = w_core w' /\ tr = []) /\
    (forall f n r s tr,
       do_check E (S f) MSetattr c obj n (w_core w') = (r, s, tr) ->
       r = Exc (EForbidden n obj) /\ s = w_core w' /\ tr = []).
Proof.
  intros Hl Hc HW Hn Hcp Hp.
  destruct (shipped_lemma E post w w' Hl Hc) as (_ & S2 & _).
  assert (Hr : forall n, In n ["id"; "title"; "description"] ->
                 read_protection (w_core w') Permission_class n = Some PPublic).
  { intros n Hin. destruct (Hp n) as (H1 & H2 & _). exact (S2 n Hin H1 H2 Hcp). }
  assert (Hw : forall n, write_protection (w_core w') Permission_class n = None).
  { intros n. destruct (Hp n) as (_ & _ & H3). destruct (kept_lemma E _ w w' Hl Hc) as (_ & K & _).
    rewrite (K _ n H3 Hcp). exact (proj2 (unregistered_none _ _ n Hn)). }
  destruct (files_enforced_lemma E _ w w' "zope.security.permission.Permission" obj Hl Hc HW Hn Hcp)
    as (c & Hs & Hrd & Hwr).
  { exists "id". left. fold Permission_class. rewrite (Hr "id"); [discriminate|left; reflexivity]. }
  exists c. split; [exact Hs|]. split.
  - intros f m n r s tr Hm Hin H.
    assert (Hit : n = "__iter__" -> plain_object obj).
    { intros ->. simpl in Hin. destruct Hin as [Hin|[Hin|[Hin|[]]]]; discriminate Hin. }
    assert (Hx := Hrd f m n r s tr Hm Hit H). assert (Ht := Hr n Hin). unfold Permission_class in Ht.
    inversion Hx; subst; try congruence; auto.
  - intros f n r s tr H. assert (Hx := Hwr f n r s tr H). assert (Ht := Hw n). unfold Permission_class in Ht.
    inversion Hx; subst; try congruence; auto.
Qed.

Lemma nodup_consistent l : NoDup (map snd l) -> consistent l.
Proof.
  intros Hn i j p q c Hi Hj _ _.
  rewrite NoDup_nth_error in Hn. apply Hn.
  - apply nth_error_Some. rewrite (map_nth_error snd i l Hi). discriminate.
  - rewrite (map_nth_error snd i l Hi), (map_nth_error snd j l Hj). reflexivity.
Qed.

Lemma shipped_loads_lemma E w : files_loadable (application []) w ->
  exists w', configure_files E (application []) w = (Ok tt, w').
Proof.
  intros Hl. apply (files_iff_lemma E _ w Hl). split; [|split].
  - assert (H : statements (application []) = shipped) by (vm_compute; reflexivity). rewrite H.
    intros s Hs. unfold shipped in Hs. simpl in Hs.
    repeat (destruct Hs as [<-|Hs]; [simpl; try exact I|]); [|contradiction].
    split; [exists "zope.security.permission.Permission"; reflexivity|].
    intros x [<-|[]]. simpl. right. discriminate.
  - apply nodup_consistent. vm_compute. repeat constructor; simpl; intuition discriminate.
  - intros t Ht. vm_compute in Ht. contradiction.
Qed.

Lemma shipped_lemma' E post w w' :
  files_loadable (application post) w -> configure_files E (application post) w = (Ok tt, w') ->
  (forall id, In id shipped_permissions -> exists title, dget String.eqb (w_perms w') id = Some title) /\
  (forall n, In n ["id"; "title"; "description"] ->
     leaves (application post) (ClRead Permission_class n) ->
     unclaimed (application post) (ClModule Permission_class n) ->
     ~ copying Permission_class (directives (application post)) ->
     read_protection (w_core w') Permission_class n = Some PPublic) /\
  (forall s id title, In s (statements (application [])) -> sm_dir s = ZPermission id title ->
     leaves (application post) (ClPermission id) -> dget String.eqb (w_perms w') id = Some title).
Proof.
  intros Hl H. destruct (shipped_lemma E post w w' Hl H) as (H1 & H2 & H3).
  split; [exact H1|]. split; [exact H2|].
  assert (He : statements (application []) = shipped) by (vm_compute; reflexivity).
  rewrite He. exact H3.
Qed.
