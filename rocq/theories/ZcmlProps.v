(** * ZcmlProps: lemmas in the form used by Properties_Zcml. *)

From Coq Require Import List String Bool Arith ZArith Lia Permutation.
From Verif Require Import Base Domain CheckerModel ProxyModel MFacts Spec RegSpec CheckFacts
  RegistryFacts Management Protect ProtectSpec ProtectFacts Zcml ZcmlSpec ZcmlFacts.
Import ListNotations.
Open Scope string_scope.

(** ** What a registered checker enforces *)

Lemma live_enforced E s k i c obj :
  live s k i c -> ck_kind c = CkPlain ->
  no_none (read_protection s k) -> no_none (write_protection s k) ->
  reads_checked E s (read_protection s k) (VChk i) obj /\
  writes_checked E s (write_protection s k) (VChk i) obj.
Proof.
  intros Hl Hk Hnr Hnw. pose proof Hl as [H1 H2].
  assert (Hp : PlainChecker s (VChk i) (st_dicts s (ck_get c)) (st_dicts s (ck_set c))).
  { exists i, c. repeat split; auto. }
  assert (Htr : forall n, table_of (st_dicts s (ck_get c)) n = read_protection s k n).
  { intros n. symmetry. apply (read_live s _ _ _ n Hl). }
  assert (Htw : forall n, table_of (st_dicts s (ck_set c)) n = write_protection s k n).
  { intros n. symmetry. apply (write_live s _ _ _ n Hl). }
  split.
  - intros f m n r s2 tr Hm Hit Hck.
    eapply ReadCheck_ext; [apply Htr|].
    eapply check_exact_lemma; [exact Hp|exact Hm| |exact Hit|exact Hck].
    intros n'. rewrite Htr. apply Hnr.
  - intros f n r s2 tr Hck.
    eapply WriteCheck_ext; [apply Htw|].
    eapply check_setattr_exact_lemma; [exact Hp| |exact Hck].
    intros n'. rewrite Htw. apply Hnw.
Qed.

Lemma live_selected E s cls i c obj f :
  e_watch E = 0 -> live s (KType cls) i c -> i <> default_cid -> concrete_type E s obj = cls ->
  do_select E (S f) obj s = (Ok (Some (VChk i)), s, []).
Proof.
  intros HW [H1 H2] Hi Hty.
  assert (Hreg : registered E s obj = VChk i).
  { unfold registered. rewrite type_of_spec, Hty, H1. reflexivity. }
  assert (Hset : settled E s obj).
  { unfold settled, registered_for. rewrite Hty, H1. right. exact I. }
  rewrite (do_select_settled E f obj s Hset), Hreg.
  change (value_eqb (VChk i) VNoProxy) with false.
  destruct (value_eqb_spec (VChk i) (VChk default_cid)) as [Heq|Hne]; [inversion Heq; congruence|].
  rewrite andb_false_r. simpl. unfold settled_outcome, is_Checker. rewrite H2, HW.
  destruct (e_cimpl E); reflexivity.
Qed.

Lemma live_module_selected E s m i c f :
  e_watch E = 0 -> live s (KMod m) i c ->
  dget rkey_eqb (st_reg s) (KType "module") = Some VModFun ->
  do_select E (S (S f)) (VMod m) s = (Ok (Some (VChk i)), s, []).
Proof.
  intros HW [H1 H2] Hmf.
  assert (Hreg : registered E s (VMod m) = VModFun).
  { unfold registered. rewrite type_of_spec. simpl. rewrite Hmf. reflexivity. }
  assert (Hc : is_Checker E s (VChk i) = true).
  { unfold is_Checker. rewrite H2, HW. destruct (e_cimpl E); reflexivity. }
  assert (Hsel : i_select (interp_n E (S (S f))) VModFun (VMod m) s = (Ok (Some (VChk i)), s, [])).
  { simpl. unfold select_loop at 1. rewrite bind_get. change (is_Checker E s VModFun) with false.
    unfold call_factory. rewrite bind_assoc, bind_get, H1, bind_ret.
    change (value_eqb (VChk i) VNoProxy || value_eqb (VChk i) VNone)%bool with false.
    simpl. unfold select_loop. rewrite bind_get, Hc. reflexivity. }
  unfold do_select, selectChecker, selectCheckerPy, selectCheckerC.
  destruct (e_cimpl E); rewrite bind_get, Hreg; exact Hsel.
Qed.

Lemma read_some_live s k n p : read_protection s k n = Some p -> exists i c, live s k i c.
Proof.
  unfold read_protection. destruct (dget rkey_eqb (st_reg s) k) as [v|] eqn:H; [|discriminate].
  destruct v; try discriminate. destruct (st_chks s c) as [x|] eqn:H2; [|discriminate].
  intros _. exists c, x. split; assumption.
Qed.
Lemma write_some_live s k n p : write_protection s k n = Some p -> exists i c, live s k i c.
Proof.
  unfold write_protection. destruct (dget rkey_eqb (st_reg s) k) as [v|] eqn:H; [|discriminate].
  destruct v; try discriminate. destruct (st_chks s c) as [x|] eqn:H2; [|discriminate].
  intros _. exists c, x. split; assumption.
Qed.

(** ** Files that load *)

Lemma load_ok_lemma E ds w : loadable ds w ->
  ((exists w', configure E ds w = (Ok tt, w')) <-> accepted ds w).
Proof.
  intros [Hc Hi]. destruct (configure_lemma E ds w Hc Hi)
    as [(H1 & e & H2 & _)|[(H1 & H2 & H3)|[(H1 & H2 & H3 & w' & H4 & _)|(H1 & H2 & H3 & w' & H4 & _)]]].
  - split; [intros (w' & H); congruence|]. intros (H & _). contradiction.
  - split; [intros (w' & H); congruence|]. intros (_ & H & _). contradiction.
  - split; [intros (w'' & H); congruence|]. intros (_ & _ & H). contradiction.
  - split; [intros _; repeat split; assumption|]. intros _. exists w'. exact H4.
Qed.

Lemma load_effect_lemma E ds w w' : loadable ds w ->
  configure E ds w = (Ok tt, w') -> loaded E ds w w'.
Proof.
  intros [Hc Hi] H. destruct (configure_lemma E ds w Hc Hi)
    as [(H1 & e & H2 & _)|[(H1 & H2 & H3)|[(H1 & H2 & H3 & w1 & H4 & _)|(H1 & H2 & H3 & w1 & H4 & H5)]]];
    congruence.
Qed.

(** ** C46 *)

Lemma inherit_liken k l f k' n :
  liken k (Some l) f k' n = if rkey_eqb k' k
                            then match f l n with Some p => Some p | None => f k n end
                            else f k' n.
Proof. reflexivity. Qed.

Lemma in_read_names a i n :
  In n (read_names a i) <-> In n a \/ exists j, In j i /\ In n (map fst (if_names j)).
Proof. unfold read_names. rewrite in_app_iff, in_flat_map. reflexivity. Qed.

Lemma in_writable sc n : In n (writable sc) <-> In (n, Some false) (if_names sc).
Proof.
  unfold writable. rewrite in_flat_map. split.
  - intros ([m v] & H1 & H2). simpl in H2. destruct v as [[|]|]; try contradiction.
    destruct H2 as [<-|[]]. exact H1.
  - intros H. exists (n, Some false). split; [exact H|left; reflexivity].
Qed.

Lemma in_write_names a i n :
  In n (write_names a i) <-> In n a \/ exists j, In j i /\ In (n, Some false) (if_names j).
Proof.
  unfold write_names. rewrite in_app_iff, in_flat_map. split.
  - intros [H|(x & H1 & H2)]; [left; exact H|]. right. exists x. rewrite <- in_writable. auto.
  - intros [H|(x & H1 & H2)]; [left; exact H|]. right. exists x. rewrite in_writable. auto.
Qed.

Lemma protect_in k ns t f n : In n ns -> protect k ns t f k n = Some (protect_by t).
Proof.
  intros H. unfold protect. destruct (rkey_eqb_spec k k); [|congruence]. simpl.
  apply existsb_In in H. rewrite H. reflexivity.
Qed.
Lemma protect_out k ns t f n : ~ In n ns -> protect k ns t f k n = f k n.
Proof.
  intros H. unfold protect. destruct (existsb (String.eqb n) ns) eqn:He.
  - apply existsb_In in He. contradiction.
  - rewrite andb_false_r. reflexivity.
Qed.
Lemma protect_other k ns t f k' n : k' <> k -> protect k ns t f k' n = f k' n.
Proof. intros H. unfold protect. destruct (rkey_eqb_spec k' k); [contradiction|reflexivity]. Qed.

Lemma liken_self k like f n :
  liken k like f k n =
  match like with
  | Some l => match f l n with Some q => Some q | None => f k n end
  | None => f k n
  end.
Proof.
  destruct like; [|reflexivity]. rewrite inherit_liken.
  destruct (rkey_eqb_spec k k); [reflexivity|congruence].
Qed.
Lemma liken_other k like f k' n : k' <> k -> liken k like f k' n = f k' n.
Proof.
  intros H. destruct like; [|reflexivity]. rewrite inherit_liken.
  destruct (rkey_eqb_spec k' k); [contradiction|reflexivity].
Qed.

Lemma require_lemma E cls p a i like sa ss w w' :
  let ds := [ZClass (KType cls) [CRequire (Some p) a i like sa ss]] in
  loadable ds w -> configure E ds w = (Ok tt, w') ->
  (forall n, (In n a \/ exists j, In j i /\ In n (map fst (if_names j))) ->
     read_protection (w_core w') (KType cls) n = Some (protect_by p)) /\
  (forall n, ~ (In n a \/ exists j, In j i /\ In n (map fst (if_names j))) ->
     read_protection (w_core w') (KType cls) n =
     match like with
     | Some l => match read_protection (w_core w) l n with
                 | Some q => Some q
                 | None => read_protection (w_core w) (KType cls) n
                 end
     | None => read_protection (w_core w) (KType cls) n
     end) /\
  (forall n, (In n sa \/ exists j, In j ss /\ In (n, Some false) (if_names j)) ->
     write_protection (w_core w') (KType cls) n = Some (protect_by p)) /\
  (forall n, ~ (In n sa \/ exists j, In j ss /\ In (n, Some false) (if_names j)) ->
     write_protection (w_core w') (KType cls) n =
     match like with
     | Some l => match write_protection (w_core w) l n with
                 | Some q => Some q
                 | None => write_protection (w_core w) (KType cls) n
                 end
     | None => write_protection (w_core w) (KType cls) n
     end) /\
  (forall k n, k <> KType cls ->
     read_protection (w_core w') k n = read_protection (w_core w) k n /\
     write_protection (w_core w') k n = write_protection (w_core w) k n).
Proof.
  intros ds Hl Hc. destruct (load_effect_lemma E ds w w' Hl Hc) as (Hr & Hw & _).
  simpl in Hr, Hw.
  split; [intros n H; rewrite Hr; apply protect_in, in_read_names, H|].
  split.
  { intros n H. rewrite Hr, protect_out by (rewrite in_read_names; exact H). apply liken_self. }
  split; [intros n H; rewrite Hw; apply protect_in, in_write_names, H|].
  split.
  { intros n H. rewrite Hw, protect_out by (rewrite in_write_names; exact H). apply liken_self. }
  intros k n Hk. rewrite Hr, Hw, !protect_other, !liken_other by exact Hk. auto.
Qed.

Lemma allow_lemma E cls a i w w' :
  let ds := [ZClass (KType cls) [CAllow a i]] in
  loadable ds w -> configure E ds w = (Ok tt, w') ->
  (forall n, (In n a \/ exists j, In j i /\ In n (map fst (if_names j))) ->
     read_protection (w_core w') (KType cls) n = Some PPublic) /\
  (forall n, ~ (In n a \/ exists j, In j i /\ In n (map fst (if_names j))) ->
     read_protection (w_core w') (KType cls) n = read_protection (w_core w) (KType cls) n) /\
  (forall k n, write_protection (w_core w') k n = write_protection (w_core w) k n) /\
  (forall k n, k <> KType cls ->
     read_protection (w_core w') k n = read_protection (w_core w) k n).
Proof.
  intros ds Hl Hc. destruct (load_effect_lemma E ds w w' Hl Hc) as (Hr & Hw & _).
  simpl in Hr, Hw.
  split; [intros n H; rewrite Hr; apply (protect_in _ _ "zope.Public"), in_read_names, H|].
  split; [intros n H; rewrite Hr; apply protect_out; rewrite in_read_names; exact H|].
  split; [exact Hw|]. intros k n Hk. rewrite Hr. apply protect_other. exact Hk.
Qed.

Lemma module_lemma E m p a i w w' :
  let ds := [ZModule (KMod m) [MRequire p a i]] in
  loadable ds w -> configure E ds w = (Ok tt, w') ->
  (forall n, (In n a \/ exists j, In j i /\ In n (map fst (if_names j))) ->
     read_protection (w_core w') (KMod m) n = Some (protect_by p)) /\
  (forall n, ~ (In n a \/ exists j, In j i /\ In n (map fst (if_names j))) ->
     read_protection (w_core w') (KMod m) n = read_protection (w_core w) (KMod m) n) /\
  (forall k n, write_protection (w_core w') k n = write_protection (w_core w) k n) /\
  (forall k n, k <> KMod m ->
     read_protection (w_core w') k n = read_protection (w_core w) k n).
Proof.
  intros ds Hl Hc. destruct (load_effect_lemma E ds w w' Hl Hc) as (Hr & Hw & _).
  simpl in Hr, Hw.
  split; [intros n H; rewrite Hr; apply protect_in, in_read_names, H|].
  split; [intros n H; rewrite Hr; apply protect_out; rewrite in_read_names; exact H|].
  split; [exact Hw|]. intros k n Hk. rewrite Hr. apply protect_other. exact Hk.
Qed.

Lemma module_allow_lemma E m a i w w' :
  let ds := [ZModule (KMod m) [MAllow a i]] in
  loadable ds w -> configure E ds w = (Ok tt, w') ->
  (forall n, (In n a \/ exists j, In j i /\ In n (map fst (if_names j))) ->
     read_protection (w_core w') (KMod m) n = Some PPublic) /\
  (forall n, ~ (In n a \/ exists j, In j i /\ In n (map fst (if_names j))) ->
     read_protection (w_core w') (KMod m) n = read_protection (w_core w) (KMod m) n) /\
  (forall k n, write_protection (w_core w') k n = write_protection (w_core w) k n) /\
  (forall k n, k <> KMod m ->
     read_protection (w_core w') k n = read_protection (w_core w) k n).
Proof.
  intros ds Hl Hc. destruct (load_effect_lemma E ds w w' Hl Hc) as (Hr & Hw & _).
  simpl in Hr, Hw.
  split; [intros n H; rewrite Hr; apply (protect_in _ _ "zope.Public"), in_read_names, H|].
  split; [intros n H; rewrite Hr; apply protect_out; rewrite in_read_names; exact H|].
  split; [exact Hw|]. intros k n Hk. rewrite Hr. apply protect_other. exact Hk.
Qed.

(** A module file is accepted however often a name is repeated. *)
Lemma module_accepted_lemma E m p a i w :
  loadable [ZModule (KMod m) [MRequire p a i]] w ->
  (p = "zope.Public" \/ In p (map fst (w_perms w))) ->
  exists w', configure E [ZModule (KMod m) [MRequire p a i]] w = (Ok tt, w').
Proof.
  intros Hl Hp. apply (load_ok_lemma E _ w Hl). split; [repeat split|]. split.
  - unfold claims. simpl. rewrite !app_nil_r. apply FinFun.Injective_map_NoDup.
    + intros x y H. injection H; auto.
    + apply NoDup_nodup.
  - simpl. intros t [<-|[]]. destruct Hp as [Hp|Hp]; [left; exact Hp|right; left; exact Hp].
Qed.

(** The enforced tables are those of the file. *)
Lemma class_enforced_lemma E ds w w' cls obj :
  loadable ds w -> configure E ds w = (Ok tt, w') -> e_watch E = 0 ->
  dget rkey_eqb (st_reg (w_core w)) (KType cls) = None ->
  let R := file_reads literal ds (read_protection (w_core w)) (KType cls) in
  let W := file_writes literal ds (write_protection (w_core w)) (KType cls) in
  (exists n, R n <> None \/ W n <> None) -> no_none R -> no_none W ->
  exists c,
    (concrete_type E (w_core w') obj = cls ->
     forall f, do_select E (S f) obj (w_core w') = (Ok (Some c), w_core w', [])) /\
    reads_checked E (w_core w') R c obj /\ writes_checked E (w_core w') W c obj.
Proof.
  intros Hl Hc HW Hn R W (n & Hex) HnR HnW.
  destruct (load_effect_lemma E ds w w' Hl Hc) as (Hr & Hw & _ & _ & _ & _ & Hk & _).
  assert (Hlive : exists i c, live (w_core w') (KType cls) i c).
  { destruct Hex as [H|H].
    - destruct (R n) as [p|] eqn:HR; [|congruence]. apply (read_some_live _ _ n p).
      rewrite Hr. exact HR.
    - destruct (W n) as [p|] eqn:HR; [|congruence]. apply (write_some_live _ _ n p).
      rewrite Hw. exact HR. }
  destruct Hlive as (i & c & Hlv).
  destruct (Hk HW _ _ _ Hlv) as [[H0 _]|[Hkind Hi]]; [congruence|].
  assert (HnR' : no_none (read_protection (w_core w') (KType cls))).
  { intros x. rewrite Hr. apply HnR. }
  assert (HnW' : no_none (write_protection (w_core w') (KType cls))).
  { intros x. rewrite Hw. apply HnW. }
  destruct (live_enforced E _ _ i c obj Hlv Hkind HnR' HnW') as [Hrd Hwr].
  exists (VChk i). split.
  { intros Hty f. apply (live_selected E _ cls i c obj f HW Hlv Hi Hty). }
  split.
  - intros f m x r s2 tr H1 H2 H3. eapply ReadCheck_ext; [|exact (Hrd f m x r s2 tr H1 H2 H3)].
    apply Hr.
  - intros f x r s2 tr H1. eapply WriteCheck_ext; [|exact (Hwr f x r s2 tr H1)].
    apply Hw.
Qed.

Lemma module_enforced_lemma E ds w w' m :
  loadable ds w -> configure E ds w = (Ok tt, w') -> e_watch E = 0 ->
  dget rkey_eqb (st_reg (w_core w)) (KMod m) = None ->
  dget rkey_eqb (st_reg (w_core w)) (KType "module") = Some VModFun ->
  ~ In (KType "module") (touched ds) ->
  let R := file_reads literal ds (read_protection (w_core w)) (KMod m) in
  let W := file_writes literal ds (write_protection (w_core w)) (KMod m) in
  (exists n, R n <> None) -> no_none R -> no_none W ->
  exists c,
    (forall f, do_select E (S (S f)) (VMod m) (w_core w') = (Ok (Some c), w_core w', [])) /\
    reads_checked E (w_core w') R c (VMod m) /\ writes_checked E (w_core w') W c (VMod m).
Proof.
  intros Hl Hc HW Hn Hmf Hnt R W (n & Hex) HnR HnW.
  destruct (load_effect_lemma E ds w w' Hl Hc) as (Hr & Hw & _ & _ & _ & Hreg & Hk & _).
  assert (Hlive : exists i c, live (w_core w') (KMod m) i c).
  { destruct (R n) as [p|] eqn:HR; [|congruence]. apply (read_some_live _ _ n p).
    rewrite Hr. exact HR. }
  destruct Hlive as (i & c & Hlv).
  destruct (Hk HW _ _ _ Hlv) as [[H0 _]|[Hkind Hi]]; [congruence|].
  assert (HnR' : no_none (read_protection (w_core w') (KMod m))).
  { intros x. rewrite Hr. apply HnR. }
  assert (HnW' : no_none (write_protection (w_core w') (KMod m))).
  { intros x. rewrite Hw. apply HnW. }
  destruct (live_enforced E _ _ i c (VMod m) Hlv Hkind HnR' HnW') as [Hrd Hwr].
  exists (VChk i). split.
  { intros f. apply (live_module_selected E _ m i c f HW Hlv). rewrite Hreg by exact Hnt. exact Hmf. }
  split.
  - intros f x y r s2 tr H1 H2 H3. eapply ReadCheck_ext; [|exact (Hrd f x y r s2 tr H1 H2 H3)].
    apply Hr.
  - intros f x r s2 tr H1. eapply WriteCheck_ext; [|exact (Hwr f x r s2 tr H1)].
    apply Hw.
Qed.

(** ** C47 *)

Lemma protections_checks c t : protections (add c (checks t)) = protections c.
Proof.
  unfold protections, add, checks. cbn [cx_actions]. rewrite map_app, filter_app. simpl.
  destruct (not_public t); simpl; apply app_nil_r.
Qed.
Lemma protections_mimic like c k :
  protections (after_mimic like c k) =
  (protections c ++ match like with Some l => [ALike k l] | None => [] end)%list.
Proof.
  destruct like; simpl; [|rewrite app_nil_r; reflexivity].
  unfold protections. simpl. rewrite map_app, filter_app. reflexivity.
Qed.

(** Reading the permission field. *)
Definition read_field (permission : option string) (c : ctx) : ctx :=
  match permission with Some t => add c (checks t) | None => c end.
Lemma read_field_eq permission c :
  (match permission with
   | Some t => v <- Permission_fromUnicode t ;; zret (Some v)
   | None => zret None
   end) c = (Ok (option_map (mapped c) permission), read_field permission c).
Proof.
  destruct permission as [t|]; [|reflexivity]. unfold zbind. rewrite fromUnicode_eq. reflexivity.
Qed.
Lemma protections_read permission c : protections (read_field permission c) = protections c.
Proof. destruct permission; [apply protections_checks|reflexivity]. Qed.

Lemma nothing_lemma k p c :
  exists c', process_csub k (CRequire p [] [] None [] []) c =
             (Exc (EConfiguration "Nothing required"), c') /\ protections c' = protections c.
Proof.
  exists (read_field p c). split; [|apply protections_read].
  simpl. rewrite (zbind_ok _ _ _ _ _ (read_field_eq p c)). reflexivity.
Qed.

Lemma no_permission_lemma k a i like sa ss c :
  (a <> [] \/ i <> [] \/ sa <> [] \/ ss <> []) ->
  exists c', process_csub k (CRequire None a i like sa ss) c =
             (Exc (EConfiguration "No permission specified"), c') /\
    protections c' = (protections c ++ match like with Some l => [ALike k l] | None => [] end)%list.
Proof.
  intros Hs. simpl. change (zbind (zret None) ?f c) with (f None c).
  destruct (cd_require k None a i like sa ss c) as [r c'] eqn:Hr.
  destruct (require_spec _ _ _ _ _ _ _ _ _ _ Hr)
    as [l Hl Ha Hi Hsa Hss|Hl Ha Hi Hsa Hss|_ Hpp|t _ Hpp Hne];
    try (subst; destruct Hs as [H|[H|[H|H]]]; congruence).
  exists (after_mimic like c k). split; [reflexivity|]. apply protections_mimic.
Qed.

Lemma like_only_lemma k p l c :
  exists c', process_csub k (CRequire p [] [] (Some l) [] []) c = (Ok tt, c') /\
    protections c' = (protections c ++ [ALike k l])%list.
Proof.
  exists (after_mimic (Some l) (read_field p c) k). split.
  - simpl. rewrite (zbind_ok _ _ _ _ _ (read_field_eq p c)). reflexivity.
  - rewrite protections_mimic, protections_read. reflexivity.
Qed.

(** An unacceptable <require> anywhere makes the whole file fail without effect. *)
Lemma bad_file_lemma E ds w cls subs a i like sa ss :
  loadable ds w -> In (ZClass (KType cls) subs) ds ->
  In (CRequire None a i like sa ss) subs ->
  (like = None \/ a <> [] \/ i <> [] \/ sa <> [] \/ ss <> []) ->
  exists e, configure E ds w = (Exc e, w).
Proof.
  intros [Hc Hi] Hd Hs Hbad.
  destruct (configure_lemma E ds w Hc Hi) as [(H1 & e & H2 & _)|H]; [exists e; exact H2|].
  exfalso. assert (Hwf : well_formed literal ds).
  { destruct H as [(H & _)|[(H & _)|(H & _)]]; exact H. }
  clear H Hc Hi. revert Hwf. generalize literal.
  induction ds as [|d ds IH]; intros m; [contradiction|]. intros [Hok Hrest].
  destruct Hd as [->|Hd].
  - destruct Hok as [_ Hok]. specialize (Hok _ Hs).
    destruct Hok as [(-> & -> & -> & -> & Hl)|[_ (t & Ht & _)]]; [|discriminate].
    destruct Hbad as [->|[H|[H|[H|H]]]]; congruence.
  - exact (IH Hd (next m d) Hrest).
Qed.

(** ** C49 *)

Lemma conflict_lemma E ds w : loadable ds w -> well_formed literal ds ->
  (configure E ds w = (Exc (EConfiguration "conflict"), w) <-> ~ NoDup (claims ds)).
Proof.
  intros [Hc Hi] Hwf. destruct (configure_lemma E ds w Hc Hi)
    as [(H1 & e & H2 & _)|[(H1 & H2 & H3)|[(H1 & H2 & H3 & w1 & H4 & _)|(H1 & H2 & H3 & w1 & H4 & H5)]]].
  - contradiction.
  - split; auto.
  - split; [congruence|contradiction].
  - split; [congruence|contradiction].
Qed.

Lemma In_claims_twice (x : claim) l1 l2 l3 : ~ NoDup (l1 ++ x :: l2 ++ x :: l3).
Proof.
  intros H. apply NoDup_remove_2 in H. apply H. apply in_or_app. right. apply in_or_app.
  right. left. reflexivity.
Qed.

(** Two directives with a common claim. *)
Lemma common_claim l1 d1 l2 d2 l3 x :
  In x (directive_claims d1) -> In x (directive_claims d2) ->
  ~ NoDup (claims (l1 ++ d1 :: l2 ++ d2 :: l3)).
Proof.
  intros H1 H2. unfold claims. rewrite flat_map_app. simpl. rewrite flat_map_app. simpl.
  apply in_split in H1. destruct H1 as (a1 & a2 & ->).
  apply in_split in H2. destruct H2 as (b1 & b2 & ->).
  set (A := flat_map directive_claims l1). set (B := flat_map directive_claims l2).
  set (C := flat_map directive_claims l3).
  replace (A ++ (a1 ++ x :: a2) ++ B ++ (b1 ++ x :: b2) ++ C)%list
    with ((A ++ a1) ++ x :: (a2 ++ B ++ b1) ++ x :: (b2 ++ C))%list
    by (repeat (rewrite <- app_assoc; simpl); reflexivity).
  apply In_claims_twice.
Qed.

Lemma two_classes_conflict E w l1 l2 l3 k subs1 subs2 s1 s2 n :
  let ds := (l1 ++ ZClass k subs1 :: l2 ++ ZClass k subs2 :: l3)%list in
  loadable ds w -> well_formed literal ds ->
  In s1 subs1 -> In s2 subs2 ->
  (In (ClRead k n) (csub_claims k s1) /\ In (ClRead k n) (csub_claims k s2)) \/
  (In (ClWrite k n) (csub_claims k s1) /\ In (ClWrite k n) (csub_claims k s2)) ->
  configure E ds w = (Exc (EConfiguration "conflict"), w).
Proof.
  intros ds Hl Hwf Hs1 Hs2 H. apply (conflict_lemma E ds w Hl Hwf).
  destruct H as [[H1 H2]|[H1 H2]]; eapply common_claim; simpl; apply in_flat_map; eauto.
Qed.

Lemma likes_free ds : (forall d, In d ds -> only_likes d) -> claims ds = [].
Proof.
  induction ds as [|d ds IH]; intros H; [reflexivity|]. simpl.
  rewrite IH by (intros x Hx; apply H; right; exact Hx).
  assert (Hd := H d (or_introl eq_refl)). destruct d as [| | |k subs|]; simpl in Hd; try contradiction.
  simpl. rewrite app_nil_r. induction subs as [|s subs IHs]; [reflexivity|]. simpl.
  destruct (Hd s (or_introl eq_refl)) as (p & l & ->). simpl. apply IHs.
  - intros x [<-|Hx]; [|apply H; right; exact Hx]. simpl. intros y Hy. apply Hd. right. exact Hy.
  - intros y Hy. apply Hd. right. exact Hy.
Qed.

Lemma NoDup_app_r {A} (l l' : list A) : NoDup (l ++ l') -> NoDup l'.
Proof. induction l as [|x l IH]; simpl; intros H; [exact H|]. inversion H; auto. Qed.
Lemma NoDup_app_l {A} (l l' : list A) : NoDup (l ++ l') -> NoDup l.
Proof.
  induction l as [|x l IH]; simpl; intros H; [constructor|]. inversion H as [|y z Hy Hz]; subst.
  constructor; [|auto]. intros Hx. apply Hy. apply in_or_app. left. exact Hx.
Qed.

(** Read and write claims, claims of different classes, classes and modules. *)
Lemma self_conflict_lemma E cls p a i like sa ss w :
  let ds := [ZClass (KType cls) [CRequire (Some p) a i like sa ss]] in
  loadable ds w -> p <> "" ->
  (a <> [] \/ i <> [] \/ sa <> [] \/ ss <> []) ->
  (configure E ds w = (Exc (EConfiguration "conflict"), w) <->
   ~ (NoDup (read_names a i) /\ NoDup (write_names sa ss))).
Proof.
  intros ds Hl Hp Hs.
  assert (Hwf : well_formed literal ds).
  { split; [|exact I]. split; [exists cls; reflexivity|]. intros s [<-|[]]. right.
    split; [exact Hs|]. exists p. auto. }
  rewrite (conflict_lemma E ds w Hl Hwf). unfold ds, claims. simpl. rewrite !app_nil_r.
  assert (H : NoDup (map (ClRead (KType cls)) (read_names a i) ++
                     map (ClWrite (KType cls)) (write_names sa ss)) <->
              NoDup (read_names a i) /\ NoDup (write_names sa ss)).
  { generalize (read_names a i) (write_names sa ss). intros r wr. split.
    - intros Hn. split.
      + apply NoDup_app_l in Hn. apply NoDup_map_inv in Hn. exact Hn.
      + apply NoDup_app_r in Hn. apply NoDup_map_inv in Hn. exact Hn.
    - intros [H1 H2]. induction r as [|x r IH]; simpl.
      + apply FinFun.Injective_map_NoDup; [intros x y H; injection H; auto|exact H2].
      + inversion H1 as [|y z Hy Hz]; subst. constructor; [|apply IH; exact Hz].
        rewrite in_app_iff, !in_map_iff. intros [(y & H & Hin)|(y & H & Hin)]; [|discriminate].
        injection H as ->. contradiction. }
  rewrite H. reflexivity.
Qed.

(** ** C50 *)

Lemma field_meaning_lemma ds t c :
  (forall i, In i (ifaces ds) -> iface_wf i) ->
  process ds empty_ctx = (Ok tt, c) ->
  exists c', Permission_fromUnicode t c = (Ok (meaning_after literal ds t), c').
Proof.
  intros Hi Hr. destruct (process_step ds literal empty_ctx (fun x => eq_refl) Hi)
    as [(_ & c1 & Hr1 & Hm & _)|(_ & e & c1 & Hr1 & _)]; [|congruence].
  assert (c1 = c) by congruence. subst c1.
  exists (add c (checks t)). rewrite fromUnicode_eq, Hm. reflexivity.
Qed.

Lemma meaning_app m ds ds' : meaning_after m (ds ++ ds') = meaning_after (meaning_after m ds) ds'.
Proof. unfold meaning_after. apply fold_left_app. Qed.

Lemma fresh_redefine_lemma ds A B t :
  meaning_after literal ds A = A -> meaning_after literal ds B = B ->
  meaning_after literal (ds ++ [ZRedefine A B]) t =
  if String.eqb t A then B else meaning_after literal ds t.
Proof.
  intros HA HB. rewrite meaning_app. simpl. unfold redefined. rewrite HA, HB. reflexivity.
Qed.

Lemma redefine_general_lemma ds A B t :
  meaning_after literal (ds ++ [ZRedefine A B]) t =
  if String.eqb t (meaning_after literal ds A) then meaning_after literal ds B
  else meaning_after literal ds t.
Proof. rewrite meaning_app. reflexivity. Qed.

Lemma not_redefined_lemma ds t :
  (forall A B, In (ZRedefine A B) ds -> A <> t /\ B <> t) -> meaning_after literal ds t = t.
Proof.
  intros H.
  assert (Hg : forall l m, (forall A B, In (ZRedefine A B) l -> A <> t /\ B <> t) ->
            m t = t -> (forall x, x <> t -> m x <> t) -> meaning_after m l t = t).
  { induction l as [|d l IH]; intros m Hl Hm Hx; [exact Hm|]. simpl.
    apply IH; [intros A B HAB; apply Hl; right; exact HAB| |].
    - destruct d; try exact Hm. simpl. unfold redefined.
      destruct (Hl from to (or_introl eq_refl)) as [H1 _].
      destruct (String.eqb_spec t (m from)) as [He|_]; [|exact Hm].
      exfalso. exact (Hx from H1 (eq_sym He)).
    - destruct d; try exact Hx. intros x Hxt. simpl. unfold redefined.
      destruct (Hl from to (or_introl eq_refl)) as [_ H2].
      destruct (String.eqb x (m from)); [apply Hx; exact H2|apply Hx; exact Hxt]. }
  apply Hg; [exact H|reflexivity|]. intros x Hx. exact Hx.
Qed.

(** ** C51 *)

Lemma undefined_lemma E ds w : loadable ds w -> well_formed literal ds -> NoDup (claims ds) ->
  ((exists w', configure E ds w = (Exc (EValue "Undefined permission ID"), w')) <->
   exists t, In t (used ds) /\ ~ defined ds w t).
Proof.
  intros [Hc Hi] Hwf Hnd.
  assert (Hdec : forall t, defined ds w t \/ ~ defined ds w t).
  { intros t. unfold defined.
    destruct (string_dec t "zope.Public") as [->|Hne]; [left; left; reflexivity|].
    destruct (in_dec string_dec t (map fst (w_perms w))) as [H|H]; [left; right; left; exact H|].
    destruct (in_dec string_dec t (map fst (perms_of ds))) as [H2|H2];
      rewrite perms_of_In in H2; [left; right; right; exact H2|].
    right. intros [H'|[H'|H']]; contradiction. }
  destruct (configure_lemma E ds w Hc Hi)
    as [(H1 & e & H2 & _)|[(H1 & H2 & H3)|[(H1 & H2 & H3 & w1 & H4 & _)|(H1 & H2 & H3 & w1 & H4 & H5)]]].
  - contradiction.
  - contradiction.
  - split; [intros _|intros _; exists w1; exact H4].
    revert H3. generalize (used ds). induction l as [|t l IH]; intros Hn.
    + exfalso. apply Hn. intros t [].
    + destruct (Hdec t) as [Hd|Hd].
      * destruct IH as (x & Hx & Hx'); [|exists x; split; [right; exact Hx|exact Hx']].
        intros Hall. apply Hn. intros y [<-|Hy]; auto.
      * exists t. split; [left; reflexivity|exact Hd].
  - split; [intros (w2 & H); congruence|]. intros (t & Ht & Hn). exfalso. auto.
Qed.

(** With identifiers that are not empty, whether a file loads does not depend on the
    order of its directives. *)
Definition csub_shape (d : csub) : Prop :=
  match d with
  | CRequire permission attributes interface like set_attributes set_schema =>
      (attributes = [] /\ interface = [] /\ set_attributes = [] /\ set_schema = [] /\
       like <> None) \/
      ((attributes <> [] \/ interface <> [] \/ set_attributes <> [] \/ set_schema <> []) /\
       permission <> None)
  | CAllow attributes interface => attributes <> [] \/ interface <> []
  | _ => True
  end.
Definition directive_shape (d : directive) : Prop :=
  match d with
  | ZClass k subs => (exists c, k = KType c) /\ forall s, In s subs -> csub_shape s
  | _ => True
  end.

Lemma shape_lemma ds : forall m,
  ids_nonempty ds -> (forall x, x <> "" -> m x <> "") ->
  (well_formed m ds <-> forall d, In d ds -> directive_shape d).
Proof.
  induction ds as [|d ds IH]; intros m Hne Hm; simpl.
  - split; [intros _ d []|auto].
  - assert (Hne2 : ids_nonempty ds).
    { intros H. apply Hne. unfold used. simpl. apply in_or_app. right. exact H. }
    assert (Hne1 : ~ In "" (directive_used d)).
    { intros H. apply Hne. unfold used. simpl. apply in_or_app. left. exact H. }
    assert (Hm' : forall x, x <> "" -> next m d x <> "").
    { destruct d as [| a b| | |]; try exact Hm. intros x Hx. simpl. unfold redefined.
      destruct (String.eqb x (m a)); apply Hm; [|exact Hx].
      intros ->. apply Hne1. right. left. reflexivity. }
    assert (Hd : directive_ok m d <-> directive_shape d).
    { destruct d as [| | |k subs|]; simpl; try tauto.
      assert (Hs : forall s, In s subs -> (csub_ok m s <-> csub_shape s)).
      { intros s Hs. destruct s as [p a i like sa ss| | |]; simpl; try tauto.
        assert (Hp : (exists t, p = Some t /\ m t <> "") <-> p <> None).
        { split; [intros (t & -> & _); discriminate|]. intros Hp. destruct p as [t|]; [|congruence].
          exists t. split; [reflexivity|]. apply Hm. intros ->. apply Hne1. simpl.
          apply in_flat_map. eexists. split; [exact Hs|]. left. reflexivity. }
        tauto. }
      split; intros [H1 H2]; (split; [exact H1|]); intros s Hin; apply (Hs s Hin); auto. }
    rewrite (IH (next m d) Hne2 Hm'), Hd. split.
    + intros [H1 H2] x [<-|Hx]; auto.
    + intros H. split; auto.
Qed.

Lemma order_lemma E ds ds' w :
  Permutation ds ds' -> ids_nonempty ds -> loadable ds w ->
  ((exists w', configure E ds w = (Ok tt, w')) <-> (exists w', configure E ds' w = (Ok tt, w'))).
Proof.
  intros HP Hne Hl.
  assert (Hfm : forall A (g : directive -> list A) x, In x (flat_map g ds') <-> In x (flat_map g ds)).
  { intros A g x. split; apply Permutation_in; [symmetry|]; apply Permutation_flat_map; exact HP. }
  assert (Hne' : ids_nonempty ds') by (intros H; apply Hne; unfold used in *; rewrite <- Hfm; exact H).
  assert (Hl' : loadable ds' w).
  { destruct Hl as [(H1 & H2 & H3) H4]. split; [split; [exact H1|split]|].
    - intros k Hk. apply H2. unfold touched in *. rewrite <- Hfm. exact Hk.
    - intros k Hk. apply H3. unfold likes in *. rewrite <- Hfm. exact Hk.
    - intros i Hk. apply H4. unfold ifaces in *. rewrite <- Hfm. exact Hk. }
  rewrite (load_ok_lemma E ds w Hl), (load_ok_lemma E ds' w Hl'). unfold accepted.
  rewrite (shape_lemma ds literal Hne (fun x H => H)), (shape_lemma ds' literal Hne' (fun x H => H)).
  assert (H1 : (forall d, In d ds -> directive_shape d) <-> (forall d, In d ds' -> directive_shape d)).
  { split; intros H d Hd; apply H; revert Hd; apply Permutation_in; [symmetry|]; exact HP. }
  assert (H2 : NoDup (claims ds) <-> NoDup (claims ds')).
  { unfold claims. split; apply Permutation_NoDup; apply Permutation_flat_map; [exact HP|symmetry; exact HP]. }
  assert (H3 : (forall t, In t (used ds) -> defined ds w t) <-> (forall t, In t (used ds') -> defined ds' w t)).
  { assert (Hd : forall t, defined ds w t <-> defined ds' w t).
    { intros t. unfold defined.
      assert (He : (exists title, In (ZPermission t title) ds) <-> (exists title, In (ZPermission t title) ds')).
      { split; intros (x & Hx); exists x; revert Hx; apply Permutation_in; [|symmetry]; exact HP. }
      rewrite He. reflexivity. }
    split; intros H t Ht; apply Hd; apply H; unfold used in *; [rewrite <- Hfm|rewrite Hfm]; exact Ht. }
  tauto.
Qed.

(** ** Every permission put into a table is defined *)

Definition grounded (w' : world) (old : protection) (f : protection) : Prop :=
  forall k n i t, f k n = Some (PId i t) ->
    In t (map fst (w_perms w')) \/ exists k0, old k0 n = Some (PId i t).

Section Grounded.
  Variable w' : world.
  Variable old : protection.
  Let D (t : string) : Prop := t = "zope.Public" \/ In t (map fst (w_perms w')).

  Lemma grounded_protect k ns t f : D t -> grounded w' old f -> grounded w' old (protect k ns t f).
  Proof.
    intros HD Hf k' n i x. unfold protect.
    destruct (rkey_eqb k' k && existsb (String.eqb n) ns); [|apply Hf].
    unfold protect_by. destruct (String.eqb_spec t "zope.Public") as [->|Hne]; [discriminate|].
    intros H. injection H as <- <-. left. destruct HD; [contradiction|assumption].
  Qed.
  Lemma grounded_liken k like f : grounded w' old f -> grounded w' old (liken k like f).
  Proof.
    intros Hf k' n i t. destruct like as [l|]; [|apply Hf]. rewrite inherit_liken.
    destruct (rkey_eqb k' k); [|apply Hf].
    destruct (f l n) eqn:Hl; [|apply Hf]. intros H. apply (Hf l n). congruence.
  Qed.

  Lemma grounded_csubs m k subs : (forall t, In t (flat_map csub_used subs) -> D (m t)) -> forall f,
    (grounded w' old f -> grounded w' old (fold_left (csub_reads m k) subs f)) /\
    (grounded w' old f -> grounded w' old (fold_left (csub_writes m k) subs f)).
  Proof.
    induction subs as [|s subs IH]; intros HD f; [split; auto|].
    assert (IH' := IH (fun t Ht => HD t (in_or_app _ _ _ (or_intror Ht)))).
    simpl. split; intros Hf; apply IH'.
    - destruct s as [[t|] a i like sa ss|a i| |]; simpl; auto.
      + apply grounded_protect, grounded_liken, Hf. apply HD. left. reflexivity.
      + apply grounded_liken, Hf.
      + apply grounded_protect, Hf. left. reflexivity.
    - destruct s as [[t|] a i like sa ss|a i| |]; simpl; auto.
      + apply grounded_protect, grounded_liken, Hf. apply HD. left. reflexivity.
      + apply grounded_liken, Hf.
  Qed.

  Lemma grounded_msubs m k subs : (forall t, In t (flat_map msub_used subs) -> D (m t)) -> forall f,
    grounded w' old f -> grounded w' old (fold_left (msub_reads m k) subs f).
  Proof.
    induction subs as [|s subs IH]; intros HD f Hf; [exact Hf|]. simpl.
    apply IH; [intros t Ht; apply HD; apply in_or_app; right; exact Ht|].
    destruct s as [t a i|a i]; simpl; apply grounded_protect; auto.
    - apply HD. left. reflexivity.
    - left. reflexivity.
  Qed.

  Lemma grounded_file ds : forall m f g,
    (forall t, D t -> D (m t)) -> (forall t, In t (used ds) -> D t) ->
    (grounded w' old f -> grounded w' old (file_reads m ds f)) /\
    (grounded w' old g -> grounded w' old (file_writes m ds g)).
  Proof.
    induction ds as [|d ds IH]; intros m f g Hm Hu; [split; auto|].
    assert (Hu1 : forall t, In t (directive_used d) -> D t)
      by (intros t Ht; apply Hu; apply in_or_app; left; exact Ht).
    assert (Hu2 : forall t, In t (used ds) -> D t)
      by (intros t Ht; apply Hu; apply in_or_app; right; exact Ht).
    assert (Hm2 : forall t, D t -> D (next m d t)).
    { destruct d as [|a b| | |]; try exact Hm. intros t Ht. simpl. unfold redefined.
      destruct (String.eqb t (m a)); apply Hm; [|exact Ht]. apply Hu1. right. left. reflexivity. }
    simpl. split; intros Hf.
    - apply (IH (next m d) (directive_reads m f d) f Hm2 Hu2).
      destruct d as [| | |k subs|k subs]; simpl; auto.
      + apply grounded_csubs; auto.
      + apply grounded_msubs; auto.
    - apply (IH (next m d) g (directive_writes m g d) Hm2 Hu2).
      destruct d as [| | |k subs|k subs]; simpl; auto.
      apply grounded_csubs; auto.
  Qed.
End Grounded.

Lemma tables_defined_lemma E ds w w' k n i t :
  loadable ds w -> configure E ds w = (Ok tt, w') ->
  (read_protection (w_core w') k n = Some (PId i t) ->
   In t (map fst (w_perms w')) \/ exists k0, read_protection (w_core w) k0 n = Some (PId i t)) /\
  (write_protection (w_core w') k n = Some (PId i t) ->
   In t (map fst (w_perms w')) \/ exists k0, write_protection (w_core w) k0 n = Some (PId i t)).
Proof.
  intros Hl Hc. assert (Hacc := proj1 (load_ok_lemma E ds w Hl) (ex_intro _ w' Hc)).
  destruct Hacc as (_ & _ & Hdef).
  destruct (load_effect_lemma E ds w w' Hl Hc) as (Hr & Hw & Hp & _).
  assert (Hu : forall x, In x (used ds) -> x = "zope.Public" \/ In x (map fst (w_perms w'))).
  { intros x Hx. rewrite Hp, fold_dset_keys, perms_of_In. exact (Hdef x Hx). }
  rewrite Hr, Hw. split; intros H.
  - refine (proj1 (grounded_file w' (read_protection (w_core w)) ds literal (read_protection (w_core w))
              (read_protection (w_core w)) (fun x Hx => Hx) Hu) _ k n i t H).
    intros k' n' i' t' H'. right. exists k'. exact H'.
  - refine (proj2 (grounded_file w' (write_protection (w_core w)) ds literal (write_protection (w_core w))
              (write_protection (w_core w)) (fun x Hx => Hx) Hu) _ k n i t H).
    intros k' n' i' t' H'. right. exists k'. exact H'.
Qed.

(** ** The order of directives *)

Definition bot : protection := fun _ _ => None.
Definition overlay (R : protection -> protection) : Prop :=
  forall f k n, R f k n = match R bot k n with Some p => Some p | None => f k n end.

Lemma overlay_id : overlay (fun f => f).
Proof. intros f k n. reflexivity. Qed.
Lemma overlay_comp R1 R2 : overlay R1 -> overlay R2 -> overlay (fun f => R2 (R1 f)).
Proof.
  intros H1 H2 f k n. rewrite (H2 (R1 f)), (H2 (R1 bot)), (H1 f).
  destruct (R2 bot k n); [reflexivity|]. destruct (R1 bot k n); reflexivity.
Qed.
Lemma overlay_protect k ns t : overlay (protect k ns t).
Proof.
  intros f k' n. unfold protect. destruct (rkey_eqb k' k && existsb (String.eqb n) ns); reflexivity.
Qed.
Lemma protect_bot k ns t k' n : protect k ns t bot k' n <> None -> k' = k /\ In n ns.
Proof.
  unfold protect. destruct (rkey_eqb_spec k' k) as [->|]; simpl; [|intros H; destruct (H eq_refl)].
  destruct (existsb (String.eqb n) ns) eqn:He; [|intros H; destruct (H eq_refl)].
  intros _. split; [reflexivity|]. apply existsb_In. exact He.
Qed.

Definition read_claim (k : rkey) (n : name) : claim :=
  match k with KMod _ => ClModule k n | _ => ClRead k n end.

Lemma fold_overlay {A} (R : protection -> A -> protection) (P : rkey -> name -> A -> Prop) l :
  (forall a, In a l -> overlay (fun f => R f a) /\
     forall k n, R bot a k n <> None -> P k n a) ->
  overlay (fun f => fold_left R l f) /\
  forall k n, fold_left R l bot k n <> None -> exists a, In a l /\ P k n a.
Proof.
  induction l as [|a l IH]; intros H; simpl.
  - split; [apply overlay_id|]. intros k n Hn. destruct (Hn eq_refl).
  - destruct (H a (or_introl eq_refl)) as [Ha Hp].
    destruct (IH (fun b Hb => H b (or_intror Hb))) as [Hl Hq].
    split; [exact (overlay_comp _ _ Ha Hl)|].
    intros k n Hn. rewrite (Hl (R bot a)) in Hn.
    destruct (fold_left R l bot k n) eqn:He.
    + destruct (Hq k n) as (b & Hb & Hpb); [congruence|]. exists b. split; [right; exact Hb|exact Hpb].
    + exists a. split; [left; reflexivity|]. apply Hp. exact Hn.
Qed.

Lemma standalone_reads d : standalone d ->
  overlay (fun f => directive_reads literal f d) /\
  forall k n, directive_reads literal bot d k n <> None -> In (read_claim k n) (directive_claims d).
Proof.
  intros Hs. destruct d as [| | |k subs|k subs]; simpl in Hs.
  - split; [apply overlay_id|intros k n H; destruct (H eq_refl)].
  - contradiction.
  - split; [apply overlay_id|intros k n H; destruct (H eq_refl)].
  - destruct Hs as [[c ->] Hs]. simpl.
    destruct (fold_overlay (csub_reads literal (KType c))
                (fun k n s => In (read_claim k n) (csub_claims (KType c) s)) subs) as [H1 H2].
    + intros s Hin. specialize (Hs s Hin).
      destruct s as [[t|] a i [l|] sa ss|a i| |]; simpl in Hs; try contradiction; simpl.
      * split; [apply overlay_protect|]. intros k n H. apply protect_bot in H. destruct H as [-> H].
        apply in_or_app. left. apply in_map. exact H.
      * split; [apply overlay_id|intros k n H; destruct (H eq_refl)].
      * split; [apply overlay_protect|]. intros k n H. apply protect_bot in H. destruct H as [-> H].
        apply in_map. exact H.
      * split; [apply overlay_id|intros k n H; destruct (H eq_refl)].
      * split; [apply overlay_id|intros k n H; destruct (H eq_refl)].
    + split; [exact H1|]. intros k n H. apply in_flat_map. exact (H2 k n H).
  - destruct Hs as [m ->]. simpl.
    destruct (fold_overlay (msub_reads literal (KMod m))
                (fun k n s => In (read_claim k n) (msub_claims (KMod m) s)) subs) as [H1 H2].
    + intros s Hin. destruct s as [t a i|a i]; simpl;
        (split; [apply overlay_protect|]; intros k n H; apply protect_bot in H; destruct H as [-> H];
         apply in_map; apply nodup_In; exact H).
    + split; [exact H1|]. intros k n H. apply in_flat_map. exact (H2 k n H).
Qed.

Lemma standalone_writes d : standalone d ->
  overlay (fun f => directive_writes literal f d) /\
  forall k n, directive_writes literal bot d k n <> None -> In (ClWrite k n) (directive_claims d).
Proof.
  intros Hs. destruct d as [| | |k subs|k subs]; simpl in Hs;
    try (split; [apply overlay_id|intros k' n H; destruct (H eq_refl)]).
  destruct Hs as [[c ->] Hs]. simpl.
  destruct (fold_overlay (csub_writes literal (KType c))
              (fun k n s => In (ClWrite k n) (csub_claims (KType c) s)) subs) as [H1 H2].
  - intros s Hin. specialize (Hs s Hin).
    destruct s as [[t|] a i [l|] sa ss|a i| |]; simpl in Hs; try contradiction; simpl;
      try (split; [apply overlay_id|intros k n H; destruct (H eq_refl)]).
    split; [apply overlay_protect|]. intros k n H. apply protect_bot in H. destruct H as [-> H].
    apply in_or_app. right. apply in_map. exact H.
  - split; [exact H1|]. intros k n H. apply in_flat_map. exact (H2 k n H).
Qed.

Lemma overlay_swap R1 R2 f k n : overlay R1 -> overlay R2 ->
  ~ (R1 bot k n <> None /\ R2 bot k n <> None) -> R2 (R1 f) k n = R1 (R2 f) k n.
Proof.
  intros H1 H2 Hd. rewrite (H2 (R1 f)), (H1 (R2 f)), (H1 f), (H2 f).
  destruct (R1 bot k n), (R2 bot k n); try reflexivity.
  exfalso. apply Hd. split; discriminate.
Qed.

Lemma file_reads_fold ds : forall f, (forall d, In d ds -> standalone d) ->
  file_reads literal ds f = fold_left (directive_reads literal) ds f /\
  file_writes literal ds f = fold_left (directive_writes literal) ds f.
Proof.
  induction ds as [|d ds IH]; intros f H; [split; reflexivity|]. simpl.
  assert (Hn : next literal d = literal).
  { assert (Hd := H d (or_introl eq_refl)). destruct d; simpl in Hd; try contradiction; reflexivity. }
  rewrite Hn. split; apply IH; intros x Hx; apply H; right; exact Hx.
Qed.

Lemma fold_ext (R : protection -> directive -> protection) l :
  (forall d, In d l -> overlay (fun f => R f d)) -> forall f g,
  (forall k n, f k n = g k n) -> forall k n, fold_left R l f k n = fold_left R l g k n.
Proof.
  intros Ho. induction l as [|d l IH]; intros f g H k n; simpl; [apply H|].
  apply IH; [intros x Hx; apply Ho; right; exact Hx|].
  intros k' n'. rewrite (Ho d (or_introl eq_refl) f), (Ho d (or_introl eq_refl) g).
  destruct (R bot d k' n'); [reflexivity|apply H].
Qed.

Lemma fold_permutation (R : protection -> directive -> protection) (C : rkey -> name -> claim) ds ds' :
  Permutation ds ds' ->
  (forall d, In d ds -> overlay (fun f => R f d) /\
     forall k n, R bot d k n <> None -> In (C k n) (directive_claims d)) ->
  NoDup (claims ds) -> forall f k n, fold_left R ds f k n = fold_left R ds' f k n.
Proof.
  intros HP. induction HP as [|d l l' HP IH|d1 d2 l|l1 l2 l3 HP1 IH1 HP2 IH2]; intros Hd Hn f k n.
  - reflexivity.
  - simpl. apply IH; [intros x Hx; apply Hd; right; exact Hx|]. exact (NoDup_app_r _ _ Hn).
  - simpl. apply fold_ext; [intros x Hx; apply Hd; right; right; exact Hx|].
    intros k' n'. destruct (Hd d1) as [H1 H1']; [right; left; reflexivity|].
    destruct (Hd d2) as [H2 H2']; [left; reflexivity|].
    apply (overlay_swap (fun f => R f d2) (fun f => R f d1)); [exact H2|exact H1|].
    intros [Ha Hb]. apply H2' in Ha. apply H1' in Hb.
    exact (common_claim [] d2 [] d1 l _ Ha Hb Hn).
  - rewrite IH1, IH2; auto.
    + intros d Hx. apply Hd. revert Hx. apply Permutation_in. symmetry. exact HP1.
    + revert Hn. unfold claims. apply Permutation_NoDup, Permutation_flat_map. exact HP1.
Qed.

Lemma order_protection_lemma E ds ds' w w1 w2 :
  Permutation ds ds' -> (forall d, In d ds -> standalone d) -> loadable ds w -> loadable ds' w ->
  configure E ds w = (Ok tt, w1) -> configure E ds' w = (Ok tt, w2) ->
  forall k n, read_protection (w_core w1) k n = read_protection (w_core w2) k n /\
              write_protection (w_core w1) k n = write_protection (w_core w2) k n.
Proof.
  intros HP Hs Hl Hl' H1 H2 k n.
  destruct (load_effect_lemma E ds w w1 Hl H1) as (Hr1 & Hw1 & _).
  destruct (load_effect_lemma E ds' w w2 Hl' H2) as (Hr2 & Hw2 & _).
  destruct (proj1 (load_ok_lemma E ds w Hl) (ex_intro _ w1 H1)) as (_ & Hn & _).
  assert (Hs' : forall d, In d ds' -> standalone d).
  { intros d Hd. apply Hs. revert Hd. apply Permutation_in. symmetry. exact HP. }
  rewrite Hr1, Hw1, Hr2, Hw2.
  rewrite (proj1 (file_reads_fold ds _ Hs)), (proj1 (file_reads_fold ds' _ Hs')).
  rewrite (proj2 (file_reads_fold ds _ Hs)), (proj2 (file_reads_fold ds' _ Hs')).
  split.
  - apply (fold_permutation _ read_claim); auto.
    intros d Hd. exact (standalone_reads d (Hs d Hd)).
  - apply (fold_permutation _ ClWrite); auto.
    intros d Hd. exact (standalone_writes d (Hs d Hd)).
Qed.

Lemma names_once_lemma a i :
  NoDup (names a i) /\
  forall n, In n (names a i) <-> In n a \/ exists j, In j i /\ In n (map fst (if_names j)).
Proof.
  destruct (unseen_spec (a ++ flat_map names_of i) []) as [H1 H2]. split; [exact H1|].
  intros n. unfold names. rewrite H2, in_app_iff, in_flat_map. unfold names_of. simpl. tauto.
Qed.

Lemma discr_eqb_lemma a b : discr_eqb a b = true <-> a = b.
Proof. destruct (discr_eqb_spec a b); split; congruence. Qed.
