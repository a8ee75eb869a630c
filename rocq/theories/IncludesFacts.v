(** * IncludesFacts: proofs about configurations of several files. *)

From Coq Require Import List String Bool Arith ZArith Lia Permutation.
From Verif Require Import Base Domain CheckerModel ProxyModel MFacts Spec RegSpec CheckFacts
  RegistryFacts Management Protect ProtectSpec ProtectFacts Zcml ZcmlSpec ZcmlFacts ZcmlProps
  Includes IncludesSpec.
Import ListNotations.
Open Scope string_scope.

(** ** Trees *)

Section NodeInd.
  Variables (P : node -> Prop) (Q : list node -> Prop).
  Hypothesis Hd : forall d, P (NDir d).
  Hypothesis Hg : forall ns, Q ns -> P (NGroup ns).
  Hypothesis Hi : forall f ns, Q ns -> P (NInclude f ns).
  Hypothesis Hn : Q [].
  Hypothesis Hc : forall n ns, P n -> Q ns -> Q (n :: ns).
  Fixpoint node_ind2 (n : node) : P n :=
    let each := fix each (ns : list node) : Q ns :=
      match ns with
      | [] => Hn
      | n :: ns' => Hc n ns' (node_ind2 n) (each ns')
      end in
    match n with
    | NDir d => Hd d
    | NGroup ns => Hg ns (each ns)
    | NInclude f ns => Hi f ns (each ns)
    end.
  Fixpoint nodes_ind2 (ns : list node) : Q ns :=
    match ns with
    | [] => Hn
    | n :: ns' => Hc n ns' (node_ind2 n) (nodes_ind2 ns')
    end.
End NodeInd.

Definition each_node := fix each (q : path) (ns : list node) (x : tctx) : res unit * tctx :=
    match ns with
    | [] => (Ok tt, x)
    | n :: ns' =>
        match process_node q n x with
        | (Ok _, x1) => each q ns' x1
        | (Exc e, x1) => (Exc e, x1)
        end
    end.
Lemma each_node_eq ns : forall q x, each_node q ns x = process_nodes q ns x.
Proof.
  induction ns as [|n ns IH]; intros q x; simpl; [reflexivity|].
  destruct (process_node q n x) as [[u|e] x1]; [apply IH|reflexivity].
Qed.

Lemma process_group p ns x :
  process_node p (NGroup ns) x = (let (r, x1) := process_nodes p ns (opened x) in (r, closed x1)).
Proof. simpl. fold each_node. rewrite each_node_eq. reflexivity. Qed.
Lemma process_include p f ns x :
  process_node p (NInclude f ns) x =
  (if existsb (String.eqb f) (t_seen x) then (Ok tt, x)
   else let (r, x1) := process_nodes (p ++ [f])%list ns (opened (marked f x)) in (r, closed x1)).
Proof. simpl. fold each_node. rewrite each_node_eq. reflexivity. Qed.

Definition each_read := fix each (q : path) (ns : list node) (r : reading) : list statement * reading :=
    match ns with
    | [] => ([], r)
    | n :: ns' => let (l, r1) := read_node q n r in
                  let (l', r2) := each q ns' r1 in ((l ++ l')%list, r2)
    end.
Lemma each_read_eq ns : forall q x, each_read q ns x = read_nodes q ns x.
Proof.
  induction ns as [|n ns IH]; intros q x; simpl; [reflexivity|].
  destruct (read_node q n x) as [l r1]. rewrite IH. reflexivity.
Qed.
Lemma read_group p ns r :
  read_node p (NGroup ns) r = (let (l, r1) := read_nodes p ns r in (l, after_group r r1)).
Proof. simpl. fold each_read. rewrite each_read_eq. reflexivity. Qed.
Lemma read_include p f ns r :
  read_node p (NInclude f ns) r =
  (if existsb (String.eqb f) (rd_seen r) then ([], r)
   else let (l, r1) := read_nodes (p ++ [f])%list ns
                         (mkReading (rd_redefined r) (rd_meaning r) (f :: rd_seen r)) in
        (l, after_group r r1)).
Proof. simpl. fold each_read. rewrite each_read_eq. reflexivity. Qed.

(** ** Directives and the mapping *)

Definition keeps {A} (m : Z A) : Prop := forall c r c', m c = (r, c') -> cx_map c' = cx_map c.

Lemma keeps_ret A (a : A) : keeps (zret a).
Proof. intros c r c' H. inversion H. reflexivity. Qed.
Lemma keeps_raise A e : keeps (@zraise A e).
Proof. intros c r c' H. inversion H. reflexivity. Qed.
Lemma keeps_bind A B (m : Z A) (f : A -> Z B) : keeps m -> (forall a, keeps (f a)) -> keeps (zbind m f).
Proof.
  intros H1 H2 c r c'. unfold zbind. destruct (m c) as [[a|e] c1] eqn:Hm; intros H.
  - rewrite (H2 a _ _ _ H). exact (H1 _ _ _ Hm).
  - inversion H; subst. exact (H1 _ _ _ Hm).
Qed.
Lemma keeps_action d a l : keeps (z_action d a l).
Proof. intros c r c' H. inversion H. reflexivity. Qed.
Lemma keeps_object : keeps z_object.
Proof. intros c r c' H. inversion H. reflexivity. Qed.
Lemma keeps_each A (f : A -> Z unit) l : (forall a, keeps (f a)) -> keeps (z_each f l).
Proof.
  intros H. induction l as [|a l IH]; simpl; [apply keeps_ret|].
  apply keeps_bind; [apply H|intros _; exact IH].
Qed.
Lemma keeps_from t : keeps (Permission_fromUnicode t).
Proof.
  intros c r c'. rewrite fromUnicode_eq. intros H. inversion H. reflexivity.
Qed.

Ltac keep :=
  repeat first [apply keeps_ret | apply keeps_raise | apply keeps_action | apply keeps_object
    | apply keeps_from | apply keeps_bind; [|intros] | apply keeps_each; intros].

Lemma keeps_require k p a i like sa ss : keeps (cd_require k p a i like sa ss).
Proof.
  unfold cd_require, cd_mimic, cd_protectByInterface, cd_protectNames, cd_protectName,
    cd_protectSetAttributes, cd_protectSetSchema.
  apply keeps_bind; [destruct like; keep|intros _].
  destruct (negb _); [destruct like; keep|].
  destruct p as [t|]; [|keep]. destruct (String.eqb t ""); [keep|]. cbv zeta. keep.
  destruct (dget String.eqb (if_names a3) a4) as [[[|]|]|]; keep.
Qed.

Lemma keeps_csub k d : keeps (process_csub k d).
Proof.
  destruct d as [p a i like sa ss|a i|is|oid]; simpl.
  - apply keeps_bind; [destruct p; keep|intros q; apply keeps_require].
  - apply keeps_require.
  - unfold cd_implements. keep.
  - unfold cd_factory. keep.
Qed.
Lemma keeps_msub k d : keeps (process_msub k d).
Proof. destruct d; simpl; unfold md_require, md_allow; keep. Qed.

Lemma directive_keeps d : is_redefinition d = false -> keeps (process_directive d).
Proof.
  intros H. destruct d as [id title|a b|q|k subs|k subs]; simpl in *; try discriminate.
  - unfold permission_directive. keep.
  - unfold securityPolicy. keep.
  - apply keeps_bind; [destruct k; simpl; keep|intros _]. apply keeps_each. intros s. apply keeps_csub.
  - apply keeps_each. intros s. apply keeps_msub.
Qed.

Lemma redefinition_sets d c r c' :
  is_redefinition d = true -> process_directive d c = (r, c') -> cx_map c' <> None.
Proof.
  destruct d as [id title|a b|q|k subs|k subs]; try discriminate. intros _. simpl.
  rewrite (zbind_ok _ _ _ _ _ (fromUnicode_eq a c)), (zbind_ok _ _ _ _ _ (fromUnicode_eq b _)).
  unfold redefinePermission. intros H. inversion H; subst. simpl. discriminate.
Qed.

(** ** The mappings of the open groups *)

Definition grown (a b : list (option mapping)) : Prop :=
  b <> [] /\
  (nearest a = None -> tl b = tl a) /\
  (nearest a <> None -> exists m, nearest b = Some m /\ b = change_nearest a m).

Lemma nearest_change a m : nearest a <> None -> nearest (change_nearest a m) = Some m.
Proof.
  induction a as [|[x|] a IH]; simpl; intros H; [congruence|reflexivity|auto].
Qed.
Lemma change_change a m m' : change_nearest (change_nearest a m) m' = change_nearest a m'.
Proof.
  induction a as [|[x|] a IH]; simpl; [reflexivity|reflexivity|]. rewrite IH. reflexivity.
Qed.
Lemma change_self a m : nearest a = Some m -> change_nearest a m = a.
Proof.
  induction a as [|[x|] a IH]; simpl; intros H; [reflexivity|congruence|]. rewrite IH; auto.
Qed.

Lemma grown_refl a : a <> [] -> grown a a.
Proof.
  intros H. split; [exact H|]. split; [reflexivity|]. intros Hn.
  destruct (nearest a) as [m|] eqn:Hm; [|congruence]. exists m. split; [reflexivity|].
  symmetry. apply change_self. exact Hm.
Qed.

Lemma grown_trans a b c : a <> [] -> grown a b -> grown b c -> grown a c.
Proof.
  intros Ha (Hb & H1 & H2) (Hc & H3 & H4). split; [exact Hc|]. split.
  - intros Hn. specialize (H1 Hn). destruct (nearest b) as [m|] eqn:Hm.
    + destruct H4 as (m' & Hm' & ->); [discriminate|].
      destruct a as [|h a]; [congruence|]. destruct b as [|h' b]; [congruence|].
      simpl in H1. subst b. simpl. destruct h' as [x|]; [reflexivity|]. simpl in *.
      destruct h as [y|]; [discriminate|]. congruence.
    + rewrite H3 by reflexivity. exact H1.
  - intros Hn. destruct (H2 Hn) as (m & Hm & ->). destruct H4 as (m' & Hm' & ->).
    + rewrite Hm. discriminate.
    + exists m'. split; [exact Hm'|apply change_change].
Qed.

Lemma grown_store a o :
  a <> [] -> (o = nearest a \/ o <> None) -> grown a (store a o) /\ nearest (store a o) = o.
Proof.
  intros Ha Ho. unfold store. destruct o as [m|].
  - destruct (nearest a) as [m0|] eqn:Hm.
    + assert (Hn : nearest a <> None) by (rewrite Hm; discriminate).
      split; [|apply nearest_change; exact Hn]. split.
      * destruct a as [|[x|] a]; [congruence| |]; discriminate.
      * split; [congruence|]. intros _. exists m. split; [apply nearest_change; exact Hn|reflexivity].
    + destruct a as [|h a]; [congruence|]. split; [|reflexivity].
      split; [discriminate|]. split; [reflexivity|congruence].
  - destruct Ho as [Ho|Ho]; [|congruence]. split; [apply grown_refl; exact Ha|symmetry; exact Ho].
Qed.

Lemma grown_close a b :
  grown (None :: a) b -> a <> [] ->
  grown a (tl b) /\ (nearest a = None -> tl b = a) /\
  (nearest a <> None -> nearest (tl b) = nearest b).
Proof.
  intros (Hb & H1 & H2) Ha. simpl in H1, H2. destruct (nearest a) as [m|] eqn:Hm.
  - destruct H2 as (m' & Hm' & ->); [discriminate|]. simpl.
    assert (Hn : nearest a <> None) by (rewrite Hm; discriminate).
    split; [|split; [discriminate|reflexivity]].
    split; [destruct a as [|[x|] a]; [congruence| |]; discriminate|].
    split; [congruence|]. intros _. exists m'. split; [apply nearest_change; exact Hn|reflexivity].
  - rewrite H1 by reflexivity. split; [apply grown_refl; exact Ha|]. split; [reflexivity|congruence].
Qed.

(** ** Processing is reading *)

Definition mapped_by (o : option mapping) (x : string) : string :=
  mapped (mkCtx [] 0 o) x.

Definition matches (x : tctx) (r : reading) : Prop :=
  t_maps x <> [] /\ t_seen x = rd_seen r /\
  (forall v, mapped_by (nearest (t_maps x)) v = rd_meaning r v) /\
  (rd_redefined r = true <-> nearest (t_maps x) <> None).

(** The actions of a statement. *)
Definition stmt_made (u u1 : nat) (s : statement) (al : list action) : Prop :=
  exists o c', (forall v, mapped_by o v = sm_meaning s v) /\
    process_directive (sm_dir s) (mkCtx [] u o) = (Ok tt, c') /\
    cx_actions c' = al /\ cx_unique c' = u1.

Inductive made : nat -> nat -> list statement -> list (path * action) -> Prop :=
| made_nil u : made u u [] []
| made_cons u u1 u2 s ss al l :
    stmt_made u u1 s al -> made u1 u2 ss l -> made u u2 (s :: ss) (map (pair (sm_path s)) al ++ l)%list.

Lemma made_app u u1 u2 s1 s2 l1 l2 :
  made u u1 s1 l1 -> made u1 u2 s2 l2 -> made u u2 (s1 ++ s2)%list (l1 ++ l2)%list.
Proof.
  intros H. revert u2 s2 l2. induction H as [u|u u1 u2 s ss al l Hs Hm IH]; intros u3 s2 l2 H2.
  - exact H2.
  - simpl. rewrite <- app_assoc. eapply made_cons; [exact Hs|]. apply IH. exact H2.
Qed.

Definition all_ok (l : list statement) : Prop :=
  forall s, In s l -> directive_ok (sm_meaning s) (sm_dir s).
Definition all_wf (l : list statement) : Prop :=
  forall s i, In s l -> In i (ifaces [sm_dir s]) -> iface_wf i.

Definition outcome (x : tctx) (l : list statement) (r : reading) (o : res unit * tctx) : Prop :=
  (all_ok l /\ exists x' acts, o = (Ok tt, x') /\ matches x' r /\ grown (t_maps x) (t_maps x') /\
     t_actions x' = (t_actions x ++ acts)%list /\ made (t_unique x) (t_unique x') l acts) \/
  (~ all_ok l /\ exists e x', o = (Exc e, x') /\ ((exists t, e = EConfiguration t) \/ e = EAttribute "__module__")).

Lemma outcome_in p d x r :
  matches x r -> all_wf [mkStatement p (rd_meaning r) d] ->
  outcome x [mkStatement p (rd_meaning r) d]
    (mkReading (rd_redefined r || is_redefinition d) (next (rd_meaning r) d) (rd_seen r))
    (process_in p d x).
Proof.
  intros (Hne & Hseen & Hm & Hre) Hwf. unfold process_in.
  set (c := mkCtx [] (t_unique x) (nearest (t_maps x))).
  destruct (directive_step (rd_meaning r) d c Hm
              (fun i Hi => Hwf _ i (or_introl eq_refl) Hi))
    as [(Hok & c' & Hr & Hmap & _)|(Hno & e & c' & Hr & Hx)]; rewrite Hr.
  - left. split; [intros s [<-|[]]; exact Hok|].
    assert (Ho : cx_map c' = nearest (t_maps x) \/ cx_map c' <> None).
    { destruct (is_redefinition d) eqn:Hd.
      - right. exact (redefinition_sets d c _ c' Hd Hr).
      - left. exact (directive_keeps d Hd c _ c' Hr). }
    destruct (grown_store (t_maps x) (cx_map c') Hne Ho) as [Hg Hn].
    eexists _, _. split; [reflexivity|]. split; [|split; [exact Hg|split; [reflexivity|]]].
    + split; [exact (proj1 Hg)|]. split; [exact Hseen|]. split.
      * intros v. simpl t_maps. rewrite Hn. exact (Hmap v).
      * simpl. rewrite Hn. destruct (is_redefinition d) eqn:Hd.
        -- rewrite orb_true_r. split; [intros _; exact (redefinition_sets d c _ c' Hd Hr)|reflexivity].
        -- rewrite orb_false_r, (directive_keeps d Hd c _ c' Hr). exact Hre.
    + simpl. rewrite <- (app_nil_r (map _ _)). eapply made_cons; [|apply made_nil].
      exists (nearest (t_maps x)), c'. split; [exact Hm|]. split; [exact Hr|]. auto.
  - right. split; [intros H; apply Hno; exact (H _ (or_introl eq_refl))|].
    eexists _, _. split; [reflexivity|exact Hx].
Qed.

Lemma matches_opened x r : matches x r -> matches (opened x) r.
Proof.
  intros (Hne & Hseen & Hm & Hre). split; [discriminate|]. split; [exact Hseen|]. split; assumption.
Qed.

(** Leaving a group. *)
Lemma outcome_close x x0 r r0 l r1 o :
  matches x r -> t_actions x0 = t_actions x -> t_unique x0 = t_unique x ->
  t_maps x0 = None :: t_maps x -> rd_redefined r0 = rd_redefined r ->
  outcome x0 l r1 o ->
  outcome x l (after_group r r1) (let (a, x1) := o in (a, closed x1)).
Proof.
  intros (Hne & Hseen & Hm & Hre) Ha Hu Hmp Hr0
    [(Hok & x' & acts & -> & (M1 & M2 & M3 & M4) & Hg & Hact & Hmd)|(Hno & e & x' & -> & Hx)].
  - left. split; [exact Hok|]. exists (closed x'), acts. split; [reflexivity|].
    rewrite Hmp in Hg. destruct (grown_close _ _ Hg Hne) as (G1 & G2 & G3).
    split; [|split; [exact G1|split; [simpl; rewrite Hact, Ha; reflexivity|]]].
    + split; [exact (proj1 G1)|]. unfold after_group. destruct (rd_redefined r) eqn:Hrr.
      * assert (Hn : nearest (t_maps x) <> None) by (apply Hre; reflexivity).
        split; [exact M2|]. simpl t_maps. rewrite (G3 Hn). split; assumption.
      * assert (Hn : nearest (t_maps x) = None).
        { destruct (nearest (t_maps x)); [|reflexivity]. exfalso.
          assert (false = true) by (apply Hre; discriminate). discriminate. }
        split; [exact M2|]. simpl t_maps. rewrite (G2 Hn). split; [exact Hm|].
        simpl. exact Hre.
    + simpl. rewrite <- Hu. exact Hmd.
  - right. split; [exact Hno|]. exists e, (closed x'). split; [reflexivity|exact Hx].
Qed.

Lemma all_wf_app a b : all_wf (a ++ b)%list -> all_wf a /\ all_wf b.
Proof.
  intros H. split; intros s i Hs; apply H; apply in_or_app; auto.
Qed.

Lemma nodes_outcome ns : forall p x r,
  matches x r -> all_wf (fst (read_nodes p ns r)) ->
  outcome x (fst (read_nodes p ns r)) (snd (read_nodes p ns r)) (process_nodes p ns x).
Proof.
  apply (nodes_ind2
    (fun n => forall p x r, matches x r -> all_wf (fst (read_node p n r)) ->
       outcome x (fst (read_node p n r)) (snd (read_node p n r)) (process_node p n x))
    (fun ns => forall p x r, matches x r -> all_wf (fst (read_nodes p ns r)) ->
       outcome x (fst (read_nodes p ns r)) (snd (read_nodes p ns r)) (process_nodes p ns x))).
  - intros d p x r Hm Hwf. apply outcome_in; assumption.
  - intros ns' IH p x r Hm. rewrite read_group, process_group.
    destruct (read_nodes p ns' r) as [l r1] eqn:Hrd. simpl fst. simpl snd. intros Hwf.
    apply (outcome_close x (opened x) r r); try reflexivity; [exact Hm|].
    assert (H := IH p (opened x) r (matches_opened x r Hm)). cbv beta in H. rewrite Hrd in H. exact (H Hwf).
  - intros f ns' IH p x r Hm. rewrite read_include, process_include.
    pose proof Hm as (Hne & Hseen & Hmm & Hre). rewrite Hseen.
    destruct (existsb (String.eqb f) (rd_seen r)).
    + intros _. left. split; [intros s []|]. exists x, []. split; [reflexivity|]. split; [exact Hm|].
      split; [apply grown_refl; exact Hne|]. split; [rewrite app_nil_r; reflexivity|apply made_nil].
    + set (r0 := mkReading (rd_redefined r) (rd_meaning r) (f :: rd_seen r)).
      destruct (read_nodes (p ++ [f])%list ns' r0) as [l r1] eqn:Hrd. simpl fst. simpl snd. intros Hwf.
      apply (outcome_close x (opened (marked f x)) r r0); try reflexivity; [exact Hm|].
      assert (H := IH (p ++ [f])%list (opened (marked f x)) r0). cbv beta in H. rewrite Hrd in H. apply H; [|exact Hwf].
      split; [discriminate|]. split; [simpl; rewrite Hseen; reflexivity|]. split; [exact Hmm|exact Hre].
  - intros p x r Hm _. left. split; [intros s []|]. exists x, []. split; [reflexivity|].
    split; [exact Hm|]. split; [apply grown_refl; exact (proj1 Hm)|].
    split; [rewrite app_nil_r; reflexivity|apply made_nil].
  - intros n ns' IHn IHns p x r Hm. simpl read_nodes. simpl process_nodes.
    destruct (read_node p n r) as [l r1] eqn:Hr1. destruct (read_nodes p ns' r1) as [l' r2] eqn:Hr2.
    simpl fst. simpl snd. intros Hwf. apply all_wf_app in Hwf. destruct Hwf as [Hwf1 Hwf2].
    assert (H1 := IHn p x r Hm). cbv beta in H1. rewrite Hr1 in H1.
    destruct (H1 Hwf1) as [(Hok & x1 & acts & -> & Hm1 & Hg1 & Ha1 & Hmd1)|(Hno & e & x1 & -> & Hx)].
    + assert (H2 := IHns p x1 r1 Hm1). cbv beta in H2. rewrite Hr2 in H2.
      destruct (H2 Hwf2) as [(Hok2 & x2 & acts2 & -> & Hm2 & Hg2 & Ha2 & Hmd2)|(Hno & e & x2 & -> & Hx)].
      * left. split; [intros s Hs; apply in_app_or in Hs; destruct Hs; auto|].
        exists x2, (acts ++ acts2)%list. split; [reflexivity|]. split; [exact Hm2|].
        split; [exact (grown_trans _ _ _ (proj1 Hm) Hg1 Hg2)|].
        split; [rewrite Ha2, Ha1, app_assoc; reflexivity|].
        exact (made_app _ _ _ _ _ _ _ Hmd1 Hmd2).
      * right. split; [intros H; apply Hno; intros s Hs; apply H; apply in_or_app; auto|].
        exists e, x2. split; [reflexivity|exact Hx].
    + right. split; [intros H; apply Hno; intros s Hs; apply H; apply in_or_app; auto|].
      exists e, x1. split; [reflexivity|exact Hx].
Qed.

(** ** The actions of a directive *)

Inductive fits (pr : claim -> string -> Prop) (ck : rkey -> Prop) (pm : string -> string -> Prop)
    (pl : policy -> Prop) : action -> Prop :=
| ft_name k n t : pr (ClRead k n) t -> fits pr ck pm pl (name_action k t n)
| ft_set k n t : pr (ClWrite k n) t -> fits pr ck pm pl (set_action k t n)
| ft_module k n t : pr (ClModule k n) t -> fits pr ck pm pl (module_action k t n)
| ft_mimic k l u : ck k -> fits pr ck pm pl (mimic_action k l u)
| ft_content k i u : fits pr ck pm pl (mkAction (Some (DiContent k u)) (AImplements k i) false)
| ft_iface i : fits pr ck pm pl (iface_action i)
| ft_check t : fits pr ck pm pl (check_action t)
| ft_perm id title : pm id title ->
    fits pr ck pm pl (mkAction (Some (DiUtility "IPermission" id)) (APermission id title) false)
| ft_policy q : pl q -> fits pr ck pm pl (mkAction (Some DiPolicy) (APolicy q) false)
| ft_factory k id : fits pr ck pm pl (mkAction (Some (DiUtility "IFactory" id)) (AFactory k id) false).

Lemma fits_mono (pr pr' : claim -> string -> Prop) (ck ck' : rkey -> Prop)
    (pm pm' : string -> string -> Prop) (pl pl' : policy -> Prop) a :
  (forall c t, pr c t -> pr' c t) -> (forall k, ck k -> ck' k) ->
  (forall i t, pm i t -> pm' i t) -> (forall q, pl q -> pl' q) ->
  fits pr ck pm pl a -> fits pr' ck' pm' pl' a.
Proof. intros H1 H2 H3 H4 []; constructor; auto. Qed.

Definition complete (pr : claim -> string -> Prop) (l : list action) : Prop :=
  (forall k n t, pr (ClRead k n) t -> In (name_action k t n) l) /\
  (forall k n t, pr (ClWrite k n) t -> In (set_action k t n) l) /\
  (forall k n t, pr (ClModule k n) t -> In (module_action k t n) l).

Definition none1 : rkey -> Prop := fun _ => False.
Definition none2 : string -> string -> Prop := fun _ _ => False.
Definition none3 : policy -> Prop := fun _ => False.

Lemma in_sorted x l : In x (sorted l) <-> In x l.
Proof. split; apply Permutation_in; [|symmetry]; apply sorted_perm. Qed.

Lemma in_required k p a i sa ss x :
  (forall sc, In sc ss -> iface_wf sc) ->
  In x (required k p a i sa ss) <->
  (exists n, In n (read_names a i) /\ x = name_action k p n) \/
  (exists n, In n (write_names sa ss) /\ x = set_action k p n) \/
  (exists j, (In j i \/ In j ss) /\ x = iface_action (if_id j)).
Proof.
  intros Hwf. unfold required, read_names, write_names. rewrite !in_app_iff, !in_flat_map, !in_map_iff.
  split.
  - intros [(j & Hj & H)|[(n & <- & H)|[(n & <- & H)|(j & Hj & H)]]].
    + unfold by_iface in H. rewrite in_app_iff, in_map_iff in H. destruct H as [(n & <- & H)|[<-|[]]].
      * left. exists n. split; [|reflexivity]. rewrite in_app_iff, in_flat_map. right.
        exists j. split; [exact Hj|]. apply in_sorted. exact H.
      * right. right. exists j. auto.
    + left. exists n. rewrite in_app_iff. auto.
    + right. left. exists n. rewrite in_app_iff. auto.
    + unfold by_schema in H. rewrite in_app_iff, in_map_iff in H. destruct H as [(n & <- & H)|[<-|[]]].
      * right. left. exists n. split; [|reflexivity]. rewrite in_app_iff, in_flat_map. right.
        exists j. split; [exact Hj|].
        apply (Permutation_in _ (settable_writable j (Hwf j Hj))). exact H.
      * right. right. exists j. auto.
  - intros [(n & H & ->)|[(n & H & ->)|(j & [H|H] & ->)]].
    + rewrite in_app_iff, in_flat_map in H. destruct H as [H|(j & Hj & H)].
      * right. left. exists n. auto.
      * left. exists j. split; [exact Hj|]. unfold by_iface. rewrite in_app_iff, in_map_iff. left.
        exists n. split; [reflexivity|]. apply in_sorted. exact H.
    + rewrite in_app_iff, in_flat_map in H. destruct H as [H|(j & Hj & H)].
      * right. right. left. exists n. auto.
      * right. right. right. exists j. split; [exact Hj|]. unfold by_schema.
        rewrite in_app_iff, in_map_iff. left. exists n. split; [reflexivity|].
        apply (Permutation_in _ (Permutation_sym (settable_writable j (Hwf j Hj)))). exact H.
    + left. exists j. split; [exact H|]. unfold by_iface. rewrite in_app_iff. right. left. reflexivity.
    + right. right. right. exists j. split; [exact H|]. unfold by_schema. rewrite in_app_iff.
      right. left. reflexivity.
Qed.

Lemma checks_fits pr ck pm pl t a : In a (checks t) -> fits pr ck pm pl a.
Proof.
  intros H. unfold checks in H. apply in_map_iff in H. destruct H as (x & <- & _). constructor.
Qed.

Lemma complete_incl (pr : claim -> string -> Prop) l l' : incl l l' -> complete pr l -> complete pr l'.
Proof.
  intros H (H1 & H2 & H3). split; [|split]; intros k n t Hp; apply H; auto.
Qed.

Lemma required_fits (pr : claim -> string -> Prop) ck pm pl k p a i sa ss :
  (forall sc, In sc ss -> iface_wf sc) ->
  (forall n, In n (read_names a i) -> pr (ClRead k n) p) ->
  (forall n, In n (write_names sa ss) -> pr (ClWrite k n) p) ->
  forall x, In x (required k p a i sa ss) -> fits pr ck pm pl x.
Proof.
  intros Hwf H1 H2 x Hx. apply in_required in Hx; [|exact Hwf].
  destruct Hx as [(n & Hn & ->)|[(n & Hn & ->)|(j & _ & ->)]]; constructor; auto.
Qed.

Lemma mimics_fits (pr : claim -> string -> Prop) (ck : rkey -> Prop) pm pl k like u :
  (like <> None -> ck k) -> forall x, In x (mimics k like u) -> fits pr ck pm pl x.
Proof.
  intros H x Hx. destruct like as [l|]; [|contradiction]. destruct Hx as [<-|[]].
  constructor. apply H. discriminate.
Qed.

Lemma implements_fits (pr : claim -> string -> Prop) ck pm pl k is : forall c c',
  cd_implements k is c = (Ok tt, c') ->
  exists l, cx_actions c' = (cx_actions c ++ l)%list /\ forall x, In x l -> fits pr ck pm pl x.
Proof.
  induction is as [|i is IH]; intros c c' H.
  - inversion H; subst. exists []. rewrite app_nil_r. split; [reflexivity|intros x []].
  - unfold cd_implements in *. simpl in H. unfold zbind at 1 in H. unfold zbind at 1, z_object in H.
    unfold zbind at 1, z_action at 1 in H. simpl in H. unfold z_action at 1 in H. simpl in H.
    rewrite <- app_assoc in H. destruct (IH _ _ H) as (l & Hl & Hf). simpl in Hl.
    eexists. rewrite Hl, <- app_assoc. split; [reflexivity|]. simpl.
    intros x [<-|[<-|Hx]]; [constructor|constructor|auto].
Qed.

Lemma csub_fits m k d c c' :
  (forall x, mapped c x = m x) -> (forall i, In i (csub_ifaces d) -> iface_wf i) ->
  process_csub k d c = (Ok tt, c') ->
  exists l, cx_actions c' = (cx_actions c ++ l)%list /\
    (forall x, In x l -> fits (csub_protects m k d) (fun k' => k' = k /\ csub_likes d <> []) none2 none3 x) /\
    complete (csub_protects m k d) l.
Proof.
  intros Hm Hwf. destruct d as [permission a i like sa ss|a i|is|oid]; simpl process_csub.
  - assert (Hwf' : forall sc, In sc ss -> iface_wf sc).
    { intros sc Hsc. apply Hwf. simpl. apply in_or_app. right. exact Hsc. }
    set (c1 := match permission with Some t => add c (checks t) | None => c end).
    set (p := match permission with Some t => Some (m t) | None => None end).
    set (l0 := match permission with Some t => checks t | None => [] end).
    assert (Hp : (match permission with
                  | Some t => zbind (Permission_fromUnicode t) (fun v => zret (Some v))
                  | None => zret None
                  end) c = (Ok p, c1)).
    { unfold p, c1. destruct permission as [t|]; [|reflexivity].
      unfold zbind. rewrite fromUnicode_eq, Hm. reflexivity. }
    rewrite (zbind_ok _ _ _ _ _ Hp). intros Hr.
    assert (Hc1 : cx_actions c1 = (cx_actions c ++ l0)%list).
    { unfold c1, l0. destruct permission; [reflexivity|]. rewrite app_nil_r. reflexivity. }
    assert (Hl0 : forall pr ck pm pl x, In x l0 -> fits pr ck pm pl x).
    { unfold l0. intros pr ck pm pl x Hx. destruct permission; [|contradiction].
      apply (checks_fits _ _ _ _ _ _ Hx). }
    assert (Hlk : like <> None -> k = k /\ csub_likes (CRequire permission a i like sa ss) <> []).
    { intros H. split; [reflexivity|]. simpl. destruct like; [discriminate|congruence]. }
    inversion Hr as [Hr']. clear Hr.
    assert (Hr := require_spec _ _ _ _ _ _ _ _ _ _ Hr'). clear Hr'.
    assert (Hmim : cx_actions (after_mimic like c1 k) =
                   (cx_actions c ++ l0 ++ mimics k like (cx_unique c1))%list).
    { destruct (mimic_moved k like c1) as (H & _). rewrite H, Hc1, app_assoc. reflexivity. }
    inversion Hr as [l Hl Ha Hi Hsa Hss| |Hs Hpp|t Hs Hpp Hne]; subst.
    + exists (l0 ++ mimics k (Some l) (cx_unique c1))%list. split; [exact Hmim|]. split.
      * intros x Hx. apply in_app_or in Hx. destruct Hx as [Hx|Hx]; [apply Hl0; exact Hx|].
        apply (mimics_fits _ _ _ _ _ _ _ Hlk x Hx).
      * split; [|split]; intros k' n t H; inversion H; subst; simpl in *; contradiction.
    + unfold p in Hpp. destruct permission as [t0|]; [|discriminate]. injection Hpp as Hpp. subst t.
      exists (l0 ++ mimics k like (cx_unique c1) ++ required k (m t0) a i sa ss)%list. split.
      { unfold add. simpl cx_actions. rewrite Hmim, <- !app_assoc. reflexivity. }
      split.
      * intros x Hx. apply in_app_or in Hx. destruct Hx as [Hx|Hx]; [apply Hl0; exact Hx|].
        apply in_app_or in Hx. destruct Hx as [Hx|Hx].
        -- apply (mimics_fits _ _ _ _ _ _ _ Hlk x Hx).
        -- revert x Hx. apply required_fits; [exact Hwf'| |]; intros n Hn; constructor; exact Hn.
      * split; [|split]; intros k' n t H; inversion H; subst; rewrite !in_app_iff;
          right; right; apply in_required; try exact Hwf'; eauto.
  - unfold cd_allow. intros Hr.
    assert (Hr' := require_spec _ _ _ _ _ _ _ _ _ _ Hr). clear Hr.
    inversion Hr' as [l Hl Ha Hi Hsa Hss| |Hs Hpp|t Hs Hpp Hne]; subst.
    + discriminate.
    + injection Hpp as <-. exists (required k zope_Public a i [] []). split; [reflexivity|]. split.
      * apply required_fits; [intros sc []| |].
        -- intros n Hn. constructor. exact Hn.
        -- intros n [].
      * split; [|split]; intros k' n t H; inversion H; subst; apply in_required;
          try (intros sc []); eauto.
  - intros Hr. destruct (implements_fits (csub_protects m k (CImplements is))
      (fun k' => k' = k /\ csub_likes (CImplements is) <> []) none2 none3 _ _ _ _ Hr) as (l & H1 & H2).
    exists l. split; [exact H1|]. split; [exact H2|].
    split; [|split]; intros k' n t H; inversion H.
  - unfold cd_factory, zbind, z_action. simpl. intros Hr. inversion Hr; subst. simpl.
    eexists. rewrite <- app_assoc. split; [reflexivity|]. split.
    + intros x [<-|[<-|[]]]; constructor.
    + split; [|split]; intros k' n t H; inversion H.
Qed.

Lemma csubs_fits m k subs : forall c c',
  (forall x, mapped c x = m x) -> (forall i, In i (flat_map csub_ifaces subs) -> iface_wf i) ->
  z_each (process_csub k) subs c = (Ok tt, c') ->
  exists l, cx_actions c' = (cx_actions c ++ l)%list /\
    (forall x, In x l -> fits (protects m (ZClass k subs))
                          (fun k' => k' = k /\ exists s, In s subs /\ csub_likes s <> []) none2 none3 x) /\
    complete (protects m (ZClass k subs)) l.
Proof.
  induction subs as [|d subs IH]; intros c c' Hm Hwf H.
  - inversion H; subst. exists []. rewrite app_nil_r. split; [reflexivity|]. split; [intros x []|].
    split; [|split]; intros k' n t Hp; inversion Hp; contradiction.
  - simpl in H. unfold zbind in H. destruct (process_csub k d c) as [[[]|e] c1] eqn:Hd; [|discriminate].
    assert (Hwf1 : forall i, In i (csub_ifaces d) -> iface_wf i)
      by (intros i Hi; apply Hwf; simpl; apply in_or_app; auto).
    assert (Hwf2 : forall i, In i (flat_map csub_ifaces subs) -> iface_wf i)
      by (intros i Hi; apply Hwf; simpl; apply in_or_app; auto).
    assert (Hm1 : forall x, mapped c1 x = m x).
    { intros x. unfold mapped. rewrite (keeps_csub k d _ _ _ Hd). apply Hm. }
    destruct (csub_fits m k d c c1 Hm Hwf1 Hd) as (l1 & A1 & F1 & C1).
    destruct (IH c1 c' Hm1 Hwf2 H) as (l2 & A2 & F2 & C2).
    exists (l1 ++ l2)%list. split; [rewrite A2, A1, app_assoc; reflexivity|]. split.
    + intros x Hx. apply in_app_or in Hx. destruct Hx as [Hx|Hx].
      * apply (fits_mono (csub_protects m k d) _ _ _ none2 _ none3 _ x) with (5 := F1 x Hx); auto.
        -- intros c0 t Hp. apply (PrClass m k _ d); [left; reflexivity|exact Hp].
        -- intros k0 [-> Hl]. split; [reflexivity|]. exists d. split; [left; reflexivity|exact Hl].
      * apply (fits_mono (protects m (ZClass k subs)) _ _ _ none2 _ none3 _ x) with (5 := F2 x Hx); auto.
        -- intros c0 t Hp. inversion Hp; subst. apply (PrClass m k _ s); [right; assumption|assumption].
        -- intros k0 [-> (s & Hs & Hl)]. split; [reflexivity|]. exists s. split; [right; exact Hs|exact Hl].
    + destruct C1 as (C11 & C12 & C13). destruct C2 as (C21 & C22 & C23).
      split; [|split]; intros k' n t Hp; inversion Hp as [? ? s ? ? Hin Hsp|]; subst;
        apply in_or_app; destruct Hin as [<-|Hin]; auto;
        right; first [apply C21|apply C22|apply C23]; apply (PrClass m k _ s); assumption.
Qed.

Lemma msub_fits m k d c c' :
  (forall x, mapped c x = m x) -> process_msub k d c = (Ok tt, c') ->
  exists l, cx_actions c' = (cx_actions c ++ l)%list /\
    (forall x, In x l -> fits (msub_protects m k d) none1 none2 none3 x) /\
    complete (msub_protects m k d) l.
Proof.
  intros Hm.
  assert (Hin : forall a i n, In n (names a i) <-> In n (read_names a i)).
  { intros a i n. rewrite <- (nodup_In string_dec (read_names a i)).
    split; apply Permutation_in; [|symmetry]; apply names_perm. }
  destruct d as [t a i|a i]; simpl process_msub.
  - rewrite (zbind_ok _ _ _ _ _ (fromUnicode_eq t c)), Hm. unfold md_require. rewrite module_eq.
    intros H. inversion H; subst. exists (checks t ++ map (module_action k (m t)) (names a i))%list.
    split; [simpl; rewrite app_assoc; reflexivity|]. split.
    + intros x Hx. apply in_app_or in Hx. destruct Hx as [Hx|Hx]; [apply (checks_fits _ _ _ _ _ _ Hx)|].
      apply in_map_iff in Hx. destruct Hx as (n & <- & Hn). constructor. constructor. apply Hin. exact Hn.
    + split; [|split]; intros k' n t' Hp; inversion Hp; subst. apply in_or_app. right.
      apply in_map. apply Hin. assumption.
  - unfold md_allow. rewrite module_eq. intros H. inversion H; subst.
    exists (map (module_action k zope_Public) (names a i)). split; [reflexivity|]. split.
    + intros x Hx. apply in_map_iff in Hx. destruct Hx as (n & <- & Hn). constructor.
      constructor. apply Hin. exact Hn.
    + split; [|split]; intros k' n t' Hp; inversion Hp; subst.
      apply (in_map (module_action k' zope_Public)). apply Hin. assumption.
Qed.

Lemma msubs_fits m k subs : forall c c',
  (forall x, mapped c x = m x) -> z_each (process_msub k) subs c = (Ok tt, c') ->
  exists l, cx_actions c' = (cx_actions c ++ l)%list /\
    (forall x, In x l -> fits (protects m (ZModule k subs)) none1 none2 none3 x) /\
    complete (protects m (ZModule k subs)) l.
Proof.
  induction subs as [|d subs IH]; intros c c' Hm H.
  - inversion H; subst. exists []. rewrite app_nil_r. split; [reflexivity|]. split; [intros x []|].
    split; [|split]; intros k' n t Hp; inversion Hp; contradiction.
  - simpl in H. unfold zbind in H. destruct (process_msub k d c) as [[[]|e] c1] eqn:Hd; [|discriminate].
    assert (Hm1 : forall x, mapped c1 x = m x).
    { intros x. unfold mapped. rewrite (keeps_msub k d _ _ _ Hd). apply Hm. }
    destruct (msub_fits m k d c c1 Hm Hd) as (l1 & A1 & F1 & C1).
    destruct (IH c1 c' Hm1 H) as (l2 & A2 & F2 & C2).
    exists (l1 ++ l2)%list. split; [rewrite A2, A1, app_assoc; reflexivity|]. split.
    + intros x Hx. apply in_app_or in Hx. destruct Hx as [Hx|Hx].
      * apply (fits_mono (msub_protects m k d) _ none1 _ none2 _ none3 _ x) with (5 := F1 x Hx); auto.
        intros c0 t Hp. apply (PrModule m k _ d); [left; reflexivity|exact Hp].
      * apply (fits_mono (protects m (ZModule k subs)) _ none1 _ none2 _ none3 _ x) with (5 := F2 x Hx); auto.
        intros c0 t Hp. inversion Hp; subst. apply (PrModule m k _ s); [right; assumption|assumption].
    + destruct C1 as (C11 & C12 & C13). destruct C2 as (C21 & C22 & C23).
      split; [|split]; intros k' n t Hp; inversion Hp as [|? ? s ? ? Hin Hsp]; subst;
        apply in_or_app; destruct Hin as [<-|Hin]; auto;
        right; first [apply C21|apply C22|apply C23]; apply (PrModule m k _ s); assumption.
Qed.

Definition directive_fits (m : meaning) (d : directive) : action -> Prop :=
  fits (protects m d)
       (fun k => exists subs s, d = ZClass k subs /\ In s subs /\ csub_likes s <> [])
       (fun id title => d = ZPermission id title) (fun q => d = ZPolicy q).

Lemma directive_fits_lemma m d c c' :
  (forall x, mapped c x = m x) -> (forall i, In i (ifaces [d]) -> iface_wf i) ->
  process_directive d c = (Ok tt, c') ->
  exists l, cx_actions c' = (cx_actions c ++ l)%list /\
    (forall x, In x l -> directive_fits m d x) /\ complete (protects m d) l.
Proof.
  intros Hm Hwf. destruct d as [id title|a b|q|k subs|k subs].
  - unfold process_directive, permission_directive, zbind, z_action. simpl. intros H.
    inversion H; subst. simpl. eexists. rewrite <- app_assoc. split; [reflexivity|]. split.
    + intros x [<-|[<-|[]]]; constructor. reflexivity.
    + split; [|split]; intros k n t Hp; inversion Hp.
  - simpl. rewrite (zbind_ok _ _ _ _ _ (fromUnicode_eq a c)), (zbind_ok _ _ _ _ _ (fromUnicode_eq b _)).
    unfold redefinePermission. intros H. inversion H; subst. simpl.
    exists (checks a ++ checks b)%list. rewrite app_assoc. split; [reflexivity|]. split.
    + intros x Hx. apply in_app_or in Hx. destruct Hx as [Hx|Hx]; exact (checks_fits _ _ _ _ _ _ Hx).
    + split; [|split]; intros k n t Hp; inversion Hp.
  - simpl. unfold securityPolicy, z_action. intros H. inversion H; subst. simpl.
    eexists. split; [reflexivity|]. split.
    + intros x [<-|[]]. constructor. reflexivity.
    + split; [|split]; intros k n t Hp; inversion Hp.
  - destruct k as [cls|md|o]; simpl; intros H; try discriminate.
    assert (Hwf' : forall i, In i (flat_map csub_ifaces subs) -> iface_wf i).
    { intros i Hi. apply Hwf. unfold ifaces. simpl. rewrite app_nil_r. exact Hi. }
    destruct (csubs_fits m (KType cls) subs c c' Hm Hwf' H) as (l & A & F & C).
    exists l. split; [exact A|]. split; [|exact C]. intros x Hx.
    apply (fits_mono _ _ _ _ none2 _ none3 _ x) with (5 := F x Hx); auto.
    + intros k [-> (s & Hs & Hl)]. exists subs, s. auto.
    + intros i t [].
    + intros i [].
  - simpl. intros H. destruct (msubs_fits m k subs c c' Hm H) as (l & A & F & C).
    exists l. split; [exact A|]. split; [|exact C]. intros x Hx.
    apply (fits_mono _ _ none1 _ none2 _ none3 _ x) with (5 := F x Hx); auto.
    + intros i [].
    + intros i t [].
    + intros i [].
Qed.
