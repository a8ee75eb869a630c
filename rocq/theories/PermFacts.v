(** * PermFacts: permission listings. *)

From Coq Require Import List String Ascii Bool Arith Sorted Permutation Lia NArith.
From Verif Require Import Base Domain MFacts Protect Permission PermSpec Zcml ZcmlSpec ZcmlFacts
  ZcmlProps.
Import ListNotations.
Open Scope string_scope.
Local Arguments String.eqb : simpl never.

(** ** The order on strings *)

Definition slt (a b : string) : Prop := String.compare a b = Lt.

Lemma ascii_trans a b c :
  Ascii.compare a b = Lt -> Ascii.compare b c = Lt -> Ascii.compare a c = Lt.
Proof. unfold Ascii.compare. rewrite !N.compare_lt_iff. lia. Qed.

Lemma ascii_refl a : Ascii.compare a a = Eq.
Proof. apply N.compare_refl. Qed.

Lemma slt_trans a b c : slt a b -> slt b c -> slt a c.
Proof.
  unfold slt. revert b c. induction a as [|x a IH]; intros [|y b] [|z c]; simpl;
    try discriminate; try reflexivity.
  destruct (Ascii.compare x y) eqn:H1; try discriminate.
  - apply Ascii.compare_eq_iff in H1. subst y.
    destruct (Ascii.compare x z) eqn:H2; try discriminate; try reflexivity. apply IH.
  - intros _. destruct (Ascii.compare y z) eqn:H2; try discriminate.
    + apply Ascii.compare_eq_iff in H2. subst z. rewrite H1. reflexivity.
    + rewrite (ascii_trans _ _ _ H1 H2). reflexivity.
Qed.

Lemma string_compare_refl a : String.compare a a = Eq.
Proof. induction a; simpl; [reflexivity|]. rewrite ascii_refl. exact IHa. Qed.

Lemma slt_irrefl a : ~ slt a a.
Proof. unfold slt. rewrite string_compare_refl. discriminate. Qed.

Lemma slt_total a b : a <> b -> String.leb a b = false -> slt b a.
Proof.
  unfold slt, String.leb. intros H. rewrite (String.compare_antisym b a).
  destruct (String.compare a b) eqn:Hc; try discriminate. reflexivity.
Qed.
Lemma leb_slt a b : a <> b -> String.leb a b = true -> slt a b.
Proof.
  unfold slt, String.leb. intros H. destruct (String.compare a b) eqn:Hc; try discriminate; auto.
  apply String.compare_eq_iff in Hc. contradiction.
Qed.

(** ** Sorting *)

Lemma insert_perm t l : Permutation (t :: l) (insert_term t l).
Proof.
  induction l as [|u l IH]; simpl; [reflexivity|].
  destruct (String.leb (title_of t) (title_of u)); [reflexivity|].
  etransitivity; [apply perm_swap|]. constructor. exact IH.
Qed.
Lemma sorted_perm l : Permutation l (sorted_terms l).
Proof.
  induction l as [|t l IH]; simpl; [constructor|].
  etransitivity; [|apply insert_perm]. constructor. exact IH.
Qed.

Fixpoint sinsert (n : string) (l : list string) : list string :=
  match l with
  | [] => [n]
  | m :: l' => if String.leb n m then n :: m :: l' else m :: sinsert n l'
  end.
Fixpoint ssort (l : list string) : list string :=
  match l with [] => [] | n :: l' => sinsert n (ssort l') end.

Lemma insert_id n l : insert_term (id_term n) (map id_term l) = map id_term (sinsert n l).
Proof.
  induction l as [|m l IH]; simpl; [reflexivity|]. unfold title_of at 1 2. simpl.
  destruct (String.leb n m); simpl; [reflexivity|]. rewrite IH. reflexivity.
Qed.
Lemma sorted_id l : sorted_terms (map id_term l) = map id_term (ssort l).
Proof. induction l as [|n l IH]; simpl; [reflexivity|]. rewrite IH. apply insert_id. Qed.

Lemma sinsert_perm n l : Permutation (n :: l) (sinsert n l).
Proof.
  induction l as [|m l IH]; simpl; [reflexivity|]. destruct (String.leb n m); [reflexivity|].
  etransitivity; [apply perm_swap|]. constructor. exact IH.
Qed.
Lemma ssort_perm l : Permutation l (ssort l).
Proof.
  induction l as [|n l IH]; simpl; [constructor|].
  etransitivity; [|apply sinsert_perm]. constructor. exact IH.
Qed.

Lemma sinsert_sorted n l :
  ~ In n l -> StronglySorted slt l -> StronglySorted slt (sinsert n l).
Proof.
  induction l as [|m l IH]; simpl; intros Hn Hs; [repeat constructor|].
  inversion Hs as [|? ? Hs' Hall]; subst.
  assert (Hne : n <> m) by (intros ->; apply Hn; auto).
  destruct (String.leb n m) eqn:Hle.
  - constructor; [exact Hs|]. pose proof (leb_slt _ _ Hne Hle) as Hlt.
    constructor; [exact Hlt|]. eapply Forall_impl; [|exact Hall].
    intros x Hx. exact (slt_trans _ _ _ Hlt Hx).
  - constructor; [apply IH; auto|]. apply Forall_forall. intros x Hx.
    apply (Permutation_in _ (Permutation_sym (sinsert_perm n l))) in Hx.
    destruct Hx as [<-|Hx]; [exact (slt_total _ _ Hne Hle)|].
    rewrite Forall_forall in Hall. auto.
Qed.
Lemma ssort_sorted l : NoDup l -> StronglySorted slt (ssort l).
Proof.
  induction 1 as [|n l Hn Hd IH]; simpl; [constructor|].
  apply sinsert_sorted; [|exact IH]. intros H. apply Hn.
  exact (Permutation_in _ (Permutation_sym (ssort_perm l)) H).
Qed.

Lemma sorted_unique l : forall l',
  StronglySorted slt l -> StronglySorted slt l' -> (forall x, In x l <-> In x l') -> l = l'.
Proof.
  induction l as [|a l IH]; intros l' H1 H2 Hi.
  - destruct l' as [|b l']; [reflexivity|]. destruct (proj2 (Hi b) (or_introl eq_refl)).
  - destruct l' as [|b l']; [destruct (proj1 (Hi a) (or_introl eq_refl))|].
    inversion H1 as [|? ? Hs1 Ha]; inversion H2 as [|? ? Hs2 Hb]; subst.
    rewrite Forall_forall in Ha, Hb.
    assert (a = b) as ->.
    { destruct (proj1 (Hi a) (or_introl eq_refl)) as [->|H]; [reflexivity|].
      destruct (proj2 (Hi b) (or_introl eq_refl)) as [->|H']; [reflexivity|].
      destruct (slt_irrefl a). exact (slt_trans _ _ _ (Ha b H') (Hb a H)). }
    f_equal. apply IH; auto. intros x. split; intros Hx.
    + destruct (proj1 (Hi x) (or_intror Hx)) as [<-|]; [|assumption].
      destruct (slt_irrefl b (Ha b Hx)).
    + destruct (proj2 (Hi x) (or_intror Hx)) as [<-|]; [|assumption].
      destruct (slt_irrefl b (Hb b Hx)).
Qed.

Lemma listing_unique P ns ns' : listing P ns -> listing P ns' -> ns = ns'.
Proof.
  intros [H1 H2] [H3 H4]. apply sorted_unique; auto. intros x. rewrite H1, H3. reflexivity.
Qed.

(** ** Uniqueness of terms *)

Lemma tvalue_eqb_spec a b : reflect (a = b) (tvalue_eqb a b).
Proof.
  destruct a, b; simpl; try (constructor; congruence).
  - destruct (String.eqb_spec s s0); constructor; congruence.
  - destruct (Nat.eqb_spec p p0); constructor; congruence.
Qed.

Lemma unique_terms_spec ts : forall vs ks,
  (unique_terms vs ks ts = Ok tt /\
   NoDup (map tm_value ts) /\ NoDup (map tm_token ts) /\
   (forall t, In t ts -> ~ In (tm_value t) vs /\ ~ In (tm_token t) ks)) \/
  ((exists e, unique_terms vs ks ts = Exc (EValue e)) /\
   ~ (NoDup (map tm_value ts) /\ NoDup (map tm_token ts) /\
      (forall t, In t ts -> ~ In (tm_value t) vs /\ ~ In (tm_token t) ks))).
Proof.
  induction ts as [|t ts IH]; intros vs ks; simpl.
  - left. repeat split; try constructor; contradiction.
  - destruct (existsb (tvalue_eqb (tm_value t)) vs) eqn:Hv.
    + right. split; [eauto|]. intros (_ & _ & H). apply existsb_exists in Hv.
      destruct Hv as (x & Hx & He). destruct (tvalue_eqb_spec (tm_value t) x); [|discriminate].
      subst x. exact (proj1 (H t (or_introl eq_refl)) Hx).
    + destruct (existsb (String.eqb (tm_token t)) ks) eqn:Hk.
      * right. split; [eauto|]. intros (_ & _ & H). apply existsb_exists in Hk.
        destruct Hk as (x & Hx & He). apply String.eqb_eq in He. subst x.
        exact (proj2 (H t (or_introl eq_refl)) Hx).
      * assert (Nv : ~ In (tm_value t) vs).
        { intros H. enough (existsb (tvalue_eqb (tm_value t)) vs = true) by congruence.
          apply existsb_exists. exists (tm_value t). split; [exact H|].
          destruct (tvalue_eqb_spec (tm_value t) (tm_value t)); congruence. }
        assert (Nk : ~ In (tm_token t) ks).
        { intros H. enough (existsb (String.eqb (tm_token t)) ks = true) by congruence.
          apply existsb_exists. exists (tm_token t). split; [exact H|apply String.eqb_refl]. }
        destruct (IH (tm_value t :: vs) (tm_token t :: ks)) as [(H & Hd1 & Hd2 & Ho)|(H & Hno)].
        -- left. split; [exact H|]. split; [|split].
           ++ constructor; [|exact Hd1]. intros Hin. apply in_map_iff in Hin.
              destruct Hin as (u & He & Hu). apply (proj1 (Ho u Hu)). left. auto.
           ++ constructor; [|exact Hd2]. intros Hin. apply in_map_iff in Hin.
              destruct Hin as (u & He & Hu). apply (proj2 (Ho u Hu)). left. auto.
           ++ intros u [<-|Hu]; [auto|]. destruct (Ho u Hu) as [A B]. simpl in A, B. tauto.
        -- right. split; [exact H|]. intros (Hd1 & Hd2 & Ho). apply Hno.
           inversion Hd1 as [|? ? Hi1 Hd1']; inversion Hd2 as [|? ? Hi2 Hd2']; subst.
           split; [exact Hd1'|]. split; [exact Hd2'|]. intros u Hu.
           destruct (Ho u (or_intror Hu)) as [A B]. simpl. split; intros [He|Hc]; auto.
           ++ apply Hi1. rewrite He. apply in_map. exact Hu.
           ++ apply Hi2. rewrite He. apply in_map. exact Hu.
Qed.

Lemma SimpleVocabulary_spec ts :
  (SimpleVocabulary ts = Ok ts /\ NoDup (map tm_value ts) /\ NoDup (map tm_token ts)) \/
  ((exists e, SimpleVocabulary ts = Exc (EValue e)) /\
   ~ (NoDup (map tm_value ts) /\ NoDup (map tm_token ts))).
Proof.
  unfold SimpleVocabulary.
  destruct (unique_terms_spec ts [] []) as [(H & H1 & H2 & _)|((e & H) & Hno)]; rewrite H.
  - left. auto.
  - right. split; [eauto|]. intros [H1 H2]. apply Hno. repeat split; auto.
Qed.
Lemma SimpleVocabulary_ok ts :
  NoDup (map tm_value ts) -> NoDup (map tm_token ts) -> SimpleVocabulary ts = Ok ts.
Proof. destruct (SimpleVocabulary_spec ts) as [[H _]|[_ H]]; tauto. Qed.

(** ** The listings *)

Lemma allPermissions_In us n : In n (allPermissions us) <-> private_id us n.
Proof.
  unfold private_id. induction us as [|[m p] us IH]; simpl; [tauto|].
  destruct (String.eqb_spec m zope_Public) as [->|Hm]; simpl; rewrite IH; unfold public_id.
  - split; [tauto|]. intros [[<-|H] Hn]; [destruct (Hn eq_refl)|auto].
  - split; [|tauto]. intros [<-|[H Hn]]; auto.
Qed.

Lemma allPermissions_filter us :
  allPermissions us = filter (fun n => negb (String.eqb n zope_Public)) (map fst us).
Proof.
  induction us as [|[m p] us IH]; simpl; [reflexivity|].
  destruct (String.eqb m zope_Public); simpl; rewrite IH; reflexivity.
Qed.

Lemma all_lemma us :
  (forall n, In n (allPermissions us) <-> private_id us n) /\
  (names_unique us -> NoDup (allPermissions us)).
Proof.
  split; [apply allPermissions_In|]. intros H. rewrite allPermissions_filter.
  apply NoDup_filter. exact H.
Qed.

Lemma ids_loop_spec us : forall b ts,
  ids_loop b ts us = (b || existsb (String.eqb public_id) (map fst us),
                      (ts ++ map id_term (allPermissions us))%list).
Proof.
  induction us as [|[m p] us IH]; intros b ts; simpl.
  - rewrite orb_false_r, app_nil_r. reflexivity.
  - rewrite (String.eqb_sym public_id m). change zope_Public with public_id.
    destruct (String.eqb_spec m public_id) as [->|Hm]; simpl; rewrite IH.
    + simpl. rewrite orb_true_r. reflexivity.
    + rewrite <- app_assoc. reflexivity.
Qed.

Lemma existsb_In n l : existsb (String.eqb n) l = true <-> In n l.
Proof.
  rewrite existsb_exists. split.
  - intros (x & H & He). apply String.eqb_eq in He. subst x. exact H.
  - intros H. exists n. split; [exact H|apply String.eqb_refl].
Qed.

Lemma ids_lemma us :
  names_unique us ->
  exists ns, listing (private_id us) ns /\
    (In public_id (map fst us) -> PermissionIdsVocabulary us = Ok (public_term :: map id_term ns)) /\
    (~ In public_id (map fst us) -> PermissionIdsVocabulary us = Ok (map id_term ns)).
Proof.
  intros Hu. destruct (all_lemma us) as [Hi Hd]. specialize (Hd Hu).
  set (ns := ssort (allPermissions us)).
  assert (HnD : NoDup ns) by (eapply Permutation_NoDup; [apply ssort_perm|exact Hd]).
  assert (HnI : forall n, In n ns <-> private_id us n).
  { intros n. rewrite <- Hi. split; apply Permutation_in;
      [apply Permutation_sym|]; apply ssort_perm. }
  assert (Hdv : NoDup (map tm_value (map id_term ns))).
  { rewrite map_map. simpl. apply FinFun.Injective_map_NoDup; [|exact HnD].
    intros a b H. congruence. }
  assert (Hdk : NoDup (map tm_token (map id_term ns))).
  { rewrite map_map. simpl. rewrite map_id. exact HnD. }
  exists ns. split; [split; [exact HnI|exact (ssort_sorted _ Hd)]|].
  unfold PermissionIdsVocabulary. rewrite ids_loop_spec. simpl. rewrite sorted_id. fold ns.
  split; intros Hp.
  - rewrite (proj2 (existsb_In _ _) Hp). apply SimpleVocabulary_ok; simpl.
    + constructor; [|exact Hdv]. intros H. apply in_map_iff in H. destruct H as (t & Ht & Hin).
      apply in_map_iff in Hin. destruct Hin as (x & <- & _). discriminate.
    + constructor; [|exact Hdk]. rewrite map_map, map_id. intros H.
      apply HnI in H. destruct H as [_ H]. apply H. reflexivity.
  - destruct (existsb (String.eqb public_id) (map fst us)) eqn:He;
      [apply existsb_In in He; contradiction|].
    apply SimpleVocabulary_ok; assumption.
Qed.

Lemma ids_order_lemma us us' :
  names_unique us -> Permutation us us' ->
  PermissionIdsVocabulary us = PermissionIdsVocabulary us'.
Proof.
  intros Hu HP. assert (Hm : Permutation (map fst us) (map fst us')) by (apply Permutation_map; exact HP).
  assert (Hu' : names_unique us') by (exact (Permutation_NoDup Hm Hu)).
  destruct (ids_lemma us Hu) as (ns & Hl & Hy & Hn).
  destruct (ids_lemma us' Hu') as (ns' & Hl' & Hy' & Hn').
  assert (ns = ns') as ->.
  { apply (listing_unique (private_id us)); [exact Hl|]. destruct Hl' as [Ha Hb].
    split; [|exact Hb]. intros n. rewrite Ha. unfold private_id.
    split; intros [H1 H2]; split; auto; [apply (Permutation_in _ (Permutation_sym Hm))|
      apply (Permutation_in _ Hm)]; exact H1. }
  destruct (in_dec string_dec public_id (map fst us)) as [H|H].
  - rewrite (Hy H), (Hy' (Permutation_in _ Hm H)). reflexivity.
  - rewrite (Hn H), Hn'; [reflexivity|]. intros H'. apply H.
    exact (Permutation_in _ (Permutation_sym Hm) H').
Qed.

Definition permission_term (u : utility) : term := mkTerm (TPermission (snd u)) (fst u) None.

Lemma permissions_lemma us :
  names_unique us ->
  (NoDup (map snd us) ->
   exists ts, PermissionsVocabulary us = Ok ts /\
     (forall t, In t ts <-> exists n p, In (n, p) us /\ t = mkTerm (TPermission p) n None) /\
     NoDup (map tm_token ts)) /\
  (~ NoDup (map snd us) -> exists e, PermissionsVocabulary us = Exc (EValue e)).
Proof.
  intros Hu. unfold PermissionsVocabulary. fold permission_term.
  assert (Hk : map tm_token (map permission_term us) = map fst us).
  { rewrite map_map. reflexivity. }
  assert (Hv : map tm_value (map permission_term us) = map TPermission (map snd us)).
  { rewrite !map_map. reflexivity. }
  split; intros Hd.
  - exists (map permission_term us). split; [|split].
    + apply SimpleVocabulary_ok; [|rewrite Hk; exact Hu]. rewrite Hv.
      apply FinFun.Injective_map_NoDup; [intros a b H; congruence|exact Hd].
    + intros t. rewrite in_map_iff. split.
      * intros ([n p] & <- & H). exists n, p. auto.
      * intros (n & p & H & ->). exists (n, p). auto.
    + rewrite Hk. exact Hu.
  - destruct (SimpleVocabulary_spec (map permission_term us)) as [(_ & H & _)|[H _]]; [|exact H].
    destruct Hd. rewrite Hv in H. exact (NoDup_map_inv _ _ H).
Qed.

Lemma listed_after_load_lemma E ds w w' us n :
  loadable ds w -> configure E ds w = (Ok tt, w') -> map fst us = map fst (w_perms w') ->
  (In n (allPermissions us) <->
   n <> public_id /\
   (In n (map fst (w_perms w)) \/ exists title, In (ZPermission n title) ds)).
Proof.
  intros Hl Hc Hus. rewrite allPermissions_In. unfold private_id. rewrite Hus.
  destruct (load_effect_lemma E ds w w' Hl Hc) as (_ & _ & Hp & _).
  rewrite Hp, fold_dset_keys, perms_of_In. tauto.
Qed.

Lemma add_public_lemma p us :
  names_unique us ->
  names_unique (addCheckerPublic p us) /\
  (forall n, In n (allPermissions (addCheckerPublic p us)) <-> In n (allPermissions us)) /\
  exists ts, PermissionIdsVocabulary (addCheckerPublic p us) = Ok (public_term :: ts).
Proof.
  intros Hu. unfold addCheckerPublic.
  assert (Hin : forall l n, In n (map fst (dset String.eqb l zope_Public p)) <->
                            n = zope_Public \/ In n (map fst l)).
  { induction l as [|[m q] l IH]; intros n; simpl; [intuition|].
    destruct (String.eqb_spec m zope_Public) as [->|Hm]; simpl; [intuition|].
    rewrite IH. intuition. }
  assert (Hu' : names_unique (dset String.eqb us zope_Public p)).
  { unfold names_unique in *. induction us as [|[m q] us IH]; simpl; [repeat constructor; auto|].
    inversion Hu as [|? ? Hn Hd]; subst.
    destruct (String.eqb_spec m zope_Public) as [->|Hm]; simpl; [constructor; auto|].
    constructor; [|apply IH; exact Hd]. rewrite Hin. intros [H|H]; auto. }
  split; [exact Hu'|]. split.
  - intros n. rewrite !allPermissions_In. unfold private_id. rewrite Hin.
    unfold public_id, zope_Public. tauto.
  - destruct (ids_lemma _ Hu') as (ns & _ & Hy & _). exists (map id_term ns). apply Hy.
    apply Hin. left. reflexivity.
Qed.
