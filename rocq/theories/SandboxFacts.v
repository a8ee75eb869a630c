(** * SandboxFacts: the example policy. *)

From Coq Require Import List String Bool Arith.
From Verif Require Import Base Domain CheckerModel ProxyModel MFacts Spec CheckFacts CheckProps TableFacts
  Sandbox SandboxSpec.
Import ListNotations.
Open Scope string_scope.
Local Arguments String.eqb : simpl never.

Lemma perm_in_spec i t l : perm_in (PId i t) l = true <-> In t l.
Proof. simpl. apply mem_In. Qed.

Lemma allows_get db tok t : allows db tok t <-> In t (db_get db tok).
Proof.
  unfold allows, db_get. destruct (dget String.eqb db tok) as [l|].
  - split; [intros (l' & H & Hi); injection H as <-; exact Hi|eauto].
  - split; [intros (l' & H & _); discriminate|intros []].
Qed.

Lemma all_allowed_spec db i t toks :
  exists b, all_allowed db (PId i t) (map Ok toks) = Ok b /\
            (b = true <-> forall tok, In tok toks -> allows db tok t).
Proof.
  induction toks as [|tok toks IH].
  - exists true. split; [reflexivity|]. split; [intros _ tok []|reflexivity].
  - cbn [map all_allowed]. destruct (perm_in (PId i t) (db_get db tok)) eqn:Hp; cbn [negb].
    + destruct IH as (b & H & Hb). exists b. split; [exact H|]. rewrite Hb.
      apply perm_in_spec, allows_get in Hp. split.
      * intros H1 tok' [<-|H']; auto.
      * intros H1 tok' H'. apply H1. right. exact H'.
    + exists false. split; [reflexivity|]. split; [discriminate|]. intros H.
      specialize (H tok (or_introl eq_refl)). apply allows_get, (perm_in_spec i) in H. congruence.
Qed.

Lemma simulation_lemma database h toks i t :
  exists b, Simulation_checkPermission database (Ok h) (map Ok toks) (PId i t) = Ok b /\
            (b = true <-> sandbox_grants database h toks t).
Proof.
  unfold Simulation_checkPermission, sandbox_grants, located.
  destruct (dget String.eqb database h) as [db|] eqn:Hd.
  - destruct (perm_in (PId i t) (db_get db "any") || mem ALL (db_get db "any")) eqn:Ha.
    + exists true. split; [reflexivity|]. split; [intros _|reflexivity].
      exists db. split; [reflexivity|]. apply orb_prop in Ha. destruct Ha as [Ha|Ha].
      * left. apply allows_get. exact (proj1 (perm_in_spec i t _) Ha).
      * right. left. apply allows_get. exact (proj1 (mem_In _ _) Ha).
    + apply orb_false_iff in Ha. destruct Ha as [Ha1 Ha2].
      assert (N1 : ~ allows db "any" t).
      { intros H. apply allows_get, (perm_in_spec i) in H. congruence. }
      assert (N2 : ~ allows db "any" "All").
      { intros H. apply allows_get, (mem_In "All") in H. unfold ALL in Ha2. congruence. }
      destruct toks as [|tok toks].
      * exists false. split; [reflexivity|]. split; [discriminate|].
        intros (db' & He & [H|[H|[H _]]]); try (injection He as <-); try contradiction.
      * destruct (all_allowed_spec db i t (tok :: toks)) as (b & H & Hb). exists b.
        split; [exact H|]. rewrite Hb. split.
        -- intros H1. exists db. split; [reflexivity|]. right. right. split; [discriminate|exact H1].
        -- intros (db' & He & [H1|[H1|[_ H1]]]); injection He as <-; try contradiction. exact H1.
  - exists false. split; [reflexivity|]. split; [discriminate|]. intros (db & H & _). discriminate.
Qed.

(** Permissions that are no strings. *)
Lemma simulation_not_a_string database h toks p :
  (forall i t, p <> PId i t) ->
  exists b, Simulation_checkPermission database (Ok h) (map Ok toks) p = Ok b /\
            (b = true <-> exists db, located database h db /\ allows db "any" "All").
Proof.
  intros Hp. unfold Simulation_checkPermission, located.
  assert (HP : forall l, perm_in p l = false).
  { intros l. destruct p as [| |i t]; try reflexivity. exfalso. exact (Hp i t eq_refl). }
  destruct (dget String.eqb database h) as [db|].
  - rewrite HP. cbn [orb]. destruct (mem ALL (db_get db "any")) eqn:Ha.
    + exists true. split; [reflexivity|]. split; [intros _|reflexivity].
      exists db. split; [reflexivity|]. apply allows_get. exact (proj1 (mem_In _ _) Ha).
    + exists false. split.
      * destruct toks as [|tok toks]; [reflexivity|]. cbn [map all_allowed]. rewrite HP. reflexivity.
      * split; [discriminate|]. intros (db' & He & H). injection He as <-.
        apply allows_get, (mem_In "All") in H. unfold ALL in Ha. congruence.
  - exists false. split; [reflexivity|]. split; [discriminate|]. intros (db & H & _). discriminate.
Qed.

(** A token that cannot be found out: the ones before it are looked at first. *)
Lemma simulation_no_token database h db before e after i t :
  located database h db -> ~ allows db "any" t -> ~ allows db "any" "All" ->
  ((forall tok, In tok before -> allows db tok t) ->
   Simulation_checkPermission database (Ok h) (map Ok before ++ Exc e :: after)%list (PId i t) = Exc e) /\
  (forall tok, In tok before -> ~ allows db tok t ->
   Simulation_checkPermission database (Ok h) (map Ok before ++ Exc e :: after)%list (PId i t) = Ok false).
Proof.
  unfold located. intros Hl N1 N2. unfold Simulation_checkPermission. rewrite Hl.
  assert (F1 : perm_in (PId i t) (db_get db "any") = false).
  { destruct (perm_in _ _) eqn:H; [|reflexivity]. exfalso. apply N1, allows_get.
    exact (proj1 (perm_in_spec i t _) H). }
  assert (F2 : mem ALL (db_get db "any") = false).
  { destruct (mem _ _) eqn:H; [|reflexivity]. exfalso. apply N2, allows_get.
    exact (proj1 (mem_In _ _) H). }
  rewrite F1, F2. cbn [orb].
  assert (Hne : forall r, match (map Ok before ++ Exc e :: after)%list with
                     | [] => Ok false
                     | _ => r
                     end = r :> res bool) by (intros r; destruct before; reflexivity).
  rewrite Hne. clear Hne. split.
  - induction before as [|x l IH]; intros H; [reflexivity|].
    cbn [map app all_allowed].
    assert (P : perm_in (PId i t) (db_get db x) = true).
    { apply perm_in_spec, allows_get, H. left. reflexivity. }
    rewrite P. cbn [negb]. apply IH. intros tok Ht. apply H. right. exact Ht.
  - intros tok. induction before as [|x l IH]; intros Hin Hn; [destruct Hin|].
    cbn [map app all_allowed].
    destruct (perm_in (PId i t) (db_get db x)) eqn:P; [|reflexivity]. cbn [negb].
    apply IH; [|exact Hn]. destruct Hin as [->|Hin]; [|exact Hin].
    exfalso. apply Hn, allows_get. exact (proj1 (perm_in_spec i t _) P).
Qed.

(** ** PermissionMapChecker *)

Lemma inner_loop (k : perm) ms : forall d n,
  dget String.eqb (fold_left (fun res method => dset String.eqb res method k) ms d) n =
  if existsb (String.eqb n) ms then Some k else dget String.eqb d n.
Proof.
  induction ms as [|m ms IH]; intros d n; cbn [fold_left existsb]; [reflexivity|].
  rewrite IH, sdget_dset. rewrite (String.eqb_sym n m).
  destruct (existsb (String.eqb n) ms); [rewrite orb_true_r; reflexivity|].
  rewrite orb_false_r. reflexivity.
Qed.

Lemma invert_spec_gen (m : list (perm * list name)) : forall d n,
  dget String.eqb
    (fold_left (fun res kv => fold_left (fun res method => dset String.eqb res method (fst kv))
                                        (snd kv) res) m d) n =
  fold_left (fun acc kv => if existsb (String.eqb n) (snd kv) then Some (fst kv) else acc) m
            (dget String.eqb d n).
Proof.
  induction m as [|[k ms] m IH]; intros d n; cbn [fold_left]; [reflexivity|].
  rewrite IH, inner_loop. reflexivity.
Qed.

Lemma existsb_In n l : existsb (String.eqb n) l = true <-> In n l.
Proof.
  rewrite existsb_exists. split.
  - intros (x & H & He). apply String.eqb_eq in He. subst x. exact H.
  - intros H. exists n. split; [exact H|apply String.eqb_refl].
Qed.

Lemma last_listing_spec (m : list (perm * list name)) n : forall acc,
  let r := fold_left (fun acc kv => if existsb (String.eqb n) (snd kv) then Some (fst kv) else acc)
                     m acc in
  (r = acc /\ forall k l, In (k, l) m -> ~ In n l) \/
  (exists k l, In (k, l) m /\ In n l /\ r = Some k).
Proof.
  induction m as [|[k ms] m IH]; intros acc; cbn [fold_left fst snd].
  - left. split; [reflexivity|]. intros k l [].
  - destruct (IH (if existsb (String.eqb n) ms then Some k else acc)) as [[H Hn]|(k' & l & H1 & H2 & H3)].
    + cbv zeta in *. destruct (existsb (String.eqb n) ms) eqn:He.
      * right. exists k, ms. apply existsb_In in He. split; [left; reflexivity|]. auto.
      * left. split; [exact H|]. intros k' l' [He'|Hin]; [|exact (Hn k' l' Hin)].
        injection He' as <- <-. intros Hi. apply existsb_In in Hi. congruence.
    + right. exists k', l. split; [right; exact H1|]. auto.
Qed.

Lemma map_checker_lemma E m sp s :
  exists c s' g, PermissionMapChecker E m sp s = (Ok c, s', []) /\
    (e_watch E = 0 -> PlainChecker s' c g sp) /\
    (forall n, table_of g n = last_listing m n) /\
    (disjoint_map m -> forall n k,
       (table_of g n = Some k <-> exists l, In (k, l) m /\ In n l)).
Proof.
  unfold PermissionMapChecker. destruct (Checker_new_eq E (invert_map m) sp s) as (s' & H & Hs').
  exists (VChk (S (S (st_next s)))), s', (invert_map m). split; [exact H|].
  assert (Ht : forall n, table_of (invert_map m) n = last_listing m n).
  { intros n. unfold table_of, invert_map. rewrite invert_spec_gen. reflexivity. }
  split; [|split; [exact Ht|]].
  - intros Hw. exists (S (S (st_next s))), (mkChecker (st_next s) (S (st_next s)) (Checker_class E)).
    subst s'. unfold Checker_class. rewrite Hw. simpl. rewrite upd_eq. repeat split.
    + rewrite upd_ne, upd_eq; [reflexivity|]. apply Nat.neq_succ_diag_r.
    + apply upd_eq.
  - intros Hd n k. rewrite Ht. unfold last_listing.
    destruct (last_listing_spec m n None) as [[Hr Hn]|(k' & l & H1 & H2 & H3)]; cbv zeta in *.
    + rewrite Hr. split; [discriminate|]. intros (l & Hi & Hl). destruct (Hn k l Hi Hl).
    + rewrite H3. split.
      * intros He. injection He as <-. eauto.
      * intros (l' & Hi & Hl). f_equal. exact (Hd k' l k l' n H1 Hi H2 Hl).
Qed.

(** ** Both together *)

Lemma simulation_enforced_lemma E f m c g w obj n s r s' tr iv home toks :
  PlainChecker s c g w -> m <> MSetattr -> no_none (table_of g) -> n <> "__iter__" ->
  tl_inter (st_tls s (e_tid E)) = Some iv -> foreign_interaction iv -> simulates E iv home toks ->
  do_check E (S (S f)) m c obj n s = (r, s', tr) ->
  (r = Ok tt <-> match table_of g n with
                 | Some (PId i t) => sandbox_grants SimulationSecurityDatabase (home obj) toks t
                 | Some _ => True
                 | None => always_available n
                 end).
Proof.
  intros Hc Hm Hn Hit Htl Hf Hs Hck.
  pose proof (check_exact_lemma E f m c g w obj n s r s' tr Hc Hm Hn
                (fun H => False_ind _ (Hit H)) Hck) as HR.
  inversion HR as [Ht|p r0 s1 t1 Ht Hp HA|Ht Ha|v s1 Ht Hi Hr|e s1 Ht Hi Hr Hx
                  |e s1 Ht Hi Hr Hx Hy|Ht Ha Hi]; subst;
    try (rewrite Ht); try contradiction.
  - tauto.
  - destruct p as [| |i t]; [contradiction|destruct (Hn n Ht)|].
    destruct (Hs i t obj s) as (b & Hrun & Hsim).
    assert (Hb : r0 = Ok b).
    { inversion HA as [H0|iv' H0 H1|i' x b' H0 H1 H2|iv' v s2 r1 s3 tr0 H0 H1 H2 H3
                      |iv' e s2 H0 H1 H2]; subst.
      - congruence.
      - assert (iv' = iv) by congruence. subst. destruct iv; contradiction.
      - assert (VIact i' = iv) by congruence. subst. contradiction.
      - assert (iv' = iv) by congruence. subst. rewrite Hrun in H2. injection H2 as <- <-.
        destruct H3 as (H3 & _). congruence.
      - assert (iv' = iv) by congruence. subst. rewrite Hrun in H2. discriminate. }
    subst r0. destruct (simulation_lemma SimulationSecurityDatabase (home obj) toks i t)
      as (b' & H1 & H2). assert (b' = b) by congruence. subst b'. rewrite <- H2.
    destruct b; simpl; split; congruence.
  - tauto.
  - split; [discriminate|contradiction].
Qed.
