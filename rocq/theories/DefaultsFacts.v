(** * DefaultsFacts: the tables created at import, and proxied built-in objects. *)

From Coq Require Import List String Bool Arith ZArith Lia.
From Verif Require Import Base Domain CheckerModel ProxyModel MFacts Spec RegSpec Witness
  CheckFacts CombineFacts TableFacts RegistryFacts SafeFacts ProxySpec ProxyFacts ProxyOps
  ProxyTable MediationSpec SessionSpec Session FactorySpec Factory ProtectFacts Defaults DefaultsSpec.
Import ListNotations.
Open Scope string_scope.
Open Scope m_scope.
Local Arguments String.eqb : simpl never.

Lemma upd_cases {V} (m : id -> V) k v i :
  (i = k /\ upd m k v i = v) \/ (i <> k /\ upd m k v i = m i).
Proof.
  destruct (Nat.eq_dec i k) as [->|H]; [left|right]; split; auto; [apply upd_eq|apply upd_ne; auto].
Qed.

(** ** Growth of the heap during import *)

Definition Grow (X : id -> Prop) (s s' : state) : Prop :=
  st_next s <= st_next s' /\
  (forall i, i < st_next s -> st_dicts s' i = st_dicts s i) /\
  (forall i, i < st_next s -> ~ X i -> st_chks s' i = st_chks s i) /\
  st_prox s' = st_prox s /\ st_decos s' = st_decos s /\ st_tls s' = st_tls s /\
  st_policy s' = st_policy s /\ st_inters s' = st_inters s /\ st_parts s' = st_parts s /\
  st_app s' = st_app s /\
  (unique_keys s -> unique_keys s').

Definition nothing (i : id) : Prop := False.
Definition only_named (i : id) : Prop := i = named_cid.

Lemma grow_trans X s1 s2 s3 : Grow X s1 s2 -> Grow X s2 s3 -> Grow X s1 s3.
Proof.
  intros (A1 & A2 & A3 & A4 & A5 & A6 & A7 & A8 & A9 & A10 & A11)
         (B1 & B2 & B3 & B4 & B5 & B6 & B7 & B8 & B9 & B10 & B11).
  split; [lia|]. split; [intros; rewrite B2 by lia; auto|].
  split; [intros; rewrite B3 by (auto; lia); auto|].
  repeat split; try congruence. auto.
Qed.

Lemma grow_weaken s s' : Grow nothing s s' -> Grow only_named s s'.
Proof.
  intros (A1 & A2 & A3 & A4). split; [auto|]. split; [auto|]. split; [|exact A4].
  intros i Hi _. apply A3; auto.
Qed.

(** A default checker: plain, exactly the names [ns] public, nothing writable. *)
Definition DC (s : state) (c : value) (ns : list name) : Prop :=
  exists i k, c = VChk i /\ 2 <= i < st_next s /\ st_chks s i = Some k /\ ck_kind k = CkPlain /\
    ck_get k < st_next s /\ ck_set k < st_next s /\ st_dicts s (ck_set k) = [] /\
    forall n, table_of (st_dicts s (ck_get k)) n =
              if in_dec string_dec n ns then Some PPublic else None.

Lemma DC_grow X s s' c ns :
  Grow X s s' -> (forall i, X i -> c <> VChk i) -> DC s c ns -> DC s' c ns.
Proof.
  intros (A1 & A2 & A3 & _) HX (i & k & -> & Hi & Hk & Hp & Hg & Hs & Hd & Ht).
  exists i, k. split; [reflexivity|]. split; [lia|].
  split; [rewrite A3; [auto|lia|]; intros H; apply (HX i H); reflexivity|].
  split; [auto|]. split; [lia|]. split; [lia|]. split; [rewrite A2; auto|].
  intros n. rewrite A2 by auto. apply Ht.
Qed.

Lemma DC_grow0 s s' c ns : Grow nothing s s' -> DC s c ns -> DC s' c ns.
Proof. intros H. apply (DC_grow nothing s s' c ns H). intros i []. Qed.

Lemma add_names_NoDup items : forall data d,
  NoDup (map fst data) -> add_names data items = Ok d -> NoDup (map fst d).
Proof.
  induction items as [|[n p] items IH]; intros data d Hn H; simpl in H.
  - injection H as <-. exact Hn.
  - destruct (negb _); [discriminate|]. apply (IH _ _ (sNoDup_dset _ _ _ Hn) H).
Qed.

Lemma public_add names kw :
  NoDup (map fst kw) -> (forall n p, In (n, p) kw -> p = PPublic) ->
  exists d, add_names (dupdate String.eqb [] kw) (map (fun n => (n, PPublic)) names) = Ok d /\
    NoDup (map fst d) /\
    forall n, table_of d n =
              if in_dec string_dec n (names ++ map fst kw) then Some PPublic else None.
Proof.
  intros Hnd Hkw.
  assert (Hk : forall n p, dget String.eqb (dupdate String.eqb [] kw) n = Some p -> p = PPublic).
  { intros n p H. rewrite dupdate_nil_NoDup in H by auto.
    apply (dget_In _ String.eqb_spec) in H. eauto. }
  destruct (add_names _ _) as [d|e] eqn:Ha.
  - exists d. split; [reflexivity|].
    split; [eapply add_names_NoDup; [|exact Ha]; apply sNoDup_dupdate; constructor|]. intros n.
    destruct (add_names_ok _ _ _ Ha) as (_ & _ & H3 & H4). unfold table_of.
    destruct (in_dec string_dec n names) as [Hin|Hni].
    + rewrite (H3 n PPublic) by (apply in_map_pair; auto).
      destruct (in_dec string_dec n _) as [_|Hx]; [reflexivity|]. exfalso. apply Hx.
      apply in_or_app. auto.
    + rewrite H4 by (rewrite fst_map_pair; auto).
      destruct (dget String.eqb (dupdate String.eqb [] kw) n) as [p|] eqn:Hg.
      * rewrite (Hk _ _ Hg). rewrite dupdate_nil_NoDup in Hg by auto.
        apply (dget_In _ String.eqb_spec) in Hg.
        destruct (in_dec string_dec n _) as [_|Hx]; [reflexivity|]. exfalso. apply Hx.
        apply in_or_app. right. apply in_map_iff. exists (n, p). auto.
      * rewrite dupdate_nil_NoDup in Hg by auto.
        apply (dget_None _ String.eqb_spec) in Hg.
        destruct (in_dec string_dec n _) as [Hx|_]; [|reflexivity]. exfalso.
        apply in_app_or in Hx. tauto.
  - exfalso. apply add_names_exc in Ha.
    destruct Ha as (pre & n & p & post & q & Hi & _ & Hpq & Hin & _).
    assert (In (n, p) (map (fun n => (n, PPublic)) names)) as Hn.
    { rewrite Hi. apply in_or_app. simpl. auto. }
    apply in_map_pair in Hn. destruct Hn as [Hn ->].
    destruct Hin as [Hin|[_ Hq]].
    + assert (In (n, q) (map (fun n => (n, PPublic)) names)) as Hn2.
      { rewrite Hi. apply in_or_app. auto. }
      apply in_map_pair in Hn2. destruct Hn2. congruence.
    + apply Hpq. symmetry. eauto.
Qed.

Lemma alloc_grow E d s :
  e_watch E = 0 -> NoDup (map fst d) ->
  exists s', Checker_new E d [] s = (Ok (VChk (S (S (st_next s)))), s', []) /\
    Grow nothing s s' /\
    (forall ns, (forall n, table_of d n = if in_dec string_dec n ns then Some PPublic else None) ->
                DC s' (VChk (S (S (st_next s)))) ns).
Proof.
  intros Hw Hnd. destruct (Checker_new_eq E d [] s) as (s' & H & ->).
  eexists. split; [exact H|]. split.
  - split; [simpl; lia|]. split.
    { intros i Hi. simpl. rewrite !upd_ne by lia. reflexivity. }
    split.
    { intros i Hi _. simpl. rewrite !upd_ne by lia. reflexivity. }
    repeat (split; [reflexivity|]). intros HU i. simpl.
    destruct (upd_cases (upd (st_dicts s) (st_next s) d) (S (st_next s)) [] i) as [[_ ->]|[_ ->]];
      [constructor|].
    destruct (upd_cases (st_dicts s) (st_next s) d i) as [[_ ->]|[_ ->]]; [exact Hnd|apply HU].
  - intros ns Ht. eexists _, _. split; [reflexivity|]. split; [simpl; lia|].
    split; [simpl; apply upd_eq|].
    split; [simpl; unfold Checker_class; rewrite Hw; reflexivity|].
    split; [simpl; lia|]. split; [simpl; lia|].
    split; [simpl; apply upd_eq|].
    intros n. simpl. rewrite upd_ne by lia. rewrite upd_eq. apply Ht.
Qed.

Lemma names_step E names kw s :
  e_watch E = 0 -> NoDup (map fst kw) -> (forall n p, In (n, p) kw -> p = PPublic) ->
  3 <= st_next s ->
  exists c s', NamesChecker E names PPublic kw s = (Ok c, s', []) /\ Grow nothing s s' /\
    DC s' c (names ++ map fst kw) /\ c <> VChk named_cid.
Proof.
  intros Hw Hnd Hkw Hn. destruct (public_add names kw Hnd Hkw) as (d & Hd & Hdn & Ht).
  destruct (alloc_grow E d s Hw Hdn) as (s' & H & HG & HD).
  exists (VChk (S (S (st_next s)))), s'. split; [|split; [exact HG|split; [auto|]]].
  - unfold NamesChecker. rewrite Hd. exact H.
  - intros Hx. unfold named_cid in Hx. injection Hx as Hx. lia.
Qed.

Lemma public_step E names s :
  e_watch E = 0 -> 3 <= st_next s ->
  exists c s', public_names E names s = (Ok c, s', []) /\ Grow nothing s s' /\
    DC s' c names /\ c <> VChk named_cid.
Proof.
  intros Hw Hn. destruct (names_step E names [] s Hw (NoDup_nil _)) as (c & s' & H & HG & HD & Hc).
  - intros n p [].
  - exact Hn.
  - exists c, s'. rewrite app_nil_r in HD. auto.
Qed.

Lemma named_table n :
  table_of [("__name__", PPublic)] n =
  if in_dec string_dec n ["__name__"] then Some PPublic else None.
Proof.
  unfold table_of. cbn [dget].
  destruct (String.eqb_spec "__name__" n) as [Hx|Hx];
    destruct (in_dec string_dec n ["__name__"]) as [Hi|Hi]; auto.
  - exfalso. apply Hi. left. exact Hx.
  - exfalso. destruct Hi as [Hi|[]]. auto.
Qed.

Lemma named_step E s :
  e_watch E = 0 -> 3 <= st_next s ->
  exists s', new_namedChecker E s = (Ok (VChk named_cid), s', []) /\
    Grow only_named s s' /\ DC s' (VChk named_cid) ["__name__"].
Proof.
  intros Hw Hn. eexists. split; [reflexivity|]. split.
  - split; [simpl; lia|]. split.
    { intros i Hi. simpl. rewrite !upd_ne by lia. reflexivity. }
    split.
    { intros i Hi HX. simpl. apply upd_ne. auto. }
    repeat (split; [reflexivity|]). intros HU i. simpl.
    destruct (upd_cases (upd (st_dicts s) (st_next s) [("__name__", PPublic)])
                (S (st_next s)) [] i) as [[_ ->]|[_ ->]]; [constructor|].
    destruct (upd_cases (st_dicts s) (st_next s) [("__name__", PPublic)] i) as [[_ ->]|[_ ->]];
      [repeat constructor; intros []|apply HU].
  - eexists _, _. split; [reflexivity|].
    split; [simpl; unfold named_cid; lia|]. split; [simpl; apply upd_eq|].
    split; [simpl; unfold Checker_class; rewrite Hw; reflexivity|].
    split; [simpl; lia|]. split; [simpl; lia|]. split; [simpl; apply upd_eq|].
    intros n. rewrite <- named_table. simpl. rewrite upd_ne by lia. rewrite upd_eq. reflexivity.
Qed.

(** ** The literal *)

(** The entries of the dictionary literal with the names they make public. *)
Definition lit_spec (pf : platform) : list (string * list name) :=
  [ ("dict", dict_names); ("list", list_names); ("set", set_names); ("frozenset", set_names);
    ("decimal.Decimal", decimal_names); ("tuple", tuple_names); ("weakref", ["__call__"]);
    ("function", callable_names); ("method", callable_names);
    ("builtin_function_or_method", callable_names); ("builtin_method", callable_names);
    ("method-wrapper", callable_names); ("type", type_names);
    ("list_iterator", iterator_names); ("tuple_iterator", iterator_names);
    ("dict_keyiterator", iterator_names); ("set_iterator", iterator_names);
    ("iterator", iterator_names); ("generator", iterator_names);
    ("InterfaceClass", pf_IInterface pf ++ ["__str__"; "_implied"; "subscribe"; "__len__"]);
    ("Method", pf_IMethod pf ++ []);
    ("ProvidesClass", pf_IDeclaration pf ++ ["_implied"; "subscribe"; "unsubscribe"; "__call__"]);
    ("ClassProvides", pf_IDeclaration pf ++ ["_implied"; "subscribe"; "unsubscribe"; "__call__"]);
    ("Implements", pf_IDeclaration pf ++ ["_implied"; "subscribe"; "unsubscribe"; "__call__"]);
    ("Declaration", pf_IDeclaration pf ++ ["_implied"; "subscribe"; "unsubscribe"; "__call__"]);
    ("ABCMeta", type_names) ]%list.

Definition Literal (pf : platform) (s : state) (iteratorC : value) (d : list (rkey * value)) : Prop :=
  DC s iteratorC iterator_names /\ NoDup (map fst d) /\
  DC s (VChk named_cid) ["__name__"] /\
  dget rkey_eqb d (KType "Proxy") = Some VNoProxy /\
  dget rkey_eqb d (KType "module") = Some VModFun /\
  (forall t ns, In (t, ns) (lit_spec pf) ->
     exists c, dget rkey_eqb d (KType t) = Some c /\ DC s c ns) /\
  (forall k v, dget rkey_eqb d k = Some v ->
     (k = KType "Proxy" /\ v = VNoProxy) \/ (k = KType "module" /\ v = VModFun) \/
     exists t ns, k = KType t /\ In (t, ns) (lit_spec pf)).

Ltac kws := repeat constructor; simpl; intuition discriminate.

Lemma literal_lemma E pf s :
  e_watch E = 0 -> 3 <= st_next s ->
  exists it d s', default_literal E pf s = (Ok (it, d), s', []) /\ Grow only_named s s' /\
    Literal pf s' it d.
Proof.
  intros Hw Hn. unfold default_literal.
  destruct (public_step E callable_names s Hw Hn) as (c1 & s1 & R1 & G1 & D1 & N1).
  assert (L1 : 3 <= st_next s1) by (destruct G1; lia).
  destruct (public_step E type_names s1 Hw L1) as (c2 & s2 & R2 & G2 & D2 & N2).
  assert (L2 : 3 <= st_next s2) by (destruct G2; lia).
  destruct (named_step E s2 Hw L2) as (s3 & R3 & G3 & D3).
  assert (L3 : 3 <= st_next s3) by (destruct G3; lia).
  destruct (public_step E iterator_names s3 Hw L3) as (c4 & s4 & R4 & G4 & D4 & N4).
  assert (L4 : 3 <= st_next s4) by (destruct G4; lia).
  destruct (public_step E set_names s4 Hw L4) as (c5 & s5 & R5 & G5 & D5 & N5).
  assert (L5 : 3 <= st_next s5) by (destruct G5; lia).
  destruct (names_step E (pf_IDeclaration pf)
              [("_implied", PPublic); ("subscribe", PPublic); ("unsubscribe", PPublic);
               ("__call__", PPublic)] s5 Hw ltac:(kws)
              ltac:(simpl; intros n p; intuition congruence) L5)
    as (c6 & s6 & R6 & G6 & D6 & N6).
  assert (L6 : 3 <= st_next s6) by (destruct G6; lia).
  destruct (public_step E dict_names s6 Hw L6) as (c7 & s7 & R7 & G7 & D7 & N7).
  assert (L7 : 3 <= st_next s7) by (destruct G7; lia).
  destruct (public_step E list_names s7 Hw L7) as (c8 & s8 & R8 & G8 & D8 & N8).
  assert (L8 : 3 <= st_next s8) by (destruct G8; lia).
  destruct (public_step E decimal_names s8 Hw L8) as (c9 & s9 & R9 & G9 & D9 & N9).
  assert (L9 : 3 <= st_next s9) by (destruct G9; lia).
  destruct (public_step E tuple_names s9 Hw L9) as (c10 & s10 & R10 & G10 & D10 & N10).
  assert (L10 : 3 <= st_next s10) by (destruct G10; lia).
  destruct (public_step E ["__call__"] s10 Hw L10) as (c11 & s11 & R11 & G11 & D11 & N11).
  assert (L11 : 3 <= st_next s11) by (destruct G11; lia).
  destruct (names_step E (pf_IInterface pf)
              [("__str__", PPublic); ("_implied", PPublic); ("subscribe", PPublic);
               ("__len__", PPublic)] s11 Hw ltac:(kws)
              ltac:(simpl; intros n p; intuition congruence) L11)
    as (c12 & s12 & R12 & G12 & D12 & N12).
  assert (L12 : 3 <= st_next s12) by (destruct G12; lia).
  destruct (names_step E (pf_IMethod pf) [] s12 Hw ltac:(constructor)
              ltac:(intros n p []) L12)
    as (c13 & s13 & R13 & G13 & D13 & N13).
  eexists c4, _, s13.
  rewrite (bind_ok _ _ _ _ _ _ R1), (bind_ok _ _ _ _ _ _ R2), (bind_ok _ _ _ _ _ _ R3),
    (bind_ok _ _ _ _ _ _ R4), (bind_ok _ _ _ _ _ _ R5).
  unfold InterfaceChecker.
  rewrite (bind_ok _ _ _ _ _ _ R6), (bind_ok _ _ _ _ _ _ R7), (bind_ok _ _ _ _ _ _ R8),
    (bind_ok _ _ _ _ _ _ R9), (bind_ok _ _ _ _ _ _ R10), (bind_ok _ _ _ _ _ _ R11),
    (bind_ok _ _ _ _ _ _ R12), (bind_ok _ _ _ _ _ _ R13).
  split; [reflexivity|].
  assert (T12 := G13). assert (T11 := grow_trans _ _ _ _ G12 T12).
  assert (T10 := grow_trans _ _ _ _ G11 T11). assert (T9 := grow_trans _ _ _ _ G10 T10).
  assert (T8 := grow_trans _ _ _ _ G9 T9). assert (T7 := grow_trans _ _ _ _ G8 T8).
  assert (T6 := grow_trans _ _ _ _ G7 T7). assert (T5 := grow_trans _ _ _ _ G6 T6).
  assert (T4 := grow_trans _ _ _ _ G5 T5). assert (T3 := grow_trans _ _ _ _ G4 T4).
  assert (T2 := grow_trans _ _ _ _ G3 (grow_weaken _ _ T3)).
  assert (T1 := grow_trans _ _ _ _ (grow_weaken _ _ G2) T2).
  split; [exact (grow_trans _ _ _ _ (grow_weaken _ _ G1) T1)|].
  apply (DC_grow only_named _ _ _ _ T1) in D1; [|intros i ->; exact N1].
  apply (DC_grow only_named _ _ _ _ T2) in D2; [|intros i ->; exact N2].
  apply (DC_grow0 _ _ _ _ T3) in D3. apply (DC_grow0 _ _ _ _ T4) in D4.
  apply (DC_grow0 _ _ _ _ T5) in D5. apply (DC_grow0 _ _ _ _ T6) in D6.
  apply (DC_grow0 _ _ _ _ T7) in D7. apply (DC_grow0 _ _ _ _ T8) in D8.
  apply (DC_grow0 _ _ _ _ T9) in D9. apply (DC_grow0 _ _ _ _ T10) in D10.
  apply (DC_grow0 _ _ _ _ T11) in D11. apply (DC_grow0 _ _ _ _ T12) in D12.
  simpl map in D6, D12, D13.
  split; [exact D4|]. split.
  { cbv -[In not]. repeat constructor; simpl; intuition discriminate. }
  split; [exact D3|]. split; [reflexivity|]. split; [reflexivity|]. split.
  - intros t ns Hin. simpl in Hin.
    repeat (destruct Hin as [Hin|Hin];
            [injection Hin as <- <-; eexists; split; [reflexivity|]; assumption|]).
    destruct Hin.
  - intros k v Hk. apply (dget_In _ rkey_eqb_spec) in Hk. simpl in Hk.
    repeat (destruct Hk as [Hk|Hk];
            [injection Hk as <- <-;
             first [ left; split; reflexivity
                   | right; left; split; reflexivity
                   | right; right; eexists _, _; split; [reflexivity|];
                     repeat (first [left; reflexivity | right]) ]|]).
    destruct Hk.
Qed.
