(** * TypeTablesFacts: the tables put every function where it belongs. *)

From Coq Require Import List String Bool Arith ZArith.
From Verif Require Import TypeTables TypeTablesSpec.
From Verif Require CExt.
Import ListNotations.
Open Scope string_scope.


Section Slots.
  Variable base : field -> option fn.
  Variable other : fn -> ctx -> list step.

  Ltac ins := repeat match goal with
    | H : In _ [] |- _ => destruct H
    | H : In _ (_ :: _) |- _ => destruct H as [H|H]; [injection H; clear H; intros; subst|]
    | H : False |- _ => destruct H
    end.
  Ltac asked c := unfold asked_first; split; intros Hok; cbv in Hok |- *; rewrite Hok; reflexivity.

  Lemma slot_guarded f c who meth name api :
    rule f c who meth name api ->
    exists l, call_slot base other f c = Some l /\ asked_first c who meth name api l.
  Proof.
    destruct c as [px del attr ok].
    intros H. inversion H as [f' n rn a c' Hin Hp|f' n rn a c' Hin Hp Hq|c' Hp Hq Hr|f' n a c' Hin|f' c' Hf Hd|f' c' Hf Hd|c'|c'|c'];
      subst; cbn [cx_proxy cx_delete cx_attr] in *.
    - cbv [binary] in Hin. ins; (eexists; split; [lazy; rewrite Hp; reflexivity|]);
        split; intros Hok; cbn [cx_ok] in Hok; rewrite Hok; reflexivity.
    - cbv [binary] in Hin. ins; (eexists; split; [lazy; rewrite Hp, Hq; reflexivity|]);
        split; intros Hok; cbn [cx_ok] in Hok; rewrite Hok; reflexivity.
    - eexists. split; [lazy; rewrite Hp, Hq, Hr; reflexivity|].
      split; intros Hok; cbn [cx_ok] in Hok; rewrite Hok; reflexivity.
    - cbv [unary] in Hin. ins; (eexists; split; [lazy; reflexivity|]);
        split; intros Hok; cbn [cx_ok] in Hok; rewrite Hok; reflexivity.
    - destruct Hf as [-> | ->]; subst del; (eexists; split; [lazy; reflexivity|]);
        split; intros Hok; cbn [cx_ok] in Hok; rewrite Hok; reflexivity.
    - destruct Hf as [-> | ->]; subst del; (eexists; split; [lazy; reflexivity|]);
        split; intros Hok; cbn [cx_ok] in Hok; rewrite Hok; reflexivity.
    - eexists. split; [lazy; reflexivity|]. split; intros Hok; cbn [cx_ok] in Hok; rewrite Hok; reflexivity.
    - eexists. split; [lazy; reflexivity|]. split; intros Hok; cbn [cx_ok cx_attr] in Hok; rewrite Hok; reflexivity.
    - eexists. split; [lazy; reflexivity|]. split; intros Hok; cbn [cx_ok cx_attr] in Hok; rewrite Hok; reflexivity.
  Qed.


  Definition no_function : list field := ["tp_clear"; "tp_getattr"; "tp_setattr"; "tp_members"; "tp_getset"; "tp_dict"].
  Definition lifecycle : list field := ["tp_dealloc"; "tp_traverse"; "tp_init"; "tp_new"].
  Definition special_fields : list field :=
    ["mp_ass_subscript"; "sq_ass_item"; "tp_iternext"; "tp_getattro"; "tp_setattro"].
  Definition bin_fields : list field := map (fun x => fst (fst (fst x))) binary.
  Definition un_fields : list field := map (fun x => fst (fst x)) unary.

  Lemma mem_in x l : mem x l = true <-> In x l.
  Proof.
    unfold mem. rewrite existsb_exists. split.
    - intros (y & Hy & He). apply String.eqb_eq in He. subst. exact Hy.
    - intros H. exists x. split; [exact H|apply String.eqb_refl].
  Qed.
  Lemma classified f : In f all_fields ->
    In f data_fields \/ In f open_slots \/ In f inherited_fields \/ In f no_function \/ In f lifecycle \/
    In f special_fields \/ In f bin_fields \/ In f un_fields.
  Proof.
    intros H. rewrite <- !mem_in. rewrite <- !orb_true_iff.
    assert (A : forallb (fun f => mem f data_fields || (mem f open_slots || (mem f inherited_fields ||
      (mem f no_function || (mem f lifecycle || (mem f special_fields || (mem f bin_fields || mem f un_fields)))))))
      all_fields = true) by (vm_compute; reflexivity).
    rewrite forallb_forall in A. exact (A f H).
  Qed.
  Lemma null_slot f c : In f no_function -> call_slot base other f c = None.
  Proof. intros H. cbv [no_function] in H. repeat (destruct H as [<- | H]; [reflexivity|]). destruct H. Qed.
  Lemma life_slot f c : In f lifecycle -> call_slot base other f c = Some [].
  Proof. intros H. cbv [lifecycle] in H. repeat (destruct H as [<- | H]; [reflexivity|]). destruct H. Qed.
  Lemma inherited_slot f : In f inherited_fields -> proxy_type base f = base f.
  Proof. intros H. cbv [inherited_fields] in H. repeat (destruct H as [<- | H]; [reflexivity|]). destruct H. Qed.
  Lemma idle_slot f c : In f bin_fields -> cx_proxy c Self = false -> cx_proxy c Other = false ->
    (f <> "nb_power" \/ cx_proxy c Third = false) -> call_slot base other f c = Some [].
  Proof.
    destruct c as [px del attr ok]. cbn [cx_proxy]. intros H Hs Ho Ht. cbv [bin_fields binary map fst] in H.
    repeat (destruct H as [H|H]; [|]); [..|destruct H]; subst f; lazy; rewrite Hs, Ho; try reflexivity.
    destruct Ht as [Ht|Ht]; [destruct (Ht eq_refl)|rewrite Ht; reflexivity].
  Qed.

  Lemma ruled f c : In f special_fields \/ In f bin_fields \/ In f un_fields ->
    (exists who meth name api, rule f c who meth name api) \/ call_slot base other f c = Some [].
  Proof.
    intros [H|[H|H]].
    - left. cbv [special_fields] in H.
      destruct H as [<- | [<- | [<- | [<- | [<- | []]]]]].
      + destruct (cx_delete c) eqn:Hd; do 4 eexists; [apply ru_delitem|apply ru_setitem]; auto.
      + destruct (cx_delete c) eqn:Hd; do 4 eexists; [apply ru_delitem|apply ru_setitem]; auto.
      + do 4 eexists. apply ru_next.
      + do 4 eexists. apply ru_getattr.
      + do 4 eexists. apply ru_setattr.
    - pose proof H as H'. unfold bin_fields in H'. apply in_map_iff in H'.
      destruct H' as ((((f' & n) & rn) & api) & <- & Hin). cbn [fst] in *.
      destruct (cx_proxy c Self) eqn:Hs; [left; do 4 eexists; eapply ru_left; eassumption|].
      destruct (cx_proxy c Other) eqn:Ho; [left; do 4 eexists; eapply ru_right; eassumption|].
      destruct (cx_proxy c Third) eqn:Ht.
      + destruct (String.eqb_spec f' "nb_power") as [-> | Hf].
        * left. do 4 eexists. apply ru_modulus; assumption.
        * right. apply idle_slot; auto.
      + right. apply idle_slot; auto.
    - left. unfold un_fields in H. apply in_map_iff in H.
      destruct H as (((f' & n) & api) & <- & Hin). cbn [fst]. do 4 eexists. apply ru_unary. exact Hin.
  Qed.

  (** Whatever is done without being asked for is open to all or the base's. *)
  Lemma slot_mediated f c l who api :
    In f all_fields -> ~ In f data_fields -> (In f inherited_fields -> base f = None) ->
    call_slot base other f c = Some l -> In (Did who api) l ->
    In f open_slots \/ exists meth name, rule f c who meth name api /\ cx_ok c who meth name = true.
  Proof.
    intros Hall Hdata Hbase Hrun Hin.
    destruct (classified f Hall) as [H|[H|[H|[H|[H|H]]]]].
    - destruct (Hdata H).
    - left. exact H.
    - unfold call_slot in Hrun. rewrite (inherited_slot f H), (Hbase H) in Hrun. discriminate Hrun.
    - rewrite (null_slot f c H) in Hrun. discriminate Hrun.
    - rewrite (life_slot f c H) in Hrun. injection Hrun as <-. destruct Hin.
    - right. destruct (ruled f c H) as [(w & m & n & a & Hr)|He].
      + destruct (slot_guarded f c w m n a Hr) as (l' & Hl & Hyes & Hno). rewrite Hrun in Hl.
        injection Hl as <-. destruct (cx_ok c w m n) eqn:Hok.
        * rewrite (Hyes eq_refl) in Hin. destruct Hin as [Hin|[Hin|[]]]; [discriminate Hin|].
          injection Hin as <- <-. exists m, n. split; assumption.
        * rewrite (Hno eq_refl) in Hin. destruct Hin as [Hin|[]]. discriminate Hin.
      + rewrite He in Hrun. injection Hrun as <-. destruct Hin.
  Qed.
End Slots.

(** ** What is inherited *)

Lemma inherited_exactly f : In f all_fields ->
  ((forall base, proxy_type base f = base f) <-> In f inherited_fields).
Proof.
  intros Hall. split.
  - intros H. destruct (classified f Hall) as [Hc|[Hc|[Hc|[Hc|[Hc|Hc]]]]]; try exact Hc.
    all: exfalso; specialize (H (fun _ => Some "elsewhere")).
    + cbv [data_fields] in Hc. repeat (destruct Hc as [<- | Hc]; [discriminate H|]). destruct Hc.
    + cbv [open_slots] in Hc. repeat (destruct Hc as [<- | Hc]; [discriminate H|]). destruct Hc.
    + cbv [no_function] in Hc. repeat (destruct Hc as [<- | Hc]; [discriminate H|]). destruct Hc.
    + cbv [lifecycle] in Hc. repeat (destruct Hc as [<- | Hc]; [discriminate H|]). destruct Hc.
    + destruct Hc as [Hc|[Hc|Hc]].
      * cbv [special_fields] in Hc. repeat (destruct Hc as [<- | Hc]; [discriminate H|]). destruct Hc.
      * cbv [bin_fields binary map fst] in Hc. repeat (destruct Hc as [<- | Hc]; [discriminate H|]). destruct Hc.
      * cbv [un_fields unary map fst] in Hc. repeat (destruct Hc as [<- | Hc]; [discriminate H|]). destruct Hc.
  - intros H base. apply inherited_slot. exact H.
Qed.

(** ** The class of Python proxies *)

Lemma set_entries base mk l : well_named base -> forall d0 d,
  fold_left (set_entry base mk) l d0 = Some d ->
  exists d1, d0 = Some d1 /\ d = (rev (map (fun n => (n, mk n)) l) ++ d1)%list.
Proof.
  intros Hw. induction l as [|n l IH]; intros d0 d H; cbn [fold_left] in H.
  - exists d. split; [exact H|reflexivity].
  - destruct (IH _ _ H) as (d1 & Hd & ->). unfold set_entry in Hd.
    destruct d0 as [d0|]; [|discriminate Hd]. destruct (base n) as [m|] eqn:Hn; [|discriminate Hd].
    injection Hd as <-. exists d0. split; [reflexivity|].
    rewrite (Hw n m Hn). cbn [map rev]. rewrite <- app_assoc. reflexivity.
Qed.

Definition py_dict : list (string * pyentry) :=
  (rev (map (fun n => (n, PyCheckInplace n)) py_inplace) ++
   rev (map (fun n => (n, PyCheckName n false)) py_unwrapped) ++
   rev (map (fun n => (n, PyCheckName n true)) py_checked) ++ py_body)%list.
Lemma dict_is base d : well_named base -> ProxyPy_dict base = Some d -> d = py_dict.
Proof.
  intros Hw H. unfold ProxyPy_dict in H.
  destruct (set_entries _ _ _ Hw _ _ H) as (d1 & H1 & ->).
  destruct (set_entries _ _ _ Hw _ _ H1) as (d2 & H2 & ->).
  destruct (set_entries _ _ _ Hw _ _ H2) as (d3 & H3 & ->). injection H3 as <-. reflexivity.
Qed.
Lemma assoc_in {A} (l : list (string * A)) k a : assoc l k = Some a -> In (k, a) l.
Proof.
  induction l as [|[x b] l IH]; cbn [assoc]; [discriminate|].
  destruct (String.eqb_spec k x) as [-> | _]; intros H; [injection H as <-; left; reflexivity|right; auto].
Qed.
Lemma guard_did c who meth name api w a :
  In (Did w a) (guard c who meth name api) -> w = who /\ a = api /\ cx_ok c who meth name = true.
Proof.
  unfold guard. intros [H|H]; [discriminate H|].
  destruct (cx_ok c who meth name); [|destruct H].
  destruct H as [H|[]]. injection H as <- <-. auto.
Qed.

Lemma py_mediated base d n c l who api :
  well_named base -> ProxyPy_dict base = Some d ->
  call_special d n c = Some l -> In (Did who api) l ->
  In n py_open \/ n = "__getattribute__" /\ In (cx_attr c) py_open_attributes \/
  who = Self /\ cx_ok c Self (fst (py_question n c)) (snd (py_question n c)) = true.
Proof.
  intros Hw Hd Hrun Hin. rewrite (dict_is _ _ Hw Hd) in Hrun. clear base d Hw Hd.
  unfold call_special in Hrun. destruct (assoc py_dict n) as [e|] eqn:He; [|discriminate Hrun].
  injection Hrun as <-. apply assoc_in in He. unfold py_dict in He.
  rewrite !in_app_iff, <- !in_rev, !in_map_iff in He.
  destruct He as [(m & He & Hm)|[(m & He & Hm)|[(m & He & Hm)|He]]].
  1-3: injection He as <- <-; cbn [run_entry] in Hin; destruct (guard_did _ _ _ _ _ _ _ Hin) as (-> & -> & Hok);
       right; right; split; [reflexivity|].
  1-3: cbv [py_inplace py_unwrapped py_checked] in Hm; cbn [In] in Hm;
       repeat (destruct Hm as [Hm|Hm]); subst; [..|destruct Hm]; exact Hok.
  unfold py_body in He. cbn [In] in He.
  repeat (destruct He as [He|He]; [injection He as <- <-; cbn [run_entry] in Hin|]); [..|destruct He].
  all: try (destruct Hin; fail).
  all: try (left; cbv [py_open In]; tauto).
  - match type of Hin with In _ (if ?b then _ else _) => destruct b end; [destruct Hin|].
    match type of Hin with In _ (if ?b then _ else _) => destruct b eqn:Hm end.
    + right; left. split; [reflexivity|]. apply mem_in. exact Hm.
    + right; right. destruct (guard_did _ _ _ _ _ _ _ Hin) as (-> & -> & Hok). split; [reflexivity|exact Hok].
  - destruct Hin as [Hin|[]]. discriminate Hin.
  - match type of Hin with In _ (if ?b then _ else _) => destruct b end; [destruct Hin|].
    right; right. destruct (guard_did _ _ _ _ _ _ _ Hin) as (-> & -> & Hok). split; [reflexivity|exact Hok].
  - match type of Hin with In _ (if ?b then _ else _) => destruct b end; [destruct Hin|].
    right; right. destruct (guard_did _ _ _ _ _ _ _ Hin) as (-> & -> & Hok). split; [reflexivity|exact Hok].
  - right; right. destruct (guard_did _ _ _ _ _ _ _ Hin) as (-> & -> & Hok). split; [reflexivity|exact Hok].
  - right; right. destruct (guard_did _ _ _ _ _ _ _ Hin) as (-> & -> & Hok). split; [reflexivity|exact Hok].
Qed.

(** What C proxies guard, Python proxies guard by the same name. *)
Lemma py_names base d n c :
  well_named base -> ProxyPy_dict base = Some d ->
  (exists f rn api, In (f, n, rn, api) binary \/ In (f, rn, n, api) binary) \/
  (exists f api, In (f, n, api) unary) \/ n = "__setitem__" \/ n = "__delitem__" ->
  exists l, call_special d n c = Some l /\ asked_first c Self "check" n n l.
Proof.
  intros Hw Hd Hn. rewrite (dict_is _ _ Hw Hd). clear base d Hw Hd.
  assert (A : forallb (fun n => match assoc py_dict n with
      | Some (PyCheckName m _) | Some (PyCheckInplace m) => String.eqb m n | _ => false end)
      (map (fun x => snd (fst (fst x))) binary ++ map (fun x => snd (fst x)) binary ++
       map (fun x => snd (fst x)) unary ++ ["__setitem__"; "__delitem__"])%list = true)
    by (vm_compute; reflexivity).
  rewrite forallb_forall in A. specialize (A n).
  assert (B : In n (map (fun x => snd (fst (fst x))) binary ++ map (fun x => snd (fst x)) binary ++
       map (fun x => snd (fst x)) unary ++ ["__setitem__"; "__delitem__"])%list).
  { rewrite !in_app_iff, !in_map_iff.
    destruct Hn as [(f & rn & api & [H|H])|[(f & api & H)|[-> | ->]]].
    - left. exists (f, n, rn, api). auto.
    - right; left. exists (f, rn, n, api). auto.
    - right; right; left. exists (f, n, api). auto.
    - right; right; right. left. reflexivity.
    - right; right; right. right; left. reflexivity. }
  specialize (A B). unfold call_special.
  destruct (assoc py_dict n) as [[b|m w|m]|]; try discriminate A; apply String.eqb_eq in A; subst m;
    (eexists; split; [reflexivity|]); cbn [run_entry]; unfold guard;
    (split; intros Hok; rewrite Hok; reflexivity).
Qed.

(** ** The two types compared *)

Definition c_hasb (n : string) : bool :=
  existsb (fun x => mem n (snd x) && negb (is_null (proxy_own (fst x)))) slotdefs || mem n (map fst proxy_methods).
Lemma c_hasb_spec n : c_hasb n = true <-> c_has n.
Proof.
  unfold c_hasb, c_has. rewrite orb_true_iff, existsb_exists, mem_in. split; intros [H|H]; auto; left.
  - destruct H as ((f & ns) & Hin & H). apply andb_true_iff in H. destruct H as [Hm Hn].
    exists f, ns. split; [exact Hin|]. split; [apply mem_in; exact Hm|].
    cbn [fst] in Hn. destruct (proxy_own f); [discriminate|discriminate Hn].
  - destruct H as (f & ns & Hin & Hm & Hn). exists (f, ns). split; [exact Hin|].
    cbn [fst snd]. rewrite (proj2 (mem_in n ns) Hm). destruct (proxy_own f); [reflexivity|destruct (Hn eq_refl)].
Qed.
Lemma assoc_has {A} (l : list (string * A)) k : assoc l k <> None <-> In k (map fst l).
Proof.
  induction l as [|[x a] l IH]; cbn [assoc map fst In].
  - split; [congruence|intros []].
  - destruct (String.eqb_spec k x) as [-> | Hne].
    + split; [auto|discriminate].
    + rewrite IH. split; [auto|]. intros [H|H]; [congruence|exact H].
Qed.
Lemma type_difference base d n : well_named base -> ProxyPy_dict base = Some d ->
  (assoc d n <> None /\ ~ c_has n <-> In n ["__reduce__"; "__reduce_ex__"; "__complex__"; "__index__"]) /\
  (c_has n -> assoc d n <> None).
Proof.
  intros Hw Hd. rewrite (dict_is _ _ Hw Hd). clear base d Hw Hd. split.
  - rewrite assoc_has, <- c_hasb_spec. split.
    + intros [Hin Hc].
      assert (A : forallb (fun n => c_hasb n || mem n ["__reduce__"; "__reduce_ex__"; "__complex__"; "__index__"])
                    (map fst py_dict) = true) by (vm_compute; reflexivity).
      rewrite forallb_forall in A. specialize (A n Hin). apply orb_true_iff in A.
      destruct A as [A|A]; [destruct (Hc A)|apply mem_in; exact A].
    + intros H. split.
      * apply mem_in. repeat (destruct H as [<- | H]; [vm_compute; reflexivity|]). destruct H.
      * repeat (destruct H as [<- | H]; [vm_compute; discriminate|]). destruct H.
  - rewrite assoc_has. intros [(f & ns & Hin & Hm & Hn)|H].
    + assert (A : forallb (fun x => is_null (proxy_own (fst x)) || forallb (fun n => mem n (map fst py_dict)) (snd x))
                    slotdefs = true) by (vm_compute; reflexivity).
      rewrite forallb_forall in A. specialize (A (f, ns) Hin). cbn [fst snd] in A.
      apply orb_true_iff in A. destruct A as [A|A].
      * destruct (proxy_own f); [discriminate A|destruct (Hn eq_refl)].
      * rewrite forallb_forall in A. apply mem_in. exact (A n Hm).
    + destruct H as [<- | []]. apply mem_in. vm_compute. reflexivity.
Qed.

(** ** Items of checkers *)

Lemma faulty_use args p s : CExt.fault s = true ->
  exists s', CExt.use args p s = Some (tt, s') /\ CExt.fault s' = true.
Proof.
  intros H. unfold CExt.use. destruct p as [o|]; [destruct (CExt.alive args s o)|];
    eexists; split; try reflexivity; assumption.
Qed.
Lemma delete_faults oracle args is_str char0 char1 is_iter self object s :
  exists i s', Checker_ass_subscript oracle args is_str char0 char1 is_iter self object None s = Some (i, s') /\
    CExt.fault s' = true.
Proof.
  unfold Checker_ass_subscript, CExt.get1, CExt.PyDict_GetItem, CExt.call, CExt.uses, CExt.deref, CExt.note,
    CExt.elsewhere, CExt.bind, CExt.ret, CExt.use.
  destruct (CExt.alive args s self);
  (destruct (CExt.f1 _ self) as [t|];
   [destruct (CExt.alive args _ t);
    (destruct (CExt.exc _); cbv zeta; cbn -[CExt.alive];
     match goal with |- context [CExt.an_ptr ?a] => destruct (CExt.an_ptr a) end;
     (eexists; eexists; split; reflexivity))
   |eexists; eexists; split; reflexivity]).
Qed.

(** ** Witnesses *)

(** A base class, like ProxyBase of zope.proxy, that forwards [__index__]. *)
Definition forwarding (f : field) : option fn := if String.eqb f "nb_index" then Some "wrap_index" else None.
Definition forwards (g : fn) (c : ctx) : list step := if String.eqb g "wrap_index" then [Did Self "PyNumber_Index"] else [].
Definition refusing : ctx := mkCtx (fun o => match o with Self => true | _ => false end) false "foo" (fun _ _ _ => false).
Definition granting : ctx := mkCtx (fun o => match o with Self => false | _ => true end) true "foo" (fun _ _ _ => true).
Lemma index_open :
  call_slot forwarding forwards "nb_index" refusing = Some [Did Self "PyNumber_Index"] /\
  call_slot forwarding forwards "nb_int" refusing = Some [Asked Self "check" "__int__"] /\
  exists d, ProxyPy_dict Some = Some d /\ call_special d "__index__" refusing = Some [Asked Self "check" "__index__"].
Proof. split; [reflexivity|]. split; [reflexivity|]. eexists. split; reflexivity. Qed.

Lemma proxies_collected base :
  proxy_type base "tp_flags" = Some "DEFAULT|HAVE_GC|BASETYPE" /\
  proxy_type base "tp_alloc" = Some "PyType_GenericAlloc" /\
  proxy_type base "tp_free" = Some "PyObject_GC_Del" /\
  proxy_type base "tp_traverse" = Some "proxy_traverse" /\
  proxy_type base "tp_dealloc" = Some "proxy_dealloc" /\
  proxy_type base "tp_clear" = None.
Proof. repeat split. Qed.

Lemma assoc_In {A} (l : list (string * A)) k a : assoc l k = Some a -> In (k, a) l.
Proof.
  induction l as [|[x b] l IH]; cbn [assoc]; [discriminate|].
  destruct (String.eqb_spec k x) as [-> | ?].
  - intros H. injection H as ->. left. reflexivity.
  - intros H. right. apply IH. exact H.
Qed.
Lemma checker_methods_exactly m f : checker_method m = Some f <-> In (m, f) checker_offers.
Proof.
  split.
  - change (checker_method m) with (assoc Checker_methods m). intros H. apply assoc_In in H.
    cbn in H |- *. tauto.
  - intros H. repeat (destruct H as [H|H]; [injection H as <- <-; reflexivity|]). destruct H.
Qed.
Lemma checker_slots base :
  checker_type base "mp_subscript" = Some "Checker_proxy" /\
  checker_type base "mp_ass_subscript" = Some "Checker_check_int" /\
  checker_type base "tp_flags" = Some "DEFAULT|BASETYPE|HAVE_GC" /\
  checker_type base "tp_traverse" = Some "Checker_traverse" /\
  checker_type base "tp_clear" = Some "Checker_clear" /\
  checker_type base "tp_dealloc" = Some "Checker_dealloc" /\
  checker_type base "tp_init" = Some "Checker_init" /\
  checker_type base "tp_new" = Some "PyType_GenericNew" /\
  checker_type base "tp_getattro" = base "tp_getattro".
Proof. repeat split. Qed.

Lemma py_open_specials base d n api c : well_named base -> ProxyPy_dict base = Some d ->
  In (n, api) py_open_does -> call_special d n c = Some [Did Self api].
Proof.
  intros Hw Hd. rewrite (dict_is _ _ Hw Hd). intros H.
  repeat (destruct H as [H|H]; [injection H as <- <-; reflexivity|]). destruct H.
Qed.
Lemma py_slots_private base d n c : well_named base -> ProxyPy_dict base = Some d ->
  In n ["__getattribute__"; "__setattr__"; "__delattr__"] -> In (cx_attr c) py_slots ->
  call_special d n c = Some [].
Proof.
  intros Hw Hd. rewrite (dict_is _ _ Hw Hd). intros H HS. unfold call_special.
  assert (HM : mem (cx_attr c) private = true).
  { apply mem_in. cbn in HS |- *. tauto. }
  repeat (destruct H as [<- | H];
    [cbn [assoc py_dict]; cbn -[mem private]; unfold run_entry; rewrite ?HM; reflexivity|]). destruct H.
Qed.
Lemma py_wrapping base d n m w : well_named base -> ProxyPy_dict base = Some d ->
  assoc d n = Some (PyCheckName m w) -> (w = false <-> n = "__len__").
Proof.
  intros Hw Hd. rewrite (dict_is _ _ Hw Hd). clear base d Hw Hd. intros H.
  assert (A : forallb (fun x => match snd x with
      | PyCheckName _ w => Bool.eqb (negb w) (String.eqb (fst x) "__len__")
      | _ => negb (String.eqb (fst x) "__len__") end) py_dict = true) by (vm_compute; reflexivity).
  rewrite forallb_forall in A. specialize (A (n, PyCheckName m w)).
  assert (B : In (n, PyCheckName m w) py_dict).
  { apply assoc_In. exact H. }
  specialize (A B). cbn [fst snd] in A. destruct (String.eqb_spec n "__len__") as [-> | Hne].
  - destruct w; [discriminate A|tauto].
  - destruct w; [|discriminate A]. split; [discriminate|contradiction].
Qed.
