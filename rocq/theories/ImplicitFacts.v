(** Proofs about Implicit.v. *)

From Coq Require Import String List Arith Bool.
From Verif Require Import TypeTables TypeTablesSpec TypeTablesFacts Implicit ImplicitSpec.
Import ListNotations.
Open Scope string_scope.

Section Facts.
  Context {W X : Type} (R : runtime W X) (HS : sane R).

  Lemma andthen_returns {A B} (m : action W X A) (k : A -> action W X B) w y w' :
    andthen m k w = (Returns y, w') -> exists a w1, m w = (Returns a, w1) /\ k a w1 = (Returns y, w').
  Proof.
    unfold andthen. destruct (m w) as [[a|e] w1]; [|discriminate]. intros H. exists a, w1. split; [reflexivity|exact H].
  Qed.

  Lemma read_prox b o c n w y w' :
    read R b (Prox o c) n w = (Returns y, w') -> given_out R y.
  Proof.
    cbn [read].
    destruct (andthen (rt_check R c o n) (fun _ => andthen (read R b o n) (rt_wrap R c)) w) as [r w1] eqn:H1.
    intros H.
    assert (H2 : exists w0 w2, andthen (rt_check R c o n) (fun _ => andthen (read R b o n) (rt_wrap R c)) w0 = (Returns y, w2)).
    { destruct b, r as [v|e].
      - injection H as -> ->. exists w, w'. exact H1.
      - destruct (rt_attribute_error R e); [|discriminate].
        apply andthen_returns in H as (u & w3 & _ & H). discriminate.
      - injection H as -> ->. exists w, w'. exact H1.
      - discriminate. }
    destruct H2 as (w0 & w2 & H2).
    apply andthen_returns in H2 as (u & w3 & _ & H2). apply andthen_returns in H2 as (v & w4 & _ & H2).
    exists c, v, w4, w2. exact H2.
  Qed.

  Lemma lookup_prox b o c n w y w' :
    lookup R b (Prox o c) n w = (Returns (Some y), w') -> given_out R y.
  Proof.
    unfold lookup. destruct (read R b (Prox o c) n w) as [[v|e] w1] eqn:H1.
    - intros H. injection H as -> ->. exact (read_prox b o c n w y w' H1).
    - destruct (rt_attribute_error R e); discriminate.
  Qed.

  Lemma call_prox o c args w y w' :
    call R (Prox o c) args w = (Returns y, w') -> given_out R y.
  Proof.
    cbn [call]. intros H. apply andthen_returns in H as (u & w3 & _ & H).
    apply andthen_returns in H as (v & w4 & _ & H). exists c, v, w4, w'. exact H.
  Qed.

  (** A proxied class has no usable [__bases__]. *)
  Lemma class_bases_prox b o c w : no_bare_tuple R ->
    gives_up R (class_bases R b (Prox o c) w) (read R b (Prox o c) "__bases__" w).
  Proof.
    intros HT. unfold class_bases, andthen, lookup.
    destruct (read R b (Prox o c) "__bases__" w) as [[y|e] w1] eqn:H1; unfold gives_up; cbn [fst snd].
    - rewrite (HT y (read_prox b o c _ _ _ _ H1)). exists (rt_type_error R). split; [reflexivity|left; reflexivity].
    - destruct (rt_attribute_error R e) eqn:He.
      + exists (rt_type_error R). split; [reflexivity|left; reflexivity].
      + exists e. split; [reflexivity|right; split; [reflexivity|exact He]].
  Qed.

  Lemma andthen_gives_up {A B D} (m : action W X A) (k : A -> action W X B) w (look : outcome X D * W) :
    gives_up R (m w) look -> gives_up R (andthen m k w) look.
  Proof.
    intros (e & H & He). exists e. split; [|exact He]. unfold andthen. rewrite H. reflexivity.
  Qed.
  Lemma andthen_fails {A B} (m : action W X A) (k : A -> action W X B) w :
    fails (m w) -> fails (andthen m k w).
  Proof. intros (e & w' & H). exists e, w'. unfold andthen. rewrite H. reflexivity. Qed.
  Lemma gives_up_fails {A D} (r : outcome X A * W) (look : outcome X D * W) : gives_up R r look -> fails r.
  Proof. intros (e & H & _). exists e, (snd look). exact H. Qed.
  (** If the rest always fails, the whole fails. *)
  Lemma andthen_then_fails {A B} (m : action W X A) (k : A -> action W X B) w :
    (forall a w1, m w = (Returns a, w1) -> fails (k a w1)) -> fails (andthen m k w).
  Proof.
    intros H. unfold andthen. destruct (m w) as [[a|e] w1] eqn:Hm.
    - exact (H a w1 eq_refl).
    - exists e, w1. reflexivity.
  Qed.

  Lemma proxy_not_metatype : Nat.eqb (rt_proxy R) (rt_metatype R) = false.
  Proof.
    apply Nat.eqb_neq. intros H. pose proof (sane_type R HS) as HT. rewrite <- H, (sane_refl R HS) in HT. discriminate.
  Qed.

  Lemma object_isinstance_prox b fuel x o c w : no_bare_tuple R ->
    gives_up R (object_isinstance R b fuel x (Prox o c) w) (read R b (Prox o c) "__bases__" w).
  Proof.
    intros HT. unfold object_isinstance, is_type, type_of. rewrite (sane_type R HS).
    apply andthen_gives_up. exact (class_bases_prox b o c w HT).
  Qed.

  Lemma isinstance_prox b fuel x o c w : no_bare_tuple R -> base_lacks R "__instancecheck__" ->
    gives_up R (isinstance R b (S fuel) x (Prox o c) w) (read R b (Prox o c) "__bases__" w).
  Proof.
    intros HT HB. cbn [isinstance same type_of as_tuple]. rewrite proxy_not_metatype.
    assert (HN : special R b (Prox o c) "__instancecheck__" = Nothing).
    { unfold special. rewrite HB. destruct b; reflexivity. }
    rewrite HN. exact (object_isinstance_prox b fuel x o c w HT).
  Qed.

  Lemma isinstance_tuple_prox b fuel x t l1 o c l2 w r w' :
    no_bare_tuple R -> base_lacks R "__instancecheck__" ->
    rt_type R t <> rt_metatype R -> type_of R x <> t ->
    as_tuple R (Plain t) = Some (l1 ++ Prox o c :: l2)%list ->
    isinstance R b (S fuel) x (Plain t) w = (Returns r, w') ->
    r = true /\ exists y w1, In y l1 /\ isinstance R b fuel x y w1 = (Returns true, w').
  Proof.
    intros HT HB HM HX HL. cbn [isinstance]. unfold same at 1.
    apply Nat.eqb_neq in HX. rewrite HX.
    unfold type_of at 1. apply Nat.eqb_neq in HM. rewrite HM. rewrite HL. clear HL.
    revert w. induction l1 as [|z l1 IH]; intros w H; cbn [app] in H.
    - exfalso. apply andthen_returns in H as (y & w1 & H & _).
      destruct fuel as [|fuel]; [discriminate|].
      destruct (isinstance_prox b fuel x o c w HT HB) as (e & He & _). rewrite He in H. discriminate.
    - apply andthen_returns in H as (y & w1 & H1 & H). destruct y.
      + injection H as <- <-. split; [reflexivity|]. exists z, w. split; [left; reflexivity|exact H1].
      + destruct (IH w1 H) as (Hr & y & w2 & Hy & H2). split; [exact Hr|].
        exists y, w2. split; [right; exact Hy|exact H2].
  Qed.

  (** The builtin [isinstance(proxy, T)] is about Proxy, not about the object. *)
  Lemma isinstance_of_prox b fuel o c T w r w' : no_bare_type R ->
    rt_type R T = rt_metatype R -> rt_sub R (rt_metatype R) (rt_metatype R) = true -> T <> rt_proxy R ->
    isinstance R b (S fuel) (Prox o c) (Plain T) w = (Returns r, w') ->
    r = rt_sub R (rt_proxy R) T.
  Proof.
    intros HB HM HMM HE. cbn [isinstance type_of].
    unfold same at 1. destruct (Nat.eqb (rt_proxy R) T) eqn:HE'.
    { apply Nat.eqb_eq in HE'. congruence. }
    rewrite HM, Nat.eqb_refl. unfold object_isinstance, is_type, type_of. rewrite HM, HMM.
    destruct (rt_sub R (rt_proxy R) T) eqn:HP.
    - intros H. injection H as <- <-. reflexivity.
    - intros H. apply andthen_returns in H as (v & w1 & H1 & H).
      destruct v as [y|]; [|injection H as <- <-; reflexivity].
      pose proof (HB y (lookup_prox b o c _ _ _ _ H1)) as Hy. unfold is_type, type_of in Hy.
      destruct y as [t|]; [|injection H as <- <-; reflexivity].
      rewrite Hy in H. injection H as <- <-. reflexivity.
  Qed.

  Lemma issubclass_prox b fuel o c T w : no_bare_tuple R -> rt_type R T = rt_metatype R ->
    gives_up R (issubclass R b fuel (Prox o c) (Plain T) w) (read R b (Prox o c) "__bases__" w).
  Proof.
    intros HT HM. unfold issubclass, type_of. rewrite HM, Nat.eqb_refl. cbn [same recursive_issubclass].
    apply andthen_gives_up. exact (class_bases_prox b o c w HT).
  Qed.

  Lemma issubclass_of_prox b fuel x o c w : no_bare_tuple R -> base_lacks R "__subclasscheck__" ->
    fails (issubclass R b fuel x (Prox o c) w).
  Proof.
    intros HT HB. unfold issubclass, type_of. rewrite proxy_not_metatype.
    assert (HN : special R b (Prox o c) "__subclasscheck__" = Nothing).
    { unfold special. rewrite HB. destruct b; reflexivity. }
    rewrite HN.
    assert (H : fails (andthen (class_bases R b x) (fun _ => andthen (class_bases R b (Prox o c)) (fun _ =>
               abstract_issubclass R b fuel x (Prox o c))) w)).
    { apply andthen_then_fails. intros a w1 _. apply andthen_fails.
      exact (gives_up_fails _ _ (class_bases_prox b o c w1 HT)). }
    destruct x; exact H.
  Qed.

  Lemma exceptions_prox t l1 o c l2 w :
    except_clause R t (Prox o c) w = (Raises (rt_type_error R), w) /\
    (forall k, as_tuple R (Plain k) = Some (l1 ++ Prox o c :: l2)%list ->
       except_clause R t (Plain k) w = (Raises (rt_type_error R), w)) /\
    raise_statement R (Prox o c) w = (Raises (rt_type_error R), w).
  Proof.
    split; [reflexivity|split].
    - intros k HL. unfold except_clause. rewrite HL, forallb_app. cbn [forallb exception_class].
      rewrite andb_false_r. reflexivity.
    - unfold raise_statement, exception_class, exception_instance, type_of. rewrite (sane_exception R HS). reflexivity.
  Qed.

  Lemma super_prox b o c x w :
    super_object R b (Prox o c) x w = (Raises (rt_type_error R), w).
  Proof. reflexivity. Qed.

  Lemma super_of_prox b T o c w t w' : no_bare_type R ->
    super_object R b (Plain T) (Prox o c) w = (Returns t, w') ->
    t = rt_proxy R /\ rt_sub R (rt_proxy R) T = true.
  Proof.
    intros HB. unfold super_object. destruct (negb (is_type R (Plain T))); [discriminate|].
    unfold type_of at 1. destruct (rt_sub R (rt_proxy R) T) eqn:HP.
    - intros H. injection H as <- <-. split; reflexivity.
    - intros H. apply andthen_returns in H as (v & w1 & H1 & H).
      destruct v as [[u|]|]; [|discriminate|discriminate].
      rewrite (HB _ (lookup_prox b o c _ _ _ _ H1)) in H. discriminate.
  Qed.

  (** ** Classes *)

  Lemma resolve_keeps b all bases w bs w' o c : no_bare_tuple R ->
    guarded_entries R b (Prox o c) -> In (Prox o c) bases ->
    resolve_bases R b all bases w = (Returns bs, w') -> In (Prox o c) bs.
  Proof.
    intros HT HG. revert w bs w'. induction bases as [|x bases IH]; intros w bs w' HI H; [destruct HI|].
    cbn [resolve_bases] in H.
    destruct HI as [->|HI].
    - unfold is_type, type_of in H. rewrite (sane_type R HS) in H.
      apply andthen_returns in H as (m & w1 & H1 & H). destruct m as [f|].
      + exfalso. apply andthen_returns in H as (r & w2 & H2 & H).
        unfold lookup in H1. destruct (read R b (Prox o c) "__mro_entries__" w) as [[v|e] w3] eqn:HR.
        * injection H1 as -> ->. destruct (HG _ _ _ HR) as (o' & c' & ->).
          rewrite (HT r (call_prox _ _ _ _ _ _ H2)) in H. discriminate.
        * destruct (rt_attribute_error R e); discriminate.
      + apply andthen_returns in H as (l & w2 & _ & H). injection H as <- <-. left. reflexivity.
    - destruct (is_type R x).
      + apply andthen_returns in H as (l & w2 & H2 & H). injection H as <- <-. right. exact (IH _ _ _ HI H2).
      + apply andthen_returns in H as (m & w1 & H1 & H). destruct m as [f|].
        * apply andthen_returns in H as (r & w2 & _ & H). destruct (as_tuple R r) as [l|]; [|discriminate].
          apply andthen_returns in H as (l' & w3 & H3 & H). injection H as <- <-.
          apply in_or_app. right. exact (IH _ _ _ HI H3).
        * apply andthen_returns in H as (l' & w3 & H3 & H). injection H as <- <-. right. exact (IH _ _ _ HI H3).
  Qed.

  (** Once it is Proxy, it stays Proxy. *)
  Lemma metaclass_stays bs : forall w win w',
    metaclass R (rt_proxy R) bs w = (Returns win, w') -> win = rt_proxy R.
  Proof.
    induction bs as [|x bs IH]; intros w win w' H; cbn [metaclass] in H.
    - injection H as <- <-. reflexivity.
    - destruct (rt_sub R (rt_proxy R) (type_of R x)); [exact (IH _ _ _ H)|].
      destruct x as [k|o c]; cbn [type_of] in H.
      + rewrite (sane_plain R HS) in H. discriminate.
      + destruct (rt_sub R (rt_proxy R) (rt_proxy R)); [exact (IH _ _ _ H)|discriminate].
  Qed.
  Lemma metaclass_prox o c bs : forall k w win w',
    (k = rt_proxy R \/ rt_sub R k (rt_proxy R) = false) -> In (Prox o c) bs ->
    metaclass R k bs w = (Returns win, w') -> win = rt_proxy R.
  Proof.
    induction bs as [|x bs IH]; intros k w win w' HK HI H; [destruct HI|].
    destruct HK as [->|HK]; [exact (metaclass_stays (x :: bs) w win w' H)|].
    cbn [metaclass] in H. destruct HI as [->|HI].
    - cbn [type_of] in H. rewrite HK in H.
      destruct (rt_sub R (rt_proxy R) k); [exact (metaclass_stays bs w win w' H)|discriminate].
    - destruct (rt_sub R k (type_of R x)); [exact (IH k w win w' (or_intror HK) HI H)|].
      destruct (rt_sub R (type_of R x) k); [|discriminate].
      refine (IH (type_of R x) w win w' _ HI H).
      destruct x as [n|o' c']; cbn [type_of]; [right; exact (sane_plain R HS n)|left; reflexivity].
  Qed.

  Lemma class_prox b body meta bases o c w : no_bare_tuple R -> ordinary R meta ->
    guarded_entries R b (Prox o c) -> In (Prox o c) bases ->
    fails (class_statement R b body meta bases w).
  Proof.
    intros HT HO HG HI. unfold class_statement. apply andthen_then_fails. intros bs w1 HB.
    pose proof (resolve_keeps b bases bases w bs w1 o c HT HG HI HB) as HI'.
    assert (H : forall k, (k = rt_proxy R \/ rt_sub R k (rt_proxy R) = false) ->
      forall m : obj, fails (andthen (metaclass R k bs) (fun win =>
              andthen (lookup R b (Plain win) "__prepare__") (fun p =>
                andthen (match p with None => give m | Some f => call R f bs end) (fun _ =>
                  andthen body (fun _ => make_class R win bs)))) w1)).
    { intros k HK m. apply andthen_then_fails. intros win w2 H2.
      rewrite (metaclass_prox o c bs k w1 win w2 HK HI' H2).
      apply andthen_then_fails. intros p w3 _. apply andthen_then_fails. intros u w4 _.
      apply andthen_then_fails. intros u' w5 _. unfold make_class. rewrite Nat.eqb_refl.
      exists (rt_type_error R), w5. reflexivity. }
    destruct meta as [m|].
    - destruct HO as (k & -> & HM & HK). rewrite HM. cbn [orb]. exact (H k (or_intror HK) _).
    - destruct bs as [|x bs']; [destruct HI'|]. rewrite orb_true_r. apply H.
      destruct x as [n|o' c']; cbn [type_of]; [right; exact (sane_plain R HS n)|left; reflexivity].
  Qed.

  Lemma needed_prox b n o c args body none w : In n needed -> base_lacks R n ->
    implicit R b n (Prox o c) args w = (Raises (rt_type_error R), w) /\
    (n = "__enter__" \/ n = "__exit__" ->
     with_statement R b body (Prox o c) none w = (Raises (rt_type_error R), w)).
  Proof.
    intros HI HB.
    assert (HN : special R b (Prox o c) n = Nothing).
    { unfold special. assert (HM : mem n (own b) = false).
      { assert (HA : forallb (fun n => negb (mem n (own Py)) && negb (mem n (own C))) needed = true) by reflexivity.
        rewrite forallb_forall in HA. specialize (HA n HI). apply andb_prop in HA as (H1 & H2).
        destruct b; [destruct (mem n (own Py))|destruct (mem n (own C))]; try reflexivity; discriminate. }
      rewrite HM, HB. reflexivity. }
    split.
    - unfold implicit. rewrite HN. reflexivity.
    - intros [->| ->]; unfold with_statement; rewrite HN; [reflexivity|].
      destruct (special R b (Prox o c) "__enter__"); reflexivity.
  Qed.

  (** ** dir *)

  Lemma lookup_returns b x n w v w' : lookup R b x n w = (Returns (Some v), w') -> read R b x n w = (Returns v, w').
  Proof.
    unfold lookup. destruct (read R b x n w) as [[y|e] w1]; [|destruct (rt_attribute_error R e); discriminate].
    intros H. injection H as -> ->. reflexivity.
  Qed.

  Lemma class_names_discreet b D : discreet R b D -> forall fuel x w l w', D x ->
    class_names R b fuel x w = (Returns l, w') -> l = [].
  Proof.
    intros HD. induction fuel as [|fuel IH]; intros x w l w' Hx H; [discriminate|].
    cbn [class_names] in H. destruct (HD x Hx) as (Hd & Hb).
    apply andthen_returns in H as (d & w1 & H1 & H). destruct d as [y|].
    { exfalso. exact (Hd w y w1 (lookup_returns b x _ _ _ _ H1)). }
    apply andthen_returns in H as (here & w2 & H2 & H). injection H2 as <- <-.
    apply andthen_returns in H as (bs & w3 & H3 & H). destruct bs as [s|]; [|injection H as <- <-; reflexivity].
    apply lookup_returns in H3. specialize (Hb w1 s w3).
    destruct (size R s w3) as [[n|e] w4]; [|injection H as <- <-; reflexivity].
    assert (Hi : forall i w0 y w0', item R s i w0 = (Returns y, w0') -> D y).
    { intros i w0 y w0' Hy. exact (Hb i w0 y w0' H3 Hy). }
    clear H1 H3 Hb. revert H. generalize 0 as i. revert w4 l w'.
    induction n as [|n IHn]; intros w4 l w' i H.
    - injection H as <- <-. reflexivity.
    - apply andthen_returns in H as (base & w5 & H5 & H). apply andthen_returns in H as (l' & w6 & H6 & H).
      rewrite (IH base w5 l' w6 (Hi _ _ _ _ H5) H6) in H. exact (IHn w6 l w' (S i) H).
  Qed.

  Lemma dir_discreet b D o c : discreet R b D -> no_bare_dict R ->
    (forall w y w', read R b (Prox o c) "__class__" w = (Returns y, w') -> D y) ->
    forall fuel w l w', dir R b fuel (Prox o c) w = (Returns l, w') -> l = [].
  Proof.
    intros HD HB HC fuel w l w' H. unfold dir in H.
    apply andthen_returns in H as (d & w1 & H1 & H).
    assert (HM : match d with
                 | Some y => match as_dict R w1 y with Some l => l | None => [] end
                 | None => [] end = []).
    { destruct d as [y|]; [|reflexivity]. rewrite (HB y w1 (lookup_prox b o c _ _ _ _ H1)). reflexivity. }
    rewrite HM in H. apply andthen_returns in H as (cl & w2 & H2 & H). destruct cl as [y|]; [|injection H as <- <-; reflexivity].
    apply andthen_returns in H as (l' & w3 & H3 & H). injection H as <- <-.
    exact (class_names_discreet b D HD fuel y w2 l' w3 (HC _ _ _ (lookup_returns b _ _ _ _ _ H2)) H3).
  Qed.

  Lemma format_prox b o c spec w :
    (spec <> "" -> format R b (Prox o c) spec w = (Raises (rt_type_error R), w)) /\
    format R b (Prox o c) "" w = str R b (Prox o c) w /\
    (forall e w', rt_check R c o "__str__" w = (Raises e, w') -> rt_is_type_error R e = false ->
       str R b (Prox o c) w = rt_cover R o w').
  Proof.
    split; [|split].
    - intros H. cbn [format]. destruct (String.eqb_spec spec "") as [->|_]; [destruct (H eq_refl)|reflexivity].
    - reflexivity.
    - intros e w' H HT. cbn [str]. unfold andthen. rewrite H. destruct b; [rewrite HT|]; reflexivity.
  Qed.

  Lemma generic_c o c n w v w' :
    generic_getattr R C o c n w = (Returns v, w') ->
    w' = w /\ ((v = Method n (Prox o c) /\ In n (own C)) \/ exists m, v = FromBase m /\ rt_base_slot R n = Some m).
  Proof.
    unfold generic_getattr. cbn [members]. change (mem n []) with false. cbv iota.
    destruct (mem n (own C)) eqn:HM.
    - intros H. injection H as <- <-. split; [reflexivity|left]. split; [reflexivity|]. apply mem_in. exact HM.
    - destruct (rt_base_slot R n) as [m|] eqn:HB; [|discriminate].
      intros H. injection H as <- <-. split; [reflexivity|right]. exists m. split; reflexivity.
  Qed.
  (** The same value, but for the proxy itself, whatever is inside. *)
  Lemma generic_c_blind o c o' c' n w v w' : generic_getattr R C o c n w = (Returns v, w') ->
    exists v', generic_getattr R C o' c' n w = (Returns v', w') /\
      (v' = v \/ (v = Method n (Prox o c) /\ v' = Method n (Prox o' c'))).
  Proof.
    unfold generic_getattr. cbn [members]. change (mem n []) with false. cbv iota.
    destruct (mem n (own C)).
    - intros H. injection H as <- <-. eexists. split; [reflexivity|right]. split; reflexivity.
    - destruct (rt_base_slot R n) as [m|]; [|discriminate].
      intros H. injection H as <- <-. eexists. split; [reflexivity|left]. reflexivity.
  Qed.
  Lemma generic_py o c w :
    generic_getattr R Py o c "_wrapped" w = (Returns (InSlot o), w) /\
    generic_getattr R Py o c "_checker" w = (Returns (InSlot c), w).
  Proof. split; reflexivity. Qed.
End Facts.

(** The table of the C type has no descriptors for fields. *)
Lemma no_members base : proxy_type base "tp_members" = None /\ proxy_type base "tp_getset" = None /\ members C = [].
Proof. split; [reflexivity|split; reflexivity]. Qed.

(** The special methods are those of the tables. *)
Lemma own_tables base d n : well_named base -> ProxyPy_dict base = Some d ->
  (In n (own Py) <-> assoc d n <> None) /\ (In n (own C) <-> c_has n).
Proof.
  intros Hw Hd. destruct (type_difference base d n Hw Hd) as (H1 & H2).
  assert (HP : In n (own Py) <-> assoc d n <> None).
  { rewrite (dict_is _ _ Hw Hd), assoc_has.
    assert (A : forallb (fun n => mem n (map fst py_dict)) (own Py) = true) by (vm_compute; reflexivity).
    assert (B : forallb (fun n => mem n (own Py)) (map fst py_dict) = true) by (vm_compute; reflexivity).
    rewrite forallb_forall in A, B. split; intros H; apply mem_in; [exact (A n H)|exact (B n H)]. }
  split; [exact HP|].
  cbn [own]. rewrite filter_In, negb_true_iff. change (In n own_py) with (In n (own Py)). rewrite HP.
  rewrite <- not_true_iff_false, mem_in. rewrite <- H1. rewrite <- c_hasb_spec in *.
  destruct (c_hasb n) eqn:Hc.
  - split; [reflexivity|]. intros _. split; [exact (H2 eq_refl)|]. intros (_ & H). exact (H eq_refl).
  - split; [|discriminate]. intros (Ha & Hb). destruct Hb. split; [exact Ha|discriminate].
Qed.
