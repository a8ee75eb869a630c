(** * CExtDecide: the calls that decide, proofs. *)

From Coq Require Import List Bool Arith ZArith Lia.
From Verif Require Import CExt CExtSpec CExtFacts CExtLeaks CExtDecideSpec.
Import ListNotations.
Open Scope Z_scope.

(** The calls [l] were made and the structs are as before. *)
Record made (l : list entry) (s s' : cst) : Prop := mkMade {
  md_log : log s' = l ++ log s; md_f1 : f1 s' = f1 s; md_f2 : f2 s' = f2 s }.

Lemma made_refl s : made [] s s.
Proof. split; reflexivity. Qed.
Lemma made_trans l1 l2 s1 s2 s3 : made l1 s1 s2 -> made l2 s2 s3 -> made (l2 ++ l1) s1 s3.
Proof. intros [H1 H2 H3] [H4 H5 H6]. split; [rewrite H4, H1; apply app_assoc|congruence|congruence]. Qed.

Definition out_ptr (r : ptr) : outcome := match r with None => Failed | Some o => Gave o end.

Section Logic.
  Variable oracle : nat -> answer.
  Variable args : list obj.

  (** Computations that make no call that matters. *)
  Definition silent {A} (m : C A) : Prop := forall s a s', m s = Some (a, s') -> made [] s s'.

  Lemma silent_ret {A} (a : A) : silent (ret a).
  Proof. intros s b s' H. injection H as _ <-. apply made_refl. Qed.
  Lemma silent_bind {A B} (m : C A) (f : A -> C B) :
    silent m -> (forall a, silent (f a)) -> silent (bind m f).
  Proof.
    intros Hm Hf s b s' H. unfold bind in H. destruct (m s) as [[a s1]|] eqn:E; [|discriminate H].
    exact (made_trans [] [] _ _ _ (Hm _ _ _ E) (Hf _ _ _ _ H)).
  Qed.
  Lemma silent_use p : silent (use args p).
  Proof.
    intros s a s' H. unfold use in H. destruct p as [o|]; [destruct (alive args s o)|];
      injection H as _ <-; split; reflexivity.
  Qed.
  Lemma silent_uses l : silent (uses args l).
  Proof.
    induction l as [|p l IH]; [apply silent_ret|]. cbn [uses].
    apply silent_bind; [apply silent_use|intros _; exact IH].
  Qed.
  Lemma silent_elsewhere : silent (elsewhere oracle).
  Proof. intros s a s' H. injection H as _ <-. split; reflexivity. Qed.
  Lemma silent_call l : silent (call oracle args l).
  Proof.
    unfold call. apply silent_bind; [apply silent_uses|]. intros _.
    apply silent_bind; [|intros _; apply silent_elsewhere].
    intros s a s' H. destruct (exc s); injection H as _ <-; split; reflexivity.
  Qed.
  Lemma silent_incref p : silent (incref args p).
  Proof.
    unfold incref. apply silent_bind; [apply silent_use|]. intros _. destruct p; [|apply silent_ret].
    intros s a s' H. injection H as _ <-. split; reflexivity.
  Qed.
  Lemma silent_decref p : silent (decref oracle p).
  Proof.
    unfold decref. destruct p as [o|].
    - apply silent_bind.
      + intros s a s' H. destruct (0 <? own s o); injection H as _ <-; split; reflexivity.
      + intros _. apply silent_bind; [apply silent_elsewhere|intros _; apply silent_ret].
    - intros s a s' H. injection H as _ <-. split; reflexivity.
  Qed.
  Lemma silent_xdecref p : silent (xdecref oracle p).
  Proof. destruct p; [apply silent_decref|apply silent_ret]. Qed.
  Lemma silent_raise : silent raise_exc.
  Proof. intros s a s' H. injection H as _ <-. split; reflexivity. Qed.
  Lemma silent_clear : silent PyErr_Clear.
  Proof. intros s a s' H. injection H as _ <-. split; reflexivity. Qed.

  Lemma q_silent {A} (m : C A) s0 l s (Q : A -> cst -> Prop) :
    silent m -> made l s0 s -> (forall a s', made l s0 s' -> Q a s') -> wp m s Q.
  Proof.
    intros Hm Hs HQ. unfold wp. destruct (m s) as [[a s']|] eqn:E; [|exact I].
    apply HQ. exact (made_trans _ [] _ _ _ Hs (Hm _ _ _ E)).
  Qed.
  Lemma q_note k as_ x s0 l s (Q : unit -> cst -> Prop) :
    made l s0 s -> (forall s', made (mkE k as_ x :: l) s0 s' -> Q tt s') -> wp (note k as_ x) s Q.
  Proof. intros [H1 H2 H3] HQ. apply HQ. split; simpl; [rewrite H1; reflexivity|exact H2|exact H3]. Qed.
  Lemma q_setobject c v s0 l s (Q : unit -> cst -> Prop) :
    made l s0 s -> (forall s', made (mkE ARaise [c; v] Failed :: l) s0 s' -> Q tt s') ->
    wp (PyErr_SetObject args c v) s Q.
  Proof.
    intros Hs HQ. unfold PyErr_SetObject. apply wp_bind.
    apply (q_silent _ s0 l _ _ (silent_uses _) Hs). intros _ s1 H1.
    apply wp_bind, (q_note _ _ _ s0 l _ _ H1). intros s2 H2.
    apply (q_silent _ s0 _ _ _ silent_raise H2). intros [] s3 H3. apply HQ, H3.
  Qed.
  Lemma q_format ob ts s0 l s (Q : ptr -> cst -> Prop) :
    made l s0 s -> (forall r s', made (mkE AFormat (ob :: ts) (out_ptr r) :: l) s0 s' -> Q r s') ->
    wp (from_format oracle args ob ts) s Q.
  Proof.
    intros Hs HQ. unfold from_format. apply wp_bind.
    apply (q_silent _ s0 l _ _ (silent_uses _) Hs). intros _ s1 H1.
    apply wp_bind, (q_silent _ s0 l _ _ silent_elsewhere H1). intros a s2 H2.
    destruct (an_ptr a) as [o|]; apply wp_bind, (q_note _ _ _ s0 l _ _ H2); intros s3 H3.
    - apply (HQ (Some o)). destruct H3 as [H31 H32 H33]. split; assumption.
    - apply wp_bind, (q_silent _ s0 _ _ _ silent_raise H3). intros _ s4 H4. apply wp_ret, (HQ None), H4.
  Qed.
  Lemma q_new k as_ s0 l s (Q : ptr -> cst -> Prop) :
    made l s0 s -> (forall r s', made (mkE k as_ (out_ptr r) :: l) s0 s' -> Q r s') ->
    wp (call_new oracle args k as_) s Q.
  Proof.
    intros Hs HQ. unfold call_new. apply wp_bind.
    apply (q_silent _ s0 l); [apply silent_call|exact Hs|]. intros a s1 H1.
    destruct (an_ptr a) as [o|]; apply wp_bind; apply (q_note _ _ _ s0 l); try exact H1; intros s2 H2.
    - apply HQ. destruct H2 as [H21 H22 H23]. split; assumption.
    - apply wp_bind. apply (q_silent _ s0 _ _ _ silent_raise H2). intros _ s3 H3. apply wp_ret, HQ, H3.
  Qed.
  Lemma q_int k as_ s0 l s (Q : Z -> cst -> Prop) :
    made l s0 s -> (forall s', made (mkE k as_ Failed :: l) s0 s' -> Q (-1) s') ->
    (forall n s', made (mkE k as_ (Num n) :: l) s0 s' -> Q (Z.of_nat n) s') ->
    wp (call_int oracle args k as_) s Q.
  Proof.
    intros Hs HN HQ. unfold call_int. apply wp_bind.
    apply (q_silent _ s0 l); [apply silent_call|exact Hs|]. intros a s1 H1.
    destruct (an_neg a); apply wp_bind; apply (q_note _ _ _ s0 l); try exact H1; intros s2 H2.
    - apply wp_bind. apply (q_silent _ s0 _ _ _ silent_raise H2). intros _ s3 H3. apply wp_ret, HN, H3.
    - apply wp_ret, HQ, H2.
  Qed.
  Lemma q_flag k as_ s0 l s (Q : bool -> cst -> Prop) :
    made l s0 s -> (forall (b : bool) s', made (mkE k as_ (Num (if b then 1 else 0)) :: l) s0 s' -> Q b s') ->
    wp (call_flag oracle args k as_) s Q.
  Proof.
    intros Hs HQ. unfold call_flag. apply wp_bind.
    apply (q_silent _ s0 l); [apply silent_call|exact Hs|]. intros a s1 H1.
    apply wp_bind; apply (q_note _ _ _ s0 l); try exact H1; intros s2 H2. apply wp_ret, HQ, H2.
  Qed.
  Lemma q_item d k s0 l s (Q : ptr -> cst -> Prop) :
    made l s0 s ->
    (forall r s', made (mkE AItem [d; k] (match r with None => Nothing | Some o => Gave o end) :: l) s0 s' ->
       Q r s') ->
    wp (PyDict_GetItem oracle args d k) s Q.
  Proof.
    intros Hs HQ. unfold PyDict_GetItem. apply wp_bind.
    apply (q_silent _ s0 l); [apply silent_call|exact Hs|]. intros a s1 H1.
    destruct (an_ptr a) as [o|]; apply wp_bind; apply (q_note _ _ _ s0 l); try exact H1; intros s2 H2.
    - apply HQ. destruct H2 as [H21 H22 H23]. split; assumption.
    - apply wp_ret, HQ, H2.
  Qed.
  Lemma q_get1 self s0 l s (Q : ptr -> cst -> Prop) :
    made l s0 s -> (forall s', made l s0 s' -> Q (f1 s0 self) s') -> wp (get1 args self) s Q.
  Proof.
    intros Hs HQ. unfold get1. apply wp_bind. apply (q_silent _ s0 l); [apply silent_use|exact Hs|].
    intros _ s1 H1. unfold wp. rewrite (md_f1 _ _ _ H1). apply HQ, H1.
  Qed.
  Lemma q_get2 self s0 l s (Q : ptr -> cst -> Prop) :
    made l s0 s -> (forall s', made l s0 s' -> Q (f2 s0 self) s') -> wp (get2 args self) s Q.
  Proof.
    intros Hs HQ. unfold get2. apply wp_bind. apply (q_silent _ s0 l); [apply silent_use|exact Hs|].
    intros _ s1 H1. unfold wp. rewrite (md_f2 _ _ _ H1). apply HQ, H1.
  Qed.
  Lemma q_deref p s0 l s (Q : obj -> cst -> Prop) :
    made l s0 s -> (forall o s', (forall x, p = Some x -> o = x) -> made l s0 s' -> Q o s') ->
    wp (deref args p) s Q.
  Proof.
    intros Hs HQ. unfold deref. apply wp_bind. apply (q_silent _ s0 l); [apply silent_use|exact Hs|].
    intros _ s1 H1. destruct p as [o|]; apply wp_ret, HQ; try exact H1;
      intros x E; [injection E as ->; reflexivity|discriminate E].
  Qed.

  (** ** _proxy.c *)
  Variables is_proxy is_checker is_str exact_proxy has_sub has_ass has_num has_next : obj -> bool.

  Lemma q_check self meth name s0 l s (Q : Z -> cst -> Prop) :
    made l s0 s ->
    (forall i s' e, made (e :: l) s0 s' -> en_api e = ACheck ->
       (0 <= i -> grants (f2 s0 self) (f1 s0 self) meth name e) -> Q i s') ->
    wp (check oracle args has_ass self meth name) s Q.
  Proof.
    intros Hs HQ. unfold check. apply wp_bind, (q_get2 _ s0 l); [exact Hs|]. intros s1 H1.
    apply wp_bind, (q_deref _ s0 l); [exact H1|]. intros c s2 _ H2.
    apply wp_bind, (q_get1 _ s0 l); [exact H2|]. intros s3 H3.
    destruct (has_ass c && negb (Nat.eqb meth str_check_setattr)) eqn:E.
    - apply andb_true_iff in E. destruct E as [_ E]. apply negb_true_iff, Nat.eqb_neq in E.
      apply (q_int _ _ s0 l); [exact H3| |].
      + intros s4 H4. eapply HQ; [exact H4|reflexivity|]. intros H; lia.
      + intros n s4 H4. eapply HQ; [exact H4|reflexivity|]. intros _.
        split; [reflexivity|]. split; [intros D; discriminate D|]. right. split; [exact E|reflexivity].
    - apply wp_bind, (q_new _ _ s0 l); [exact H3|]. intros r s4 H4. destruct r as [o|].
      + apply wp_bind, (q_silent _ s0 _ _ _ (silent_decref _) H4). intros _ s5 H5. apply wp_ret.
        eapply HQ; [exact H5|reflexivity|]. intros _.
        split; [reflexivity|]. split; [intros D; discriminate D|]. left. reflexivity.
      + apply wp_ret. eapply HQ; [exact H4|reflexivity|]. intros H; lia.
  Qed.

  Lemma q_result self result s0 l s (Q : ptr -> cst -> Prop) :
    made l s0 s ->
    (result = None -> forall s', made l s0 s' -> Q None s') ->
    (forall o w r s', result = Some o -> en_api w = AWrap -> made (w :: l) s0 s' ->
       (forall x, r = Some x -> wraps (f2 s0 self) o x w) -> Q r s') ->
    wp (PROXY_RESULT oracle args has_sub self result) s Q.
  Proof.
    intros Hs HN HQ. unfold PROXY_RESULT. destruct result as [o|].
    2:{ apply wp_ret, HN; [reflexivity|exact Hs]. }
    apply wp_bind, (q_get2 _ s0 l); [exact Hs|]. intros s1 H1.
    apply wp_bind, (q_deref _ s0 l); [exact H1|]. intros c s2 _ H2.
    apply wp_bind. destruct (has_sub c); apply (q_new _ _ s0 l); try exact H2; intros r s3 H3;
      apply wp_bind, (q_silent _ s0 _ _ _ (silent_decref _) H3); intros _ s4 H4; apply wp_ret;
      (eapply HQ; [reflexivity| |exact H4|]; [reflexivity|]);
      intros x ->; (split; [reflexivity|]); (split; [reflexivity|]); [left|right]; reflexivity.
  Qed.

  (** What a slot leaves behind; [before]: calls made earlier that are no operations. *)
  Definition slot_post (self meth name : obj) (s0 : cst) (r : ptr) (s' : cst) : Prop :=
    exists l, made l s0 s' /\ mediated (f2 s0 self) (f1 s0 self) meth name l /\
      (forall x, r = Some x -> wrapped (f2 s0 self) x l).

  Lemma med_none chk ob meth name l :
    (forall e, In e l -> en_api e <> AOp) -> mediated chk ob meth name l.
  Proof.
    intros H later e before -> He. exfalso. apply (H e); [apply in_elt|exact He].
  Qed.

  Lemma med_cons chk ob meth name e l :
    (en_api e = AOp -> In ob (en_args e) /\ exists g, In g l /\ grants chk ob meth name g) ->
    mediated chk ob meth name l -> mediated chk ob meth name (e :: l).
  Proof.
    intros H1 H2 later e' before E He. destruct later as [|x later]; simpl in E.
    - injection E as <- <-. auto.
    - injection E as <- E. exact (H2 _ _ _ E He).
  Qed.

  (** What an operation does: nothing, or one call with the object of the proxy. *)
  Definition op_post (self : obj) (s0 : cst) (l1 : list entry) (r : ptr) (s2 : cst) : Prop :=
    (r = None /\ made l1 s0 s2) \/
    exists e, made (e :: l1) s0 s2 /\ en_api e = AOp /\ In (f1 s0 self) (en_args e) /\
              (forall o, r = Some o -> en_out e = Gave o).

  (** The common tail: check, operation, wrapping. *)
  Lemma q_slot self meth name s0 l s (op : ptr -> C ptr) :
    made l s0 s -> (forall e, In e l -> en_api e <> AOp) ->
    (forall l1 s1, made l1 s0 s1 -> wp (op (f1 s0 self)) s1 (op_post self s0 l1)) ->
    wp (i <- check oracle args has_ass self meth name ;;
        if Z.leb 0 i then
          ob <- get1 args self ;;
          result <- op ob ;;
          PROXY_RESULT oracle args has_sub self result
        else ret None) s (slot_post self meth name s0).
  Proof.
    intros Hs Hl Hop. apply wp_bind, (q_check _ _ _ s0 l); [exact Hs|].
    intros i s1 g H1 Hg Hgr.
    assert (Hn : mediated (f2 s0 self) (f1 s0 self) meth name (g :: l)).
    { apply med_none. intros x [<-|Hx]; [rewrite Hg; intros D; discriminate D|exact (Hl x Hx)]. }
    destruct (Z.leb_spec 0 i) as [Hi|Hi].
    - specialize (Hgr Hi). apply wp_bind, (q_get1 _ s0 _ _ _ H1). clear s1 H1. intros s1 H1.
      apply wp_bind. eapply wp_mono; [apply (Hop _ _ H1)|]. cbn beta.
      intros r s2 [[-> H2]|(e & H2 & He & Hin & Ho)].
      { apply (q_result self None s0 _ _ _ H2); [|intros o w r' s3 D; discriminate D].
        intros _ s3 H3. exists (g :: l). split; [exact H3|]. split; [exact Hn|intros x D; discriminate D]. }
      assert (Hm : mediated (f2 s0 self) (f1 s0 self) meth name (e :: g :: l)).
      { apply med_cons; [|exact Hn].
        intros _. split; [exact Hin|]. exists g. split; [left; reflexivity|exact Hgr]. }
      apply (q_result self r s0 _ _ _ H2).
      + intros -> s3 H3. exists (e :: g :: l). split; [exact H3|]. split; [exact Hm|].
        intros x D; discriminate D.
      + intros o w r' s3 -> Hw H3 Hx. exists (w :: e :: g :: l). split; [exact H3|].
        split; [apply med_cons; [rewrite Hw; intros D; discriminate D|exact Hm]|].
        intros x E. exists [], w, o, e, (g :: l). split; [reflexivity|].
        split; [exact He|]. split; [apply Ho; reflexivity|apply Hx, E].
    - apply wp_ret. exists (g :: l). split; [exact H1|]. split; [exact Hn|intros x D; discriminate D].
  Qed.

  Lemma q_op (self : obj) s0 (others : list ptr) :
    In (f1 s0 self) others -> forall l1 s1, made l1 s0 s1 ->
    wp (call_new oracle args AOp others) s1 (op_post self s0 l1).
  Proof.
    intros Hin l1 s1 H1. apply (q_new _ _ s0 l1); [exact H1|]. intros r s3 H3. right.
    eexists. split; [exact H3|].
    split; [reflexivity|]. split; [exact Hin|]. intros o ->. reflexivity.
  Qed.

  Lemma object_slots_wp self meth name m s0 :
    object_slot oracle args is_proxy has_sub has_ass has_num has_next self meth name m ->
    wp m s0 (slot_post self meth name s0).
  Proof.
    intros H. pose proof (made_refl s0) as H0.
    assert (Hnil : forall e, In e (@nil entry) -> en_api e <> AOp) by (intros e []).
    inversion H; subst;
      try (match goal with
           | |- context [proxy_igetitem] => fail 1
           | _ => idtac end;
           unfold check1, check2, checked, proxy_iter, proxy_iternext, proxy_getattro, proxy_call,
             proxy_number, proxy_pow, proxy_getitem, checked;
           repeat match goal with E : is_proxy _ = _ |- _ => rewrite E; clear E end).
    - apply (q_slot _ _ _ s0 [] s0 (fun ob => call_new oracle args AOp [ob]) H0 Hnil), q_op. left; reflexivity.
    - apply (q_slot _ _ _ s0 [] s0 (fun ob => call_new oracle args AOp [ob; Some other]) H0 Hnil), q_op.
      left; reflexivity.
    - apply (q_slot _ _ _ s0 [] s0 (fun ob => call_new oracle args AOp [Some self0; ob]) H0 Hnil), q_op.
      right; left; reflexivity.
    - apply (q_slot _ _ _ s0 [] s0 (fun ob => call_new oracle args AOp [ob]) H0 Hnil), q_op. left; reflexivity.
    - apply (q_slot _ _ _ s0 [] s0 (fun ob => PyIter_Next oracle args has_next ob) H0 Hnil).
      intros l1 s1 H1. unfold PyIter_Next. apply wp_bind.
      apply (q_silent _ s0 l1 _ _ (silent_use _) H1). intros _ s2 H2.
      destruct (f1 s0 self) as [o|] eqn:Eo; [|apply wp_ret; left; auto].
      destruct (has_next o).
      2:{ unfold crash, wp. left. split; [reflexivity|]. destruct H2; split; assumption. }
      apply wp_bind, (q_silent _ s0 l1 _ _ (silent_call _) H2). intros a s3 H3.
      destruct (an_ptr a) as [x|].
      + apply wp_bind, (q_note _ _ _ s0 l1 _ _ H3). intros s4 [H41 H42 H43]. right.
        eexists. split; [split; [exact H41|exact H42|exact H43]|]. split; [reflexivity|].
        rewrite Eo. split; [left; reflexivity|]. intros y E. injection E as <-. reflexivity.
      + destruct (an_neg a); apply wp_bind, (q_note _ _ _ s0 l1 _ _ H3); intros s4 H4.
        * apply wp_bind, (q_silent _ s0 _ _ _ silent_raise H4). intros _ s5 H5. apply wp_ret. right.
          eexists. split; [exact H5|]. split; [reflexivity|]. rewrite Eo.
          split; [left; reflexivity|]. intros y D; discriminate D.
        * apply wp_ret. right. eexists. split; [exact H4|]. split; [reflexivity|]. rewrite Eo.
          split; [left; reflexivity|]. intros y D; discriminate D.
    - apply (q_slot _ _ _ s0 [] s0 (fun ob => call_new oracle args AOp (ob :: [Some name])) H0 Hnil), q_op.
      left; reflexivity.
    - apply (q_slot _ _ _ s0 [] s0 (fun ob => call_new oracle args AOp (ob :: _)) H0 Hnil), q_op.
      left; reflexivity.
    - apply (q_slot _ _ _ s0 [] s0 (fun ob => call_number oracle args has_num ob) H0 Hnil).
      intros l1 s1 H1. unfold call_number. apply wp_bind, (q_deref _ s0 l1 _ _ H1).
      intros o s2 _ H2. destruct (has_num o).
      + apply q_op; [left; reflexivity|exact H2].
      + apply wp_bind, (q_silent _ s0 _ _ _ silent_raise H2). intros _ s3 H3. apply wp_ret. left. auto.
    - apply (q_slot _ _ _ s0 [] s0 (fun ob => call_new oracle args AOp (ob :: _)) H0 Hnil), q_op.
      left; reflexivity.
    - apply (q_slot _ _ _ s0 [] s0 (fun ob => call_new oracle args AOp [Some self0; ob; Some modulus]) H0 Hnil), q_op.
      right; left; reflexivity.
    - apply (q_slot _ _ _ s0 [] s0 (fun ob => call_new oracle args AOp [Some self0; Some other; ob]) H0 Hnil), q_op.
      right; right; left; reflexivity.
    - apply (q_slot _ _ _ s0 [] s0 (fun ob => call_new oracle args AOp (ob :: _)) H0 Hnil), q_op.
      left; reflexivity.
    - unfold proxy_igetitem. apply wp_bind, (q_new _ _ s0 [] _ _ H0). intros key s1 H1.
      assert (Hk : forall e, In e [mkE AOther [] (out_ptr key)] -> en_api e <> AOp).
      { intros e [<-|[]] D. discriminate D. }
      destruct key as [k|].
      + apply wp_bind. unfold proxy_getitem, checked.
        eapply wp_mono; [apply (q_slot _ _ _ s0 _ s1 (fun ob => call_new oracle args AOp (ob :: [Some k])) H1 Hk), q_op;
          left; reflexivity|]. cbn beta.
        intros res s2 (l & H2 & H3 & H4).
        apply wp_bind, (q_silent _ s0 _ _ _ (silent_decref _) H2). intros _ s3 H5. apply wp_ret.
        exists l. auto.
      + apply wp_ret. eexists. split; [exact H1|]. split; [apply med_none, Hk|intros x D; discriminate D].
  Qed.

  Lemma object_slots_lemma self meth name m s r s' :
    object_slot oracle args is_proxy has_sub has_ass has_num has_next self meth name m ->
    m s = Some (r, s') ->
    exists calls, log s' = calls ++ log s /\
      mediated (f2 s self) (f1 s self) meth name calls /\
      (forall x, r = Some x -> wrapped (f2 s self) x calls).
  Proof.
    intros H E. pose proof (object_slots_wp _ _ _ _ s H) as Hw. unfold wp in Hw. rewrite E in Hw.
    destruct Hw as (l & H1 & H2 & H3). exists l. split; [apply (md_log _ _ _ H1)|auto].
  Qed.

  (** In-place operators. *)
  Lemma inplace_lemma self other op s r s' :
    f1 s self <> None -> check2i oracle args has_sub has_ass self other op s = Some (r, s') ->
    exists calls, log s' = calls ++ log s /\
      mediated (f2 s self) (f1 s self) str_check op calls /\
      (forall x, r = Some x -> wrapped (f2 s self) x calls \/
         x = self /\ exists e ob, In e calls /\ en_api e = AOp /\ en_out e = Gave ob /\ f1 s self = Some ob).
  Proof.
    intros Hob E.
    cut (wp (check2i oracle args has_sub has_ass self other op) s (fun r s' =>
           exists calls, made calls s s' /\
             mediated (f2 s self) (f1 s self) str_check op calls /\
             (forall x, r = Some x -> wrapped (f2 s self) x calls \/
         x = self /\ exists e ob, In e calls /\ en_api e = AOp /\ en_out e = Gave ob /\ f1 s self = Some ob))).
    { unfold wp. rewrite E. intros (l & H1 & H2 & H3). exists l. split; [apply (md_log _ _ _ H1)|auto]. }
    clear E r s'. pose proof (made_refl s) as H0. unfold check2i.
    apply wp_bind, (q_check _ _ _ s []); [exact H0|]. intros i s1 g H1 Hg Hgr.
    assert (Hn : mediated (f2 s self) (f1 s self) str_check op [g]).
    { apply med_none. intros x [<-|[]] D. rewrite Hg in D; discriminate D. }
    destruct (Z.leb_spec 0 i) as [Hi|Hi].
    2:{ apply wp_ret. exists [g]. split; [exact H1|]. split; [exact Hn|intros x D; discriminate D]. }
    specialize (Hgr Hi). apply wp_bind, (q_get1 _ s _ _ _ H1). clear s1 H1. intros s1 H1.
    apply wp_bind, (q_new _ _ s _ _ _ H1). intros res s2 H2.
    apply wp_bind, (q_get1 _ s _ _ _ H2). clear s2 H2. intros s2 H2.
    match type of H2 with made (?e :: _) _ _ =>
      assert (Hm : mediated (f2 s self) (f1 s self) str_check op (e :: [g])) end.
    { apply med_cons; [|exact Hn].
      intros _. split; [left; reflexivity|]. exists g. split; [left; reflexivity|exact Hgr]. }
    destruct (ptr_eqb res (f1 s self)) eqn:Ep.
    - apply wp_bind, (q_silent _ s _ _ _ (silent_decref _) H2). intros _ s3 H3.
      apply wp_bind, (q_silent _ s _ _ _ (silent_incref _) H3). intros _ s4 H4. apply wp_ret.
      eexists. split; [exact H4|]. split; [exact Hm|]. intros x E. injection E as <-.
      destruct res as [o|], (f1 s self) as [o'|] eqn:E1; try discriminate Ep.
      + apply Nat.eqb_eq in Ep. subst o'. right. split; [reflexivity|]. eexists. exists o.
        split; [left; reflexivity|]. split; [reflexivity|]. split; [reflexivity|reflexivity].
      + contradiction.
    - apply (q_result self res s _ _ _ H2).
      + intros -> s3 H3. eexists. split; [exact H3|]. split; [exact Hm|]. intros x D; discriminate D.
      + intros o w r' s3 -> Hw H3 Hx. eexists. split; [exact H3|].
        split; [apply med_cons; [rewrite Hw; intros D; discriminate D|exact Hm]|].
        intros x E. left. eexists [], w, o, _, [g]. split; [reflexivity|].
        split; [reflexivity|]. split; [reflexivity|apply Hx, E].
  Qed.

  (** Slots that return an int. *)
  Definition int_post (self meth name : obj) (s0 : cst) (i : Z) (s' : cst) : Prop :=
    exists l, made l s0 s' /\ mediated (f2 s0 self) (f1 s0 self) meth name l.

  Lemma q_int_slot self meth name s0 l s (op : ptr -> C Z) :
    made l s0 s -> (forall e, In e l -> en_api e <> AOp) ->
    (forall l1 s1, made l1 s0 s1 -> wp (op (f1 s0 self)) s1 (fun i s2 =>
       exists e, made (e :: l1) s0 s2 /\ en_api e = AOp /\ In (f1 s0 self) (en_args e))) ->
    wp (i <- check oracle args has_ass self meth name ;;
        if Z.leb 0 i then ob <- get1 args self ;; op ob else ret (-1)) s (int_post self meth name s0).
  Proof.
    intros Hs Hl Hop. apply wp_bind, (q_check _ _ _ s0 l); [exact Hs|].
    intros i s1 g H1 Hg Hgr.
    assert (Hn : mediated (f2 s0 self) (f1 s0 self) meth name (g :: l)).
    { apply med_none. intros x [<-|Hx]; [rewrite Hg; intros D; discriminate D|exact (Hl x Hx)]. }
    destruct (Z.leb_spec 0 i) as [Hi|Hi].
    - specialize (Hgr Hi). apply wp_bind, (q_get1 _ s0 _ _ _ H1). clear s1 H1. intros s1 H1.
      eapply wp_mono; [apply (Hop _ _ H1)|]. cbn beta. intros j s2 (e & H2 & He & Hin).
      exists (e :: g :: l). split; [exact H2|]. apply med_cons; [|exact Hn].
      intros _. split; [exact Hin|]. exists g. split; [left; reflexivity|exact Hgr].
    - apply wp_ret. exists (g :: l). auto.
  Qed.

  Lemma q_int_op (self : obj) s0 (others : list ptr) :
    In (f1 s0 self) others -> forall l1 s1, made l1 s0 s1 ->
    wp (call_int oracle args AOp others) s1 (fun i s2 =>
       exists e, made (e :: l1) s0 s2 /\ en_api e = AOp /\ In (f1 s0 self) (en_args e)).
  Proof.
    intros Hin l1 s1 H1. apply (q_int _ _ s0 l1 _ _ H1).
    - intros s2 H2. eexists. split; [exact H2|]. split; [reflexivity|exact Hin].
    - intros n s2 H2. eexists. split; [exact H2|]. split; [reflexivity|exact Hin].
  Qed.

  Lemma int_slots_wp self meth name m s0 :
    int_slot oracle args has_ass self meth name m -> wp m s0 (int_post self meth name s0).
  Proof.
    intros H. pose proof (made_refl s0) as H0.
    assert (Hnil : forall e, In e (@nil entry) -> en_api e <> AOp) by (intros e []).
    inversion H; subst; unfold proxy_setattro, proxy_length, proxy_contains, proxy_setitem, checked_int.
    - apply (q_int_slot _ _ _ s0 [] s0 (fun ob => call_int oracle args AOp (ob :: _)) H0 Hnil), q_int_op.
      left; reflexivity.
    - apply (q_int_slot _ _ _ s0 [] s0 (fun ob => call_int oracle args AOp (ob :: _)) H0 Hnil), q_int_op.
      left; reflexivity.
    - apply (q_int_slot _ _ _ s0 [] s0 (fun ob => call_int oracle args AOp (ob :: _)) H0 Hnil), q_int_op.
      left; reflexivity.
    - apply (q_int_slot _ _ _ s0 [] s0 (fun ob => call_int oracle args AOp (ob :: _)) H0 Hnil), q_int_op.
      left; reflexivity.
    - apply (q_int_slot _ _ _ s0 [] s0 (fun ob => call_int oracle args AOp (ob :: _)) H0 Hnil), q_int_op.
      left; reflexivity.
    - unfold proxy_isetitem. apply wp_bind, (q_new _ _ s0 [] _ _ H0). intros key s1 H1.
      assert (Hk : forall e, In e [mkE AOther [] (out_ptr key)] -> en_api e <> AOp).
      { intros e [<-|[]] D. discriminate D. }
      destruct key as [k|].
      + apply wp_bind. unfold proxy_setitem, checked_int.
        eapply wp_mono; [apply (q_int_slot _ _ _ s0 _ s1 (fun ob => call_int oracle args AOp (ob :: _)) H1 Hk), q_int_op;
          left; reflexivity|]. cbn beta.
        intros res s2 (l & H2 & H3).
        apply wp_bind, (q_silent _ s0 _ _ _ (silent_decref _) H2). intros _ s3 H5. apply wp_ret.
        exists l. auto.
      + apply wp_ret. eexists. split; [exact H1|]. apply med_none, Hk.
    - unfold proxy_isetitem. apply wp_bind, (q_new _ _ s0 [] _ _ H0). intros key s1 H1.
      assert (Hk : forall e, In e [mkE AOther [] (out_ptr key)] -> en_api e <> AOp).
      { intros e [<-|[]] D. discriminate D. }
      destruct key as [k|].
      + apply wp_bind. unfold proxy_setitem, checked_int.
        eapply wp_mono; [apply (q_int_slot _ _ _ s0 _ s1 (fun ob => call_int oracle args AOp (ob :: _)) H1 Hk), q_int_op;
          left; reflexivity|]. cbn beta.
        intros res s2 (l & H2 & H3).
        apply wp_bind, (q_silent _ s0 _ _ _ (silent_decref _) H2). intros _ s3 H5. apply wp_ret.
        exists l. auto.
      + apply wp_ret. eexists. split; [exact H1|]. apply med_none, Hk.
  Qed.

  Lemma int_slots_lemma self meth name m s i s' :
    int_slot oracle args has_ass self meth name m -> m s = Some (i, s') ->
    exists calls, log s' = calls ++ log s /\ mediated (f2 s self) (f1 s self) meth name calls.
  Proof.
    intros H E. pose proof (int_slots_wp _ _ _ _ s H) as Hw. unfold wp in Hw. rewrite E in Hw.
    destruct Hw as (l & H1 & H2). exists l. split; [apply (md_log _ _ _ H1)|exact H2].
  Qed.

  (** str() and repr() *)
  Lemma text_lemma name self s r s' :
    proxy_text oracle args has_ass name self s = Some (r, s') ->
    exists calls, log s' = calls ++ log s /\
      mediated (f2 s self) (f1 s self) str_check name calls.
  Proof.
    intros E.
    cut (wp (proxy_text oracle args has_ass name self) s (fun _ => int_post self str_check name s (-1))).
    { unfold wp. rewrite E. intros (l & H1 & H2). exists l. split; [apply (md_log _ _ _ H1)|exact H2]. }
    clear E r s'. pose proof (made_refl s) as H0. unfold proxy_text.
    apply wp_bind, (q_check _ _ _ s []); [exact H0|]. intros i s1 g H1 Hg Hgr.
    assert (Hg' : en_api g <> AOp) by (rewrite Hg; intros D; discriminate D).
    destruct (Z.leb_spec 0 i) as [Hi|Hi].
    - specialize (Hgr Hi). apply wp_bind, (q_get1 _ s _ _ _ H1). clear s1 H1. intros s1 H1.
      apply (q_new _ _ s _ _ _ H1). intros res s2 H2. eexists. split; [exact H2|].
      apply med_cons; [|apply med_none; intros x [<-|[]]; exact Hg'].
      intros _. split; [left; reflexivity|]. exists g. split; [left; reflexivity|exact Hgr].
    - apply wp_bind, (q_silent _ s _ _ _ silent_clear H1). clear s1 H1. intros _ s1 H1.
      apply wp_bind, (q_get1 _ s _ _ _ H1). clear s1 H1. intros s1 H1.
      assert (Hn : forall x, In x [g] -> en_api x <> AOp) by (intros x [<-|[]]; exact Hg').
      assert (Hx : forall k l x, k <> AOp -> (forall e, In e l -> en_api e <> AOp) ->
                    forall as_ e, In e (mkE k as_ x :: l) -> en_api e <> AOp).
      { intros k l x Hk Hl as_ e [<-|He]; [exact Hk|exact (Hl e He)]. }
      assert (Hend : forall l s2, made l s s2 -> (forall e, In e l -> en_api e <> AOp) ->
                int_post self str_check name s (-1) s2).
      { intros l s2 Hl Hne. exists l. split; [exact Hl|apply med_none, Hne]. }
      assert (HD : ADescribe <> AOp) by (intros D; discriminate D).
      assert (HO : AAttr <> AOp) by (intros D; discriminate D).
      assert (HE : AEncode <> AOp) by (intros D; discriminate D).
      assert (HF : AFormat <> AOp) by (intros D; discriminate D).
      unfold default_repr. apply wp_bind, (q_new _ _ s _ _ _ H1). intros klass s2 H2.
      assert (N2 := Hx _ _ (out_ptr klass) HD Hn [f1 s self; Some str_class]).
      destruct klass as [k|]; [|apply wp_ret; exact (Hend _ _ H2 N2)].
      apply wp_bind, (q_new _ _ s _ _ _ H2). intros nm s3 H3.
      assert (N3 := Hx _ _ (out_ptr nm) HO N2 [Some k; Some str_name]).
      destruct nm as [n|].
      2:{ apply wp_bind, (q_silent _ s _ _ _ (silent_decref _) H3). intros _ s4 H4. apply wp_ret.
          exact (Hend _ _ H4 N3). }
      apply wp_bind. unfold MAKE_STRING at 1. apply (q_new _ _ s _ _ _ H3). intros sn s4 H4.
      assert (N4 := Hx _ _ (out_ptr sn) HE N3 [Some n]).
      apply wp_bind, (q_new _ _ s _ _ _ H4). intros md s5 H5.
      assert (N5 := Hx _ _ (out_ptr md) HO N4 [Some k; Some str_module]).
      assert (Htail : forall l s6 (res : ptr), made l s s6 -> (forall e, In e l -> en_api e <> AOp) ->
        wp (decref oracle (Some k) ;;; xdecref oracle (Some n) ;;; xdecref oracle md ;;; ret res) s6
           (fun _ s7 => int_post self str_check name s (-1) s7)).
      { intros l s6 res H6 N6.
        apply wp_bind, (q_silent _ s _ _ _ (silent_decref _) H6). intros _ s7 H7.
        apply wp_bind, (q_silent _ s _ _ _ (silent_xdecref _) H7). intros _ s8 H8.
        apply wp_bind, (q_silent _ s _ _ _ (silent_xdecref _) H8). intros _ s9 H9.
        apply wp_ret. exact (Hend _ _ H9 N6). }
      apply wp_bind. destruct md as [mo|].
      + apply wp_bind. unfold MAKE_STRING at 1. apply (q_new _ _ s _ _ _ H5). intros sm s6 H6.
        assert (N6 := Hx _ _ (out_ptr sm) HE N5 [Some mo]).
        apply (q_format _ _ s _ _ _ H6). intros res s7 H7. exact (Htail _ _ res H7 (Hx _ _ _ HF N6 _)).
      + apply wp_bind, (q_silent _ s _ _ _ silent_clear H5). intros _ s6 H6.
        apply (q_format _ _ s _ _ _ H6). intros res s7 H7. exact (Htail _ _ res H7 (Hx _ _ _ HF N5 _)).
  Qed.

  (** Comparisons are not checked; their result is made a proxy. *)
  Lemma compare_lemma self other s r s' :
    proxy_richcompare oracle args has_sub self other s = Some (r, s') ->
    exists calls, log s' = calls ++ log s /\
      (forall x, r = Some x -> wrapped (f2 s self) x calls \/ x = Py_True \/ x = Py_False).
  Proof.
    intros E.
    cut (wp (proxy_richcompare oracle args has_sub self other) s (fun r s' =>
           exists calls, made calls s s' /\
             (forall x, r = Some x -> wrapped (f2 s self) x calls \/ x = Py_True \/ x = Py_False))).
    { unfold wp. rewrite E. intros (l & H1 & H2). exists l. split; [apply (md_log _ _ _ H1)|exact H2]. }
    clear E r s'. pose proof (made_refl s) as H0. unfold proxy_richcompare.
    apply wp_bind, (q_get1 _ s _ _ _ H0). intros s1 H1.
    apply wp_bind, (q_new _ _ s _ _ _ H1). intros res s2 H2.
    destruct (ptr_eqb res (Some Py_True) || ptr_eqb res (Some Py_False)) eqn:Eb.
    - apply wp_ret. eexists. split; [exact H2|]. intros x ->. right.
      apply orb_true_iff in Eb. destruct Eb as [Eb|Eb]; apply Nat.eqb_eq in Eb; auto.
    - apply (q_result self res s _ _ _ H2).
      + intros -> s3 H3. eexists. split; [exact H3|]. intros x D; discriminate D.
      + intros o w r' s3 -> Hw H3 Hx. eexists. split; [exact H3|]. intros x E. left.
        eexists [], w, o, _, []. split; [reflexivity|]. split; [reflexivity|]. split; [reflexivity|].
        apply Hx, E.
  Qed.

  (** ** _zope_security_checker.c *)
  Variables char0 char1 is_iter : obj -> bool.

  Definition none_of (k : api) (l : list entry) : Prop := forall e, In e l -> en_api e <> k.

  Lemma q_checkPermission p object name s0 l s (Q : Z -> cst -> Prop) :
    made l s0 s ->
    (forall i a n s', n <> O ->
       made (mkE ATruth [Some a] (Num n) ::
             mkE APolicy [Some i; Some str_checkPermission; Some p; Some object] (Gave a) ::
             mkE AInteraction [Some thread_local; Some str_interaction] (Gave i) :: l) s0 s' -> Q 0 s') ->
    (forall new s', made (new ++ l) s0 s' -> none_of AItem new -> none_of AMember new -> none_of AHas new ->
       (forall a n, In (mkE ATruth [Some a] (Num n)) new -> n = O) -> Q (-1) s') ->
    wp (checkPermission oracle args (Some p) object name) s Q.
  Proof.
    intros Hs HY HN. unfold checkPermission.
    assert (none : forall k as_ x new K, k <> K -> none_of K new -> none_of K (mkE k as_ x :: new)).
    { intros k as_ x new K Hk Hn e [<-|He]; [exact Hk|exact (Hn e He)]. }
    apply wp_bind, (q_new _ _ s0 _ _ _ Hs). intros it s1 H1. destruct it as [i|].
    2:{ apply wp_ret. refine (HN [_] s1 H1 _ _ _ _); [intros e [<-|[]] D; discriminate D..|].
        intros a n [D|[]]; discriminate D. }
    apply wp_bind, (q_new _ _ s0 _ _ _ H1). intros r s2 H2.
    apply wp_bind, (q_silent _ s0 _ _ _ (silent_decref _) H2). clear s2 H2. intros _ s2 H2.
    destruct r as [a|].
    2:{ apply wp_ret. refine (HN [_; _] s2 H2 _ _ _ _); [intros e [<-|[<-|[]]] D; discriminate D..|].
        intros a n [D|[D|[]]]; discriminate D. }
    apply wp_bind, (q_int _ _ s0 _ _ _ H2).
    - intros s3 H3. apply wp_bind, (q_silent _ s0 _ _ _ (silent_decref _) H3). intros _ s4 H4.
      simpl. apply wp_ret. refine (HN [_; _; _] s4 H4 _ _ _ _);
        [intros e [<-|[<-|[<-|[]]]] D; discriminate D..|].
      intros b n [D|[D|[D|[]]]]; discriminate D.
    - intros n s3 H3. apply wp_bind, (q_silent _ s0 _ _ _ (silent_decref _) H3). clear s3 H3. intros _ s3 H3.
      destruct (Z.ltb_spec (Z.of_nat n) 0) as [Hz|_]; [lia|].
      destruct (Z.eqb_spec (Z.of_nat n) 0) as [Hz|Hz].
      + assert (n = O) by lia. subst n.
        assert (He : forall b m, In (mkE ATruth [Some b] (Num m))
                  [mkE ATruth [Some a] (Num 0); mkE APolicy [Some i; Some str_checkPermission; Some p; Some object] (Gave a);
                   mkE AInteraction [Some thread_local; Some str_interaction] (Gave i)] -> m = O).
        { intros b m [D|[D|[D|[]]]]; [injection D; auto|discriminate D|discriminate D]. }
        apply wp_bind, (q_new _ _ s0 _ _ _ H3). intros u s4 H4. destruct u as [u|].
        * apply wp_bind, (q_setobject _ _ s0 _ _ _ H4). intros s5 H5.
          apply wp_bind, (q_silent _ s0 _ _ _ (silent_decref _) H5). intros _ s6 H6.
          apply wp_ret. refine (HN [_; _; _; _; _] s6 H6 _ _ _ _);
            [intros e [<-|[<-|[<-|[<-|[<-|[]]]]]] D; discriminate D..|].
          intros b m [D|[D|D]]; [discriminate D|discriminate D|exact (He _ _ D)].
        * apply wp_ret. refine (HN [_; _; _; _] s4 H4 _ _ _ _);
            [intros e [<-|[<-|[<-|[<-|[]]]]] D; discriminate D..|].
          intros b m [D|D]; [discriminate D|exact (He _ _ D)].
      + apply wp_ret. eapply HY; [|exact H3]. lia.
  Qed.

  Lemma q_forbidden object name s0 l s (Q : Z -> cst -> Prop) :
    made l s0 s ->
    (forall new s', made (new ++ l) s0 s' ->
       (forall e, In e new -> en_api e = AArgs \/ en_api e = ARaise) -> Q (-1) s') ->
    wp (forbidden oracle args object name) s Q.
  Proof.
    intros Hs HQ. unfold forbidden. apply wp_bind, (q_new _ _ s0 _ _ _ Hs). intros r s1 H1.
    destruct r as [a|].
    2:{ apply wp_ret. apply (HQ [_] _ H1). intros e [<-|[]]. left. reflexivity. }
    apply wp_bind, (q_setobject _ _ s0 _ _ _ H1). intros s2 H2.
    apply wp_bind, (q_silent _ s0 _ _ _ (silent_decref _) H2). intros _ s3 H3.
    apply wp_ret. apply (HQ [_; _] _ H3). intros e [<-|[<-|[]]]; [right|left]; reflexivity.
  Qed.

  Ltac stk :=
    repeat first
      [ apply stuck_ret | apply stuck_use | apply stuck_call_new
      | apply stuck_call_int | apply stuck_call_flag | apply stuck_forbidden
      | apply stuck_bind | match goal with |- forall _, _ => intro end
      | match goal with
        | |- stuck (if ?b then _ else _) => destruct b
        | |- stuck (match ?p with Some _ => _ | None => _ end) => destruct p
        end ].

  Lemma check_table_lemma self object name s i s' :
    Checker_check_int oracle args is_str char0 char1 is_iter self object name s = Some (i, s') ->
    fault s' = false ->
    exists calls, log s' = calls ++ log s /\
      (0 <= i <-> by_table (f1 s self) object name calls \/
                  by_default is_str char0 char1 is_iter (f1 s self) object name calls) /\
      (failed calls -> i < 0).
  Proof.
    intros E.
    cut (wp (Checker_check_int oracle args is_str char0 char1 is_iter self object name) s (fun i s' =>
      fault s' = false ->
      exists calls, made calls s s' /\
      (0 <= i <-> by_table (f1 s self) object name calls \/
                  by_default is_str char0 char1 is_iter (f1 s self) object name calls) /\
      (failed calls -> i < 0))).
    { unfold wp. rewrite E. intros H Hf. destruct (H Hf) as (l & H1 & H2 & H3). exists l.
      split; [apply (md_log _ _ _ H1)|auto]. }
    clear E i s'. pose proof (made_refl s) as H0. unfold Checker_check_int.
    apply wp_bind, (q_get1 _ s _ _ _ H0). intros s1 H1. apply wp_bind.
    (* a name that is in no table *)
    assert (Hno : forall l s2, made l s s2 ->
      (f1 s self = None /\ l = [] \/ exists t, f1 s self = Some t /\ l = [mkE AItem [Some t; Some name] Nothing]) ->
      wp (operator <-
            (if is_str name then
               s0 <- MAKE_STRING oracle args (Some name) ;; chars args s0 ;;;
               if char0 name then
                 s1 <- MAKE_STRING oracle args (Some name) ;; chars args s1 ;;; ret (char1 name)
               else ret false
             else ret false) ;;
          if operator : bool then
            ic <- call_int oracle args AMember [Some available_by_default; Some name] ;;
            if Z.ltb ic 0 then ret (-1)
            else if negb (Z.eqb ic 0) then ret 0
            else
              s2 <- MAKE_STRING oracle args (Some name) ;; chars args s2 ;;;
              absent <- (if is_iter name then
                           h <- call_flag oracle args AHas [Some object; Some name] ;; ret (negb h)
                         else ret false) ;;
              if absent : bool then ret 0 else forbidden oracle args object name
          else forbidden oracle args object name) s2 (fun i s' =>
      fault s' = false ->
      exists calls, made calls s s' /\
      (0 <= i <-> by_table (f1 s self) object name calls \/
                  by_default is_str char0 char1 is_iter (f1 s self) object name calls) /\
      (failed calls -> i < 0))).
    { intros l s2 H2 Hl.
      assert (Hlf : forall e, In e l -> en_out e <> Failed /\ en_api e = AItem /\ forall p, en_out e <> Gave p).
      { intros e He. destruct Hl as [[_ ->]|[t [_ ->]]]; [destruct He|].
        destruct He as [<-|[]]. split; [intros D; discriminate D|].
        split; [reflexivity|intros p D; discriminate D]. }
      assert (Habs : f1 s self = None \/ In (mkE AItem [f1 s self; Some name] Nothing) l).
      { destruct Hl as [[Hl _]|[t [Hl ->]]]; [left; exact Hl|right; rewrite Hl; left; reflexivity]. }
      assert (Hbt : forall new, (forall e, In e new -> en_api e <> AItem) ->
                ~ by_table (f1 s self) object name (new ++ l)).
      { intros new Hnew Hb. inversion Hb; subst;
          match goal with H : In (mkE AItem _ _) _ |- _ => apply in_app_or in H; destruct H as [H|H];
            [exact (Hnew _ H eq_refl)|destruct (Hlf _ H) as (_ & _ & Hg); exact (Hg _ eq_refl)] end. }
      apply wp_bind.
      assert (Hstr : wp (if is_str name then
                           s0 <- MAKE_STRING oracle args (Some name) ;; chars args s0 ;;;
                           if char0 name then
                             s1 <- MAKE_STRING oracle args (Some name) ;; chars args s1 ;;; ret (char1 name)
                           else ret false
                         else ret false) s2 (fun (b : bool) s3 =>
                fault s3 = true \/
                exists new, made (new ++ l) s s3 /\
                  (forall e, In e new -> en_api e = AEncode /\ en_out e <> Failed) /\
                  (b = true -> is_str name = true /\ char0 name = true /\ char1 name = true))).
      { destruct (is_str name).
        2:{ apply wp_ret. right. exists []. split; [exact H2|]. split; [intros e []|intros D; discriminate D]. }
        apply wp_bind. unfold MAKE_STRING at 1. apply (q_new _ _ s _ _ _ H2). intros r s3 H3.
        destruct r as [b|].
        2:{ apply (wp_null args); [|auto]. destruct (char0 name); unfold MAKE_STRING, chars; stk. }
        apply wp_bind, (q_silent _ s _ _ _ (silent_use _) H3). intros _ s4 H4.
        destruct (char0 name).
        2:{ apply wp_ret. right. exists [mkE AEncode [Some name] (Gave b)]. split; [exact H4|].
            split; [|intros D; discriminate D].
            intros e [<-|[]]. split; [reflexivity|intros D; discriminate D]. }
        apply wp_bind. unfold MAKE_STRING at 1. apply (q_new _ _ s _ _ _ H4). intros r s5 H5.
        destruct r as [b'|].
        2:{ apply (wp_null args); [apply stuck_ret|auto]. }
        apply wp_bind, (q_silent _ s _ _ _ (silent_use _) H5). intros _ s6 H6. apply wp_ret. right.
        exists [mkE AEncode [Some name] (Gave b'); mkE AEncode [Some name] (Gave b)]. split; [exact H6|].
        split; [|auto].
        intros e [<-|[<-|[]]]; (split; [reflexivity|intros D; discriminate D]). }
      eapply wp_mono; [exact Hstr|]. cbn beta. clear Hstr s2 H2. intros op s2 [Hf|(new & H2 & Hnew & Hop)].
      { apply stuck_wp; [|exact Hf|intros a s3 Hf3 Hf4; congruence].
        unfold MAKE_STRING, chars. stk. }
      assert (Hforb : forall new' s3, made (new' ++ new ++ l) s s3 ->
        (forall e, In e new' -> en_api e = AEncode \/ (exists as_, e = mkE AMember as_ (Num 0)) \/
           exists as_, e = mkE AHas as_ (Num 1)) ->
        wp (forbidden oracle args object name) s3 (fun i s' =>
          fault s' = false ->
          exists calls, made calls s s' /\
          (0 <= i <-> by_table (f1 s self) object name calls \/
                      by_default is_str char0 char1 is_iter (f1 s self) object name calls) /\
          (failed calls -> i < 0))).
      { intros new' s3 H3 Hn'. apply (q_forbidden _ _ s _ _ _ H3). intros fs s4 H4 Hfs _.
        eexists. split; [exact H4|]. split; [|lia]. split; [lia|]. intros [Hb|Hb]; exfalso.
        - revert Hb. rewrite !app_assoc. apply (Hbt ((fs ++ new') ++ new)).
          intros e He Ha. apply in_app_or in He. destruct He as [He|He];
            [apply in_app_or in He; destruct He as [He|He]; [destruct (Hfs e He); congruence|]|].
          + destruct (Hn' e He) as [Hx|[[as_ ->]|[as_ ->]]]; [congruence|discriminate Ha|discriminate Ha].
          + destruct (Hnew e He) as [Hx _]; congruence.
        - inversion Hb; subst;
            match goal with
            | H : In (mkE AMember _ _) _ |- _ => rename H into Hi
            | H : In (mkE AHas _ _) _ |- _ => rename H into Hi
            end;
            (apply in_app_or in Hi; destruct Hi as [Hi|Hi]; [destruct (Hfs _ Hi) as [D|D]; discriminate D|]);
            (apply in_app_or in Hi; destruct Hi as [Hi|Hi];
              [destruct (Hn' _ Hi) as [Hx|[[as_ Hx]|[as_ Hx]]]; try discriminate Hx; injection Hx; intros; subst; congruence|]);
            (apply in_app_or in Hi; destruct Hi as [Hi|Hi];
              [destruct (Hnew _ Hi) as [Hx _]; discriminate Hx|destruct (Hlf _ Hi) as (_ & Hx & _); discriminate Hx]). }
      destruct op.
      2:{ apply (Hforb [] s2 H2). intros e []. }
      destruct (Hop eq_refl) as (Hs1 & Hs2 & Hs3).
      assert (Hnf : forall e, In e (new ++ l) -> en_out e <> Failed).
      { intros e He. apply in_app_or in He. destruct He as [He|He]; [apply (Hnew e He)|apply (Hlf e He)]. }
      assert (Habs' : forall x, f1 s self = None \/ In (mkE AItem [f1 s self; Some name] Nothing) (x ++ new ++ l)).
      { intros x. destruct Habs as [Ha|Ha]; [left; exact Ha|right].
        apply in_or_app. right. apply in_or_app. right. exact Ha. }
      apply wp_bind, (q_int _ _ s _ _ _ H2).
      + intros s3 H3. simpl. apply wp_ret. intros _. eexists. split; [exact H3|]. split; [|lia].
        split; [lia|]. intros [Hb|Hb]; exfalso.
        * revert Hb. apply (Hbt (_ :: new)).
          intros e [<-|He] Ha; [discriminate Ha|]. destruct (Hnew e He) as [Hx _]; congruence.
        * inversion Hb; subst;
            match goal with
            | H : In (mkE AMember _ _) _ |- _ => rename H into Hi
            | H : In (mkE AHas _ _) _ |- _ => rename H into Hi
            end;
            (destruct Hi as [D|Hi]; [discriminate D|]);
            (apply in_app_or in Hi; destruct Hi as [Hi|Hi];
              [destruct (Hnew _ Hi) as [Hx _]; discriminate Hx|destruct (Hlf _ Hi) as (_ & Hx & _); discriminate Hx]).
      + intros n s3 H3. destruct (Z.ltb_spec (Z.of_nat n) 0) as [Hz|_]; [lia|].
        destruct (Z.eqb_spec (Z.of_nat n) 0) as [Hz|Hz]; cbn [negb].
        2:{ apply wp_ret. intros _. eexists. split; [exact H3|]. split.
            - split; [|lia]. intros _. right. apply (bd_member _ _ _ _ _ _ _ _ n); auto.
              + apply (Habs' [_]).
              + left; reflexivity.
              + lia.
            - intros (e & [<-|He] & D); [discriminate D|]. exfalso. exact (Hnf e He D). }
        assert (n = O) by lia. subst n.
        apply wp_bind. unfold MAKE_STRING at 1. apply (q_new _ _ s _ _ _ H3). intros r s4 H4.
        destruct r as [b|].
        2:{ apply (wp_null args); [stk|intros a s5 Hf5 Hf6; congruence]. }
        apply wp_bind, (q_silent _ s _ _ _ (silent_use _) H4). clear s4 H4. intros _ s4 H4.
        apply wp_bind. destruct (is_iter name) eqn:Ei.
        2:{ apply wp_ret. apply (Hforb [mkE AEncode [Some name] (Gave b);
                mkE AMember [Some available_by_default; Some name] (Num 0)] s4 H4).
            intros e [<-|[<-|[]]]; [left; reflexivity|right; left; eexists; reflexivity]. }
        apply wp_bind, (q_flag _ _ s _ _ _ H4). intros h s5 H5. apply wp_ret. destruct h; cbn [negb].
        * apply (Hforb [mkE AHas [Some object; Some name] (Num 1); mkE AEncode [Some name] (Gave b);
                mkE AMember [Some available_by_default; Some name] (Num 0)] s5 H5).
          intros e [<-|[<-|[<-|[]]]]; [right; right; eexists; reflexivity|left; reflexivity|right; left; eexists; reflexivity].
        * apply wp_ret. intros _. eexists. split; [exact H5|]. split.
          -- split; [|lia]. intros _. right. apply bd_iter; auto.
             ++ apply (Habs' [_; _; _]).
             ++ left; reflexivity.
          -- intros (e & [<-|[<-|[<-|He]]] & D); try discriminate D. exfalso. exact (Hnf e He D). }
    destruct (f1 s self) as [t|] eqn:Et.
    - apply (q_item _ _ s _ _ _ H1). intros r s2 H2. destruct r as [p|].
      + destruct (Nat.eqb_spec p CheckerPublic) as [->|Hp].
        * apply wp_ret. intros _. eexists. split; [exact H2|]. split.
          -- split; [|lia]. intros _. left. apply (bt_public _ _ _ _ t); [reflexivity|left; reflexivity].
          -- intros (e & [<-|[]] & D). discriminate D.
        * apply wp_bind, (q_checkPermission _ _ _ s _ _ _ H2).
          -- intros it a n s3 Hn H3. simpl. apply wp_ret. intros _. eexists. split; [exact H3|]. split.
             ++ split; [|lia]. intros _. left.
                apply (bt_asked _ _ _ _ t p it a n); simpl; auto 6.
             ++ intros (e & [<-|[<-|[<-|[<-|[]]]]] & D); discriminate D.
          -- intros new s3 H3 N1 N2 N3 N4. simpl. apply wp_ret. intros _. eexists. split; [exact H3|].
             split; [|lia]. split; [lia|].
             intros [Hb|Hb]; exfalso; inversion Hb; subst;
               repeat match goal with
                      | H : In _ (_ ++ _) |- _ => apply in_app_or in H; destruct H as [H|[H|[]]]
                      end;
               try match goal with
                   | H : Some _ = Some _ |- _ => injection H as <-
                   end;
               try match goal with
                   | H : In (mkE AItem _ _) _ |- _ => exact (N1 _ H eq_refl)
                   | H : In (mkE AMember _ _) _ |- _ => exact (N2 _ H eq_refl)
                   | H : In (mkE AHas _ _) _ |- _ => exact (N3 _ H eq_refl)
                   | H : In (mkE ATruth _ _) _ |- _ => apply N4 in H; contradiction
                   | H : mkE AItem _ _ = mkE AItem _ (Gave CheckerPublic) |- _ => injection H; intros; congruence
                   | H : mkE AItem _ _ = mkE ATruth _ _ |- _ => discriminate H
                   | H : mkE AItem _ _ = mkE AMember _ _ |- _ => discriminate H
                   | H : mkE AItem _ _ = mkE AHas _ _ |- _ => discriminate H
                   end.
      + apply (Hno _ _ H2). right. exists t. auto.
    - apply wp_ret. apply (Hno _ _ H1). left. auto.
  Qed.

  Lemma check_lemma self object name s r s' :
    Checker_check oracle args is_str char0 char1 is_iter self (Some (object, name)) s = Some (r, s') ->
    fault s' = false ->
    exists calls, log s' = calls ++ log s /\
      (r <> None <-> by_table (f1 s self) object name calls \/
                  by_default is_str char0 char1 is_iter (f1 s self) object name calls) /\
      (failed calls -> r = None).
  Proof.
    unfold Checker_check, bind. intros E Hf.
    destruct (Checker_check_int oracle args is_str char0 char1 is_iter self object name s) as [[i s1]|] eqn:E1;
      [|discriminate E].
    assert (Hm : made [] s1 s' /\ (fault s1 = true -> fault s' = true) /\ (r <> None <-> 0 <= i)).
    { destruct (Z.ltb_spec i 0) as [Hi|Hi].
      - injection E as <- <-. split; [apply made_refl|]. split; [auto|]. split; [congruence|lia].
      - assert (Hsil : silent (none args)).
        { apply silent_bind; [apply silent_incref|intros _; apply silent_ret]. }
        split; [exact (Hsil _ _ _ E)|].
        unfold none, bind in E. destruct (incref args (Some Py_None) s1) as [[u s2]|] eqn:E2; [|discriminate E].
        injection E as <- <-. split; [|split; [lia|discriminate]].
        intros Hf1. unfold incref, bind in E2. unfold use, alive in E2. simpl in E2.
        injection E2 as _ <-. exact Hf1. }
    destruct Hm as (Hm & Hff & Hr).
    assert (Hf1 : fault s1 = false) by (destruct (fault s1); [rewrite Hff in Hf; auto|reflexivity]).
    destruct (check_table_lemma _ _ _ _ _ _ E1 Hf1) as (calls & Hl & Hi & Hc).
    exists calls. split; [rewrite (md_log _ _ _ Hm); exact Hl|].
    split; [rewrite Hr; exact Hi|]. intros Hfl. specialize (Hc Hfl).
    destruct r as [x|]; [|reflexivity]. assert (0 <= i) by (apply Hr; discriminate). lia.
  Qed.

  Lemma check_setattr_lemma self object name s r s' :
    Checker_check_setattr oracle args self (Some (object, name)) s = Some (r, s') ->
    exists calls, log s' = calls ++ log s /\
      (r <> None <-> by_table (f2 s self) object name calls) /\ (failed calls -> r = None).
  Proof.
    intros E.
    cut (wp (Checker_check_setattr oracle args self (Some (object, name))) s (fun r s' =>
      exists calls, made calls s s' /\
      (r <> None <-> by_table (f2 s self) object name calls) /\ (failed calls -> r = None))).
    { unfold wp. rewrite E. intros (l & H1 & H2). exists l.
      split; [apply (md_log _ _ _ H1)|auto]. }
    clear E r s'. pose proof (made_refl s) as H0. unfold Checker_check_setattr.
    assert (Hsil : silent (none args)).
    { apply silent_bind; [apply silent_incref|intros _; apply silent_ret]. }
    assert (Hnone : forall s1 (Q : ptr -> cst -> Prop) l, made l s s1 ->
              (forall s2, made l s s2 -> Q (Some Py_None) s2) -> wp (none args) s1 Q).
    { intros s1 Q l H1 HQ. unfold none. apply wp_bind, (q_silent _ s _ _ _ (silent_incref _) H1).
      intros _ s2 H2. apply wp_ret, HQ, H2. }
    assert (Hyes : forall P, (Some Py_None <> None <-> P) <-> P).
    { intros P. split; [intros H; apply H; discriminate|intros H; split; [auto|discriminate]]. }
    assert (Hno : forall P : Prop, ~ P -> ((None : ptr) <> None <-> P)).
    { intros P H. split; [congruence|contradiction]. }
    apply wp_bind, (q_get2 _ s _ _ _ H0). intros s1 H1. apply wp_bind.
    destruct (f2 s self) as [t|] eqn:Et.
    - apply (q_item _ _ s _ _ _ H1). intros r s2 H2. destruct r as [p|].
      + destruct (Nat.eqb_spec p CheckerPublic) as [->|Hp].
        * apply (Hnone _ _ _ H2). intros s3 H3. eexists. split; [exact H3|]. split.
          -- apply Hyes. apply (bt_public _ _ _ _ t); [reflexivity|left; reflexivity].
          -- intros (e & [<-|[]] & D). discriminate D.
        * apply wp_bind, (q_checkPermission _ _ _ s _ _ _ H2).
          -- intros it a n s3 Hn H3. simpl. apply (Hnone _ _ _ H3). intros s4 H4.
             eexists. split; [exact H4|]. split.
             ++ apply Hyes. apply (bt_asked _ _ _ _ t p it a n); simpl; auto 6.
             ++ intros (e & [<-|[<-|[<-|[<-|[]]]]] & D); discriminate D.
          -- intros new s3 H3 N1 N2 N3 N4. simpl. apply wp_ret. eexists. split; [exact H3|].
             split; [|reflexivity]. apply Hno.
             intros Hb; inversion Hb; subst;
               repeat match goal with
                      | H : In _ (_ ++ _) |- _ => apply in_app_or in H; destruct H as [H|[H|[]]]
                      end;
               try match goal with
                   | H : In (mkE AItem _ _) _ |- _ => exact (N1 _ H eq_refl)
                   | H : In (mkE ATruth _ _) _ |- _ => apply N4 in H; contradiction
                   | H : mkE AItem _ _ = mkE AItem _ (Gave CheckerPublic) |- _ => injection H; intros; congruence
                   | H : mkE AItem _ _ = mkE ATruth _ _ |- _ => discriminate H
                   end.
      + apply wp_bind, (q_forbidden _ _ s _ _ _ H2). intros fs s3 H3 Hfs. apply wp_ret.
        eexists. split; [exact H3|]. split; [|reflexivity]. apply Hno.
        intros Hb; inversion Hb; subst;
          match goal with H : In (mkE AItem _ _) _ |- _ => apply in_app_or in H; destruct H as [D|[D|[]]];
            [destruct (Hfs _ D) as [D'|D']; discriminate D'|discriminate D] end.
    - apply wp_ret. apply wp_bind, (q_forbidden _ _ s _ _ _ H1). intros fs s3 H3 _. apply wp_ret.
      eexists. split; [exact H3|]. split; [|reflexivity]. apply Hno.
      intros Hb; inversion Hb; subst; discriminate.
  Qed.

  (** ** Which values are left alone *)
  Definition select_post (object : obj) (s0 : cst) (r : ptr) (s' : cst) : Prop :=
    exists l, made l s0 s' /\
      (r = None \/ (exists c, r = Some c /\ is_checker c = true) \/ r = Some Py_None /\ left_alone object l).

  Lemma q_none s0 l s (Q : ptr -> cst -> Prop) :
    made l s0 s -> (forall s2, made l s0 s2 -> Q (Some Py_None) s2) -> wp (none args) s Q.
  Proof.
    intros H1 HQ. unfold none. apply wp_bind, (q_silent _ s0 _ _ _ (silent_incref _) H1).
    intros _ s2 H2. apply wp_ret, HQ, H2.
  Qed.

  Lemma q_loop object s0 fuel : forall checker l s,
    made l s0 s -> checker <> None ->
    wp (select_loop oracle args is_checker fuel checker object) s (select_post object s0).
  Proof.
    induction fuel as [|fuel IH]; intros checker l s Hs Hc; [exact I|].
    cbn [select_loop]. apply wp_bind, (q_deref _ s0 _ _ _ Hs). intros c s1 Ec H1.
    destruct checker as [c'|]; [|contradiction]. specialize (Ec c' eq_refl). subst c'.
    destruct (is_checker c) eqn:Ei.
    - apply wp_ret. exists l. split; [exact H1|]. right. left. eauto.
    - apply wp_bind, (q_new _ _ s0 _ _ _ H1). intros r s2 H2.
      apply wp_bind, (q_silent _ s0 _ _ _ (silent_decref _) H2). clear s2 H2. intros _ s2 H2.
      destruct r as [n|].
      + destruct (Nat.eqb n NoProxy || Nat.eqb n Py_None) eqn:En.
        * apply wp_bind, (q_silent _ s0 _ _ _ (silent_decref _) H2). intros _ s3 H3.
          apply (q_none _ _ _ _ H3). intros s4 H4. eexists. split; [exact H4|]. right. right.
          split; [reflexivity|]. apply (la_factory _ _ c n); [left; reflexivity|].
          apply orb_true_iff in En. destruct En as [En|En]; apply Nat.eqb_eq in En; auto.
        * apply (IH _ _ _ H2). discriminate.
      + apply wp_ret. eexists. split; [exact H2|]. left. reflexivity.
  Qed.

  Lemma q_select fuel object s0 l s :
    made l s0 s -> wp (selectChecker oracle args is_checker fuel object) s (select_post object s0).
  Proof.
    intros Hs. unfold selectChecker. apply wp_bind, (q_item _ _ s0 _ _ _ Hs). intros r s1 H1. cbv zeta.
    match goal with |- wp (if ptr_eqb ?c _ then _ else _) _ _ => set (checker := c) end.
    assert (Hc : checker <> None) by (unfold checker; destruct r; discriminate).
    destruct (ptr_eqb checker (Some NoProxy)) eqn:En.
    - apply (q_none _ _ _ _ H1). intros s2 H2. eexists. split; [exact H2|]. right. right.
      split; [reflexivity|]. apply la_registered. left.
      unfold checker in En. destruct r as [c|]; [|discriminate En].
      apply Nat.eqb_eq in En. subst c. reflexivity.
    - apply wp_bind. destruct (ptr_eqb checker (Some defaultChecker)).
      + apply wp_bind, (q_int _ _ s0 _ _ _ H1).
        * intros s2 H2. apply wp_ret. simpl. apply (q_none _ _ _ _ H2). intros s3 H3.
          eexists. split; [exact H3|]. right. right. split; [reflexivity|].
          apply (la_exception _ _ Failed); [left; reflexivity|discriminate].
        * intros n s2 H2. apply wp_ret. destruct (Z.eqb_spec (Z.of_nat n) 0) as [Hz|Hz]; cbn [negb].
          -- apply wp_bind, (q_silent _ s0 _ _ _ (silent_incref _) H2). intros _ s3 H3.
             apply (q_loop _ _ _ _ _ _ H3 Hc).
          -- apply (q_none _ _ _ _ H2). intros s3 H3.
             eexists. split; [exact H3|]. right. right. split; [reflexivity|].
             apply (la_exception _ _ (Num n)); [left; reflexivity|]. intros D. injection D as ->. apply Hz. reflexivity.
      + apply wp_ret. apply wp_bind, (q_silent _ s0 _ _ _ (silent_incref _) H1). intros _ s3 H3.
        apply (q_loop _ _ _ _ _ _ H3 Hc).
  Qed.

  Lemma proxy_lemma fuel value s x s' :
    is_checker Py_None = false ->
    Checker_proxy oracle args is_checker exact_proxy fuel value s = Some (Some x, s') ->
    exists calls, log s' = calls ++ log s /\
      (x = value /\ (exact_proxy value = true \/ left_alone value calls) \/
       exists c, In (mkE AProxy [Some Proxy; Some value; Some c] (Gave x)) calls /\
         (is_checker c = true \/
          c <> Py_None /\ In (mkE AOwn [Some value; Some str_Security_checker] (Gave c)) calls)).
  Proof.
    intros Hcn E.
    cut (wp (Checker_proxy oracle args is_checker exact_proxy fuel value) s (fun r s' =>
      forall x, r = Some x -> exists calls, made calls s s' /\
      (x = value /\ (exact_proxy value = true \/ left_alone value calls) \/
       exists c, In (mkE AProxy [Some Proxy; Some value; Some c] (Gave x)) calls /\
         (is_checker c = true \/
          c <> Py_None /\ In (mkE AOwn [Some value; Some str_Security_checker] (Gave c)) calls)))).
    { unfold wp. rewrite E. intros H. destruct (H x eq_refl) as (l & H1 & H2). exists l.
      split; [apply (md_log _ _ _ H1)|exact H2]. }
    clear E x s'. pose proof (made_refl s) as H0. unfold Checker_proxy.
    destruct (exact_proxy value) eqn:Ex.
    { apply wp_bind, (q_silent _ s _ _ _ (silent_incref _) H0). intros _ s1 H1. apply wp_ret.
      intros x E. injection E as <-. exists []. split; [exact H1|]. left. auto. }
    apply wp_bind, (q_new _ _ s _ _ _ H0). intros own_ s1 H1. destruct own_ as [c|].
    - destruct (Nat.eqb_spec c Py_None) as [->|Hc].
      + apply wp_bind, (q_new _ _ s _ _ _ H1). intros ev s2 H2. destruct ev as [ev|].
        * apply wp_bind, (q_setobject _ _ s _ _ _ H2). intros s3 H3.
          apply wp_bind, (q_silent _ s _ _ _ (silent_decref _) H3). intros _ s4 H4. apply wp_ret.
          intros x D; discriminate D.
        * apply wp_ret. intros x D; discriminate D.
      + apply wp_bind, (q_new _ _ s _ _ _ H1). intros r s2 H2.
        apply wp_bind, (q_silent _ s _ _ _ (silent_decref _) H2). intros _ s3 H3. apply wp_ret.
        intros x ->. eexists. split; [exact H3|]. right. exists c. split; [left; reflexivity|].
        right. split; [exact Hc|]. right. left. reflexivity.
    - apply wp_bind, (q_silent _ s _ _ _ silent_clear H1). clear s1 H1. intros _ s1 H1.
      apply wp_bind. eapply wp_mono; [apply (q_select _ _ _ _ _ H1)|]. cbn beta.
      intros r s2 (l & H2 & Hr). destruct r as [c|]; [|apply wp_ret; intros x D; discriminate D].
      destruct (Nat.eqb_spec c Py_None) as [->|Hc].
      + destruct Hr as [D|[(c & Ec & Hck)|[_ Hla]]]; [discriminate D|injection Ec as <-; congruence|].
        apply wp_bind, (q_silent _ s _ _ _ (silent_decref _) H2). intros _ s3 H3.
        apply wp_bind, (q_silent _ s _ _ _ (silent_incref _) H3). intros _ s4 H4. apply wp_ret.
        intros x E. injection E as <-. exists l. split; [exact H4|]. left. auto.
      + destruct Hr as [D|[(c' & Ec & Hck)|[Ec _]]]; [discriminate D| |congruence].
        injection Ec as <-.
        apply wp_bind, (q_new _ _ s _ _ _ H2). intros r s3 H3.
        apply wp_bind, (q_silent _ s _ _ _ (silent_decref _) H3). intros _ s4 H4. apply wp_ret.
        intros x ->. eexists. split; [exact H4|]. right. exists c. split; [left; reflexivity|auto].
  Qed.
End Logic.
