(** * ShownFacts: proofs for C91. *)

From Coq Require Import List String Bool Arith ZArith Lia.
From Verif Require Import Base Domain ProxyModel Spec RegSpec ProxySpec MediationSpec SessionSpec
  CheckerModel MFacts Mediation ShownSpec.
Import ListNotations.
Open Scope string_scope.

Section Arrive.
  Variable E : env.
  Variable s : state.

  Lemma behind_plain q v v' : behind E s q v v' -> is_proxy v = false -> v' = v.
  Proof. intros H. destruct H; [reflexivity | discriminate | discriminate]. Qed.

  Lemma arrives_self o : arrives E s o o.
  Proof.
    destruct o; cbn [arrives];
      try solve [left; reflexivity
                | do 2 eexists; split; [reflexivity | constructor]
                | do 2 eexists; split; [reflexivity | split; constructor]
                | do 2 eexists; split; [left; reflexivity | split; constructor]
                | do 3 eexists; split; [reflexivity | repeat split; constructor]
                | left; eexists; split; [reflexivity | constructor]].
    Unshelve. all: exact None.
  Qed.

  Lemma arrives_left o p n a w fr t o' :
    guard_of (e_impl E) o = Some (p, n, a) ->
    (e_impl E = ImplC \/ match o with OIn _ _ _ => False | _ => True end) ->
    Passed E s p w n a t ->
    arrives E s (on_object o fr w) o' -> arrives E s o o'.
  Proof.
    intros HG HI HP HA.
    destruct o as [v m g|v m x|v m|v xs|u v|u v|b l r|x e m|i l r|v k|v k x|v k|v k|v|v|v
                  |v|v|c l r|v|v|v]; cbn [guard_of] in HG;
      try discriminate HG;
      match type of HG with
      | match ?y with _ => _ end = _ => destruct y; try discriminate HG
      end; cbn [arrives on_object] in *.
    all: try (injection HG as <- <- <-;
              destruct HA as (w0 & fr0 & -> & HB); exists w0, fr0; split; [reflexivity |];
              eapply B_checked; [reflexivity | exact HP | exact HB]).
    - (* getattr *)
      destruct HA as (w0 & fr0 & -> & HB). exists w0, fr0. split; [reflexivity |].
      cbn [question principal_operand] in *.
      destruct (e_impl E).
      + destruct (internal_nameb m); cbn [orb] in HG; [discriminate |].
        destruct (unchecked_read m); [discriminate |]. injection HG as <- <- <-.
        eapply B_checked; [reflexivity | exact HP | exact HB].
      + injection HG as <- <- <-. eapply B_checked; [reflexivity | exact HP | exact HB].
    - (* setattr *)
      destruct HA as (w0 & fr0 & -> & HB). exists w0, fr0. split; [reflexivity |].
      cbn [question principal_operand] in *.
      destruct (e_impl E); [destruct (internal_nameb m); [discriminate |] |];
        injection HG as <- <- <-; (eapply B_checked; [reflexivity | exact HP | exact HB]).
    - (* delattr *)
      destruct HA as (w0 & fr0 & -> & HB). exists w0, fr0. split; [reflexivity |].
      cbn [question principal_operand] in *.
      destruct (e_impl E); [destruct (internal_nameb m); [discriminate |] |];
        injection HG as <- <- <-; (eapply B_checked; [reflexivity | exact HP | exact HB]).
    - (* complex, index *)
      destruct (e_impl E) eqn:HE; [| discriminate]. injection HG as <- <- <-.
      destruct HA as (w0 & fr0 & -> & HB). exists w0, fr0. split; [reflexivity |].
      eapply B_checked; [reflexivity | exact HP | exact HB].
    - (* binary *)
      injection HG as <- <- <-. destruct HA as (l' & r' & -> & HL & HR).
      exists l', r'. split; [reflexivity |]. split; [| exact HR].
      eapply B_checked; [reflexivity | exact HP | exact HL].
    - (* pow *)
      injection HG as <- <- <-. destruct HA as (a' & e' & m' & -> & H1 & H2 & H3).
      exists a', e', m'. split; [reflexivity |]. split; [| split; assumption].
      eapply B_checked; [reflexivity | exact HP | exact H1].
    - (* in place *)
      injection HG as <- <- <-. destruct HI as [HI | []].
      destruct HA as [(l' & -> & HL) | [(l' & r' & -> & HL & HR) | (HY & _)]].
      + left. exists l'. split; [reflexivity |].
        eapply B_checked; [reflexivity | exact HP | exact HL].
      + right. left. exists l', r'. split; [reflexivity |]. split; [| exact HR].
        eapply B_checked; [reflexivity | exact HP | exact HL].
      + congruence.
  Qed.

  Lemma arrives_right o p n onw w t o' :
    guard_right (e_impl E) o = Some (p, n, onw) ->
    Passed E s p w n Read t ->
    arrives E s (onw w) o' -> arrives E s o o'.
  Proof.
    intros HG HP HA. destruct o; cbn [guard_right] in HG; try discriminate.
    - destruct r; try discriminate. destruct (is_proxy l) eqn:Hl; [discriminate |].
      injection HG as <- <- <-. cbn [arrives] in *.
      destruct HA as (l' & r' & -> & HL & HR). exists l', r'. split; [reflexivity |].
      split; [exact HL |]. eapply B_checked; [reflexivity | exact HP | exact HR].
    - destruct (e_impl E); [discriminate |]. destruct (is_proxy a) eqn:Ha; [discriminate |].
      destruct b; destruct m; try discriminate HG;
      injection HG as <- <- <-; cbn [arrives] in *;
      destruct HA as (a' & e' & m' & -> & H1 & H2 & H3);
      exists a', e', m'; (split; [reflexivity |]); (split; [exact H1 |]);
      first [ split; [eapply B_checked; [reflexivity | exact HP | exact H2] | exact H3]
            | split; [exact H2 | eapply B_checked; [reflexivity | exact HP | exact H3]] ].
    - destruct r; try discriminate. destruct (is_proxy l) eqn:Hl; [discriminate |].
      injection HG as <- <- <-. cbn [arrives] in *.
      destruct HA as (l' & r' & -> & HL & HR). right. left. exists l', r'.
      split; [reflexivity |]. rewrite (behind_plain _ _ _ HL Hl).
      split; [constructor |]. eapply B_checked; [reflexivity | exact HP | exact HR].
  Qed.

  Lemma mediated_arrives o tr o' : Mediated E s o tr o' -> arrives E s o o'.
  Proof.
    intros H. induction H as [o tr HD | u v tr HE | o p n a w o2 t0 t1 t2 o' HS HP HM IH
                             | o p w c s0 o2 t0 t2 o' HO HV HW HM IH].
    - apply arrives_self.
    - apply arrives_self.
    - destruct HS as [o p n a w fr HG HI | o p n onw w HG | p w | p w
                     | i p arg w n fr HY HN | i p arg w m HY].
      + eapply arrives_left; eassumption.
      + eapply arrives_right; eassumption.
      + cbn [arrives] in *. destruct IH as (w0 & fr0 & -> & HB). exists w0, fr0. split; [reflexivity |]. eapply B_checked; [reflexivity | exact HP | exact HB].
      + cbn [arrives] in *. destruct IH as (w0 & fr0 & -> & HB). exists w0, fr0. split; [reflexivity |]. eapply B_checked; [reflexivity | exact HP | exact HB].
      + cbn [arrives] in *. destruct IH as (w0 & fr0 & -> & HB). right. right.
        split; [exact HY |]. split; [reflexivity |]. left. do 3 eexists. split; [reflexivity | exact HN].
      + cbn [arrives] in *. destruct IH as (w0 & fr0 & -> & HB). right. right.
        split; [exact HY |]. split; [reflexivity |]. right. eexists. reflexivity.
    - destruct HO as [p w | p w | d p w v | d p w v HX | p w fr | p w h | p n w fr fr' HY HU].
      + cbn [arrives] in *. destruct IH as (w0 & fr0 & -> & HB). exists w0, fr0. split; [reflexivity |]. eapply B_open; [reflexivity | exact HV | exact HW | exact HB].
      + cbn [arrives] in *. destruct IH as (w0 & fr0 & -> & HB). exists w0, fr0. split; [reflexivity |]. eapply B_open; [reflexivity | exact HV | exact HW | exact HB].
      + cbn [arrives] in *. destruct IH as (l' & r' & HQ & HL & HR). exists l', r'.
        split; [exact HQ |]. split; [| exact HR].
        eapply B_open; [reflexivity | exact HV | exact HW | exact HL].
      + cbn [arrives] in *. destruct IH as (l' & r' & HQ & HL & HR). exists r', l'.
        split; [destruct HQ as [-> | ->]; [right | left]; destruct d; reflexivity |].
        split; [exact HR |].
        eapply B_open; [reflexivity | exact HV | exact HW | exact HL].
      + cbn [arrives] in *. destruct IH as (w0 & fr0 & -> & HB). right. left.
        exists w0, fr0. reflexivity.
      + cbn [arrives] in *. destruct IH as (w0 & fr0 & -> & HB). right. right.
        eexists. reflexivity.
      + cbn [arrives question principal_operand] in *. rewrite HY, HU in *.
        destruct IH as (w0 & fr0 & -> & HB). exists w0, fr0. split; [reflexivity |].
        eapply B_open; [reflexivity | exact HV | exact HW | exact HB].
  Qed.
End Arrive.

(** ** Comparisons *)

Lemma compare_shown E meth f k s p w c x s1 b s2 :
  dispatches E meth -> st_prox s p = Some (w, c) -> is_proxy w = false -> is_proxy x = false ->
  meth w (cmp_name k) [x] s = (Ok VNotImpl, s1) ->
  meth x (cmp_name (mirrored k)) [w] s1 = (Ok (VBool b), s2) ->
  perform E (S (S f)) (OCmp k (VProxy p) x) s
  = (Ok (VBool b), s2, [ECall Client (e_tid E) (CallOp (OCmp k w x))]).
Proof.
  intros [HC _] HP Hw Hx H1 H2.
  assert (HF : e_run E (e_tid E) (CallOp (OCmp k w x)) s = (Ok (VBool b), s2)).
  { rewrite HC. unfold two_sided. rewrite H1, Hx. exact H2. }
  assert (HR : i_op (interp_n E (S f)) Client (OCmp k w x) s
               = (Ok (VBool b), s2, [ECall Client (e_tid E) (CallOp (OCmp k w x))])).
  { assert (HQ : i_op (interp_n E (S f)) Client (OCmp k w x) = raw E Client (OCmp k w x)).
    { cbn [interp_n i_op]. unfold run_op.
      destruct w; try discriminate Hw; destruct x; try discriminate Hx; reflexivity. }
    rewrite HQ. unfold raw, foreign, bind. rewrite HF. reflexivity. }
  unfold perform.
  change (i_op (interp_n E (S (S f)))) with (run_op E (interp_n E (S f))).
  revert HR. generalize (interp_n E (S f)). intros I HR.
  unfold run_op.
  destruct (e_impl E); unfold py_compare, c_richcompare, pget, bind, get, ret; rewrite HP;
    cbn [fst snd app]; rewrite HR; reflexivity.
Qed.
