(** * ShownWitness: a client with an object of its own. *)

From Coq Require Import List String Bool Arith ZArith Lia.
From Verif Require Import Base Domain ProxyModel Spec RegSpec ProxySpec MediationSpec SessionSpec
  Witness ShownSpec.
Import ListNotations.
Open Scope string_scope.

(** What the client remembers. *)
Definition remember (v : value) (s : state) : state :=
  match v with
  | VObj o => mkState (st_next s) (st_dicts s) (st_chks s) (st_prox s) (st_decos s) (st_reg s)
                (st_basic s) (st_tls s) (st_policy s) (st_inters s) (st_parts s) o
  | _ => s
  end.

(** The client's object is 99: its methods remember their argument.  All other objects
    leave operators to the other operand, as [object] does. *)
Definition w_meth : methods := fun v n args s =>
  match v, args with
  | VObj 99, [x] => (Ok (VBool true), remember x s)
  | _, _ => (Ok VNotImpl, s)
  end.

(** Object 7 is a list that contains object 5: [x in l] compares its items with [x]. *)
Definition w_run (t : id) (c : call) (s : state) : res value * state :=
  match c with
  | CallOp (OCmp c l r) => two_sided w_meth l (cmp_name c) r (cmp_name (mirrored c)) s
  | CallOp (OBin b l r) => two_sided w_meth l (binary_name b) r (reflected_name b) s
  | CallOp (OContains (VObj 7) x) => two_sided w_meth (VObj 5) "__eq__" x "__eq__" s
  | _ => quiet_run t c s
  end.
Definition shown_env (b : impl) : env := wenv_run b w_run.

Lemma shown_env_dispatches b : dispatches (shown_env b) w_meth.
Proof. split; reflexivity. Qed.

(** Proxy 41 is around object 6 with the checker that grants nothing; there is no
    interaction.  Proxies 42 and 43 are around the object 5 and the list 7, with a checker
    that makes [__add__] and [__contains__] public, and nothing else. *)
Definition shown_state : state :=
  mkState 50
          (fun i => match i with 20 => [("__add__", PPublic); ("__contains__", PPublic)]
                               | _ => [] end)
          w_chks
          (fun p => match p with
                    | 41 => Some (VObj 6, VChk 0)
                    | 42 => Some (VObj 5, VChk 10)
                    | 43 => Some (VObj 7, VChk 10)
                    | _ => None end)
          (fun _ => None) [] [] (fun _ => no_tl) PolParanoid (fun _ => None)
          (fun _ => mkPart SystemUser None) 0.

Lemma quiet_keeps t c s : snd (quiet_run t c s) = s.
Proof.
  unfold quiet_run. destruct c as [o| | | |]; try reflexivity. destruct o; try reflexivity.
  repeat match goal with |- snd (match ?x with _ => _ end) = _ => destruct x end; reflexivity.
Qed.

(** The application changes nothing but the client's memory. *)
Definition same_but_memory (s s' : state) : Prop :=
  st_next s' = st_next s /\ st_prox s' = st_prox s.

Lemma w_meth_keeps v n a s : same_but_memory s (snd (w_meth v n a s)).
Proof.
  unfold w_meth.
  repeat match goal with
         | |- same_but_memory _ (snd (match ?x with _ => _ end)) => destruct x
         end; try (split; reflexivity);
  unfold remember; cbn [snd];
  match goal with |- same_but_memory _ (match ?x with _ => _ end) => destruct x end;
  split; reflexivity.
Qed.

Lemma two_sided_keeps l n r rn s : same_but_memory s (snd (two_sided w_meth l n r rn s)).
Proof.
  unfold two_sided. pose proof (w_meth_keeps l n [r] s) as H.
  destruct (w_meth l n [r] s) as [[v | e] s1]; [| exact H]. cbn [snd] in H.
  destruct v; try exact H. destruct (is_proxy r); [exact H |].
  pose proof (w_meth_keeps r rn [l] s1) as H'. destruct (w_meth r rn [l] s1) as [x s2].
  destruct H as [H1 H2], H' as [H3 H4]. split; cbn [snd] in *; congruence.
Qed.

Lemma w_run_keeps t c s : same_but_memory s (snd (w_run t c s)).
Proof.
  assert (Q : same_but_memory s (snd (quiet_run t c s))) by (rewrite quiet_keeps; split; reflexivity).
  unfold w_run. destruct c as [o| | | |]; try exact Q.
  destruct o; try exact Q; try apply two_sided_keeps.
  repeat match goal with
         | |- same_but_memory _ (snd (match ?x with _ => _ end)) => destruct x
         end; try exact Q; apply two_sided_keeps.
Qed.

Lemma shown_env_fine b :
  foreign_keeps_proxies (shown_env b) /\ foreign_heap_ok (shown_env b).
Proof.
  split; intros t c s r s' H; pose proof (w_run_keeps t c s) as K;
    change (e_run (shown_env b) t c s) with (w_run t c s) in H; rewrite H in K;
    destruct K as [K1 K2]; cbn [snd] in *.
  - split; [lia |]. intros p x _ Hp. now rewrite K2.
  - intros HH p x Hp. rewrite K1. apply (HH p x). now rewrite <- K2.
Qed.

Lemma shown_heap : heap_ok shown_state.
Proof.
  intros p x. cbn. do 44 (destruct p as [| p]; [intros; cbn; lia |]). discriminate.
Qed.
