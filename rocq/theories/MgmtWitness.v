(** * Concrete runs of the management functions, for the examples. *)

From Coq Require Import List String Bool Arith ZArith Lia.
From Verif Require Import Base Domain CheckerModel Management Spec Witness MgmtSpec Threads
  ThreadSpec ThreadFacts MgmtFacts PartFacts.
Import ListNotations.

(** The state after a computation. *)
Definition after {A} (x : res A * state * list event) : state := snd (fst x).

Lemma outcome {A} (x : res A * state * list event) r t :
  fst (fst x) = r -> snd x = t -> x = (r, after x, t).
Proof. destruct x as [[r0 s0] t0]. simpl. intros -> ->. reflexivity. Qed.

Lemma outcome_any {A} (x : res A * state * list event) :
  x = (fst (fst x), after x, snd x).
Proof. destruct x as [[r0 s0] t0]. reflexivity. Qed.

Lemma outcome2 {A B} (x : A * B) r : fst x = r -> x = (r, snd x).
Proof. destruct x as [r0 s0]. simpl. intros ->. reflexivity. Qed.

(** The interleaving in which the threads take their steps in the given order. *)
Fixpoint schedule {A} (E : env) (ts : list id) (c : id -> prog A) (s : state)
  : list (id * label) * (id -> prog A) * state :=
  match ts with
  | [] => ([], c, s)
  | t :: ts' =>
      match step E t (c t) s with
      | Some (p, s1, ls) =>
          let '(tr, c', s') := schedule E ts' (upd c t p) s1 in
          ((map (fun x => (t, x)) ls ++ tr)%list, c', s')
      | None => ([], c, s)
      end
  end.

Lemma schedule_interleaves {A} E ts : forall (c : id -> prog A) s,
  Interleave E c s (fst (fst (schedule E ts c s))) (snd (fst (schedule E ts c s)))
    (snd (schedule E ts c s)).
Proof.
  induction ts as [|t ts IH]; intros c s; simpl.
  - apply Int_done.
  - destruct (step E t (c t) s) as [[[p s1] ls]|] eqn:Hs; [|apply Int_done].
    specialize (IH (upd c t p) s1).
    destruct (schedule E ts (upd c t p) s1) as [[tr c'] s']. simpl in *.
    eapply Int_step; eauto.
Qed.

Lemma schedule_together {A} E ts : forall (c : id -> prog A) s,
  Together E c s (snd (fst (schedule E ts c s))) (snd (schedule E ts c s)).
Proof.
  induction ts as [|t ts IH]; intros c s; simpl.
  - apply To_done.
  - destruct (step E t (c t) s) as [[[p s1] ls]|] eqn:Hs; [|apply To_done].
    specialize (IH (upd c t p) s1).
    destruct (schedule E ts (upd c t p) s1) as [[tr c'] s']. simpl in *.
    eapply To_step; eauto.
Qed.

Lemma w_state_books : books_ok w_state.
Proof.
  split; [intros i x q H; discriminate|]. split; [intros i x H; discriminate|].
  split; [intros q v H; discriminate|]. intros i _. reflexivity.
Qed.
