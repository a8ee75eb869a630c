(** * CExtGcWitness: concrete collections. *)

From Coq Require Import List Bool Arith ZArith Lia Relations.
From Verif Require Import CExt CExtSpec CExtFacts CExtSound CExtWitness CExtGc CExtGcSpec CExtGcFacts.
Import ListNotations.
Open Scope Z_scope.

(** Proxy 30 of object 33 with the checker 34, whose tables are 35 and 36; object 33 holds
    the proxy. *)
Definition cycle_state : cst :=
  mkC (fun _ => 0) false [] false 0
      (fun x => if Nat.eqb x 30 then Some 33%nat else if Nat.eqb x 34 then Some 35%nat else None)
      (fun x => if Nat.eqb x 30 then Some 34%nat else if Nat.eqb x 34 then Some 36%nat else None) [].
Definition cycle_others (x : obj) : list obj := if Nat.eqb x 33 then [30%nat] else [].
Definition cycle_all : list obj := [30; 33; 34; 35; 36]%nat.
Definition cycle_counts (roots : obj -> Z) (o : obj) : Z :=
  roots o + total (fun x => holds (Nat.eqb 30) (Nat.eqb 34) cycle_others cycle_state x o) cycle_all.
Definition is_held (o : obj) : Z := if Nat.eqb o 30 then 1 else 0.

Lemma cycle_counted roots :
  (forall o, 0 <= roots o) ->
  counted (Nat.eqb 30) (Nat.eqb 34) cycle_others cycle_state roots (cycle_counts roots) cycle_all.
Proof.
  intros N. split; [|split; [exact N|reflexivity]].
  unfold cycle_all. repeat constructor; cbn; intros H;
    repeat (destruct H as [H|H]; [discriminate H|]); contradiction.
Qed.

Lemma cycle_example :
  counted (Nat.eqb 30) (Nat.eqb 34) cycle_others cycle_state (fun _ => 0) (cycle_counts (fun _ => 0)) cycle_all /\
  map (cycle_counts (fun _ => 0)) cycle_all = [1; 1; 1; 1; 1] /\
  (forall o, ~ survives (fun _ => ans None true 0) (Nat.eqb 30) (Nat.eqb 34) cycle_others cycle_state
                (cycle_counts (fun _ => 0)) cycle_all o) /\
  (forall o, In o cycle_all ->
     survives (fun _ => ans None true 0) (Nat.eqb 30) (Nat.eqb 34) cycle_others cycle_state
       (cycle_counts is_held) cycle_all o).
Proof.
  assert (N0 : forall o : obj, 0 <= (fun _ => 0) o) by (intros o; lia).
  assert (N1 : forall o, 0 <= is_held o) by (intros o; unfold is_held; destruct (Nat.eqb o 30); lia).
  assert (ND : NoDup cycle_all) by (apply (cycle_counted (fun _ => 0) N0)).
  split; [exact (cycle_counted _ N0)|]. split; [reflexivity|]. split.
  - intros o SV.
    apply (collector_lemma _ _ _ _ _ _ _ _ _ o (cycle_counted _ N0) ND (incl_refl _)) in SV.
    induction SV as [a Ia Pa | x a Ia X1 X2 HX | x a IUx IHx Ia HX]; [lia|contradiction|exact IHx].
  - intros o I.
    apply (collector_lemma _ _ _ _ _ _ _ _ _ o (cycle_counted _ N1) ND (incl_refl _)).
    assert (U30 : in_use (Nat.eqb 30) (Nat.eqb 34) cycle_others cycle_state is_held cycle_all cycle_all 30%nat).
    { apply iu_root; [now left|reflexivity]. }
    assert (St : forall x y, in_use (Nat.eqb 30) (Nat.eqb 34) cycle_others cycle_state is_held cycle_all cycle_all x ->
              In y cycle_all -> 0 < holds (Nat.eqb 30) (Nat.eqb 34) cycle_others cycle_state x y ->
              in_use (Nat.eqb 30) (Nat.eqb 34) cycle_others cycle_state is_held cycle_all cycle_all y).
    { intros x y U Iy P. exact (iu_held _ _ _ _ _ _ _ x y U Iy P). }
    assert (U34 : in_use (Nat.eqb 30) (Nat.eqb 34) cycle_others cycle_state is_held cycle_all cycle_all 34%nat).
    { apply (St 30%nat); [exact U30|cbn; auto|reflexivity]. }
    cbn in I. destruct I as [<-|[<-|[<-|[<-|[<-|[]]]]]].
    + exact U30.
    + apply (St 30%nat); [exact U30|cbn; auto|reflexivity].
    + exact U34.
    + apply (St 34%nat); [exact U34|cbn; auto 6|reflexivity].
    + apply (St 34%nat); [exact U34|cbn; auto 6|reflexivity].
Qed.

(** What is left in the structs when the cycle is cleared: everything in the proxy, nothing
    in the checker. *)
Definition cleared_fields : option (ptr * ptr * ptr * ptr) :=
  match delete_garbage (fun _ => ans None true 0) (Nat.eqb 30) (Nat.eqb 34) cycle_all cycle_state with
  | Some (_, s) => Some (f1 s 30%nat, f2 s 30%nat, f1 s 34%nat, f2 s 34%nat)
  | None => None
  end.

(** A life: proxy 30 of 40, then proxy 31 of proxy 30; both with the checker 41. *)
Definition is3x (x : obj) : bool := Nat.eqb x 30 || Nat.eqb x 31.
Definition state_with (g1 g2 : obj -> ptr) : cst := mkC (fun _ => 0) false [] false 0 g1 g2 [].
Definition no_fields : obj -> ptr := fun _ => None.

Lemma state_with_entered g1 g2 : entered (state_with g1 g2).
Proof. split; [reflexivity|]. split; [reflexivity|]. intros o. cbn. lia. Qed.

Definition made (args : list obj) (object checker fresh : obj) (s : cst) : ptr * cst :=
  match proxy_new (fun _ => ans None false 0) args (Some (object, checker)) (Some fresh) s with
  | Some (r, s') => (r, state_with (f1 s') (f2 s'))
  | None => (None, s)
  end.
Definition life1 := snd (made [40; 41]%nat 40%nat 41%nat 30%nat (state_with no_fields no_fields)).
Definition life2 := snd (made [30; 41]%nat 30%nat 41%nat 31%nat life1).

Lemma incref_total args o s : exists s', incref args (Some o) s = Some (tt, s').
Proof. unfold incref, use, bind. destruct (alive args s o); eexists; reflexivity. Qed.

Lemma made_life ps args object checker fresh g1 g2 :
  In object args -> In checker args -> is3x fresh = true -> ~ In fresh args -> ~ In fresh ps ->
  (forall x, In x ps -> ~ points (state_with g1 g2) x fresh) -> g1 fresh = None -> g2 fresh = None ->
  checker <> Py_None ->
  life is3x (fun _ => false) [] (state_with no_fields no_fields) ps (state_with g1 g2) ->
  life is3x (fun _ => false) [] (state_with no_fields no_fields) (fresh :: ps)
    (snd (made args object checker fresh (state_with g1 g2))).
Proof.
  intros IO IC Pf Fa Fp Fr F1 F2 Nn L.
  destruct (proxy_new (fun _ => ans None false 0) args (Some (object, checker)) (Some fresh)
              (state_with g1 g2)) as [[r s']|] eqn:Q.
  - unfold made. rewrite Q. cbn [snd].
    destruct (new_lemma _ _ _ _ _ _ _ _ (state_with_entered g1 g2) IO IC Nn F1 F2 Q) as (-> & _).
    apply (life_next _ _ _ _ (fresh :: ps) s').
    + apply (life_next _ _ _ _ _ _ _ _ L).
      exact (ls_new is3x (fun _ => false) _ args object checker fresh ps _ (Some fresh) s'
               (state_with_entered g1 g2) IO IC Pf Fa Fp Fr F1 F2 Q).
    + apply ls_other. intros x _. split; reflexivity.
  - exfalso. apply Nat.eqb_neq in Nn. unfold proxy_new in Q. rewrite Nn in Q.
    unfold bind at 1 in Q. cbn [call uses] in Q. unfold bind at 1 2, ret at 1 in Q. cbn in Q.
    unfold bind at 1 in Q.
    match type of Q with context [incref args (Some object) ?s0] =>
      destruct (incref_total args object s0) as [s1 E1]; unfold bind at 1 in Q; rewrite E1 in Q end.
    match type of Q with context [incref args (Some checker) ?s0] =>
      destruct (incref_total args checker s0) as [s2 E2]; unfold bind at 1 in Q; rewrite E2 in Q end.
    discriminate Q.
Qed.

Lemma life_example :
  life is3x (fun _ => false) [] (state_with no_fields no_fields) [31; 30]%nat life2 /\
  leads [31; 30]%nat life2 31%nat 30%nat.
Proof.
  split.
  - apply made_life; cbn; auto.
    + intros [H|[H|[]]]; discriminate H.
    + intros [H|[]]; discriminate H.
    + intros x [<-|[]] [H|H]; vm_compute in H; discriminate H.
    + change (life is3x (fun _ => false) [] (state_with no_fields no_fields) [30%nat]
                (snd (made [40; 41]%nat 40%nat 41%nat 30%nat (state_with no_fields no_fields)))).
      apply made_life; cbn; auto.
      * intros [H|[H|[]]]; discriminate H.
      * constructor.
  - apply t_step. split; [now left|]. split; [right; now left|]. left. vm_compute. reflexivity.
Qed.

(** A checker without tables: a name of which the table said nothing but which is available
    by default (call 1 finds it), and one that is not. *)
Definition emptied_outcome (member : nat) : option (bool * bool) :=
  match Checker_check (fun k => ans (Some (40 + k)%nat) false member) [30; 31; 32]%nat (fun _ => true)
          (fun _ => true) (fun _ => true) (fun _ => false) 30%nat (Some (31%nat, 32%nat))
          (state_with no_fields no_fields) with
  | Some (r, s') => Some (match r with Some _ => true | None => false end, fault s')
  | None => None
  end.
