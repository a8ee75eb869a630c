(** * WatchWitness: processes with and without ZOPE_WATCH_CHECKERS, for the examples of C85. *)

From Coq Require Import List String Bool Arith ZArith Lia.
From Verif Require Import Base Domain CheckerModel ProxyModel EndsSpec BuildSpec WatchSpec Witness.
Import ListNotations.
Open Scope string_scope.

(** Application code that changes nothing: attributes are objects; the policy grants what is
    asked about object 5; the repr of an object is [rp]. *)
Definition calm_answer (rp : res value) (c : call) : res value :=
  match c with
  | CallOp (ORepr _) => rp
  | CallOp (OGetattr _ n _) =>
      if String.eqb n "__Security_checker__" then Exc (EAttribute n) else Ok (VObj 8)
  | CallPerm _ _ obj => Ok (VBool (value_eqb obj (VObj 5)))
  | _ => Ok VNone
  end.

Definition calm_run (rp : res value) (t : id) (c : call) (s : state) : res value * state :=
  (calm_answer rp c, s).

Definition calm_env (b : impl) (v : nat) (rp : res value) : env :=
  mkEnv b b v 0 (fun _ => "app.Thing") (fun _ => "type") (fun _ => false)
        (fun _ => "0x1") (calm_run rp).

(** Checkers 10 (foo public, bar and __repr__ for zope.View) and 12 (nothing, else those of
    checker 10). *)
Definition calm_dicts (i : id) : list (name * perm) :=
  match i with
  | 20 => [("foo", PPublic); ("bar", p_view); ("__repr__", p_view)]
  | _ => []
  end.

Definition calm_chks (i : id) : option checker :=
  match i with
  | 0 => Some (mkChecker 30 31 CkPlain)
  | 10 => Some (mkChecker 20 21 CkPlain)
  | 12 => Some (mkChecker 22 22 (CkCombined (VChk 10)))
  | _ => None
  end.

(** The same in a process that watches; the default checker of the C implementation is made
    before the class is replaced. *)
Definition watched_chks (b : impl) (v : nat) (i : id) : option checker :=
  match i with
  | 0 => Some (mkChecker 30 31 (match b with ImplPy => CkWatching v | ImplC => CkPlain end))
  | 10 => Some (mkChecker 20 21 (CkWatching v))
  | 12 => Some (mkChecker 22 22 (CkWatchingCombined v (VChk 10)))
  | _ => None
  end.

Definition calm_prox (i : id) : option (value * value) :=
  match i with
  | 40 => Some (VObj 5, VChk 10)
  | 41 => Some (VObj 6, VChk 12)
  | _ => None
  end.

Definition calm_state (chks : id -> option checker) : state :=
  mkState 50 calm_dicts chks calm_prox (fun _ => None)
          [(KType "str", VNoProxy)] [] (fun t => match t with 0 => mkTl (Some (VObj 77)) None | _ => no_tl end)
          PolParanoid (fun _ => None) (fun _ => mkPart SystemUser None) 0.

Definition calm0 : state := calm_state calm_chks.
Definition calm1 (b : impl) (v : nat) : state := calm_state (watched_chks b v).

(** The log lines of a trace. *)
Definition lines (t : list event) : list (string * name * value) :=
  flat_map (fun e => match e with ELog l n v => [(l, n, v)] | _ => [] end) t.

(** A client that gets an attribute, uses what it got, and is refused another. *)
Definition curious : client :=
  Do (OGetattr (VProxy 40) "bar" None) (fun r =>
    match r with
    | Ok v => Do (OGetattr v "x" None) (fun _ =>
                Do (OGetattr (VProxy 41) "bar" None) (fun _ => Done))
    | Exc _ => Done
    end).

Lemma calm_matches b v rp : matches (calm_env b v rp) calm0 (calm1 b v).
Proof.
  split.
  - reflexivity.
  - intros i. unfold calm1, calm0. cbn [calm_state st_chks].
    destruct i as [|i].
    { cbn [calm_chks watched_chks].
      destruct b; [apply Cp_plain|apply Cp_early; left; reflexivity]. }
    do 12 (destruct i as [|i]; [cbn [calm_chks watched_chks];
      (apply Cp_none || apply Cp_plain || apply Cp_combined)|]).
    apply Cp_none.
  - split; simpl.
    + lia.
    + intros p w c H. unfold calm_prox in H.
      do 42 (destruct p as [|p]; [try discriminate H; injection H as <- <-; simpl;
        (split; [lia|]); (split; [exact I|]); (split; [lia|]); intros q X; discriminate X|]).
      discriminate H.
    + discriminate.
    + intros i k H. unfold calm_chks in H.
      do 13 (destruct i as [|i]; [try discriminate H; injection H as <-; simpl;
        (split; [lia|]); (left; reflexivity) ||
        (right; eexists; split; [reflexivity|]; intros j X; injection X as <-; lia)|]).
      discriminate H.
    + intros k v0 H. change (dget rkey_eqb [(KType "str", VNoProxy)] k = Some v0) in H.
      cbn [dget] in H. destruct (rkey_eqb (KType "str") k); [|discriminate H].
      injection H as <-. split; [exact I|]. split; discriminate.
  - intros p w c H q ->. simpl in H. unfold calm_prox in H.
    do 42 (destruct p as [|p]; [discriminate H|]). discriminate H.
  - intros _ k H. cbn [calm0 calm_state st_reg dget] in H.
    destruct (rkey_eqb (KType "str") k); discriminate H.
Qed.

Lemma calm_known rp c s v : rp = Ok (VStr "a thing") \/ (exists e, rp = Exc e) ->
  calm_answer rp c = Ok v -> known s v.
Proof.
  intros HR H. destruct c as [o| | | |]; simpl in H;
    try (injection H as <-; exact I); try discriminate H.
  destruct o; simpl in H; try (injection H as <-; exact I); try discriminate H.
  - destruct (String.eqb n "__Security_checker__"); [discriminate H|]. injection H as <-. exact I.
  - destruct HR as [->|[e ->]]; [injection H as <-; exact I|discriminate H].
Qed.

Lemma calm_indifferent b v rp : rp = Ok (VStr "a thing") \/ (exists k, rp = Exc (EApp k)) ->
  indifferent (calm_env b v rp) (calm_run rp).
Proof.
  intros HR. split.
  - intros c s0 s M. exists (calm_answer rp c), s0, s.
    split; [reflexivity|]. split; [reflexivity|]. split; [exact M|]. split; [apply le_n|]. split.
    + destruct c as [o| | | |]; try discriminate. destruct o; try discriminate; simpl.
      * destruct (String.eqb n "__Security_checker__"); discriminate.
      * destruct HR as [->|[k ->]]; discriminate.
    + intros x H. apply (calm_known rp c s0 x); [|exact H].
      destruct HR as [->|[k ->]]; [left; reflexivity|right; eexists; reflexivity].
  - intros s0 s k f obj x s0' M D R. left. cbn in R. injection R as <- _. reflexivity.
Qed.

Lemma calm_reprs b v : reprs (calm_env b v (Ok (VStr "a thing"))).
Proof. intros s0 s x M H. exists "a thing". reflexivity. Qed.
