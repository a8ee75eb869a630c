(** * OpaqueWitness: renamed permissions and rewritten tables, for the examples of C89. *)

From Coq Require Import List String Bool Arith ZArith Lia.
From Verif Require Import Base Domain CheckerModel ProxyModel ConcealSpec OpaqueSpec Witness WatchWitness.
Import ListNotations.
Open Scope string_scope.

(** A policy that grants permission [p] on object 5 and nothing else. *)
Definition view_run (p : perm) (t : id) (c : call) (s : state) : res value * state :=
  match c with
  | CallPerm _ q obj => (Ok (VBool (perm_eqb q p && value_eqb obj (VObj 5))), s)
  | _ => calm_run (Ok (VStr "a thing")) t c s
  end.
Definition view_env (b : impl) (p : perm) : env :=
  mkEnv b b 0 0 (fun _ => "app.Thing") (fun _ => "type") (fun _ => false) (fun _ => "0x1") (view_run p).

(** The administrator prefixes all permissions. *)
Definition prefixed (i : id) (t : string) : id * string := (i, "acme." ++ t).

Lemma calm_state_like R c s s' : state_like R s s' ->
  let (r, s1) := (calm_answer (Ok (VStr "a thing")) c, s) in
  let (r', s1') := (calm_answer (Ok (VStr "a thing")) c, s') in
  res_like R r r' /\ state_like R s1 s1'.
Proof.
  intro H. split; [|exact H]. destruct (calm_answer (Ok (VStr "a thing")) c) as [v|e] eqn:Ea; cbn [res_like]; [reflexivity|].
  apply L_same. intros obj n p ->. destruct c; try discriminate Ea. destruct o; try discriminate Ea.
  cbn [calm_answer] in Ea. destruct (String.eqb n0 "__Security_checker__"); discriminate Ea.
Qed.

Lemma prefixed_code b : code_like (renamed prefixed) (e_run (view_env b p_view)) (view_run (rename prefixed p_view)).
Proof.
  intros t c c' s s' Hc Hs. cbn [view_env e_run]. destruct Hc as [c Hc|iv p q obj Hp].
  - assert (X := calm_state_like (renamed prefixed) c s s' Hs).
    destruct c; try exact X. exfalso. exact (Hc _ _ _ eq_refl).
  - cbn [view_run]. split; [|exact Hs]. cbn [res_like].
    assert (Ep : perm_eqb p p_view = perm_eqb q (rename prefixed p_view)).
    { destruct p as [| |i tx], q as [| |j ty]; try contradiction; try reflexivity.
      cbn [perm_like renamed prefixed fst snd] in Hp. injection Hp as -> ->.
      reflexivity. }
    rewrite Ep. reflexivity.
Qed.

(** A policy that does not look at permissions cannot tell them apart. *)
Lemma undistinguished b : code_like (fun _ _ => True) (e_run (calm_env b 0 (Ok (VStr "a thing")))) (calm_run (Ok (VStr "a thing"))).
Proof.
  intros t c c' s s' Hc Hs. cbn [calm_env e_run]. destruct Hc as [c Hc|iv p q obj Hp].
  - exact (calm_state_like _ c s s' Hs).
  - unfold calm_run. cbn [calm_answer]. split; [reflexivity|exact Hs].
Qed.

(** Code that does not look at tables. *)
Lemma calm_blind b : code_like eq (e_run (calm_env b 0 (Ok (VStr "a thing")))) (e_run (calm_env b 0 (Ok (VStr "a thing")))).
Proof.
  intros t c c' s s' Hc Hs. cbn [calm_env e_run]. destruct Hc as [c Hc|iv p q obj Hp].
  - exact (calm_state_like _ c s s' Hs).
  - unfold calm_run. cbn [calm_answer]. split; [reflexivity|exact Hs].
Qed.

(** Table 20 in another order, with an entry that is never found. *)
Definition shuffled (i : id) : list (name * perm) :=
  match i with
  | 20 => [("__repr__", p_view); ("bar", p_view); ("bar", PPublic); ("foo", PPublic)]
  | _ => []
  end.

Lemma shuffled_same : forall i n, entry (st_dicts calm0 i) n = entry (shuffled i) n.
Proof.
  intros i n. change (st_dicts calm0) with calm_dicts.
  do 20 (destruct i as [|i]; [reflexivity|]). destruct i as [|i]; [|reflexivity]. cbn [calm_dicts shuffled entry].
  destruct (String.eqb "foo" n) eqn:E1, (String.eqb "bar" n) eqn:E2, (String.eqb "__repr__" n) eqn:E3; try reflexivity;
    repeat match goal with H : String.eqb _ n = true |- _ => apply String.eqb_eq in H end; subst n;
    try discriminate; reflexivity.
Qed.

(** Every permission id of table 20 is another one. *)
Definition other_perms (i : id) : list (name * perm) :=
  match i with
  | 20 => [("foo", PPublic); ("bar", PId 901 "x.A"); ("__repr__", PId 902 "x.B")]
  | _ => []
  end.
Lemma other_like : state_like (fun _ _ => True) calm0 (set_dicts other_perms calm0).
Proof.
  exists other_perms. split; [reflexivity|]. intros i n. change (st_dicts calm0) with calm_dicts.
  do 20 (destruct i as [|i]; [exact I|]). destruct i as [|i]; [|exact I]. cbn [calm_dicts other_perms entry].
  destruct (String.eqb "foo" n); [exact I|]. destruct (String.eqb "bar" n); [exact I|].
  destruct (String.eqb "__repr__" n); exact I.
Qed.
