(** C94: comparisons see through proxies, and proxies as keys. *)

From Coq Require Import List Arith Bool.
From Verif Require Import Compare CompareSpec CompareFacts CompareWitness.
Import ListNotations.

(** [v o w], for any number of proxies around either operand, is the comparison
    of the objects behind them: the same one, or, if the right operand is a
    proxy, the reflected one with the operands exchanged.  In the C build a
    result other than True and False comes as a proxy. *)
Theorem C94_compare : forall (W : world) (b : build), no_subclass W ->
  forall v w o k, selective W (strip v) -> layers v + layers w < k ->
    rich W b k v w o =
      Some (seen b (proxied v || proxied w)
             (if proxied w then bare W (strip w) (strip v) (swap o)
              else bare W (strip v) (strip w) o)).
Proof. intros W b HN. exact (rich_exact W b HN). Qed.
Print Assumptions C94_compare.

(** So it is exactly the comparison of the objects if the order in which two
    objects are asked makes no difference, as with equality and with orders. *)
Theorem C94_transparent : forall (W : world) (b : build), no_subclass W ->
  forall v w o k, selective W (strip v) ->
    mirrored W (strip v) (strip w) o -> layers v + layers w < k ->
    rich W b k v w o = Some (seen b (proxied v || proxied w) (bare W (strip v) (strip w) o)).
Proof. intros W b HN. exact (rich_mirrored W b HN). Qed.
Print Assumptions C94_transparent.

(** Proxies and objects can be mixed as keys of dicts and as members of sets:
    looking up [x] finds what looking up the object behind [x] finds if all
    keys are taken without their proxies, errors included. *)
Theorem C94_keys : forall (W : world) (b : build), no_subclass W ->
  forall (D : Type) (entries : list (val * D)) x k,
    (forall e, In e entries ->
       selective W (strip (fst e)) /\ mirrored W (strip (fst e)) (strip x) Eq /\
       well_numbered (fst e) x /\ layers (fst e) + layers x < k) ->
    (exists t, bare W (strip x) (strip x) Eq = t /\ truth W t = true) ->
    lookup W b k entries x = find W (stripped entries) (strip x).
Proof. intros W b HN. exact (@lookup_find W b HN). Qed.
Print Assumptions C94_keys.

(** An object that does not return NotImplemented when it is compared with a
    proxy decides itself what the answer is. *)
Theorem C94_looks : forall (W : world) (b : build) x i w o k r,
  w_cmp W x o (Pr i w) = Some r -> w_strict W (w_proxy W) (w_type W x) = false ->
  rich W b (S k) (Obj x) (Pr i w) o = Some r.
Proof. intros W b. exact (rich_looks W b). Qed.
Print Assumptions C94_looks.

(** ** What is not so *)

(** "An object equals its own proxy": not if its [__eq__] reads an attribute of
    the other operand that the proxy does not give away; the comparison raises. *)
Theorem C94_looks_refuted :
  exists (W : world) (x i : nat) (e : nat), no_subclass W /\
    (forall b k, rich W b (S k) (Obj x) (Pr i (Obj x)) Eq = Some (Exc e)) /\
    bare W x x Eq = Bool true.
Proof. exact looks_false. Qed.
Print Assumptions C94_looks_refuted.

(** "x < p is x < o": not if the two objects disagree about their order, since
    it is the one behind the proxy that is asked. *)
Theorem C94_order_refuted :
  exists (W : world) (x y i : nat), no_subclass W /\ selective W x /\ selective W y /\
    (forall b k, rich W b (S (S k)) (Obj x) (Pr i (Obj y)) Lt = Some (Bool false)) /\
    (forall b k, rich W b (S (S k)) (Obj x) (Obj y) Lt = Some (Bool true)).
Proof. exact order_false. Qed.
Print Assumptions C94_order_refuted.

(** "A key is found again": not through another proxy if the object is not
    equal to itself, since dicts compare identity first. *)
Theorem C94_key_refuted :
  exists (W : world) (x i j : nat), no_subclass W /\ selective W x /\ i <> j /\
    (forall b k, lookup W b (S (S (S k))) [(Pr i (Obj x), tt)] (Pr j (Obj x)) = Missing) /\
    (forall b k, lookup W b (S (S (S k))) [(Pr i (Obj x), tt)] (Pr i (Obj x)) = Found tt) /\
    find W [(x, tt)] x = Found tt.
Proof. exact key_false. Qed.
Print Assumptions C94_key_refuted.

(** ** Cases *)

(** Two equal values and a greater one, with up to two proxies around them. *)
Example C94_compare_case :
  no_subclass demo /\ selective demo 11 /\ mirrored demo 11 13 Lt /\
  rich demo C 9 (Pr 1 (Pr 2 (Obj 11))) (Pr 3 (Obj 13)) Lt = Some (Bool true) /\
  rich demo Py 9 (Obj 13) (Pr 3 (Pr 4 (Obj 11))) Le = Some (Bool false) /\
  rich demo Py 9 (Pr 1 (Obj 11)) (Pr 3 (Obj 12)) Eq = Some (Bool true) /\
  rich demo C 9 (Obj 20) (Pr 3 (Obj 20)) Eq = Some (Bool true) /\
  rich demo C 9 (Obj 20) (Pr 3 (Obj 21)) Ne = Some (Bool true) /\
  rich demo C 9 (Obj 20) (Pr 3 (Obj 21)) Lt = Some (Exc 98) /\
  rich demo C 9 (Pr 1 (Obj 16)) (Obj 11) Eq = Some (Guarded (Thing 50)) /\
  rich demo Py 9 (Pr 1 (Obj 16)) (Obj 11) Eq = Some (Thing 50).
Proof.
  split; [exact demo_no_subclass|]. split; [apply demo_selective; discriminate|].
  split; [apply demo_mirrored; reflexivity|]. repeat split.
Qed.

(** The hypotheses of C94_keys for a dict with three keys, and what is found. *)
Example C94_keys_case :
  let entries := [(Pr 1 (Obj 13), 0); (Obj 11, 1); (Pr 2 (Obj 13), 2)] in
  (forall e, In e entries ->
     selective demo (strip (fst e)) /\ mirrored demo (strip (fst e)) 12 Eq /\
     well_numbered (fst e) (Pr 5 (Obj 12)) /\ layers (fst e) + layers (Pr 5 (Obj 12)) < 9) /\
  (exists t, bare demo 12 12 Eq = t /\ truth demo t = true) /\
  lookup demo C 9 entries (Pr 5 (Obj 12)) = Found 1 /\
  lookup demo Py 9 entries (Obj 13) = Found 0 /\
  lookup demo Py 9 entries (Obj 11) = Found 1 /\
  lookup demo C 9 entries (Pr 5 (Obj 20)) = Missing.
Proof.
  cbv zeta. split; [|split; [eexists; split; reflexivity | repeat split]].
  intros e [<- | [<- | [<- | []]]]; cbn [fst strip layers];
    (split; [apply demo_selective; discriminate|]);
    (split; [apply demo_mirrored; reflexivity|]);
    (split; [intros H; discriminate H|]); repeat constructor.
Qed.
