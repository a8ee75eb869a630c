(** * Properties_CExtGc: garbage collection of proxies and checkers (C82). *)

From Coq Require Import List Bool Arith ZArith.
From Verif Require Import CExt CExtSpec CExtDecideSpec CExtGc CExtGcSpec CExtGcFacts CExtWitness CExtGcWitness.
Import ListNotations.
Open Scope Z_scope.

(** ** C82 *)

(** The traversal of a proxy or a checker visits every reference in its struct, as often as
    it is there, and nothing else. *)
Theorem C82_traverse :
  forall oracle is_proxy is_checker visit s x t,
    type_of oracle is_proxy is_checker x = Some t -> (forall o, visit o = 0) ->
    snd (tp_traverse t visit s x) = 0 /\
    forall o, times o (fst (tp_traverse t visit s x)) = in_struct s x o.
Proof. exact traverse_lemma. Qed.
Print Assumptions C82_traverse.

(** A failure of the visitor is reported. *)
Theorem C82_traverse_failure :
  forall oracle is_proxy is_checker visit s x t o,
    type_of oracle is_proxy is_checker x = Some t ->
    (forall a, visit a <= 0) -> 0 < in_struct s x o -> visit o < 0 ->
    snd (tp_traverse t visit s x) < 0.
Proof. exact traverse_stops. Qed.
Print Assumptions C82_traverse_failure.

(** A collection keeps exactly what is in use: of any set of candidates, those survive that
    can be reached from outside of it. *)
Theorem C82_collector :
  forall oracle is_proxy is_checker others s roots refcount all l o,
    counted is_proxy is_checker others s roots refcount all -> NoDup l -> incl l all ->
    (survives oracle is_proxy is_checker others s refcount l o <->
     in_use is_proxy is_checker others s roots all l o).
Proof. exact collector_lemma. Qed.
Print Assumptions C82_collector.

(** Destroying a proxy or checker gives back exactly the references in its struct. *)
Theorem C82_dealloc :
  forall oracle is_proxy is_checker x t s u s',
    fault s = false -> type_of oracle is_proxy is_checker x = Some t ->
    tp_dealloc t x s = Some (u, s') ->
    balanced_with x s None s' /\ f1 s' x = None /\ f2 s' x = None /\ exc s' = exc s.
Proof. exact dealloc_lemma. Qed.
Print Assumptions C82_dealloc.

(** The clearing of garbage leaves every proxy as it was, also those in the garbage, and
    everything that is not in the garbage; the checkers in the garbage lose both tables. *)
Theorem C82_clearing :
  forall oracle is_proxy is_checker l s u s',
    delete_garbage oracle is_proxy is_checker l s = Some (u, s') ->
    (forall x, is_proxy x = true -> f1 s' x = f1 s x /\ f2 s' x = f2 s x) /\
    (forall x, ~ In x l -> f1 s' x = f1 s x /\ f2 s' x = f2 s x) /\
    (forall x, f1 s x = None -> f1 s' x = None) /\
    (forall x, f2 s x = None -> f2 s' x = None) /\
    (forall x, In x l -> is_proxy x = false -> is_checker x = true ->
       f1 s' x = None /\ f2 s' x = None).
Proof. exact garbage_fields. Qed.
Print Assumptions C82_clearing.

(** So in every life of a process every proxy has its object and its checker as long as it
    exists: what C69 assumes of the arguments is always the case. *)
Theorem C82_complete :
  forall is_proxy is_checker s ps' s',
    life is_proxy is_checker [] s ps' s' ->
    forall args, (forall x, In x args -> is_proxy x = true -> In x ps') ->
      proxies_complete args is_proxy s'.
Proof. exact life_complete_lemma. Qed.
Print Assumptions C82_complete.

(** That proxies are never cleared does not keep garbage alive: there is no cycle of proxies
    only, so clearing the other objects in a cycle breaks it. *)
Theorem C82_cycles :
  forall is_proxy is_checker s ps' s',
    life is_proxy is_checker [] s ps' s' -> forall x, ~ leads ps' s' x x.
Proof. exact life_acyclic_lemma. Qed.
Print Assumptions C82_cycles.

(** A checker that was cleared while something can still call it (a finalizer) fails closed:
    check grants at most what is available by default, without asking anybody ... *)
Theorem C82_cleared_check :
  forall oracle args is_str char0 char1 is_iter self object name s r s',
    f1 s self = None ->
    Checker_check oracle args is_str char0 char1 is_iter self (Some (object, name)) s = Some (r, s') ->
    fault s' = false ->
    exists calls, log s' = calls ++ log s /\
      (r <> None <-> by_default is_str char0 char1 is_iter None object name calls).
Proof. exact emptied_check. Qed.
Print Assumptions C82_cleared_check.

(** ... and check_setattr nothing. *)
Theorem C82_cleared_setattr :
  forall oracle args self object name s r s',
    f2 s self = None ->
    Checker_check_setattr oracle args self (Some (object, name)) s = Some (r, s') -> r = None.
Proof. exact emptied_setattr. Qed.
Print Assumptions C82_cleared_setattr.

(** gc.get_referrers() finds the proxies that refer to an object ... *)
Theorem C82_referrers :
  forall oracle is_proxy is_checker s x d,
    is_proxy x = true ->
    exists b, refers oracle is_proxy is_checker s x d = Some b /\ (b = true <-> 0 < in_struct s x d).
Proof. exact refers_proxy. Qed.
Print Assumptions C82_referrers.

(** ... but never a checker, whatever it refers to. *)
Theorem C82_referrers_refuted :
  forall oracle is_proxy is_checker s x d,
    is_proxy x = false -> is_checker x = true ->
    refers oracle is_proxy is_checker s x d = Some false.
Proof. exact refers_checker. Qed.
Print Assumptions C82_referrers_refuted.

(** ** Examples *)

(** A proxy in the dictionary of its own object: five objects, each referred to once; all of
    them are garbage, and none if one reference to the proxy is held elsewhere. *)
Example C82_collector_example :
  counted (Nat.eqb 30) (Nat.eqb 34) cycle_others cycle_state (fun _ => 0) (cycle_counts (fun _ => 0)) cycle_all /\
  map (cycle_counts (fun _ => 0)) cycle_all = [1; 1; 1; 1; 1] /\
  (forall o, ~ survives (fun _ => ans None true 0) (Nat.eqb 30) (Nat.eqb 34) cycle_others cycle_state
                (cycle_counts (fun _ => 0)) cycle_all o) /\
  (forall o, In o cycle_all ->
     survives (fun _ => ans None true 0) (Nat.eqb 30) (Nat.eqb 34) cycle_others cycle_state
       (cycle_counts is_held) cycle_all o).
Proof. exact cycle_example. Qed.
Print Assumptions C82_collector_example.

(** When it is cleared, the proxy keeps its fields; those of the checker are NULL.  The checker
    refers to its table, but get_referrers() does not say so; of the proxy it does. *)
Example C82_clearing_example :
  cleared_fields = Some (Some 33, Some 34, None, None)%nat /\
  refers (fun _ => ans None true 0) (Nat.eqb 30) (Nat.eqb 34) cycle_state 34%nat 35%nat = Some false /\
  in_struct cycle_state 34%nat 35%nat = 1 /\
  refers (fun _ => ans None true 0) (Nat.eqb 30) (Nat.eqb 34) cycle_state 30%nat 33%nat = Some true.
Proof. vm_compute. repeat split; reflexivity. Qed.
Print Assumptions C82_clearing_example.

(** Two proxies, one of the other. *)
Example C82_life_example :
  life is3x (fun _ => false) [] (state_with no_fields no_fields) [31; 30]%nat life2 /\
  leads [31; 30]%nat life2 31%nat 30%nat.
Proof. exact life_example. Qed.
Print Assumptions C82_life_example.

(** A checker without tables grants a name available by default and refuses another. *)
Example C82_cleared_example :
  emptied_outcome 1 = Some (true, false) /\ emptied_outcome 0 = Some (false, false).
Proof. vm_compute. split; reflexivity. Qed.
Print Assumptions C82_cleared_example.
