(** * ThreadSpec: what a thread's calls mean, given what the thread saw of shared data. *)

From Coq Require Import List String Bool Arith.
From Verif Require Import Base Domain MgmtSpec Threads.
Import ListNotations.
Open Scope string_scope.

(** [Adds i parts ls r]: the participations are entered into interaction [i] one by
    one; the first that was seen to belong to an interaction stops this. *)
Inductive Adds (i : id) : list id -> list label -> res value -> Prop :=
| Adds_all : Adds i [] [] (Ok (VIact i))
| Adds_taken q parts v :
    Adds i (q :: parts) [LPart q (Some v)]
      (Exc (EValue "already belongs to an interaction"))
| Adds_next q parts ls r :
    Adds i parts ls r ->
    Adds i (q :: parts) (LPart q None :: LBind q i :: LAppend i q :: ls) r.

(** [PolicyCall parts ls r]: the policy that was seen is called with [parts]. *)
Inductive PolicyCall (parts : list id) : list label -> res value -> Prop :=
| PC_paranoid i ls r :
    Adds i parts ls r ->
    PolicyCall parts (LPolicy PolParanoid :: LIact false i :: ls) r
| PC_permissive i ls r :
    Adds i parts ls r ->
    PolicyCall parts (LPolicy PolPermissive :: LIact true i :: ls) r
| PC_foreign v r :
    PolicyCall parts [LPolicy (PolForeign v); LForeign v parts r] r.

(** [Calls cs l ls rs l']: a thread with locals [l] makes the calls [cs], sees [ls] of
    the shared data, gets the answers [rs] and ends with the locals [l']. *)
Inductive Calls : list mcall -> tlocal -> list label -> list (res value) -> tlocal -> Prop :=
| Calls_none l : Calls [] l [] [] l
| Calls_policy parts cs l ls1 made r l1 ls2 rs l2 :
    calls_policy (MNew parts) l = true -> PolicyCall parts ls1 made ->
    spec_mcall (MNew parts) made l = (r, l1) ->
    Calls cs l1 ls2 rs l2 ->
    Calls (MNew parts :: cs) l (ls1 ++ ls2) (r :: rs) l2
| Calls_local c cs l r l1 ls rs l2 :
    calls_policy c l = false -> (forall made, spec_mcall c made l = (r, l1)) ->
    Calls cs l1 ls rs l2 ->
    Calls (c :: cs) l ls (r :: rs) l2.

(** Security policies leave the thread's interaction attributes to management.py, and
    cannot reach those of other threads. *)
Definition policies_keep_locals (E : env) : Prop :=
  forall t v parts s r s' t', e_run E t (CallPolicy v parts) s = (r, s') ->
    st_tls s' t' = st_tls s t'.

(** Threads that run together while other code leaves participations, interactions, the
    policy and the threads' own data alone. *)
Inductive Together (E : env) {A} : (id -> prog A) -> state -> (id -> prog A) -> state -> Prop :=
| To_done c s : Together E c s c s
| To_step c s t p s1 ls c' s' :
    step E t (c t) s = Some (p, s1, ls) -> Together E (upd c t p) s1 c' s' -> Together E c s c' s'
| To_other c s s1 c' s' :
    st_inters s1 = st_inters s -> st_parts s1 = st_parts s -> st_policy s1 = st_policy s ->
    st_tls s1 = st_tls s -> st_next s <= st_next s1 ->
    Together E c s1 c' s' -> Together E c s c' s'.

(** The participations a thread hands to newInteraction. *)
Definition brings (cs : list mcall) (q : id) : Prop :=
  exists parts, In (MNew parts) cs /\ In q parts.
