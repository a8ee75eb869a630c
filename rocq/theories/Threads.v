(** * Threads: the functions of management.py as sequences of atomic steps.

    An atomic step is one read or write of a global variable, of an attribute of
    [thread_local] or of a participation, one list append, one creation of an
    interaction, or one call of a foreign security policy.  Threads may be interrupted
    between any two steps. *)

From Coq Require Import List String Bool Arith.
From Verif Require Import Base Domain CheckerModel MgmtSpec.
Import ListNotations.
Open Scope string_scope.

(** The attributes of [thread_local] (_definitions.py 24). *)
Inductive attr := AInteraction | APrevious.

Definition get_attr (a : attr) (l : tlocal) : option value :=
  match a with AInteraction => tl_inter l | APrevious => tl_prev l end.
Definition set_attr (a : attr) (o : option value) (l : tlocal) : tlocal :=
  match a with
  | AInteraction => mkTl o (tl_prev l)
  | APrevious => mkTl (tl_inter l) o
  end.

(** Programs of one thread. *)
Inductive prog (A : Type) :=
| PRet (a : A)
| PGetTl (a : attr) (k : option value -> prog A)        (* thread_local.a *)
| PSetTl (a : attr) (v : value) (k : prog A)            (* thread_local.a = v *)
| PDelTl (a : attr) (k : prog A)                        (* del, absence ignored *)
| PGetPol (k : policy -> prog A)                        (* _defaultPolicy *)
| PSetPol (p : policy) (k : prog A)                     (* _defaultPolicy = p *)
| PNewIact (permissive : bool) (k : id -> prog A)       (* allocation, participations = [] *)
| PGetPart (q : id) (k : option value -> prog A)        (* q.interaction *)
| PSetPart (q i : id) (k : prog A)                      (* q.interaction = i *)
| PAppend (i q : id) (k : prog A)                       (* i.participations.append(q) *)
| PForeign (v : value) (parts : list id) (k : res value -> prog A).
Arguments PRet {A} a.
Arguments PGetTl {A} a k.
Arguments PSetTl {A} a v k.
Arguments PDelTl {A} a k.
Arguments PGetPol {A} k.
Arguments PSetPol {A} p k.
Arguments PNewIact {A} permissive k.
Arguments PGetPart {A} q k.
Arguments PSetPart {A} q i k.
Arguments PAppend {A} i q k.
Arguments PForeign {A} v parts k.

Fixpoint pbind {A B} (p : prog A) (f : A -> prog B) : prog B :=
  match p with
  | PRet a => f a
  | PGetTl a k => PGetTl a (fun o => pbind (k o) f)
  | PSetTl a v k => PSetTl a v (pbind k f)
  | PDelTl a k => PDelTl a (pbind k f)
  | PGetPol k => PGetPol (fun p => pbind (k p) f)
  | PSetPol p k => PSetPol p (pbind k f)
  | PNewIact b k => PNewIact b (fun i => pbind (k i) f)
  | PGetPart q k => PGetPart q (fun o => pbind (k o) f)
  | PSetPart q i k => PSetPart q i (pbind k f)
  | PAppend i q k => PAppend i q (pbind k f)
  | PForeign v ps k => PForeign v ps (fun r => pbind (k r) f)
  end.

(** ** The functions *)

(** simplepolicies.py 46-51 *)
Definition p_add (i q : id) : prog (res unit) :=
  PGetPart q (fun o =>
    match o with
    | Some _ => PRet (Exc (EValue "already belongs to an interaction"))
    | None => PSetPart q i (PAppend i q (PRet (Ok tt)))
    end).

(** simplepolicies.py 43-44 *)
Fixpoint p_add_all (i : id) (parts : list id) : prog (res value) :=
  match parts with
  | [] => PRet (Ok (VIact i))
  | q :: parts' =>
      pbind (p_add i q) (fun r =>
        match r with
        | Ok _ => p_add_all i parts'
        | Exc e => PRet (Exc e)
        end)
  end.

(** Calling a policy: simplepolicies.py 41-44 or foreign code. *)
Definition p_call_policy (pol : policy) (parts : list id) : prog (res value) :=
  match pol with
  | PolParanoid => PNewIact false (fun i => p_add_all i parts)
  | PolPermissive => PNewIact true (fun i => p_add_all i parts)
  | PolForeign v => PForeign v parts (fun r => PRet r)
  end.

(** management.py 79-81 *)
Definition p_query : prog value :=
  PGetTl AInteraction (fun o => PRet (match o with Some v => v | None => VNone end)).

(** management.py 84-89 *)
Definition p_get : prog (res value) :=
  PGetTl AInteraction (fun o => PRet (match o with Some v => Ok v
                                               | None => Exc ENoInteraction end)).

(** management.py 101-106 *)
Definition p_new (parts : list id) : prog (res value) :=
  pbind p_query (fun q =>
    if negb (value_eqb q VNone) then PRet (Exc EExistingInteraction)
    else
      PGetPol (fun pol =>
        pbind (p_call_policy pol parts) (fun r =>
          match r with
          | Ok i => PSetTl AInteraction i (PRet (Ok VNone))
          | Exc e => PRet (Exc e)
          end))).

(** management.py 109-123 *)
Definition p_end : prog (res value) :=
  PGetTl AInteraction (fun o =>
    match o with
    | Some v => PSetTl APrevious v (PDelTl AInteraction (PRet (Ok VNone)))
    | None => PDelTl APrevious (PRet (Ok VNone))
    end).

(** management.py 126-135 *)
Definition p_restore : prog (res value) :=
  PGetTl APrevious (fun o =>
    match o with
    | Some v => PSetTl AInteraction v (PRet (Ok VNone))
    | None => PDelTl AInteraction (PRet (Ok VNone))
    end).

(** management.py 61-72: the right-hand side is evaluated before the assignments. *)
Definition p_setSecurityPolicy (p : policy) : prog policy :=
  PGetPol (fun last => PSetPol p (PRet last)).

Definition p_mcall (c : mcall) : prog (res value) :=
  match c with
  | MNew parts => p_new parts
  | MEnd => p_end
  | MRestore => p_restore
  | MQuery => pbind p_query (fun v => PRet (Ok v))
  | MGet => p_get
  end.

(** A sequence of calls; an exception does not stop the sequence (the caller catches
    it). *)
Fixpoint p_mcalls (cs : list mcall) : prog (list (res value)) :=
  match cs with
  | [] => PRet []
  | c :: cs' => pbind (p_mcall c) (fun r => pbind (p_mcalls cs') (fun rs => PRet (r :: rs)))
  end.

(** ** Execution *)

(** What a thread learns from, or does to, data that other threads can reach. *)
Inductive label :=
| LPolicy (p : policy)                       (* the global policy was [p] *)
| LSetPolicy (p : policy)
| LIact (permissive : bool) (i : id)         (* a new interaction [i] *)
| LPart (q : id) (o : option value)          (* q.interaction was [o] *)
| LBind (q i : id)
| LAppend (i q : id)
| LForeign (v : value) (parts : list id) (r : res value).

Section Exec.
  Variable E : env.

  (** One atomic step of thread [t]. *)
  Definition step {A} (t : id) (p : prog A) (s : state)
    : option (prog A * state * list label) :=
    let l := st_tls s t in
    match p with
    | PRet _ => None
    | PGetTl a k => Some (k (get_attr a l), s, [])
    | PSetTl a v k => Some (k, set_tls (upd (st_tls s) t (set_attr a (Some v) l)) s, [])
    | PDelTl a k => Some (k, set_tls (upd (st_tls s) t (set_attr a None l)) s, [])
    | PGetPol k => Some (k (st_policy s), s, [LPolicy (st_policy s)])
    | PSetPol p k => Some (k, set_policy p s, [LSetPolicy p])
    | PNewIact b k =>
        Some (k (st_next s),
              set_inters (upd (st_inters s) (st_next s) (Some (mkInter b [])))
                (set_next (S (st_next s)) s),
              [LIact b (st_next s)])
    | PGetPart q k =>
        Some (k (pt_inter (st_parts s q)), s, [LPart q (pt_inter (st_parts s q))])
    | PSetPart q i k =>
        Some (k, set_parts (upd (st_parts s) q
                   (mkPart (pt_principal (st_parts s q)) (Some (VIact i)))) s,
              [LBind q i])
    | PAppend i q k =>
        Some (k, match st_inters s i with
                 | Some x => set_inters (upd (st_inters s) i
                               (Some (mkInter (in_permissive x) (in_parts x ++ [q])))) s
                 | None => s
                 end, [LAppend i q])
    | PForeign v parts k =>
        let '(r, s') := e_run E t (CallPolicy v parts) s in
        Some (k r, s', [LForeign v parts r])
    end.

  (** A thread running alone to the end. *)
  Fixpoint exec {A} (t : id) (p : prog A) (s : state) : A * state :=
    let l := st_tls s t in
    match p with
    | PRet a => (a, s)
    | PGetTl a k => exec t (k (get_attr a l)) s
    | PSetTl a v k => exec t k (set_tls (upd (st_tls s) t (set_attr a (Some v) l)) s)
    | PDelTl a k => exec t k (set_tls (upd (st_tls s) t (set_attr a None l)) s)
    | PGetPol k => exec t (k (st_policy s)) s
    | PSetPol p k => exec t k (set_policy p s)
    | PNewIact b k =>
        exec t (k (st_next s))
          (set_inters (upd (st_inters s) (st_next s) (Some (mkInter b [])))
             (set_next (S (st_next s)) s))
    | PGetPart q k => exec t (k (pt_inter (st_parts s q))) s
    | PSetPart q i k =>
        exec t k (set_parts (upd (st_parts s) q
                    (mkPart (pt_principal (st_parts s q)) (Some (VIact i)))) s)
    | PAppend i q k =>
        exec t k (match st_inters s i with
                  | Some x => set_inters (upd (st_inters s) i
                                (Some (mkInter (in_permissive x) (in_parts x ++ [q])))) s
                  | None => s
                  end)
    | PForeign v parts k =>
        let '(r, s') := e_run E t (CallPolicy v parts) s in exec t (k r) s'
    end.

  (** Interleavings: threads run the programs [c]; at any moment any thread takes a
      step, or other code changes anything but thread-local data. *)
  Inductive Interleave {A} : (id -> prog A) -> state -> list (id * label) ->
                             (id -> prog A) -> state -> Prop :=
  | Int_done c s : Interleave c s [] c s
  | Int_step c s t p s1 ls tr c' s' :
      step t (c t) s = Some (p, s1, ls) ->
      Interleave (upd c t p) s1 tr c' s' ->
      Interleave c s (map (fun x => (t, x)) ls ++ tr) c' s'
  | Int_other c s s1 tr c' s' :
      st_tls s1 = st_tls s ->
      Interleave c s1 tr c' s' ->
      Interleave c s tr c' s'.

  (** The part of a trace that belongs to thread [t]. *)
  Definition own (t : id) (tr : list (id * label)) : list label :=
    map snd (filter (fun x => Nat.eqb (fst x) t) tr).
End Exec.
