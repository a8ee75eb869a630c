(** * OpaqueSpec: processes that differ only in what permissions are called and how the tables
    of checkers are written down. *)

From Coq Require Import List String Bool Arith ZArith.
From Verif Require Import Base Domain ProxyModel ConcealSpec.
Import ListNotations.
Open Scope string_scope.

Section Opaque.
  (** Which permission ids of the second process stand for which of the first; any relation. *)
  Variable R : perm -> perm -> Prop.

  (** CheckerPublic and None stand for themselves. *)
  Definition perm_like (p q : perm) : Prop :=
    match p, q with
    | PPublic, PPublic | PNone, PNone => True
    | PId _ _, PId _ _ => R p q
    | _, _ => False
    end.
  Definition entry_like (a b : option perm) : Prop :=
    match a, b with
    | Some p, Some q => perm_like p q
    | None, None => True
    | _, _ => False
    end.
  (** The first entry of a table under a name. *)
  Fixpoint entry (d : list (name * perm)) (n : name) : option perm :=
    match d with
    | [] => None
    | (m, p) :: d' => if String.eqb m n then Some p else entry d' n
    end.
  (** Tables that give corresponding permissions for every name. *)
  Definition tables_like (d d' : id -> list (name * perm)) : Prop :=
    forall i n, entry_like (entry (d i) n) (entry (d' i) n).

  Inductive exn_like : exn -> exn -> Prop :=
  | L_same e : (forall obj n p, e <> EUnauthorized obj n p) -> exn_like e e
  | L_unauthorized obj n p q : perm_like p q -> exn_like (EUnauthorized obj n p) (EUnauthorized obj n q).
  Definition res_like {A} (r r' : res A) : Prop :=
    match r, r' with
    | Ok a, Ok b => a = b
    | Exc e, Exc e' => exn_like e e'
    | _, _ => False
    end.
  (** States that differ in the tables only. *)
  Definition state_like (s s' : state) : Prop :=
    exists d, s' = set_dicts d s /\ tables_like (st_dicts s) d.
  Inductive call_like : call -> call -> Prop :=
  | L_call c : (forall iv p obj, c <> CallPerm iv p obj) -> call_like c c
  | L_perm iv p q obj : perm_like p q -> call_like (CallPerm iv p obj) (CallPerm iv q obj).
  Inductive event_like : event -> event -> Prop :=
  | L_ecall k t c c' : call_like c c' -> event_like (ECall k t c) (ECall k t c')
  | L_ask t iv p q obj a : perm_like p q -> event_like (EAsk t iv p obj a) (EAsk t iv q obj a)
  | L_log l n obj : event_like (ELog l n obj) (ELog l n obj).

  (** Application code of the second process that does to corresponding permissions and tables
      what that of the first does. *)
  Definition code_like (run run' : id -> call -> state -> res value * state) : Prop :=
    forall t c c' s s', call_like c c' -> state_like s s' ->
      match run t c s, run' t c' s' with
      | (r, s1), (r', s1') => res_like r r' /\ state_like s1 s1'
      end.

  (** Two runs with corresponding outcomes. *)
  Definition outcome_like {A} (x x' : res A * state * list event) : Prop :=
    match x, x' with
    | (r, s, t), (r', s', t') => res_like r r' /\ state_like s s' /\ Forall2 event_like t t'
    end.

  (** Clients that do not look at the permission in an Unauthorized exception in a way that
      tells the processes apart. *)
  Fixpoint client_like (c c' : client) : Prop :=
    match c, c' with
    | Finished, Finished => True
    | Request o next, Request o' next' =>
        o = o' /\ forall r r', res_like r r' -> client_like (next r) (next' r')
    | _, _ => False
    end.
End Opaque.

(** Renaming by a function. *)
Definition renamed (rho : id -> string -> id * string) (p q : perm) : Prop :=
  match p with
  | PId i t => q = PId (fst (rho i t)) (snd (rho i t))
  | _ => q = p
  end.
Definition rename (rho : id -> string -> id * string) (p : perm) : perm :=
  match p with PId i t => PId (fst (rho i t)) (snd (rho i t)) | _ => p end.
Definition rename_tables rho (d : id -> list (name * perm)) (i : id) : list (name * perm) :=
  map (fun e => (fst e, rename rho (snd e))) (d i).
Definition rename_exn rho (e : exn) : exn :=
  match e with EUnauthorized obj n p => EUnauthorized obj n (rename rho p) | _ => e end.
Definition rename_res {A} rho (r : res A) : res A :=
  match r with Ok a => Ok a | Exc e => Exc (rename_exn rho e) end.
Definition rename_event rho (e : event) : event :=
  match e with
  | ECall k t (CallPerm iv p obj) => ECall k t (CallPerm iv (rename rho p) obj)
  | EAsk t iv p obj a => EAsk t iv (rename rho p) obj a
  | _ => e
  end.
