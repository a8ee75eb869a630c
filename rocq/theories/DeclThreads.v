(** * DeclThreads: declarations as sequences of atomic steps.

    defineChecker (checker.py 475-486) and the functions of protectclass.py again, cut
    into the steps between which another thread may run: one lookup or assignment in
    [_checkers], one attribute of a checker, one lookup, assignment or iteration step in
    a dictionary of permissions.  A new checker and its two dictionaries are one step;
    nobody else knows them. *)

From Coq Require Import List String Bool Arith.
From Verif Require Import Base Domain CheckerModel Protect ProtectSpec.
Import ListNotations.
Open Scope string_scope.

Inductive dprog (A : Type) :=
| DRet (a : A)
| DGetReg (k : rkey) (f : option value -> dprog A)           (* _checkers.get(k), k in _checkers *)
| DSetReg (k : rkey) (v : value) (f : dprog A)               (* _checkers[k] = v *)
| DNew (f : value -> dprog A)                                (* Checker({}, {}) *)
| DTable (w : bool) (c : value) (f : res id -> dprog A)      (* c.get_permissions, c.set_permissions *)
| DPut (d : id) (n : name) (p : perm) (f : dprog A)          (* d[n] = p *)
| DLen (d : id) (f : nat -> dprog A)                         (* iter(d) notes the size of d *)
| DNext (d : id) (len pos : nat) (f : res (option name) -> dprog A)  (* next(iterator) *)
| DItem (d : id) (n : name) (f : res perm -> dprog A).       (* d[n] *)
Arguments DRet {A} a.
Arguments DGetReg {A} k f.
Arguments DSetReg {A} k v f.
Arguments DNew {A} f.
Arguments DTable {A} w c f.
Arguments DPut {A} d n p f.
Arguments DLen {A} d f.
Arguments DNext {A} d len pos f.
Arguments DItem {A} d n f.

(** Sequencing; an exception ends the program. *)
Fixpoint tbind {A B} (p : dprog (res A)) (g : A -> dprog (res B)) : dprog (res B) :=
  match p with
  | DRet (Ok a) => g a
  | DRet (Exc e) => DRet (Exc e)
  | DGetReg k f => DGetReg k (fun o => tbind (f o) g)
  | DSetReg k v f => DSetReg k v (tbind f g)
  | DNew f => DNew (fun c => tbind (f c) g)
  | DTable w c f => DTable w c (fun r => tbind (f r) g)
  | DPut d n q f => DPut d n q (tbind f g)
  | DLen d f => DLen d (fun x => tbind (f x) g)
  | DNext d l i f => DNext d l i (fun r => tbind (f r) g)
  | DItem d n f => DItem d n (fun r => tbind (f r) g)
  end.

(** ** The functions *)

(** checker.py 475-486 *)
Definition p_defineChecker (k : rkey) (c : value) : dprog (res unit) :=
  match k with
  | KOther _ => DRet (Exc (EType "type_ must be a type, class or module"))
  | _ =>
      DGetReg k (fun o =>
        match o with
        | Some _ => DRet (Exc (EDuplication "type_"))
        | None => DSetReg k c (DRet (Ok tt))
        end)
  end.

(** protectclass.py 29-30: a new checker, registered. *)
Definition p_new_checker (k : rkey) : dprog (res value) :=
  DNew (fun c => tbind (p_defineChecker k c) (fun _ => DRet (Ok c))).

(** protectclass.py 27-30, 43-46, 80-83 *)
Definition p_checker_for (k : rkey) : dprog (res value) :=
  DGetReg k (fun o =>
    match o with
    | None | Some VNone => p_new_checker k
    | Some c => DRet (Ok c)
    end).

Definition p_table (w : bool) (c : value) : dprog (res id) := DTable w c DRet.

(** protectclass.py 32-38, 48-60 *)
Definition p_store (w : bool) (c : value) (n : name) (p : perm) : dprog (res unit) :=
  tbind (p_table w c) (fun d => DPut d n (translate p) (DRet (Ok tt))).

(** protectclass.py 24-38 ([w] false), 41-60 ([w] true) *)
Definition p_protect (w : bool) (k : rkey) (n : name) (p : perm) : dprog (res unit) :=
  tbind (p_checker_for k) (fun c => p_store w c n p).

(** [for name in src: dst[name] = src[name]]; [more] iterations are left.  A dictionary
    that has changed its size stops the iteration (RuntimeError). *)
Fixpoint p_loop (dst src : id) (len : nat) (more : nat) (pos : nat) : dprog (res unit) :=
  DNext src len pos (fun r =>
    match r, more with
    | Exc e, _ => DRet (Exc e)
    | Ok (Some n), S more' =>
        DItem src n (fun q =>
          match q with
          | Exc e => DRet (Exc e)
          | Ok p => DPut dst n p (p_loop dst src len more' (S pos))
          end)
    | Ok _, _ => DRet (Ok tt)
    end).
Definition p_copy (dst src : id) : dprog (res unit) :=
  DLen src (fun len => p_loop dst src len len 0).

(** protectclass.py 63-91 *)
Definition p_like (k like : rkey) : dprog (res unit) :=
  DGetReg like (fun o =>
    match o with
    | None | Some VNone => DRet (Ok tt)
    | Some u =>
        tbind (p_table false u) (fun ug =>
        tbind (p_table true u) (fun uw =>
        tbind (p_checker_for k) (fun c =>
        tbind (p_table false c) (fun g =>
        tbind (p_copy g ug) (fun _ =>
        tbind (p_table true c) (fun w =>
        p_copy w uw))))))
    end).

Definition p_decl (d : decl) : dprog (res unit) :=
  match d with
  | DName k n p => p_protect false k n p
  | DSet k n p => p_protect true k n p
  | DLike k l => p_like k l
  end.

(** One thread: declarations one after the other. *)
Fixpoint p_decls (ds : list decl) : dprog (res unit) :=
  match ds with
  | [] => DRet (Ok tt)
  | d :: ds' => tbind (p_decl d) (fun _ => p_decls ds')
  end.

(** ** Execution *)

Definition changed_size : exn := EValue "dictionary changed size during iteration".

Section Exec.
  Variable E : env.

  Definition new_checker (s : state) : state :=
    let m := st_next s in
    set_chks (upd (st_chks s) (S (S m)) (Some (mkChecker m (S m) (Checker_class E))))
      (set_next (S (S (S m)))
         (set_dicts (upd (upd (st_dicts s) m []) (S m) []) s)).

  Definition table_of_checker (w : bool) (c : value) (s : state) : res id :=
    match c with
    | VChk i =>
        match st_chks s i with
        | Some k => Ok (if w then ck_set k else ck_get k)
        | None => Exc (EType "dangling checker")
        end
    | _ => Exc (EAttribute (if w then "set_permissions" else "get_permissions"))
    end.

  Definition next_key (d : id) (len pos : nat) (s : state) : res (option name) :=
    if Nat.eqb (List.length (st_dicts s d)) len
    then Ok (nth_error (map fst (st_dicts s d)) pos)
    else Exc changed_size.

  Definition item (d : id) (n : name) (s : state) : res perm :=
    match dget String.eqb (st_dicts s d) n with Some p => Ok p | None => Exc EKey end.

  (** One step. *)
  Definition dstep {A} (p : dprog A) (s : state) : option (dprog A * state) :=
    match p with
    | DRet _ => None
    | DGetReg k f => Some (f (dget rkey_eqb (st_reg s) k), s)
    | DSetReg k v f => Some (f, set_reg (dset rkey_eqb (st_reg s) k v) s)
    | DNew f => Some (f (VChk (S (S (st_next s)))), new_checker s)
    | DTable w c f => Some (f (table_of_checker w c s), s)
    | DPut d n q f =>
        Some (f, set_dicts (upd (st_dicts s) d (dset String.eqb (st_dicts s d) n q)) s)
    | DLen d f => Some (f (List.length (st_dicts s d)), s)
    | DNext d l i f => Some (f (next_key d l i s), s)
    | DItem d n f => Some (f (item d n s), s)
    end.

  (** A thread running alone to the end. *)
  Fixpoint dexec {A} (p : dprog A) (s : state) : A * state :=
    match p with
    | DRet a => (a, s)
    | DGetReg k f => dexec (f (dget rkey_eqb (st_reg s) k)) s
    | DSetReg k v f => dexec f (set_reg (dset rkey_eqb (st_reg s) k v) s)
    | DNew f => dexec (f (VChk (S (S (st_next s))))) (new_checker s)
    | DTable w c f => dexec (f (table_of_checker w c s)) s
    | DPut d n q f =>
        dexec f (set_dicts (upd (st_dicts s) d (dset String.eqb (st_dicts s d) n q)) s)
    | DLen d f => dexec (f (List.length (st_dicts s d))) s
    | DNext d l i f => dexec (f (next_key d l i s)) s
    | DItem d n f => dexec (f (item d n s)) s
    end.

  (** Other code between two steps: anything that leaves the registry, and the checkers
      and dictionaries that exist, alone. *)
  Definition leaves_tables (s s1 : state) : Prop :=
    st_reg s1 = st_reg s /\ st_next s <= st_next s1 /\
    forall i, i < st_next s -> st_chks s1 i = st_chks s i /\ st_dicts s1 i = st_dicts s i.

  (** Interleavings of the programs [c] of the threads. *)
  Inductive Runs {A} : (id -> dprog A) -> state -> (id -> dprog A) -> state -> Prop :=
  | Runs_none c s : Runs c s c s
  | Runs_step c s t p s1 c' s' :
      dstep (c t) s = Some (p, s1) -> Runs (upd c t p) s1 c' s' -> Runs c s c' s'
  | Runs_other c s s1 c' s' :
      leaves_tables s s1 -> Runs c s1 c' s' -> Runs c s c' s'.
End Exec.
