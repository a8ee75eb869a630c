(** * Zcml: zcml.py, metaconfigure.py, permission.py checkPermission.

    Processing a configuration file registers actions; executing the actions changes
    the world.  The machinery in between ([zope.configuration]) is not part of the
    package; [execution_order], [conflict] and [configure] below state what is assumed
    about it. *)

From Coq Require Import List String Bool Arith ZArith.
From Verif Require Import Base Domain CheckerModel Management Protect.
Import ListNotations.
Open Scope string_scope.

(** An interface or schema: its dotted name, and its names (inherited ones included)
    with [Some readonly] for fields (IField) and [None] for methods and attributes. *)
Record iface := mkIface {
  if_id : string;
  if_names : list (name * option bool)
}.

(** Discriminators of actions.  The number stands for the [object()] in
    metaconfigure.py 62 and 103, equal to nothing else. *)
Inductive discr :=
| DiContent (k : rkey) (unique : nat)
| DiMimic (k : rkey) (unique : nat)
| DiProtectName (k : rkey) (n : name)
| DiProtectSet (k : rkey) (n : name)
| DiModule (k : rkey) (n : name)
| DiPolicy
| DiUtility (provides : string) (n : string).

(** The callables of actions with their arguments. *)
Inductive acall :=
| ALike (k like : rkey)                       (* protectLikeUnto *)
| AName (k : rkey) (n : name) (p : perm)      (* protectName *)
| ASet (k : rkey) (n : name) (p : perm)       (* protectSetAttribute *)
| AModule (k : rkey) (n : name) (p : perm)    (* protectModule *)
| ACheck (permission_id : string)             (* permission.checkPermission *)
| APermission (id title : string)             (* registerUtility of a Permission *)
| APolicy (p : policy)                        (* setSecurityPolicy *)
| AImplements (k : rkey) (i : string)         (* classImplements *)
| AInterface (i : string)                     (* provideInterface *)
| AFactory (k : rkey) (id : string).          (* registerUtility of a Factory *)

(** [a_late]: order=9999999 (zcml.py 56). *)
Record action := mkAction {
  a_discr : option discr;
  a_call : acall;
  a_late : bool
}.

(** The configuration context: actions registered so far, a source of [object()]s,
    and the attribute [permission_mapping]. *)
Record ctx := mkCtx {
  cx_actions : list action;
  cx_unique : nat;
  cx_map : option (list (string * string))
}.

(** Processing steps: exceptions and the context. *)
Definition Z (A : Type) := ctx -> res A * ctx.
Definition zret {A} (a : A) : Z A := fun c => (Ok a, c).
Definition zraise {A} (e : exn) : Z A := fun c => (Exc e, c).
Definition zbind {A B} (m : Z A) (f : A -> Z B) : Z B := fun c =>
  match m c with
  | (Ok a, c1) => f a c1
  | (Exc e, c1) => (Exc e, c1)
  end.
Declare Scope z_scope.
Delimit Scope z_scope with z.
Notation "x <- m ;; f" := (zbind m (fun x => f))
  (at level 61, m at next level, right associativity) : z_scope.
Notation "m ;;; f" := (zbind m (fun _ => f))
  (at level 61, right associativity) : z_scope.
Open Scope z_scope.

(** [_context.action(...)] *)
Definition z_action (d : option discr) (c : acall) (late : bool) : Z unit := fun x =>
  (Ok tt, mkCtx (cx_actions x ++ [mkAction d c late])%list (cx_unique x) (cx_map x)).

(** [object()] *)
Definition z_object : Z nat := fun x =>
  (Ok (cx_unique x), mkCtx (cx_actions x) (S (cx_unique x)) (cx_map x)).

Fixpoint z_each {A} (f : A -> Z unit) (l : list A) : Z unit :=
  match l with
  | [] => zret tt
  | a :: l' => f a ;;; z_each f l'
  end.

(** ** zcml.py *)

(** zcml.py 41-57; the syntactic validation of [Id] is not modelled. *)
Definition Permission_validate (v : string) : Z unit :=
  if negb (String.eqb v zope_Public) then z_action None (ACheck v) true else zret tt.

(** zcml.py 35-39.  [Id.fromUnicode] validates the text as written; the mapping is
    applied afterwards. *)
Definition Permission_fromUnicode (text : string) : Z string :=
  Permission_validate text ;;;
  (fun x =>
     let map := match cx_map x with Some m => m | None => [] end in
     (Ok (match dget String.eqb map text with Some v => v | None => text end), x)).

(** zcml.py 69-74 *)
Definition securityPolicy (p : policy) : Z unit :=
  z_action (Some DiPolicy) (APolicy p) false.

(** zcml.py 96-102; [utility] of zope.component registers the two actions
    (tests/test_zcml.py 112-127). *)
Definition permission_directive (id title : string) : Z unit :=
  z_action (Some (DiUtility "IPermission" id)) (APermission id title) false ;;;
  z_action None (AInterface "IPermission") false.

(** zcml.py 119-126 *)
Definition redefinePermission (from to : string) : Z unit := fun x =>
  let m := match cx_map x with Some m => m | None => [] end in
  (Ok tt, mkCtx (cx_actions x) (cx_unique x) (Some (dset String.eqb m from to))).

(** ** metaconfigure.py: ClassDirective *)

(** [sorted(...)] of strings: insertion sort. *)
Fixpoint insert_sorted (x : string) (l : list string) : list string :=
  match l with
  | [] => [x]
  | y :: l' => if String.leb x y then x :: l else y :: insert_sorted x l'
  end.
Fixpoint sorted (l : list string) : list string :=
  match l with [] => [] | x :: l' => insert_sorted x (sorted l') end.

(** [list(interface)]: all names, inherited ones included. *)
Definition names_of (i : iface) : list name := map fst (if_names i).

(** metaconfigure.py 51-56; [dottedName] fails on anything but a class. *)
Definition ClassDirective_init (k : rkey) : Z unit :=
  match k with KType _ => zret tt | _ => zraise (EAttribute "__module__") end.

(** metaconfigure.py 123-129 *)
Definition cd_protectName (k : rkey) (n : name) (p : perm) : Z unit :=
  z_action (Some (DiProtectName k n)) (AName k n p) false.

(** metaconfigure.py 131-134 *)
Definition cd_protectNames (k : rkey) (names : list name) (p : perm) : Z unit :=
  z_each (fun n => cd_protectName k n p) names.

(** metaconfigure.py 112-121; the names of the pairs are unique, so sorting the
    pairs is sorting the names. *)
Definition cd_protectByInterface (k : rkey) (i : iface) (p : perm) : Z unit :=
  z_each (fun n => cd_protectName k n p) (sorted (names_of i)) ;;;
  z_action None (AInterface (if_id i)) false.

(** metaconfigure.py 136-143 *)
Definition cd_protectSetAttributes (k : rkey) (names : list name) (p : perm) : Z unit :=
  z_each (fun n => z_action (Some (DiProtectSet k n)) (ASet k n p) false) names.

(** metaconfigure.py 145-161 *)
Definition cd_protectSetSchema (k : rkey) (schema : iface) (p : perm) : Z unit :=
  z_each (fun n =>
            match dget String.eqb (if_names schema) n with
            | Some (Some false) => z_action (Some (DiProtectSet k n)) (ASet k n p) false
            | _ => zret tt
            end) (sorted (names_of schema)) ;;;
  z_action None (AInterface (if_id schema)) false.

(** metaconfigure.py 100-106 *)
Definition cd_mimic (k like : rkey) : Z unit :=
  u <- z_object ;;
  z_action (Some (DiMimic k u)) (ALike k like) false.

Definition nonempty {A} (l : list A) : bool := match l with [] => false | _ => true end.

(** A permission id read by the parser as a value; string identities of ids that come
    from ZCML are not distinguished (they are only compared with [==]). *)
Definition zperm (t : string) : perm := PId 0 t.

(** metaconfigure.py 73-98.  An omitted argument and an empty list are both false;
    classes and interfaces are true. *)
Definition cd_require (k : rkey) (permission : option string) (attributes : list name)
    (interface : list iface) (like_class : option rkey) (set_attributes : list name)
    (set_schema : list iface) : Z unit :=
  (match like_class with Some l => cd_mimic k l | None => zret tt end) ;;;
  if negb (nonempty interface || nonempty attributes || nonempty set_attributes
           || nonempty set_schema)
  then match like_class with
       | Some _ => zret tt
       | None => zraise (EConfiguration "Nothing required")
       end
  else
    let go p :=
      z_each (fun i => cd_protectByInterface k i (zperm p)) interface ;;;
      cd_protectNames k attributes (zperm p) ;;;
      cd_protectSetAttributes k set_attributes (zperm p) ;;;
      z_each (fun sc => cd_protectSetSchema k sc (zperm p)) set_schema in
    match permission with
    | None => zraise (EConfiguration "No permission specified")
    | Some p => if String.eqb p "" then zraise (EConfiguration "No permission specified")
                else go p
    end.

(** metaconfigure.py 108-110 *)
Definition cd_allow (k : rkey) (attributes : list name) (interface : list iface) : Z unit :=
  cd_require k (Some zope_Public) attributes interface None [] [].

(** metaconfigure.py 58-71 *)
Definition cd_implements (k : rkey) (interface : list iface) : Z unit :=
  z_each (fun i =>
            u <- z_object ;;
            z_action (Some (DiContent k u)) (AImplements k (if_id i)) false ;;;
            z_action None (AInterface (if_id i)) false) interface.

(** metaconfigure.py 167-177.  The permission argument of [utility] is zope.Public; it
    wraps the factory in a public proxy, which is not modelled. *)
Definition cd_factory (k : rkey) (id : option string) : Z unit :=
  let the_id := match id, k with
                | Some i, _ => if String.eqb i "" then
                                 match k with KType c => c | _ => "" end else i
                | None, KType c => c
                | None, _ => ""
                end in
  z_action (Some (DiUtility "IFactory" the_id)) (AFactory k the_id) false ;;;
  z_action None (AInterface "IFactory") false.

(** ** metaconfigure.py: module directives *)

(** The generator metaconfigure.py 200-210; [seen] grows along the way. *)
Fixpoint unseen (seen : list name) (l : list name) : list name :=
  match l with
  | [] => []
  | n :: l' => if mem n seen then unseen seen l' else n :: unseen (n :: seen) l'
  end.
Definition names (attributes : list name) (interfaces : list iface) : list name :=
  unseen [] (attributes ++ flat_map names_of interfaces).

(** metaconfigure.py 224-231 *)
Definition md_require (m : rkey) (permission : string) (attributes : list name)
    (interface : list iface) : Z unit :=
  z_each (fun n => z_action (Some (DiModule m n)) (AModule m n (zperm permission)) false)
         (names attributes interface).

(** metaconfigure.py 213-221 *)
Definition md_allow (m : rkey) (attributes : list name) (interface : list iface) : Z unit :=
  z_each (fun n => z_action (Some (DiModule m n)) (AModule m n (zperm zope_Public)) false)
         (names attributes interface).

(** ** Configuration files *)

(** Subdirectives of <class> and directives inside <module> (meta.zcml).  The schema
    of the module <require> (metadirectives.py 180-203) has no [interface]; the handler
    accepts it. *)
Inductive csub :=
| CRequire (permission : option string) (attributes : list name) (interface : list iface)
           (like_class : option rkey) (set_attributes : list name) (set_schema : list iface)
| CAllow (attributes : list name) (interface : list iface)
| CImplements (interface : list iface)
| CFactory (id : option string).

Inductive msub :=
| MRequire (permission : string) (attributes : list name) (interface : list iface)
| MAllow (attributes : list name) (interface : list iface).

Inductive directive :=
| ZPermission (id title : string)
| ZRedefine (from to : string)
| ZPolicy (p : policy)
| ZClass (k : rkey) (subs : list csub)
| ZModule (m : rkey) (subs : list msub).

(** Fields are read (fromUnicode) before the handler is called. *)
Definition process_csub (k : rkey) (d : csub) : Z unit :=
  match d with
  | CRequire permission attributes interface like set_attributes set_schema =>
      p <- match permission with
           | Some t => v <- Permission_fromUnicode t ;; zret (Some v)
           | None => zret None
           end ;;
      cd_require k p attributes interface like set_attributes set_schema
  | CAllow attributes interface => cd_allow k attributes interface
  | CImplements interface => cd_implements k interface
  | CFactory id => cd_factory k id
  end.

Definition process_msub (m : rkey) (d : msub) : Z unit :=
  match d with
  | MRequire permission attributes interface =>
      p <- Permission_fromUnicode permission ;;
      md_require m p attributes interface
  | MAllow attributes interface => md_allow m attributes interface
  end.

Definition process_directive (d : directive) : Z unit :=
  match d with
  | ZPermission id title => permission_directive id title
  | ZRedefine from to =>
      f <- Permission_fromUnicode from ;;
      t <- Permission_fromUnicode to ;;
      redefinePermission f t
  | ZPolicy p => securityPolicy p
  | ZClass k subs => ClassDirective_init k ;;; z_each (process_csub k) subs
  | ZModule m subs => z_each (process_msub m) subs
  end.

Definition process (ds : list directive) : Z unit := z_each process_directive ds.

(** ** Executing actions *)

(** The world: the core state, the registered IPermission utilities (id, title), and
    a record of the effects that belong to other packages. *)
Record world := mkWorld {
  w_core : state;
  w_perms : list (string * string);
  w_other : list acall
}.

Definition core {A} (m : M A) (w : world) : res unit * world :=
  match m (w_core w) with
  | (Ok _, s, _) => (Ok tt, mkWorld s (w_perms w) (w_other w))
  | (Exc e, s, _) => (Exc e, mkWorld s (w_perms w) (w_other w))
  end.

(** permission.py 45-53.  A registered permission object is true. *)
Definition checkPermission_id (id : string) (w : world) : res unit * world :=
  match dget String.eqb (w_perms w) id with
  | Some _ => (Ok tt, w)
  | None => (Exc (EValue "Undefined permission ID"), w)
  end.

Definition exec_call (E : env) (c : acall) (w : world) : res unit * world :=
  match c with
  | ALike k l => core (protectLikeUnto E k l) w
  | AName k n p => core (protectName E k n p) w
  | ASet k n p => core (protectSetAttribute E k n p) w
  | AModule k n p => core (protectModule E k n p) w
  | ACheck id => checkPermission_id id w
  | APermission id title =>
      (Ok tt, mkWorld (w_core w) (dset String.eqb (w_perms w) id title) (w_other w))
  | APolicy p => core (setSecurityPolicy p) w
  | AImplements _ _ | AInterface _ | AFactory _ _ =>
      (Ok tt, mkWorld (w_core w) (w_perms w) (w_other w ++ [c]))
  end.

(** Actions run one after the other; an exception ends the execution. *)
Fixpoint exec_actions (E : env) (l : list action) (w : world) : res unit * world :=
  match l with
  | [] => (Ok tt, w)
  | a :: l' =>
      match exec_call E (a_call a) w with
      | (Ok _, w1) => exec_actions E l' w1
      | (Exc e, w1) => (Exc e, w1)
      end
  end.

(** zope.configuration sorts actions by [order or position]: the late ones come last (for
    fewer than 9999999 actions). *)
Definition execution_order (l : list action) : list action :=
  filter (fun a => negb (a_late a)) l ++ filter a_late l.

Definition discr_eqb (a b : discr) : bool :=
  match a, b with
  | DiContent k u, DiContent k' u' | DiMimic k u, DiMimic k' u' =>
      rkey_eqb k k' && Nat.eqb u u'
  | DiProtectName k n, DiProtectName k' n' | DiProtectSet k n, DiProtectSet k' n'
  | DiModule k n, DiModule k' n' => rkey_eqb k k' && String.eqb n n'
  | DiPolicy, DiPolicy => true
  | DiUtility p n, DiUtility p' n' => String.eqb p p' && String.eqb n n'
  | _, _ => false
  end.

(** zope.configuration rejects two actions of one file with equal discriminators. *)
Fixpoint conflict (l : list action) : bool :=
  match l with
  | [] => false
  | a :: l' =>
      match a_discr a with
      | None => conflict l'
      | Some d => existsb (fun b => match a_discr b with
                                    | Some d' => discr_eqb d d'
                                    | None => false
                                    end) l' || conflict l'
      end
  end.

Definition empty_ctx : ctx := mkCtx [] 0 None.

(** Loading one configuration file. *)
Definition configure (E : env) (ds : list directive) (w : world) : res unit * world :=
  match process ds empty_ctx with
  | (Exc e, _) => (Exc e, w)
  | (Ok _, c) =>
      if conflict (cx_actions c) then (Exc (EConfiguration "conflict"), w)
      else exec_actions E (execution_order (cx_actions c)) w
  end.
