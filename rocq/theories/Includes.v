(** * Includes: configurations that consist of several files.

    [Zcml.configure] loads one file.  Here files include each other, nested <configure>
    elements form groups, and the attribute [permission_mapping] that
    zcml.py 119-126 sets on [_context.context] belongs to the innermost group.

    What is assumed of zope.configuration: a group context that lacks an attribute
    delegates to the enclosing one (GroupingContextDecorator); a file is processed the
    first time it is included; an action carries the files that led to it
    ([includepath]); of several actions with one discriminator, the one whose path is a
    proper prefix of the paths of all others is kept, otherwise there is a conflict. *)

From Coq Require Import List String Bool Arith.
From Verif Require Import Base Domain CheckerModel Management Protect Zcml.
Import ListNotations.
Open Scope string_scope.

(** A file or group: directives, nested <configure> elements, <include> with the
    contents of the included file. *)
Inductive node :=
| NDir (d : directive)
| NGroup (ns : list node)
| NInclude (file : string) (ns : list node).

Definition path := list string.
Definition mapping := list (string * string).

(** The machine: actions with their paths, a source of [object()]s, the files processed,
    and for every open group, innermost first, its own [permission_mapping]. *)
Record tctx := mkT {
  t_actions : list (path * action);
  t_unique : nat;
  t_seen : list string;
  t_maps : list (option mapping)
}.

(** [hasattr/getattr(_context, 'permission_mapping')], zcml.py 38 and 123: the group's own
    or that of the nearest enclosing group which has one. *)
Fixpoint nearest (maps : list (option mapping)) : option mapping :=
  match maps with
  | [] => None
  | Some m :: _ => Some m
  | None :: maps' => nearest maps'
  end.

(** zcml.py 126: item assignment changes the mapping that was found ... *)
Fixpoint change_nearest (maps : list (option mapping)) (m : mapping) : list (option mapping) :=
  match maps with
  | [] => []
  | Some _ :: maps' => Some m :: maps'
  | None :: maps' => None :: change_nearest maps' m
  end.
(** ... or the one just created on the innermost group (zcml.py 123-124). *)
Definition store (maps : list (option mapping)) (o : option mapping) : list (option mapping) :=
  match o with
  | None => maps
  | Some m => match nearest maps with
              | Some _ => change_nearest maps m
              | None => match maps with [] => [] | _ :: maps' => Some m :: maps' end
              end
  end.

Definition opened (x : tctx) : tctx :=
  mkT (t_actions x) (t_unique x) (t_seen x) (None :: t_maps x).
Definition closed (x : tctx) : tctx :=
  mkT (t_actions x) (t_unique x) (t_seen x) (tl (t_maps x)).
Definition marked (f : string) (x : tctx) : tctx :=
  mkT (t_actions x) (t_unique x) (f :: t_seen x) (t_maps x).

(** One directive of a file with path [p]; the handlers are those of [Zcml]. *)
Definition process_in (p : path) (d : directive) (x : tctx) : res unit * tctx :=
  let (r, c) := process_directive d (mkCtx [] (t_unique x) (nearest (t_maps x))) in
  (r, mkT (t_actions x ++ map (pair p) (cx_actions c)) (cx_unique c) (t_seen x)
          (store (t_maps x) (cx_map c))).

Fixpoint process_node (p : path) (n : node) (x : tctx) : res unit * tctx :=
  let each := fix each (q : path) (ns : list node) (x : tctx) : res unit * tctx :=
    match ns with
    | [] => (Ok tt, x)
    | n :: ns' =>
        match process_node q n x with
        | (Ok _, x1) => each q ns' x1
        | (Exc e, x1) => (Exc e, x1)
        end
    end in
  match n with
  | NDir d => process_in p d x
  | NGroup ns => let (r, x1) := each p ns (opened x) in (r, closed x1)
  | NInclude f ns =>
      if existsb (String.eqb f) (t_seen x) then (Ok tt, x)
      else let (r, x1) := each (p ++ [f])%list ns (opened (marked f x)) in (r, closed x1)
  end.

Fixpoint process_nodes (p : path) (ns : list node) (x : tctx) : res unit * tctx :=
  match ns with
  | [] => (Ok tt, x)
  | n :: ns' =>
      match process_node p n x with
      | (Ok _, x1) => process_nodes p ns' x1
      | (Exc e, x1) => (Exc e, x1)
      end
  end.

(** [p] leads to [q] in one step or more. *)
Fixpoint leads (p q : path) : bool :=
  match p, q with
  | [], _ :: _ => true
  | a :: p', b :: q' => String.eqb a b && leads p' q'
  | _, _ => false
  end.

(** resolveConflicts: an action is dropped if a file that (indirectly) includes its file has
    an action with the same discriminator.  (The original sorts by path and compares
    with the first; a unique action remains in both versions or there is a conflict in
    both.) *)
Definition overridden (l : list (path * action)) (a : path * action) : bool :=
  match a_discr (snd a) with
  | None => false
  | Some d => existsb (fun b => leads (fst b) (fst a) &&
                                match a_discr (snd b) with
                                | Some d' => discr_eqb d d'
                                | None => false
                                end) l
  end.
Definition resolved (l : list (path * action)) : list action :=
  map snd (filter (fun a => negb (overridden l a)) l).

Definition start : tctx := mkT [] 0 [] [None].

(** Loading a configuration: the nodes of the first file. *)
Definition configure_files (E : env) (ns : list node) (w : world) : res unit * world :=
  match process_nodes [] ns start with
  | (Exc e, _) => (Exc e, w)
  | (Ok _, x) =>
      let l := resolved (t_actions x) in
      if conflict l then (Exc (EConfiguration "conflict"), w)
      else exec_actions E (execution_order l) w
  end.

(** ** The configuration that the package ships *)

(** interfaces.py 477-499 *)
Definition IPermission : iface :=
  mkIface "zope.security.interfaces.IPermission"
    [("id", Some true); ("title", Some false); ("description", Some false)].

(** permissions.zcml; [meta.zcml] defines directives and has no actions of its own. *)
Definition permissions_zcml : list node :=
  [ NInclude "zope.security/meta.zcml" [];
    NDir (ZPermission "zope.Public" "[public-permission] Public");
    NDir (ZPermission "zope.View" "[view-permission] View");
    NDir (ZPermission "zope.Security" "[change-security-settings-permission] Change security settings");
    NDir (ZPermission "zope.ManageContent" "[manage-content-permission] Manage Content");
    NDir (ZPermission "zope.ManageServices" "[manage-services-permission] Manage Services");
    NDir (ZPermission "zope.ManageSite" "[manage-site-permission] Manage Site") ].

(** configure.zcml; the two <utility> directives (lines 6-16) belong to zope.component and
    are left out. *)
Definition configure_zcml : list node :=
  [ NInclude "zope.component/meta.zcml" [];
    NInclude "zope.security/meta.zcml" [];
    NDir (ZClass (KType "zope.security.permission.Permission") [CAllow [] [IPermission]]);
    NInclude "zope.security/permissions.zcml" permissions_zcml ].
