(** * IncludesSpec: what a configuration of several files means.

    Written from the directives and the way the files include each other, without
    actions or discriminators. *)

From Coq Require Import List String Bool Arith.
From Verif Require Import Base Domain CheckerModel Spec ProtectSpec Zcml ZcmlSpec Includes.
Import ListNotations.
Open Scope string_scope.

(** ** The statements of a configuration *)

(** A directive, the files that led to it, and what permission ids mean there. *)
Record statement := mkStatement {
  sm_path : path;
  sm_meaning : meaning;
  sm_dir : directive
}.

(** While reading: are there redefinitions in force, what do ids mean, which files have
    been read. *)
Record reading := mkReading {
  rd_redefined : bool;
  rd_meaning : meaning;
  rd_seen : list string
}.

Definition is_redefinition (d : directive) : bool :=
  match d with ZRedefine _ _ => true | _ => false end.

(** At the end of a group its redefinitions end, unless there were some before it. *)
Definition after_group (r r1 : reading) : reading :=
  if rd_redefined r then r1 else mkReading false (rd_meaning r) (rd_seen r1).

Fixpoint read_node (p : path) (n : node) (r : reading) : list statement * reading :=
  let each := fix each (q : path) (ns : list node) (r : reading) : list statement * reading :=
    match ns with
    | [] => ([], r)
    | n :: ns' => let (l, r1) := read_node q n r in
                  let (l', r2) := each q ns' r1 in ((l ++ l')%list, r2)
    end in
  match n with
  | NDir d => ([mkStatement p (rd_meaning r) d],
               mkReading (rd_redefined r || is_redefinition d) (next (rd_meaning r) d) (rd_seen r))
  | NGroup ns => let (l, r1) := each p ns r in (l, after_group r r1)
  | NInclude f ns =>
      if existsb (String.eqb f) (rd_seen r) then ([], r)
      else let (l, r1) := each (p ++ [f])%list ns
                            (mkReading (rd_redefined r) (rd_meaning r) (f :: rd_seen r)) in
           (l, after_group r r1)
  end.

Fixpoint read_nodes (p : path) (ns : list node) (r : reading) : list statement * reading :=
  match ns with
  | [] => ([], r)
  | n :: ns' => let (l, r1) := read_node p n r in
                let (l', r2) := read_nodes p ns' r1 in ((l ++ l')%list, r2)
  end.

Definition beginning : reading := mkReading false literal [].
Definition statements (ns : list node) : list statement := fst (read_nodes [] ns beginning).
Definition directives (ns : list node) : list directive := map sm_dir (statements ns).

(** ** Claims and overriding *)

Definition claimed (l : list statement) : list (path * claim) :=
  flat_map (fun s => map (pair (sm_path s)) (directive_claims (sm_dir s))) l.

(** The file at the end of [p] leads, by including, to the file at the end of [q]. *)
Definition above (p q : path) : Prop := exists r, r <> [] /\ q = (p ++ r)%list.

(** Nobody above claims the same. *)
Definition stands (l : list (path * claim)) (p : path) (c : claim) : Prop :=
  forall q, In (q, c) l -> ~ above q p.

(** No claim stands twice. *)
Definition consistent (l : list (path * claim)) : Prop :=
  forall i j p q c,
    nth_error l i = Some (p, c) -> nth_error l j = Some (q, c) ->
    stands l p c -> stands l q c -> i = j.

(** ** What a directive says about a name *)

Inductive csub_protects (m : meaning) (k : rkey) : csub -> claim -> string -> Prop :=
| CpRead t a i like sa ss n : In n (read_names a i) ->
    csub_protects m k (CRequire (Some t) a i like sa ss) (ClRead k n) (m t)
| CpWrite t a i like sa ss n : In n (write_names sa ss) ->
    csub_protects m k (CRequire (Some t) a i like sa ss) (ClWrite k n) (m t)
| CpAllow a i n : In n (read_names a i) ->
    csub_protects m k (CAllow a i) (ClRead k n) "zope.Public".

Inductive msub_protects (m : meaning) (k : rkey) : msub -> claim -> string -> Prop :=
| MpRequire t a i n : In n (read_names a i) ->
    msub_protects m k (MRequire t a i) (ClModule k n) (m t)
| MpAllow a i n : In n (read_names a i) ->
    msub_protects m k (MAllow a i) (ClModule k n) "zope.Public".

Inductive protects (m : meaning) : directive -> claim -> string -> Prop :=
| PrClass k subs s c t : In s subs -> csub_protects m k s c t -> protects m (ZClass k subs) c t
| PrModule k subs s c t : In s subs -> msub_protects m k s c t -> protects m (ZModule k subs) c t.

(** A class that is declared to be like another. *)
Definition copying (k : rkey) (ds : list directive) : Prop :=
  exists subs s, In (ZClass k subs) ds /\ In s subs /\ csub_likes s <> [].

(** ** Loading *)

Definition files_loadable (ns : list node) (w : world) : Prop := loadable (directives ns) w.

Definition files_accepted (ns : list node) (w : world) : Prop :=
  (forall s, In s (statements ns) -> directive_ok (sm_meaning s) (sm_dir s)) /\
  consistent (claimed (statements ns)) /\
  (forall t, In t (used (directives ns)) -> defined (directives ns) w t).

(** The statement [s] is in the configuration and nobody above contradicts what it says
    of [c]. *)
Definition in_force (ns : list node) (s : statement) (c : claim) : Prop :=
  In s (statements ns) /\ In c (directive_claims (sm_dir s)) /\
  stands (claimed (statements ns)) (sm_path s) c.

Definition unclaimed (ns : list node) (c : claim) : Prop :=
  forall d, In d (directives ns) -> ~ In c (directive_claims d).

(** ** The first file's own directives *)

Definition redefines_nothing (ns : list node) : Prop :=
  forall d, In (NDir d) ns -> is_redefinition d = false.

(** What ids would mean after [ns] if only its own redefinitions counted. *)
Fixpoint own_meaning (m : meaning) (ns : list node) : meaning :=
  match ns with
  | [] => m
  | NDir d :: ns' => own_meaning (next m d) ns'
  | _ :: ns' => own_meaning m ns'
  end.

(** ** The configuration of the package *)

(** An application that includes the package first. *)
Definition application (post : list node) : list node :=
  NInclude "zope.security/configure.zcml" configure_zcml :: post.

Definition shipped_permissions : list string :=
  ["zope.Public"; "zope.View"; "zope.Security"; "zope.ManageContent"; "zope.ManageServices";
   "zope.ManageSite"].
Definition Permission_class : rkey := KType "zope.security.permission.Permission".

(** The directives of the first file itself, in groups or not, do not claim [c]. *)
Definition leaves (ns : list node) (c : claim) : Prop :=
  forall s, In s (statements ns) -> sm_path s = [] -> ~ In c (directive_claims (sm_dir s)).
