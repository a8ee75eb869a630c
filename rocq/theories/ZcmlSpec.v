(** * ZcmlSpec: what a configuration file means.

    Written from the directives alone, without actions, contexts or discriminators. *)

From Coq Require Import List String Bool Arith ZArith.
From Verif Require Import Base Domain CheckerModel ProxyModel Spec ProtectSpec Zcml.
Import ListNotations.
Open Scope string_scope.

(** ** Permission ids *)

(** What a permission id written in a file means, given the redefinitions before it. *)
Definition meaning := string -> string.
Definition literal : meaning := fun x => x.

(** [<meta:redefinePermission from="a" to="b">]; [a] and [b] are themselves read with
    the redefinitions before. *)
Definition redefined (m : meaning) (a b : string) : meaning :=
  fun x => if String.eqb x (m a) then m b else m x.

Definition next (m : meaning) (d : directive) : meaning :=
  match d with ZRedefine a b => redefined m a b | _ => m end.

Definition meaning_after (m : meaning) (ds : list directive) : meaning :=
  fold_left next ds m.

(** The protection a permission id stands for. *)
Definition protect_by (t : string) : perm :=
  if String.eqb t "zope.Public" then PPublic else PId 0 t.

(** ** Names *)

(** Names listed, or names of the interfaces. *)
Definition read_names (attributes : list name) (interfaces : list iface) : list name :=
  attributes ++ flat_map (fun i => map fst (if_names i)) interfaces.

(** The fields of a schema that are not read-only. *)
Definition writable (sc : iface) : list name :=
  flat_map (fun e => match snd e with Some false => [fst e] | _ => [] end) (if_names sc).
Definition write_names (set_attributes : list name) (schemas : list iface) : list name :=
  set_attributes ++ flat_map writable schemas.

(** Interfaces have each name once. *)
Definition iface_wf (i : iface) : Prop := NoDup (map fst (if_names i)).

(** ** Protection *)

(** [names] of [k] are protected by [t]; everything else as in [f]. *)
Definition protect (k : rkey) (names : list name) (t : string) (f : protection) : protection :=
  fun k' n => if rkey_eqb k' k && existsb (String.eqb n) names
              then Some (protect_by t) else f k' n.

Definition liken (k : rkey) (like : option rkey) (f : protection) : protection :=
  match like with Some l => inherit f k l | None => f end.

Definition csub_reads (m : meaning) (k : rkey) (f : protection) (d : csub) : protection :=
  match d with
  | CRequire (Some t) attributes interface like _ _ =>
      protect k (read_names attributes interface) (m t) (liken k like f)
  | CRequire None _ _ like _ _ => liken k like f
  | CAllow attributes interface => protect k (read_names attributes interface) "zope.Public" f
  | CImplements _ | CFactory _ => f
  end.

Definition csub_writes (m : meaning) (k : rkey) (f : protection) (d : csub) : protection :=
  match d with
  | CRequire (Some t) _ _ like set_attributes set_schema =>
      protect k (write_names set_attributes set_schema) (m t) (liken k like f)
  | CRequire None _ _ like _ _ => liken k like f
  | CAllow _ _ | CImplements _ | CFactory _ => f
  end.

Definition msub_reads (m : meaning) (k : rkey) (f : protection) (d : msub) : protection :=
  match d with
  | MRequire t attributes interface => protect k (read_names attributes interface) (m t) f
  | MAllow attributes interface => protect k (read_names attributes interface) "zope.Public" f
  end.

Definition directive_reads (m : meaning) (f : protection) (d : directive) : protection :=
  match d with
  | ZClass k subs => fold_left (csub_reads m k) subs f
  | ZModule k subs => fold_left (msub_reads m k) subs f
  | _ => f
  end.

Definition directive_writes (m : meaning) (f : protection) (d : directive) : protection :=
  match d with
  | ZClass k subs => fold_left (csub_writes m k) subs f
  | _ => f
  end.

(** The protection after reading [ds] in order. *)
Fixpoint file_reads (m : meaning) (ds : list directive) (f : protection) : protection :=
  match ds with
  | [] => f
  | d :: ds' => file_reads (next m d) ds' (directive_reads m f d)
  end.
Fixpoint file_writes (m : meaning) (ds : list directive) (f : protection) : protection :=
  match ds with
  | [] => f
  | d :: ds' => file_writes (next m d) ds' (directive_writes m f d)
  end.

(** ** Rejections *)

(** A <require> protects something by a permission, or is like another class. *)
Definition csub_ok (m : meaning) (d : csub) : Prop :=
  match d with
  | CRequire permission attributes interface like set_attributes set_schema =>
      (attributes = [] /\ interface = [] /\ set_attributes = [] /\ set_schema = [] /\
       like <> None) \/
      ((attributes <> [] \/ interface <> [] \/ set_attributes <> [] \/ set_schema <> []) /\
       exists t, permission = Some t /\ m t <> "")
  | CAllow attributes interface => attributes <> [] \/ interface <> []
  | _ => True
  end.

Definition directive_ok (m : meaning) (d : directive) : Prop :=
  match d with
  | ZClass k subs => (exists c, k = KType c) /\ forall s, In s subs -> csub_ok m s
  | _ => True
  end.

Fixpoint well_formed (m : meaning) (ds : list directive) : Prop :=
  match ds with
  | [] => True
  | d :: ds' => directive_ok m d /\ well_formed (next m d) ds'
  end.

(** What a directive says something about.  Within a class, every mention counts; a
    module directive mentions each name once. *)
Inductive claim :=
| ClRead (k : rkey) (n : name)
| ClWrite (k : rkey) (n : name)
| ClModule (k : rkey) (n : name)
| ClPolicy
| ClPermission (id : string)
| ClFactory (id : string).

Definition class_name (k : rkey) : string := match k with KType c => c | _ => "" end.

Definition csub_claims (k : rkey) (d : csub) : list claim :=
  match d with
  | CRequire _ attributes interface _ set_attributes set_schema =>
      map (ClRead k) (read_names attributes interface) ++
      map (ClWrite k) (write_names set_attributes set_schema)
  | CAllow attributes interface => map (ClRead k) (read_names attributes interface)
  | CImplements _ => []
  | CFactory (Some id) => [ClFactory (if String.eqb id "" then class_name k else id)]
  | CFactory None => [ClFactory (class_name k)]
  end.

Definition msub_claims (k : rkey) (d : msub) : list claim :=
  match d with
  | MRequire _ attributes interface | MAllow attributes interface =>
      map (ClModule k) (nodup string_dec (read_names attributes interface))
  end.

Definition directive_claims (d : directive) : list claim :=
  match d with
  | ZPermission id _ => [ClPermission id]
  | ZRedefine _ _ => []
  | ZPolicy _ => [ClPolicy]
  | ZClass k subs => flat_map (csub_claims k) subs
  | ZModule k subs => flat_map (msub_claims k) subs
  end.
Definition claims (ds : list directive) : list claim := flat_map directive_claims ds.

(** The permission ids written in fields of a file. *)
Definition csub_used (d : csub) : list string :=
  match d with CRequire (Some t) _ _ _ _ _ => [t] | _ => [] end.
Definition msub_used (d : msub) : list string :=
  match d with MRequire t _ _ => [t] | _ => [] end.
Definition directive_used (d : directive) : list string :=
  match d with
  | ZRedefine a b => [a; b]
  | ZClass _ subs => flat_map csub_used subs
  | ZModule _ subs => flat_map msub_used subs
  | _ => []
  end.
Definition used (ds : list directive) : list string := flat_map directive_used ds.

(** Ids that are public, registered before, or defined somewhere in the file. *)
Definition defined (ds : list directive) (w : world) (id : string) : Prop :=
  id = "zope.Public" \/ In id (map fst (w_perms w)) \/
  exists title, In (ZPermission id title) ds.

(** ** The registry a file can be loaded into *)

Definition touched (ds : list directive) : list rkey :=
  flat_map (fun d => match d with ZClass k _ | ZModule k _ => [k] | _ => [] end) ds.
Definition csub_likes (d : csub) : list rkey :=
  match d with CRequire _ _ _ (Some l) _ _ => [l] | _ => [] end.
Definition likes (ds : list directive) : list rkey :=
  flat_map (fun d => match d with ZClass _ subs => flat_map csub_likes subs | _ => [] end) ds.

Definition configurable (ds : list directive) (s : state) : Prop :=
  registry_wf s /\
  (forall k, In k (touched ds) -> is_class_or_module k /\ plain_entry s k /\ unshared s k) /\
  (forall k, In k (likes ds) -> plain_entry s k).

(** The interfaces mentioned. *)
Definition csub_ifaces (d : csub) : list iface :=
  match d with
  | CRequire _ _ interface _ _ set_schema => interface ++ set_schema
  | CAllow _ interface | CImplements interface => interface
  | CFactory _ => []
  end.
Definition msub_ifaces (d : msub) : list iface :=
  match d with MRequire _ _ interface | MAllow _ interface => interface end.
Definition ifaces (ds : list directive) : list iface :=
  flat_map (fun d => match d with
                     | ZClass _ subs => flat_map csub_ifaces subs
                     | ZModule _ subs => flat_map msub_ifaces subs
                     | _ => []
                     end) ds.

(** The permissions registered and the policy chosen by a file. *)
Definition perms_of (ds : list directive) : list (string * string) :=
  flat_map (fun d => match d with ZPermission id title => [(id, title)] | _ => [] end) ds.
Definition policy_of (ds : list directive) (p : policy) : policy :=
  fold_left (fun p d => match d with ZPolicy q => q | _ => p end) ds p.

(** Registry, tables and policy have changed at most. *)
Definition only_config (s s' : state) : Prop :=
  only_tables (set_policy (st_policy s') s) s'.

(** What loading the file [ds] turns [w] into: the protections the file says, its
    permissions and policy; new checkers are ordinary ones, those that were there stay
    where they are, other entries of the registry stay, and whatever files could be
    loaded before can be loaded afterwards. *)
Definition loaded (E : env) (ds : list directive) (w w' : world) : Prop :=
  (forall k n, read_protection (w_core w') k n =
               file_reads literal ds (read_protection (w_core w)) k n) /\
  (forall k n, write_protection (w_core w') k n =
               file_writes literal ds (write_protection (w_core w)) k n) /\
  w_perms w' = fold_left (fun d e => dset String.eqb d (fst e) (snd e)) (perms_of ds) (w_perms w) /\
  only_config (w_core w) (w_core w') /\
  st_policy (w_core w') = policy_of ds (st_policy (w_core w)) /\
  (forall k, ~ In k (touched ds) ->
     dget rkey_eqb (st_reg (w_core w')) k = dget rkey_eqb (st_reg (w_core w)) k) /\
  (e_watch E = 0 -> forall k i c, live (w_core w') k i c ->
     live (w_core w) k i c \/ (ck_kind c = CkPlain /\ i <> default_cid)) /\
  (forall k i c, live (w_core w) k i c -> live (w_core w') k i c) /\
  (forall ds', configurable ds' (w_core w) -> configurable ds' (w_core w')).

(** Directives whose meaning does not depend on what comes before them. *)
Definition csub_standalone (d : csub) : Prop :=
  match d with CRequire _ _ _ (Some _) _ _ => False | _ => True end.
Definition standalone (d : directive) : Prop :=
  match d with
  | ZRedefine _ _ => False
  | ZClass k subs => (exists c, k = KType c) /\ forall s, In s subs -> csub_standalone s
  | ZModule k _ => exists m, k = KMod m
  | _ => True
  end.

(** ** Enforcement: checks with checker [c] follow the table [tb] *)

Definition reads_checked E s (tb : table) c obj : Prop :=
  forall f m n r s2 tr, m <> MSetattr -> (n = "__iter__" -> plain_object obj) ->
    do_check E (S (S f)) m c obj n s = (r, s2, tr) -> ReadCheck E s tb obj n r s2 tr.
Definition writes_checked E s (tb : table) c obj : Prop :=
  forall f n r s2 tr, do_check E (S f) MSetattr c obj n s = (r, s2, tr) ->
    WriteCheck E s tb obj n r s2 tr.

(** ** Files that load *)

Definition accepted (ds : list directive) (w : world) : Prop :=
  well_formed literal ds /\ NoDup (claims ds) /\ forall t, In t (used ds) -> defined ds w t.

Definition loadable (ds : list directive) (w : world) : Prop :=
  configurable ds (w_core w) /\ forall i, In i (ifaces ds) -> iface_wf i.

(** The protection calls among registered actions. *)
Definition protections (c : ctx) : list acall :=
  filter (fun x => match x with ALike _ _ | AName _ _ _ | ASet _ _ _ | AModule _ _ _ => true
                   | _ => false end) (map a_call (cx_actions c)).

(** Directives with nothing but like_class. *)
Definition only_likes (d : directive) : Prop :=
  match d with
  | ZClass _ subs => forall s, In s subs -> exists p l, s = CRequire p [] [] (Some l) [] []
  | _ => False
  end.

(** No permission id is empty. *)
Definition ids_nonempty (ds : list directive) : Prop := ~ In "" (used ds).
