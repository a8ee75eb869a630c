(** * ReloadSpec: loading several files, or one file again. *)

From Coq Require Import List String Bool Arith.
From Verif Require Import Base Domain CheckerModel Spec ProtectSpec Zcml ZcmlSpec.
Import ListNotations.
Open Scope string_scope.

(** The same protections, permissions and policy. *)
Definition agree (w w' : world) : Prop :=
  (forall k n, read_protection (w_core w') k n = read_protection (w_core w) k n) /\
  (forall k n, write_protection (w_core w') k n = write_protection (w_core w) k n) /\
  (forall id, dget String.eqb (w_perms w') id = dget String.eqb (w_perms w) id) /\
  st_policy (w_core w') = st_policy (w_core w).

(** Classes are described before others are made like them: from a like_class on, the
    file says nothing more about the class named there. *)
Fixpoint described_first (ds : list directive) : Prop :=
  match ds with
  | [] => True
  | ZClass k subs :: ds' =>
      (forall l, In l (flat_map csub_likes subs) -> l <> k /\ ~ In l (touched ds')) /\
      described_first ds'
  | _ :: ds' => described_first ds'
  end.

(** [ds] neither changes nor copies the classes of [ds'], and defines nothing that [ds']
    defines. *)
Definition apart (ds ds' : list directive) : Prop :=
  (forall k, In k (touched ds ++ likes ds) -> ~ In k (touched ds')) /\
  (forall c, In c (claims ds) -> ~ In c (claims ds')).
