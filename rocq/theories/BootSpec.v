(** * BootSpec: what importing the package should give. *)

From Coq Require Import List String Ascii Bool ZArith.
From Verif Require Import Base Domain Boot.
Import ListNotations.
Open Scope string_scope.

(** ** Integers *)

Definition space (a : ascii) : Prop :=
  In a [" "; "009"; "010"; "011"; "012"; "013"]%char.
Fixpoint spaces (s : string) : Prop :=
  match s with EmptyString => True | String a s1 => space a /\ spaces s1 end.

Definition decimal (a : ascii) (x : Z) : Prop :=
  In (a, x) [("0", 0); ("1", 1); ("2", 2); ("3", 3); ("4", 4); ("5", 5); ("6", 6); ("7", 7);
             ("8", 8); ("9", 9)]%char%Z.

(** Decimal digits, with single underscores between them, and their value if [v] is the
    value of what precedes them. *)
Inductive digits (v : Z) : string -> Z -> Prop :=
| digits_last a x : decimal a x -> digits v (String a "") (10 * v + x)
| digits_next a x s z : decimal a x -> digits (10 * v + x) s z -> digits v (String a s) z
| digits_under a x s z :
    decimal a x -> digits (10 * v + x) s z -> digits v (String a (String "_" s)) z.

(** The strings that stand for an integer. *)
Inductive int_literal : string -> Z -> Prop :=
| literal_plain l ds r z :
    spaces l -> digits 0 ds z -> spaces r -> int_literal (l ++ ds ++ r) z
| literal_plus l ds r z :
    spaces l -> digits 0 ds z -> spaces r -> int_literal (l ++ "+" ++ ds ++ r) z
| literal_minus l ds r z :
    spaces l -> digits 0 ds z -> spaces r -> int_literal (l ++ "-" ++ ds ++ r) (- z).

(** ** Choice of the implementations *)

(** The Python implementation is asked for (true) or not (false). *)
Inductive python_wanted (x : platform) : bool -> Prop :=
| wanted_set v z :
    x_environ x "PURE_PYTHON" = Some v -> int_literal v z -> python_wanted x (negb (z =? 0)%Z)
| wanted_unset : x_environ x "PURE_PYTHON" = None -> python_wanted x (x_pypy x).

(** Missing or unsuitable extension modules. *)
Definition harmless (e : option failure) : Prop :=
  e = None \/ e = Some FImport \/ e = Some FAttribute.

(** ** The watching checkers *)

Inductive watch_level (x : platform) : Z -> Prop :=
| watch_unset : x_environ x "ZOPE_WATCH_CHECKERS" = None -> watch_level x 0
| watch_empty : x_environ x "ZOPE_WATCH_CHECKERS" = Some "" -> watch_level x 0
| watch_number v z :
    x_environ x "ZOPE_WATCH_CHECKERS" = Some v -> int_literal v z -> watch_level x z
| watch_word v :
    x_environ x "ZOPE_WATCH_CHECKERS" = Some v -> v <> "" -> (forall z, ~ int_literal v z) ->
    watch_level x 1.

(** ** The model of the package in this world *)

Definition runs_in (w : world) (E : env) : Prop :=
  e_impl E = g_Proxy (w_globals w) /\ e_cimpl E = g_selectChecker (w_globals w) /\
  Z.of_nat (e_watch E) = w_watch w.

(** The class of a checker. *)
Definition class_of (E : env) (k : ckind) : cls :=
  match k with
  | CkPlain => KPlain (e_cimpl E)
  | CkCombined _ => KCombined (e_cimpl E)
  | CkWatching _ => KWatching (e_cimpl E)
  | CkWatchingCombined _ _ => KWatchingCombined (e_cimpl E)
  end.
