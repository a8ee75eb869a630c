(** * CExtGcSpec: what garbage collection has to do with proxies and checkers. *)

From Coq Require Import List Bool Arith ZArith Relations.
From Verif Require Import CExt CExtSpec CExtGc.
Import ListNotations.
Open Scope Z_scope.

(** How often an object is in a list. *)
Definition times (o : obj) (l : list obj) : Z := Z.of_nat (count_occ Nat.eq_dec l o).

(** How many references to [o] the object [x] holds: in its struct if it is a proxy or a
    checker. *)
Definition holds (is_proxy is_checker : obj -> bool) (others : obj -> list obj) (s : cst)
    (x o : obj) : Z :=
  if is_proxy x || is_checker x then in_struct s x o else times o (others x).

Definition total (f : obj -> Z) (l : list obj) : Z := fold_right (fun x n => f x + n) 0 l.

(** Correct reference counts: the references held by all objects, plus [roots], those held by
    anything that is not an object known to the collector (the stack of a thread, C code). *)
Definition counted (is_proxy is_checker : obj -> bool) (others : obj -> list obj) (s : cst)
    (roots refcount : obj -> Z) (all : list obj) : Prop :=
  NoDup all /\ (forall o, 0 <= roots o) /\
  forall o, refcount o = roots o + total (fun x => holds is_proxy is_checker others s x o) all.

(** In use: referred to from a root, from an object that is no candidate for collection, or
    from a candidate in use. *)
Inductive in_use (is_proxy is_checker : obj -> bool) (others : obj -> list obj) (s : cst)
    (roots : obj -> Z) (all l : list obj) : obj -> Prop :=
| iu_root o : In o l -> 0 < roots o -> in_use is_proxy is_checker others s roots all l o
| iu_outside x o : In o l -> In x all -> ~ In x l -> 0 < holds is_proxy is_checker others s x o ->
    in_use is_proxy is_checker others s roots all l o
| iu_held x o : in_use is_proxy is_checker others s roots all l x -> In o l ->
    0 < holds is_proxy is_checker others s x o -> in_use is_proxy is_checker others s roots all l o.

(** ** The life of the proxies of a process *)
Section Life.
  Variable is_proxy is_checker : obj -> bool.

  Definition points (s : cst) (x o : obj) : Prop := f1 s x = Some o \/ f2 s x = Some o.

  (** One step, with the proxies there are, before and after: a proxy is made of existing
      objects, in memory nothing refers to; C code of a slot or of getChecker or getObject
      runs; C code of a checker or anything else runs, which may change whatever is no
      proxy; a collection clears garbage; a proxy nobody refers to is destroyed. *)
  Inductive life_step : list obj -> cst -> list obj -> cst -> Prop :=
  | ls_new oracle args object checker fresh ps s r s' :
      entered s -> In object args -> In checker args ->
      is_proxy fresh = true -> ~ In fresh args -> ~ In fresh ps ->
      (forall x, In x ps -> ~ points s x fresh) -> f1 s fresh = None -> f2 s fresh = None ->
      proxy_new oracle args (Some (object, checker)) (Some fresh) s = Some (r, s') ->
      life_step ps s (match r with Some x => x :: ps | None => ps end) s'
  | ls_object oracle args has_sub has_ass has_num m ps s r s' :
      entered s -> (forall x, In x args -> is_proxy x = true -> In x ps) ->
      object_function oracle args is_proxy has_sub has_ass has_num m ->
      m s = Some (r, s') -> life_step ps s ps s'
  | ls_int oracle args has_ass m ps s i s' :
      entered s -> (forall x, In x args -> is_proxy x = true -> In x ps) ->
      int_function oracle args is_proxy has_ass m ->
      m s = Some (i, s') -> life_step ps s ps s'
  | ls_other ps s s' :
      (forall x, is_proxy x = true -> f1 s' x = f1 s x /\ f2 s' x = f2 s x) ->
      life_step ps s ps s'
  | ls_collect oracle garbage ps s u s' :
      delete_garbage oracle is_proxy is_checker garbage s = Some (u, s') ->
      life_step ps s ps s'
  | ls_destroy oracle x ps s u s' :
      fault s = false -> proxy_dealloc oracle x s = Some (u, s') ->
      life_step ps s (remove Nat.eq_dec x ps) s'.

  Inductive life : list obj -> cst -> list obj -> cst -> Prop :=
  | life_refl ps s : life ps s ps s
  | life_next ps1 s1 ps2 s2 ps3 s3 :
      life ps1 s1 ps2 s2 -> life_step ps2 s2 ps3 s3 -> life ps1 s1 ps3 s3.

  (** From one proxy to another through fields of proxies only. *)
  Definition leads (ps : list obj) (s : cst) : obj -> obj -> Prop :=
    clos_trans obj (fun x y => In x ps /\ In y ps /\ points s x y).
End Life.
