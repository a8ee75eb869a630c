(** * SessionSpec: clients that hold values and perform operations on them; histories of
    a program that uses proxies. *)

From Coq Require Import List String Bool Arith ZArith.
From Verif Require Import Base Domain CheckerModel ProxyModel Spec RegSpec ProxySpec
  MediationSpec.
Import ListNotations.
Open Scope string_scope.

(** The values an operation mentions (the calling frame's [self] aside). *)
Definition operands (o : op) : list value :=
  match o with
  | OGetattr v _ _ | ODelattr v _ | OUn _ v | OUnX _ v | OLen v | OIter v | ONext v
  | OHash v | OBool v | OStr v | ORepr v | OLenHint v => [v]
  | OSetattr v _ w => [v; w]
  | OCall v args => v :: args
  | OBin _ l r | OIn _ l r | OCmp _ l r => [l; r]
  | OPow3 a b m => [a; b; m]
  | OGetitem v k | ODelitem v k | OContains v k => [v; k]
  | OSetitem v k w => [v; k; w]
  end.

(** Operations whose result is protected if they involve a proxy, and operations that
    involve none. *)
Definition requestable (b : impl) (o : op) : Prop :=
  result_protected b o \/ Forall (fun v => is_proxy v = false) (operands o).

(** Basic values under registry [reg]: built-in constants and values for which
    selectChecker may answer that they need no proxy. *)
Definition Basic (E : env) (reg : list (rkey * value)) (v : value) : Prop :=
  constant v \/
  exists f s s' t, st_reg s = reg /\ do_select E f v s = (Ok None, s', t).

(** What a client may hold. *)
Definition Held (E : env) (reg : list (rkey * value)) (v : value) : Prop :=
  is_proxy v = true \/ Basic E reg v.

(** Application code on behalf of basic values yields held values again, and so do
    foreign checkers' [proxy] methods; decorators are not basic; the registry is
    configured and stays as it is. *)
Record basic_closed (E : env) (reg : list (rkey * value)) : Prop := {
  bc_registry : forall t c s r s',
    e_run E t c s = (r, s') -> st_reg s = reg -> st_reg s' = reg;
  bc_operations : forall o s v s',
    is_proxy (principal_operand o) = false -> Forall (Held E reg) (operands o) ->
    e_run E (e_tid E) (CallOp o) s = (Ok v, s') -> Held E reg v;
  bc_checkers : forall c x s v s',
    e_run E (e_tid E) (CallProxy c x) s = (Ok v, s') -> Held E reg v;
  bc_decorators : forall d, ~ Basic E reg (VDeco d) }.

(** [Session E reg held s held' s']: a client holding [held] may end up holding
    [held']: it applies operations to values it holds and keeps the results; exceptions
    are not inspected; between operations anything may happen to the program state
    except that the registry is left alone. *)
Inductive Session (E : env) (reg : list (rkey * value))
  : list value -> state -> list value -> state -> Prop :=
| Se_done held s : Session E reg held s held s
| Se_constant held s v held' s' :
    constant v -> Session E reg (v :: held) s held' s' -> Session E reg held s held' s'
| Se_result held s o f v s1 t held' s' :
    (forall x, In x (operands o) -> In x held) -> requestable (e_impl E) o ->
    perform E f o s = (Ok v, s1, t) ->
    Session E reg (v :: held) s1 held' s' -> Session E reg held s held' s'
| Se_exception held s o f e s1 t held' s' :
    (forall x, In x (operands o) -> In x held) -> requestable (e_impl E) o ->
    perform E f o s = (Exc e, s1, t) ->
    Session E reg held s1 held' s' -> Session E reg held s held' s'
| Se_other held s s1 held' s' :
    st_reg s1 = reg -> Session E reg held s1 held' s' -> Session E reg held s held' s'.

(** ** Histories *)

(** Operations that never rebind a proxy: all of the C proxy; in the Python proxy all
    but in-place operators and assignment to the internal names. *)
Definition rebinds_nothing (b : impl) (o : op) : Prop :=
  match b, o with
  | ImplPy, OIn _ _ _ => False
  | ImplPy, OSetattr _ n _ => ~ internal_name n
  | _, _ => True
  end.

(** [History Env other s s']: any sequence of proxy operations, checks, creations of
    proxies by the package's functions, in any of the environments [Env] (threads),
    interleaved with steps of [other] code. *)
Inductive History (Env : env -> Prop) (other : state -> state -> Prop)
  : state -> state -> Prop :=
| Hi_done s : History Env other s s
| Hi_op E f o s r s1 t s' :
    Env E -> rebinds_nothing (e_impl E) o -> perform E f o s = (r, s1, t) ->
    History Env other s1 s' -> History Env other s s'
| Hi_check E f m c obj n s r s1 t s' :
    Env E -> do_check E f m c obj n s = (r, s1, t) ->
    History Env other s1 s' -> History Env other s s'
| Hi_factory E f obj c s r s1 t s' :
    Env E -> do_ProxyFactory E f obj c s = (r, s1, t) ->
    History Env other s1 s' -> History Env other s s'
| Hi_proxy E f c v s r s1 t s' :
    Env E -> do_proxy E f c v s = (r, s1, t) ->
    History Env other s1 s' -> History Env other s s'
| Hi_canAccess E f obj n s r s1 t s' :
    Env E -> do_canAccess E f obj n s = (r, s1, t) ->
    History Env other s1 s' -> History Env other s s'
| Hi_canWrite E f obj n s r s1 t s' :
    Env E -> do_canWrite E f obj n s = (r, s1, t) ->
    History Env other s1 s' -> History Env other s s'
| Hi_other s s1 s' :
    other s s1 -> History Env other s1 s' -> History Env other s s'.

(** No proxy wraps a proxy. *)
Definition flat (s : state) : Prop :=
  forall p w c, st_prox s p = Some (w, c) -> is_proxy w = false.
Definition foreign_flat (E : env) : Prop :=
  forall t c s r s', e_run E t c s = (r, s') -> flat s -> flat s'.

(** A run: client operations of any kind in any of the environments (threads), and
    other steps that respect the heap. *)
Inductive Run (Env : env -> Prop) : state -> state -> Prop :=
| Run_done s : Run Env s s
| Run_op E f o s r s1 t s' :
    Env E -> perform E f o s = (r, s1, t) -> Run Env s1 s' -> Run Env s s'
| Run_other s s1 s' :
    (heap_ok s -> heap_ok s1) -> Run Env s1 s' -> Run Env s s'.
