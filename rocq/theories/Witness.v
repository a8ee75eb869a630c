(** * Witness: concrete environments and states used by examples and refutations. *)

From Coq Require Import List String Bool Arith ZArith.
From Verif Require Import Base Domain.
Import ListNotations.
Open Scope string_scope.

(** Foreign code that does nothing but return plausible results: operations on
    application objects return None, [str]/[repr] a string, interactions refuse. *)
Definition quiet_run (t : id) (c : call) (s : state) : res value * state :=
  match c with
  | CallOp (OStr _) | CallOp (ORepr _) => (Ok (VStr "an object"), s)
  | CallOp (OGetattr _ "__Security_checker__" _) =>
      (Exc (EAttribute "__Security_checker__"), s)
  | CallOp (OLen _) | CallOp (OHash _) => (Ok (VInt 1), s)
  | CallOp (OBool _) | CallOp (OContains _ _) => (Ok (VBool true), s)
  | CallPerm _ _ _ => (Ok (VBool false), s)
  | _ => (Ok VNone, s)
  end.

(** An environment for build [b]. *)
Definition wenv (b : impl) : env :=
  mkEnv b b 0 0 (fun _ => "app.Thing") (fun _ => "type") (fun _ => false)
        (fun _ => "0x1") quiet_run.

(** The same with ZOPE_WATCH_CHECKERS=v. *)
Definition wenv_watch (b : impl) (v : nat) : env :=
  mkEnv b b v 0 (fun _ => "app.Thing") (fun _ => "type") (fun _ => false)
        (fun _ => "0x1") quiet_run.

(** The same with other foreign code. *)
Definition wenv_run (b : impl) run : env :=
  mkEnv b b 0 0 (fun _ => "app.Thing") (fun _ => "type") (fun _ => false)
        (fun _ => "0x1") run.

Definition no_tl : tlocal := mkTl None None.

(** Permission ids. *)
Definition p_view := PId 100 "zope.View".
Definition p_edit := PId 101 "zope.Edit".

(** A state with a few checkers (identities 10 to 15), two proxies, and no
    interaction. *)
Definition w_dicts (i : id) : list (name * perm) :=
  match i with
  | 20 => [("foo", PPublic); ("bar", p_view)]
  | 21 => [("bar", p_edit)]
  | 22 => [("baz", PPublic)]
  | 24 => [("nil", PNone)]
  | 25 => [("nil", PNone)]
  | _ => []
  end.

Definition w_chks (i : id) : option checker :=
  match i with
  | 0 => Some (mkChecker 30 31 CkPlain)                 (* default checker *)
  | 10 => Some (mkChecker 20 21 CkPlain)
  | 11 => Some (mkChecker 22 23 CkPlain)
  | 12 => Some (mkChecker 20 21 (CkCombined (VChk 11)))
  | 13 => Some (mkChecker 20 21 (CkWatching 1))
  | 14 => Some (mkChecker 24 25 CkPlain)
  | 15 => Some (mkChecker 23 23 CkPlain)
  | 16 => Some (mkChecker 20 21 (CkWatching 2))
  | _ => None
  end.

Definition w_prox (i : id) : option (value * value) :=
  match i with
  | 0 => Some (VObj 0, VChk 1)
  | 40 => Some (VObj 5, VChk 10)
  | 41 => Some (VObj 6, VChk 0)
  | _ => None
  end.

Definition w_state : state :=
  mkState 50 w_dicts w_chks w_prox (fun _ => None)
          [] [] (fun _ => no_tl) PolParanoid (fun _ => None)
          (fun _ => mkPart SystemUser None) 0.

(** The same with an interaction of user 7 bound in thread 0 (paranoid when
    [permissive] is false). *)
Definition w_state_in (permissive : bool) : state :=
  mkState 50 w_dicts w_chks w_prox (fun _ => None)
          [] [] (fun t => match t with
                          | 0 => mkTl (Some (VIact 45)) None
                          | _ => no_tl end)
          PolParanoid
          (fun i => match i with 45 => Some (mkInter permissive [46]) | _ => None end)
          (fun i => match i with 46 => mkPart (User 7) (Some (VIact 45))
                               | _ => mkPart SystemUser None end) 0.

(** The same with a foreign interaction object bound in thread 0. *)
Definition w_state_foreign : state :=
  mkState 50 w_dicts w_chks w_prox (fun _ => None)
          [] [] (fun t => match t with
                          | 0 => mkTl (Some (VObj 77)) None
                          | _ => no_tl end)
          PolParanoid (fun _ => None) (fun _ => mkPart SystemUser None) 0.
