(** * Management: management.py, simplepolicies.py, testing.py.

    The functions as executed by one thread ([e_tid]) without interruption; the same
    functions split into atomic steps are in [Threads].  Participations are objects
    with the two attributes [principal] and [interaction] (testing.py 45-53), kept in
    [st_parts].  Not modelled: the text of the messages (which calls repr). *)

From Coq Require Import List String Bool Arith ZArith.
From Verif Require Import Base Domain CheckerModel.
Import ListNotations.
Open Scope string_scope.
Open Scope m_scope.

Section Management.
  Variable E : env.

  (** [q == p] between participations, used by [list.remove] (simplepolicies.py 57);
      application code.  [list.remove] tests identity first. *)
  Variable part_eq : id -> id -> bool.

  (** ** simplepolicies.py *)

  (** ParanoidSecurityPolicy.add, simplepolicies.py 46-51 *)
  Definition Paranoid_add (i q : id) : M unit :=
    s <- get ;;
    match pt_inter (st_parts s q) with
    | Some _ => raise (EValue "already belongs to an interaction")
    | None =>
        put (set_parts (upd (st_parts s) q
               (mkPart (pt_principal (st_parts s q)) (Some (VIact i)))) s) ;;;
        s1 <- get ;;
        match st_inters s1 i with
        | Some x =>
            put (set_inters (upd (st_inters s1) i
                   (Some (mkInter (in_permissive x) (in_parts x ++ [q])))) s1)
        | None => raise (EType "dangling interaction")
        end
    end.

  (** [self.participations.remove(participation)]: the first element that is, or is
      equal to, the participation; ValueError if there is none. *)
  Fixpoint list_remove (l : list id) (q : id) : option (list id) :=
    match l with
    | [] => None
    | x :: l' =>
        if Nat.eqb x q || part_eq x q then Some l'
        else match list_remove l' q with Some r => Some (x :: r) | None => None end
    end.

  (** ParanoidSecurityPolicy.remove, simplepolicies.py 53-58 *)
  Definition Paranoid_remove (i q : id) : M unit :=
    s <- get ;;
    match pt_inter (st_parts s q) with
    | Some v =>
        if value_eqb v (VIact i) then
          match st_inters s i with
          | None => raise (EType "dangling interaction")
          | Some x =>
              match list_remove (in_parts x) q with
              | None => raise (EValue "list.remove(x): x not in list")
              | Some l =>
                  put (set_inters (upd (st_inters s) i
                         (Some (mkInter (in_permissive x) l))) s) ;;;
                  s1 <- get ;;
                  put (set_parts (upd (st_parts s1) q
                         (mkPart (pt_principal (st_parts s1 q)) None)) s1)
              end
          end
        else raise (EValue "does not belong to this interaction")
    | None => raise (EValue "does not belong to this interaction")
    end.

  (** The loop of __init__, simplepolicies.py 43-44 *)
  Fixpoint add_all (i : id) (parts : list id) : M unit :=
    match parts with
    | [] => ret tt
    | q :: parts' => Paranoid_add i q ;;; add_all i parts'
    end.

  (** ParanoidSecurityPolicy.__init__, simplepolicies.py 41-44, and
      PermissiveSecurityPolicy, which inherits it (72-78). *)
  Definition Paranoid_new (permissive : bool) (parts : list id) : M value :=
    i <- fresh ;;
    s <- get ;;
    put (set_inters (upd (st_inters s) i (Some (mkInter permissive []))) s) ;;;
    add_all i parts ;;;
    ret (VIact i).

  (** Calling a security policy with participations. *)
  Definition call_policy (pol : policy) (parts : list id) : M value :=
    match pol with
    | PolParanoid => Paranoid_new false parts
    | PolPermissive => Paranoid_new true parts
    | PolForeign v => foreign E Probe (CallPolicy v parts)
    end.

  (** [interaction.checkPermission(permission, object)] returning the answer itself:
      simplepolicies.py 60-68, 77-78, or foreign code. *)
  Definition inter_checkPermission (iv : value) (p : perm) (obj : value) : M value :=
    match iv with
    | VIact i =>
        s <- get ;;
        match st_inters s i with
        | Some x => ret (VBool (simple_checkPermission s x p))
        | None => raise (EAttribute "checkPermission")
        end
    | VNone | VNotImpl | VBool _ | VInt _ | VStr _ => raise (EAttribute "checkPermission")
    | _ => foreign E Probe (CallPerm iv p obj)
    end.

  (** ** management.py *)

  Definition set_tl (l : tlocal) : M unit :=
    s <- get ;; put (set_tls (upd (st_tls s) (e_tid E) l) s).

  (** management.py 56-58 *)
  Definition getSecurityPolicy : M policy := s <- get ;; ret (st_policy s).

  (** management.py 61-72 *)
  Definition setSecurityPolicy (p : policy) : M policy :=
    s <- get ;; put (set_policy p s) ;;; ret (st_policy s).

  (** management.py 79-81 *)
  Definition queryInteraction : M value :=
    s <- get ;;
    ret (match tl_inter (st_tls s (e_tid E)) with Some v => v | None => VNone end).

  (** management.py 84-89 *)
  Definition getInteraction : M value :=
    s <- get ;;
    match tl_inter (st_tls s (e_tid E)) with
    | Some v => ret v
    | None => raise ENoInteraction
    end.

  (** management.py 101-106 *)
  Definition newInteraction (parts : list id) : M value :=
    q <- queryInteraction ;;
    if negb (value_eqb q VNone) then raise EExistingInteraction
    else
      pol <- getSecurityPolicy ;;
      i <- call_policy pol parts ;;
      s <- get ;;
      set_tl (mkTl (Some i) (tl_prev (st_tls s (e_tid E)))) ;;;
      ret VNone.

  (** management.py 109-123 *)
  Definition endInteraction : M value :=
    s <- get ;;
    let l := st_tls s (e_tid E) in
    match tl_inter l with
    | None => set_tl (mkTl (tl_inter l) None) ;;; ret VNone
    | Some v =>
        set_tl (mkTl (tl_inter l) (Some v)) ;;;
        s1 <- get ;;
        set_tl (mkTl None (tl_prev (st_tls s1 (e_tid E)))) ;;; ret VNone
    end.

  (** management.py 126-135 *)
  Definition restoreInteraction : M value :=
    s <- get ;;
    let l := st_tls s (e_tid E) in
    match tl_prev l with
    | None => set_tl (mkTl None (tl_prev l)) ;;; ret VNone
    | Some v => set_tl (mkTl (Some v) (tl_prev l)) ;;; ret VNone
    end.

  (** management.py 138-159; [VNone] is the default argument. *)
  Definition checkPermission (p : perm) (obj iv : value) : M value :=
    if perm_eqb p PPublic || perm_eqb p PNone then ret (VBool true)
    else
      iv' <- (match iv with
              | VNone =>
                  s <- get ;;
                  match tl_inter (st_tls s (e_tid E)) with
                  | Some v => ret v
                  | None => raise ENoInteraction
                  end
              | _ => ret iv
              end) ;;
      inter_checkPermission iv' p obj.

  (** management.py 162-164 *)
  Definition clear_policy : M unit := s <- get ;; put (set_policy PolParanoid s).

  (** The two cleanup functions registered at management.py 172-173. *)
  Definition management_cleanup : M unit := clear_policy ;;; endInteraction ;;; ret tt.

  (** ** testing.py *)

  (** testing.py 30-53, 77-87: a new principal (identified by its number) and a new
      participation. *)
  Definition create_interaction : M value :=
    u <- fresh ;;
    q <- fresh ;;
    s <- get ;;
    put (set_parts (upd (st_parts s) q (mkPart (User u) None)) s) ;;;
    newInteraction [q] ;;;
    ret (VObj u).

  (** Truth value of an interaction: the classes of simplepolicies.py define neither
      [__bool__] nor [__len__]. *)
  Definition interaction_truth (I : interp) (v : value) : M bool :=
    match v with
    | VIact _ => ret true
    | _ => truth I v
    end.

  (** [try: m finally: f]. *)
  Definition finally {A} (m : M A) (f : M unit) : M A :=
    r <- catch (a <- m ;; ret (Ok a)) (fun e => ret (Exc e)) ;;
    f ;;;
    match r with Ok a => ret a | Exc e => raise e end.

  (** [with interaction(...): body], testing.py 90-104. *)
  Definition with_interaction {A} (I : interp) (body : M A) : M A :=
    v <- queryInteraction ;;
    b <- interaction_truth I v ;;
    if b then body
    else
      create_interaction ;;;
      finally body (endInteraction ;;; ret tt).
End Management.
