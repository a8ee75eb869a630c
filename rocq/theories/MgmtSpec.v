(** * MgmtSpec: what users of interactions and policies rely on.

    Only the vocabulary of [Domain] is used. *)

From Coq Require Import List String Bool Arith.
From Verif Require Import Base Domain.
Import ListNotations.
Open Scope string_scope.

(** ** One thread's interactions *)

(** The calls a thread makes. *)
Inductive mcall :=
| MNew (parts : list id)     (* newInteraction of parts *)
| MEnd                       (* endInteraction() *)
| MRestore                   (* restoreInteraction() *)
| MQuery                     (* queryInteraction() *)
| MGet.                      (* getInteraction() *)

(** A thread has a current and a remembered interaction.  [made] is what the security
    policy made of the participations, if it is called at all. *)
Definition spec_mcall (c : mcall) (made : res value) (l : tlocal) : res value * tlocal :=
  match c with
  | MNew _ =>
      match tl_inter l with
      | Some VNone | None =>
          match made with
          | Ok i => (Ok VNone, mkTl (Some i) (tl_prev l))
          | Exc e => (Exc e, l)
          end
      | Some _ => (Exc EExistingInteraction, l)
      end
  | MEnd => (Ok VNone, mkTl None (tl_inter l))
  | MRestore => (Ok VNone, mkTl (tl_prev l) (tl_prev l))
  | MQuery => (Ok (match tl_inter l with Some v => v | None => VNone end), l)
  | MGet => (match tl_inter l with Some v => Ok v | None => Exc ENoInteraction end, l)
  end.

(** Whether the call gets as far as calling the policy. *)
Definition calls_policy (c : mcall) (l : tlocal) : bool :=
  match c, tl_inter l with
  | MNew _, None | MNew _, Some VNone => true
  | _, _ => false
  end.

(** Results and final locals of a sequence of calls; [made] lists what the policies
    made, in order. *)
Fixpoint spec_mcalls (cs : list mcall) (made : list (res value)) (l : tlocal)
  : list (res value) * tlocal :=
  match cs with
  | [] => ([], l)
  | c :: cs' =>
      let '(r, l1) := spec_mcall c (hd (Exc EFuel) made) l in
      let '(rs, l2) := spec_mcalls cs' (if calls_policy c l then tl made else made) l1 in
      (r :: rs, l2)
  end.

(** Thread [t] has the locals [l] in [s']; everything else is as in [s]. *)
Definition only_locals (t : id) (l : tlocal) (s s' : state) : Prop :=
  s' = set_tls (st_tls s') s /\ st_tls s' t = l /\
  forall t', t' <> t -> st_tls s' t' = st_tls s t'.

(** [Entered s i l s']: the free and distinct participations [l] have been entered into
    interaction [i]; nothing else has changed. *)
Definition Entered (s : state) (i : id) (b : bool) (before l : list id) (s' : state) : Prop :=
  NoDup l /\ (forall q, In q l -> pt_inter (st_parts s q) = None) /\
  st_inters s' i = Some (mkInter b (before ++ l)) /\
  (forall j, j <> i -> st_inters s' j = st_inters s j) /\
  (forall q, pt_principal (st_parts s' q) = pt_principal (st_parts s q)) /\
  (forall q, In q l -> pt_inter (st_parts s' q) = Some (VIact i)) /\
  (forall q, ~ In q l -> st_parts s' q = st_parts s q) /\
  s' = set_next (st_next s') (set_parts (st_parts s') (set_inters (st_inters s') s)).

(** What a policy of this package makes of [parts]: a new interaction of all of them;
    or, if one of them is not free (or listed twice), a ValueError.  [seen] are the
    participations entered before that one. *)
Definition Makes (s : state) (b : bool) (parts : list id) (r : res value) (s' : state) : Prop :=
  st_next s' = S (st_next s) /\
  exists seen, Entered s (st_next s) b [] seen s' /\
    ((seen = parts /\ r = Ok (VIact (st_next s))) \/
     (exists q rest, parts = (seen ++ q :: rest)%list /\
        (In q seen \/ exists v, pt_inter (st_parts s q) = Some v) /\
        r = Exc (EValue "already belongs to an interaction"))).

(** ** Participations *)

(** [participation.interaction] is [i] exactly for the participations of [i], each of
    which occurs once; identities from [st_next] on are not in use. *)
Definition books_ok (s : state) : Prop :=
  (forall i x q, st_inters s i = Some x ->
     (In q (in_parts x) <-> pt_inter (st_parts s q) = Some (VIact i))) /\
  (forall i x, st_inters s i = Some x -> NoDup (in_parts x)) /\
  (forall q v, pt_inter (st_parts s q) = Some v ->
     exists i x, v = VIact i /\ st_inters s i = Some x) /\
  (forall i, st_next s <= i -> st_inters s i = None).

(** What the calls that concern participations leave alone. *)
Definition books_same (s s' : state) : Prop :=
  st_inters s' = st_inters s /\ st_parts s' = st_parts s /\ st_next s <= st_next s'.

(** Who takes part in interaction [i]. *)
Definition participants (s : state) (i : id) : list id :=
  match st_inters s i with Some x => in_parts x | None => [] end.

Definition iact_grants (s : state) (i : id) (p : perm) : Prop :=
  exists x, st_inters s i = Some x /\
    (in_permissive x = true \/ p = PPublic \/
     forall q, In q (in_parts x) -> pt_principal (st_parts s q) = SystemUser).

(** ** The policy register *)

Inductive pcall :=
| PSet (p : policy)              (* setSecurityPolicy(p) *)
| PGet                           (* getSecurityPolicy() *)
| PClear                         (* the cleanup function *)
| POther (f : state -> state).   (* anything else *)

(** What the calls return ([None]: nothing of interest), and the policy afterwards. *)
Definition spec_pcall (c : pcall) (cur : policy) : option policy * policy :=
  match c with
  | PSet p => (Some cur, p)
  | PGet => (Some cur, cur)
  | PClear => (None, PolParanoid)
  | POther _ => (None, cur)
  end.

Fixpoint spec_pcalls (cs : list pcall) (cur : policy) : list (option policy) * policy :=
  match cs with
  | [] => ([], cur)
  | c :: cs' =>
      let '(r, cur1) := spec_pcall c cur in
      let '(rs, cur2) := spec_pcalls cs' cur1 in (r :: rs, cur2)
  end.

(** Nothing else in the program sets the policy. *)
Definition others_keep_policy (cs : list pcall) : Prop :=
  forall f, In (POther f) cs -> forall s, st_policy (f s) = st_policy s.
