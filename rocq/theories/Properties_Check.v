(** * Properties C01-C07, C10, C60: decisions of checkers. *)

From Coq Require Import List String Bool Arith ZArith Lia.
From Verif Require Import Base Domain CheckerModel ProxyModel Spec Witness
  CheckFacts CombineFacts CheckProps.
Import ListNotations.
Open Scope string_scope.

(** ** C01 *)

(** check / check_getattr of a name-based checker decide exactly as specified by
    [ReadCheck], for every build, table, object, thread, policy and state. *)
Theorem C01_check_exact :
  forall E f m c g w obj n s r s' tr,
    PlainChecker s c g w -> m <> MSetattr -> no_none (table_of g) ->
    (n = "__iter__" -> plain_object obj) ->
    do_check E (S (S f)) m c obj n s = (r, s', tr) ->
    ReadCheck E s (table_of g) obj n r s' tr.
Proof. exact check_exact_lemma. Qed.
Print Assumptions C01_check_exact.

(** ... and that determines the outcome (the recursion limit aside). *)
Theorem C01_determined :
  forall E s tb obj n r1 s1 t1 r2 s2 t2,
    ReadCheck E s tb obj n r1 s1 t1 -> ReadCheck E s tb obj n r2 s2 t2 ->
    r1 <> Exc EFuel -> r2 <> Exc EFuel -> r1 = r2 /\ s1 = s2 /\ t1 = t2.
Proof. exact ReadCheck_one. Qed.
Print Assumptions C01_determined.

(** ... in particular it returns exactly in the four documented situations. *)
Theorem C01_granted_iff :
  forall E f m c g w obj n s r s' tr,
    PlainChecker s c g w -> m <> MSetattr -> no_none (table_of g) ->
    (n = "__iter__" -> plain_object obj) ->
    do_check E (S (S f)) m c obj n s = (r, s', tr) ->
    (r = Ok tt <->
     table_of g n = Some PPublic \/
     (exists p iv, table_of g n = Some p /\ p <> PPublic /\
        tl_inter (st_tls s (e_tid E)) = Some iv /\
        asks tr = [EAsk (e_tid E) iv p obj (Some true)]) \/
     (table_of g n = None /\ always_available n) \/
     (table_of g n = None /\ n = "__iter__" /\
        exists e s1, e_run E (e_tid E) (CallOp (OGetattr obj n None)) s = (Exc e, s1) /\
                     (e_cimpl E = ImplC \/ attribute_error e))).
Proof. exact granted_iff_lemma. Qed.
Print Assumptions C01_granted_iff.

(** Under the two policies of the package the decision is a formula. *)
Theorem C01_simple_policy :
  forall E f m c g w obj n s r s' tr i x,
    PlainChecker s c g w -> m <> MSetattr -> no_none (table_of g) -> n <> "__iter__" ->
    tl_inter (st_tls s (e_tid E)) = Some (VIact i) -> st_inters s i = Some x ->
    do_check E (S (S f)) m c obj n s = (r, s', tr) ->
    s' = s /\
    (r = Ok tt <-> match table_of g n with
                   | Some p => simple_grants s x p
                   | None => always_available n
                   end) /\
    (r <> Ok tt -> match table_of g n with
                   | Some p => r = Exc (EUnauthorized obj n p)
                   | None => r = Exc (EForbidden n obj)
                   end).
Proof. exact simple_policy_lemma. Qed.
Print Assumptions C01_simple_policy.

Example C01_example_refused :
  do_check (wenv ImplPy) 5 MCheck (VChk 10) (VObj 5) "bar" (w_state_in false) =
  (Exc (EUnauthorized (VObj 5) "bar" p_view), w_state_in false,
   [EAsk 0 (VIact 45) p_view (VObj 5) (Some false)]).
Proof. reflexivity. Qed.

Example C01_example_granted :
  do_check (wenv ImplC) 5 MGetattr (VChk 10) (VObj 5) "bar" (w_state_in true) =
  (Ok tt, w_state_in true, [EAsk 0 (VIact 45) p_view (VObj 5) (Some true)]).
Proof. reflexivity. Qed.

Example C01_example_hypotheses :
  PlainChecker (w_state_in false) (VChk 10)
    [("foo", PPublic); ("bar", p_view)] [("bar", p_edit)] /\
  no_none (table_of [("foo", PPublic); ("bar", p_view)]).
Proof. exact example_plain_10. Qed.

(** ** C02 *)

Theorem C02_check_setattr_exact :
  forall E f c g w obj n s r s' tr,
    PlainChecker s c g w -> no_none (table_of w) ->
    do_check E (S f) MSetattr c obj n s = (r, s', tr) ->
    WriteCheck E s (table_of w) obj n r s' tr.
Proof. exact check_setattr_exact_lemma. Qed.
Print Assumptions C02_check_setattr_exact.

Theorem C02_determined :
  forall E s tb obj n r1 s1 t1 r2 s2 t2,
    WriteCheck E s tb obj n r1 s1 t1 -> WriteCheck E s tb obj n r2 s2 t2 ->
    r1 <> Exc EFuel -> r2 <> Exc EFuel -> r1 = r2 /\ s1 = s2 /\ t1 = t2.
Proof. exact WriteCheck_one. Qed.
Print Assumptions C02_determined.

(** Nothing outside the write table is writable: not the always-available names, not
    what the read table allows. *)
Theorem C02_default_deny :
  forall E f c g w obj n s r s' tr,
    PlainChecker s c g w -> no_none (table_of w) -> table_of w n = None ->
    do_check E (S f) MSetattr c obj n s = (r, s', tr) ->
    r = Exc (EForbidden n obj) /\ s' = s /\ tr = [].
Proof. exact default_deny_lemma. Qed.
Print Assumptions C02_default_deny.

Theorem C02_granted_iff :
  forall E f c g w obj n s r s' tr,
    PlainChecker s c g w -> no_none (table_of w) ->
    do_check E (S f) MSetattr c obj n s = (r, s', tr) ->
    (r = Ok tt <->
     table_of w n = Some PPublic \/
     (exists p iv, table_of w n = Some p /\ p <> PPublic /\
        tl_inter (st_tls s (e_tid E)) = Some iv /\
        asks tr = [EAsk (e_tid E) iv p obj (Some true)])).
Proof. exact write_granted_iff_lemma. Qed.
Print Assumptions C02_granted_iff.

Example C02_example_public_read_not_writable :
  do_check (wenv ImplC) 5 MSetattr (VChk 10) (VObj 5) "foo" (w_state_in true) =
  (Exc (EForbidden "foo" (VObj 5)), w_state_in true, []) /\
  do_check (wenv ImplPy) 5 MSetattr (VChk 10) (VObj 5) "__parent__" (w_state_in true) =
  (Exc (EForbidden "__parent__" (VObj 5)), w_state_in true, []).
Proof. split; reflexivity. Qed.

(** ** C03 *)

(** Without an interaction in the calling thread every access that needs a permission
    fails, without effect; whatever the interactions of other threads. *)
Theorem C03_fail_closed_read :
  forall E f m c g w obj n s r s' tr p,
    PlainChecker s c g w -> m <> MSetattr -> no_none (table_of g) ->
    table_of g n = Some p -> p <> PPublic ->
    tl_inter (st_tls s (e_tid E)) = None ->
    do_check E (S (S f)) m c obj n s = (r, s', tr) ->
    r = Exc (EAttribute "interaction") /\ s' = s /\ tr = [].
Proof. exact fail_closed_read_lemma. Qed.
Print Assumptions C03_fail_closed_read.

Theorem C03_fail_closed_write :
  forall E f c g w obj n s r s' tr p,
    PlainChecker s c g w -> no_none (table_of w) ->
    table_of w n = Some p -> p <> PPublic ->
    tl_inter (st_tls s (e_tid E)) = None ->
    do_check E (S f) MSetattr c obj n s = (r, s', tr) ->
    r = Exc (EAttribute "interaction") /\ s' = s /\ tr = [].
Proof. exact fail_closed_write_lemma. Qed.
Print Assumptions C03_fail_closed_write.

(** Public and always-available names keep working. *)
Theorem C03_public_unaffected :
  forall E f m c g w obj n s r s' tr,
    PlainChecker s c g w -> m <> MSetattr -> no_none (table_of g) ->
    (table_of g n = Some PPublic \/ (table_of g n = None /\ always_available n)) ->
    do_check E (S (S f)) m c obj n s = (r, s', tr) ->
    r = Ok tt /\ s' = s /\ tr = [].
Proof. exact public_unaffected_lemma. Qed.
Print Assumptions C03_public_unaffected.

Example C03_example :
  do_check (wenv ImplPy) 5 MCheck (VChk 10) (VObj 5) "bar" w_state =
  (Exc (EAttribute "interaction"), w_state, []) /\
  do_check (wenv ImplC) 5 MSetattr (VChk 10) (VObj 5) "bar" w_state =
  (Exc (EAttribute "interaction"), w_state, []).
Proof. split; reflexivity. Qed.

(** ** C04 *)

Theorem C04_policy_once_read :
  forall E f m c g w obj n s r s' tr,
    PlainChecker s c g w -> m <> MSetattr -> no_none (table_of g) ->
    (n = "__iter__" -> plain_object obj) ->
    do_check E (S (S f)) m c obj n s = (r, s', tr) ->
    asks tr = [] \/
    exists iv p a, asks tr = [EAsk (e_tid E) iv p obj a] /\
      tl_inter (st_tls s (e_tid E)) = Some iv /\ table_of g n = Some p /\ p <> PPublic /\
      match a with
      | Some true => r = Ok tt
      | Some false => r = Exc (EUnauthorized obj n p)
      | None => exists e, r = Exc e
      end.
Proof. exact policy_once_read_lemma. Qed.
Print Assumptions C04_policy_once_read.

Theorem C04_policy_once_write :
  forall E f c g w obj n s r s' tr,
    PlainChecker s c g w -> no_none (table_of w) ->
    do_check E (S f) MSetattr c obj n s = (r, s', tr) ->
    asks tr = [] \/
    exists iv p a, asks tr = [EAsk (e_tid E) iv p obj a] /\
      tl_inter (st_tls s (e_tid E)) = Some iv /\ table_of w n = Some p /\ p <> PPublic /\
      match a with
      | Some true => r = Ok tt
      | Some false => r = Exc (EUnauthorized obj n p)
      | None => exists e, r = Exc e
      end.
Proof. exact policy_once_write_lemma. Qed.
Print Assumptions C04_policy_once_write.

Example C04_example_foreign_policy :
  do_check (wenv ImplC) 5 MSetattr (VChk 10) (VObj 5) "bar" w_state_foreign =
  (Exc (EUnauthorized (VObj 5) "bar" p_edit), w_state_foreign,
   [EAsk 0 (VObj 77) p_edit (VObj 5) (Some false)]).
Proof. reflexivity. Qed.

(** ** C05 *)

(** A right-nested chain of any length tries its members in order, stops at the first
    grant, and reports the [verdict] of the outcomes. *)
Theorem C05_chain_read :
  forall E f m c gs ws obj n s,
    e_watch E = 0 -> foreign_keeps_checkers E ->
    Chain s c gs ws -> m <> MSetattr -> Forall no_none gs ->
    (n = "__iter__" -> plain_object obj) ->
    exists rs s' tr,
      do_check E (List.length gs + S f) m c obj n s = (verdict rs, s', tr) /\
      Tries (fun s0 tb => ReadCheck E s0 tb obj n) s gs rs s' tr.
Proof. exact chain_read. Qed.
Print Assumptions C05_chain_read.

Theorem C05_chain_write :
  forall E f c gs ws obj n s,
    e_watch E = 0 -> foreign_keeps_checkers E ->
    Chain s c gs ws -> Forall no_none ws ->
    exists rs s' tr,
      do_check E (List.length ws + f) MSetattr c obj n s = (verdict rs, s', tr) /\
      Tries (fun s0 tb => WriteCheck E s0 tb obj n) s ws rs s' tr.
Proof. exact chain_write. Qed.
Print Assumptions C05_chain_write.

(** The verdict is a grant iff some member granted; Forbidden only if all members said
    so; Unauthorized (the last one) if nobody granted and somebody said so. *)
Theorem C05_verdict :
  forall ck s tbs rs s' tr,
    Tries ck s tbs rs s' tr ->
    (verdict rs = Ok tt <-> In (Ok tt) rs) /\
    (forall n o, verdict rs = Exc (EForbidden n o) ->
       Forall (fun r => exists n' o', r = Exc (EForbidden n' o')) rs) /\
    (forall o n p, Forall is_denied rs -> In (Exc (EUnauthorized o n p)) rs ->
       exists o' n' p', verdict rs = Exc (EUnauthorized o' n' p') /\
                        last_unauthorized rs = Some (EUnauthorized o' n' p')).
Proof. exact verdict_lemma. Qed.
Print Assumptions C05_verdict.

(** Under the package's policies: the chain grants iff some member does. *)
Theorem C05_chain_simple_policy :
  forall E f m c gs ws obj n s i x,
    e_watch E = 0 -> foreign_keeps_checkers E ->
    Chain s c gs ws -> m <> MSetattr -> Forall no_none gs -> n <> "__iter__" ->
    tl_inter (st_tls s (e_tid E)) = Some (VIact i) -> st_inters s i = Some x ->
    exists r tr,
      do_check E (List.length gs + S f) m c obj n s = (r, s, tr) /\
      (r = Ok tt <->
       exists tb, In tb gs /\ match tb n with
                              | Some p => simple_grants s x p
                              | None => always_available n
                              end) /\
      (r <> Ok tt -> is_denied r).
Proof. exact chain_simple_lemma. Qed.
Print Assumptions C05_chain_simple_policy.

(** The constructor makes such chains. *)
Theorem C05_constructor :
  forall E c1 c2 s c s' tr g w gs ws,
    e_watch E = 0 -> fresh_checkers s ->
    PlainChecker s c1 g w -> Chain s c2 gs ws ->
    CombinedChecker_new E c1 c2 s = (Ok c, s', tr) ->
    Chain s' c (table_of g :: gs) (table_of w :: ws) /\ fresh_checkers s'.
Proof. exact Combined_new_chain. Qed.
Print Assumptions C05_constructor.

Example C05_example_second_grants :
  do_check (wenv ImplPy) 5 MCheck (VChk 12) (VObj 5) "baz" w_state = (Ok tt, w_state, []) /\
  do_check (wenv ImplC) 5 MCheck (VChk 12) (VObj 5) "bar" (w_state_in false) =
  (Exc (EUnauthorized (VObj 5) "bar" p_view), w_state_in false,
   [EAsk 0 (VIact 45) p_view (VObj 5) (Some false)]) /\
  do_check (wenv ImplC) 5 MCheck (VChk 12) (VObj 5) "qux" (w_state_in false) =
  (Exc (EForbidden "qux" (VObj 5)), w_state_in false, []).
Proof. repeat split. Qed.

Example C05_example_chain :
  Chain w_state (VChk 12) [table_of (w_dicts 20); table_of (w_dicts 22)]
        [table_of (w_dicts 21); table_of (w_dicts 23)].
Proof. exact example_chain_12. Qed.

(** ** C06 *)

(** CombinedChecker(CombinedChecker(c11, c12), c2) behaves like the chain c11, c2 ... *)
Theorem C06_left_nested_drops_second :
  forall E c1 c2 s c s' tr i k c12 gs ws,
    e_watch E = 0 -> fresh_checkers s ->
    c1 = VChk i -> st_chks s i = Some k -> ck_kind k = CkCombined c12 ->
    Chain s c2 gs ws ->
    CombinedChecker_new E c1 c2 s = (Ok c, s', tr) ->
    Chain s' c (table_of (st_dicts s (ck_get k)) :: gs)
          (table_of (st_dicts s (ck_set k)) :: ws).
Proof. exact Combined_new_left_drops. Qed.
Print Assumptions C06_left_nested_drops_second.

(** ... so the documented truth table fails: c1 grants, the combination forbids. *)
Theorem C06_left_nested_refuted :
  exists E s c1 c2 c s1 obj n,
    CombinedChecker_new E c1 c2 s = (Ok c, s1, []) /\
    (exists s2 tr, do_check E 10 MCheck c1 obj n s1 = (Ok tt, s2, tr)) /\
    (exists s2 tr, do_check E 10 MCheck c obj n s1 = (Exc (EForbidden n obj), s2, tr)).
Proof. exact left_nested_refuted_lemma. Qed.
Print Assumptions C06_left_nested_refuted.

(** ** C07 *)

Theorem C07_watching_transparent :
  forall E f m c c' v obj n s r s1 t1,
    WatchingVariant s c c' v ->
    do_check E (S (S f)) m c obj n s = (r, s1, t1) ->
    (forall s' t', do_check E (S (S f)) m c' obj n s = (Ok tt, s', t') -> r = Ok tt) /\
    (plain_object obj ->
     (exists x s2, e_run E (e_tid E) (CallOp (ORepr obj)) s1 = (Ok (VStr x), s2)) ->
     exists s2 t2, do_check E (S (S f)) m c' obj n s = (r, s2, (t1 ++ t2)%list) /\
       asks t2 = [] /\ client_calls t2 = [] /\
       List.length (logs t2) = owed_lines v r /\ Forall (reports r n obj) (logs t2)).
Proof. exact watching_lemma. Qed.
Print Assumptions C07_watching_transparent.

Example C07_example :
  WatchingVariant w_state (VChk 10) (VChk 13) 1 /\
  do_check (wenv_watch ImplPy 1) 5 MGetattr (VChk 13) (VObj 5) "qux" w_state =
  (Exc (EForbidden "qux" (VObj 5)), w_state,
   [ECall Probe 0 (CallOp (ORepr (VObj 5)));
    ELog "[CHK] - Forbidden getattr:" "qux" (VObj 5)]).
Proof. exact example_watching. Qed.

(** ** C10 *)

(** permission_id tells what check enforces. *)
Theorem C10_permission_id_truth :
  forall E f m i k obj n s p s1 t1 r s' tr,
    st_chks s i = Some k -> ck_kind k = CkPlain -> m <> MSetattr ->
    no_none (table_of (st_dicts s (ck_get k))) ->
    (n = "__iter__" -> plain_object obj) ->
    Checker_permission_id E k n s = (Ok p, s1, t1) ->
    do_check E (S (S f)) m (VChk i) obj n s1 = (r, s', tr) ->
    s1 = s /\ t1 = [] /\
    match p with
    | PPublic => r = Ok tt /\ s' = s /\ tr = []
    | PNone => r = Ok tt /\ always_available n \/ n = "__iter__" \/
               r = Exc (EForbidden n obj) /\ s' = s /\ tr = []
    | PId _ _ => exists a, Asked E s p obj a s' tr /\ r = by_answer a obj n p
    end.
Proof. exact permission_id_truth_lemma. Qed.
Print Assumptions C10_permission_id_truth.

Theorem C10_setattr_permission_id_truth :
  forall E f i k obj n s p s1 t1 r s' tr,
    st_chks s i = Some k -> ck_kind k = CkPlain ->
    no_none (table_of (st_dicts s (ck_set k))) ->
    Checker_setattr_permission_id E k n s = (Ok p, s1, t1) ->
    do_check E (S f) MSetattr (VChk i) obj n s1 = (r, s', tr) ->
    s1 = s /\ t1 = [] /\
    match p with
    | PPublic => r = Ok tt /\ s' = s /\ tr = []
    | PNone => r = Exc (EForbidden n obj) /\ s' = s /\ tr = []
    | PId _ _ => exists a, Asked E s p obj a s' tr /\ r = by_answer a obj n p
    end.
Proof. exact setattr_permission_id_truth_lemma. Qed.
Print Assumptions C10_setattr_permission_id_truth.

Example C10_example :
  Checker_permission_id (wenv ImplC) (mkChecker 20 21 CkPlain) "bar" w_state =
  (Ok p_view, w_state, []) /\
  Checker_setattr_permission_id (wenv ImplPy) (mkChecker 20 21 CkPlain) "foo" w_state =
  (Ok PNone, w_state, []).
Proof. split; reflexivity. Qed.

(** ** C60 *)

(** Python checker: a None entry counts as no entry, whatever the policy. *)
Theorem C60_none_forbids_py :
  forall E f m c g w obj n s r s' tr,
    e_cimpl E = ImplPy ->
    PlainChecker s c g w -> m <> MSetattr -> table_of g n = Some PNone ->
    ~ always_available n -> n <> "__iter__" ->
    do_check E (S (S f)) m c obj n s = (r, s', tr) ->
    r = Exc (EForbidden n obj) /\ s' = s /\ tr = [].
Proof. exact none_forbids_py_lemma. Qed.
Print Assumptions C60_none_forbids_py.

Theorem C60_none_forbids_write_py :
  forall E f c g w obj n s r s' tr,
    e_cimpl E = ImplPy ->
    PlainChecker s c g w -> table_of w n = Some PNone ->
    do_check E (S f) MSetattr c obj n s = (r, s', tr) ->
    r = Exc (EForbidden n obj) /\ s' = s /\ tr = [].
Proof. exact none_forbids_write_py_lemma. Qed.
Print Assumptions C60_none_forbids_write_py.

(** C checker: the policy is asked about the permission None and may grant. *)
Theorem C60_none_forbids_c_refuted :
  exists E s c g w obj n,
    e_cimpl E = ImplC /\ PlainChecker s c g w /\
    table_of g n = Some PNone /\ table_of w n = Some PNone /\
    ~ always_available n /\ n <> "__iter__" /\
    (exists s' tr, do_check E 10 MCheck c obj n s = (Ok tt, s', tr)) /\
    (exists s' tr, do_check E 10 MSetattr c obj n s = (Ok tt, s', tr)).
Proof. exact none_forbids_c_refuted_lemma. Qed.
Print Assumptions C60_none_forbids_c_refuted.

Example C60_example :
  do_check (wenv ImplPy) 5 MCheck (VChk 14) (VObj 5) "nil" (w_state_in true) =
  (Exc (EForbidden "nil" (VObj 5)), w_state_in true, []) /\
  do_check (wenv ImplC) 5 MCheck (VChk 14) (VObj 5) "nil" (w_state_in true) =
  (Ok tt, w_state_in true, [EAsk 0 (VIact 45) PNone (VObj 5) (Some true)]).
Proof. split; reflexivity. Qed.
