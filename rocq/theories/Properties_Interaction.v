(** * Properties C32-C42: interactions, threads and security policies. *)

From Coq Require Import List String Bool Arith ZArith Lia.
From Verif Require Import Base Domain CheckerModel Management Spec Witness MgmtSpec Threads
  ThreadSpec ThreadFacts MgmtFacts PartFacts MgmtWitness BooksThreads.
Import ListNotations.
Open Scope string_scope.

(** ** C32 *)

(** While an interaction is active newInteraction raises and changes nothing. *)
Theorem C32_existing :
  forall E parts s v,
    tl_inter (st_tls s (e_tid E)) = Some v -> v <> VNone ->
    newInteraction E parts s = (Exc EExistingInteraction, s, []).
Proof. exact existing_lemma. Qed.
Print Assumptions C32_existing.

(** Otherwise the thread gets exactly what the current policy made; if the policy
    raises, the thread's interaction is untouched. *)
Theorem C32_new :
  forall E parts s b,
    (tl_inter (st_tls s (e_tid E)) = None \/ tl_inter (st_tls s (e_tid E)) = Some VNone) ->
    simple_policy (st_policy s) = Some b ->
    exists made s1, Makes s b parts made s1 /\
      match made with
      | Ok i => exists s', newInteraction E parts s = (Ok VNone, s', []) /\
                  only_locals (e_tid E) (mkTl (Some i) (tl_prev (st_tls s (e_tid E)))) s1 s'
      | Exc e => newInteraction E parts s = (Exc e, s1, [])
      end.
Proof. exact new_installs_lemma. Qed.
Print Assumptions C32_new.

Theorem C32_new_foreign :
  forall E parts s v,
    (tl_inter (st_tls s (e_tid E)) = None \/ tl_inter (st_tls s (e_tid E)) = Some VNone) ->
    st_policy s = PolForeign v ->
    exists made s1, e_run E (e_tid E) (CallPolicy v parts) s = (made, s1) /\
      match made with
      | Ok i => exists s', newInteraction E parts s =
                             (Ok VNone, s', [ECall Probe (e_tid E) (CallPolicy v parts)]) /\
                  only_locals (e_tid E) (mkTl (Some i) (tl_prev (st_tls s1 (e_tid E)))) s1 s'
      | Exc e => newInteraction E parts s =
                   (Exc e, s1, [ECall Probe (e_tid E) (CallPolicy v parts)])
      end.
Proof. exact new_foreign_lemma. Qed.
Print Assumptions C32_new_foreign.

(** queryInteraction and getInteraction read the same attribute. *)
Theorem C32_query_get :
  forall E s,
    queryInteraction E s =
      (Ok (match tl_inter (st_tls s (e_tid E)) with Some v => v | None => VNone end), s, []) /\
    getInteraction E s =
      (match tl_inter (st_tls s (e_tid E)) with Some v => Ok v | None => Exc ENoInteraction end,
       s, []).
Proof. exact query_lemma. Qed.
Print Assumptions C32_query_get.

(** endInteraction removes it (and remembers it). *)
Theorem C32_end :
  forall E s, exists s', endInteraction E s = (Ok VNone, s', []) /\
    only_locals (e_tid E) (mkTl None (tl_inter (st_tls s (e_tid E)))) s s'.
Proof. exact end_lemma. Qed.
Print Assumptions C32_end.

(** Participations 60 and 61 are free, 46 belongs to the interaction of thread 0. *)
Example C32_example :
  let E1 := mkEnv ImplPy ImplPy 0 1 (fun _ => "") (fun _ => "") (fun _ => false) (fun _ => "") quiet_run in
  let s := w_state_in false in
  let m := newInteraction E1 [60; 61] s in
  fst (fst (newInteraction (wenv ImplPy) [60] s)) = Exc EExistingInteraction /\
  fst (fst m) = Ok VNone /\
  tl_inter (st_tls (after m) 1) = Some (VIact 50) /\
  tl_inter (st_tls (after m) 0) = Some (VIact 45) /\
  st_inters (after m) 50 = Some (mkInter false [60; 61]) /\
  fst (fst (getInteraction E1 s)) = Exc ENoInteraction.
Proof. repeat split; vm_compute; reflexivity. Qed.

(** If a policy returns None, getInteraction does not raise although queryInteraction has
    nothing to return. *)
Theorem C32_none_interaction_refuted :
  exists E s s', newInteraction E [] s = (Ok VNone, s', [ECall Probe 0 (CallPolicy (VObj 1) [])]) /\
    queryInteraction E s' = (Ok VNone, s', []) /\ getInteraction E s' = (Ok VNone, s', []).
Proof.
  exists (wenv ImplPy), (set_policy (PolForeign (VObj 1)) w_state).
  exists (after (newInteraction (wenv ImplPy) [] (set_policy (PolForeign (VObj 1)) w_state))).
  split; [apply outcome; vm_compute; reflexivity|].
  destruct (query_lemma (wenv ImplPy)
    (after (newInteraction (wenv ImplPy) [] (set_policy (PolForeign (VObj 1)) w_state))))
    as [Hq Hg].
  rewrite Hq, Hg.
  assert (Hl : tl_inter (st_tls (after (newInteraction (wenv ImplPy) []
                 (set_policy (PolForeign (VObj 1)) w_state))) (e_tid (wenv ImplPy))) = Some VNone)
    by (vm_compute; reflexivity).
  rewrite Hl. split; reflexivity.
Qed.
Print Assumptions C32_none_interaction_refuted.

(** ** C33 *)

(** In any interleaving of the atomic steps of any threads, the answers a thread gets and
    its final current and remembered interactions follow from its own calls, its own
    locals, and what it saw of the shared data (the policy it read, whether its
    participations were free, the interaction it created). *)
Theorem C33_isolation :
  forall E cs c s tr c' s' t rs,
    policies_keep_locals E ->
    c t = p_mcalls cs -> Interleave E c s tr c' s' -> c' t = PRet rs ->
    Calls cs (st_tls s t) (own t tr) rs (st_tls s' t).
Proof. exact isolation_lemma. Qed.
Print Assumptions C33_isolation.

(** ... and nothing else. *)
Theorem C33_determined :
  forall cs l ls rs1 l1 rs2 l2,
    Calls cs l ls rs1 l1 -> Calls cs l ls rs2 l2 -> rs1 = rs2 /\ l1 = l2.
Proof. exact determined_lemma. Qed.
Print Assumptions C33_determined.

(** A thread that runs without interruption executes the functions as a whole. *)
Theorem C33_sequential :
  forall E c s,
    exec E (e_tid E) (p_mcall c) s = (let '(r, s', _) := mcall_run E c s in (r, s')).
Proof. exact sequential_lemma. Qed.
Print Assumptions C33_sequential.

Theorem C33_sequential_is_an_interleaving :
  forall E A t (p : prog A) s a s' (c : id -> prog A),
    c t = p -> exec E t p s = (a, s') ->
    exists tr c', Interleave E c s tr c' s' /\ c' t = PRet a /\
                  (forall t', t' <> t -> c' t' = c t').
Proof. exact (fun E A => @exec_interleaves E A). Qed.
Print Assumptions C33_sequential_is_an_interleaving.

(** Two threads, interleaved step by step: thread 1 starts an interaction and queries
    it, thread 2 starts one too and ends it in the middle. *)
Example C33_example :
  let c := fun t => match t with
                    | 1 => p_mcalls [MNew []; MGet]
                    | 2 => p_mcalls [MNew []; MEnd; MQuery]
                    | _ => PRet [] end in
  policies_keep_locals (wenv ImplPy) /\
  exists tr c' s',
    Interleave (wenv ImplPy) c w_state tr c' s' /\
    c' 1 = PRet [Ok VNone; Ok (VIact 51)] /\ c' 2 = PRet [Ok VNone; Ok VNone; Ok VNone] /\
    own 1 tr = [LPolicy PolParanoid; LIact false 51] /\
    st_tls s' 1 = mkTl (Some (VIact 51)) None /\ st_tls s' 2 = mkTl None (Some (VIact 50)).
Proof.
  intros c. split.
  { intros t v parts s r s' t' H. simpl in H. inversion H. reflexivity. }
  set (ts := [1; 1; 2; 2; 2; 1; 2; 2; 2; 1; 1; 2; 2; 2; 2; 1; 1]).
  exists (fst (fst (schedule (wenv ImplPy) ts c w_state))),
         (snd (fst (schedule (wenv ImplPy) ts c w_state))),
         (snd (schedule (wenv ImplPy) ts c w_state)).
  split; [apply schedule_interleaves|].
  repeat split; vm_compute; reflexivity.
Qed.

(** ** C34 *)

Theorem C34_round_trip :
  forall E s, exists s1 s2,
    endInteraction E s = (Ok VNone, s1, []) /\
    queryInteraction E s1 = (Ok VNone, s1, []) /\
    getInteraction E s1 = (Exc ENoInteraction, s1, []) /\
    restoreInteraction E s1 = (Ok VNone, s2, []) /\
    only_locals (e_tid E)
      (mkTl (tl_inter (st_tls s (e_tid E))) (tl_inter (st_tls s (e_tid E)))) s s2.
Proof. exact end_restore_lemma. Qed.
Print Assumptions C34_round_trip.

(** The same with any calls in between other than endInteraction. *)
Theorem C34_bracket :
  forall E cs s s1 rs s2 s3 t1 t2 r1 r2,
    policies_keep_locals E -> ~ In MEnd cs ->
    endInteraction E s = (r1, s1, t1) -> mcalls_run E cs s1 = (rs, s2) ->
    restoreInteraction E s2 = (r2, s3, t2) ->
    tl_inter (st_tls s3 (e_tid E)) = tl_inter (st_tls s (e_tid E)).
Proof. exact bracket_lemma. Qed.
Print Assumptions C34_bracket.

Example C34_example :
  let E := wenv ImplPy in let s := w_state_in false in
  let s1 := snd (fst (endInteraction E s)) in
  let m := mcalls_run E [MQuery; MNew [60]; MGet; MNew []] s1 in
  fst m = [Ok VNone; Ok VNone; Ok (VIact 50); Exc EExistingInteraction] /\
  tl_inter (st_tls (snd (fst (restoreInteraction E (snd m)))) 0) = Some (VIact 45).
Proof. split; vm_compute; reflexivity. Qed.

(** ** C35 *)

(** Brackets do not nest: an inner bracket loses the outer interaction. *)
Theorem C35_nested_refuted :
  exists E s rs s',
    mcalls_run E [MEnd; MEnd; MRestore; MRestore] s = (rs, s') /\
    Forall (fun r => r = Ok VNone) rs /\
    tl_inter (st_tls s (e_tid E)) = Some (VIact 45) /\ tl_inter (st_tls s' (e_tid E)) = None.
Proof.
  set (E := wenv ImplPy). set (s := w_state_in false).
  exists E, s, [Ok VNone; Ok VNone; Ok VNone; Ok VNone],
    (snd (mcalls_run E [MEnd; MEnd; MRestore; MRestore] s)).
  split; [apply outcome2; vm_compute; reflexivity|].
  split; [repeat constructor|]. split; vm_compute; reflexivity.
Qed.
Print Assumptions C35_nested_refuted.

(** A bracketed newInteraction/endInteraction pair leaves the thread with the inner
    interaction instead of the outer one: here the permissive one of no participants
    instead of the paranoid one of user 7. *)
Theorem C35_inner_survives_refuted :
  exists E s rs s',
    mcalls_run E [MEnd; MNew []; MEnd; MRestore] s = (rs, s') /\
    Forall (fun r => r = Ok VNone) rs /\
    tl_inter (st_tls s (e_tid E)) = Some (VIact 45) /\ ~ iact_grants s 45 p_view /\
    tl_inter (st_tls s' (e_tid E)) = Some (VIact 50) /\ iact_grants s' 50 p_view.
Proof.
  set (E := wenv ImplPy). set (s := w_state_in false).
  set (m := mcalls_run E [MEnd; MNew []; MEnd; MRestore] s).
  exists E, s, [Ok VNone; Ok VNone; Ok VNone; Ok VNone], (snd m).
  split; [apply outcome2; vm_compute; reflexivity|].
  split; [repeat constructor|]. split; [vm_compute; reflexivity|]. split.
  - intros (x & Hx & H).
    assert (Hi : st_inters s 45 = Some (mkInter false [46])) by (vm_compute; reflexivity).
    rewrite Hi in Hx. inversion Hx; subst x. simpl in H.
    destruct H as [H|[H|H]]; [discriminate|discriminate|].
    specialize (H 46 (or_introl eq_refl)). vm_compute in H. discriminate.
  - split; [vm_compute; reflexivity|].
    exists (mkInter false []). split; [vm_compute; reflexivity|].
    right. right. intros q [].
Qed.
Print Assumptions C35_inner_survives_refuted.

(** ** C36 *)

Theorem C36_register :
  forall cs s, others_keep_policy cs ->
    let '(rs, s') := pcalls_run cs s in spec_pcalls cs (st_policy s) = (rs, st_policy s').
Proof. exact register_lemma. Qed.
Print Assumptions C36_register.

(** Setting the policy changes nothing else, existing interactions in particular. *)
Theorem C36_only_the_policy :
  forall p s, setSecurityPolicy p s = (Ok (st_policy s), set_policy p s, []).
Proof. exact set_frame_lemma. Qed.
Print Assumptions C36_only_the_policy.

Example C36_example :
  let cs := [PGet; PSet PolPermissive; POther (set_next 99); PSet (PolForeign (VObj 1)); PGet;
             PClear; PGet] in
  others_keep_policy cs /\
  fst (pcalls_run cs w_state) =
    [Some PolParanoid; Some PolParanoid; None; Some PolPermissive; Some (PolForeign (VObj 1));
     None; Some PolParanoid].
Proof.
  split; [|reflexivity]. intros f Hf s.
  repeat (destruct Hf as [Hf|Hf]; [try discriminate; inversion Hf; reflexivity|]). destruct Hf.
Qed.

(** The clean-up functions that tests run put the initial policy back and end the interaction
    of the thread that runs them, and do nothing else: other threads keep theirs. *)
Theorem C36_cleanup :
  forall E s,
    exists s', management_cleanup E s = (Ok tt, s', []) /\
      st_policy s' = PolParanoid /\
      only_locals (e_tid E) (mkTl None (tl_inter (st_tls s (e_tid E))))
        (set_policy PolParanoid s) s'.
Proof. exact cleanup_lemma. Qed.
Print Assumptions C36_cleanup.

(** They do not make the thread forget: restoreInteraction brings the interaction of before
    the clean-up back. *)
Theorem C36_cleanup_remembers :
  forall E s v, queryInteraction E s = (Ok v, s, []) ->
    exists s1 s2,
      management_cleanup E s = (Ok tt, s1, []) /\
      queryInteraction E s1 = (Ok VNone, s1, []) /\
      restoreInteraction E s1 = (Ok VNone, s2, []) /\
      queryInteraction E s2 = (Ok v, s2, []).
Proof. exact cleanup_restore_lemma. Qed.
Print Assumptions C36_cleanup_remembers.

Example C36_cleanup_example :
  let s := set_policy PolPermissive (set_tls (fun _ => mkTl (Some (VObj 50)) None) w_state) in
  queryInteraction (wenv ImplPy) s = (Ok (VObj 50), s, []) /\ st_policy s <> PolParanoid.
Proof. split; [reflexivity|discriminate]. Qed.

(** The exchange is not atomic: of two concurrent calls both may return the initial
    policy, although one of them must have come second. *)
Theorem C36_concurrent_refuted :
  exists E c s tr c' s',
    c 1 = p_setSecurityPolicy PolPermissive /\ c 2 = p_setSecurityPolicy (PolForeign (VObj 1)) /\
    Interleave E c s tr c' s' /\
    c' 1 = PRet PolParanoid /\ c' 2 = PRet PolParanoid /\ st_policy s = PolParanoid.
Proof.
  set (c := fun t => match t with
                     | 1 => p_setSecurityPolicy PolPermissive
                     | 2 => p_setSecurityPolicy (PolForeign (VObj 1))
                     | _ => PRet PolParanoid end).
  set (m := schedule (wenv ImplPy) [1; 2; 2; 1] c w_state).
  exists (wenv ImplPy), c, w_state, (fst (fst m)), (snd (fst m)), (snd m).
  split; [reflexivity|]. split; [reflexivity|].
  split; [apply schedule_interleaves|].
  repeat split; vm_compute; reflexivity.
Qed.
Print Assumptions C36_concurrent_refuted.

(** ** C37 *)

Theorem C37_public_and_none :
  forall E p obj iv s,
    p = PPublic \/ p = PNone -> checkPermission E p obj iv s = (Ok (VBool true), s, []).
Proof. exact check_public_lemma. Qed.
Print Assumptions C37_public_and_none.

(** With an interaction: its answer. *)
Theorem C37_given :
  forall E p obj iv s,
    p <> PPublic -> p <> PNone -> iv <> VNone ->
    checkPermission E p obj iv s = inter_checkPermission E iv p obj s.
Proof. exact check_given_lemma. Qed.
Print Assumptions C37_given.

(** Without: the answer of the thread's own interaction, or NoInteraction. *)
Theorem C37_current :
  forall E p obj s,
    p <> PPublic -> p <> PNone ->
    checkPermission E p obj VNone s =
    match tl_inter (st_tls s (e_tid E)) with
    | None => (Exc ENoInteraction, s, [])
    | Some iv => inter_checkPermission E iv p obj s
    end.
Proof. exact check_current_lemma. Qed.
Print Assumptions C37_current.

(** What "its answer" means: interactions of this package, and others. *)
Theorem C37_simple_answer :
  forall E i x p obj s,
    st_inters s i = Some x ->
    exists b, inter_checkPermission E (VIact i) p obj s = (Ok (VBool b), s, []) /\
              (b = true <-> iact_grants s i p).
Proof. exact inter_simple_lemma. Qed.
Print Assumptions C37_simple_answer.

Theorem C37_foreign_answer :
  forall E iv p obj s r s',
    foreign_interaction iv -> e_run E (e_tid E) (CallPerm iv p obj) s = (r, s') ->
    inter_checkPermission E iv p obj s =
    (r, s', [ECall Probe (e_tid E) (CallPerm iv p obj)]).
Proof. exact inter_foreign_lemma. Qed.
Print Assumptions C37_foreign_answer.

(** Whenever there is an answer, it is one of those: an object that is no interaction never
    gives one. *)
Theorem C37_answered :
  forall E p obj iv s v s' t,
    checkPermission E p obj iv s = (Ok v, s', t) ->
    p = PPublic \/ p = PNone \/
    exists iv',
      (iv <> VNone /\ iv' = iv \/ iv = VNone /\ tl_inter (st_tls s (e_tid E)) = Some iv') /\
      ((exists i x b, iv' = VIact i /\ st_inters s i = Some x /\ v = VBool b /\ s' = s /\
                      (b = true <-> iact_grants s i p)) \/
       (foreign_interaction iv' /\ e_run E (e_tid E) (CallPerm iv' p obj) s = (Ok v, s'))).
Proof. exact answered_lemma. Qed.
Print Assumptions C37_answered.

Example C37_example :
  fst (fst (checkPermission (wenv ImplC) p_view (VObj 3) VNone w_state)) = Exc ENoInteraction /\
  fst (fst (checkPermission (wenv ImplC) PPublic (VObj 3) VNone w_state)) = Ok (VBool true) /\
  fst (fst (checkPermission (wenv ImplC) p_view (VObj 3) VNone (w_state_in false))) =
    Ok (VBool false) /\
  fst (fst (checkPermission (wenv ImplC) p_view (VObj 3) VNone (w_state_in true))) =
    Ok (VBool true) /\
  fst (fst (checkPermission (wenv ImplC) p_view (VObj 3) (VObj 77) (w_state_in true))) =
    Ok (VBool false) /\
  snd (checkPermission (wenv ImplC) p_view (VObj 3) (VObj 77) (w_state_in true)) =
    [ECall Probe 0 (CallPerm (VObj 77) p_view (VObj 3))].
Proof. repeat split; vm_compute; reflexivity. Qed.

(** ** C38 *)

(** An existing interaction is left alone. *)
Theorem C38_existing :
  forall E A I (body : M A) s i,
    tl_inter (st_tls s (e_tid E)) = Some (VIact i) ->
    with_interaction E I body s = body s.
Proof. exact (fun E A => @with_simple_existing_lemma E A). Qed.
Print Assumptions C38_existing.

Theorem C38_existing_foreign :
  forall E A I (body : M A) s v s1 t1,
    tl_inter (st_tls s (e_tid E)) = Some v ->
    interaction_truth I v s = (Ok true, s1, t1) ->
    with_interaction E I body s = let '(r, s2, t2) := body s1 in (r, s2, (t1 ++ t2)%list).
Proof. exact (fun E A => @with_existing_lemma E A). Qed.
Print Assumptions C38_existing_foreign.

(** Otherwise the body, whatever it is, runs in a fresh interaction of one new
    participation; its result or exception comes out; afterwards the thread has no
    interaction. *)
Theorem C38_fresh :
  forall E A I (body : M A) s b,
    tl_inter (st_tls s (e_tid E)) = None -> simple_policy (st_policy s) = Some b ->
    exists u q i s1,
      only_locals (e_tid E) (mkTl (Some (VIact i)) (tl_prev (st_tls s (e_tid E))))
        (set_next (st_next s1) (set_parts (st_parts s1) (set_inters (st_inters s1) s))) s1 /\
      st_inters s1 i = Some (mkInter b [q]) /\
      st_parts s1 q = mkPart (User u) (Some (VIact i)) /\
      (u = st_next s /\ q = S u /\ i = S q /\ st_next s1 = S i) /\
      (forall j, j <> i -> st_inters s1 j = st_inters s j) /\
      (forall q', q' <> q -> st_parts s1 q' = st_parts s q') /\
      forall r s2 t2, body s1 = (r, s2, t2) ->
        exists s3, with_interaction E I body s = (r, s3, t2) /\
          only_locals (e_tid E) (mkTl None (tl_inter (st_tls s2 (e_tid E)))) s2 s3.
Proof. exact (fun E A => @with_fresh_lemma E A). Qed.
Print Assumptions C38_fresh.

(** If the policy raises, so does the context manager, without running the body. *)
Theorem C38_policy_raises :
  forall E A I (body : M A) s v q e s1,
    tl_inter (st_tls s (e_tid E)) = None -> st_policy s = PolForeign v ->
    q = S (st_next s) ->
    e_run E (e_tid E) (CallPolicy v [q])
      (set_parts (upd (st_parts s) q (mkPart (User (st_next s)) None)) (set_next (S q) s)) =
      (Exc e, s1) ->
    with_interaction E I body s = (Exc e, s1, [ECall Probe (e_tid E) (CallPolicy v [q])]).
Proof. exact (fun E A => @with_failed_lemma E A). Qed.
Print Assumptions C38_policy_raises.

(** An interaction of a foreign policy that is false (it has a length of zero, say) is
    not left alone: the context manager tries to start another one, which is refused;
    the body does not run, and the interaction stays. *)
Theorem C38_false :
  forall E A I (body : M A) s v s1 t1 v1,
    tl_inter (st_tls s (e_tid E)) = Some v ->
    interaction_truth I v s = (Ok false, s1, t1) ->
    tl_inter (st_tls s1 (e_tid E)) = Some v1 -> v1 <> VNone ->
    exists s2, with_interaction E I body s = (Exc EExistingInteraction, s2, t1) /\
      st_tls s2 = st_tls s1 /\ st_inters s2 = st_inters s1 /\ st_policy s2 = st_policy s1.
Proof. exact (fun E A => @with_false_lemma E A). Qed.
Print Assumptions C38_false.

Example C38_false_example :
  let E := wenv ImplPy in
  let I := mkInterp (fun _ _ => ret (VBool false)) (fun _ _ _ _ => raise EFuel) (fun _ _ => raise EFuel) in
  let s := set_tls (fun _ => mkTl (Some (VObj 7)) None) w_state in
  interaction_truth I (VObj 7) s = (Ok false, s, []) /\
  fst (fst (with_interaction E I (ret VNone) s)) = Exc EExistingInteraction.
Proof. split; lazy; reflexivity. Qed.

(** A body that asks for the interaction, ends it, starts another one and raises. *)
Example C38_example :
  let E := wenv ImplPy in
  let I := mkInterp (fun _ _ => raise EFuel) (fun _ _ _ _ => raise EFuel) (fun _ _ => raise EFuel) in
  let body := (v <- getInteraction E ;; endInteraction E ;;; newInteraction E [] ;;;
               raise (match v with VIact 52 => EApp 3 | _ => EFuel end) : M unit)%m in
  fst (fst (with_interaction E I body w_state)) = Exc (EApp 3) /\
  st_tls (snd (fst (with_interaction E I body w_state))) 0 = mkTl None (Some (VIact 53)).
Proof. split; vm_compute; reflexivity. Qed.

(** ** C39 *)

Theorem C39_paranoid :
  forall E i x p obj s,
    st_inters s i = Some x -> in_permissive x = false ->
    exists b, inter_checkPermission E (VIact i) p obj s = (Ok (VBool b), s, []) /\
      (b = true <-> (p = PPublic \/
         forall q, In q (in_parts x) -> pt_principal (st_parts s q) = SystemUser)).
Proof. exact paranoid_lemma. Qed.
Print Assumptions C39_paranoid.

Theorem C39_permissive :
  forall E i x p obj s,
    st_inters s i = Some x -> in_permissive x = true ->
    inter_checkPermission E (VIact i) p obj s = (Ok (VBool true), s, []).
Proof. exact permissive_lemma. Qed.
Print Assumptions C39_permissive.

Example C39_example :
  let E := wenv ImplPy in
  let s := snd (fst (Paranoid_new false [60; 61] w_state)) in
  let s2 := snd (fst (Paranoid_add 50 46 (set_inters (st_inters s)
              (set_parts (upd (st_parts s) 46 (mkPart (User 7) None)) s)))) in
  fst (fst (inter_checkPermission E (VIact 50) p_view (VObj 3) s)) = Ok (VBool true) /\
  fst (fst (inter_checkPermission E (VIact 50) p_view (VObj 3) s2)) = Ok (VBool false) /\
  fst (fst (inter_checkPermission E (VIact 50) PPublic (VObj 3) s2)) = Ok (VBool true).
Proof. repeat split; vm_compute; reflexivity. Qed.

(** ** C40 *)

Theorem C40_add_never_widens :
  forall i q s r s' t,
    st_inters s i <> None -> Paranoid_add i q s = (r, s', t) ->
    forall j p, iact_grants s' j p -> iact_grants s j p.
Proof. exact add_narrows_lemma. Qed.
Print Assumptions C40_add_never_widens.

Theorem C40_remove_never_narrows :
  forall part_eq i q s r s' t,
    Paranoid_remove part_eq i q s = (r, s', t) ->
    forall j p, iact_grants s j p -> iact_grants s' j p.
Proof. exact remove_widens_lemma. Qed.
Print Assumptions C40_remove_never_narrows.

Example C40_example :
  let s := w_state_in false in
  let m1 := Paranoid_remove (fun _ _ => false) 45 46 s in
  let m2 := Paranoid_add 45 46 (after m1) in
  fst (fst m1) = Ok tt /\ fst (fst m2) = Ok tt /\
  ~ iact_grants s 45 p_view /\ iact_grants (after m1) 45 p_view /\
  ~ iact_grants (after m2) 45 p_view.
Proof.
  assert (HD : forall s, st_inters s 45 = Some (mkInter false [46]) ->
             pt_principal (st_parts s 46) = User 7 -> ~ iact_grants s 45 p_view).
  { intros s Hi Hp (x & Hx & H). rewrite Hi in Hx. inversion Hx; subst x. simpl in H.
    destruct H as [H|[H|H]]; [discriminate|discriminate|].
    specialize (H 46 (or_introl eq_refl)). rewrite Hp in H. discriminate. }
  intros s m1 m2.
  split; [vm_compute; reflexivity|]. split; [vm_compute; reflexivity|].
  split; [apply HD; vm_compute; reflexivity|].
  split; [|apply HD; vm_compute; reflexivity].
  exists (mkInter false []). split; [vm_compute; reflexivity|].
  right. right. intros q [].
Qed.

(** ** C41 *)

(** The bookkeeping invariant holds at all times (participations compared by identity). *)
Theorem C41_invariant :
  forall (Env : env -> Prop) part_eq s s',
    (forall E, Env E -> foreign_books_ok E) -> identity_eq part_eq ->
    Books Env part_eq s s' -> books_ok s -> books_ok s'.
Proof. exact books_lemma. Qed.
Print Assumptions C41_invariant.

(** add enters a free participation and refuses any other without effect. *)
Theorem C41_add :
  forall i q s x,
    st_inters s i = Some x ->
    (pt_inter (st_parts s q) = None ->
     exists s', Paranoid_add i q s = (Ok tt, s', []) /\ st_next s' = st_next s /\
                Entered s i (in_permissive x) (in_parts x) [q] s') /\
    (forall v, pt_inter (st_parts s q) = Some v ->
     Paranoid_add i q s = (Exc (EValue "already belongs to an interaction"), s, [])).
Proof. exact add_lemma. Qed.
Print Assumptions C41_add.

(** remove refuses a participation of another interaction without effect. *)
Theorem C41_remove_refuses :
  forall part_eq i q s,
    pt_inter (st_parts s q) <> Some (VIact i) ->
    exists msg, Paranoid_remove part_eq i q s = (Exc (EValue msg), s, []).
Proof. exact remove_refuses_lemma. Qed.
Print Assumptions C41_remove_refuses.

Theorem C41_remove :
  forall part_eq i q s r s' t,
    Paranoid_remove part_eq i q s = (r, s', t) ->
    (exists e, r = Exc e /\ s' = s /\ t = []) \/
    (exists x l, r = Ok tt /\ t = [] /\ st_inters s i = Some x /\
       pt_inter (st_parts s q) = Some (VIact i) /\
       list_remove part_eq (in_parts x) q = Some l /\
       s' = set_parts (upd (st_parts s) q (mkPart (pt_principal (st_parts s q)) None))
              (set_inters (upd (st_inters s) i (Some (mkInter (in_permissive x) l))) s)).
Proof. exact remove_inv. Qed.
Print Assumptions C41_remove.

Example C41_example :
  books_ok w_state /\
  exists s', Books (fun E => E = wenv ImplPy) (fun _ _ => false) w_state s' /\
             participants s' 50 = [61] /\ participants s' 51 = [60].
Proof.
  split; [exact w_state_books|].
  set (m1 := Paranoid_new false [60; 61] w_state).
  set (m2 := Paranoid_remove (fun _ _ => false) 50 60 (after m1)).
  set (m3 := mcall_run (wenv ImplPy) (MNew [60]) (after m2)).
  set (m4 := Paranoid_add 50 60 (after m3)).
  exists (after m4). split.
  { eapply Bk_policy; [exact (outcome_any m1)|].
    eapply Bk_remove; [exact (outcome_any m2)|].
    eapply Bk_call; [reflexivity|exact (outcome_any m3)|].
    eapply Bk_add; [|exact (outcome_any m4)|apply Bk_done].
    vm_compute. discriminate. }
  split; vm_compute; reflexivity.
Qed.

(** [list.remove] compares with [==]: with participations that compare equal the wrong one
    is removed, and a participation ends up in two interactions. *)
Theorem C41_equal_participations_refuted :
  exists part_eq s s',
    books_ok s /\ Books (fun _ => False) part_eq s s' /\
    participants s' 50 = [61] /\ participants s' 51 = [61].
Proof.
  set (m1 := Paranoid_new false [60; 61] w_state).
  set (m2 := Paranoid_remove (fun _ _ => true) 50 61 (after m1)).
  set (m3 := Paranoid_new false [61] (after m2)).
  exists (fun _ _ => true), w_state, (after m3). split; [exact w_state_books|]. split.
  { eapply Bk_policy; [exact (outcome_any m1)|].
    eapply Bk_remove; [exact (outcome_any m2)|].
    eapply Bk_policy; [exact (outcome_any m3)|apply Bk_done]. }
  split; vm_compute; reflexivity.
Qed.
Print Assumptions C41_equal_participations_refuted.

(** Any number of threads, interrupted between any two steps: if no two of them bring the same
    participation the books are right when they are done. *)
Theorem C41_threads :
  forall E (css : id -> list mcall) c s c' s',
    (forall t, c t = p_mcalls (css t)) ->
    (forall t t' q, brings (css t) q -> brings (css t') q -> t = t') ->
    (forall v, st_policy s <> PolForeign v) -> books_ok s ->
    Together E c s c' s' -> (forall t, exists rs, c' t = PRet rs) -> books_ok s'.
Proof. exact threads_books_lemma. Qed.
Print Assumptions C41_threads.

Example C41_threads_example :
  let css := fun t => match t with 1 => [MNew [60; 62]; MEnd] | 2 => [MNew [61]] | _ => [] end in
  let c := fun t => p_mcalls (css t) in
  (forall t t' q, brings (css t) q -> brings (css t') q -> t = t') /\
  (forall v, st_policy w_state <> PolForeign v) /\ books_ok w_state /\
  exists c' s', Together (wenv ImplPy) c w_state c' s' /\
    (forall t, exists rs, c' t = PRet rs) /\
    participants s' 50 = [60; 62] /\ participants s' 51 = [61].
Proof.
  intros css c. split.
  { intros t t' q (l & H1 & H2) (l' & H3 & H4). unfold css in *.
    destruct t as [|[|[|t]]], t' as [|[|[|t']]]; simpl in *; try reflexivity; try contradiction; exfalso;
      repeat match goal with
             | H : _ \/ _ |- _ => destruct H
             | H : MNew _ = MNew _ |- _ => injection H as <-
             | H : MEnd = MNew _ |- _ => discriminate H
             | H : False |- _ => exact H
             end; simpl in *; lia. }
  split; [intros v H; discriminate H|]. split; [exact w_state_books|].
  set (ts := [1; 1; 1; 2; 2; 2; 1; 2; 1; 2; 1; 2; 1; 1; 1; 1; 1; 1; 1; 2; 1; 1; 1; 2]).
  exists (snd (fst (schedule (wenv ImplPy) ts c w_state))), (snd (schedule (wenv ImplPy) ts c w_state)).
  split; [exact (schedule_together (wenv ImplPy) ts c w_state)|].
  split; [|split; vm_compute; reflexivity].
  intros t. exists (match t with 1 => [Ok VNone; Ok VNone] | 2 => [Ok VNone] | _ => [] end).
  destruct t as [|[|[|t]]]; reflexivity.
Qed.
Print Assumptions C41_threads_example.

(** Two threads that use the same participation at the same time: both succeed. *)
Theorem C41_concurrent_refuted :
  exists E c s tr c' s',
    c 1 = p_mcalls [MNew [60]] /\ c 2 = p_mcalls [MNew [60]] /\ books_ok s /\
    Interleave E c s tr c' s' /\
    c' 1 = PRet [Ok VNone] /\ c' 2 = PRet [Ok VNone] /\
    participants s' 50 = [60] /\ participants s' 51 = [60].
Proof.
  set (c := fun t => match t with
                     | 1 => p_mcalls [MNew [60]]
                     | 2 => p_mcalls [MNew [60]]
                     | _ => PRet [] end).
  set (m := schedule (wenv ImplPy) [1; 1; 1; 1; 2; 2; 2; 2; 2; 2; 2; 1; 1; 1] c w_state).
  exists (wenv ImplPy), c, w_state, (fst (fst m)), (snd (fst m)), (snd m).
  split; [reflexivity|]. split; [reflexivity|]. split; [exact w_state_books|].
  split; [apply schedule_interleaves|].
  repeat split; vm_compute; reflexivity.
Qed.
Print Assumptions C41_concurrent_refuted.

(** ** C42 *)

(** A failed newInteraction keeps the participations before the offending one bound to an
    interaction nobody can reach ([C32_new] says that this is all it does). *)
Theorem C42_failure_leaves_traces_refuted :
  exists E parts s e s',
    books_ok s /\ newInteraction E parts s = (Exc e, s', []) /\
    pt_inter (st_parts s 60) = None /\ pt_inter (st_parts s' 60) = Some (VIact 50) /\
    fst (fst (newInteraction E [60] s')) = Exc (EValue "already belongs to an interaction") /\
    fst (fst (newInteraction E [60] s)) = Ok VNone.
Proof.
  exists (wenv ImplPy), [60; 60], w_state, (EValue "already belongs to an interaction"),
    (after (newInteraction (wenv ImplPy) [60; 60] w_state)).
  split; [exact w_state_books|].
  split; [apply outcome; vm_compute; reflexivity|].
  repeat split; vm_compute; reflexivity.
Qed.
Print Assumptions C42_failure_leaves_traces_refuted.

(** The thread itself still has no interaction, and existing interactions are untouched. *)
Theorem C42_thread_unaffected :
  forall E parts s b e s' t,
    (tl_inter (st_tls s (e_tid E)) = None \/ tl_inter (st_tls s (e_tid E)) = Some VNone) ->
    simple_policy (st_policy s) = Some b ->
    newInteraction E parts s = (Exc e, s', t) ->
    st_tls s' = st_tls s /\ st_policy s' = st_policy s /\
    (forall i, i <> st_next s -> st_inters s' i = st_inters s i) /\
    (forall q v, pt_inter (st_parts s q) = Some v -> st_parts s' q = st_parts s q).
Proof. exact failed_new_lemma. Qed.
Print Assumptions C42_thread_unaffected.
