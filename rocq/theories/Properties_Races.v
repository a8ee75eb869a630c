(** * Property C77: races between declarations fail closed. *)

From Coq Require Import List String Bool Arith Lia.
From Verif Require Import Base Domain CheckerModel ProxyModel Spec RegSpec ProxySpec Witness
  Protect ProtectSpec ProtectFacts DeclThreads DeclThreadSpec DeclThreadFacts RaceSpec RaceFacts
  RaceProps.
Import ListNotations.
Open Scope string_scope.

(** Threads declare anything at the same time, like_class included and without any
    condition.  At every moment, every permission registered for a class is one that
    somebody granted: it was there before, is declared by a thread, or comes from a class
    that it is declared to be like. *)
Theorem C77_no_excess :
  forall E ds s c s',
    registry_wf s -> Runs E (fun t => p_decls (ds t)) s c s' ->
    (forall k n p, read_protection s' k n = Some p -> granted ds s false k n p) /\
    (forall k n p, write_protection s' k n = Some p -> granted ds s true k n p).
Proof. exact moment_lemma. Qed.
Print Assumptions C77_no_excess.

(** The same for a checker that was registered at some earlier moment and may have been
    replaced since by another thread: proxies made with it are no more open. *)
Theorem C77_replaced :
  forall E s ds c1 s1 c2 s2 k i ch,
    registry_wf s -> Runs E (fun t => p_decls (ds t)) s c1 s1 -> Runs E c1 s1 c2 s2 ->
    live s1 k i ch ->
    st_chks s2 i = Some ch /\
    (forall n p, dget String.eqb (st_dicts s2 (ck_get ch)) n = Some p -> granted ds s false k n p) /\
    (forall n p, dget String.eqb (st_dicts s2 (ck_set ch)) n = Some p -> granted ds s true k n p).
Proof. exact excess_lemma. Qed.
Print Assumptions C77_replaced.

(** So what nobody grants is refused at every moment, through every proxy whose checker is
    or was the class's, without anything happening. *)
Theorem C77_refused :
  forall E ds s c1 s1 c2 s2 k i ch f o p n a w,
    registry_wf s -> never_none ds s ->
    Runs E (fun t => p_decls (ds t)) s c1 s1 -> Runs E c1 s1 c2 s2 ->
    live s1 k i ch -> ck_kind ch = CkPlain -> st_prox s2 p = Some (w, VChk i) ->
    guard_of (e_impl E) o = Some (p, n, a) ->
    (a = Read -> ~ always_available n /\ n <> "__iter__") ->
    (forall q, ~ granted ds s (writing a) k n q) ->
    perform E (S (S (S f))) o s2 = (Exc (EForbidden n w), s2, []).
Proof. exact race_refused_lemma. Qed.
Print Assumptions C77_refused.

(** Two threads and a class without checker. *)
Definition racing (t : id) : list decl :=
  match t with
  | 0 => [DName (KType "app.New") "y" PPublic]
  | 1 => [DName (KType "app.New") "x" PPublic; DName (KType "app.New") "x" p_edit]
  | _ => []
  end.

(** The first thread is about to register a checker; the second one has made its first
    declaration, and somebody makes a proxy. *)
Definition race1 := schedule (wenv ImplC) [0; 0; 0; 1; 1; 1; 1; 1; 1]
                      (fun t => p_decls (racing t)) w_state.
Definition race1' : state := set_prox (upd (st_prox (snd race1)) 90 (Some (VObj 5, VChk 55)))
                               (snd race1).
(** Both finish. *)
Definition race2 := schedule (wenv ImplC) [0; 0; 0; 1; 1; 1] (fst race1) race1'.

(** What is not true: that tightening a permission later reaches the proxies that exist, as
    it does in one thread (C72).  Here both threads finish without exception, the class
    requires a permission for [x], and the proxy still gives [x] to anybody. *)
Theorem C77_stale_refuted :
  exists E ds s c1 s1 s1' c2 s2 k i p w o,
    registry_wf s /\ never_none ds s /\
    Runs E (fun t => p_decls (ds t)) s c1 s1 /\ leaves_tables s1 s1' /\ Runs E c1 s1' c2 s2 /\
    (forall t, c2 t = DRet (Ok tt)) /\
    dget rkey_eqb (st_reg s1') k = Some (VChk i) /\ st_prox s1' p = Some (w, VChk i) /\
    read_protection s2 k "x" = Some p_edit /\ st_prox s2 p = Some (w, VChk i) /\
    guard_of (e_impl E) o = Some (p, "x", Read) /\ tl_inter (st_tls s2 (e_tid E)) = None /\
    exists r s3, perform E 6 o s2 = (Ok r, s3, [ECall Client 0 (CallOp (OGetattr w "x" None))]).
Proof.
  exists (wenv ImplC), racing, w_state, (fst race1), (snd race1), race1', (fst race2), (snd race2),
    (KType "app.New"), 55, 90, (VObj 5), (OGetattr (VProxy 90) "x" None).
  split. { split; intros; discriminate. }
  split.
  { split; [intros k n; split; discriminate|].
    intros t k n. destruct t as [|[|t]]; split; intros H; simpl in H;
      repeat (destruct H as [H|H]; [discriminate H|]); contradiction. }
  split; [exact (schedule_runs (wenv ImplC) [0; 0; 0; 1; 1; 1; 1; 1; 1] (fun t => p_decls (racing t)) w_state)|].
  split; [split; [reflexivity|split; [apply le_n|split; reflexivity]]|].
  split; [exact (schedule_runs (wenv ImplC) [0; 0; 0; 1; 1; 1] (fst race1) race1')|].
  split. { intros t. destruct t as [|[|t]]; vm_compute; reflexivity. }
  repeat (split; [vm_compute; reflexivity|]).
  eexists. eexists. vm_compute. reflexivity.
Qed.
Print Assumptions C77_stale_refuted.

(** A moment of the race above: both registered a checker, one of them replaced, and the
    name [z], which nobody grants, is refused through the old proxy, also for writing. *)
Example C77_example :
  registry_wf w_state /\ never_none racing w_state /\
  Runs (wenv ImplC) (fun t => p_decls (racing t)) w_state (fst race1) (snd race1) /\
  Runs (wenv ImplC) (fst race1) (snd race1) (fst race2) (snd race2) /\
  (exists c, live (snd race1) (KType "app.New") 55 c /\ ck_kind c = CkPlain) /\
  dget rkey_eqb (st_reg (snd race2)) (KType "app.New") = Some (VChk 52) /\
  st_prox (snd race2) 90 = Some (VObj 5, VChk 55) /\
  granted racing w_state false (KType "app.New") "x" PPublic /\
  granted racing w_state false (KType "app.New") "x" p_edit /\
  (forall q, ~ granted racing w_state (writing Read) (KType "app.New") "z" q) /\
  (forall q, ~ granted racing w_state (writing Write) (KType "app.New") "x" q) /\
  perform (wenv ImplC) 3 (OGetattr (VProxy 90) "z" None) (snd race2)
    = (Exc (EForbidden "z" (VObj 5)), snd race2, []).
Proof.
  assert (No : forall w k n q, granted racing w_state w k n q -> w = false /\ (n = "x" \/ n = "y")).
  { intros w k n q H. induction H as [k n p H|k n p H|t k n p H|t k n p H|t w k l n p H H1 IH|w w' k k' n p d H H0 H1 IH].
    - discriminate H.
    - discriminate H.
    - split; [reflexivity|]. destruct t as [|[|t]]; simpl in H.
      + destruct H as [H|[]]. injection H as _ <- _. right. reflexivity.
      + destruct H as [H|[H|[]]]; injection H as _ <- _; left; reflexivity.
      + destruct H.
    - destruct t as [|[|t]]; simpl in H; repeat (destruct H as [H|H]; [discriminate H|]); destruct H.
    - destruct t as [|[|t]]; simpl in H; repeat (destruct H as [H|H]; [discriminate H|]); destruct H.
    - destruct H as [i [c [[H _] _]]]. discriminate H. }
  split. { split; intros; discriminate. }
  split.
  { split; [intros k n; split; discriminate|].
    intros t k n. destruct t as [|[|t]]; split; intros H; simpl in H;
      repeat (destruct H as [H|H]; [discriminate H|]); contradiction. }
  split; [exact (schedule_runs (wenv ImplC) [0; 0; 0; 1; 1; 1; 1; 1; 1] (fun t => p_decls (racing t)) w_state)|].
  split.
  { apply Runs_other with race1'; [split; [reflexivity|split; [apply le_n|split; reflexivity]]|].
    exact (schedule_runs (wenv ImplC) [0; 0; 0; 1; 1; 1] (fst race1) race1'). }
  split. { eexists. split; [split; vm_compute; reflexivity|reflexivity]. }
  split; [vm_compute; reflexivity|]. split; [vm_compute; reflexivity|].
  split. { apply (granted_name racing w_state 1 (KType "app.New") "x" PPublic). left. reflexivity. }
  split. { apply (granted_name racing w_state 1 (KType "app.New") "x" p_edit). right. left. reflexivity. }
  split. { intros q H. destruct (No _ _ _ _ H) as [_ [H0|H0]]; discriminate H0. }
  split. { intros q H. destruct (No _ _ _ _ H) as [H0 _]. discriminate H0. }
  vm_compute. reflexivity.
Qed.
