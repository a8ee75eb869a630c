(** * Properties_CExtAgree: the C code, call by call, does what the model of the C build says.

    CExt.v follows _proxy.c and _zope_security_checker.c statement by statement and logs every
    call into Python; CheckerModel.v and ProxyModel.v say what the C build does to Python objects.
    If the logged calls are answered as the rest of the world answers them (CExtAgreeSpec.v), then
    what the C function returns, the exception it leaves set, the state and the events are those of
    the model.

    C86. *)

From Coq Require Import List String Bool Arith ZArith.
From Verif Require Import Base Domain CheckerModel ProxyModel CExtAgreeSpec CExtAgreeFacts CExtAgreeChecker.
From Verif Require CExt.
From Verif Require Import Witness CExtAgreeWitness.
Import ListNotations.
Open Scope string_scope.

(** The world of the examples. *)
Example C86_world : named W /\ typed W w_is_proxy w_is_proxy w_has_ass w_has_ass /\ e_impl w_env = ImplC /\ e_cimpl w_env = ImplC.
Proof. exact (conj w_named (conj w_typed (conj eq_refl eq_refl))). Qed.

(** Operators, calls, attribute and item reads, iteration: the slots that return an object. *)
Theorem C86_slots : forall E W is_checker is_proxy exact_proxy has_sub has_ass oracle args has_num has_next k f
  px ob chk p slot oper m c0 c1 s r,
  named W -> typed W is_proxy exact_proxy has_sub has_ass -> e_impl E = ImplC ->
  object_op E W oracle args is_proxy has_sub has_ass has_num has_next k f px ob p slot oper m ->
  stands W px ob chk p c0 s -> slot c0 = Some (r, c1) ->
  exists calls, CExt.log c1 = (rev calls ++ CExt.log c0)%list /\
    forall x s' tr, answers E W is_checker k oper f calls None s x s' tr ->
      did W r x m s s' tr.
Proof. intros. eapply object_agree; eassumption. Qed.
Print Assumptions C86_slots.
Example C86_slots_case : 
  stands W 30 33 34 40 w_c w_state /\
  object_op w_env W attr_oracle [30; 31] w_is_proxy w_has_ass w_has_ass (fun _ => true) (fun _ => true) Client 3
    30 33 40 (CExt.proxy_getattro attr_oracle [30; 31] w_has_ass w_has_ass 30 31) attr_oper
    (i_op (interp_n w_env 4) Client (OGetattr (VProxy 40) "foo" None)) /\
  (exists c1, CExt.proxy_getattro attr_oracle [30; 31] w_has_ass w_has_ass 30 31 w_c = Some (Some 42, c1) /\
     CExt.log c1 = (rev attr_calls ++ CExt.log w_c)%list) /\
  (exists s' tr, answers w_env W w_has_ass Client attr_oper 3 attr_calls None w_state None s' tr /\
     st_prox s' 50 = Some (VObj 9, VChk default_cid)).
Proof. exact attr_run. Qed.

(** Assignments, deletions, len, in, hash and truth: the slots that return an int. *)
Theorem C86_int_slots : forall E W is_checker is_proxy exact_proxy has_sub has_ass oracle args k f
  px ob chk p slot oper m c0 c1 s r,
  named W -> typed W is_proxy exact_proxy has_sub has_ass -> e_impl E = ImplC ->
  int_op E W oracle args has_ass k f px p slot oper m ->
  stands W px ob chk p c0 s -> slot c0 = Some (r, c1) ->
  exists calls, CExt.log c1 = (rev calls ++ CExt.log c0)%list /\
    forall x s' tr, answers E W is_checker k oper f calls None s x s' tr ->
      did_int r x m s s' tr.
Proof. intros. eapply int_agree; eassumption. Qed.
Print Assumptions C86_int_slots.
Example C86_int_slots_case : 
  int_op w_env W len_oracle [30] w_has_ass Client 3 30 40 (CExt.proxy_length len_oracle [30] w_has_ass 30)
    (on1 W OLen) (i_op (interp_n w_env 4) Client (OLen (VProxy 40))) /\
  (exists c1, CExt.proxy_length len_oracle [30] w_has_ass 30 w_c = Some ((-1)%Z, c1) /\
     CExt.log c1 = (rev len_calls ++ CExt.log w_c)%list) /\
  (exists s' tr, answers w_env W w_has_ass Client (on1 W OLen) 3 len_calls None w_state
     (Some (EForbidden "__len__" (VObj 5))) s' tr).
Proof. exact len_run. Qed.

(** In-place operators.  An object has one address. *)
Theorem C86_in_place : forall E W is_checker is_proxy exact_proxy has_sub has_ass oracle args k f
  px ob chk p b other o c0 c1 s r,
  named W -> typed W is_proxy exact_proxy has_sub has_ass -> e_impl E = ImplC ->
  nm W o = c_inop_name b -> (forall q, vl W q = vl W ob -> q = ob) ->
  stands W px ob chk p c0 s -> CExt.check2i oracle args has_sub has_ass px other o c0 = Some (r, c1) ->
  exists calls, CExt.log c1 = (rev calls ++ CExt.log c0)%list /\
    forall x s' tr, answers E W is_checker k (on2 W (OIn b)) f calls None s x s' tr ->
      did W r x (i_op (interp_n E (S f)) k (OIn b (VProxy p) (vl W other))) s s' tr.
Proof. intros. eapply in_place_agree; eassumption. Qed.
Print Assumptions C86_in_place.
Example C86_in_place_case : 
  stands W 30 33 34 40 w_c add_state /\ nm W 120 = c_inop_name IAdd /\
  (forall q, vl W q = vl W 33 -> q = 33) /\
  (exists c1, CExt.check2i add_oracle [30; 61] w_has_ass w_has_ass 30 61 120 w_c = Some (Some 30, c1) /\
     CExt.log c1 = (rev add_calls ++ CExt.log w_c)%list) /\
  (exists s' tr, answers w_env W w_has_ass Client (on2 W (OIn IAdd)) 3 add_calls None add_state None s' tr).
Proof. exact add_run. Qed.

(** Comparisons. *)
Theorem C86_compare : forall E W is_checker is_proxy exact_proxy has_sub has_ass oracle args k f
  px ob chk p c other c0 c1 s r,
  named W -> typed W is_proxy exact_proxy has_sub has_ass -> e_impl E = ImplC ->
  stands W px ob chk p c0 s -> CExt.proxy_richcompare oracle args has_sub px other c0 = Some (r, c1) ->
  exists calls, CExt.log c1 = (rev calls ++ CExt.log c0)%list /\
    forall x s' tr, answers E W is_checker k (on2 W (OCmp c)) f calls None s x s' tr ->
      did W r x (i_op (interp_n E (S f)) k (OCmp c (VProxy p) (vl W other))) s s' tr.
Proof. intros. eapply richcompare_agree; eassumption. Qed.
Print Assumptions C86_compare.
Example C86_compare_case : 
  (exists c1, CExt.proxy_richcompare eq_oracle [30; 61] w_has_ass 30 61 w_c = Some (Some 1, c1) /\
     CExt.log c1 = (rev eq_calls ++ CExt.log w_c)%list) /\
  (exists s' tr, answers w_env W w_has_ass Client (on2 W (OCmp CEq)) 3 eq_calls None w_state None s' tr).
Proof. exact eq_run. Qed.

(** str(), with the text in place of a refused one. *)
Theorem C86_str : forall E W is_checker is_proxy exact_proxy has_sub has_ass oracle args k f
  px ob chk p c0 c1 s r,
  named W -> typed W is_proxy exact_proxy has_sub has_ass -> e_impl E = ImplC ->
  stands W px ob chk p c0 s -> CExt.proxy_text oracle args has_ass CExt.str_str px c0 = Some (r, c1) ->
  exists calls, CExt.log c1 = (rev calls ++ CExt.log c0)%list /\
    forall x s' tr, answers E W is_checker k (on1 W OStr) f calls None s x s' tr ->
      did W r x (i_op (interp_n E (S f)) k (OStr (VProxy p))) s s' tr.
Proof. intros. eapply str_agree; eassumption. Qed.
Print Assumptions C86_str.
Example C86_str_case : 
  (exists c1, CExt.proxy_text str_oracle [30] w_has_ass CExt.str_str 30 w_c = Some (Some 51, c1) /\
     CExt.log c1 = (rev str_calls ++ CExt.log w_c)%list) /\
  (exists s' tr, answers w_env W w_has_ass Client (on1 W OStr) 3 str_calls None w_state None s' tr).
Proof. exact str_run. Qed.

(** repr(), with the text in place of a refused one. *)
Theorem C86_repr : forall E W is_checker is_proxy exact_proxy has_sub has_ass oracle args k f
  px ob chk p c0 c1 s r,
  named W -> typed W is_proxy exact_proxy has_sub has_ass -> e_impl E = ImplC ->
  stands W px ob chk p c0 s -> CExt.proxy_text oracle args has_ass CExt.str_repr px c0 = Some (r, c1) ->
  exists calls, CExt.log c1 = (rev calls ++ CExt.log c0)%list /\
    forall x s' tr, answers E W is_checker k (on1 W ORepr) f calls None s x s' tr ->
      did W r x (i_op (interp_n E (S f)) k (ORepr (VProxy p))) s s' tr.
Proof. intros. eapply repr_agree; eassumption. Qed.
Print Assumptions C86_repr.
Example C86_repr_case : 
  (exists c1, CExt.proxy_text repr_oracle [30] w_has_ass CExt.str_repr 30 w_c = Some (Some 52, c1) /\
     CExt.log c1 = (rev repr_calls ++ CExt.log w_c)%list) /\
  (exists s' tr, answers w_env W w_has_ass Client (on1 W ORepr) 3 repr_calls None w_state None s' tr).
Proof. exact repr_run. Qed.

(** checker.check and checker.check_getattr of a plain checker, as called by proxies. *)
Theorem C86_check_slot : forall E W is_checker is_str char0 char1 is_iter oracle args k oper f
  self c kk m ob n c0 c1 s i,
  named W -> e_cimpl E = ImplC -> m <> MSetattr -> st_chks s c = Some kk -> ck_kind kk = CkPlain ->
  spelled W is_str char0 char1 is_iter n -> tabled W (CExt.f1 c0 self) (ck_get kk) s ->
  CExt.Checker_check_int oracle args is_str char0 char1 is_iter self ob n c0 = Some (i, c1) ->
  exists calls, CExt.log c1 = (rev calls ++ CExt.log c0)%list /\
    forall x s' tr, answers E W is_checker k oper f calls None s x s' tr ->
      did_status i x (i_check (interp_n E (S f)) m (VChk c) (vl W ob) (nm W n)) s s' tr.
Proof. intros. eapply check_slot_agree; eassumption. Qed.
Print Assumptions C86_check_slot.
Example C86_check_slot_case : forall oper,
  st_chks (w_state_in false) 10 = Some (mkChecker 20 21 CkPlain) /\
  spelled W w_str w_char w_char w_iter 32 /\
  tabled W (CExt.f1 w_c 34) 20 (w_state_in false) /\ tabled W (CExt.f2 w_c 34) 21 (w_state_in false) /\
  (exists c1, CExt.Checker_check_int check_oracle [34; 33; 32] w_str w_char w_char w_iter 34 33 32 w_c
              = Some ((-1)%Z, c1) /\ CExt.log c1 = (rev check_calls ++ CExt.log w_c)%list) /\
  (exists c1, CExt.Checker_check check_oracle [34; 33; 32] w_str w_char w_char w_iter 34 (Some (33, 32)) w_c
              = Some (None, c1) /\ CExt.log c1 = (rev check_calls ++ CExt.log w_c)%list) /\
  (exists s' tr, answers w_env W w_has_ass Client oper 3 check_calls None (w_state_in false)
     (Some (EUnauthorized (VObj 5) "bar" p_view)) s' tr).
Proof. exact check_run. Qed.

(** The same, as methods. *)
Theorem C86_check : forall E W is_checker is_str char0 char1 is_iter oracle args k oper f
  self c kk m ob n c0 c1 s r,
  named W -> e_cimpl E = ImplC -> m <> MSetattr -> st_chks s c = Some kk -> ck_kind kk = CkPlain ->
  spelled W is_str char0 char1 is_iter n -> tabled W (CExt.f1 c0 self) (ck_get kk) s ->
  CExt.Checker_check oracle args is_str char0 char1 is_iter self (Some (ob, n)) c0 = Some (r, c1) ->
  exists calls, CExt.log c1 = (rev calls ++ CExt.log c0)%list /\
    forall x s' tr, answers E W is_checker k oper f calls None s x s' tr ->
      did_unit r x (i_check (interp_n E (S f)) m (VChk c) (vl W ob) (nm W n)) s s' tr.
Proof. intros. eapply check_method_agree; eassumption. Qed.
Print Assumptions C86_check.

(** checker.check_setattr of a plain checker. *)
Theorem C86_check_setattr : forall E W is_checker oracle args k oper f
  self c kk ob n c0 c1 s r,
  named W -> e_cimpl E = ImplC -> st_chks s c = Some kk -> ck_kind kk = CkPlain ->
  tabled W (CExt.f2 c0 self) (ck_set kk) s ->
  CExt.Checker_check_setattr oracle args self (Some (ob, n)) c0 = Some (r, c1) ->
  exists calls, CExt.log c1 = (rev calls ++ CExt.log c0)%list /\
    forall x s' tr, answers E W is_checker k oper f calls None s x s' tr ->
      did_unit r x (i_check (interp_n E (S f)) MSetattr (VChk c) (vl W ob) (nm W n)) s s' tr.
Proof. intros. eapply check_setattr_agree; eassumption. Qed.
Print Assumptions C86_check_setattr.
Example C86_check_setattr_case : forall oper,
  (exists c1, CExt.Checker_check_setattr set_oracle [34; 33; 32] 34 (Some (33, 32)) w_c
              = Some (Some CExt.Py_None, c1) /\ CExt.log c1 = (rev set_calls ++ CExt.log w_c)%list) /\
  (exists s' tr, answers w_env W w_has_ass Client oper 3 set_calls None (w_state_in true) None s' tr).
Proof. exact set_run. Qed.

(** selectChecker. *)
Theorem C86_select : forall E W is_checker oracle args k oper f
  fuel ob c0 c1 s r,
  named W -> e_cimpl E = ImplC ->
  CExt.selectChecker oracle args is_checker fuel ob c0 = Some (r, c1) ->
  exists calls, CExt.log c1 = (rev calls ++ CExt.log c0)%list /\
    forall x s' tr, answers E W is_checker k oper (S f) calls None s x s' tr ->
      did_option W r x (do_select E (S f) (vl W ob)) s s' tr.
Proof. intros. eapply do_select_agree; eassumption. Qed.
Print Assumptions C86_select.
Example C86_select_case : forall oper,
  (exists c1, CExt.selectChecker wrap_oracle [41] w_has_ass 3 41 w_c = Some (Some CExt.defaultChecker, c1) /\
     CExt.log c1 = (rev select_calls ++ CExt.log w_c)%list) /\
  (exists s' tr, answers w_env W w_has_ass Client oper 4 select_calls None w_state None s' tr).
Proof. exact select_run. Qed.

(** checker.proxy. *)
Theorem C86_proxy : forall E W is_checker exact_proxy oracle args k oper f
  fuel c v c0 c1 s r,
  named W -> e_cimpl E = ImplC -> (forall o, exact_proxy o = is_proxy (vl W o)) ->
  CExt.Checker_proxy oracle args is_checker exact_proxy fuel v c0 = Some (r, c1) ->
  exists calls, CExt.log c1 = (rev calls ++ CExt.log c0)%list /\
    forall x s' tr, answers E W is_checker k oper (S f) calls None s x s' tr ->
      did W r x (do_proxy E (S f) (VChk c) (vl W v)) s s' tr.
Proof. intros. eapply do_proxy_agree; eassumption. Qed.
Print Assumptions C86_proxy.
Example C86_proxy_case : forall oper,
  (exists c1, CExt.Checker_proxy wrap_oracle [41] w_has_ass w_is_proxy 3 41 w_c = Some (Some 42, c1) /\
     CExt.log c1 = (rev wrap_calls ++ CExt.log w_c)%list) /\
  (exists s' tr, answers w_env W w_has_ass Client oper 4 wrap_calls None w_state None s' tr /\
     st_prox s' 50 = Some (VObj 9, VChk default_cid)).
Proof. exact wrap_run. Qed.

