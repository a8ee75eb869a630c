(** * CExtAgreeWitness: concrete runs of the C code and of the model side by side. *)

From Coq Require Import List String Bool Arith ZArith Lia.
From Verif Require Import Base Domain CheckerModel ProxyModel Witness CExtAgreeSpec.
From Verif Require CExt.
Import ListNotations.
Open Scope string_scope.

(** Objects have an attribute foo and a class, are equal to everything, and can be added to. *)
Definition w_run (t : id) (c : call) (s : state) : res value * state :=
  match c with
  | CallOp (OGetattr _ "foo" _) => (Ok (VObj 9), s)
  | CallOp (OGetattr _ "__class__" _) => (Ok (VObj 46), s)
  | CallOp (OGetattr _ "__name__" _) => (Ok (VStr "Thing"), s)
  | CallOp (OGetattr _ "__module__" _) => (Ok (VStr "app"), s)
  | CallOp (OCmp _ _ _) => (Ok (VBool true), s)
  | CallOp (OIn _ v _) => (Ok v, s)
  | _ => quiet_run t c s
  end.
Definition w_env : env := wenv_run ImplC w_run.

(** The proxy 30 has the object 33 and the checker 34, with the tables 35 and 36; the names 31 and
    32 are "foo" and "bar". *)
Definition w_vl (o : CExt.obj) : value :=
  if Nat.eqb o 0 then VNone else if Nat.eqb o 1 then VBool true else if Nat.eqb o 2 then VBool false
  else if Nat.eqb o 5 then VNoProxy else if Nat.eqb o 6 then VChk default_cid
  else if Nat.eqb o 30 then VProxy 40 else if Nat.eqb o 31 then VStr "foo" else if Nat.eqb o 32 then VStr "bar"
  else if Nat.eqb o 33 then VObj 5 else if Nat.eqb o 34 then VChk 10
  else if Nat.eqb o 41 then VObj 9 else if Nat.eqb o 42 then VProxy 50
  else if Nat.eqb o 43 then VIact 45 else if Nat.eqb o 46 then VObj 46
  else if Nat.eqb o 47 then VStr "Thing" else if Nat.eqb o 49 then VStr "app"
  else if Nat.eqb o 52 then VStr "an object"
  else if Nat.eqb o 51 then VStr "<security proxied app.Thing instance at 0x1>"
  else VObj 7.
Definition w_nm (o : CExt.obj) : name :=
  if Nat.eqb o 31 then "foo" else if Nat.eqb o 32 then "bar"
  else if Nat.eqb o 100 then "__iter__" else if Nat.eqb o 101 then "__next__"
  else if Nat.eqb o 102 then "__call__" else if Nat.eqb o 103 then "__str__"
  else if Nat.eqb o 104 then "__repr__" else if Nat.eqb o 105 then "__int__"
  else if Nat.eqb o 106 then "__float__" else if Nat.eqb o 107 then "__pow__"
  else if Nat.eqb o 108 then "__rpow__" else if Nat.eqb o 109 then "__3pow__"
  else if Nat.eqb o 110 then "__len__" else if Nat.eqb o 111 then "__contains__"
  else if Nat.eqb o 112 then "__getitem__" else if Nat.eqb o 113 then "__setitem__"
  else if Nat.eqb o 114 then "__delitem__"
  else if Nat.eqb o 120 then "__iadd__" else "".
Definition w_pm (o : CExt.obj) : perm :=
  if Nat.eqb o 4 then PPublic else if Nat.eqb o 44 then p_view
  else if Nat.eqb o 53 then p_edit else PNone.
Definition w_tb (o : CExt.obj) : id := if Nat.eqb o 35 then 20 else if Nat.eqb o 36 then 21 else 99.
Definition W : world :=
  mkWorld w_vl w_nm w_pm w_tb (fun _ => []) (fun o => if Nat.eqb o 48 then "Thing" else if Nat.eqb o 50 then "app" else "").

Definition w_is_proxy (o : CExt.obj) : bool := is_proxy (w_vl o).
Definition w_has_ass (o : CExt.obj) : bool := match w_vl o with VChk _ => true | _ => false end.

Ltac cases o := repeat match goal with
  | |- context [Nat.eqb o ?n] => destruct (Nat.eqb_spec o n) as [?|?]
  end.

Lemma w_named : named W.
Proof.
  split; try reflexivity; intros o; cbn [vl pm W]; unfold w_vl, w_pm, default_cid; cases o;
    cbv [CExt.Py_None CExt.Py_True CExt.Py_False CExt.NoProxy CExt.defaultChecker CExt.CheckerPublic];
    (split; [intros H | intros H]); subst; try discriminate; try reflexivity; try tauto; try lia;
    repeat match goal with
    | H : exists b, _ |- _ => destruct H; discriminate
    | H : _ \/ _ |- _ => destruct H; subst; try discriminate; try lia
    end; eauto.
Qed.
Lemma w_typed : typed W w_is_proxy w_is_proxy w_has_ass w_has_ass.
Proof.
  split; try reflexivity. intros o. cbn [vl W]. unfold w_has_ass.
  destruct (w_vl o); split; intros H; try discriminate H; try (destruct H; discriminate); eauto.
Qed.

Definition w_c : CExt.cst :=
  CExt.mkC (fun _ => 0%Z) false [] false 0
    (fun x => if Nat.eqb x 30 then Some 33 else if Nat.eqb x 34 then Some 35 else None)
    (fun x => if Nat.eqb x 30 then Some 34 else if Nat.eqb x 34 then Some 36 else None) [].
Definition w_ans (p : CExt.ptr) (n : nat) : CExt.answer := CExt.mkAns p false n (fun _ => false).

Lemma calm_same s : calm s s. Proof. intros p x H. exact H. Qed.

Lemma calm_new s t n x :
  st_prox s n = None -> (forall p, st_prox t p = if Nat.eqb p n then Some x else st_prox s p) -> calm s t.
Proof.
  intros Hn Ht p y Hy. rewrite Ht. destruct (Nat.eqb_spec p n) as [-> | _]; [congruence|exact Hy].
Qed.

(** [proxy.foo]: granted, read, wrapped. *)
Definition attr_oracle (k : nat) : CExt.answer :=
  match k with 1 => w_ans (Some 41) 0 | 2 => w_ans (Some 42) 0 | _ => w_ans (Some 60) 0 end.
Definition attr_calls : list CExt.entry :=
  [CExt.mkE CExt.ACheck [Some 34; Some 33; Some 31] (CExt.Num 0);
   CExt.mkE CExt.AOp [Some 33; Some 31] (CExt.Gave 41);
   CExt.mkE CExt.AWrap [Some 34; Some 41] (CExt.Gave 42)].
Definition attr_oper (l : list CExt.ptr) : option op :=
  match l with [Some a; Some b] => Some (OGetattr (vl W a) (nm W b) None) | _ => None end.
Lemma attr_run :
  stands W 30 33 34 40 w_c w_state /\
  object_op w_env W attr_oracle [30; 31] w_is_proxy w_has_ass w_has_ass (fun _ => true) (fun _ => true) Client 3
    30 33 40 (CExt.proxy_getattro attr_oracle [30; 31] w_has_ass w_has_ass 30 31) attr_oper
    (i_op (interp_n w_env 4) Client (OGetattr (VProxy 40) "foo" None)) /\
  (exists c1, CExt.proxy_getattro attr_oracle [30; 31] w_has_ass w_has_ass 30 31 w_c = Some (Some 42, c1) /\
     CExt.log c1 = (rev attr_calls ++ CExt.log w_c)%list) /\
  (exists s' tr, answers w_env W w_has_ass Client attr_oper 3 attr_calls None w_state None s' tr /\
     st_prox s' 50 = Some (VObj 9, VChk default_cid)).
Proof.
  split; [repeat split; try reflexivity; intros i H; injection H as <-; discriminate|].
  split; [exact (oo_getattr w_env W attr_oracle [30; 31] w_is_proxy w_has_ass w_has_ass (fun _ => true) (fun _ => true) Client 3 30 33 40 31 None)|].
  split; [eexists; split; lazy; reflexivity|].
  do 2 eexists. split.
  - unfold attr_calls.
    eapply an_slot; [lazy; reflexivity|apply calm_same|].
    eapply an_op; [reflexivity|lazy; reflexivity|apply calm_same|].
    eapply an_wrap; [left; reflexivity|lazy; reflexivity| |apply an_done].
    apply (calm_new _ _ 50 (VObj 9, VChk default_cid)); [reflexivity|].
    intros p. lazy. reflexivity.
  - lazy. reflexivity.
Qed.

(** [len(proxy)]: refused. *)
Definition len_oracle (k : nat) : CExt.answer := CExt.mkAns None true 0 (fun _ => false).
Definition len_calls : list CExt.entry := [CExt.mkE CExt.ACheck [Some 34; Some 33; Some 110] CExt.Failed].
Lemma len_run :
  int_op w_env W len_oracle [30] w_has_ass Client 3 30 40 (CExt.proxy_length len_oracle [30] w_has_ass 30)
    (on1 W OLen) (i_op (interp_n w_env 4) Client (OLen (VProxy 40))) /\
  (exists c1, CExt.proxy_length len_oracle [30] w_has_ass 30 w_c = Some ((-1)%Z, c1) /\
     CExt.log c1 = (rev len_calls ++ CExt.log w_c)%list) /\
  (exists s' tr, answers w_env W w_has_ass Client (on1 W OLen) 3 len_calls None w_state
     (Some (EForbidden "__len__" (VObj 5))) s' tr).
Proof.
  split; [apply io_len|]. split; [eexists; split; lazy; reflexivity|].
  do 2 eexists. unfold len_calls.
  eapply an_no_slot; [lazy; reflexivity|apply calm_same|apply an_done].
Qed.

(** [proxy == other] *)
Definition eq_oracle (k : nat) : CExt.answer := w_ans (Some 1) 0.
Definition eq_calls : list CExt.entry := [CExt.mkE CExt.AOp [Some 33; Some 61] (CExt.Gave 1)].
Lemma eq_run :
  (exists c1, CExt.proxy_richcompare eq_oracle [30; 61] w_has_ass 30 61 w_c = Some (Some 1, c1) /\
     CExt.log c1 = (rev eq_calls ++ CExt.log w_c)%list) /\
  (exists s' tr, answers w_env W w_has_ass Client (on2 W (OCmp CEq)) 3 eq_calls None w_state None s' tr).
Proof.
  split; [eexists; split; lazy; reflexivity|].
  do 2 eexists. unfold eq_calls.
  eapply an_op; [reflexivity|lazy; reflexivity|apply calm_same|apply an_done].
Qed.

(** [proxy += other], where the object returns itself: the proxy is the result. *)
Definition add_state : state :=
  set_dicts (fun i => match i with 20 => [("__iadd__", PPublic)] | _ => w_dicts i end) w_state.
Definition add_oracle (k : nat) : CExt.answer := w_ans (Some 33) 0.
Definition add_calls : list CExt.entry :=
  [CExt.mkE CExt.ACheck [Some 34; Some 33; Some 120] (CExt.Num 0);
   CExt.mkE CExt.AOp [Some 33; Some 61] (CExt.Gave 33)].
Lemma add_run :
  stands W 30 33 34 40 w_c add_state /\ nm W 120 = c_inop_name IAdd /\
  (forall q, vl W q = vl W 33 -> q = 33) /\
  (exists c1, CExt.check2i add_oracle [30; 61] w_has_ass w_has_ass 30 61 120 w_c = Some (Some 30, c1) /\
     CExt.log c1 = (rev add_calls ++ CExt.log w_c)%list) /\
  (exists s' tr, answers w_env W w_has_ass Client (on2 W (OIn IAdd)) 3 add_calls None add_state None s' tr).
Proof.
  split; [repeat split; try reflexivity; intros i H; injection H as <-; discriminate|].
  split; [reflexivity|].
  split. { intros q. cbn [vl W]. unfold w_vl. cases q; intros H; (discriminate H || congruence || exact e12 || idtac); subst; reflexivity. }
  split; [eexists; split; lazy; reflexivity|].
  do 2 eexists. unfold add_calls.
  eapply an_slot; [lazy; reflexivity|apply calm_same|].
  eapply an_op; [reflexivity|lazy; reflexivity|apply calm_same|apply an_done].
Qed.

(** [str(proxy)], refused: a text about the class and the address. *)
Definition str_oracle (k : nat) : CExt.answer :=
  match k with
  | 0 => CExt.mkAns None true 0 (fun _ => false)
  | 1 => w_ans (Some 46) 0 | 2 => w_ans (Some 47) 0 | 3 => w_ans (Some 48) 0
  | 4 => w_ans (Some 49) 0 | 5 => w_ans (Some 50) 0 | _ => w_ans (Some 51) 0
  end.
Definition str_calls : list CExt.entry :=
  [CExt.mkE CExt.ACheck [Some 34; Some 33; Some CExt.str_str] CExt.Failed;
   CExt.mkE CExt.ADescribe [Some 33; Some CExt.str_class] (CExt.Gave 46);
   CExt.mkE CExt.AAttr [Some 46; Some CExt.str_name] (CExt.Gave 47);
   CExt.mkE CExt.AEncode [Some 47] (CExt.Gave 48);
   CExt.mkE CExt.AAttr [Some 46; Some CExt.str_module] (CExt.Gave 49);
   CExt.mkE CExt.AEncode [Some 49] (CExt.Gave 50);
   CExt.mkE CExt.AFormat [Some 33; Some 50; Some 48] (CExt.Gave 51)].
Lemma str_run :
  (exists c1, CExt.proxy_text str_oracle [30] w_has_ass CExt.str_str 30 w_c = Some (Some 51, c1) /\
     CExt.log c1 = (rev str_calls ++ CExt.log w_c)%list) /\
  (exists s' tr, answers w_env W w_has_ass Client (on1 W OStr) 3 str_calls None w_state None s' tr).
Proof.
  split; [eexists; split; lazy; reflexivity|].
  do 2 eexists. unfold str_calls.
  eapply an_no_slot; [lazy; reflexivity|apply calm_same|].
  eapply an_class; [lazy; reflexivity|apply calm_same|].
  eapply an_attr; [left; split; reflexivity|lazy; reflexivity|apply calm_same|].
  eapply an_text; [reflexivity|].
  eapply an_attr; [right; split; reflexivity|lazy; reflexivity|apply calm_same|].
  eapply an_text; [reflexivity|].
  eapply an_format2; [reflexivity|apply an_done].
Qed.

(** [repr(proxy)], which is available by default. *)
Definition repr_oracle (k : nat) : CExt.answer := match k with 0 => w_ans None 0 | _ => w_ans (Some 52) 0 end.
Definition repr_calls : list CExt.entry :=
  [CExt.mkE CExt.ACheck [Some 34; Some 33; Some CExt.str_repr] (CExt.Num 0);
   CExt.mkE CExt.AOp [Some 33] (CExt.Gave 52)].
Lemma repr_run :
  (exists c1, CExt.proxy_text repr_oracle [30] w_has_ass CExt.str_repr 30 w_c = Some (Some 52, c1) /\
     CExt.log c1 = (rev repr_calls ++ CExt.log w_c)%list) /\
  (exists s' tr, answers w_env W w_has_ass Client (on1 W ORepr) 3 repr_calls None w_state None s' tr).
Proof.
  split; [eexists; split; lazy; reflexivity|].
  do 2 eexists. unfold repr_calls.
  eapply an_slot; [lazy; reflexivity|apply calm_same|].
  eapply an_op; [reflexivity|lazy; reflexivity|apply calm_same|apply an_done].
Qed.

(** [checker.check(object, "bar")]: the table asks for a permission, the policy refuses. *)
Definition check_oracle (k : nat) : CExt.answer :=
  match k with
  | 0 => w_ans (Some 44) 0 | 1 => w_ans (Some 43) 0 | 2 => w_ans (Some 2) 0 | 3 => w_ans None 0
  | _ => w_ans (Some 60) 0
  end.
Definition w_str (o : CExt.obj) : bool := true.
Definition w_char (o : CExt.obj) : bool := String.prefix "__" (w_nm o).
Definition w_iter (o : CExt.obj) : bool := String.eqb (w_nm o) "__iter__".

(** [checkers.Proxy(object)] for an object of a class without checker. *)
Definition wrap_oracle (k : nat) : CExt.answer :=
  match k with
  | 0 => w_ans None 0 | 3 => w_ans (Some 42) 0 | _ => w_ans None 0 end.

Definition check_calls : list CExt.entry :=
  [CExt.mkE CExt.AItem [Some 35; Some 32] (CExt.Gave 44);
   CExt.mkE CExt.AInteraction [Some CExt.thread_local; Some CExt.str_interaction] (CExt.Gave 43);
   CExt.mkE CExt.APolicy [Some 43; Some CExt.str_checkPermission; Some 44; Some 33] (CExt.Gave 2);
   CExt.mkE CExt.ATruth [Some 2] (CExt.Num 0);
   CExt.mkE CExt.AArgs [Some 33; Some 32; Some 44] (CExt.Gave 60);
   CExt.mkE CExt.ARaise [Some CExt.Unauthorized; Some 60] CExt.Failed].
Lemma check_run oper :
  st_chks (w_state_in false) 10 = Some (mkChecker 20 21 CkPlain) /\
  spelled W w_str w_char w_char w_iter 32 /\
  tabled W (CExt.f1 w_c 34) 20 (w_state_in false) /\ tabled W (CExt.f2 w_c 34) 21 (w_state_in false) /\
  (exists c1, CExt.Checker_check_int check_oracle [34; 33; 32] w_str w_char w_char w_iter 34 33 32 w_c
              = Some ((-1)%Z, c1) /\ CExt.log c1 = (rev check_calls ++ CExt.log w_c)%list) /\
  (exists c1, CExt.Checker_check check_oracle [34; 33; 32] w_str w_char w_char w_iter 34 (Some (33, 32)) w_c
              = Some (None, c1) /\ CExt.log c1 = (rev check_calls ++ CExt.log w_c)%list) /\
  (exists s' tr, answers w_env W w_has_ass Client oper 3 check_calls None (w_state_in false)
     (Some (EUnauthorized (VObj 5) "bar" p_view)) s' tr).
Proof.
  split; [reflexivity|]. split; [repeat split; reflexivity|].
  split; [split; [discriminate|reflexivity]|]. split; [split; [discriminate|reflexivity]|].
  split; [eexists; split; lazy; reflexivity|]. split; [eexists; split; lazy; reflexivity|].
  do 2 eexists. unfold check_calls.
  eapply an_item; [discriminate|reflexivity|].
  eapply an_interaction; [reflexivity|].
  eapply an_policy; [lazy; reflexivity|split; reflexivity|].
  eapply an_unauthorized. apply an_done.
Qed.

(** [checker.check_setattr(object, "bar")]: the same with the other table; object 53 is the permission. *)
Definition set_oracle (k : nat) : CExt.answer :=
  match k with
  | 0 => w_ans (Some 53) 0 | 1 => w_ans (Some 43) 0 | 2 => w_ans (Some 1) 1
  | _ => w_ans (Some 60) 1
  end.
Definition set_calls : list CExt.entry :=
  [CExt.mkE CExt.AItem [Some 36; Some 32] (CExt.Gave 53);
   CExt.mkE CExt.AInteraction [Some CExt.thread_local; Some CExt.str_interaction] (CExt.Gave 43);
   CExt.mkE CExt.APolicy [Some 43; Some CExt.str_checkPermission; Some 53; Some 33] (CExt.Gave 1);
   CExt.mkE CExt.ATruth [Some 1] (CExt.Num 1)].
Lemma set_run oper :
  (exists c1, CExt.Checker_check_setattr set_oracle [34; 33; 32] 34 (Some (33, 32)) w_c
              = Some (Some CExt.Py_None, c1) /\ CExt.log c1 = (rev set_calls ++ CExt.log w_c)%list) /\
  (exists s' tr, answers w_env W w_has_ass Client oper 3 set_calls None (w_state_in true) None s' tr).
Proof.
  split; [eexists; split; lazy; reflexivity|].
  do 2 eexists. unfold set_calls.
  eapply an_item; [discriminate|reflexivity|].
  eapply an_interaction; [reflexivity|].
  eapply an_policy; [lazy; reflexivity|split; discriminate|]. apply an_done.
Qed.

Definition wrap_calls : list CExt.entry :=
  [CExt.mkE CExt.AOwn [Some 41; Some CExt.str_Security_checker] CExt.Failed;
   CExt.mkE CExt.AItem [Some CExt.checkers; Some 41] CExt.Nothing;
   CExt.mkE CExt.AInstance [Some 41; Some CExt.PyExc_Exception] (CExt.Num 0);
   CExt.mkE CExt.AProxy [Some CExt.Proxy; Some 41; Some CExt.defaultChecker] (CExt.Gave 42)].
Lemma wrap_run oper :
  (exists c1, CExt.Checker_proxy wrap_oracle [41] w_has_ass w_is_proxy 3 41 w_c = Some (Some 42, c1) /\
     CExt.log c1 = (rev wrap_calls ++ CExt.log w_c)%list) /\
  (exists s' tr, answers w_env W w_has_ass Client oper 4 wrap_calls None w_state None s' tr /\
     st_prox s' 50 = Some (VObj 9, VChk default_cid)).
Proof.
  split; [eexists; split; lazy; reflexivity|].
  do 2 eexists. split.
  - unfold wrap_calls. eapply an_no_own; [lazy; reflexivity|].
    eapply an_unregistered; [reflexivity|reflexivity|].
    eapply an_instance; [split; reflexivity|].
    eapply an_new; [lazy; reflexivity|apply an_done].
  - lazy. reflexivity.
Qed.
Definition select_calls : list CExt.entry :=
  [CExt.mkE CExt.AItem [Some CExt.checkers; Some 41] CExt.Nothing;
   CExt.mkE CExt.AInstance [Some 41; Some CExt.PyExc_Exception] (CExt.Num 0)].
Lemma select_run oper :
  (exists c1, CExt.selectChecker wrap_oracle [41] w_has_ass 3 41 w_c = Some (Some CExt.defaultChecker, c1) /\
     CExt.log c1 = (rev select_calls ++ CExt.log w_c)%list) /\
  (exists s' tr, answers w_env W w_has_ass Client oper 4 select_calls None w_state None s' tr).
Proof.
  split; [eexists; split; lazy; reflexivity|].
  do 2 eexists. unfold select_calls.
  eapply an_unregistered; [reflexivity|reflexivity|].
  eapply an_instance; [split; reflexivity|apply an_done].
Qed.
