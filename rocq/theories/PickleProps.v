(** * PickleProps: concrete programs for the properties of pickling. *)

From Coq Require Import List String Bool Arith ZArith Lia.
From Verif Require Import Base Domain CheckerModel ProxyModel MFacts Spec RegSpec Witness
  CheckFacts ProxySpec ProxyProps MediationSpec SessionSpec Defaults DefaultsSpec DefaultsFacts
  DefaultsProps Pickle PickleSpec PickleFacts.
Import ListNotations.
Open Scope string_scope.

(** Object 0 is the Global, 10 its bound [__reduce__]; object 5 has a [__reduce_ex__], the
    bound method 11, that returns the tuple 12. *)
Definition pickle_answer (c : call) : option (res value) :=
  match c with
  | CallOp (OGetattr v n _) =>
      if String.eqb n "__Security_checker__"
      then Some (Exc (EAttribute "__Security_checker__"))
      else match v, n with
           | VObj 0, "__reduce__" => Some (Ok (VObj 10))
           | VObj 0, "__module__" => Some (Ok (VStr "zope.security.checker"))
           | VObj 5, "__reduce_ex__" => Some (Ok (VObj 11))
           | VObj 5, "__reduce__" => Some (Ok (VObj 11))
           | _, _ => None
           end
  | CallOp (OCall (VObj 10) []) => Some (Ok (VStr "CheckerPublic"))
  | CallOp (OBool (VObj 10)) => Some (Ok (VBool true))
  | CallOp (OCall (VObj 11) _) => Some (Ok (VObj 12))
  | _ => None
  end.

Definition pickle_run (t : id) (c : call) (s : state) : res value * state :=
  match pickle_answer c with
  | Some r => (r, s)
  | None => quiet_run t c s
  end.

Definition pickle_env (b : impl) : env :=
  mkEnv b b 0 0
        (fun o => match o with 10 | 11 => "method" | 12 => "tuple" | _ => "app.Thing" end)
        (fun _ => "type") (fun _ => false) (fun _ => "0x1") pickle_run.

Lemma pickle_run_same t c s r s' : pickle_run t c s = (r, s') -> s' = s.
Proof.
  unfold pickle_run. destruct (pickle_answer c); intros H; [congruence|].
  eapply quiet_same. exact H.
Qed.

Definition with_marker : state := snd (fst (import_public w_state)).
Definition pickle_imported : state :=
  snd (fst (import_checker (wenv ImplC) some_platform with_marker)).

Lemma pickle_import :
  exists d t, import_checker (wenv ImplC) some_platform with_marker = (Ok d, pickle_imported, t).
Proof.
  unfold pickle_imported.
  assert (H : match fst (fst (import_checker (wenv ImplC) some_platform with_marker)) with
              | Ok _ => True | Exc _ => False end) by (vm_compute; exact I).
  destruct (import_checker (wenv ImplC) some_platform with_marker) as [[[d|e] s] t];
    [eauto|contradiction].
Qed.

(** The application puts object 5 into a proxy whose checker makes [names] public. *)
Definition thing_state (names : list name) (s : state) : state :=
  let n := st_next s in
  set_next (4 + n)
    (set_prox (upd (st_prox s) (3 + n) (Some (VObj 5, VChk (2 + n))))
      (set_chks (upd (st_chks s) (2 + n) (Some (mkChecker n (1 + n) CkPlain)))
        (set_dicts (upd (upd (st_dicts s) n (map (fun x => (x, PPublic)) names)) (1 + n) []) s))).

Definition puts_thing (names : list name) (s s' : state) : Prop := s' = thing_state names s.

(** The application declares that tuples need no proxies. *)
Definition bare_tuples (s : state) : state :=
  set_reg (dset rkey_eqb (st_reg s) (KType "tuple") VNoProxy) s.

Lemma pickle_respectful b names :
  respectful (st_next pickle_imported) (fun E => E = pickle_env b) (puts_thing names).
Proof.
  split.
  - intros E ->. split; [reflexivity|]. split.
    + intros t c s r s' H. apply pickle_run_same in H. subst s'. split; auto.
    + intros t c s r s' H HN. apply pickle_run_same in H. subst s'. auto.
  - intros s s' -> HN. split; [simpl; lia|]. split.
    + intros p x Hp Hx. simpl. rewrite upd_ne by lia. exact Hx.
    + intros i Hi. simpl. rewrite !upd_ne by lia. auto.
Qed.

Lemma pickle_history b names :
  History (fun E => E = pickle_env b) (puts_thing names) pickle_imported
          (thing_state names pickle_imported).
Proof. eapply Hi_other; [reflexivity|apply Hi_done]. Qed.

Lemma pickle_global b : global_object (pickle_env b) 0 10 "zope.security.checker" "CheckerPublic".
Proof. split; intros; reflexivity. Qed.

Definition module_globals (m n : string) : option value :=
  if (String.eqb m "zope.security.checker" && String.eqb n "CheckerPublic")%bool
  then Some (VProxy 0) else None.

Lemma pickle_kept b T : registration_kept (pickle_env b) T.
Proof. intros t c s r s' H. apply pickle_run_same in H. subst s'. reflexivity. Qed.

Lemma pickle_no_own b T : no_own_checker (pickle_env b) T.
Proof. intros o s _. reflexivity. Qed.

Lemma pickle_ordinary b : ordinary_reducers (pickle_env b) (VObj 5).
Proof.
  intros n fr s v s' [<-|[<-|[]]] H; simpl in H; inversion H; subst;
    exists 11; simpl; auto.
Qed.

Lemma thing_there names s :
  Wraps (thing_state names s) (3 + st_next s) (VObj 5) (VChk (2 + st_next s)) /\
  PlainChecker (thing_state names s) (VChk (2 + st_next s))
               (map (fun x => (x, PPublic)) names) [].
Proof.
  split.
  - split; [simpl st_prox; apply upd_eq|simpl; lia].
  - eexists _, _. split; [reflexivity|]. split; [simpl st_chks; apply upd_eq|].
    simpl. rewrite upd_eq, upd_ne, upd_eq by lia. auto.
Qed.

Lemma bare_there names s :
  Wraps (bare_tuples (thing_state names s)) (3 + st_next s) (VObj 5) (VChk (2 + st_next s)).
Proof. exact (proj1 (thing_there names s)). Qed.

Lemma bare_others names s T :
  T <> "tuple" -> still_default s (bare_tuples (thing_state names s)) T.
Proof.
  intros HT. unfold still_default, bare_tuples. simpl st_reg.
  apply (dget_dset_ne rkey_eqb rkey_eqb_spec). congruence.
Qed.

Lemma thing_default names s T : still_default s (thing_state names s) T.
Proof. reflexivity. Qed.
