(** * ImportsFacts: importing the modules, in any order. *)

From Coq Require Import List String Bool Arith Lia.
From Verif Require Import Imports ImportsSpec.
Import ListNotations.
Open Scope string_scope.

(** ** Association lists *)

Lemma lookup_app {A : Type} k (l1 l2 : list (string * A)) :
  lookup k (l1 ++ l2)%list = match lookup k l1 with Some v => Some v | None => lookup k l2 end.
Proof. induction l1 as [|[k' v'] l1 IH]; cbn; [reflexivity|]. destruct (String.eqb k k'); auto. Qed.

Definition bindl (m n : string) (v : value) (l : list (string * names)) : list (string * names) :=
  map (fun e => if String.eqb m (fst e) then (fst e, (n, v) :: snd e) else e) l.

Lemma lookup_bindl m n v k l :
  lookup k (bindl m n v l) =
  match lookup k l with
  | Some x => Some (if String.eqb m k then (n, v) :: x else x)
  | None => None
  end.
Proof.
  induction l as [|[k' x] l IH]; cbn; [reflexivity|].
  destruct (String.eqb m k') eqn:E1; cbn.
  - destruct (String.eqb k k') eqn:E2; [|exact IH].
    apply String.eqb_eq in E1, E2. subst. rewrite String.eqb_refl. reflexivity.
  - destruct (String.eqb k k') eqn:E2; [|exact IH].
    apply String.eqb_eq in E2. subst. rewrite E1. reflexivity.
Qed.

Lemma lookup_bind m n v k s :
  lookup k (mods (bind m n v s)) =
  match lookup k (mods s) with
  | Some x => Some (if String.eqb m k then (n, v) :: x else x)
  | None => None
  end.
Proof. exact (lookup_bindl m n v k (mods s)). Qed.

Lemma known_bind m n v k s : known k (bind m n v s) = known k s.
Proof. unfold known. rewrite lookup_bind. destruct (lookup k (mods s)); reflexivity. Qed.

Lemma val_bind m n v k n' s :
  val k n' (bind m n v s) =
  if String.eqb m k && known m s && String.eqb n' n then Some v else val k n' s.
Proof.
  unfold val, known. rewrite lookup_bind. destruct (String.eqb m k) eqn:E; cbn [andb].
  - apply String.eqb_eq in E. subst. destruct (lookup k (mods s)); cbn; [|reflexivity].
    destruct (String.eqb n' n); reflexivity.
  - destruct (lookup k (mods s)); reflexivity.
Qed.

Lemma lookup_filter {A : Type} m k (l : list (string * A)) :
  lookup k (filter (fun e => negb (String.eqb m (fst e))) l) =
  if String.eqb m k then None else lookup k l.
Proof.
  induction l as [|[k' x] l IH]; cbn; [destruct (String.eqb m k); reflexivity|].
  destruct (String.eqb m k') eqn:E1; cbn.
  - rewrite IH. apply String.eqb_eq in E1. subst k'. destruct (String.eqb m k) eqn:E; [reflexivity|].
    rewrite String.eqb_sym, E. reflexivity.
  - destruct (String.eqb k k') eqn:E2; [|exact IH].
    apply String.eqb_eq in E2. subst. rewrite E1. reflexivity.
Qed.

(** ** Frame: the core does not look at modules of other packages *)

Definition inner (m : string) : bool := existsb (String.eqb m) (core ++ extensions)%list.

Definition inner_stmt (x : stmt) : bool :=
  match x with
  | SImport t => inner t
  | SFrom t n _ => inner t && (if String.eqb t "" then inner n else true)
  | SForeign _ => false
  | SExt t _ => inner t && negb (String.eqb t "")
  | _ => true
  end.

Lemma inner_bodies foreign m : inner m = true -> forallb inner_stmt (body foreign body_package m) = true.
Proof.
  unfold inner. intro H. apply existsb_exists in H. destruct H as (x & Hx & E).
  apply String.eqb_eq in E. subst x. cbn in Hx.
  repeat (destruct Hx as [<-|Hx]; [vm_compute; reflexivity|]). contradiction.
Qed.

Lemma bindl_fresh m n v l : lookup m l = None -> bindl m n v l = l.
Proof.
  induction l as [|[k x] l IH]; cbn; [reflexivity|]. destruct (String.eqb m k); [discriminate|].
  intro H. f_equal. exact (IH H).
Qed.

Lemma filter_fresh {A : Type} m (l : list (string * A)) :
  lookup m l = None -> filter (fun e => negb (String.eqb m (fst e))) l = l.
Proof.
  induction l as [|[k x] l IH]; cbn; [reflexivity|]. destruct (String.eqb m k); [discriminate|].
  intro H. cbn [negb]. f_equal. exact (IH H).
Qed.

Section Frame.
  Variables pure watch hp hc : bool.
  Variable foreign : string -> list (string * string).
  Variable l : list (string * names).
  Hypothesis Hl : forall k, inner k = true -> lookup k l = None.

  Definition fr (s : st) : st := set_mods (mods s ++ l)%list s.
  Definition mapr (r : result) : result := option_map (fun p => (fst p, fr (snd p))) r.

  Lemma lookup_fr k s : inner k = true -> lookup k (mods (fr s)) = lookup k (mods s).
  Proof.
    intro H. unfold fr. cbn [mods set_mods]. rewrite lookup_app, (Hl k H). destruct (lookup k (mods s)); reflexivity.
  Qed.
  Lemma known_fr k s : inner k = true -> known k (fr s) = known k s.
  Proof. intro H. unfold known. rewrite (lookup_fr _ _ H). reflexivity. Qed.
  Lemma val_fr k n s : inner k = true -> val k n (fr s) = val k n s.
  Proof. intro H. unfold val. rewrite (lookup_fr _ _ H). reflexivity. Qed.
  Lemma bind_fr m n v s : inner m = true -> bind m n v (fr s) = fr (bind m n v s).
  Proof.
    intro H. unfold bind, fr, set_mods. cbn [mods clock takes patched running completed nested].
    f_equal. rewrite map_app. f_equal. exact (bindl_fresh m n v l (Hl m H)).
  Qed.
  Lemma took_fr m t n v s : took m t n v (fr s) = fr (took m t n v s).
  Proof. reflexivity. Qed.
  Lemma tick_fr s : tick (fr s) = fr (tick s).
  Proof. reflexivity. Qed.
  Lemma define_fr m ns s : inner m = true -> define m ns (fr s) = fr (define m ns s).
  Proof.
    intro H. revert s. induction ns as [|n ns IH]; intro s; cbn [define]; [reflexivity|].
    rewrite tick_fr. cbn [fr clock set_mods]. rewrite bind_fr by exact H. apply IH.
  Qed.
  Lemma remove_fr m s : inner m = true -> remove_module m (fr s) = fr (remove_module m s).
  Proof.
    intro H. unfold remove_module, fr, set_mods. cbn [mods clock takes patched running completed nested].
    f_equal. rewrite filter_app. f_equal. exact (filter_fresh m l (Hl m H)).
  Qed.

  Lemma then_mapr r f g :
    (forall s, f (fr s) = mapr (g s)) -> then_ (mapr r) f = mapr (then_ r g).
  Proof. intro H. destruct r as [[[|] s]|]; cbn; [apply H| |]; reflexivity. Qed.

  Section Run.
    Variable I : string -> st -> result.
    Hypothesis HI : forall m s, inner m = true -> I m (fr s) = mapr (I m s).

    Lemma take_fr m t n a s :
      inner m = true -> inner t = true -> (String.eqb t "" = true -> inner n = true) ->
      take I m t n a (fr s) = mapr (take I m t n a s).
    Proof.
      intros Hm Ht Hn. unfold take. rewrite HI by exact Ht. apply then_mapr. intro s1.
      rewrite val_fr by exact Ht. destruct (val t n s1) as [v|].
      - rewrite took_fr, bind_fr by exact Hm. reflexivity.
      - destruct (String.eqb t "") eqn:E; [|reflexivity].
        rewrite HI by exact (Hn eq_refl). apply then_mapr. intro s2.
        rewrite took_fr, bind_fr by exact Hm. reflexivity.
    Qed.

    Lemma take_all_fr m t ns s :
      inner m = true -> inner t = true -> String.eqb t "" = false ->
      take_all I m t ns (fr s) = mapr (take_all I m t ns s).
    Proof.
      intros Hm Ht He. revert s. induction ns as [|[n a] ns IH]; intro s; cbn [take_all]; [reflexivity|].
      rewrite take_fr; [|exact Hm|exact Ht|rewrite He; discriminate].
      apply then_mapr. exact IH.
    Qed.

    Lemma alias_fr m ns s : inner m = true -> alias m ns (fr s) = mapr (alias m ns s).
    Proof.
      intro Hm. revert s. induction ns as [|[n o] ns IH]; intro s; cbn [alias]; [reflexivity|].
      rewrite val_fr by exact Hm. destruct (val m o s) as [v|]; [|reflexivity].
      rewrite bind_fr by exact Hm. apply IH.
    Qed.

    Lemma exec_fr m x s :
      inner m = true -> inner_stmt x = true -> exec pure watch I m x (fr s) = mapr (exec pure watch I m x s).
    Proof.
      intros Hm Hx. destruct x as [t|t n a|ns|w ns|p| |t ns]; cbn [exec]; cbn [inner_stmt] in Hx.
      - apply HI. exact Hx.
      - apply andb_true_iff in Hx. destruct Hx as (Ht & Hn). apply take_fr; [exact Hm|exact Ht|].
        intro E. rewrite E in Hn. exact Hn.
      - rewrite define_fr by exact Hm. reflexivity.
      - destruct (w && negb watch); [reflexivity|apply alias_fr; exact Hm].
      - discriminate.
      - reflexivity.
      - apply andb_true_iff in Hx. destruct Hx as (Ht & He). apply negb_true_iff in He.
        destruct pure; [reflexivity|]. rewrite HI by exact Ht.
        destruct (I t s) as [[[|] s1]|]; cbn [mapr option_map fst snd]; [|reflexivity|reflexivity].
        apply take_all_fr; assumption.
    Qed.

    Lemma run_fr m b s :
      inner m = true -> forallb inner_stmt b = true ->
      run pure watch I m b (fr s) = mapr (run pure watch I m b s).
    Proof.
      intros Hm. revert s. induction b as [|x b IH]; intros s Hb; cbn [run]; [reflexivity|].
      cbn [forallb] in Hb. apply andb_true_iff in Hb. destruct Hb as (Hx & Hb).
      rewrite exec_fr by assumption. apply then_mapr. intro s1. apply IH. exact Hb.
    Qed.
  End Run.

  Notation IMP := (imp pure watch hp hc foreign body_package).

  Lemma inner_not_foreign m : inner m = true -> is_foreign m = false.
  Proof.
    unfold inner. intro H. apply existsb_exists in H. destruct H as (x & Hx & E).
    apply String.eqb_eq in E. subst x. cbn in Hx.
    repeat (destruct Hx as [<-|Hx]; [vm_compute; reflexivity|]). contradiction.
  Qed.

  Lemma imp_fr fuel : forall m s, inner m = true -> IMP fuel m (fr s) = mapr (IMP fuel m s).
  Proof.
    induction fuel as [|f IH]; intros m s Hm; cbn [imp]; [reflexivity|].
    rewrite known_fr by exact Hm. destruct (known m s); [reflexivity|].
    assert (E : (if String.eqb m "" || is_foreign m then Some (true, fr s) else IMP f "" (fr s)) =
                mapr (if String.eqb m "" || is_foreign m then Some (true, s) else IMP f "" s)).
    { destruct (String.eqb m "" || is_foreign m); [reflexivity|]. apply IH. reflexivity. }
    refine (eq_trans (f_equal (fun r => then_ r _) E) _). apply then_mapr. intro s1. clear E s.
    rewrite known_fr by exact Hm. destruct (known m s1); [reflexivity|].
    assert (Hb := inner_bodies foreign m Hm).
    assert (E0 : inner "" = true) by reflexivity.
    destruct (is_ext m).
    - destruct (available hp hc m); [|reflexivity].
      assert (E : begin_init m (fr s1) = fr (begin_init m s1)).
      { unfold begin_init. destruct (String.eqb m "_zope_security_checker"); reflexivity. }
      rewrite E. clear E. rewrite (run_fr (IMP f) IH) by assumption.
      destruct (run pure watch (IMP f) m (body foreign body_package m) (begin_init m s1)) as [[[|] s2]|];
        cbn [mapr option_map fst snd]; [| |reflexivity].
      + assert (E : add_module m [] (end_init m true (fr s2)) = fr (add_module m [] (end_init m true s2))).
        { unfold end_init. destruct (String.eqb m "_zope_security_checker"); reflexivity. }
        rewrite E. clear E. rewrite define_fr by exact Hm. rewrite bind_fr by exact E0. reflexivity.
      + unfold end_init. destruct (String.eqb m "_zope_security_checker"); reflexivity.
    - change (add_module m [] (fr s1)) with (fr (add_module m [] s1)).
      rewrite (run_fr (IMP f) IH) by assumption.
      destruct (run pure watch (IMP f) m (body foreign body_package m) (add_module m [] s1)) as [[[|] s2]|];
        cbn [mapr option_map fst snd]; [| |reflexivity].
      + destruct (String.eqb m "" || is_foreign m); [reflexivity|]. rewrite bind_fr by exact E0. reflexivity.
      + rewrite remove_fr by exact Hm. reflexivity.
  Qed.
End Frame.

(** ** More fuel *)

Section Fuel.
  Variables pure watch hp hc : bool.
  Variable foreign : string -> list (string * string).
  Variable package : list stmt.
  Notation IMP := (imp pure watch hp hc foreign package).

  Definition le_result (r r' : result) : Prop := forall x, r = Some x -> r' = Some x.

  Lemma le_refl r : le_result r r.
  Proof. intros x H. exact H. Qed.
  Lemma then_le r r' f f' :
    le_result r r' -> (forall s, le_result (f s) (f' s)) -> le_result (then_ r f) (then_ r' f').
  Proof.
    intros H Hf x E. destruct r as [[b s]|]; [|discriminate].
    rewrite (H _ eq_refl). destruct b; cbn in *; [apply Hf|]; exact E.
  Qed.

  Section Run.
    Variables I J : string -> st -> result.
    Hypothesis H : forall m s, le_result (I m s) (J m s).

    Lemma take_le m t n a s : le_result (take I m t n a s) (take J m t n a s).
    Proof.
      unfold take. apply then_le; [apply H|]. intro s1. destruct (val t n s1); [apply le_refl|].
      destruct (String.eqb t ""); [|apply le_refl]. apply then_le; [apply H|]. intro. apply le_refl.
    Qed.
    Lemma take_all_le m t l s : le_result (take_all I m t l s) (take_all J m t l s).
    Proof.
      revert s. induction l as [|[n a] l IH]; intro s; cbn [take_all]; [apply le_refl|].
      apply then_le; [apply take_le|]. exact IH.
    Qed.
    Lemma exec_le m x s : le_result (exec pure watch I m x s) (exec pure watch J m x s).
    Proof.
      destruct x as [t|t n a|ns|w ns|p| |t ns]; cbn [exec]; try apply le_refl; try apply H; [apply take_le|].
      destruct pure; [apply le_refl|]. intros y E. destruct (I t s) as [[b s1]|] eqn:Ei; [|discriminate].
      rewrite (H _ _ _ Ei). destruct b; [apply take_all_le|]; exact E.
    Qed.
    Lemma run_le m b s : le_result (run pure watch I m b s) (run pure watch J m b s).
    Proof.
      revert s. induction b as [|x b IH]; intro s; cbn [run]; [apply le_refl|].
      apply then_le; [apply exec_le|]. exact IH.
    Qed.
  End Run.

  Lemma imp_le f : forall m s, le_result (IMP f m s) (IMP (S f) m s).
  Proof.
    induction f as [|f IH]; intros m s; [intros x E; discriminate|].
    remember (S f) as g eqn:Hg. cbn [imp]. rewrite Hg at 1. cbn [imp].
    destruct (known m s); [apply le_refl|].
    apply then_le.
    { destruct (String.eqb m "" || is_foreign m); [apply le_refl|]. apply IH. }
    intro s1. destruct (known m s1); [apply le_refl|]. intros x E.
    destruct (is_ext m).
    - destruct (available hp hc m); [|exact E].
      destruct (run pure watch (IMP f) m (body foreign package m) (begin_init m s1)) as [p|] eqn:Er; [|discriminate].
      rewrite (run_le _ (IMP g) IH _ _ _ _ Er). exact E.
    - destruct (run pure watch (IMP f) m (body foreign package m) (add_module m [] s1)) as [p|] eqn:Er; [|discriminate].
      rewrite (run_le _ (IMP g) IH _ _ _ _ Er). exact E.
  Qed.

  Lemma imp_more f g m s x : IMP f m s = Some x -> f <= g -> IMP g m s = Some x.
  Proof. intros E H. induction H as [|g H IH]; [exact E|]. apply imp_le. exact IH. Qed.
End Fuel.
