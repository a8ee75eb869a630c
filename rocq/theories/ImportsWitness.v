(** * ImportsWitness: a layering, and what happens without it or without the package's __init__. *)

From Coq Require Import List String Bool Arith Lia.
From Verif Require Import Imports ImportsSpec ImportsFacts ImportsLayers.
Import ListNotations.
Open Scope string_scope.

(** zope.component.zcml uses adapters, permissions and checkers. *)
Definition component (p : string) : list (string * string) :=
  if String.eqb p "zope.component.zcml" then
    [("adapter", "LocatingTrustedAdapterFactory"); ("adapter", "TrustedAdapterFactory");
     ("checker", "InterfaceChecker"); ("checker", "CheckerPublic"); ("proxy", "Proxy");
     ("zcml", "Permission")]
  else [].

Definition component_rank (m : string) : nat :=
  if String.eqb m "zope.component.zcml" then 3
  else if is_foreign m then 0
  else if existsb (String.eqb m) ["adapter"; "protectclass"; "permission"] then 1
  else if existsb (String.eqb m) ["zcml"; "testing"] then 2
  else if String.eqb m "metadirectives" then 3
  else if String.eqb m "metaconfigure" then 4
  else 0.

Definition rank_ok (m t : string) : bool := mem t core || Nat.ltb (component_rank t) (component_rank m).

Lemma component_layered : layered component component_rank.
Proof.
  split.
  - intros m x t Hm Hx Ht.
    assert (H : forallb (fun x => forallb (rank_ok m) (targets x)) (body component body_package m) = true).
    { clear Hx. cbn in Hm. repeat (destruct Hm as [<-|Hm]; [vm_compute; reflexivity|]). contradiction. }
    assert (H1 := proj1 (forallb_forall _ _) H x Hx). assert (H2 := proj1 (forallb_forall _ _) H1 t Ht).
    unfold rank_ok in H2. apply orb_true_iff in H2. destruct H2 as [H2|H2]; [left; exact (mem_in _ _ H2)|right].
    apply Nat.ltb_lt in H2. exact H2.
  - intros p t n _ Hin. unfold component in Hin.
    destruct (String.eqb p "zope.component.zcml") eqn:E; [|contradiction].
    apply String.eqb_eq in E. subst p.
    assert (H : forallb (fun e => (mem (fst e) core || mem (fst e) outer && rank_ok "zope.component.zcml" (fst e)) &&
                                  mem (snd e) (all_names component (fst e))) (component "zope.component.zcml") = true)
      by (vm_compute; reflexivity).
    assert (H1 := proj1 (forallb_forall _ _) H (t, n) Hin). cbn [fst snd] in H1.
    apply andb_true_iff in H1. destruct H1 as (H1 & H2). split; [|exact (mem_in _ _ H2)].
    apply orb_true_iff in H1. destruct H1 as [H1|H1]; [left; exact (mem_in _ _ H1)|].
    apply andb_true_iff in H1. destruct H1 as (H1 & H3). unfold rank_ok in H3. apply orb_true_iff in H3.
    destruct H3 as [H3|H3]; [left; exact (mem_in _ _ H3)|right]. split; [exact (mem_in _ _ H1)|].
    apply Nat.ltb_lt in H3. exact H3.
Qed.

(** With an empty __init__.py, importing the extension first. *)
Definition without_init : option (list bool * st) :=
  imports false false true true (fun _ => []) [] 30 ["_zope_security_checker"] start.

Definition wrong_take (s : st) (e : string * string * string * value) : bool :=
  match e with (m, t, n, v) => negb (is_val (val t n s) v) end.

Lemma without_lemma :
  exists s, imports false false true true (fun _ => []) [] 30 ["_zope_security_checker"] start = Some ([true], s) /\
    nested s = true /\ completed s = 2 /\ patched s = false /\
    exists n, In n shared /\ val "checker" n s <> None /\
      val "checker" n s <> val "_zope_security_checker" n s.
Proof.
  assert (E : match without_init with
              | Some ([true], s) => nested s && Nat.eqb (completed s) 2 && negb (patched s) &&
                  is_some (val "checker" "_available_by_default" s) &&
                  negb (same_val (val "checker" "_available_by_default" s)
                                 (val "_zope_security_checker" "_available_by_default" s))
              | _ => false
              end = true) by (vm_compute; reflexivity).
  unfold without_init in E. revert E.
  generalize (imports false false true true (fun _ => []) [] 30 ["_zope_security_checker"] start).
  intros r E. destruct r as [[[|[|] [|b oks]] s]|]; try discriminate E. exists s. split; [reflexivity|].
  apply andb_true_iff in E. destruct E as (E & E1). apply andb_true_iff in E. destruct E as (E & E2).
  apply andb_true_iff in E. destruct E as (E & E3). apply andb_true_iff in E. destruct E as (E4 & E5).
  apply Nat.eqb_eq in E5. apply negb_true_iff in E3, E1.
  split; [exact E4|]. split; [exact E5|]. split; [exact E3|].
  exists "_available_by_default". split; [cbn; tauto|].
  destruct (val "checker" "_available_by_default" s) as [v|]; [|discriminate E2]. split; [discriminate|].
  intro Heq. rewrite <- Heq in E1. cbn in E1. destruct v as [m|k]; cbn in E1.
  - rewrite String.eqb_refl in E1. discriminate.
  - rewrite Nat.eqb_refl in E1. discriminate.
Qed.

(** If zope.component.zcml needed something of metaconfigure. *)
Definition cyclic (p : string) : list (string * string) :=
  if String.eqb p "zope.component.zcml" then [("metaconfigure", "ClassDirective")] else [].

Definition outcomes (l : list string) : list bool :=
  match imports true false false false cyclic body_package 30 l start with
  | Some (oks, _) => oks
  | None => []
  end.

Lemma cycle_lemma :
  exists foreign m p, In m outer /\ is_foreign p = true /\
    (forall p t n, In (t, n) (foreign p) -> In t outer /\ In n (all_names foreign t)) /\
    (exists s, imports true false false false foreign body_package 30 [m] start = Some ([false], s)) /\
    (exists s, imports true false false false foreign body_package 30 [p; m] start = Some ([true; true], s)).
Proof.
  exists cyclic, "metaconfigure", "zope.component.zcml". split; [cbn; tauto|]. split; [reflexivity|]. split.
  { intros p t n Hin. unfold cyclic in Hin. destruct (String.eqb p "zope.component.zcml"); [|contradiction].
    destruct Hin as [E|[]]. injection E as <- <-. split; [cbn; tauto|]. apply mem_in. vm_compute. reflexivity. }
  assert (E1 : outcomes ["metaconfigure"] = [false]) by (vm_compute; reflexivity).
  assert (E2 : outcomes ["zope.component.zcml"; "metaconfigure"] = [true; true]) by (vm_compute; reflexivity).
  unfold outcomes in E1, E2. revert E1 E2.
  generalize (imports true false false false cyclic body_package 30 ["metaconfigure"] start).
  generalize (imports true false false false cyclic body_package 30 ["zope.component.zcml"; "metaconfigure"] start).
  intros r2 r1 E1 E2. split.
  - destruct r1 as [[oks s]|]; [|discriminate E1]. subst oks. exists s. reflexivity.
  - destruct r2 as [[oks s]|]; [|discriminate E2]. subst oks. exists s. reflexivity.
Qed.

(** A program, with both extensions. *)
Definition program : list string :=
  ["_zope_security_checker"; "metaconfigure"; "zope.component.zcml"; "testing"; "checker"].
Definition program_check : bool :=
  match imports false false true true component body_package 30 program start with
  | Some (oks, s) => forallb (fun b => b) oks && Nat.eqb (completed s) 1 && patched s &&
                     known "adapter" s && negb (Nat.eqb (List.length (takes s)) 0)
  | None => false
  end.
