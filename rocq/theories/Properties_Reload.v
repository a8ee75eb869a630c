(** * Property C73: loading files again, and independent files. *)

From Coq Require Import List String Bool Arith.
From Verif Require Import Base Domain CheckerModel Spec ProtectSpec Zcml ZcmlSpec ReloadSpec
  ReloadProps Witness Properties_Zcml.
Import ListNotations.
Open Scope string_scope.

(** Loading a file again succeeds and changes nothing, if classes are described before
    others are made like them. *)
Theorem C73_again :
  forall E ds w w1,
    described_first ds -> loadable ds w -> configure E ds w = (Ok tt, w1) ->
    exists w2, configure E ds w1 = (Ok tt, w2) /\ agree w1 w2.
Proof. exact again_lemma. Qed.
Print Assumptions C73_again.

(** Otherwise it may grant access that the first load did not grant. *)
Theorem C73_like_first_refuted :
  exists E ds w w1 w2 k n,
    loadable ds w /\ configure E ds w = (Ok tt, w1) /\ configure E ds w1 = (Ok tt, w2) /\
    read_protection (w_core w1) k n = None /\ read_protection (w_core w2) k n = Some PPublic.
Proof.
  set (ds := [ZClass (KType "B") [CRequire None [] [] (Some (KType "A")) [] []];
              ZClass (KType "A") [CAllow ["x"] []]]).
  exists (wenv ImplPy), ds, z_world, (snd (configure (wenv ImplPy) ds z_world)).
  exists (snd (configure (wenv ImplPy) ds (snd (configure (wenv ImplPy) ds z_world)))).
  exists (KType "B"), "x".
  split; [apply z_loadable; simpl; [intros i []|intros k [<-|[<-|[]]]; exact I]|].
  repeat (split; [vm_compute; reflexivity|]); vm_compute; reflexivity.
Qed.
Print Assumptions C73_like_first_refuted.

(** Files of independent packages can be loaded in any order. *)
Theorem C73_independent :
  forall E ds ds' w,
    apart ds ds' -> apart ds' ds ->
    loadable ds w -> loadable ds' w -> accepted ds w -> accepted ds' w ->
    exists w1 w12 w2 w21,
      configure E ds w = (Ok tt, w1) /\ configure E ds' w1 = (Ok tt, w12) /\
      configure E ds' w = (Ok tt, w2) /\ configure E ds w2 = (Ok tt, w21) /\ agree w12 w21.
Proof. exact swap_lemma. Qed.
Print Assumptions C73_independent.

(** Files about the same name do not conflict as they would within one file: the later
    one wins. *)
Theorem C73_overlap_refuted :
  exists E ds ds' w w1 w12 w2 w21 k n,
    loadable ds w /\ loadable ds' w /\
    configure E ds w = (Ok tt, w1) /\ configure E ds' w1 = (Ok tt, w12) /\
    configure E ds' w = (Ok tt, w2) /\ configure E ds w2 = (Ok tt, w21) /\
    read_protection (w_core w12) k n = Some PPublic /\
    read_protection (w_core w21) k n = Some (PId 0 "zope.View") /\
    configure E (ds ++ ds') w = (Exc (EConfiguration "conflict"), w).
Proof.
  set (a := [ZClass (KType "A") [CRequire (Some "zope.View") ["x"] [] None [] []]]).
  set (b := [ZClass (KType "A") [CAllow ["x"] []]]).
  exists (wenv ImplPy), a, b, z_world, (snd (configure (wenv ImplPy) a z_world)).
  exists (snd (configure (wenv ImplPy) b (snd (configure (wenv ImplPy) a z_world)))).
  exists (snd (configure (wenv ImplPy) b z_world)).
  exists (snd (configure (wenv ImplPy) a (snd (configure (wenv ImplPy) b z_world)))).
  exists (KType "A"), "x".
  split; [apply z_loadable; simpl; [intros i []|intros k [<-|[]]; exact I]|].
  split; [apply z_loadable; simpl; [intros i []|intros k [<-|[]]; exact I]|].
  repeat (split; [vm_compute; reflexivity|]); vm_compute; reflexivity.
Qed.
Print Assumptions C73_overlap_refuted.

(** A file with like_class, a redefinition and a permission, loaded twice; and another
    package. *)
Definition shelf_file : list directive :=
  [ZPermission "app.Shelve" "Shelve";
   ZRedefine "app.Shelve" "zope.View";
   ZClass (KType "app.Shelf") [CRequire (Some "app.Shelve") ["add"] [] None ["label"] []];
   ZClass (KType "app.Rack") [CRequire None [] [] (Some (KType "app.Shelf")) [] [];
                              CAllow ["size"] []]].
Definition other_file : list directive :=
  [ZPermission "web.Show" "Show"; ZPolicy PolPermissive;
   ZClass (KType "web.Page") [CRequire (Some "web.Show") ["render"] [] None [] []];
   ZModule (KMod "web") [MAllow ["main"] []]].

Example C73_example :
  described_first shelf_file /\ loadable shelf_file z_world /\ loadable other_file z_world /\
  accepted shelf_file z_world /\ accepted other_file z_world /\
  apart shelf_file other_file /\ apart other_file shelf_file /\
  let w1 := snd (configure (wenv ImplC) shelf_file z_world) in
  configure (wenv ImplC) shelf_file z_world = (Ok tt, w1) /\
  read_protection (w_core w1) (KType "app.Rack") "add" = Some (PId 0 "zope.View").
Proof.
  assert (H1 : loadable shelf_file z_world).
  { apply z_loadable; simpl; [intros i []|].
    intros k H. repeat (destruct H as [<-|H]; [exact I|]). destruct H. }
  assert (H2 : loadable other_file z_world).
  { apply z_loadable; simpl; [intros i []|].
    intros k H. repeat (destruct H as [<-|H]; [exact I|]). destruct H. }
  split.
  { simpl. split; [intros l []|]. split; [|exact I].
    intros l [<-|[]]. split; [discriminate|intros []]. }
  split; [exact H1|]. split; [exact H2|].
  split.
  { apply (ZcmlProps.load_ok_lemma (wenv ImplC) shelf_file z_world H1). eexists. vm_compute. reflexivity. }
  split.
  { apply (ZcmlProps.load_ok_lemma (wenv ImplC) other_file z_world H2). eexists. vm_compute. reflexivity. }
  split.
  { split; simpl; intros x H H'; repeat (destruct H as [<-|H]; [intuition discriminate|]); destruct H. }
  split.
  { split; simpl; intros x H H'; repeat (destruct H as [<-|H]; [intuition discriminate|]); destruct H. }
  split; vm_compute; reflexivity.
Qed.
