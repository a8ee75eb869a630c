(** * Property C68: the sandbox application. *)

From Coq Require Import List String Bool Arith.
From Verif Require Import Base Domain MFacts Sandbox SandboxSpec SandboxApp SandboxAppSpec SandboxAppFacts.
Import ListNotations.
Open Scope string_scope.

(** A transport that fails, for whatever reason and at whatever step, changes nothing. *)
Theorem C68_transport_atomic :
  forall secured check self a dest ok w e w',
    transportAgent secured check self a dest ok w = (Exc e, w') -> w' = w.
Proof. exact transport_atomic_lemma. Qed.
Print Assumptions C68_transport_atomic.

(** Exactly when it succeeds. *)
Theorem C68_transport_iff :
  forall secured check self a dest ok w,
    (exists w', transportAgent secured check self a dest ok w = (Ok tt, w')) <->
    movable w a self (r_box dest) /\ ok = true /\
    (r_proxied dest = true -> check "addAgent" (r_box dest) w = None).
Proof. exact transport_iff_lemma. Qed.
Print Assumptions C68_transport_iff.

(** And then the agent, if it lived there, has moved, and nothing else has changed. *)
Theorem C68_transport_moves :
  forall secured check self a dest ok w w',
    known_as w self (ag_id (w_agents w a)) a ->
    transportAgent secured check self a dest ok w = (Ok tt, w') ->
    moved secured w w' a self (r_box dest).
Proof. exact transport_moves_lemma. Qed.
Print Assumptions C68_transport_moves.

(** Whatever transports are attempted, successful or not: the population stays the same,
    and nobody is in two places. *)
Theorem C68_population :
  forall (P : id -> Prop) w w',
    in_order P w -> Transports P w w' ->
    in_order P w' /\
    (forall a, (exists b, lives w' b a) <-> (exists b, lives w b a)) /\
    (forall a b c, lives w' b a -> lives w' c a -> b = c).
Proof. exact population_lemma. Qed.
Print Assumptions C68_population.

(** The world after the bootstrap is in order, and thor can be moved to jail. *)
Example C68_example :
  in_order (fun a => a < 6) boot /\ lives boot 1 2 /\ movable boot 2 1 0 /\
  exists w', transportAgent true secure_check 1 2 (mkRef 0 false) true boot = (Ok tt, w') /\
             lives w' 0 2 /\ Transports (fun a => a < 6) boot w'.
Proof.
  assert (Hagents : sb_agents (w_boxes boot 1) =
    [("odin", 0); ("loki", 1); ("thor", 2); ("thucydides", 3); ("archimedes", 4); ("prometheus", 5)])
    by reflexivity.
  split.
  { split.
    - intros a1 a2 H1 H2.
      do 6 (destruct a1 as [|a1]; [do 6 (destruct a2 as [|a2]; [vm_compute; congruence|]);
            exfalso; do 6 apply Nat.succ_lt_mono in H2; inversion H2|]).
      exfalso. do 6 apply Nat.succ_lt_mono in H1. inversion H1.
    - intros b k a H. unfold known_as in H.
      destruct b as [|[|b]].
      + vm_compute in H. discriminate H.
      + rewrite Hagents in H. cbn [dget] in H.
        repeat match type of H with
               | context [String.eqb ?x k] => destruct (String.eqb_spec x k) as [<-|_]
               end;
        try (inversion H; subst a; split; [repeat constructor|];
             split; [reflexivity|]; eexists; split; reflexivity).
        discriminate H.
      + assert (Hb : sb_agents (w_boxes boot (S (S b))) = []) by reflexivity.
        rewrite Hb in H. discriminate H. }
  split; [exists "thor"; reflexivity|].
  split; [split; [exists 2; reflexivity|split; [intros x H; vm_compute in H; discriminate H|reflexivity]]|].
  eexists. split; [reflexivity|]. split; [exists "thor"; reflexivity|].
  eapply (Tr_step _ true secure_check 1 2 (mkRef 0 false) true (Ok tt) boot);
    [repeat constructor|reflexivity|apply Tr_done].
Qed.

(** The method looks at the agent's id only: it can be made to throw out another agent that
    happens to have the same id, which then lives nowhere. *)
Theorem C68_impostor_refuted :
  exists w a self dest w',
    transportAgent false (fun _ _ _ => None) self a dest true w = (Ok tt, w') /\
    ~ lives w self a /\
    exists victim b, lives w b victim /\ forall c, ~ lives w' c victim.
Proof.
  exists (set_agents (upd (w_agents boot) 6 (mkAgent "thor" "greek men" true None)) boot), 6, 1,
         (mkRef 0 false).
  eexists. split; [reflexivity|]. split.
  { intros [k H]. unfold known_as in H. cbn [w_boxes set_agents] in H.
    change (sb_agents (w_boxes boot 1)) with
      [("odin", 0); ("loki", 1); ("thor", 2); ("thucydides", 3); ("archimedes", 4); ("prometheus", 5)] in H.
    cbn [dget] in H.
    repeat match type of H with
           | context [String.eqb ?x k] => destruct (String.eqb x k); [discriminate H|]
           end. discriminate H. }
  exists 2, 1. split; [exists "thor"; reflexivity|].
  intros c [k H]. unfold known_as in H.
  destruct c as [|[|c]];
    match type of H with
    | dget _ ?d k = _ => let d' := eval vm_compute in d in change d with d' in H
    end; cbn [dget] in H;
    repeat match type of H with
           | context [String.eqb ?x k] => destruct (String.eqb x k); [discriminate H|]
           end; discriminate H.
Qed.
Print Assumptions C68_impostor_refuted.

(** Adding, unlike transporting, does not look whether the agent lives elsewhere: it then
    lives in two places. *)
Theorem C68_two_homes_refuted :
  exists w a b c w',
    in_order (fun x => x < 6) w /\ lives w b a /\ b <> c /\
    addAgent true c a w = (Ok tt, w') /\ lives w' b a /\ lives w' c a.
Proof.
  exists boot, 2, 1, 0. eexists. split; [exact (proj1 C68_example)|].
  split; [exists "thor"; reflexivity|]. split; [discriminate|].
  split; [reflexivity|]. split; exists "thor"; reflexivity.
Qed.
Print Assumptions C68_two_homes_refuted.

(** With security: an agent in an interaction moves from one sandbox to another iff the
    example policy grants it "Transport Agent" where it comes from and "Add Agent" where
    it goes. *)
Theorem C68_secured_transport :
  forall self a dest w,
    (exists w', through secure_check (mkRef self true) "transportAgent"
                  (transportAgent true secure_check self a (mkRef dest true) true) w =
                (Ok tt, w')) <->
    movable w a self dest /\
    exists x, w_inter w = Some x /\
              granted_at w x self TransportAgent /\ granted_at w x dest AddAgent.
Proof. exact secured_transport_lemma. Qed.
Print Assumptions C68_secured_transport.

(** Every other name of a sandbox is forbidden; the names in its table need what the table
    says. *)
Theorem C68_names :
  forall n b w,
    (secure_check n b w = None <->
       needs n None \/ exists t x, needs n (Some t) /\ w_inter w = Some x /\ granted_at w x b t) /\
    ((forall o, ~ needs n o) -> secure_check n b w = Some (EForbidden n (VObj b))).
Proof. exact names_lemma. Qed.
Print Assumptions C68_names.

Example C68_names_example :
  (forall o, ~ needs "_agents" o) /\ needs "getId" None /\ needs "getAgents" (Some AccessAgents).
Proof.
  split; [|split; [apply nd_public|apply nd_agents]; simpl; tauto].
  intros o H. inversion H; subst; simpl in *; intuition discriminate.
Qed.
Print Assumptions C68_names_example.

(** So only norse legends enter valhalla or leave jail. *)
Theorem C68_legends :
  forall self a dest w w',
    through secure_check (mkRef self true) "transportAgent"
      (transportAgent true secure_check self a (mkRef dest true) true) w = (Ok tt, w') ->
    sb_id (w_boxes w dest) = "valhalla" \/ sb_id (w_boxes w self) = "jail" ->
    exists x, w_inter w = Some x /\ ag_token (w_agents w x) = "norse legend".
Proof. exact legends_lemma. Qed.
Print Assumptions C68_legends.

(** From the origin thor enters valhalla; archimedes does not, but can be sent to jail. *)
Example C68_secured_example :
  let go x a dest := fst (through secure_check (mkRef 1 true) "transportAgent"
        (transportAgent true secure_check 1 a (mkRef dest true) true) (set_winter (Some x) boot)) in
  go 2 2 2 = Ok tt /\
  go 4 4 2 = Exc (EUnauthorized (VObj 2) "addAgent" (PId 3 AddAgent)) /\
  go 4 4 0 = Ok tt.
Proof. vm_compute. auto. Qed.

(** A turn in which no agent wants to move leaves everything as it was, and with security
    no interaction behind. *)
Theorem C68_turn_calm :
  forall secured check action lust w,
    (secured = true -> w_inter w = None) -> ~ restless lust w ->
    turn secured check action lust w = (Ok tt, w).
Proof. exact turn_calm_lemma. Qed.
Print Assumptions C68_turn_calm.

(** But as soon as one wants to, the turn is aborted by an exception that nothing catches:
    nobody ever moves; and with security the agent's interaction stays open. *)
Theorem C68_turn_refuted :
  forall secured check action lust w,
    (secured = true -> w_inter w = None) -> restless lust w ->
    exists b k a, In b (w_homes w) /\ In (k, a) (sb_agents (w_boxes w b)) /\ lust a = true /\
    turn secured check action lust w =
      (Exc UnboundLocalError, if secured then set_winter (Some a) w else w).
Proof. exact turn_restless_lemma. Qed.
Print Assumptions C68_turn_refuted.

(** ... and no later turn gets beyond the first agent. *)
Theorem C68_turn_blocked :
  forall check action lust w a,
    w_inter w = Some a ->
    (exists b k x, In b (w_homes w) /\ In (k, x) (sb_agents (w_boxes w b))) ->
    turn true check action lust w = (Exc EExistingInteraction, w).
Proof. exact turn_blocked_lemma. Qed.
Print Assumptions C68_turn_blocked.

Example C68_turn_example :
  restless (fun a => Nat.eqb a 4) boot /\ w_inter boot = None /\
  turn true secure_check (fun _ => Ok tt) (fun a => Nat.eqb a 4) boot =
    (Exc UnboundLocalError, set_winter (Some 4) boot) /\
  fst (turn true secure_check (fun _ => Ok tt) (fun _ => false) (set_winter (Some 4) boot)) =
    Exc EExistingInteraction.
Proof.
  split; [exists 1, "archimedes", 4; split; [simpl; auto|split; [simpl; tauto|reflexivity]]|].
  split; [reflexivity|]. split; reflexivity.
Qed.
