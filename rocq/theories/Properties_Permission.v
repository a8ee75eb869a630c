(** * Properties C52 and C58: permission listings; the example policy. *)

From Coq Require Import List String Bool Arith Permutation Sorted.
From Verif Require Import Base Domain CheckerModel ProxyModel Spec Witness Permission PermSpec PermFacts
  Zcml ZcmlSpec Sandbox SandboxSpec SandboxFacts.
Import ListNotations.
Open Scope string_scope.

(** ** C52 *)

Theorem C52_all :
  forall us,
    (forall n, In n (allPermissions us) <-> private_id us n) /\
    (names_unique us -> NoDup (allPermissions us)).
Proof. exact all_lemma. Qed.
Print Assumptions C52_all.

Theorem C52_ids :
  forall us,
    names_unique us ->
    exists ns, listing (private_id us) ns /\
      (In public_id (map fst us) ->
       PermissionIdsVocabulary us = Ok (public_term :: map id_term ns)) /\
      (~ In public_id (map fst us) -> PermissionIdsVocabulary us = Ok (map id_term ns)).
Proof. exact ids_lemma. Qed.
Print Assumptions C52_ids.

(** The vocabulary does not depend on the order of enumeration. *)
Theorem C52_ids_order :
  forall us us',
    names_unique us -> Permutation us us' ->
    PermissionIdsVocabulary us = PermissionIdsVocabulary us'.
Proof. exact ids_order_lemma. Qed.
Print Assumptions C52_ids_order.

(** One permission object registered under two names makes PermissionsVocabulary fail. *)
Theorem C52_permissions :
  forall us,
    names_unique us ->
    (NoDup (map snd us) ->
     exists ts, PermissionsVocabulary us = Ok ts /\
       (forall t, In t ts <-> exists n p, In (n, p) us /\ t = mkTerm (TPermission p) n None) /\
       NoDup (map tm_token ts)) /\
    (~ NoDup (map snd us) -> exists e, PermissionsVocabulary us = Exc (EValue e)).
Proof. exact permissions_lemma. Qed.
Print Assumptions C52_permissions.

(** After a configuration file was loaded, the ids listed are the old and the new ones. *)
Theorem C52_after_load :
  forall E ds w w' us n,
    loadable ds w -> configure E ds w = (Ok tt, w') -> map fst us = map fst (w_perms w') ->
    (In n (allPermissions us) <->
     n <> public_id /\
     (In n (map fst (w_perms w)) \/ exists title, In (ZPermission n title) ds)).
Proof. exact listed_after_load_lemma. Qed.
Print Assumptions C52_after_load.

(** testing.addCheckerPublic adds the public permission, and nothing to allPermissions. *)
Theorem C52_add_public :
  forall p us,
    names_unique us ->
    names_unique (addCheckerPublic p us) /\
    (forall n, In n (allPermissions (addCheckerPublic p us)) <-> In n (allPermissions us)) /\
    exists ts, PermissionIdsVocabulary (addCheckerPublic p us) = Ok (public_term :: ts).
Proof. exact add_public_lemma. Qed.
Print Assumptions C52_add_public.

Definition some_utilities : list utility :=
  [("zope.View", 1); ("zope.Public", 2); ("app.Edit", 3); ("Public", 4)].

Example C52_example :
  names_unique some_utilities /\ NoDup (map snd some_utilities) /\
  allPermissions some_utilities = ["zope.View"; "app.Edit"; "Public"] /\
  PermissionIdsVocabulary some_utilities =
    Ok [public_term; id_term "Public"; id_term "app.Edit"; id_term "zope.View"] /\
  PermissionsVocabulary [("a", 1); ("b", 1)] = Exc (EValue "term values must be unique").
Proof.
  split; [unfold names_unique; simpl; repeat constructor; simpl; intuition discriminate|].
  split; [simpl; repeat constructor; simpl; intuition discriminate|].
  repeat split.
Qed.

(** ** C58 *)

Theorem C58_policy :
  forall database h toks i t,
    exists b, Simulation_checkPermission database (Ok h) (map Ok toks) (PId i t) = Ok b /\
              (b = true <-> sandbox_grants database h toks t).
Proof. exact simulation_lemma. Qed.
Print Assumptions C58_policy.

(** CheckerPublic and None are in no list of strings: only 'All' for 'any' grants them. *)
Theorem C58_not_listed :
  forall database h toks p,
    (forall i t, p <> PId i t) ->
    exists b, Simulation_checkPermission database (Ok h) (map Ok toks) p = Ok b /\
              (b = true <-> exists db, located database h db /\ allows db "any" "All").
Proof. exact simulation_not_a_string. Qed.
Print Assumptions C58_not_listed.

(** When a participation's token cannot be found out, an earlier participation that
    lacks the permission still gives the answer; otherwise the failure is passed on. *)
Theorem C58_no_token :
  forall database h db before e after i t,
    located database h db -> ~ allows db "any" t -> ~ allows db "any" "All" ->
    ((forall tok, In tok before -> allows db tok t) ->
     Simulation_checkPermission database (Ok h) (map Ok before ++ Exc e :: after)%list (PId i t) = Exc e) /\
    (forall tok, In tok before -> ~ allows db tok t ->
     Simulation_checkPermission database (Ok h) (map Ok before ++ Exc e :: after)%list (PId i t) = Ok false).
Proof. exact simulation_no_token. Qed.
Print Assumptions C58_no_token.

Example C58_not_listed_example :
  Simulation_checkPermission SimulationSecurityDatabase (Ok "jail") [Ok "norse legend"] PPublic
    = Ok false /\
  Simulation_checkPermission SimulationSecurityDatabase (Ok "origin") [] PNone = Ok true /\
  Simulation_checkPermission SimulationSecurityDatabase (Ok "jail")
    [Ok "norse legend"; Exc (EAttribute "x")] (PId 0 AccessAgents) = Exc (EAttribute "x") /\
  Simulation_checkPermission SimulationSecurityDatabase (Ok "jail")
    [Ok "greek hero"; Exc (EAttribute "x")] (PId 0 AccessAgents) = Ok false.
Proof. repeat split. Qed.

Theorem C58_map_checker :
  forall E m sp s,
    exists c s' g, PermissionMapChecker E m sp s = (Ok c, s', []) /\
      (e_watch E = 0 -> PlainChecker s' c g sp) /\
      (forall n, table_of g n = last_listing m n) /\
      (disjoint_map m -> forall n k,
         (table_of g n = Some k <-> exists l, In (k, l) m /\ In n l)).
Proof. exact map_checker_lemma. Qed.
Print Assumptions C58_map_checker.

(** The policy and such a checker together. *)
Theorem C58_enforced :
  forall E f m c g w obj n s r s' tr iv home toks,
    PlainChecker s c g w -> m <> MSetattr -> no_none (table_of g) -> n <> "__iter__" ->
    tl_inter (st_tls s (e_tid E)) = Some iv -> foreign_interaction iv ->
    simulates E iv home toks ->
    do_check E (S (S f)) m c obj n s = (r, s', tr) ->
    (r = Ok tt <-> match table_of g n with
                   | Some (PId i t) => sandbox_grants SimulationSecurityDatabase (home obj) toks t
                   | Some _ => True
                   | None => always_available n
                   end).
Proof. exact simulation_enforced_lemma. Qed.
Print Assumptions C58_enforced.

(** 'All' is honoured for 'any' only: a token with 'All' is not allowed everything. *)
Theorem C58_all_for_a_token_refuted :
  exists database h tok t db,
    located database h db /\ allows db tok "All" /\
    Simulation_checkPermission database (Ok h) [Ok tok] (PId 0 t) = Ok false.
Proof.
  exists [("home", [("root", ["All"])])], "home", "root", "Add Agent", [("root", ["All"])].
  split; [reflexivity|]. split; [exists ["All"]; simpl; auto|reflexivity].
Qed.
Print Assumptions C58_all_for_a_token_refuted.

(** The table of sandboxes names the method getAgentsIds, the class has getAgentIds:
    nobody may call it (C01). *)
Theorem C58_getAgentIds :
  last_listing sandbox_map "getAgentIds" = None /\
  last_listing sandbox_map "getAgents" = Some (PId 2 AccessAgents).
Proof. split; reflexivity. Qed.
Print Assumptions C58_getAgentIds.

Definition sim_run (t : id) (c : call) (s : state) : res value * state :=
  match c with
  | CallPerm _ p _ =>
      (match Simulation_checkPermission SimulationSecurityDatabase (Ok "jail") [Ok "norse legend"] p with
       | Ok b => Ok (VBool b)
       | Exc e => Exc e
       end, s)
  | _ => (Ok VNone, s)
  end.

Example C58_example :
  disjoint_map sandbox_map /\
  simulates (wenv_run ImplC sim_run) (VObj 77) (fun _ => "jail") ["norse legend"] /\
  (exists b, b = true /\ Simulation_checkPermission SimulationSecurityDatabase (Ok "jail")
     [Ok "norse legend"; Ok "norse legend"] (PId 0 AccessAgents) = Ok b) /\
  Simulation_checkPermission SimulationSecurityDatabase (Ok "jail")
     [Ok "norse legend"; Ok "greek men"] (PId 0 AccessAgents) = Ok false /\
  Simulation_checkPermission SimulationSecurityDatabase (Ok "origin") [] (PId 0 "x") = Ok true.
Proof.
  split.
  - intros k1 l1 k2 l2 n H1 H2 H3 H4. simpl in H1, H2.
    repeat (destruct H1 as [H1|H1]; [injection H1 as <- <-|]); try contradiction;
    repeat (destruct H2 as [H2|H2]; [injection H2 as <- <-|]); try contradiction; try reflexivity;
    simpl in H3, H4; intuition congruence.
  - split; [|repeat split; exists true; repeat split].
    intros i t obj s.
    destruct (simulation_lemma SimulationSecurityDatabase "jail" ["norse legend"] i t) as (b & H & _).
    exists b. split; [|exact H].
    change (e_run (wenv_run ImplC sim_run)) with sim_run. unfold sim_run.
    change (map (@Ok string) ["norse legend"]) with [Ok "norse legend"] in H. rewrite H. reflexivity.
Qed.
