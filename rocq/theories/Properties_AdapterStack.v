(** C97: adapter factories wrapped in adapter factories. *)

From Coq Require Import String List Arith Bool.
From Verif Require Import Liars LiarsSpec LiarsUse LiarsUseSpec.
From Verif Require Import AdapterStack AdapterStackSpec AdapterStackFacts AdapterStackWitness.
Import ListNotations.

(** Wrapping, any number of times and in any of the classes, reads the name and
    the module of the innermost factory once, and all wrappers have them; no
    factory is called. *)
Theorem C97_names : forall (W X : Type) (attribute : nat -> string -> action W X obj)
  ks k i n m w w1 w2,
    attribute i "__name__" w = (Returns n, w1) ->
    attribute i "__module__" w1 = (Returns m, w2) ->
    exists f, wraps attribute (k :: ks) (App i) w = (Returns f, w2) /\
      named n m f /\ layers f = k :: ks /\ core f = i.
Proof. intros W X attribute. exact (wraps_names attribute). Qed.
Print Assumptions C97_names.

(** What has no name or module cannot be wrapped. *)
Theorem C97_nameless : forall (W X : Type) (attribute : nat -> string -> action W X obj)
  ks k i e w w',
    (attribute i "__name__" w = (Raises e, w') \/
     exists n w1, attribute i "__name__" w = (Returns n, w1) /\
                  attribute i "__module__" w1 = (Raises e, w')) ->
    wraps attribute (k :: ks) (App i) w = (Raises e, w').
Proof. intros W X attribute. exact (wraps_fails attribute). Qed.
Print Assumptions C97_nameless.

(** Wrapping a trusted factory again changes nothing: the stack does what its
    outermost wrapper alone would do around the innermost factory, which is
    called once, with the objects behind the proxies; the location is set once
    and the result is proxied once. *)
Theorem C97_once : forall (W X : Type) (R : runtime W X), sane R -> distinct R ->
  forall app provided get_parent set_parent located index_error,
    orderly provided get_parent set_parent ->
  forall b fuel x args k f n m w,
    Forall (simple R b) (x :: args) -> is_trusted k -> Forall is_trusted (layers f) ->
    call R app provided get_parent set_parent located index_error b fuel
      (Wrapped k f n m) (x :: args) w =
    call R app provided get_parent set_parent located index_error b fuel
      (Wrapped k (App (core f)) n m) (x :: args) w.
Proof.
  intros W X R HS HD app provided get_parent set_parent located index_error HO.
  exact (stack_once R HS HD app provided get_parent set_parent located index_error HO).
Qed.
Print Assumptions C97_once.

(** What that is, if one of the arguments is a proxy. *)
Theorem C97_proxied : forall (W X : Type) (R : runtime W X), sane R -> distinct R ->
  forall app provided get_parent set_parent located index_error,
    orderly provided get_parent set_parent ->
  forall b fuel x args k f n m w,
    Forall (simple R b) (x :: args) -> Exists (a_proxy R) (x :: args) ->
    is_trusted k -> Forall is_trusted (layers f) ->
    (forall e w1, app (core f) (map bare (x :: args)) w = (Raises e, w1) ->
       call R app provided get_parent set_parent located index_error b fuel
         (Wrapped k f n m) (x :: args) w = (Raises e, w1)) /\
    (forall a w1, app (core f) (map bare (x :: args)) w = (Returns a, w1) ->
       (forall e w2, settles provided get_parent set_parent located
                       (match k with Locating => true | _ => false end) a (bare x) w1 (Raises e) w2 ->
          call R app provided get_parent set_parent located index_error b fuel
            (Wrapped k f n m) (x :: args) w = (Raises e, w2)) /\
       (forall a' w2, settles provided get_parent set_parent located
                       (match k with Locating => true | _ => false end) a (bare x) w1 (Returns a') w2 ->
          call R app provided get_parent set_parent located index_error b fuel
            (Wrapped k f n m) (x :: args) w = ProxyFactory R b fuel a' None w2)).
Proof.
  intros W X R HS HD app provided get_parent set_parent located index_error HO.
  exact (stack_settles R HS HD app provided get_parent set_parent located index_error HO).
Qed.
Print Assumptions C97_proxied.

(** And if none is: the adapter stays without a proxy. *)
Theorem C97_bare : forall (W X : Type) (R : runtime W X), sane R -> distinct R ->
  forall app provided get_parent set_parent located index_error,
    orderly provided get_parent set_parent ->
  forall b fuel x args f w,
    Forall (honest R b) (x :: args) -> Forall not_a_proxy (x :: args) ->
    Forall is_trusted (layers f) -> layers f <> [] ->
    (forall e w1, app (core f) (x :: args) w = (Raises e, w1) ->
       call R app provided get_parent set_parent located index_error b fuel f (x :: args) w =
         (Raises e, w1)) /\
    (forall a w1 o w2, app (core f) (x :: args) w = (Returns a, w1) ->
       settles provided get_parent set_parent located false a x w1 o w2 ->
       call R app provided get_parent set_parent located index_error b fuel f (x :: args) w = (o, w2)).
Proof.
  intros W X R HS HD app provided get_parent set_parent located index_error HO.
  exact (stack_settles_bare R HS HD app provided get_parent set_parent located index_error HO).
Qed.
Print Assumptions C97_bare.

(** An untrusted factory around any other hands the arguments on as they are,
    proxies or not, and only gives the adapter its place. *)
Theorem C97_untrusted : forall (W X : Type) (R : runtime W X),
  forall app provided get_parent set_parent located index_error b fuel x args f n m w,
    (forall e w1, call R app provided get_parent set_parent located index_error b fuel
                    f (x :: args) w = (Raises e, w1) ->
       call R app provided get_parent set_parent located index_error b fuel
         (Wrapped Untrusted f n m) (x :: args) w = (Raises e, w1)) /\
    (forall a w1 o w2, call R app provided get_parent set_parent located index_error b fuel
                    f (x :: args) w = (Returns a, w1) ->
       settles provided get_parent set_parent located true a x w1 o w2 ->
       call R app provided get_parent set_parent located index_error b fuel
         (Wrapped Untrusted f n m) (x :: args) w = (o, w2)).
Proof. intros W X R. exact (untrusted_settles R). Qed.
Print Assumptions C97_untrusted.

(** "Wrapping twice is wrapping once" is false for objects with two proxies
    around them: each wrapper takes one off. *)
Theorem C97_twice_refuted :
  exists (x : obj) (f : fact), a_proxy home x /\ layers f = [Trusted; Trusted] /\
    (forall b fuel w, home_call b (S fuel) (Wrapped Trusted (App (core f)) PyNone PyNone) [x] w =
                      (Returns (Plain 25), w)) /\
    (forall b fuel w, home_call b (S fuel) f [x] w =
                      (Returns (Prox 1 (Plain 24) (rt_default home)), w)).
Proof. exact twice_false. Qed.
Print Assumptions C97_twice_refuted.

(** ** Cases *)

(** Settling the adapters 23 and 24. *)
Example C97_settles_case :
  settles home_provided home_parent home_set home_located true (Plain 23) (Plain 27) PyNone
    (Returns (Plain 23)) (Plain 27) /\
  settles home_provided home_parent home_set home_located true (Plain 24) (Plain 27) PyNone
    (Returns (Plain 29)) PyNone /\
  home_call C 3 (Wrapped Untrusted (App 2) PyNone PyNone) [doubled] PyNone = (Returns (Plain 29), PyNone).
Proof.
  split; [eapply settles_gets; reflexivity|]. split; [eapply settles_covered; reflexivity | reflexivity].
Qed.

(** The hypotheses, and a stack of three: the adapter 23 provides ILocation and
    gets its context for a parent, 24 gets a location proxy from the outermost
    wrapper if that is a locating one. *)
Example C97_case :
  sane home /\ distinct home /\ orderly home_provided home_parent home_set /\
  Forall (simple home C) [Prox 1 (Plain 27) (Plain 31); Plain 20] /\
  Exists (a_proxy home) [Prox 1 (Plain 27) (Plain 31); Plain 20] /\
  Forall (honest home C) [Plain 20; Plain 27] /\ Forall not_a_proxy [Plain 20; Plain 27] /\
  (exists f, wraps home_attribute [Locating; Trusted; Locating] (App 0) PyNone = (Returns f, PyNone) /\
     named (Plain 40) (Plain 41) f /\ Forall is_trusted (layers f) /\
     home_call C 3 f [Prox 1 (Plain 27) (Plain 31); Plain 20] PyNone =
       (Returns (Prox 1 (Plain 23) (Plain 30)), Plain 27) /\
     home_call C 3 f [Plain 20; Plain 27] PyNone = (Returns (Plain 23), Plain 20)) /\
  (exists f, wraps home_attribute [Locating; Trusted] (App 1) PyNone = (Returns f, PyNone) /\
     home_call Py 3 f [Prox 1 (Plain 27) (Plain 31)] PyNone =
       (Returns (Prox 1 (Plain 29) (Plain 30)), PyNone)) /\
  wraps home_attribute [Untrusted; Trusted] (App 3) PyNone = (Raises "AttributeError"%string, PyNone).
Proof.
  split; [exact home_sane|]. split; [exact home_distinct|]. split; [exact home_orderly|].
  split. { constructor; [|constructor; [|constructor]].
           - split; [left; reflexivity|]. split; [right; split; [exact I | left; reflexivity] | exact I].
           - split; [right; split; [exact I | left; reflexivity]|].
             split; [right; split; [exact I | left; reflexivity] | exact I]. }
  split; [apply Exists_cons_hd; reflexivity|].
  split. { constructor; [right; split; [exact I | left; reflexivity]|].
           constructor; [right; split; [exact I | left; reflexivity] | constructor]. }
  split; [repeat constructor|].
  split. { eexists. split; [reflexivity|]. split; [repeat split|].
           split; [repeat constructor; discriminate|]. split; reflexivity. }
  split; [|reflexivity].
  eexists. split; reflexivity.
Qed.
