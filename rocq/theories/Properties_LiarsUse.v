(** C96: decorators around, and trusted adapters of, objects that may lie about
    their class. *)

From Coq Require Import String List Arith Bool.
From Verif Require Import Liars LiarsSpec LiarsFacts LiarsWitness.
From Verif Require Import LiarsUse LiarsUseSpec LiarsUseFacts LiarsUseWitness.
Import ListNotations.

(** ** Decorators *)

(** The checker of a decorator around a proxy is the checker of the proxy, or
    the combination of the decorator's with it.  The proxied object is not
    asked for anything. *)
Theorem C96_proxied : forall (W X : Type) (R : runtime W X), sane R ->
  forall combine name_of no_attribute b fuel inst t o c w,
    below R t (rt_proxy R) -> c <> PyNone ->
    (forall w2, select R b fuel inst w = (Returns None, w2) ->
       decorated R combine name_of no_attribute b fuel inst (Prox t o c) w = (Returns c, w2)) /\
    (forall d w2, select R b fuel inst w = (Returns (Some d), w2) -> d <> PyNone ->
       decorated R combine name_of no_attribute b fuel inst (Prox t o c) w = combine d c w2) /\
    (forall e w2, select R b fuel inst w = (Raises e, w2) ->
       decorated R combine name_of no_attribute b fuel inst (Prox t o c) w = (Raises e, w2)).
Proof. intros W X R HS. exact (deco_proxied R HS). Qed.
Print Assumptions C96_proxied.

(** Around any other object: if the factory would protect that object with a
    checker [c], the decorator's checker is made with [c]. *)
Theorem C96_protected : forall (W X : Type) (R : runtime W X),
  forall combine name_of no_attribute b fuel inst inner w t c w1, not_a_proxy inner ->
    ProxyFactory R b fuel inner None w = (Returns (Prox t inner c), w1) ->
    (forall w2, select R b fuel inst w1 = (Returns None, w2) ->
       decorated R combine name_of no_attribute b fuel inst inner w = (Returns c, w2)) /\
    (forall d w2, select R b fuel inst w1 = (Returns (Some d), w2) -> d <> PyNone ->
       decorated R combine name_of no_attribute b fuel inst inner w = combine d c w2) /\
    (forall e w2, select R b fuel inst w1 = (Raises e, w2) ->
       decorated R combine name_of no_attribute b fuel inst inner w = (Raises e, w2)).
Proof. intros W X R. exact (deco_protected R). Qed.
Print Assumptions C96_protected.

(** If the factory would leave the object bare, and not because the object says
    that it is a Proxy, the decorator has its own checker, or none; asking for
    none is an AttributeError, provided that the class and its name can be had
    for the message. *)
Theorem C96_left : forall (W X : Type) (R : runtime W X), sane R ->
  forall combine name_of no_attribute b fuel inst inner w w1, not_a_proxy inner ->
    ~ says R inner (rt_proxy R) w w1 ->
    ProxyFactory R b fuel inner None w = (Returns inner, w1) ->
    (forall d w2, select R b fuel inst w1 = (Returns (Some d), w2) -> d <> PyNone ->
       decorated R combine name_of no_attribute b fuel inst inner w = (Returns d, w2)) /\
    (forall e w2, select R b fuel inst w1 = (Raises e, w2) ->
       decorated R combine name_of no_attribute b fuel inst inner w = (Raises e, w2)) /\
    (forall w2, select R b fuel inst w1 = (Returns None, w2) ->
       (forall e w3, rt_class R inner w2 = (Raises e, w3) ->
          decorated R combine name_of no_attribute b fuel inst inner w = (Raises e, w3)) /\
       (forall k w3, rt_class R inner w2 = (Returns k, w3) ->
          (forall e w4, name_of k w3 = (Raises e, w4) ->
             decorated R combine name_of no_attribute b fuel inst inner w = (Raises e, w4)) /\
          (forall w4, name_of k w3 = (Returns tt, w4) ->
             decorated R combine name_of no_attribute b fuel inst inner w =
               (Raises no_attribute, w4)))).
Proof. intros W X R HS. exact (deco_left R HS). Qed.
Print Assumptions C96_left.

(** If the factory would fail, so does the decorator (the ValueError is that of
    proxies without checker). *)
Theorem C96_fails : forall (W X : Type) (R : runtime W X),
  forall combine name_of no_attribute b fuel inst inner w e w1, e <> rt_value_error R ->
    ProxyFactory R b fuel inner None w = (Raises e, w1) ->
    decorated R combine name_of no_attribute b fuel inst inner w = (Raises e, w1).
Proof. intros W X R. exact (deco_fails R). Qed.
Print Assumptions C96_fails.

(** An object that says that it is a Proxy: a decorator around it has no checker
    in the C build but raises TypeError; in the Python build the object chooses
    the checker. *)
Theorem C96_liar : forall (W X : Type) (R : runtime W X), sane R ->
  forall combine name_of no_attribute,
  (forall fuel inst inner w w1, not_a_proxy inner -> says R inner (rt_proxy R) w w1 ->
     decorated R combine name_of no_attribute C fuel inst inner w = (Raises (rt_type_error R), w1)) /\
  (forall fuel inst inner w w1 k t w2 c w3 w4, not_a_proxy inner ->
     says R inner (rt_proxy R) w w1 ->
     rt_class R inner w1 = (Returns k, w2) -> rt_as_type R k = Some t -> below R t (rt_proxy R) ->
     rt_base_get R t inner "_checker" w2 = (Returns c, w3) -> c <> PyNone ->
     select R Py fuel inst w3 = (Returns None, w4) ->
     decorated R combine name_of no_attribute Py fuel inst inner w = (Returns c, w4)).
Proof.
  intros W X R HS combine name_of no_attribute.
  split; [exact (deco_liar_c R HS combine name_of no_attribute)
         | exact (deco_liar_py R HS combine name_of no_attribute)].
Qed.
Print Assumptions C96_liar.

(** A decorator around a proxy stays guarded by the checker of that proxy when
    it goes through the factory or comes out of an operation on another proxy;
    unless the decorator says it is a Proxy, or selecting a checker for its type
    failed (with AttributeError, in the factory and the Python build). *)
Theorem C96_guarded : forall (W X : Type) (R : runtime W X), sane R ->
  forall combine name_of no_attribute b fuel inst t o c w y w',
    not_a_proxy inst -> below R t (rt_proxy R) -> c <> PyNone -> combines combine ->
    (forall w0, rt_security_checker R inst w0 =
                decorated R combine name_of no_attribute b fuel inst (Prox t o c) w0) ->
    (ProxyFactory R b fuel inst None w = (Returns y, w') ->
     still_guarded R combine inst c y \/
     (y = inst /\ says R inst (rt_proxy R) w w') \/
     (exists w1 e w2, select R b fuel inst w1 = (Raises e, w2) /\ rt_attribute_error R e = true)) /\
    (proxy R b fuel inst w = (Returns y, w') ->
     still_guarded R combine inst c y \/
     (b = Py /\ y = inst /\ says R inst (rt_proxy R) w w') \/
     (exists w1 e w2, select R b fuel inst w1 = (Raises e, w2) /\
                      (b = Py -> rt_attribute_error R e = true))).
Proof.
  intros W X R HS combine name_of no_attribute b fuel inst t o c w y w' H1 H2 H3 H4 H5.
  split; [exact (guarded_factory R HS combine name_of no_attribute b fuel inst t o c w y w' H1 H2 H3 H4 H5)
         | exact (guarded_results R HS combine name_of no_attribute b fuel inst t o c w y w' H1 H2 H3 H4 H5)].
Qed.
Print Assumptions C96_guarded.

(** ** Trusted adapters *)

(** If one of the arguments is a proxy, the inner factory gets the objects
    behind all of them, and its result goes through ProxyFactory. *)
Theorem C96_adapts : forall (W X : Type) (R : runtime W X), sane R ->
  forall index_error factory customize b fuel x args w, distinct R ->
    Forall (honest R b) (x :: args) -> Exists (a_proxy R) (x :: args) ->
    (forall e w1, factory (map bare (x :: args)) w = (Raises e, w1) ->
       trusted_call R index_error factory customize b fuel (x :: args) w = (Raises e, w1)) /\
    (forall a w1, factory (map bare (x :: args)) w = (Returns a, w1) ->
       (forall e w2, customize true a (bare x) w1 = (Raises e, w2) ->
          trusted_call R index_error factory customize b fuel (x :: args) w = (Raises e, w2)) /\
       (forall a' w2, customize true a (bare x) w1 = (Returns a', w2) ->
          trusted_call R index_error factory customize b fuel (x :: args) w =
            ProxyFactory R b fuel a' None w2)).
Proof. intros W X R HS index_error. exact (adapt_proxied R HS index_error). Qed.
Print Assumptions C96_adapts.

(** If none is, it gets the arguments as they are, and the adapter goes without
    a proxy. *)
Theorem C96_adapts_bare : forall (W X : Type) (R : runtime W X), sane R ->
  forall index_error factory customize b fuel x args w, distinct R ->
    Forall (honest R b) (x :: args) -> Forall not_a_proxy (x :: args) ->
    (forall e w1, factory (x :: args) w = (Raises e, w1) ->
       trusted_call R index_error factory customize b fuel (x :: args) w = (Raises e, w1)) /\
    (forall a w1, factory (x :: args) w = (Returns a, w1) ->
       trusted_call R index_error factory customize b fuel (x :: args) w = customize false a x w1).
Proof. intros W X R HS index_error. exact (adapt_bare R HS index_error). Qed.
Print Assumptions C96_adapts_bare.

(** ** What is not so *)

(** "A trusted adapter adapts the object it is given": in the Python build an
    object that says it is a Proxy has another one adapted in its place. *)
Theorem C96_adapted_refuted :
  exists (R : runtime unit string) (x y : obj), sane R /\ distinct R /\ not_a_proxy x /\ y <> x /\
    (forall b fuel w,
       trusted_call R "IndexError" (fun args => give (hd PyNone args)) (fun _ a _ => give a) b (S fuel) [x] w =
         match b with
         | Py => (Returns (Prox (rt_proxy R) y (rt_default R)), w)
         | C => (Returns x, w)
         end).
Proof. exact adapted_false. Qed.
Print Assumptions C96_adapted_refuted.

(** "Without any checker, asking a decorator for its checker is an
    AttributeError": another exception, if the name of the class cannot be read. *)
Theorem C96_missing_refuted :
  exists (R : runtime unit string) (inst inner : obj) name_of,
    sane R /\ not_a_proxy inner /\ truthful R inner (rt_proxy R) /\
    (forall b fuel w, ProxyFactory R b fuel inner None w = (Returns inner, w)) /\
    (forall b fuel w, select R b fuel inst w = (Returns None, w)) /\
    rt_attribute_error R "KeyError" = false /\
    (forall b fuel w, decorated R demo_combine name_of "AttributeError" b fuel inst inner w =
                      (Raises "KeyError", w))%string.
Proof. exact missing_false. Qed.
Print Assumptions C96_missing_refuted.

(** "Both builds give a decorator the same checker": not around an object that
    says it is a Proxy. *)
Theorem C96_chosen_refuted :
  exists (R : runtime unit string) (inst inner c : obj),
    sane R /\ not_a_proxy inner /\ ~ below R (type_of R inner) (rt_proxy R) /\
    (forall w, security_checker R inner w = (Returns PyNone, w)) /\
    (forall fuel w, decorated R demo_combine (demo_name false) "AttributeError" Py fuel inst inner w =
                    (Returns c, w)) /\
    (forall fuel w, decorated R demo_combine (demo_name false) "AttributeError" C fuel inst inner w =
                    (Raises (rt_type_error R), w)).
Proof. exact chosen_false. Qed.
Print Assumptions C96_chosen_refuted.

(** ** Cases *)

(** The hypotheses of C96_proxied and C96_guarded: the decorator 28. *)
Example C96_guarded_case :
  sane (use false) /\ not_a_proxy (Plain 28) /\ below (use false) 1 (rt_proxy (use false)) /\
  combines demo_combine /\
  (forall b fuel w, rt_security_checker (use false) (Plain 28) w =
     decorated (use false) demo_combine (demo_name false) "AttributeError" b (S fuel)
       (Plain 28) (Prox 1 (Plain 23) (Plain 31)) w) /\
  (forall b, proxy (use false) b 3 (Plain 28) tt = (Returns (Prox 1 (Plain 28) (Plain 111)), tt)) /\
  still_guarded (use false) demo_combine (Plain 28) (Plain 31) (Prox 1 (Plain 28) (Plain 111)) /\
  (forall b, proxy (use true) b 3 (Plain 28) tt = (Returns (Prox 1 (Plain 28) (Plain 31)), tt)).
Proof.
  split; [apply use_sane|]. split; [exact I|]. split; [reflexivity|].
  split; [exact demo_combines|].
  split; [intros [|] fuel w; reflexivity|]. split; [intros [|]; reflexivity|].
  split; [|intros [|]; reflexivity].
  exists (Plain 111). split; [reflexivity|]. right. exists (Plain 30), tt, tt. reflexivity.
Qed.

(** The hypotheses of C96_protected, C96_left, C96_fails and C96_liar. *)
Example C96_cases :
  ProxyFactory (use false) C 3 (Plain 23) None tt = (Returns (Prox 1 (Plain 23) (Plain 30)), tt) /\
  decorated (use false) demo_combine (demo_name false) "AttributeError" C 3 (Plain 29) (Plain 23) tt =
    (Returns (Plain 110), tt) /\
  ProxyFactory (use true) Py 3 (Plain 23) None tt = (Returns (Plain 23), tt) /\
  ~ says (use true) (Plain 23) (rt_proxy (use true)) tt tt /\
  decorated (use true) demo_combine (demo_name false) "AttributeError" Py 3 (Plain 29) (Plain 23) tt =
    (Raises "AttributeError"%string, tt) /\
  ProxyFactory (use false) Py 3 (Plain 22) None tt = (Raises "KeyError"%string, tt) /\
  says (use false) (Plain 20) (rt_proxy (use false)) tt tt /\
  rt_base_get (use false) 1 (Plain 20) "_checker" tt = (Returns (Plain 24), tt).
Proof.
  repeat split.
  - apply truthful_says. exact (proj1 demo_truthful).
  - exists (Plain 1), 1. repeat split.
Qed.

(** The hypotheses of C96_adapts and C96_adapts_bare: a truthful object and a
    proxy; with the C extension also a liar. *)
Example C96_adapts_case :
  sane (use false) /\ distinct (use false) /\
  Forall (honest (use false) Py) [Plain 23; Prox 1 (Plain 27) (Plain 31)] /\
  Exists (a_proxy (use false)) [Plain 23; Prox 1 (Plain 27) (Plain 31)] /\
  Forall (honest (use false) C) [Plain 20; Plain 23] /\
  Forall not_a_proxy [Plain 20; Plain 23] /\
  trusted_call (use false) "IndexError" demo_factory demo_customize Py 3
    [Prox 1 (Plain 27) (Plain 31); Plain 23] tt = (Returns (Prox 1 (Plain 27) (Plain 31)), tt) /\
  trusted_call (use false) "IndexError" demo_factory demo_customize C 3
    [Plain 20; Plain 23] tt = (Returns (Plain 20), tt).
Proof.
  split; [apply use_sane|]. split; [apply use_distinct|].
  split. { constructor; [right; split; [exact I | right; exact (proj1 demo_truthful)]|].
           constructor; [left; reflexivity | constructor]. }
  split. { apply Exists_cons_tl. apply Exists_cons_hd. reflexivity. }
  split. { constructor; [right; split; [exact I | left; reflexivity]|].
           constructor; [right; split; [exact I | left; reflexivity] | constructor]. }
  split; [repeat constructor|]. split; reflexivity.
Qed.
