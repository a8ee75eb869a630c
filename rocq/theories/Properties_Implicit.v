(** C95: proxied classes, and proxies where the language does more than to call
    a method. *)

From Coq Require Import String List Arith Bool.
From Verif Require Import TypeTables TypeTablesSpec Implicit ImplicitSpec ImplicitFacts ImplicitWitness.
Import ListNotations.
Open Scope string_scope.

(** A proxied class is no argument for [isinstance], whatever its checker
    grants: TypeError, or the refusal to show [__bases__].  Nothing else is
    asked of the class, and nothing of the other object. *)
Theorem C95_isinstance : forall (W X : Type) (R : runtime W X), sane R ->
  no_bare_tuple R -> base_lacks R "__instancecheck__" ->
  forall b fuel x o c w,
    gives_up R (isinstance R b (S fuel) x (Prox o c) w) (read R b (Prox o c) "__bases__" w).
Proof. intros W X R HS HT HB b fuel x o c w. exact (isinstance_prox R HS b fuel x o c w HT HB). Qed.
Print Assumptions C95_isinstance.

(** In a tuple of classes it is never passed over: either a class before it
    fits, or the call fails. *)
Theorem C95_isinstance_tuple : forall (W X : Type) (R : runtime W X), sane R ->
  no_bare_tuple R -> base_lacks R "__instancecheck__" ->
  forall b fuel x t l1 o c l2 w r w',
    rt_type R t <> rt_metatype R -> type_of R x <> t ->
    as_tuple R (Plain t) = Some (l1 ++ Prox o c :: l2)%list ->
    isinstance R b (S fuel) x (Plain t) w = (Returns r, w') ->
    r = true /\ exists y w1, In y l1 /\ isinstance R b fuel x y w1 = (Returns true, w').
Proof.
  intros W X R HS HT HB b fuel x t l1 o c l2 w r w'.
  exact (isinstance_tuple_prox R HS b fuel x t l1 o c l2 w r w' HT HB).
Qed.
Print Assumptions C95_isinstance_tuple.

(** The builtin [isinstance(p, T)] of a proxy [p] knows nothing about the object
    behind it: it answers whether Proxy is a [T]. *)
Theorem C95_isinstance_of : forall (W X : Type) (R : runtime W X),
  no_bare_type R -> rt_sub R (rt_metatype R) (rt_metatype R) = true ->
  forall b fuel o c T w r w',
    rt_type R T = rt_metatype R -> T <> rt_proxy R ->
    isinstance R b (S fuel) (Prox o c) (Plain T) w = (Returns r, w') ->
    r = rt_sub R (rt_proxy R) T.
Proof.
  intros W X R HB HM b fuel o c T w r w' HT HE.
  exact (isinstance_of_prox R b fuel o c T w r w' HB HT HM HE).
Qed.
Print Assumptions C95_isinstance_of.

(** Nor for [issubclass], on either side. *)
Theorem C95_issubclass : forall (W X : Type) (R : runtime W X), sane R ->
  no_bare_tuple R ->
  forall b fuel o c w,
    (forall T, rt_type R T = rt_metatype R ->
       gives_up R (issubclass R b fuel (Prox o c) (Plain T) w) (read R b (Prox o c) "__bases__" w)) /\
    (forall x, base_lacks R "__subclasscheck__" -> fails (issubclass R b fuel x (Prox o c) w)).
Proof.
  intros W X R HS HT b fuel o c w. split.
  - intros T HM. exact (issubclass_prox R b fuel o c T w HT HM).
  - intros x HB. exact (issubclass_of_prox R HS b fuel x o c w HT HB).
Qed.
Print Assumptions C95_issubclass.

(** It cannot be caught, alone or in a tuple; neither it nor a proxied
    exception can be raised; and nothing at all happens before the TypeError. *)
Theorem C95_exceptions : forall (W X : Type) (R : runtime W X), sane R ->
  forall t l1 o c l2 w,
    except_clause R t (Prox o c) w = (Raises (rt_type_error R), w) /\
    (forall k, as_tuple R (Plain k) = Some (l1 ++ Prox o c :: l2)%list ->
       except_clause R t (Plain k) w = (Raises (rt_type_error R), w)) /\
    raise_statement R (Prox o c) w = (Raises (rt_type_error R), w).
Proof. intros W X R HS. exact (exceptions_prox R HS). Qed.
Print Assumptions C95_exceptions.

(** [super] does not lead past a proxied class, and for a proxied object not
    into the object's class. *)
Theorem C95_super : forall (W X : Type) (R : runtime W X) b o c w,
  (forall x, super_object R b (Prox o c) x w = (Raises (rt_type_error R), w)) /\
  (forall T t w', no_bare_type R ->
     super_object R b (Plain T) (Prox o c) w = (Returns t, w') ->
     t = rt_proxy R /\ rt_sub R (rt_proxy R) T = true).
Proof.
  intros W X R b o c w. split; [exact (fun x => super_prox R b o c x w)|].
  exact (fun T t w' HB => super_of_prox R b T o c w t w' HB).
Qed.
Print Assumptions C95_super.

(** A class statement with a proxied class among its bases makes no class,
    whatever the other bases and the statements in it do, with or without a
    metaclass. *)
Theorem C95_class : forall (W X : Type) (R : runtime W X), sane R ->
  no_bare_tuple R ->
  forall b body meta bases o c w,
    ordinary R meta -> guarded_entries R b (Prox o c) -> In (Prox o c) bases ->
    fails (class_statement R b body meta bases w).
Proof.
  intros W X R HS HT b body meta bases o c w. exact (class_prox R HS b body meta bases o c w HT).
Qed.
Print Assumptions C95_class.

(** Operations that need a special method which Proxy does not have fail before
    anything is asked, of checker or object. *)
Theorem C95_special : forall (W X : Type) (R : runtime W X) b n o c args body none w,
  In n needed -> base_lacks R n ->
  implicit R b n (Prox o c) args w = (Raises (rt_type_error R), w) /\
  (n = "__enter__" \/ n = "__exit__" ->
   with_statement R b body (Prox o c) none w = (Raises (rt_type_error R), w)).
Proof. intros W X R. exact (needed_prox R). Qed.
Print Assumptions C95_special.

(** The special methods of the two types are those of the tables of C87. *)
Theorem C95_own : forall base d n, well_named base -> ProxyPy_dict base = Some d ->
  (In n (own Py) <-> assoc d n <> None) /\ (In n (own C) <-> c_has n).
Proof. exact own_tables. Qed.
Print Assumptions C95_own.

(** [dir] of a proxied object shows no name, if the classes it gets to see do
    not show their dictionaries. *)
Theorem C95_dir : forall (W X : Type) (R : runtime W X) b D o c,
  discreet R b D -> no_bare_dict R ->
  (forall w y w', read R b (Prox o c) "__class__" w = (Returns y, w') -> D y) ->
  forall fuel w l w', dir R b fuel (Prox o c) w = (Returns l, w') -> l = [].
Proof. intros W X R. exact (dir_discreet R). Qed.
Print Assumptions C95_dir.

(** [format(p)] and ["{}".format(p)] show what [str(p)] shows, which is not the
    object's text if [__str__] is refused; the object's own [__format__] is never
    called, and a format specification is refused before anything is asked. *)
Theorem C95_format : forall (W X : Type) (R : runtime W X) b o c spec w,
  (spec <> "" -> format R b (Prox o c) spec w = (Raises (rt_type_error R), w)) /\
  format R b (Prox o c) "" w = str R b (Prox o c) w /\
  (forall e w', rt_check R c o "__str__" w = (Raises e, w') -> rt_is_type_error R e = false ->
     str R b (Prox o c) w = rt_cover R o w').
Proof. intros W X R. exact (format_prox R). Qed.
Print Assumptions C95_format.

(** C29, for clients that get around [__getattribute__] of Proxy: what
    [object.__getattribute__] and the descriptors in the type of C proxies give
    are special methods of the proxy, which ask, and things of the classes behind
    Proxy; it does not depend on what is inside the proxy. *)
Theorem C29_c_generic : forall (W X : Type) (R : runtime W X) o c n w v w',
  generic_getattr R C o c n w = (Returns v, w') ->
  w' = w /\
  ((v = Method n (Prox o c) /\ In n (own C)) \/ exists m, v = FromBase m /\ rt_base_slot R n = Some m) /\
  (forall o' c', exists v', generic_getattr R C o' c' n w = (Returns v', w') /\
     (v' = v \/ (v = Method n (Prox o c) /\ v' = Method n (Prox o' c')))).
Proof.
  intros W X R o c n w v w' H. split; [exact (proj1 (generic_c R o c n w v w' H))|].
  split; [exact (proj2 (generic_c R o c n w v w' H))|].
  exact (fun o' c' => generic_c_blind R o c o' c' n w v w' H).
Qed.
Print Assumptions C29_c_generic.

Theorem C29_c_members : forall base,
  proxy_type base "tp_members" = None /\ proxy_type base "tp_getset" = None /\ members C = [].
Proof. exact no_members. Qed.
Print Assumptions C29_c_members.

(** ** What is not so *)

(** "Nobody outside gets at [_wrapped] of a Python proxy": whatever the checker
    says, [object.__getattribute__] and the descriptors of the two slots give
    the object and the checker. *)
Theorem C29_py_generic_refuted :
  exists (R : runtime unit string) o c, sane R /\
    (forall n w, n <> "__bases__" -> n <> "__class__" -> n <> "__len__" -> n <> "__getitem__" ->
       rt_check R c o n w = (Raises "ForbiddenAttribute", w)) /\
    (forall w, generic_getattr R Py o c "_wrapped" w = (Returns (InSlot o), w)).
Proof. exact generic_false. Qed.
Print Assumptions C29_py_generic_refuted.

(** "Who is granted everything can format the object." *)
Theorem C95_format_refuted :
  exists (R : runtime unit string) k c spec, sane R /\
    (forall n w, rt_check R c (Plain k) n w = (Returns tt, w)) /\
    (forall b w, exists t, format R b (Plain k) spec w = (Returns t, w)) /\
    (forall b w, format R b (Prox (Plain k) c) spec w = (Raises (rt_type_error R), w)).
Proof. exact format_false. Qed.
Print Assumptions C95_format_refuted.

(** "Who is granted [__enter__] and [__exit__] can use the with statement." *)
Theorem C95_with_refuted :
  exists (R : runtime unit string) o c, sane R /\
    (forall n w, In n ["__enter__"; "__exit__"] -> rt_check R c o n w = (Returns tt, w)) /\
    (forall b body none w, body w = (Returns tt, w) -> exists y, with_statement R b body o none w = (Returns y, w)) /\
    (forall b body none w, with_statement R b body (Prox o c) none w = (Raises (rt_type_error R), w)).
Proof. exact with_false. Qed.
Print Assumptions C95_with_refuted.

(** "[dir] lists the names that can be read." *)
Theorem C95_dir_refuted :
  exists (R : runtime unit string) o c n, sane R /\
    (forall b w, exists v, read R b (Prox o c) n w = (Returns v, w)) /\
    (forall b fuel w, 2 <= fuel -> exists l, dir R b fuel o w = (Returns l, w) /\ In n l) /\
    (forall b fuel w, 2 <= fuel -> dir R b fuel (Prox o c) w = (Returns [], w)).
Proof. exact dir_false. Qed.
Print Assumptions C95_dir_refuted.

(** "A proxied class works like the class where everything is granted." *)
Theorem C95_isinstance_refuted :
  exists (R : runtime unit string) x T c, sane R /\
    (forall n w, rt_check R c (Plain T) n w = (Returns tt, w)) /\
    (forall b fuel w, isinstance R b (S fuel) x (Plain T) w = (Returns true, w)) /\
    (forall b fuel w, isinstance R b (S fuel) x (Prox (Plain T) c) w = (Raises (rt_type_error R), w)).
Proof. exact isinstance_false. Qed.
Print Assumptions C95_isinstance_refuted.

(** ** Examples *)

(** The hypotheses hold in the little process, and the classes it has work when
    they are not proxied. *)
Example C95_example :
  sane w_runtime /\ no_bare_tuple w_runtime /\ no_bare_dict w_runtime /\ no_bare_type w_runtime /\
  (forall n, base_lacks w_runtime n) /\
  (forall b, discreet w_runtime b w_discreet) /\
  (forall b w, read w_runtime b w_object "__class__" w = (Returns (Prox (Plain 4) (Plain 9)), w)) /\
  (forall b, guarded_entries w_runtime b w_class) /\ ordinary w_runtime (Some (Plain 0)).
Proof.
  split; [exact w_sane|]. split; [exact w_no_tuple|]. split; [exact w_no_dict|]. split; [exact w_no_type|].
  split; [intros n; reflexivity|]. split; [exact w_discreet_ok|].
  split; [intros b []; destruct b; reflexivity|]. split.
  - intros b [] f [] H. destruct b; cbn in H; discriminate.
  - exists 0. repeat split; reflexivity.
Qed.

Example C95_bare :
  forall b,
    isinstance w_runtime b 3 (Plain 5) (Plain 4) tt = (Returns true, tt) /\
    issubclass w_runtime b 3 (Plain 4) (Plain 3) tt = (Returns true, tt) /\
    except_clause w_runtime 12 (Plain 12) tt = (Returns true, tt) /\
    super_object w_runtime b (Plain 4) (Plain 5) tt = (Returns 4, tt) /\
    class_statement w_runtime b (give tt) None [Plain 4] tt = (Returns (Plain 18), tt) /\
    dir w_runtime b 3 (Plain 5) tt = (Returns ["attr"; "method"; "__init__"], tt) /\
    implicit w_runtime b "__await__" (Plain 5) [] tt = (Returns (Plain 5), tt).
Proof. destruct b; repeat split; reflexivity. Qed.

Example C95_proxied :
  forall b,
    isinstance w_runtime b 3 (Plain 5) w_class tt = (Raises "TypeError", tt) /\
    isinstance w_runtime b 3 (Plain 5) (Plain 13) tt = (Raises "TypeError", tt) /\
    isinstance w_runtime b 3 w_object (Plain 4) tt = (Returns false, tt) /\
    issubclass w_runtime b 3 w_class (Plain 3) tt = (Raises "TypeError", tt) /\
    except_clause w_runtime 12 (Plain 13) tt = (Raises "TypeError", tt) /\
    class_statement w_runtime b (give tt) None [w_class] tt = (Raises "TypeError", tt) /\
    class_statement w_runtime b (give tt) (Some (Plain 0)) [Plain 3; w_class] tt = (Raises "TypeError", tt) /\
    dir w_runtime b 3 w_object tt = (Returns [], tt).
Proof. destruct b; repeat split; reflexivity. Qed.

Example C95_format_case :
  forall b,
    format w_runtime b w_object "" tt = (Returns "the object", tt) /\
    format w_runtime b (Prox (Plain 5) (Plain 9)) "" tt = (Returns "<security proxied>", tt) /\
    format w_runtime b w_object ">10" tt = (Raises "TypeError", tt).
Proof. destruct b; repeat split; reflexivity. Qed.

Example C29_generic_case :
  generic_getattr w_runtime C (Plain 5) (Plain 8) "__len__" tt = (Returns (Method "__len__" w_object), tt) /\
  generic_getattr w_runtime C (Plain 5) (Plain 8) "_wrapped" tt = (Raises "AttributeError", tt).
Proof. split; reflexivity. Qed.
