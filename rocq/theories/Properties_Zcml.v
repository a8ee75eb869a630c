(** * Properties C46-C51, C61, C62: configuration files. *)

From Coq Require Import List String Bool Arith ZArith Lia Permutation.
From Verif Require Import Base Domain CheckerModel ProxyModel Spec RegSpec Witness Management
  Protect ProtectSpec Zcml ZcmlSpec ZcmlFacts ZcmlProps.
Import ListNotations.
Open Scope string_scope.

(** A world with one registered permission and an empty registry. *)
Definition z_world : world := mkWorld w_state [("zope.View", "View")] [].

Definition IBook : iface :=
  mkIface "app.IBook" [("title", Some false); ("isbn", Some true); ("read", None)].

(** A file that uses a permission before defining it. *)
Definition book_file : list directive :=
  [ ZClass (KType "app.Book")
      [ CRequire (Some "app.Edit") [] [] None ["shelf"] [IBook];
        CRequire (Some "zope.View") ["pages"] [IBook] None [] [];
        CAllow ["color"] [] ];
    ZPermission "app.Edit" "Edit";
    ZModule (KMod "app.util") [MRequire "zope.View" ["a"; "b"; "a"] [IBook]] ].

Lemma z_loadable ds :
  (forall i, In i (ifaces ds) -> iface_wf i) ->
  (forall k, In k (touched ds) -> is_class_or_module k) -> loadable ds z_world.
Proof.
  intros Hi Hk. split; [|exact Hi]. split; [intros k i H; discriminate|]. split.
  - intros k H. split; [exact (Hk k H)|]. split; [left; reflexivity|].
    intros i c [H1 _]. discriminate.
  - intros k H. left. reflexivity.
Qed.

Lemma book_wf : iface_wf IBook.
Proof. unfold iface_wf. simpl. repeat constructor; simpl; intuition discriminate. Qed.

Lemma book_loadable : loadable book_file z_world.
Proof.
  apply z_loadable.
  - simpl. intros i H. repeat (destruct H as [<-|H]; [exact book_wf|]). contradiction.
  - simpl. intros k [<-|[<-|[]]]; exact I.
Qed.

(** ** C46 *)

Theorem C46_require :
  forall E cls p a i like sa ss w w',
    let ds := [ZClass (KType cls) [CRequire (Some p) a i like sa ss]] in
    loadable ds w -> configure E ds w = (Ok tt, w') ->
    (forall n, (In n a \/ exists j, In j i /\ In n (map fst (if_names j))) ->
       read_protection (w_core w') (KType cls) n = Some (protect_by p)) /\
    (forall n, ~ (In n a \/ exists j, In j i /\ In n (map fst (if_names j))) ->
       read_protection (w_core w') (KType cls) n =
       match like with
       | Some l => match read_protection (w_core w) l n with
                   | Some q => Some q
                   | None => read_protection (w_core w) (KType cls) n
                   end
       | None => read_protection (w_core w) (KType cls) n
       end) /\
    (forall n, (In n sa \/ exists j, In j ss /\ In (n, Some false) (if_names j)) ->
       write_protection (w_core w') (KType cls) n = Some (protect_by p)) /\
    (forall n, ~ (In n sa \/ exists j, In j ss /\ In (n, Some false) (if_names j)) ->
       write_protection (w_core w') (KType cls) n =
       match like with
       | Some l => match write_protection (w_core w) l n with
                   | Some q => Some q
                   | None => write_protection (w_core w) (KType cls) n
                   end
       | None => write_protection (w_core w) (KType cls) n
       end) /\
    (forall k n, k <> KType cls ->
       read_protection (w_core w') k n = read_protection (w_core w) k n /\
       write_protection (w_core w') k n = write_protection (w_core w) k n).
Proof. exact require_lemma. Qed.
Print Assumptions C46_require.

Theorem C46_allow :
  forall E cls a i w w',
    let ds := [ZClass (KType cls) [CAllow a i]] in
    loadable ds w -> configure E ds w = (Ok tt, w') ->
    (forall n, (In n a \/ exists j, In j i /\ In n (map fst (if_names j))) ->
       read_protection (w_core w') (KType cls) n = Some PPublic) /\
    (forall n, ~ (In n a \/ exists j, In j i /\ In n (map fst (if_names j))) ->
       read_protection (w_core w') (KType cls) n = read_protection (w_core w) (KType cls) n) /\
    (forall k n, write_protection (w_core w') k n = write_protection (w_core w) k n) /\
    (forall k n, k <> KType cls ->
       read_protection (w_core w') k n = read_protection (w_core w) k n).
Proof. exact allow_lemma. Qed.
Print Assumptions C46_allow.

(** Whole files: what the world is after a file has been loaded, for files of any
    length and content. *)
Theorem C46_file :
  forall E ds w w',
    loadable ds w -> configure E ds w = (Ok tt, w') -> loaded E ds w w'.
Proof. exact load_effect_lemma. Qed.
Print Assumptions C46_file.

(** ... and the tables of the file are what checks of instances follow. *)
Theorem C46_enforced :
  forall E ds w w' cls obj,
    loadable ds w -> configure E ds w = (Ok tt, w') -> e_watch E = 0 ->
    dget rkey_eqb (st_reg (w_core w)) (KType cls) = None ->
    let R := file_reads literal ds (read_protection (w_core w)) (KType cls) in
    let W := file_writes literal ds (write_protection (w_core w)) (KType cls) in
    (exists n, R n <> None \/ W n <> None) -> no_none R -> no_none W ->
    exists c,
      (concrete_type E (w_core w') obj = cls ->
       forall f, do_select E (S f) obj (w_core w') = (Ok (Some c), w_core w', [])) /\
      reads_checked E (w_core w') R c obj /\ writes_checked E (w_core w') W c obj.
Proof. exact class_enforced_lemma. Qed.
Print Assumptions C46_enforced.

Example C46_example :
  loadable book_file z_world /\
  let w' := snd (configure (wenv ImplPy) book_file z_world) in
  configure (wenv ImplPy) book_file z_world = (Ok tt, w') /\
  read_protection (w_core w') (KType "app.Book") "isbn" = Some (PId 0 "zope.View") /\
  read_protection (w_core w') (KType "app.Book") "color" = Some PPublic /\
  read_protection (w_core w') (KType "app.Book") "shelf" = None /\
  write_protection (w_core w') (KType "app.Book") "title" = Some (PId 0 "app.Edit") /\
  write_protection (w_core w') (KType "app.Book") "isbn" = None /\
  write_protection (w_core w') (KType "app.Book") "read" = None /\
  read_protection (w_core w') (KMod "app.util") "a" = Some (PId 0 "zope.View").
Proof.
  split; [exact book_loadable|]. vm_compute. repeat split.
Qed.

(** ** C47 *)

Theorem C47_nothing_required :
  forall k p c,
    exists c', process_csub k (CRequire p [] [] None [] []) c =
               (Exc (EConfiguration "Nothing required"), c') /\
               protections c' = protections c.
Proof. exact nothing_lemma. Qed.
Print Assumptions C47_nothing_required.

Theorem C47_no_permission :
  forall k a i like sa ss c,
    (a <> [] \/ i <> [] \/ sa <> [] \/ ss <> []) ->
    exists c', process_csub k (CRequire None a i like sa ss) c =
               (Exc (EConfiguration "No permission specified"), c') /\
      protections c' = (protections c ++ match like with Some l => [ALike k l] | None => [] end)%list.
Proof. exact no_permission_lemma. Qed.
Print Assumptions C47_no_permission.

Theorem C47_like_class_alone :
  forall k p l c,
    exists c', process_csub k (CRequire p [] [] (Some l) [] []) c = (Ok tt, c') /\
      protections c' = (protections c ++ [ALike k l])%list.
Proof. exact like_only_lemma. Qed.
Print Assumptions C47_like_class_alone.

(** One such declaration anywhere and the file has no effect at all. *)
Theorem C47_file :
  forall E ds w cls subs a i like sa ss,
    loadable ds w -> In (ZClass (KType cls) subs) ds ->
    In (CRequire None a i like sa ss) subs ->
    (like = None \/ a <> [] \/ i <> [] \/ sa <> [] \/ ss <> []) ->
    exists e, configure E ds w = (Exc e, w).
Proof. exact bad_file_lemma. Qed.
Print Assumptions C47_file.

Example C47_example :
  configure (wenv ImplPy)
    [ZClass (KType "A") [CAllow ["x"] []];
     ZClass (KType "B") [CRequire None ["y"] [] (Some (KType "A")) [] []]] z_world =
  (Exc (EConfiguration "No permission specified"), z_world).
Proof. vm_compute. reflexivity. Qed.

(** ** C48 *)

Theorem C48_require :
  forall E m p a i w w',
    let ds := [ZModule (KMod m) [MRequire p a i]] in
    loadable ds w -> configure E ds w = (Ok tt, w') ->
    (forall n, (In n a \/ exists j, In j i /\ In n (map fst (if_names j))) ->
       read_protection (w_core w') (KMod m) n = Some (protect_by p)) /\
    (forall n, ~ (In n a \/ exists j, In j i /\ In n (map fst (if_names j))) ->
       read_protection (w_core w') (KMod m) n = read_protection (w_core w) (KMod m) n) /\
    (forall k n, write_protection (w_core w') k n = write_protection (w_core w) k n) /\
    (forall k n, k <> KMod m ->
       read_protection (w_core w') k n = read_protection (w_core w) k n).
Proof. exact module_lemma. Qed.
Print Assumptions C48_require.

Theorem C48_allow :
  forall E m a i w w',
    let ds := [ZModule (KMod m) [MAllow a i]] in
    loadable ds w -> configure E ds w = (Ok tt, w') ->
    (forall n, (In n a \/ exists j, In j i /\ In n (map fst (if_names j))) ->
       read_protection (w_core w') (KMod m) n = Some PPublic) /\
    (forall n, ~ (In n a \/ exists j, In j i /\ In n (map fst (if_names j))) ->
       read_protection (w_core w') (KMod m) n = read_protection (w_core w) (KMod m) n) /\
    (forall k n, write_protection (w_core w') k n = write_protection (w_core w) k n) /\
    (forall k n, k <> KMod m ->
       read_protection (w_core w') k n = read_protection (w_core w) k n).
Proof. exact module_allow_lemma. Qed.
Print Assumptions C48_allow.

(** Each name gets one action: repeating names is no conflict. *)
Theorem C48_repetition :
  forall E m p a i w,
    loadable [ZModule (KMod m) [MRequire p a i]] w ->
    (p = "zope.Public" \/ In p (map fst (w_perms w))) ->
    exists w', configure E [ZModule (KMod m) [MRequire p a i]] w = (Ok tt, w').
Proof. exact module_accepted_lemma. Qed.
Print Assumptions C48_repetition.

Theorem C48_each_once :
  forall a i,
    NoDup (names a i) /\
    forall n, In n (names a i) <-> In n a \/ exists j, In j i /\ In n (map fst (if_names j)).
Proof. exact names_once_lemma. Qed.
Print Assumptions C48_each_once.

(** Modules are checked accordingly. *)
Theorem C48_enforced :
  forall E ds w w' m,
    loadable ds w -> configure E ds w = (Ok tt, w') -> e_watch E = 0 ->
    dget rkey_eqb (st_reg (w_core w)) (KMod m) = None ->
    dget rkey_eqb (st_reg (w_core w)) (KType "module") = Some VModFun ->
    ~ In (KType "module") (touched ds) ->
    let R := file_reads literal ds (read_protection (w_core w)) (KMod m) in
    let W := file_writes literal ds (write_protection (w_core w)) (KMod m) in
    (exists n, R n <> None) -> no_none R -> no_none W ->
    exists c,
      (forall f, do_select E (S (S f)) (VMod m) (w_core w') = (Ok (Some c), w_core w', [])) /\
      reads_checked E (w_core w') R c (VMod m) /\ writes_checked E (w_core w') W c (VMod m).
Proof. exact module_enforced_lemma. Qed.
Print Assumptions C48_enforced.

Definition mod_world : world :=
  mkWorld (set_reg [(KType "module", VModFun)] w_state) [("zope.View", "View")] [].
Definition mod_file : list directive :=
  [ZModule (KMod "app.util") [MRequire "zope.View" ["a"; "b"; "a"] [IBook]; MAllow ["c"] []]].

Example C48_example :
  let w' := snd (configure (wenv ImplC) mod_file mod_world) in
  configure (wenv ImplC) mod_file mod_world = (Ok tt, w') /\
  do_select (wenv ImplC) 3 (VMod "app.util") (w_core w') = (Ok (Some (VChk 52)), w_core w', []) /\
  fst (fst (do_check (wenv ImplC) 3 MGetattr (VChk 52) (VMod "app.util") "c" (w_core w'))) = Ok tt /\
  fst (fst (do_check (wenv ImplC) 3 MGetattr (VChk 52) (VMod "app.util") "d" (w_core w'))) =
    Exc (EForbidden "d" (VMod "app.util")).
Proof. vm_compute. repeat split. Qed.

(** ** C49 *)

(** A well-formed file is rejected as conflicting exactly if two of its declarations
    claim the same thing; then nothing has been changed. *)
Theorem C49_conflict_iff :
  forall E ds w,
    loadable ds w -> well_formed literal ds ->
    (configure E ds w = (Exc (EConfiguration "conflict"), w) <-> ~ NoDup (claims ds)).
Proof. exact conflict_lemma. Qed.
Print Assumptions C49_conflict_iff.

Theorem C49_same_class_and_name :
  forall E w l1 l2 l3 k subs1 subs2 s1 s2 n,
    let ds := (l1 ++ ZClass k subs1 :: l2 ++ ZClass k subs2 :: l3)%list in
    loadable ds w -> well_formed literal ds ->
    In s1 subs1 -> In s2 subs2 ->
    (In (ClRead k n) (csub_claims k s1) /\ In (ClRead k n) (csub_claims k s2)) \/
    (In (ClWrite k n) (csub_claims k s1) /\ In (ClWrite k n) (csub_claims k s2)) ->
    configure E ds w = (Exc (EConfiguration "conflict"), w).
Proof. exact two_classes_conflict. Qed.
Print Assumptions C49_same_class_and_name.

(** like_class declarations never conflict, even if repeated. *)
Theorem C49_like_class :
  forall ds, (forall d, In d ds -> only_likes d) -> claims ds = [].
Proof. exact likes_free. Qed.
Print Assumptions C49_like_class.

(** The discriminators themselves. *)
Theorem C49_discriminators :
  forall a b, discr_eqb a b = true <-> a = b.
Proof. exact discr_eqb_lemma. Qed.
Print Assumptions C49_discriminators.

(** A single <require> conflicts with itself exactly if it mentions a name twice, for
    instance in its attributes and in an interface, or in two interfaces with a common
    base; a module <require> never does (C48_repetition). *)
Theorem C49_self_conflict :
  forall E cls p a i like sa ss w,
    let ds := [ZClass (KType cls) [CRequire (Some p) a i like sa ss]] in
    loadable ds w -> p <> "" ->
    (a <> [] \/ i <> [] \/ sa <> [] \/ ss <> []) ->
    (configure E ds w = (Exc (EConfiguration "conflict"), w) <->
     ~ (NoDup (read_names a i) /\ NoDup (write_names sa ss))).
Proof. exact self_conflict_lemma. Qed.
Print Assumptions C49_self_conflict.

(** <module module="pkg.Class"> declares protection of the class too (defineChecker
    accepts classes), and is not recognised as conflicting with <class>. *)
Theorem C49_module_of_class_refuted :
  exists E w w' n,
    let ds := [ZClass (KType "app.A") [CRequire (Some "zope.View") [n] [] None [] []];
               ZModule (KType "app.A") [MAllow [n] []]] in
    loadable ds w /\ configure E ds w = (Ok tt, w') /\
    read_protection (w_core w') (KType "app.A") n = Some PPublic.
Proof.
  exists (wenv ImplPy), z_world.
  exists (snd (configure (wenv ImplPy)
    [ZClass (KType "app.A") [CRequire (Some "zope.View") ["secret"] [] None [] []];
     ZModule (KType "app.A") [MAllow ["secret"] []]] z_world)), "secret".
  cbv zeta. split; [|split; vm_compute; reflexivity].
  apply z_loadable; simpl; [intros i []|]. intros k [<-|[<-|[]]]; exact I.
Qed.
Print Assumptions C49_module_of_class_refuted.

Example C49_example :
  NoDup (claims book_file) /\
  configure (wenv ImplPy)
    (book_file ++ [ZClass (KType "app.Book") [CAllow ["pages"] []]])%list z_world =
  (Exc (EConfiguration "conflict"), z_world) /\
  configure (wenv ImplPy)
    [ZClass (KType "app.Book") [CRequire (Some "zope.View") ["title"] [IBook] None [] []]] z_world =
  (Exc (EConfiguration "conflict"), z_world).
Proof.
  split.
  - unfold claims. simpl. repeat constructor; simpl; intuition discriminate.
  - split; vm_compute; reflexivity.
Qed.

(** ** C50 *)

(** A field read after the directives [ds] yields what the redefinitions in [ds] say. *)
Theorem C50_field :
  forall ds t c,
    (forall i, In i (ifaces ds) -> iface_wf i) ->
    process ds empty_ctx = (Ok tt, c) ->
    exists c', Permission_fromUnicode t c = (Ok (meaning_after literal ds t), c').
Proof. exact field_meaning_lemma. Qed.
Print Assumptions C50_field.

(** Redefining A, where neither A nor B has been redefined: A means B, the others mean
    what they did; in particular ids that mean A keep meaning A. *)
Theorem C50_fresh :
  forall ds A B t,
    meaning_after literal ds A = A -> meaning_after literal ds B = B ->
    meaning_after literal (ds ++ [ZRedefine A B]) t =
    if String.eqb t A then B else meaning_after literal ds t.
Proof. exact fresh_redefine_lemma. Qed.
Print Assumptions C50_fresh.

Theorem C50_general :
  forall ds A B t,
    meaning_after literal (ds ++ [ZRedefine A B]) t =
    if String.eqb t (meaning_after literal ds A) then meaning_after literal ds B
    else meaning_after literal ds t.
Proof. exact redefine_general_lemma. Qed.
Print Assumptions C50_general.

Theorem C50_others :
  forall ds t,
    (forall A B, In (ZRedefine A B) ds -> A <> t /\ B <> t) -> meaning_after literal ds t = t.
Proof. exact not_redefined_lemma. Qed.
Print Assumptions C50_others.

(** Redefining A a second time does not change what A means, but what B means. *)
Theorem C50_second_redefinition_refuted :
  exists ds A B C,
    meaning_after literal (ds ++ [ZRedefine A C]) A = B /\ B <> C /\
    meaning_after literal ds B = B /\
    meaning_after literal (ds ++ [ZRedefine A C]) B = C.
Proof.
  exists [ZRedefine "a" "b"], "a", "b", "c". repeat split; try reflexivity. discriminate.
Qed.
Print Assumptions C50_second_redefinition_refuted.

(** Redefining zope.Public changes <require permission="zope.Public">, not <allow>. *)
Theorem C50_public :
  exists E w w',
    let ds := [ZRedefine "zope.Public" "zope.View";
               ZClass (KType "A") [CRequire (Some "zope.Public") ["x"] [] None [] [];
                                   CAllow ["y"] []]] in
    loadable ds w /\ configure E ds w = (Ok tt, w') /\
    read_protection (w_core w') (KType "A") "x" = Some (PId 0 "zope.View") /\
    read_protection (w_core w') (KType "A") "y" = Some PPublic.
Proof.
  exists (wenv ImplPy), z_world.
  exists (snd (configure (wenv ImplPy)
     [ZRedefine "zope.Public" "zope.View";
      ZClass (KType "A") [CRequire (Some "zope.Public") ["x"] [] None [] []; CAllow ["y"] []]]
     z_world)).
  cbv zeta. split; [|split; [|split]; vm_compute; reflexivity].
  apply z_loadable; simpl; [intros i []|]. intros k [<-|[]]; exact I.
Qed.
Print Assumptions C50_public.

Example C50_example :
  let ds := [ZRedefine "a" "b"; ZRedefine "b" "c"] in
  meaning_after literal ds "a" = "b" /\ meaning_after literal ds "b" = "c" /\
  meaning_after literal ds "d" = "d".
Proof. repeat split. Qed.

(** ** C51 *)

(** A file loads exactly if it is well formed, free of conflicts, and every permission
    id written in it is public, registered before, or defined anywhere in the file. *)
Theorem C51_loads_iff :
  forall E ds w,
    loadable ds w -> ((exists w', configure E ds w = (Ok tt, w')) <-> accepted ds w).
Proof. exact load_ok_lemma. Qed.
Print Assumptions C51_loads_iff.

Theorem C51_undefined_iff :
  forall E ds w,
    loadable ds w -> well_formed literal ds -> NoDup (claims ds) ->
    ((exists w', configure E ds w = (Exc (EValue "Undefined permission ID"), w')) <->
     exists t, In t (used ds) /\ ~ defined ds w t).
Proof. exact undefined_lemma. Qed.
Print Assumptions C51_undefined_iff.

(** Whether a file loads does not depend on the order of its directives. *)
Theorem C51_order :
  forall E ds ds' w,
    Permutation ds ds' -> ids_nonempty ds -> loadable ds w ->
    ((exists w', configure E ds w = (Ok tt, w')) <->
     (exists w', configure E ds' w = (Ok tt, w'))).
Proof. exact order_lemma. Qed.
Print Assumptions C51_order.

Example C51_example :
  (exists w', configure (wenv ImplPy) book_file z_world = (Ok tt, w')) /\
  ids_nonempty book_file /\
  (exists w', configure (wenv ImplPy) (rev book_file) z_world = (Ok tt, w')) /\
  fst (configure (wenv ImplPy) (ZRedefine "app.Missing" "zope.View" :: book_file) z_world) =
    Exc (EValue "Undefined permission ID").
Proof.
  split; [exists (snd (configure (wenv ImplPy) book_file z_world)); vm_compute; reflexivity|].
  split; [unfold ids_nonempty; simpl; intuition discriminate|].
  split; [exists (snd (configure (wenv ImplPy) (rev book_file) z_world)); vm_compute; reflexivity|].
  vm_compute. reflexivity.
Qed.

(** ** C61 *)

(** The protections after loading do not depend on the order of directives, if there is
    neither like_class nor redefinePermission. *)
Theorem C61_order :
  forall E ds ds' w w1 w2,
    Permutation ds ds' -> (forall d, In d ds -> standalone d) ->
    loadable ds w -> loadable ds' w ->
    configure E ds w = (Ok tt, w1) -> configure E ds' w = (Ok tt, w2) ->
    forall k n, read_protection (w_core w1) k n = read_protection (w_core w2) k n /\
                write_protection (w_core w1) k n = write_protection (w_core w2) k n.
Proof. exact order_protection_lemma. Qed.
Print Assumptions C61_order.

(** With like_class it does: what is declared later is not copied. *)
Theorem C61_like_class_refuted :
  exists E ds ds' w w1 w2 k n,
    Permutation ds ds' /\ loadable ds w /\ loadable ds' w /\
    configure E ds w = (Ok tt, w1) /\ configure E ds' w = (Ok tt, w2) /\
    read_protection (w_core w1) k n = Some PPublic /\ read_protection (w_core w2) k n = None.
Proof.
  set (a := ZClass (KType "A") [CAllow ["x"] []]).
  set (b := ZClass (KType "B") [CRequire None [] [] (Some (KType "A")) [] []]).
  exists (wenv ImplPy), [a; b], [b; a], z_world.
  exists (snd (configure (wenv ImplPy) [a; b] z_world)), (snd (configure (wenv ImplPy) [b; a] z_world)).
  exists (KType "B"), "x".
  split; [apply perm_swap|].
  split; [apply z_loadable; simpl; [intros i []|intros k [<-|[<-|[]]]; exact I]|].
  split; [apply z_loadable; simpl; [intros i []|intros k [<-|[<-|[]]]; exact I]|].
  split; [vm_compute; reflexivity|]. split; [vm_compute; reflexivity|].
  split; vm_compute; reflexivity.
Qed.
Print Assumptions C61_like_class_refuted.

Example C61_example :
  (forall d, In d book_file -> standalone d) /\
  Permutation book_file (rev book_file) /\
  read_protection (w_core (snd (configure (wenv ImplPy) (rev book_file) z_world)))
    (KType "app.Book") "isbn" = Some (PId 0 "zope.View").
Proof.
  split.
  - simpl. intros d [<-|[<-|[<-|[]]]]; simpl; auto.
    + split; [eexists; reflexivity|]. intros s [<-|[<-|[<-|[]]]]; exact I.
    + eexists. reflexivity.
  - split; [apply Permutation_rev|vm_compute; reflexivity].
Qed.

(** ** C62 *)

(** Every permission id that a successful load puts into a table is registered. *)
Theorem C62_only_defined_permissions :
  forall E ds w w' k n i t,
    loadable ds w -> configure E ds w = (Ok tt, w') ->
    (read_protection (w_core w') k n = Some (PId i t) ->
     In t (map fst (w_perms w')) \/ exists k0, read_protection (w_core w) k0 n = Some (PId i t)) /\
    (write_protection (w_core w') k n = Some (PId i t) ->
     In t (map fst (w_perms w')) \/ exists k0, write_protection (w_core w) k0 n = Some (PId i t)).
Proof. exact tables_defined_lemma. Qed.
Print Assumptions C62_only_defined_permissions.

(** A failing load may already have declared protections by undefined ids. *)
Theorem C62_failed_load_refuted :
  exists E ds w w' e k n t,
    loadable ds w /\ configure E ds w = (Exc e, w') /\
    read_protection (w_core w') k n = Some (PId 0 t) /\ ~ In t (map fst (w_perms w')).
Proof.
  set (ds := [ZClass (KType "A") [CRequire (Some "app.Missing") ["x"] [] None [] []]]).
  exists (wenv ImplPy), ds, z_world, (snd (configure (wenv ImplPy) ds z_world)).
  exists (EValue "Undefined permission ID"), (KType "A"), "x", "app.Missing".
  split; [apply z_loadable; simpl; [intros i []|intros k [<-|[]]; exact I]|].
  split; [vm_compute; reflexivity|]. split; [vm_compute; reflexivity|].
  vm_compute. intuition discriminate.
Qed.
Print Assumptions C62_failed_load_refuted.

Example C62_example :
  let w' := snd (configure (wenv ImplPy)
              (ZRedefine "zope.View" "app.Edit" :: book_file) z_world) in
  configure (wenv ImplPy) (ZRedefine "zope.View" "app.Edit" :: book_file) z_world = (Ok tt, w') /\
  read_protection (w_core w') (KType "app.Book") "isbn" = Some (PId 0 "app.Edit") /\
  map fst (w_perms w') = ["zope.View"; "app.Edit"].
Proof. vm_compute. repeat split. Qed.
