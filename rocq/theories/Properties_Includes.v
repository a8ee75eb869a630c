(** * Properties C75 and C76: configurations of several files; the configuration that the
    package ships. *)

From Coq Require Import List String Bool Arith ZArith Lia Permutation.
From Verif Require Import Base Domain CheckerModel ProxyModel Spec RegSpec Witness Management
  Protect ProtectSpec Zcml ZcmlSpec ZcmlFacts ZcmlProps Properties_Zcml
  Includes IncludesSpec IncludesFacts IncludesProps IncludesLoad.
Import ListNotations.
Open Scope string_scope.

(** ** C75 *)

(** A configuration loads exactly if each directive is well formed where it stands, no two
    claims of one thing stand, and the permission ids used are defined somewhere. *)
Theorem C75_loads_iff :
  forall E ns w,
    files_loadable ns w ->
    ((exists w', configure_files E ns w = (Ok tt, w')) <-> files_accepted ns w).
Proof. exact files_iff_lemma. Qed.
Print Assumptions C75_loads_iff.

(** What holds afterwards is decided by the statements in force: those that no file
    above contradicts. *)
Theorem C75_decides :
  forall E ns w w',
    files_loadable ns w -> configure_files E ns w = (Ok tt, w') ->
    (forall s k n t, in_force ns s (ClRead k n) ->
       protects (sm_meaning s) (sm_dir s) (ClRead k n) t ->
       unclaimed ns (ClModule k n) -> ~ copying k (directives ns) ->
       read_protection (w_core w') k n = Some (protect_by t)) /\
    (forall s k n t, in_force ns s (ClModule k n) ->
       protects (sm_meaning s) (sm_dir s) (ClModule k n) t ->
       unclaimed ns (ClRead k n) -> ~ copying k (directives ns) ->
       read_protection (w_core w') k n = Some (protect_by t)) /\
    (forall s k n t, in_force ns s (ClWrite k n) ->
       protects (sm_meaning s) (sm_dir s) (ClWrite k n) t -> ~ copying k (directives ns) ->
       write_protection (w_core w') k n = Some (protect_by t)) /\
    (forall s q, in_force ns s ClPolicy -> sm_dir s = ZPolicy q -> st_policy (w_core w') = q) /\
    (forall s id title, in_force ns s (ClPermission id) -> sm_dir s = ZPermission id title ->
       dget String.eqb (w_perms w') id = Some title).
Proof. exact decides_lemma. Qed.
Print Assumptions C75_decides.

(** What no file mentions stays as it was. *)
Theorem C75_kept :
  forall E ns w w',
    files_loadable ns w -> configure_files E ns w = (Ok tt, w') ->
    (forall k n, unclaimed ns (ClRead k n) -> unclaimed ns (ClModule k n) ->
       ~ copying k (directives ns) ->
       read_protection (w_core w') k n = read_protection (w_core w) k n) /\
    (forall k n, unclaimed ns (ClWrite k n) -> ~ copying k (directives ns) ->
       write_protection (w_core w') k n = write_protection (w_core w) k n) /\
    (unclaimed ns ClPolicy -> st_policy (w_core w') = st_policy (w_core w)) /\
    (forall id, unclaimed ns (ClPermission id) ->
       dget String.eqb (w_perms w') id = dget String.eqb (w_perms w) id) /\
    (forall k, ~ In k (touched (directives ns)) ->
       dget rkey_eqb (st_reg (w_core w')) k = dget rkey_eqb (st_reg (w_core w)) k).
Proof. exact kept_lemma. Qed.
Print Assumptions C75_kept.

(** The first file has the last word: its own directives decide, and ids mean themselves
    in them, whatever the included files claim or redefine. *)
Theorem C75_first_file :
  forall E ns w w',
    files_loadable ns w -> configure_files E ns w = (Ok tt, w') -> redefines_nothing ns ->
    forall d, In (NDir d) ns ->
    (forall k n t, protects literal d (ClRead k n) t -> unclaimed ns (ClModule k n) ->
       ~ copying k (directives ns) -> read_protection (w_core w') k n = Some (protect_by t)) /\
    (forall k n t, protects literal d (ClModule k n) t -> unclaimed ns (ClRead k n) ->
       ~ copying k (directives ns) -> read_protection (w_core w') k n = Some (protect_by t)) /\
    (forall k n t, protects literal d (ClWrite k n) t ->
       ~ copying k (directives ns) -> write_protection (w_core w') k n = Some (protect_by t)) /\
    (forall q, d = ZPolicy q -> st_policy (w_core w') = q) /\
    (forall id title, d = ZPermission id title -> dget String.eqb (w_perms w') id = Some title).
Proof. exact first_lemma. Qed.
Print Assumptions C75_first_file.

(** Two files that claim the same, with nobody above both to decide: nothing is loaded. *)
Theorem C75_rivals :
  forall E ns w i j p q c,
    files_loadable ns w -> i <> j ->
    nth_error (claimed (statements ns)) i = Some (p, c) ->
    nth_error (claimed (statements ns)) j = Some (q, c) ->
    stands (claimed (statements ns)) p c -> stands (claimed (statements ns)) q c ->
    exists e, configure_files E ns w = (Exc e, w).
Proof. exact rivals_lemma. Qed.
Print Assumptions C75_rivals.

(** How a configuration is distributed over files and groups does not matter if nothing
    is redefined and nothing claimed twice: also not for how it fails. *)
Theorem C75_split :
  forall E ns w,
    (forall d, In d (directives ns) -> is_redefinition d = false) ->
    (forall i, In i (ifaces (directives ns)) -> iface_wf i) ->
    NoDup (claims (directives ns)) ->
    configure_files E ns w = configure E (directives ns) w.
Proof. exact split_lemma. Qed.
Print Assumptions C75_split.

(** The tables are enforced. *)
Theorem C75_enforced :
  forall E ns w w' cls obj,
    files_loadable ns w -> configure_files E ns w = (Ok tt, w') -> e_watch E = 0 ->
    dget rkey_eqb (st_reg (w_core w)) (KType cls) = None ->
    ~ copying (KType cls) (directives ns) ->
    let R := read_protection (w_core w') (KType cls) in
    let W := write_protection (w_core w') (KType cls) in
    (exists n, R n <> None \/ W n <> None) ->
    exists c,
      (concrete_type E (w_core w') obj = cls ->
       forall f, do_select E (S f) obj (w_core w') = (Ok (Some c), w_core w', [])) /\
      reads_checked E (w_core w') R c obj /\ writes_checked E (w_core w') W c obj.
Proof. exact files_enforced_lemma. Qed.
Print Assumptions C75_enforced.

Lemma z_files_loadable ns :
  (forall i, In i (ifaces (directives ns)) -> iface_wf i) ->
  (forall k, In k (touched (directives ns)) -> is_class_or_module k) -> files_loadable ns z_world.
Proof. apply z_loadable. Qed.

(** A redefinition in an included file reaches the including file if that has redefined
    another permission before. *)
Definition leaking : list node :=
  [ NDir (ZPermission "a" "A"); NDir (ZPermission "b" "B");
    NDir (ZRedefine "a" "b");
    NInclude "library.zcml" [NDir (ZRedefine "zope.View" "zope.Public")];
    NDir (ZClass (KType "app.Safe") [CRequire (Some "zope.View") ["open"] [] None [] []]) ].

Theorem C75_leak_refuted :
  exists E pre d w w' n,
    let ns := (pre ++ [NDir d])%list in
    files_loadable ns w /\ configure_files E ns w = (Ok tt, w') /\
    protects (own_meaning literal pre) d (ClRead (KType "app.Safe") n) "zope.View" /\
    unclaimed ns (ClModule (KType "app.Safe") n) /\
    ~ copying (KType "app.Safe") (directives ns) /\
    read_protection (w_core w') (KType "app.Safe") n = Some PPublic.
Proof.
  exists (wenv ImplPy), (firstn 4 leaking),
    (ZClass (KType "app.Safe") [CRequire (Some "zope.View") ["open"] [] None [] []]), z_world,
    (snd (configure_files (wenv ImplPy) leaking z_world)), "open".
  cbv zeta. change (firstn 4 leaking ++ [NDir (ZClass (KType "app.Safe")
    [CRequire (Some "zope.View") ["open"] [] None [] []])])%list with leaking.
  split; [apply z_files_loadable; simpl; [intros i []|intros k [<-|[]]; exact I]|].
  split; [vm_compute; reflexivity|].
  split; [apply (PrClass _ _ _ (CRequire (Some "zope.View") ["open"] [] None [] []));
          [left; reflexivity|];
          change "zope.View" with (own_meaning literal (firstn 4 leaking) "zope.View") at 2;
          apply CpRead; left; reflexivity|].
  split; [intros d Hd; simpl in Hd;
          repeat (destruct Hd as [<-|Hd]; [simpl; intuition discriminate|]); contradiction|].
  split; [|vm_compute; reflexivity].
  intros (subs & s & Hd & Hs & Hl). simpl in Hd.
  repeat (destruct Hd as [Hd|Hd]; [try discriminate Hd|]); [|contradiction].
  injection Hd as <-. destruct Hs as [<-|[]]. apply Hl. reflexivity.
Qed.
Print Assumptions C75_leak_refuted.

(** An application overrides part of a library. *)
Definition library : list node :=
  [ NDir (ZPermission "lib.Read" "Read");
    NGroup [ NDir (ZRedefine "zope.View" "lib.Read");
             NDir (ZClass (KType "lib.Doc")
               [CRequire (Some "zope.View") ["text"; "size"] [] None ["text"] []]) ];
    NDir (ZClass (KType "lib.Index") [CRequire (Some "zope.View") ["find"] [] None [] []]) ].
Definition overriding : list node :=
  [ NInclude "lib.zcml" library;
    NInclude "lib.zcml" library;
    NDir (ZPermission "app.Size" "Size");
    NDir (ZClass (KType "lib.Doc") [CRequire (Some "app.Size") ["size"] [] None [] []]) ].

Example C75_example :
  files_loadable overriding z_world /\ redefines_nothing overriding /\
  let w' := snd (configure_files (wenv ImplC) overriding z_world) in
  configure_files (wenv ImplC) overriding z_world = (Ok tt, w') /\
  read_protection (w_core w') (KType "lib.Doc") "text" = Some (PId 0 "lib.Read") /\
  read_protection (w_core w') (KType "lib.Doc") "size" = Some (PId 0 "app.Size") /\
  write_protection (w_core w') (KType "lib.Doc") "text" = Some (PId 0 "lib.Read") /\
  read_protection (w_core w') (KType "lib.Index") "find" = Some (PId 0 "zope.View") /\
  configure_files (wenv ImplC)
    [ NInclude "one.zcml" [NDir (ZPermission "x" "One")];
      NInclude "two.zcml" [NDir (ZPermission "x" "Two")] ] z_world =
    (Exc (EConfiguration "conflict"), z_world) /\
  dget String.eqb (w_perms (snd (configure_files (wenv ImplC)
    [ NInclude "one.zcml" [NDir (ZPermission "x" "One")];
      NInclude "two.zcml" [NDir (ZPermission "x" "Two")];
      NDir (ZPermission "x" "Own") ] z_world))) "x" = Some "Own".
Proof.
  split; [apply z_files_loadable; simpl; [intros i []|intros k [<-|[<-|[<-|[]]]]; exact I]|].
  split; [intros d Hd; simpl in Hd;
          repeat (destruct Hd as [Hd|Hd]; [inversion Hd; reflexivity|]); contradiction|].
  cbv zeta. repeat (split; [vm_compute; reflexivity|]). vm_compute. reflexivity.
Qed.

(** ** C76 *)

(** The shipped configuration loads, into any registry it can be loaded into. *)
Theorem C76_loads :
  forall E w, files_loadable (application []) w ->
    exists w', configure_files E (application []) w = (Ok tt, w').
Proof. exact shipped_loads_lemma. Qed.
Print Assumptions C76_loads.

(** Whatever else an application says, its six permissions are defined; what it says of
    them and of permission objects holds unless the application itself overrides it. *)
Theorem C76_shipped :
  forall E post w w',
    files_loadable (application post) w ->
    configure_files E (application post) w = (Ok tt, w') ->
    (forall id, In id shipped_permissions ->
       exists title, dget String.eqb (w_perms w') id = Some title) /\
    (forall n, In n ["id"; "title"; "description"] ->
       leaves (application post) (ClRead Permission_class n) ->
       unclaimed (application post) (ClModule Permission_class n) ->
       ~ copying Permission_class (directives (application post)) ->
       read_protection (w_core w') Permission_class n = Some PPublic) /\
    (forall s id title, In s (statements (application [])) -> sm_dir s = ZPermission id title ->
       leaves (application post) (ClPermission id) ->
       dget String.eqb (w_perms w') id = Some title).
Proof. exact shipped_lemma'. Qed.
Print Assumptions C76_shipped.

(** Permission objects can be inspected by everybody and changed by nobody through
    proxies. *)
Theorem C76_permission_objects :
  forall E post w w' obj,
    files_loadable (application post) w ->
    configure_files E (application post) w = (Ok tt, w') ->
    e_watch E = 0 -> dget rkey_eqb (st_reg (w_core w)) Permission_class = None ->
    ~ copying Permission_class (directives (application post)) ->
    (forall n, leaves (application post) (ClRead Permission_class n) /\
               unclaimed (application post) (ClModule Permission_class n) /\
               unclaimed (application post) (ClWrite Permission_class n)) ->
    exists c,
      (concrete_type E (w_core w') obj = "zope.security.permission.Permission" ->
       forall f, do_select E (S f) obj (w_core w') = (Ok (Some c), w_core w', [])) /\
      (forall f m n r s tr, m <> MSetattr -> In n ["id"; "title"; "description"] ->
         do_check E (S (S f)) m c obj n (w_core w') = (r, s, tr) ->
         r = Ok tt /\ s = w_core w' /\ tr = []) /\
      (forall f n r s tr,
         do_check E (S f) MSetattr c obj n (w_core w') = (r, s, tr) ->
         r = Exc (EForbidden n obj) /\ s = w_core w' /\ tr = []).
Proof. exact shipped_enforced_lemma. Qed.
Print Assumptions C76_permission_objects.

Definition renaming : list node :=
  [ NDir (ZPermission "zope.View" "Look");
    NDir (ZClass (KType "app.Book") [CRequire (Some "zope.ManageContent") ["edit"] [] None [] []]) ].

Example C76_example :
  files_loadable (application renaming) z_world /\
  (forall n, leaves (application renaming) (ClRead Permission_class n) /\
             unclaimed (application renaming) (ClModule Permission_class n) /\
             unclaimed (application renaming) (ClWrite Permission_class n)) /\
  ~ copying Permission_class (directives (application renaming)) /\
  let w' := snd (configure_files (wenv ImplPy) (application renaming) z_world) in
  configure_files (wenv ImplPy) (application renaming) z_world = (Ok tt, w') /\
  dget String.eqb (w_perms w') "zope.View" = Some "Look" /\
  dget String.eqb (w_perms w') "zope.ManageSite" = Some "[manage-site-permission] Manage Site" /\
  read_protection (w_core w') (KType "app.Book") "edit" = Some (PId 0 "zope.ManageContent") /\
  read_protection (w_core w') Permission_class "title" = Some PPublic /\
  write_protection (w_core w') Permission_class "title" = None.
Proof.
  split.
  { apply z_files_loadable.
    - assert (H : ifaces (directives (application renaming)) = [IPermission]) by (vm_compute; reflexivity).
      rewrite H. intros i [<-|[]]. unfold iface_wf. simpl.
      repeat constructor; simpl; intuition discriminate.
    - assert (H : touched (directives (application renaming)) = [Permission_class; KType "app.Book"])
        by (vm_compute; reflexivity).
      rewrite H. intros k [<-|[<-|[]]]; exact I. }
  split.
  { intros n. assert (Hr : rkey_eqb Permission_class Permission_class = true) by (vm_compute; reflexivity).
    assert (Hb : forallb (fun s => forallb (fun c => match c with
        | ClRead k _ => negb (rkey_eqb k Permission_class) || negb (Nat.eqb (List.length (sm_path s)) 0)
        | ClModule k _ | ClWrite k _ => negb (rkey_eqb k Permission_class)
        | _ => true end) (directive_claims (sm_dir s))) (statements (application renaming)) = true)
      by (vm_compute; reflexivity).
    rewrite forallb_forall in Hb.
    assert (Hm : forall d c, In d (directives (application renaming)) -> In c (directive_claims d) ->
      match c with ClModule k _ | ClWrite k _ => k <> Permission_class | _ => True end).
    { intros d c Hd Hc. apply in_map_iff in Hd. destruct Hd as (s & <- & Hs). specialize (Hb s Hs).
      rewrite forallb_forall in Hb. specialize (Hb c Hc).
      destruct c as [k m|k m|k m| | | ]; try exact I; intros Hk; cbv beta iota in Hb;
        rewrite Hk, Hr in Hb; discriminate Hb. }
    split; [|split].
    - intros s Hs Hp Hc. specialize (Hb s Hs). rewrite forallb_forall in Hb. specialize (Hb _ Hc).
      cbv beta iota in Hb. rewrite Hp, Hr in Hb. discriminate Hb.
    - intros d Hd Hc. exact (Hm d _ Hd Hc eq_refl).
    - intros d Hd Hc. exact (Hm d _ Hd Hc eq_refl). }
  split.
  { intros (subs & s & Hd & Hs & Hl).
    assert (Hb : forallb (fun d => match d with
        | ZClass _ subs => forallb (fun s => negb (nonempty (csub_likes s))) subs
        | _ => true end) (directives (application renaming)) = true) by (vm_compute; reflexivity).
    rewrite forallb_forall in Hb. specialize (Hb _ Hd). cbv beta iota in Hb.
    rewrite forallb_forall in Hb. specialize (Hb s Hs). apply Hl.
    destruct (csub_likes s); [reflexivity|discriminate Hb]. }
  cbv zeta. repeat (split; [vm_compute; reflexivity|]). vm_compute. reflexivity.
Qed.
