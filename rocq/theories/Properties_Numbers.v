(** C90: numbers and positions come through the C proxy unchanged. *)

From Coq Require Import ZArith Lia String List.
From Verif Require Import Numbers NumbersSpec NumbersFacts NumbersWitness.
Import ListNotations.
Open Scope Z_scope.

(** hash(p) is hash(o), exceptions included, wherever [long] is as wide as
    [Py_hash_t]. *)
Theorem C90_hash :
  forall W X V (p : platform) (upper : Z -> Z) (h : host W X V) (w : W),
    sane p -> decent p h -> size_bits p <= long_bits p ->
    hash_of_proxy p upper h w = plain_hash h w.
Proof. intros W X V p upper h w. exact (hash_same p h upper w). Qed.
Print Assumptions C90_hash.

Example C90_hash_case :
  hash_of_proxy lp64 zeros (hashed (2 ^ 62 - 5)) [] = (Returns (2 ^ 62 - 5), []) /\
  hash_of_proxy lp64 zeros (hashed (-2)) [] = (Returns (-2), []) /\
  hash_of_proxy ilp32 zeros (a_list []) [7] = (Raises "TypeError"%string, [7]).
Proof. repeat split. Qed.

(** On 64-bit Windows it need not be: whichever way the upper half of the
    register is filled, some object has another hash as soon as it is wrapped,
    and for some object hash(p) fails with SystemError. *)
Theorem C90_hash_refuted :
  forall upper, upper = sign_extended \/ upper = zeros ->
    exists (h h' : host (list Z) string Z) w,
      sane llp64 /\ decent llp64 h /\ decent llp64 h' /\
      (exists z, hash_of_proxy llp64 upper h w = (Returns z, w) /\
                 plain_hash h w <> (Returns z, w)) /\
      (hash_of_proxy llp64 upper h' w = (Broken, w) /\ fst (plain_hash h' w) <> Broken).
Proof.
  intros upper [-> | ->].
  - exists (hashed (2 ^ 32 + 7)), (hashed (2 ^ 32 - 1)), [].
    split; [exact llp64_sane |].
    split; [apply hashed_decent; cbn; [lia | split; cbn; lia | lia] |].
    split; [apply hashed_decent; cbn; [lia | split; cbn; lia | lia] |].
    split; [exists 7; split; [reflexivity | discriminate] | split; [reflexivity | discriminate]].
  - exists (hashed (-2)), (a_list []), [].
    split; [exact llp64_sane |].
    split; [apply hashed_decent; cbn; [lia | split; cbn; lia | lia] |].
    split; [apply a_list_decent; cbn; lia |].
    split; [exists (2 ^ 32 - 2); split; [reflexivity | discriminate]
           | split; [reflexivity | discriminate]].
Qed.
Print Assumptions C90_hash_refuted.

(** len(p): the question about __len__, then len(o), on every platform. *)
Theorem C90_length :
  forall W X V (p : platform) (h : host W X V) (w : W),
    decent p h ->
    length_of_proxy h w =
      match h_ask h "__len__" w with
      | (None, w') => plain_length h w'
      | (Some x, w') => (Raises x, w')
      end.
Proof. intros W X V p h w. exact (length_exact p h w). Qed.
Print Assumptions C90_length.

Example C90_length_case :
  length_of_proxy (a_list []) [4; 5] = (Returns 2, [4; 5]) /\
  length_of_proxy (a_list ["__len__"%string]) [4; 5] = (Raises "Forbidden"%string, [4; 5]).
Proof. split; reflexivity. Qed.

(** PySequence_GetItem(p, i) reads the item PySequence_GetItem(o, i) reads, and
    hands out its proxy; the same for writing and deleting.  Of a sequence the
    index must not lie before the start; of an instance of a Python class it
    may be any.  It must fit in a [long], counted from the start. *)
Theorem C90_read :
  forall W X V (p : platform) (h : host W X V) i w,
    sane p -> decent p h -> lets_through h -> narrow_enough p h w i ->
    (is_sequence h /\ within h w i \/ is_instance h) ->
    proxy_get p h i w = proxied h (plain_get h i) w.
Proof. intros W X V p h i w. exact (get_same p h i w). Qed.
Print Assumptions C90_read.

Theorem C90_write :
  forall W X V (p : platform) (h : host W X V) i v w,
    sane p -> decent p h -> lets_through h -> narrow_enough p h w i ->
    (is_sequence h /\ within h w i \/ is_instance h) ->
    proxy_set p h i v w = plain_set h i v w.
Proof. intros W X V p h i v w. exact (set_same p h i v w). Qed.
Print Assumptions C90_write.

(** Where [long] is as wide as [Py_ssize_t], every index is narrow enough. *)
Theorem C90_wide :
  forall W X V (p : platform) (h : host W X V) i w,
    decent p h -> size_bits p <= long_bits p -> fits (size_bits p) i ->
    narrow_enough p h w i.
Proof. intros W X V p h i w. exact (wide_enough p h i w). Qed.
Print Assumptions C90_wide.

Example C90_places_case :
  (sane llp64 /\ decent llp64 (a_list []) /\ lets_through (a_list []) /\
   is_sequence (a_list []) /\ narrow_enough llp64 (a_list []) [4; 5; 6] (-1) /\
   within (a_list []) [4; 5; 6] (-1)) /\
  proxy_get llp64 (a_list []) (-1) [4; 5; 6] = (Returns (-6), [4; 5; 6]) /\
  proxy_set llp64 (a_list []) (-3) (Some 9) [4; 5; 6] = (Returns tt, [9; 5; 6]) /\
  proxy_set lp64 (a_list []) 1 None [4; 5; 6] = (Returns tt, [4; 6]) /\
  proxy_get lp64 (a_list []) 3 [4; 5; 6] = (Raises "IndexError"%string, [4; 5; 6]) /\
  is_instance (hashed 1) /\ proxy_get lp64 (hashed 1) (-5) [] = (Returns (-2), []).
Proof.
  split; [| repeat split].
  split; [exact llp64_sane |]. split; [apply a_list_decent; cbn; lia |].
  split; [exact a_list_through |]. split; [apply a_list_sequence |].
  split; [apply a_list_narrow; cbn; lia |].
  intros k [H | l w' H E]; [lia |]. injection E as <- _. lia.
Qed.

(** An index before the start of a list, tuple or string is not an error
    through the proxy: the length is added a second time. *)
Theorem C90_twice :
  forall W X V (p : platform) (h : host W X V) i w l,
    sane p -> decent p h -> lets_through h -> is_builtin h ->
    h_length h w = (inl l, w) -> i < 0 -> fits (long_bits p) (i + l) ->
    proxy_get p h i w = proxied h (plain_get h (i + l)) w.
Proof. intros W X V p h i w l. exact (get_twice p h i w l). Qed.
Print Assumptions C90_twice.

Theorem C90_before_refuted :
  exists (h : host (list Z) string Z) i v w,
    sane lp64 /\ decent lp64 h /\ lets_through h /\ is_sequence h /\ is_builtin h /\
    narrow_enough lp64 h w i /\
    plain_get h i w = (Raises "IndexError"%string, w) /\
    proxy_get lp64 h i w = (Returns (-5), w) /\
    plain_set h i v w = (Raises "IndexError"%string, w) /\
    proxy_set lp64 h i v w = (Returns tt, [4; 9; 6]).
Proof.
  exists (a_list []), (-5), (Some 9), [4; 5; 6].
  split; [exact lp64_sane |]. split; [apply a_list_decent; cbn; lia |].
  split; [exact a_list_through |]. split; [apply a_list_sequence |].
  split; [apply a_list_builtin |]. split; [apply a_list_narrow; cbn; lia |].
  repeat split.
Qed.
Print Assumptions C90_before_refuted.

(** On 64-bit Windows a large index reads and writes another item. *)
Theorem C90_large_refuted :
  exists (h : host (list Z) string Z) i w,
    sane llp64 /\ decent llp64 h /\ lets_through h /\ is_instance h /\
    fits (size_bits llp64) i /\
    plain_get h i w = (Returns i, w) /\ proxy_get llp64 h i w = (Returns 7, w) /\
    plain_set h i None w = (Returns tt, i :: w) /\
    proxy_set llp64 h i None w = (Returns tt, 7 :: w) /\ i <> 7.
Proof.
  exists (hashed 1), (2 ^ 32 + 7), [].
  split; [exact llp64_sane |].
  split; [apply hashed_decent; cbn; [lia | split; cbn; lia | lia] |].
  split; [apply hashed_through |]. split; [apply hashed_instance |].
  split; [split; cbn; lia |]. repeat split; try discriminate.
Qed.
Print Assumptions C90_large_refuted.

(** reversed(p) gives the items of reversed(o), as proxies and in that order,
    and ends as it does. *)
Theorem C90_reversed :
  forall W X V (p : platform) (h : host W X V) w,
    sane p -> decent p h -> lets_through h -> is_sequence h ->
    (forall w n w', h_length h w = (inl n, w') -> fits (long_bits p) n) ->
    reversed_items (h_ends h) (length_of_proxy h) (proxy_get p h) w
    = reversed_items (h_ends h) (plain_length h) (fun k => proxied h (plain_get h k)) w.
Proof. intros W X V p h w. exact (reversed_same p h w). Qed.
Print Assumptions C90_reversed.

Example C90_reversed_case :
  reversed_items (h_ends (a_list [])) (length_of_proxy (a_list [])) (proxy_get lp64 (a_list []))
                 [4; 5; 6] = ([-6; -5; -4], Returns tt, [4; 5; 6]).
Proof. reflexivity. Qed.

(** IndexError (the list has become shorter meanwhile) ends the iteration, a
    refusal goes to the caller. *)
Example C90_reversed_ends :
  reversed_items (h_ends (a_list [])) (fun w => (Returns 5, w)) (proxy_get lp64 (a_list []))
                 [4; 5; 6] = ([], Returns tt, [4; 5; 6]) /\
  reversed_items (h_ends (a_list ["__getitem__"%string])) (length_of_proxy (a_list []))
                 (proxy_get lp64 (a_list ["__getitem__"%string]))
                 [4; 5; 6] = ([], Raises "Forbidden"%string, [4; 5; 6]).
Proof. split; reflexivity. Qed.

(** If __getitem__ is refused nothing is read, whatever the index: the outcome
    is a failure and the same for any other contents.  Likewise __setitem__
    and __delitem__, and __len__ for indices counted from the end. *)
Theorem C90_refused_read :
  forall W X V (p : platform) (h h' : host W X V) i w,
    same_checker h h' -> refuses h "__getitem__" ->
    (forall w, h_length h w = h_length h' w) ->
    proxy_get p h i w = proxy_get p h' i w /\ forall v, fst (proxy_get p h i w) <> Returns v.
Proof. intros W X V p h h' i w. exact (get_refused p h h' i w). Qed.
Print Assumptions C90_refused_read.

Theorem C90_refused_write :
  forall W X V (p : platform) (h h' : host W X V) i v w,
    same_checker h h' ->
    refuses h (match v with Some _ => "__setitem__" | None => "__delitem__" end)%string ->
    (forall w, h_length h w = h_length h' w) ->
    proxy_set p h i v w = proxy_set p h' i v w /\ fst (proxy_set p h i v w) <> Returns tt.
Proof. intros W X V p h h' i v w. exact (set_refused p h h' i v w). Qed.
Print Assumptions C90_refused_write.

Theorem C90_refused_length :
  forall W X V (p : platform) (h h' : host W X V) i w,
    same_checker h h' -> refuses h "__len__" -> i < 0 ->
    proxy_get p h i w = proxy_get p h' i w /\
    (forall v, proxy_set p h i v w = proxy_set p h' i v w).
Proof. intros W X V p h h' i w. exact (length_refused p h h' i w). Qed.
Print Assumptions C90_refused_length.

Example C90_refused_case :
  refuses (a_list ["__getitem__"%string]) "__getitem__" /\
  proxy_get lp64 (a_list ["__getitem__"%string]) (-1) [4; 5]
    = (Raises "Forbidden"%string, [4; 5]) /\
  proxy_set lp64 (a_list ["__delitem__"%string]) 0 None [4; 5]
    = (Raises "Forbidden"%string, [4; 5]) /\
  proxy_set lp64 (a_list ["__delitem__"%string]) 0 (Some 1) [4; 5] = (Returns tt, [1; 5]) /\
  proxy_get lp64 (a_list ["__len__"%string]) (-1) [4; 5]
    = (Raises "Forbidden"%string, [4; 5]) /\
  proxy_get lp64 (a_list ["__len__"%string]) 1 [4; 5] = (Returns (-5), [4; 5]).
Proof. repeat split. intros w. discriminate. Qed.
