(** Concrete objects for C90. *)

From Coq Require Import ZArith Lia String List Bool.
From Verif Require Import Numbers NumbersSpec NumbersFacts.
Import ListNotations.
Open Scope Z_scope.

(** The nth item, replaced and removed. *)
Fixpoint replace_nth (n : nat) (v : Z) (l : list Z) : list Z :=
  match l, n with
  | [], _ => []
  | _ :: t, O => v :: t
  | a :: t, S m => a :: replace_nth m v t
  end.
Fixpoint remove_nth (n : nat) (l : list Z) : list Z :=
  match l, n with
  | [], _ => []
  | _ :: t, O => t
  | a :: t, S m => a :: remove_nth m t
  end.

(** list_item and list_ass_item: an index out of range is an IndexError. *)
Definition list_item (k : Z) (w : list Z) : (Z + string) * list Z :=
  if k <? 0 then (inr "IndexError"%string, w)
  else match nth_error w (Z.to_nat k) with
       | Some v => (inl v, w)
       | None => (inr "IndexError"%string, w)
       end.
Definition list_ass_item (k : Z) (v : option Z) (w : list Z) : (unit + string) * list Z :=
  if (k <? 0) || (Z.of_nat (List.length w) <=? k) then (inr "IndexError"%string, w)
  else (inl tt, match v with
                | Some z => replace_nth (Z.to_nat k) z w
                | None => remove_nth (Z.to_nat k) w
                end).

(** There is memory for 100 items. *)
Definition list_length (w : list Z) : (Z + string) * list Z :=
  if Z.of_nat (List.length w) <=? 100 then (inl (Z.of_nat (List.length w)), w)
  else (inr "MemoryError"%string, w).

(** list_subscript and list_ass_subscript: a negative index counts from the
    end. *)
Definition counted {A} (f : Z -> list Z -> (A + string) * list Z) (k : Z) (w : list Z)
  : (A + string) * list Z :=
  if k <? 0 then match list_length w with
                 | (inl l, w') => f (k + l) w'
                 | (inr x, w') => (inr x, w')
                 end
  else f k w.

(** A list (the state is its contents) behind a checker that refuses the names
    in [deny]; values come out as their negatives, to tell them from bare
    ones. *)
Definition a_list (deny : list string) : host (list Z) string Z := {|
  h_ask := fun n w => (if in_dec string_dec n deny then Some "Forbidden"%string else None, w);
  h_hash := fun w => (inr "TypeError"%string, w);
  h_length := list_length;
  h_item := list_item;
  h_assign := list_ass_item;
  h_subscript := counted list_item;
  h_ass_subscript := fun k v => counted (fun j => list_ass_item j v) k;
  h_proxied := fun v w => (inl (- v), w);
  h_ends := fun x => String.eqb x "IndexError" |}.

(** An object whose hash is [z]; indexable by every number, x[k] is k. *)
Definition hashed (z : Z) : host (list Z) string Z := {|
  h_ask := fun n w => (None, w);
  h_hash := fun w => (inl z, w);
  h_length := fun w => (inl 3, w);
  h_item := fun k w => (inl k, w);
  h_assign := fun k v w => (inl tt, k :: w);
  h_subscript := fun k w => (inl k, w);
  h_ass_subscript := fun k v w => (inl tt, k :: w);
  h_proxied := fun v w => (inl v, w);
  h_ends := fun x => false |}.

Lemma lp64_sane : sane lp64. Proof. split; reflexivity. Qed.
Lemma llp64_sane : sane llp64. Proof. split; reflexivity. Qed.
Lemma ilp32_sane : sane ilp32. Proof. split; reflexivity. Qed.

Lemma fits_small b z : 32 <= b -> -1000 <= z <= 1000 -> fits b z.
Proof.
  intros Hb Hz. assert (2 ^ 31 <= 2 ^ (b - 1)) by (apply Z.pow_le_mono_r; lia).
  change (2 ^ 31) with 2147483648 in *. split; lia.
Qed.

Lemma a_list_decent deny p : 32 <= size_bits p -> decent p (a_list deny).
Proof.
  intros Hb. split; cbn; intros w z w'; [discriminate |]. unfold list_length.
  destruct (Z.leb_spec (Z.of_nat (List.length w)) 100); [| discriminate].
  intros H0. injection H0 as <- <-. split; [apply fits_small |]; lia.
Qed.

Lemma a_list_through : lets_through (a_list []).
Proof. intros n w. reflexivity. Qed.

Lemma a_list_sequence deny : is_sequence (a_list deny).
Proof.
  intros k w Hk. cbn. unfold counted. destruct (Z.ltb_spec k 0); [lia |].
  split; [| intros v]; reflexivity.
Qed.

Lemma hashed_decent z p :
  32 <= size_bits p -> fits (size_bits p) z -> z <> -1 -> decent p (hashed z).
Proof.
  intros Hb Hz Hn. split; cbn; intros w y w' H0; injection H0 as <- <-.
  - now split.
  - split; [now apply fits_small | lia].
Qed.

Lemma hashed_instance z : is_instance (hashed z).
Proof. intros k w. split; [| intros v]; reflexivity. Qed.

Lemma hashed_through z : lets_through (hashed z).
Proof. intros n w. reflexivity. Qed.

(** The upper half of the register as after a sign extension, and as after
    any 32-bit operation on x86-64 (zeros). *)
Definition sign_extended (z : Z) : Z := if z <? 0 then -1 else 0.
Definition zeros (_ : Z) : Z := 0.

(** A short list is never too long for an index. *)
Lemma a_list_narrow deny p w i :
  32 <= long_bits p -> -100 <= i <= 100 -> narrow_enough p (a_list deny) w i.
Proof.
  intros Hb Hi k [H0 | l w' H0 E]; [apply fits_small; lia |]. cbn in E. unfold list_length in E.
  destruct (Z.leb_spec (Z.of_nat (List.length w)) 100); [| discriminate].
  injection E as <- _. apply fits_small; lia.
Qed.

(** Lists count from the end once. *)
Lemma a_list_builtin deny : is_builtin (a_list deny).
Proof.
  intros k w. unfold from_the_end, plain_length, andthen, call. cbn. unfold counted.
  destruct (k <? 0); [| reflexivity].
  destruct (list_length w) as [[l | x] w']; reflexivity.
Qed.
