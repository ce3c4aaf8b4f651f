(* The points of an automation clip, read off the bytes of its event.
   Independent of the construct model; of the model it uses IEEE numbers. *)
From Coq Require Import String ZArith List Bool.
From Verif Require Import M_Base M_Float M_Events S_Real S_Canon S_Layout.
Import ListNotations.
Open Scope Z_scope.

(* 17 bytes, the number of points, points of 24 bytes, anything *)
Definition point_count (b : bytes) : Z := u_le (slice b 17 4).
Definition point_at (i : nat) : nat := (21 + 24 * i)%nat.
Definition complete (b : bytes) : Prop :=
  (21 <= length b)%nat /\ 21 + 24 * point_count b <= zlen b.

(* of the i-th point: how far it lies after the one before, its height, its tension *)
Definition step (b : bytes) (i : nat) : Z := u_le (slice b (point_at i) 8).
Definition height (b : bytes) (i : nat) : Z := u_le (slice b (point_at i + 8) 8).
Definition tension (b : bytes) (i : nat) : Z := f32_to_64 (u_le (slice b (point_at i + 16) 4)).

(* the sum of the steps of the points up to the i-th, in multiples of 2^-1074 *)
Fixpoint total (b : bytes) (i : nat) : Z :=
  match i with O => units (step b 0) | S j => total b j + units (step b i) end.

(* the steps up to the i-th are numbers, and none of the sums needs rounding: all are
   multiples of some 2^t (in units) and below 2^53 of them *)
Definition sums_fit (b : bytes) (i : nat) : Prop :=
  exists t, 0 <= t <= 2044 /\ forall j, (j <= i)%nat ->
    finite (step b j) /\ exists c, units (step b j) = c * 2 ^ t /\ Z.abs (total b j) < 2 ^ 53 * 2 ^ t.
