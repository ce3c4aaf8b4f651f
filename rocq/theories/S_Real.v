(* What number a binary64 bit pattern stands for, and what rounding to nearest
   means.  Independent of M_Float. *)
From Coq Require Import ZArith Bool.
Open Scope Z_scope.

(* Every finite binary64 number is a multiple of 2^-1074. *)
Definition one : Z := 2 ^ 1074.
Definition finite (x : Z) : Prop := 0 <= x < 2 ^ 64 /\ (x / 2 ^ 52) mod 2048 < 2047.
(* [x] stands for  units x / one *)
Definition units (x : Z) : Z :=
  let e := (x / 2 ^ 52) mod 2048 in
  let m := x mod 2 ^ 52 in
  let u := if e =? 0 then m else (2 ^ 52 + m) * 2 ^ (e - 1) in
  if x / 2 ^ 63 =? 1 then - u else u.

(* [x] stands for the integer [n] *)
Definition is_integer (x n : Z) : Prop := finite x /\ units x = n * one.

(* x lies within a/b of n/d (all denominators positive) *)
Definition within (x n d a b : Z) : Prop :=
  finite x /\ Z.abs (units x * d - n * one) * b <= a * one * d.

(* the byte a colour channel x in 0..1 is stored as: the integer nearest to 255 x, up to 2^-44 *)
Definition channel_byte (x c : Z) : Prop :=
  0 <= c <= 255 /\ 2 ^ 45 * Z.abs (c * one - 255 * units x) <= (2 ^ 44 + 1) * one.
