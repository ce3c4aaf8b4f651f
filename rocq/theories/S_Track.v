(* What slicing a sequence means. *)
From Coq Require Import ZArith List Bool.
Import ListNotations.
Open Scope Z_scope.

(* negative positions count from the end of n elements *)
Definition from_end (n i : Z) : Z := if i <? 0 then i + n else i.

(* position p of n is in [start:stop:step]: not before start, before stop, and a multiple of
   step away from the start (or from the end of the sequence if the start is beyond it) *)
Definition in_slice (n : Z) (start stop : option Z) (step p : Z) : Prop :=
  0 <= p < n /\
  (0 < step ->
     let a := match start with Some i => Z.max 0 (from_end n i) | None => 0 end in
     a <= p /\ (step | p - a) /\ match stop with Some j => p < from_end n j | None => True end) /\
  (step < 0 ->
     let a := match start with Some i => Z.min (n - 1) (from_end n i) | None => n - 1 end in
     p <= a /\ (step | p - a) /\ match stop with Some j => from_end n j < p | None => True end).
