(* Specification: when two values are the same to a user of events. *)
From Coq Require Import String Ascii ZArith List Bool.
From Verif Require Import M_Base M_Events S_Real.
Import ListNotations.
Open Scope Z_scope.

(* members whose name does not start with an underscore *)
Definition public (n : string) : Prop := forall s, n <> String "_" s.

(* Bit patterns of binary64 numbers: [amount x / one] is the number of a finite one (as in S_Real,
   for patterns of any size). *)
Definition amount (x : Z) : Z :=
  let e := (x / 2 ^ 52) mod 2048 in
  let m := x mod 2 ^ 52 in
  let u := if e =? 0 then m else (2 ^ 52 + m) * 2 ^ (e - 1) in
  if 2 ^ 63 <=? x then - u else u.
(* [v] stands for the number u / one *)
Inductive stands_for : val -> Z -> Prop :=
| st_int z : stands_for (VInt z) (z * one)
| st_enum z : stands_for (VEnum z) (z * one)
| st_true : stands_for (VBool true) one
| st_false : stands_for (VBool false) 0
| st_float x : (x / 2 ^ 52) mod 2048 < 2047 -> stands_for (VFlt x) (amount x).
(* the two infinities *)
Definition infinite (x : Z) : Prop := (x / 2 ^ 52) mod 2048 = 2047 /\ x mod 2 ^ 52 = 0.
Definition not_a_number (x : Z) : Prop := (x / 2 ^ 52) mod 2048 = 2047 /\ x mod 2 ^ 52 <> 0.

Inductive same : val -> val -> Prop :=
| same_none : same VNone VNone
| same_number v w u : stands_for v u -> stands_for w u -> same v w
| same_infinity x y : infinite x -> infinite y -> (2 ^ 63 <= x <-> 2 ^ 63 <= y) -> same (VFlt x) (VFlt y)
| same_bytes b : same (VBytes b) (VBytes b)
| same_text s : same (VStr s) (VStr s)
| same_list l m : Forall2 same l m -> same (VList l) (VList m)
| same_tuple l m : Forall2 same l m -> same (VTup l) (VTup m)
| same_record d e :
    (forall n x, In (n, x) d -> public n -> exists y, dget e n = Some y /\ same x y) ->
    (forall n y, In (n, y) e -> public n -> exists x, dget d n = Some x) ->
    same (VDict d) (VDict e).

(* no float that would be compared is NaN *)
Inductive comparable : val -> Prop :=
| co_none : comparable VNone
| co_bool b : comparable (VBool b)
| co_int z : comparable (VInt z)
| co_enum z : comparable (VEnum z)
| co_float x : ~ not_a_number x -> comparable (VFlt x)
| co_bytes b : comparable (VBytes b)
| co_text s : comparable (VStr s)
| co_list l : Forall comparable l -> comparable (VList l)
| co_tuple l : Forall comparable l -> comparable (VTup l)
| co_record d : (forall n x, In (n, x) d -> public n -> comparable x) -> comparable (VDict d).

(* Python's dictionaries have every key once *)
Inductive proper : val -> Prop :=
| pr_plain v : match v with VList _ | VTup _ | VDict _ => False | _ => True end -> proper v
| pr_list l : Forall proper l -> proper (VList l)
| pr_tuple l : Forall proper l -> proper (VTup l)
| pr_record d : NoDup (map fst d) -> Forall (fun x => proper (snd x)) d -> proper (VDict d).
