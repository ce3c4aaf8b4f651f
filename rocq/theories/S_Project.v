(* What a user expects of the project's properties, over plain event lists.
   Independent of M_Project. *)
From Coq Require Import String ZArith List Bool.
From Verif Require Import M_Base M_Events S_Real.
Import ListNotations.
Open Scope Z_scope.

(* the value of the first event with an id *)
Fixpoint value_of (id : Z) (es : list event) : option val :=
  match es with
  | [] => None
  | e :: r => if e_id e =? id then Some (e_val e) else value_of id r
  end.
(* that event given another value; nothing if there is none *)
Fixpoint put (id : Z) (v : val) (es : list event) : list event :=
  match es with
  | [] => []
  | e :: r => if e_id e =? id then Event (e_id e) (e_kind e) (e_len e) (e_new e) v :: r
              else e :: put id v r
  end.

(* order of version numbers, component by component *)
Fixpoint lex_lt (a b : list Z) : bool :=
  match a, b with
  | _, [] => false
  | [], _ :: _ => true
  | x :: a, y :: b => (x <? y) || ((x =? y) && lex_lt a b)
  end.

(* the highest tempo allowed in a version: 999 BPM from 1.4.2 on, 522 from 11 on *)
Definition max_bpm (numbers : list Z) : Z :=
  if negb (lex_lt numbers [1; 4; 2]) && lex_lt numbers [11; 0; 0] then 999 else 522.

(* a tempo as it is shown: an int or a float that is this integer *)
Definition bpm (v : val) (z : Z) : Prop :=
  v = VInt z \/ exists x, v = VFlt x /\ is_integer x z.

(* ASCII letters and digits *)
Definition letter_or_digit (c : Z) : Prop := 48 <= c <= 57 \/ 65 <= c <= 90 \/ 97 <= c <= 122.

(* texts are UTF-16 from version 11.5 on, ASCII before *)
Definition wide_text (numbers : list Z) : bool :=
  match numbers with
  | a :: b :: _ => (11 <? a) || ((a =? 11) && (5 <=? b))
  | [a] => 11 <? a
  | [] => false
  end.

(* the tempo events a project stores: thousandths of a BPM, or a whole number with or
   without thousandths beside it *)
Definition small_int (v : option val) : Prop := exists z, v = Some (VInt z) /\ Z.abs z < 2 ^ 53.
Definition has_tempo (es : list event) : Prop :=
  small_int (value_of 156 es) \/
  (value_of 156 es = None /\ small_int (value_of 66 es) /\ (value_of 93 es = None \/ small_int (value_of 93 es))).
(* the same events with another tempo in them *)
Definition with_tempo (mille fine coarse : Z) (es : list event) : list event :=
  put 66 (VInt coarse) (put 93 (VInt fine) (put 156 (VInt mille) es)).
