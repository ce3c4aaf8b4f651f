(* Model of == and != between events: pyflp/_events.py:127-135, with Python's equality of the
   values events hold.  No proofs. *)
From Coq Require Import String Ascii ZArith List Bool.
From Verif Require Import M_Base M_Float M_Events.
Import ListNotations.
Open Scope Z_scope.

(* construct.Container.__eq__ leaves out the keys that start with an underscore *)
Definition hidden (n : string) : bool :=
  match n with String c _ => Ascii.eqb c "_" | EmptyString => false end.

(* int, bool, enum members and finite floats are compared as numbers m * 2^e *)
Definition dyadic (v : val) : option (Z * Z) :=
  match v with
  | VFlt x => if f_is_nan x || f_is_inf x then None else Some (f_signed_mag x, f_e x)
  | _ => match as_int v with Some z => Some (z, 0) | None => None end
  end.
Definition num_eq (v w : val) : bool :=
  match dyadic v, dyadic w with
  | Some (m, e), Some (m', e') => let k := Z.min e e' in m * 2 ^ (e - k) =? m' * 2 ^ (e' - k)
  | _, _ => match v, w with
            | VFlt x, VFlt y => f_is_inf x && f_is_inf y && Bool.eqb (f_sign x) (f_sign y)
            | _, _ => false
            end
  end.

(* v == w for values that are not the same object (list, tuple and dict take an element that is
   the same object as equal, which matters for NaN only) *)
Fixpoint py_eq (v w : val) {struct v} : bool :=
  let fix all (l m : list val) {struct l} : bool :=
    match l, m with
    | [], [] => true
    | x :: l, y :: m => py_eq x y && all l m
    | _, _ => false
    end in
  let fix covered (d e : list (string * val)) {struct d} : bool :=
    match d with
    | [] => true
    | (n, x) :: d => (hidden n || match dget e n with Some y => py_eq x y | None => false end) && covered d e
    end in
  match v, w with
  | VNone, VNone => true
  | VBytes a, VBytes b => list_Zeqb a b
  | VStr a, VStr b => list_Zeqb a b
  | VList l, VList m => all l m
  | VTup l, VTup m => all l m
  | VDict d, VDict e =>
      (* both loops of Container.__eq__; the second one would compare the same pairs again *)
      covered d e && forallb (fun x => hidden (fst x) || match dget d (fst x) with Some _ => true | None => false end) e
  | _, _ => num_eq v w
  end.

(* the other operand is an event, or not (None) *)
(* _events.py:127-130 *)
Definition event_eq (a : event) (b : option event) : res bool :=
  match b with
  | None => Err TypeError
  | Some b => Ok ((e_id a =? e_id b) && py_eq (e_val a) (e_val b))
  end.
(* _events.py:132-135; != of values is the negation of == *)
Definition event_ne (a : event) (b : option event) : res bool :=
  match b with
  | None => Err TypeError
  | Some b => Ok (negb (e_id a =? e_id b) || negb (py_eq (e_val a) (e_val b)))
  end.
