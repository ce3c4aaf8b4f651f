(* Python values, exceptions and bytes used by the whole model.  No proofs. *)
From Coq Require Import String ZArith List Bool.
Import ListNotations.
Open Scope Z_scope.

(* A byte string.  Python's [bytes] has elements 0..255; see [is_byte]. *)
Definition bytes := list Z.
(* A Python [str] as its list of code points. *)
Definition pystr := list Z.

Definition is_byte (b : Z) : Prop := 0 <= b < 256.
Definition is_bytes (bs : bytes) : Prop := Forall is_byte bs.
Definition zlen {A} (l : list A) : Z := Z.of_nat (length l).

(* Exceptions that can leave a modelled function.
   construct: construct/core.py exceptions; python: builtins;
   the rest: pyflp/exceptions.py:44-87. *)
Inductive exn :=
| StreamError | FormatFieldError | StringError | MappingError | RangeError
| IntegerError | PaddingError | StopFieldError
| KeyError | IndexError | TypeError | ValueError | AttributeError
| UnicodeError | OverflowError | StructError | LookupError | NotImplementedError
| HeaderCorrupted | VersionNotDetected | EventIDOutOfRange
| InvalidEventChunkSize | PropertyCannotBeSet | NoModelsFound | ModelNotFound
| ChannelNotFound
| OutOfFuel. (* never raised by the code: a model artefact, proved unreachable *)

Inductive res (A : Type) :=
| Ok (a : A)
| Err (e : exn).
Arguments Ok {A} a.
Arguments Err {A} e.

Definition bind {A B} (m : res A) (f : A -> res B) : res B :=
  match m with Ok a => f a | Err e => Err e end.
Notation "'let*' x ':=' m 'in' k" := (bind m (fun x => k))
  (at level 200, x pattern, right associativity).

Definition is_ok {A} (m : res A) : bool :=
  match m with Ok _ => true | Err _ => false end.

(* [map f l] with exceptions: stops at the first failure, as a Python
   comprehension does. *)
Fixpoint mapr {A B} (f : A -> res B) (l : list A) : res (list B) :=
  match l with
  | [] => Ok []
  | x :: xs => let* y := f x in let* ys := mapr f xs in Ok (y :: ys)
  end.

(* Dynamic Python values as they occur in event values. *)
Inductive val :=
| VNone
| VBool (b : bool)
| VInt (z : Z)
| VEnum (z : Z)          (* member (or pseudo member) of an IntEnum / IntFlag *)
| VFlt (bits : Z)        (* a float, as its IEEE binary64 bit pattern *)
| VBytes (b : bytes)
| VStr (s : pystr)
| VList (l : list val)   (* list / ListContainer *)
| VTup (l : list val)    (* tuple *)
| VDict (d : list (string * val)). (* construct Container *)

(* int(x) is accepted where [struct.pack] wants an integer: int, bool and the
   int-based enums. *)
Definition as_int (v : val) : option Z :=
  match v with
  | VInt z => Some z
  | VEnum z => Some z
  | VBool b => Some (if b then 1 else 0)
  | _ => None
  end.

(* -0.0 and 0.0 as bit patterns *)
Definition flt_is_zero (bits : Z) : bool := (bits =? 0) || (bits =? 2 ^ 63).

(* Python truth value of an object *)
Definition truthy (v : val) : bool :=
  match v with
  | VNone => false
  | VBool b => b
  | VInt z | VEnum z => negb (z =? 0)
  | VFlt f => negb (flt_is_zero f)
  | VBytes b => negb (zlen b =? 0)
  | VStr s => negb (zlen s =? 0)
  | VList l | VTup l => negb (zlen l =? 0)
  | VDict d => negb (zlen d =? 0)
  end.

(* dict lookup / assignment (assignment keeps the position of an existing key
   and appends a new one, like Python's dict) *)
Fixpoint dget (d : list (string * val)) (k : string) : option val :=
  match d with
  | [] => None
  | (k', v) :: r => if String.eqb k' k then Some v else dget r k
  end.

Fixpoint dset (d : list (string * val)) (k : string) (v : val)
  : list (string * val) :=
  match d with
  | [] => [(k, v)]
  | (k', v') :: r => if String.eqb k' k then (k', v) :: r else (k', v') :: dset r k v
  end.

(* list[i] = v ; list[i] *)
Fixpoint lset {A} (l : list A) (i : nat) (v : A) : list A :=
  match l, i with
  | [], _ => []
  | _ :: r, O => v :: r
  | x :: r, S i => x :: lset r i v
  end.

(* Text literals of the model are written as Coq strings; only ASCII is used. *)
Fixpoint str (s : string) : pystr :=
  match s with
  | EmptyString => []
  | String a r => Z.of_N (Ascii.N_of_ascii a) :: str r
  end.

Fixpoint list_Zeqb (a b : list Z) : bool :=
  match a, b with
  | [], [] => true
  | x :: xs, y :: ys => (x =? y) && list_Zeqb xs ys
  | _, _ => false
  end.

Definition mem_Z (x : Z) (l : list Z) : bool := existsb (Z.eqb x) l.

(* str.rstrip("\0") *)
Fixpoint rstrip0 (s : list Z) : list Z :=
  match s with
  | [] => []
  | c :: r =>
      match rstrip0 r with
      | [] => if c =? 0 then [] else [c]
      | r' => c :: r'
      end
  end.

(* str.split(sep) for a one-character separator; never returns [] *)
Fixpoint split_on (sep : Z) (s : list Z) : list (list Z) :=
  match s with
  | [] => [[]]
  | c :: r =>
      if c =? sep then [] :: split_on sep r
      else match split_on sep r with
           | [] => [[c]]
           | h :: t => (c :: h) :: t
           end
  end.

(* int(s) for an ASCII string, base 10: surrounding blanks, optional sign,
   digits with single underscores between digits.  CPython's limit on the
   number of digits (4300, since 3.11) is not modelled. *)
Definition is_blank (c : Z) : bool :=
  (c =? 32) || ((9 <=? c) && (c <=? 13)).
Definition is_digit (c : Z) : bool := (48 <=? c) && (c <=? 57).

Fixpoint drop_blanks (s : pystr) : pystr :=
  match s with
  | c :: r => if is_blank c then drop_blanks r else s
  | [] => []
  end.

(* digits; [prev] says whether the previous character was a digit *)
Fixpoint digits_val (acc : Z) (prev : bool) (s : pystr) : option Z :=
  match s with
  | [] => if prev then Some acc else None
  | c :: r =>
      if is_digit c then digits_val (acc * 10 + (c - 48)) true r
      else if (c =? 95) && prev then digits_val acc false r
      else None
  end.

Definition py_int (s : pystr) : option Z :=
  let s := rev (drop_blanks (rev (drop_blanks s))) in
  match s with
  | c :: r =>
      if c =? 43 then digits_val 0 false r
      else if c =? 45 then option_map Z.opp (digits_val 0 false r)
      else digits_val 0 false s
  | [] => None
  end.

(* str(n) for an int *)
Fixpoint dec_digits (fuel : nat) (n : Z) (acc : pystr) : pystr :=
  match fuel with
  | O => acc
  | S f =>
      let acc := (48 + n mod 10) :: acc in
      if n <? 10 then acc else dec_digits f (n / 10) acc
  end.
Definition py_str_int (n : Z) : pystr :=
  let m := Z.abs n in
  let d := dec_digits (S (Z.to_nat (Z.log2 m))) m [] in
  if n <? 0 then 45 :: d else d.

(* sep.join(parts) for a one-character separator *)
Fixpoint join_with (sep : Z) (l : list pystr) : pystr :=
  match l with
  | [] => []
  | [x] => x
  | x :: r => x ++ sep :: join_with sep r
  end.
