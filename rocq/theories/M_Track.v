(* Model of a track as a sequence of its items: pyflp/arrangement.py:248-267, with Python's
   indexing and slicing of lists.  No proofs. *)
From Coq Require Import String ZArith List Bool.
From Verif Require Import M_Base M_Events M_Tree M_Collections.
Import ListNotations.
Open Scope Z_scope.

(* list[start:stop:step] of a list of n elements, CPython's PySlice_Unpack and
   PySlice_AdjustIndices: the first position, the step and the number of elements *)
Definition slice_indices (n : Z) (start stop step : option Z) : res (Z * Z * Z) :=
  let st := match step with Some s => s | None => 1 end in
  if st =? 0 then Err ValueError else
  let down := st <? 0 in
  let clip i := if i <? 0 then (if i + n <? 0 then (if down then -1 else 0) else i + n)
                else if n <=? i then (if down then n - 1 else n) else i in
  let a := match start with Some i => clip i | None => if down then n - 1 else 0 end in
  let b := match stop with Some i => clip i | None => if down then -1 else n end in
  let k := if down then (if b <? a then (a - b - 1) / (- st) + 1 else 0)
           else (if a <? b then (b - a - 1) / st + 1 else 0) in
  Ok (a, st, k).
(* the elements at a, a + st, ... *)
Fixpoint pick {A} (l : list A) (a st : Z) (k : nat) : list A :=
  match k with
  | O => []
  | S k => match nth_error l (Z.to_nat a) with
           | Some x => x :: pick l (a + st) st k
           | None => []
           end
  end.
Definition py_slice {A} (l : list A) (start stop step : option Z) : res (list A) :=
  let* x := slice_indices (zlen l) start stop step in
  let '(a, st, k) := x in Ok (pick l a st (Z.to_nat k)).

(* what can be put in the brackets, and what comes out *)
Inductive index := IInt (z : Z) | ISlice (start stop step : option Z) | IStr (s : string) | IOther.
Inductive found (A : Type) := One (x : A) | Many (l : list A) | NotImpl.
Arguments One {A}. Arguments Many {A}. Arguments NotImpl {A}.

(* arrangement.py:257-260 __getitem__; a text gives the object NotImplemented *)
Definition track_get (t : track_obj) (i : index) : res (found (nat * plays)) :=
  match i with
  | IStr _ => Ok NotImpl
  | IInt z => let* x := py_nth (tr_items t) z in Ok (One x)
  | ISlice a b s => let* l := py_slice (tr_items t) a b s in Ok (Many l)
  | IOther => Err TypeError
  end.
(* arrangement.py:262-264 __iter__ *)
Definition track_iter (t : track_obj) : list (nat * plays) := tr_items t.
(* arrangement.py:266-267 __len__ *)
Definition track_len (t : track_obj) : Z := zlen (tr_items t).
