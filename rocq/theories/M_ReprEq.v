(* Model of printing an insert's equaliser: _models.py:121-132 ModelReprMixin.__repr__ for the
   classes of mixer.py:203-293.  No proofs. *)
From Coq Require Import String ZArith List Bool.
From Verif Require Import M_Base M_Events M_Tree M_Prop M_Items M_Collections M_Models.
Import ListNotations.
Open Scope Z_scope.

(* mixer.py:207-209 InsertEQBand.size: twelve bytes for each record found *)
Definition band_size (h : heap) (p : option params_obj) (b : band) : res Z :=
  let* p := kw_params p in
  let* (r, d) := own_items h p in
  Ok (12 * zlen (filter (fun k => match assoc_Z d (band_id b k) with Some _ => true | None => false end) [Freq; Gain; Reso])).
(* the attributes of a band in the order of the class: size, gain, freq, reso *)
Definition band_repr (h : heap) (p : option params_obj) (b : band) : res (list (string * val)) :=
  let* s := band_size h p b in
  let* g := eq_get h p b Gain in
  let* f := eq_get h p b Freq in
  let* q := eq_get h p b Reso in
  Ok [("size", VInt s); ("gain", g); ("freq", f); ("reso", q)]%string.

(* mixer.py:274-276 InsertEQ.size reads the key "param" of keyword arguments that are just
   "params" (271-272) *)
Definition eq_size (p : params_obj) : res Z := Err KeyError.
(* repr(insert.eq): mixer.py:464-470, then size, low, mid, high *)
Definition eq_repr (h : heap) (p : option params_obj) : res (list (string * val)) :=
  let* p := kw_params p in
  let* s := eq_size p in
  let* l := band_repr h (Some p) eq_low in
  let* m := band_repr h (Some p) eq_mid in
  let* u := band_repr h (Some p) eq_high in
  Ok (("size"%string, VInt s) :: l ++ m ++ u).
