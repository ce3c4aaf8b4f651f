(* IEEE-754 arithmetic on bit patterns, as used by CPython floats (binary64)
   and by construct.Float32l / Float64l.  Every operation is "exact result,
   then round to nearest, ties to even".  No proofs.

   Not modelled: payloads of NaNs produced by arithmetic (a canonical NaN is
   returned). *)
From Coq Require Import ZArith List Bool.
From Verif Require Import M_Base.
Open Scope Z_scope.

Definition b2z (b : bool) : Z := if b then 1 else 0.

(* decomposition of a binary64 pattern *)
Definition f_sign (x : Z) : bool := 2 ^ 63 <=? x.
Definition f_exp (x : Z) : Z := (x / 2 ^ 52) mod 2048.
Definition f_man (x : Z) : Z := x mod 2 ^ 52.

Definition f_is_nan (x : Z) : bool := (f_exp x =? 2047) && negb (f_man x =? 0).
Definition f_is_inf (x : Z) : bool := (f_exp x =? 2047) && (f_man x =? 0).
Definition f_is_zero (x : Z) : bool := (f_exp x =? 0) && (f_man x =? 0).

(* magnitude of a finite pattern as M * 2^E *)
Definition f_mag (x : Z) : Z :=
  if f_exp x =? 0 then f_man x else 2 ^ 52 + f_man x.
Definition f_e (x : Z) : Z := if f_exp x =? 0 then -1074 else f_exp x - 1075.

Definition f_nan : Z := 2047 * 2 ^ 52 + 2 ^ 51.
Definition f_inf (s : bool) : Z := b2z s * 2 ^ 63 + 2047 * 2 ^ 52.

(* quotient rounded to nearest, ties to even (den > 0) *)
Definition div_rne (num den : Z) : Z :=
  let q := num / den in
  let r := num mod den in
  if (den <? 2 * r) || ((2 * r =? den) && Z.odd q) then q + 1 else q.

(* floor (log2 (n/d)) for n, d > 0 *)
Definition qlog2 (n d : Z) : Z :=
  let e0 := Z.log2 n - Z.log2 d in
  if (if 0 <=? e0 then d * 2 ^ e0 <=? n else d <=? n * 2 ^ (- e0))
  then e0 else e0 - 1.

(* nearest binary64 to (-1)^s * n/d   (n >= 0, d > 0) *)
Definition f_round (s : bool) (n d : Z) : Z :=
  b2z s * 2 ^ 63 +
  (if n =? 0 then 0
   else
     let te := Z.max (qlog2 n d - 52) (-1074) in
     let q := if 0 <=? te then div_rne n (d * 2 ^ te)
              else div_rne (n * 2 ^ (- te)) d in
     Z.min ((te + 1074) * 2 ^ 52 + q) (2047 * 2 ^ 52)).

(* n/d of a dyadic m * 2^e *)
Definition dy_n (m e : Z) : Z := if 0 <=? e then m * 2 ^ e else m.
Definition dy_d (e : Z) : Z := if 0 <=? e then 1 else 2 ^ (- e).

Definition f_mul (x y : Z) : Z :=
  let s := xorb (f_sign x) (f_sign y) in
  if f_is_nan x || f_is_nan y then f_nan
  else if f_is_inf x then (if f_is_zero y then f_nan else f_inf s)
  else if f_is_inf y then (if f_is_zero x then f_nan else f_inf s)
  else let m := f_mag x * f_mag y in
       let e := f_e x + f_e y in
       f_round s (dy_n m e) (dy_d e).

Definition f_signed_mag (x : Z) : Z := if f_sign x then - f_mag x else f_mag x.

Definition f_add (x y : Z) : Z :=
  if f_is_nan x || f_is_nan y then f_nan
  else if f_is_inf x then
    (if f_is_inf y && negb (Bool.eqb (f_sign x) (f_sign y)) then f_nan else x)
  else if f_is_inf y then y
  else
    let e := Z.min (f_e x) (f_e y) in
    let m := f_signed_mag x * 2 ^ (f_e x - e) + f_signed_mag y * 2 ^ (f_e y - e) in
    let s := if m =? 0 then f_sign x && f_sign y else m <? 0 in
    f_round s (dy_n (Z.abs m) e) (dy_d e).

(* float(n) for an int; None = OverflowError *)
Definition f_of_int (n : Z) : option Z :=
  let r := f_round (n <? 0) (Z.abs n) 1 in
  if f_is_inf r then None else Some r.

(* a / b for ints, b > 0: CPython's int true division is correctly rounded *)
Definition int_div (a b : Z) : Z := f_round (a <? 0) (Z.abs a) b.

(* int(x): truncation; NaN -> ValueError, inf -> OverflowError *)
Definition f_trunc (x : Z) : res Z :=
  if f_is_nan x then Err ValueError
  else if f_is_inf x then Err OverflowError
  else
    let a := dy_n (f_mag x) (f_e x) / dy_d (f_e x) in
    Ok (if f_sign x then - a else a).

(* math.floor(x) *)
Definition f_floor (x : Z) : res Z :=
  if f_is_nan x then Err ValueError
  else if f_is_inf x then Err OverflowError
  else Ok (dy_n (f_signed_mag x) (f_e x) / dy_d (f_e x)).

(* round(x) without digits: to nearest int, ties to even *)
Definition f_rint (x : Z) : res Z :=
  if f_is_nan x then Err ValueError
  else if f_is_inf x then Err OverflowError
  else
    let a := div_rne (dy_n (f_mag x) (f_e x)) (dy_d (f_e x)) in
    Ok (if f_sign x then - a else a).

(* x <= y, x < y on non-NaN patterns: order of signed magnitudes *)
Definition f_key (x : Z) : Z := if f_sign x then - (x - 2 ^ 63) else x.
Definition f_le (x y : Z) : bool :=
  negb (f_is_nan x) && negb (f_is_nan y) && (f_key x <=? f_key y).
Definition f_lt (x y : Z) : bool :=
  negb (f_is_nan x) && negb (f_is_nan y) && (f_key x <? f_key y).

(* struct.unpack('<f'): binary32 pattern -> binary64 pattern.  A signalling NaN
   is quieted by the hardware conversion. *)
Definition f32_to_64 (b : Z) : Z :=
  let s := (b / 2 ^ 31) * 2 ^ 63 in
  let e := (b / 2 ^ 23) mod 256 in
  let m := b mod 2 ^ 23 in
  if e =? 255 then
    s + 2047 * 2 ^ 52 + (if m =? 0 then 0 else Z.lor m (2 ^ 22) * 2 ^ 29)
  else if e =? 0 then
    (if m =? 0 then s
     else let k := Z.log2 m in
          s + (k + 874) * 2 ^ 52 + (m - 2 ^ k) * 2 ^ (52 - k))
  else s + (e + 896) * 2 ^ 52 + m * 2 ^ 29.

(* struct.pack('<f'): binary64 pattern -> binary32 pattern; None = OverflowError *)
Definition f64_to_32 (x : Z) : option Z :=
  let s := b2z (f_sign x) * 2 ^ 31 in
  if f_is_nan x then Some (s + 255 * 2 ^ 23 + Z.lor (f_man x / 2 ^ 29) (2 ^ 22))
  else if f_is_inf x then Some (s + 255 * 2 ^ 23)
  else if f_exp x =? 0 then Some s
  else
    let te := Z.max (f_e x + 29) (-149) in
    let q := div_rne (f_mag x) (2 ^ (te - f_e x)) in
    let b := (te + 149) * 2 ^ 23 + q in
    if 255 * 2 ^ 23 <=? b then None else Some (s + b).
