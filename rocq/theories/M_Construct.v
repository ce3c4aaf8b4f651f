(* The part of the `construct` library (2.10) used by PyFLP, as a shallow
   embedding: a construct is a parser and a builder over byte lists.
   No proofs. *)
From Coq Require Import String ZArith List Bool.
From Verif Require Import M_Base M_Float M_Text.
Import ListNotations.
Open Scope Z_scope.

(* Parsing / building context: the keyword arguments given to
   STRUCT.parse / STRUCT.build (pyflp/_events.py:125,139,336;
   pyflp/arrangement.py:89), the `_index` of the enclosing array, the fields of
   the enclosing Struct seen so far, and two things that are global in Python:
   the interpreter generation and libm. *)
Record ctx := Ctx {
  cx_py311 : bool;             (* interpreter is Python >= 3.11 *)
  cx_log2 : Z -> res Z;        (* math.log2, on float patterns *)
  cx_exp2 : Z -> res Z;        (* 2 ** x, x a float *)
  cx_len : Z;                  (* len=... *)
  cx_new : bool;               (* new=... *)
  cx_index : Z;                (* _index *)
  cx_stream : bytes;           (* the whole stream (_io), when parsing *)
  cx_fields : list (string * val)
}.

Definition cx_with_index (cx : ctx) (i : Z) : ctx :=
  Ctx (cx_py311 cx) (cx_log2 cx) (cx_exp2 cx) (cx_len cx) (cx_new cx) i
      (cx_stream cx) (cx_fields cx).
Definition cx_with_fields (cx : ctx) (d : list (string * val)) : ctx :=
  Ctx (cx_py311 cx) (cx_log2 cx) (cx_exp2 cx) (cx_len cx) (cx_new cx) (cx_index cx)
      (cx_stream cx) d.

Record con := Con {
  cparse : ctx -> bytes -> res (val * bytes); (* value, rest of the stream *)
  cbuild : ctx -> val -> res bytes;
  cnone : bool                                (* flagbuildnone *)
}.

(* construct.lib stream_read: exactly n bytes or StreamError *)
Definition take (n : nat) (bs : bytes) : res (bytes * bytes) :=
  if (n <=? length bs)%nat then Ok (firstn n bs, skipn n bs) else Err StreamError.

(* little-endian integers *)
Fixpoint le_dec (bs : bytes) : Z :=
  match bs with [] => 0 | b :: r => b + 256 * le_dec r end.
Fixpoint le_enc (n : nat) (z : Z) : bytes :=
  match n with O => [] | S n => z mod 256 :: le_enc n (z / 256) end.

(* FormatField "<B/H/L/Q" and "<b/h/l" *)
Definition c_uint (n : nat) : con := Con
  (fun _ bs => let* (d, r) := take n bs in Ok (VInt (le_dec d), r))
  (fun _ v => match as_int v with
              | Some z => if (0 <=? z) && (z <? 256 ^ Z.of_nat n)
                          then Ok (le_enc n z) else Err FormatFieldError
              | None => Err FormatFieldError
              end)
  false.

Definition to_signed (n : nat) (z : Z) : Z :=
  if 2 * z <? 256 ^ Z.of_nat n then z else z - 256 ^ Z.of_nat n.

Definition c_sint (n : nat) : con := Con
  (fun _ bs => let* (d, r) := take n bs in Ok (VInt (to_signed n (le_dec d)), r))
  (fun _ v => match as_int v with
              | Some z => if (- 256 ^ Z.of_nat n <=? 2 * z) && (2 * z <? 256 ^ Z.of_nat n)
                          then Ok (le_enc n z) else Err FormatFieldError
              | None => Err FormatFieldError
              end)
  false.

Definition Int8ul := c_uint 1.   Definition Byte := c_uint 1.
Definition Int16ul := c_uint 2.  Definition Int32ul := c_uint 4.
Definition Int64ul := c_uint 8.
Definition Int8sl := c_sint 1.   Definition Int16sl := c_sint 2.
Definition Int32sl := c_sint 4.

(* float(x) where a number is wanted *)
Definition as_float (v : val) : option Z :=
  match v with
  | VFlt b => Some b
  | _ => match as_int v with Some z => f_of_int z | None => None end
  end.

Definition Float64l : con := Con
  (fun _ bs => let* (d, r) := take 8 bs in Ok (VFlt (le_dec d), r))
  (fun _ v => match as_float v with
              | Some b => Ok (le_enc 8 b) | None => Err FormatFieldError end)
  false.
Definition Float32l : con := Con
  (fun _ bs => let* (d, r) := take 4 bs in Ok (VFlt (f32_to_64 (le_dec d)), r))
  (fun _ v => match as_float v with
              | Some b => match f64_to_32 b with
                          | Some w => Ok (le_enc 4 w) | None => Err FormatFieldError end
              | None => Err FormatFieldError end)
  false.

(* Flag: any non-zero byte is True; builds the truth value of anything *)
Definition Flag : con := Con
  (fun _ bs => let* (d, r) := take 1 bs in
               Ok (VBool (negb (le_dec d =? 0)), r))
  (fun _ v => Ok [if truthy v then 1 else 0])
  false.

(* Bytes(n); an int object is converted big-endian (integer2bytes) *)
Definition Bytes (n : nat) : con := Con
  (fun _ bs => let* (d, r) := take n bs in Ok (VBytes d, r))
  (fun _ v => match v with
              | VBytes b => if (length b =? n)%nat then Ok b else Err StreamError
              | _ => match as_int v with
                     | Some z => if (0 <=? z) && (z <? 256 ^ Z.of_nat n)
                                 then Ok (rev (le_enc n z)) else Err IntegerError
                     | None => Err StreamError
                     end
              end)
  false.

Definition GreedyBytes : con := Con
  (fun _ bs => Ok (VBytes bs, []))
  (fun _ v => match v with VBytes b => Ok b | _ => Err StreamError end)
  false.

(* VarInt: base-128, least significant group first *)
Fixpoint varint_dec (bs : bytes) : res (Z * bytes) :=
  match bs with
  | [] => Err StreamError
  | b :: r =>
      if b <? 128 then Ok (b, r)
      else let* (n, r') := varint_dec r in Ok (b mod 128 + 128 * n, r')
  end.
Fixpoint varint_enc_aux (fuel : nat) (n : Z) : bytes :=
  match fuel with
  | O => []
  | S f => if n <? 128 then [n]
           else (128 + n mod 128) :: varint_enc_aux f (n / 128)
  end.
Definition varint_enc (n : Z) : bytes := varint_enc_aux (S (Z.to_nat (Z.log2 n))) n.

Definition VarInt : con := Con
  (fun _ bs => let* (n, r) := varint_dec bs in Ok (VInt n, r))
  (fun _ v => match as_int v with
              | Some z => if 0 <=? z then Ok (varint_enc z) else Err IntegerError
              | None => Err IntegerError
              end)
  false.

(* Pass, Computed *)
Definition Pass : con := Con (fun _ bs => Ok (VNone, bs)) (fun _ _ => Ok []) true.
Definition Computed (f : ctx -> res val) : con := Con
  (fun cx bs => let* v := f cx in Ok (v, bs)) (fun _ _ => Ok []) true.

(* Optional(c) = Select(c, Pass): any exception while parsing rewinds and gives
   None; any exception while building writes nothing. *)
Definition Optional (c : con) : con := Con
  (fun cx bs => match cparse c cx bs with Ok r => Ok r | Err _ => Ok (VNone, bs) end)
  (fun cx v => match cbuild c cx v with Ok b => Ok b | Err _ => Ok [] end)
  true.

(* If(cond, c) = IfThenElse(cond, c, Pass) *)
Definition If_ (cond : ctx -> bool) (c : con) : con := Con
  (fun cx bs => if cond cx then cparse c cx bs else Ok (VNone, bs))
  (fun cx v => if cond cx then cbuild c cx v else Ok [])
  true.

(* StopIf(cond): leaves the enclosing Struct *)
Definition StopIf (cond : ctx -> bool) : con := Con
  (fun cx bs => if cond cx then Err StopFieldError else Ok (VNone, bs))
  (fun cx _ => if cond cx then Err StopFieldError else Ok [])
  true.

(* Struct(...); an empty name means an anonymous member *)
Definition put (d : list (string * val)) (n : string) (v : val) :=
  if String.eqb n "" then d else dset d n v.

Fixpoint struct_parse (fs : list (string * con)) (cx : ctx)
  (acc : list (string * val)) (bs : bytes) : res (list (string * val) * bytes) :=
  match fs with
  | [] => Ok (acc, bs)
  | (n, c) :: r =>
      match cparse c (cx_with_fields cx acc) bs with
      | Ok (v, bs') => struct_parse r cx (put acc n v) bs'
      | Err StopFieldError => Ok (acc, bs)
      | Err e => Err e
      end
  end.

Fixpoint struct_build (fs : list (string * con)) (cx : ctx)
  (d : list (string * val)) : res bytes :=
  match fs with
  | [] => Ok []
  | (n, c) :: r =>
      let* v := match dget d n with
                | Some v => Ok v
                | None => if cnone c then Ok VNone else Err KeyError
                end in
      match cbuild c (cx_with_fields cx d) v with
      | Ok b => let* b' := struct_build r cx d in Ok (b ++ b')
      | Err StopFieldError => Ok []
      | Err e => Err e
      end
  end.

Definition Struct (fs : list (string * con)) : con := Con
  (fun cx bs => let* (d, r) := struct_parse fs cx [] bs in Ok (VDict d, r))
  (fun cx v => match v with
               | VDict d => struct_build fs cx d
               | VNone => struct_build fs cx []
               | _ => Err TypeError
               end)
  (forallb (fun f => cnone (snd f)) fs).

(* GreedyRange(c): until the first exception, then rewinds that item.  The fuel
   is the number of bytes left + 1; every item construct used by PyFLP consumes
   at least one byte, so it does not run out. *)
Fixpoint greedy_parse (fuel : nat) (c : con) (cx : ctx) (i : Z) (bs : bytes)
  : res (list val * bytes) :=
  match fuel with
  | O => Err OutOfFuel
  | S f =>
      match cparse c (cx_with_index cx i) bs with
      | Ok (v, bs') => let* (vs, r) := greedy_parse f c cx (i + 1) bs' in Ok (v :: vs, r)
      | Err _ => Ok ([], bs)
      end
  end.
Fixpoint items_build (c : con) (cx : ctx) (i : Z) (vs : list val) : res bytes :=
  match vs with
  | [] => Ok []
  | v :: r => let* b := cbuild c (cx_with_index cx i) v in
              let* b' := items_build c cx (i + 1) r in Ok (b ++ b')
  end.
Definition seq_of (v : val) : res (list val) :=
  match v with VList l | VTup l => Ok l | _ => Err TypeError end.
Definition GreedyRange (c : con) : con := Con
  (fun cx bs => let* (vs, r) := greedy_parse (S (length bs)) c cx 0 bs in Ok (VList vs, r))
  (fun cx v => let* l := seq_of v in items_build c cx 0 l)
  false.

(* c[n] = Array(n, c) *)
Fixpoint array_parse (n : nat) (c : con) (cx : ctx) (i : Z) (bs : bytes)
  : res (list val * bytes) :=
  match n with
  | O => Ok ([], bs)
  | S n =>
      let* (v, bs') := cparse c (cx_with_index cx i) bs in
      let* (vs, r) := array_parse n c cx (i + 1) bs' in Ok (v :: vs, r)
  end.
Definition Array (n : nat) (c : con) : con := Con
  (fun cx bs => let* (vs, r) := array_parse n c cx 0 bs in Ok (VList vs, r))
  (fun cx v => let* l := seq_of v in
               if (length l =? n)%nat then items_build c cx 0 l else Err RangeError)
  false.

(* PrefixedArray(count, c).  A huge count fails as soon as the stream ends, so
   the loop runs on the stream: fuel = number of bytes + 1. *)
Fixpoint parray_parse (fuel : nat) (n : Z) (c : con) (cx : ctx) (i : Z) (bs : bytes)
  : res (list val * bytes) :=
  if n <=? i then Ok ([], bs)
  else match fuel with
       | O => Err OutOfFuel
       | S f =>
           let* (v, bs') := cparse c (cx_with_index cx i) bs in
           let* (vs, r) := parray_parse f n c cx (i + 1) bs' in Ok (v :: vs, r)
       end.
Definition PrefixedArray (cnt c : con) : con := Con
  (fun cx bs =>
     let* (n, bs') := cparse cnt cx bs in
     match as_int n with
     | Some n => let* (vs, r) := parray_parse (S (length bs')) n c cx 0 bs' in Ok (VList vs, r)
     | None => Err TypeError
     end)
  (fun cx v => let* l := seq_of v in
               let* h := cbuild cnt cx (VInt (zlen l)) in
               let* b := items_build c cx 0 l in Ok (h ++ b))
  false.

(* Prefixed(lengthfield, c): c sees only the announced bytes; what it leaves
   over is ignored *)
Definition Prefixed (len c : con) : con := Con
  (fun cx bs =>
     let* (n, bs') := cparse len cx bs in
     match as_int n with
     | Some n => if zlen bs' <? n then Err StreamError
                 else let d := firstn (Z.to_nat n) bs' in
                      let* (v, _) := cparse c cx d in
                      Ok (v, skipn (Z.to_nat n) bs')
     | None => Err TypeError
     end)
  (fun cx v => let* b := cbuild c cx v in
               let* h := cbuild len cx (VInt (zlen b)) in Ok (h ++ b))
  false.

(* Switch: the construct is chosen from the context *)
Definition Switch (sel : ctx -> con) : con := Con
  (fun cx bs => cparse (sel cx) cx bs) (fun cx v => cbuild (sel cx) cx v) false.

(* Adapter / ExprAdapter *)
Definition Adapter (dec enc : ctx -> val -> res val) (c : con) : con := Con
  (fun cx bs => let* (v, r) := cparse c cx bs in let* w := dec cx v in Ok (w, r))
  (fun cx v => let* w := enc cx v in cbuild c cx w)
  (cnone c).

(* Enum(c, name=value, ...): unknown integers are kept as integers *)
Fixpoint enum_name (m : list (pystr * Z)) (z : Z) : option pystr :=
  match m with
  | [] => None
  | (n, v) :: r => if v =? z then Some n else enum_name r z
  end.
Fixpoint enum_value (m : list (pystr * Z)) (s : pystr) : option Z :=
  match m with
  | [] => None
  | (n, v) :: r => if list_Zeqb n s then Some v else enum_value r s
  end.
Definition Enum (m : list (pystr * Z)) (c : con) : con := Adapter
  (fun _ v => match as_int v with
              | Some z => Ok (match enum_name m z with Some n => VStr n | None => VInt z end)
              | None => Err MappingError
              end)
  (fun _ v => match as_int v with
              | Some z => Ok (VInt z)
              | None => match v with
                        | VStr s => match enum_value m s with
                                    | Some z => Ok (VInt z) | None => Err MappingError end
                        | _ => Err MappingError
                        end
              end) c.

(* GreedyString(encoding) = StringEncoded(GreedyBytes, encoding) *)
Definition GreedyString (dec : bytes -> option pystr) (enc : pystr -> option bytes) : con :=
  Adapter
    (fun _ v => match v with
                | VBytes b => match dec b with Some s => Ok (VStr s) | None => Err StringError end
                | _ => Err StringError end)
    (fun _ v => match v with
                | VStr s => match enc s with Some b => Ok (VBytes b) | None => Err StringError end
                | _ => Err StringError end)
    GreedyBytes.

(* NullStripped(GreedyBytes, pad=b"\0\0") on an even number of bytes *)
Fixpoint strip_units (fuel : nat) (b : bytes) : bytes :=
  match fuel with
  | O => b
  | S f => let n := length b in
           if (2 <=? n)%nat then
             if list_Zeqb (skipn (n - 2) b) [0; 0] then strip_units f (firstn (n - 2) b) else b
           else b
  end.

(* PaddedString(length, "utf-16-le") =
   StringEncoded(FixedSized(length, NullStripped(GreedyBytes, b"\0\0")), ...) *)
Definition PaddedString16 (len : ctx -> res Z) : con := Con
  (fun cx bs =>
     let* n := len cx in
     if n <? 0 then Err PaddingError
     else if zlen bs <? n then Err StreamError
     else let d := firstn (Z.to_nat n) bs in
          match utf16_dec (strip_units (length d) d) with
          | Some s => Ok (VStr s, skipn (Z.to_nat n) bs)
          | None => Err StringError
          end)
  (fun cx v =>
     match v with
     | VStr s =>
         match utf16_enc s with
         | Some b =>
             let* n := len cx in
             if (n <? 0) || (n <? zlen b) then Err PaddingError
             else Ok (b ++ repeat 0 (Z.to_nat (n - zlen b)))
         | None => Err StringError
         end
     | _ => Err StringError
     end)
  false.
