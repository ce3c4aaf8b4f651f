(* Specification: which values an event of a scalar class can hold so that they
   survive being written and read. *)
From Coq Require Import String ZArith List Bool.
From Verif Require Import M_Base M_Float M_Events S_Canon.
Import ListNotations.
Open Scope Z_scope.

Definition int_between (lo hi : Z) (v : val) : Prop := exists z, v = VInt z /\ lo <= z < hi.
(* Unicode scalar values *)
Definition scalar (c : Z) : Prop := 0 <= c < 55296 \/ 57344 <= c < 1114112.
Definition no_trailing_nul (s : pystr) : Prop := forall t, s <> t ++ [0].

Definition scalar_kind (k : kind) : bool :=
  match k with
  | KBool | KI8 | KU8 | KI16 | KU16 | KF32 | KI32 | KU32 | KU16Tuple | KColor
  | KAscii | KUnicode | KUnknown => true
  | _ => false
  end.

Definition domain (k : kind) (v : val) : Prop :=
  match k with
  | KBool => exists b, v = VBool b
  | KI8 => int_between (-128) 128 v
  | KU8 => int_between 0 256 v
  | KI16 => int_between (-32768) 32768 v
  | KU16 => int_between 0 65536 v
  | KI32 => int_between (-2147483648) 2147483648 v
  | KU32 => int_between 0 4294967296 v
  (* a binary32 number that is no signalling NaN *)
  | KF32 => exists b, is_bytes b /\ length b = 4%nat /\ is_snan32 b = false /\
                      v = VFlt (f32_to_64 (u_le b))
  | KU16Tuple => exists a b, v = VTup [VInt a; VInt b] /\ 0 <= a < 65536 /\ 0 <= b < 65536
  (* components are multiples of 1/255 *)
  | KColor => exists r g b a, v = VTup (map (fun c => VFlt (int_div c 255)) [r; g; b; a]) /\
                              is_bytes [r; g; b; a]
  | KAscii => exists s, v = VStr s /\ no_trailing_nul s /\ Forall (fun c => 0 <= c < 128) s
  | KUnicode => exists s, v = VStr s /\ no_trailing_nul s /\ Forall scalar s
  | KUnknown => exists b, v = VBytes b /\ is_bytes b
  | _ => False
  end.
