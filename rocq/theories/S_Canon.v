(* Specification: which payloads are the canonical encoding of an event.

   This file describes byte layouts.  It does not mention the parser, the
   builder or the construct combinators of the model; of the model it uses the
   names of the event classes, IEEE arithmetic (M_Float) and the strict text
   decoders (M_Text). *)
From Coq Require Import String ZArith List Bool.
From Verif Require Import M_Base M_Float M_Text M_Events.
Import ListNotations.
Open Scope Z_scope.

(* value of a little-endian unsigned number *)
Definition u_le (b : bytes) : Z := fold_right (fun x acc => x + 256 * acc) 0 b.

(* A fixed-size cell of a record.
   [c_reads]: the bytes can be read as a value at all;
   [c_ok]: writing the value gives the same bytes again;
   [c_fixed]: every value of the cell has an encoding. *)
Record cell := Cell {
  c_size : nat;
  c_reads : bytes -> bool;
  c_ok : bytes -> bool;
  c_fixed : bool
}.
Definition any (n : nat) : cell := Cell n (fun _ => true) (fun _ => true) true.
(* one byte, 0 or 1 *)
Definition c_flag : cell := Cell 1 (fun _ => true) (fun b => u_le b <? 2) true.
(* a 32-bit truth value *)
Definition c_bool4 : cell := Cell 4 (fun _ => true) (fun b => u_le b <? 2) true.
(* binary32, anything but a signalling NaN *)
Definition is_snan32 (b : bytes) : bool :=
  let x := u_le b mod 2 ^ 31 in
  (255 * 2 ^ 23 <? x) && (x <? 255 * 2 ^ 23 + 2 ^ 22).
Definition c_f32 : cell := Cell 4 (fun _ => true) (fun b => negb (is_snan32 b)) true.
(* envelope flags: with Python >= 3.11 a negative number is not kept *)
Definition c_envflags (en : env) : cell :=
  Cell 4 (fun _ => true) (fun b => negb (en_py311 en) || (u_le b <? 2 ^ 31)) false.
(* track height: binary32; a finite number that is the binary32 nearest to N/100,
   N = its hundredfold cut to an integer *)
Definition height_pct (b : bytes) : res Z :=
  f_trunc (f_mul (f32_to_64 (u_le b)) 4636737291354636288 (* 100.0 *)).
Definition c_height : cell := Cell 4
  (fun b => is_ok (height_pct b))
  (fun b => match height_pct b with
            | Ok n => match f64_to_32 (int_div n 100) with
                      | Some w => w =? u_le b | None => false end
            | Err _ => false
            end) false.
(* stretch multiplier: signed 32-bit n for 2^(n/10000) *)
Definition s_le4 (b : bytes) : Z := if u_le b <? 2 ^ 31 then u_le b else u_le b - 2 ^ 32.
Definition c_log2 (en : env) : cell := Cell 4
  (fun b => is_ok (en_exp2 en (int_div (s_le4 b) 10000)))
  (fun b => match en_exp2 en (int_div (s_le4 b) 10000) with
            | Ok x => match en_log2 en x with
                      | Ok l => match f_trunc (f_mul 4666723172467343360 (* 10000.0 *) l) with
                                | Ok z => z =? s_le4 b | Err _ => false end
                      | Err _ => false
                      end
            | Err _ => false
            end) false.
(* sample start / length: (0, _) for zero, else (n, 63) for 2^(n/4096 - 15),
   clamped to 0..1 *)
Definition lognormal_value (en : env) (n : Z) : res Z :=
  match en_exp2 en (int_div n 4096) with
  | Ok p => let q := f_mul p 4539628424389459968 (* 2^-15 *) in
            let m := if f_lt q 4607182418800017408 (* 1.0 *) then q else 4607182418800017408 in
            Ok (if f_lt m 0 then 0 else m)
  | Err e => Err e
  end.
Definition lognormal_index (en : env) (x : Z) : res Z :=
  match en_log2 en x with
  | Ok l => match f_trunc (f_mul 4661225614328463360 (* 4096.0 *)
                                 (f_add l 4624633867356078080 (* 15.0 *))) with
            | Ok k => Ok (Z.min (Z.max 0 k) 61440)
            | Err e => Err e
            end
  | Err e => Err e
  end.
Definition c_lognormal (en : env) : cell := Cell 4
  (fun b => let n := u_le (firstn 2 b) in
            (n =? 0) || ((u_le (skipn 2 b) =? 63) && is_ok (lognormal_value en n)))
  (fun b => let n := u_le (firstn 2 b) in
            if n =? 0 then u_le (skipn 2 b) =? 0
            else match lognormal_value en n with
                 | Ok x => if negb (f_le 0 x && f_le x 4607182418800017408) then false
                           else if f_is_zero x then false
                           else match lognormal_index en x with
                                | Ok k => k =? n | Err _ => false end
                 | Err _ => false
                 end) false.

(* A record is a sequence of fields.  [May]: a field that older versions lack.
   [Flag]: a field of one byte that older versions lack; PyFLP cannot leave it
   out, so a record without it is not canonical.  [Rest]: everything left. *)
Inductive item := Need (c : cell) | May (c : cell) | MayFlag | Rest.

Fixpoint canon (fs : list item) (bs : bytes) : bool :=
  match fs with
  | [] => match bs with [] => true | _ => false end
  | Need c :: r =>
      let n := c_size c in
      (n <=? length bs)%nat && c_reads c (firstn n bs) && c_ok c (firstn n bs)
      && canon r (skipn n bs)
  | May c :: r =>
      let n := c_size c in
      if (n <=? length bs)%nat && c_reads c (firstn n bs)
      then c_ok c (firstn n bs) && canon r (skipn n bs)
      else canon r bs
  | MayFlag :: r =>
      match bs with
      | [] => false
      | b :: bs' => (b <? 2) && canon r bs'
      end
  | Rest :: _ => true
  end.

(* list of records of n bytes each *)
Fixpoint records (fuel : nat) (n : nat) (ok : bytes -> bool) (bs : bytes) : bool :=
  match bs with
  | [] => true
  | _ => match fuel with
         | O => false
         | S f => (n <=? length bs)%nat && ok (firstn n bs) && records f n ok (skipn n bs)
         end
  end.
Definition all_records (n : nat) (ok : bytes -> bool) (bs : bytes) : bool :=
  records (length bs) n ok bs.

(* shortest base-128 number: no superfluous zero group at the end.
   [lenprefix bs] = (value, shortest?, rest) *)
Fixpoint lenprefix (bs : bytes) : option (Z * bool * bytes) :=
  match bs with
  | [] => None
  | b :: r =>
      if b <? 128 then Some (b, true, r)
      else match lenprefix r with
           | Some (n, m, r') => Some (b - 128 + 128 * n, m && negb (n =? 0), r')
           | None => None
           end
  end.

(* drop trailing pairs of NUL bytes *)
Fixpoint drop_zero_pairs (rb : bytes) : bytes :=   (* on the reversed list *)
  match rb with
  | 0 :: 0 :: r => drop_zero_pairs r
  | _ => rb
  end.
Definition utf16_text (b : bytes) : bool :=
  match utf16_dec (rev (drop_zero_pairs (rev b))) with Some _ => true | None => false end.

(* pages of Fruity NoteBook 2, then the "editable" flag *)
Fixpoint notebook (fuel : nat) (bs : bytes) : bool :=
  match fuel with
  | O => false
  | S f =>
      match bs with
      | [b] => b <? 2
      | b0 :: b1 :: b2 :: b3 :: r =>
          if u_le [b0; b1; b2; b3] =? 2 ^ 32 - 1 then notebook f r
          else match lenprefix r with
               | Some (n, m, r') =>
                   m && (2 * n <=? zlen r') && utf16_text (firstn (Z.to_nat (2 * n)) r')
                   && notebook f (skipn (Z.to_nat (2 * n)) r')
               | None => false
               end
      | _ => false
      end
  end.

Definition vst_flag_items : list item :=
  [May (any 9); May (any 4); May (any 4); May (any 5); MayFlag; Rest].
Definition vst_midi_items : list item := [May (any 4); May (any 4); May (any 4); Rest].
Definition vst_data (id : Z) (b : bytes) : bool :=
  if id =? 1 then canon vst_midi_items b
  else if id =? 2 then canon vst_flag_items b
  else if (id =? 51) || (id =? 54) || (id =? 55) || (id =? 56)
  then match utf8_dec b with Some _ => true | None => false end
  else true.
(* id (4 bytes), size (8 bytes), data *)
Fixpoint vst_events (fuel : nat) (bs : bytes) : bool :=
  match bs with
  | [] => true
  | _ =>
      match fuel with
      | O => false
      | S f =>
          let n := u_le (firstn 8 (skipn 4 bs)) in
          let d := skipn 12 bs in
          (12 <=? length bs)%nat && (n <=? zlen d)
          && vst_data (u_le (firstn 4 bs)) (firstn (Z.to_nat n) d)
          && vst_events f (skipn (Z.to_nat n) d)
      end
  end.

(* automation: 17 bytes, a count, that many points, anything *)
Definition auto_point_ok (b : bytes) : bool := c_ok c_f32 (firstn 4 (skipn 16 b)).
Fixpoint points (fuel : nat) (n : Z) (bs : bytes) : bool :=
  if n =? 0 then true
  else match fuel with
       | O => false
       | S f => (24 <=? length bs)%nat && auto_point_ok (firstn 24 bs) && points f (n - 1) (skipn 24 bs)
       end.
Definition automation (bs : bytes) : bool :=
  (21 <=? length bs)%nat
  && points (length bs) (u_le (firstn 4 (skipn 17 bs))) (skipn 21 bs).

(* text: validly encoded and terminated by exactly one NUL character *)
Definition one_nul (dec : bytes -> option pystr) (b : bytes) : bool :=
  match dec b with
  | Some s => match rev s with
              | 0 :: 0 :: _ => false
              | 0 :: _ => true
              | _ => false
              end
  | None => false
  end.

Definition need := map Need.
Definition may := map May.

Definition track_items : list item :=
  [May (any 4); May (any 4); May (any 4); MayFlag; May c_height; May (any 4); MayFlag;
   May (any 4); May (any 4); May (any 4); May c_bool4; May c_bool4; May (any 4);
   MayFlag; MayFlag; Rest].
Definition parameters_items (en : env) : list item :=
  [May (any 9); MayFlag; May (any 1); MayFlag; May (any 28); May (any 4); May (any 4);
   May (any 4); May c_f32; May c_f32; MayFlag; May (any 1); MayFlag; MayFlag; May (any 2);
   May (any 2); May (any 8); May (any 4); MayFlag; MayFlag; May (any 1); May (any 1);
   May (any 4); May (any 4); May (any 4); May (any 4); May (any 4); May (c_log2 en);
   May (any 4); May (any 21); May (c_lognormal en); May (any 4); May (c_lognormal en);
   May (any 3); May (any 4); May (any 5); MayFlag; Rest].

(* What the format calls the canonical payload of an event of class [k]. *)
Definition canonical_payload (en : env) (k : kind) (b : bytes) : bool :=
  let n := zlen b in
  match k with
  | KBool => canon [Need c_flag] b
  | KI8 | KU8 => n =? 1
  | KI16 | KU16 => n =? 2
  | KF32 => canon [Need c_f32] b
  | KI32 | KU32 | KU16Tuple | KColor => n =? 4
  | KAscii => one_nul ascii_dec b
  | KUnicode => one_nul utf16_dec b
  | KUnknown => true
  | KAutomation => automation b
  | KDelay => canon (may (repeat (any 4) 5)) b
  | KEnvelopeLFO => canon (may (c_envflags en :: repeat (any 4) 16)) b
  | KLevelAdjusts => canon (may (repeat (any 4) 5)) b
  | KLevels => canon (may (repeat (any 4) 6)) b
  | KParameters => canon (parameters_items en) b
  | KPolyphony => canon (may [any 4; any 4; any 1]) b
  | KTracking => canon (may (repeat (any 4) 4)) b
  | KBooBass => (n =? 12) || (n =? 16)
  | KFruitKick => n =? 32
  | KFruityBalance => n =? 8
  | KFruityBloodOverdrive =>
      if n =? 36 then canon (need [any 4; any 4; any 4; any 4; c_bool4; any 4; any 4; any 4; any 4]) b
      else canon (need [any 4; any 4; any 4; c_bool4; any 4; any 4; any 4; any 4]) b
  | KFruityCenter =>
      if n =? 8 then canon (need [any 4; c_bool4]) b else canon (need [c_bool4]) b
  | KFruityFastDist => n =? 20
  | KFruityNotebook2 => (8 <=? length b)%nat && notebook (length b) (skipn 8 b)
  | KFruitySend => n =? 16
  | KFruitySoftClipper => n =? 8
  | KFruityStereoEnhancer => n =? 24
  | KPlucked => canon (need [any 4; any 4; c_bool4; c_bool4; c_bool4]) b
  | KSoundgoodizer => (n =? 8) || (n =? 12)
  | KWrapper => canon (may [any 16; any 2; any 2; any 1; any 23; any 4; any 4] ++ [Rest]) b
  | KVSTPlugin => (4 <=? length b)%nat && vst_events (length b) (skipn 4 b)
  | KPLSelection => canon (may [any 4; any 4]) b
  | KPlaylist =>
      if n mod 60 =? 0
      then all_records 60 (canon (need [any 24; c_f32; c_f32; any 28])) b
      else all_records 32 (canon (need [any 24; c_f32; c_f32])) b
  | KTrack => canon track_items b
  | KInsertFlags => canon (may [any 4; any 4; any 4]) b
  | KInsertRouting => forallb (fun x => x <? 2) b
  | KMixerParams => n mod 12 =? 0
  | KController => all_records 12 (canon (need [any 8; c_f32])) b
  | KNotes => n mod 24 =? 0
  | KMIDIController => true
  | KRemoteController => canon (may [any 2; any 1; any 1; any 2; any 2; any 8; any 4]) b
  | KTimestamp => n =? 16
  end.
