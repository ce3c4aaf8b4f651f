(* Specification: the fields of structured events - name, size, meaning - as byte
   layouts.  Independent of the construct model; of the model it uses values,
   IEEE arithmetic and decimal notation. *)
From Coq Require Import String ZArith List Bool.
From Verif Require Import M_Base M_Float M_Text M_Structs M_Events S_Canon S_File S_Prop.
Import ListNotations.
Open Scope Z_scope.

(* two's complement *)
Definition s_le (b : bytes) : Z :=
  let z := u_le b in
  if 2 * z <? 256 ^ Z.of_nat (length b) then z else z - 256 ^ Z.of_nat (length b).

Inductive ftype :=
| TU (n : nat)                 (* unsigned number *)
| TS (n : nat)                 (* signed number *)
| TF32 | TF64                  (* IEEE numbers *)
| TRaw (n : nat)               (* uninterpreted *)
| TFlag                        (* truth value, one byte *)
| TBool4                       (* truth value, four bytes *)
| TEnum (n : nat)              (* member of an enumeration, unsigned *)
| TEnumS (n : nat)             (* ..., signed *)
| TFlags (n : nat)             (* set of flags, unsigned *)
| TFlagsS (n : nat) (mask : Z) (* ..., signed *)
| TNames (n : nat) (names : list pystr)   (* 0, 1, ... stand for names *)
| TPair (n : nat)              (* two unsigned numbers *)
| TMusical                     (* bars of 16 beats of 48 units; 1 unit = 5 ticks *)
| TMult                        (* n for the factor 2^(n/10000) *)
| TLevel                       (* logarithmic level 0..1 *)
| THeight.                     (* binary32 for a percentage *)

Definition ft_size (t : ftype) : nat :=
  match t with
  | TU n | TS n | TRaw n | TEnum n | TEnumS n | TFlags n | TFlagsS n _ | TNames n _ => n
  | TF32 | TBool4 | TMusical | TMult | TLevel | THeight => 4
  | TF64 => 8
  | TFlag => 1
  | TPair n => n + n
  end.

(* the value a field of that many bytes stands for; None: unreadable *)
Definition ft_dec (en : env) (t : ftype) (b : bytes) : option val :=
  match t with
  | TU _ => Some (VInt (u_le b))
  | TS _ => Some (VInt (s_le b))
  | TF32 => Some (VFlt (f32_to_64 (u_le b)))
  | TF64 => Some (VFlt (u_le b))
  | TRaw _ => Some (VBytes b)
  | TFlag | TBool4 => Some (VBool (negb (u_le b =? 0)))
  | TEnum _ | TFlags _ => Some (VEnum (u_le b))
  | TEnumS _ => Some (VEnum (s_le b))
  | TFlagsS _ mask => Some (VEnum (intflag_norm (en_py311 en) mask (s_le b)))
  | TNames _ names => Some (match nth_error names (Z.to_nat (u_le b)) with
                            | Some s => VStr s | None => VInt (u_le b) end)
  | TPair n => Some (VTup [VInt (u_le (firstn n b)); VInt (u_le (skipn n b))])
  | TMusical => let q := u_le b in
                Some (VTup [VInt (q / 768); VInt (q mod 768 / 48); VInt (q mod 48 * 5)])
  | TMult => match en_exp2 en (int_div (s_le b) 10000) with
             | Ok x => Some (VFlt x) | Err _ => None end
  | TLevel => let n := u_le (firstn 2 b) in
              if n =? 0 then Some (VFlt 0)
              else if u_le (skipn 2 b) =? 63
                   then match lognormal_value en n with
                        | Ok x => Some (VFlt x) | Err _ => None end
                   else None
  | THeight => match height_pct b with
               | Ok n => Some (VStr (py_str_int n ++ str "%")) | Err _ => None end
  end.

(* the cell of S_Canon: whether writing the value gives the same bytes *)
Definition ft_cell (en : env) (t : ftype) : cell :=
  match t with
  | TF32 => c_f32
  | TFlag => c_flag
  | TBool4 => c_bool4
  | TFlagsS _ _ => c_envflags en
  | TMult => c_log2 en
  | TLevel => c_lognormal en
  | THeight => c_height
  | _ => any (ft_size t)
  end.

(* [Opt]: older versions lack the field; [Gone]: this version lacks it;
   [Tail]: everything left over *)
Inductive field := Req (n : string) (t : ftype) | Opt (n : string) (t : ftype)
                 | Gone (n : string) | Tail (n : string).
Definition f_name (f : field) : string :=
  match f with Req n _ | Opt n _ | Gone n | Tail n => n end.
Definition f_type (f : field) : option ftype :=
  match f with Req _ t | Opt _ t => Some t | _ => None end.
Definition f_size (f : field) : nat :=
  match f_type f with Some t => ft_size t | None => O end.

Section Layouts.
Local Open Scope string_scope.
Definition raw (n : string) (k : nat) := Req n (TRaw k).
Definition u32 (n : string) := Req n (TU 4).
Definition i32 (n : string) := Req n (TS 4).
Definition rawO (n : string) (k : nat) := Opt n (TRaw k).
Definition u32O (n : string) := Opt n (TU 4).
Definition i32O (n : string) := Opt n (TS 4).
Definition flagO (n : string) := Opt n TFlag.
Definition marker (b : bool) (n : string) : field := if b then raw n 4 else Gone n.

(* fields of an event of class [k] whose payload has [L] bytes *)
Definition layout (L : Z) (k : kind) : option (list field) :=
  match k with
  | KDelay => Some [u32O "feedback"; i32O "pan"; i32O "pitch_shift"; u32O "echoes"; u32O "time"]
  | KEnvelopeLFO => Some
     (Opt "flags" (TFlagsS 4 39) :: map i32O
        ["envelope.enabled"; "envelope.predelay"; "envelope.attack"; "envelope.hold";
         "envelope.decay"; "envelope.sustain"; "envelope.release"; "envelope.amount"] ++
      [u32O "lfo.predelay"; u32O "lfo.attack"; i32O "lfo.amount"; u32O "lfo.speed";
       Opt "lfo.shape" (TEnumS 4); i32O "envelope.attack_tension";
       i32O "envelope.decay_tension"; i32O "envelope.release_tension"])%list
  | KLevelAdjusts => Some [i32O "pan"; u32O "volume"; u32O "_u1"; i32O "mod_x"; i32O "mod_y"]
  | KLevels => Some [i32O "pan"; u32O "volume"; i32O "pitch_shift"; u32O "filter.mod_x";
                     u32O "filter.mod_y"; Opt "filter.type" (TEnum 4)]
  | KParameters => Some
     [rawO "_u1" 9; flagO "fx.remove_dc"; Opt "delay.flags" (TFlags 1);
      flagO "keyboard.main_pitch"; rawO "_u2" 28; Opt "arp.direction" (TEnum 4);
      u32O "arp.range"; u32O "arp.chord"; Opt "arp.time" TF32; Opt "arp.gate" TF32;
      flagO "arp.slide"; rawO "_u3" 1; flagO "time.full_porta"; flagO "keyboard.add_root";
      Opt "time.gate" (TU 2); rawO "_u4" 2; Opt "keyboard.key_region" (TPair 4);
      rawO "_u5" 4; flagO "fx.normalize"; flagO "fx.inverted"; rawO "_u6" 1;
      Opt "content.declick_mode" (TEnum 1); u32O "fx.crossfade"; u32O "fx.trim";
      u32O "arp.repeat"; Opt "stretching.time" TMusical; i32O "stretching.pitch";
      Opt "stretching.multiplier" TMult; Opt "stretching.mode" (TEnumS 4); rawO "_u7" 21;
      Opt "fx.start" TLevel; rawO "_u8" 4; Opt "fx.length" TLevel; rawO "_u9" 3;
      u32O "playback.start_offset"; rawO "_u10" 5; flagO "fx.fix_trim"; Tail "_extra"]
  | KPolyphony => Some [u32O "max"; u32O "slide"; Opt "flags" (TFlags 1)]
  | KTracking => Some [u32O "middle_value"; i32O "pan"; i32O "mod_x"; i32O "mod_y"]
  | KBooBass => Some [marker (L =? 16)%Z "_u1"; u32 "bass"; u32 "mid"; u32 "high"]
  | KFruitKick => Some [raw "_u1" 4; i32 "max_freq"; i32 "min_freq"; u32 "freq_decay";
                        u32 "amp_decay"; u32 "click"; u32 "distortion"; raw "_u2" 4]
  | KFruityBalance => Some [u32 "pan"; u32 "volume"]
  | KFruityBloodOverdrive => Some
     [marker (L =? 36)%Z "plugin_marker"; u32 "pre_band"; u32 "color"; u32 "pre_amp";
      Req "x100" TBool4; u32 "post_filter"; u32 "post_gain"; raw "_u1" 4; raw "_u2" 4]
  | KFruityCenter => Some [marker (L =? 8)%Z "_u1"; Req "enabled" TBool4]
  | KFruityFastDist => Some [u32 "pre"; u32 "threshold"; Req "kind" (TNames 4 [str "A"; str "B"]);
                             u32 "mix"; u32 "post"]
  | KFruitySend => Some [i32 "pan"; u32 "dry"; u32 "volume"; i32 "send_to"]
  | KFruitySoftClipper => Some [u32 "threshold"; u32 "post"]
  | KFruityStereoEnhancer => Some
     [i32 "pan"; u32 "volume"; u32 "stereo_separation"; u32 "phase_offset";
      Req "effect_position" (TNames 4 [str "pre"; str "post"]);
      Req "phase_inversion" (TNames 4 [str "none"; str "left"; str "right"])]
  | KPlucked => Some [u32 "decay"; u32 "color"; Req "normalize" TBool4; Req "gate" TBool4;
                      Req "widen" TBool4]
  | KSoundgoodizer => Some [marker (L =? 12)%Z "_u1";
                            Req "mode" (TNames 4 [str "A"; str "B"; str "C"; str "D"]);
                            u32 "amount"]
  | KWrapper => Some [rawO "_u1" 16; Opt "flags" (TFlags 2); rawO "_u2" 2; Opt "page" (TEnum 1);
                      rawO "_u3" 23; u32O "width"; u32O "height"; Tail "_extra"]
  | KPLSelection => Some [u32O "start"; u32O "end"]
  | KTrack => Some
     [u32O "iid"; u32O "color"; u32O "icon"; flagO "enabled"; Opt "height" THeight;
      i32O "locked_height"; flagO "content_locked"; Opt "motion" (TEnum 4);
      Opt "press" (TEnum 4); Opt "trigger_sync" (TEnum 4); Opt "queued" TBool4;
      Opt "tolerant" TBool4; Opt "position_sync" (TEnum 4); flagO "grouped"; flagO "locked";
      Tail "_u1"]
  | KInsertFlags => Some [rawO "_u1" 4; Opt "flags" (TFlags 4); rawO "_u2" 4]
  | KMIDIController => Some [Tail "_u1"]
  | KRemoteController => Some
     [rawO "_u1" 2; Opt "_u2" (TU 1); Opt "_u3" (TU 1); Opt "parameter_data" (TU 2);
      Opt "destination_data" (TS 2); rawO "_u4" 8; rawO "_u5" 4]
  | KTimestamp => Some [Req "created_on" TF64; Req "time_spent" TF64]
  | _ => None
  end.

(* fields of one element of a list event; [w]: the payload size is a multiple of 60 *)
Definition record (w : bool) (k : kind) : option (list field) :=
  match k with
  | KPlaylist => Some
     ([u32 "position"; Req "pattern_base" (TU 2); Req "item_index" (TU 2); u32 "length";
       Req "track_rvidx" (TU 2); Req "group" (TU 2); raw "_u1" 2; Req "item_flags" (TU 2);
       raw "_u2" 4; Req "start_offset" TF32; Req "end_offset" TF32;
       if w then raw "_u3" 28 else Gone "_u3"])
  | KMixerParams => Some
     [raw "_u4" 4; Req "id" (TEnum 1); Req "_u1" (TU 1); Req "channel_data" (TU 2); i32 "msg"]
  | KController => Some
     [u32 "position"; Req "_u1" (TU 1); Req "_u2" (TU 1); Req "channel" (TU 1);
      Req "_flags" (TU 1); Req "value" TF32]
  | KNotes => Some
     [u32 "position"; Req "flags" (TFlags 2); Req "rack_channel" (TU 2); u32 "length";
      Req "key" (TU 2); Req "group" (TU 2); Req "fine_pitch" (TU 1); Req "_u1" (TU 1);
      Req "release" (TU 1); Req "midi_channel" (TU 1); Req "pan" (TU 1);
      Req "velocity" (TU 1); Req "mod_x" (TU 1); Req "mod_y" (TU 1)]
  | _ => None
  end.
End Layouts.

(* ------------------------------------------------------------------ reading a payload *)

(* offset of the i-th field when all before it are present *)
Definition offset (fs : list field) (i : nat) : nat := list_sum (map f_size (firstn i fs)).
Definition slice (b : bytes) (off n : nat) : bytes := firstn n (skipn off b).

(* The first [i] fields are there; what is left is too short for any other one.
   Cut at a field boundary, nothing is left; with [i] all fields, anything. *)
Definition cut_at (fs : list field) (b : bytes) (i : nat) : Prop :=
  (i <= length fs)%nat /\ (offset fs i <= length b)%nat /\
  forall m f t, (i <= m)%nat -> nth_error fs m = Some f -> f_type f = Some t ->
    (length b < offset fs i + ft_size t)%nat.
(* ... and all of them can be read *)
Definition readable (en : env) (fs : list field) (b : bytes) (i : nat) : Prop :=
  forall m f t, (m < i)%nat -> nth_error fs m = Some f -> f_type f = Some t ->
    ft_dec en t (slice b (offset fs m) (ft_size t)) <> None.
(* ... and hold the bytes PyFLP writes for what it read *)
Definition kept (en : env) (fs : list field) (b : bytes) (i : nat) : Prop :=
  forall m f t, (m < i)%nat -> nth_error fs m = Some f -> f_type f = Some t ->
    c_ok (ft_cell en t) (slice b (offset fs m) (ft_size t)) = true.

(* what the m-th field, [f], should be read as *)
Definition field_value (en : env) (fs : list field) (b : bytes) (i m : nat) (f : field) : option val :=
  match f with
  | Tail _ => Some (VBytes (skipn (offset fs i) b))
  | Gone _ => Some VNone
  | Req _ t | Opt _ t =>
      if (m <? i)%nat then ft_dec en t (slice b (offset fs m) (ft_size t)) else Some VNone
  end.

(* the bytes of one field replaced *)
Definition splice (b : bytes) (off : nat) (c : bytes) : bytes :=
  firstn off b ++ c ++ skipn (off + length c) b.

(* [s] bytes left out *)
Definition without (b : bytes) (off s : nat) : bytes := firstn off b ++ skipn (off + s) b.

(* size of one element *)
Definition rec_size (rs : list field) : nat := offset rs (length rs).

Definition is_flag (f : field) : bool := match f with Opt _ TFlag => true | _ => false end.
Definition is_tail (f : field) : bool := match f with Tail _ => true | _ => false end.
Definition catch_all (fs : list field) : bool := existsb is_tail fs.
(* one-byte truth values that are not there *)
Definition missing_flags (fs : list field) (i : nat) : nat := length (filter is_flag (skipn i fs)).

(* values a field of type [t] can hold *)
Definition storable (en : env) (t : ftype) (v : val) : Prop :=
  exists c, Forall (fun x => 0 <= x < 256) c /\ length c = ft_size t /\ ft_dec en t c = Some v /\
            c_ok (ft_cell en t) c = true.

(* Values that a field of type [t] clearly has no room for, or that are of the
   wrong sort (for enumerations: plain numbers). *)
Definition misfit (t : ftype) (v : val) : Prop :=
  match t with
  | TU n => forall z, number v z -> z < 0 \/ 256 ^ Z.of_nat n <= z
  | TS n => forall z, number v z -> 2 * z < - 256 ^ Z.of_nat n \/ 256 ^ Z.of_nat n <= 2 * z
  | TF32 => (forall z, ~ number v z) /\ forall x, v = VFlt x -> f64_to_32 x = None
  | TRaw n => (forall z, ~ number v z) /\ forall b, v = VBytes b -> length b <> n
  | TEnum n | TFlags n => forall z, v = VEnum z -> z < 0 \/ 256 ^ Z.of_nat n <= z
  | TEnumS n | TFlagsS n _ =>
      forall z, v = VEnum z -> 2 * z < - 256 ^ Z.of_nat n \/ 256 ^ Z.of_nat n <= 2 * z
  | _ => False
  end.

(* bits that flags in a field of type [ty] can use: [w] of them *)
Definition flag_room (ty : ftype) (w : Z) : Prop :=
  (exists n, ty = TFlags n /\ w = 8 * Z.of_nat n) \/ (exists mask, ty = TFlagsS 4 mask /\ 0 < mask /\ w = 31).

(* The bytes written for a value that need not be one the field reads as: any
   number is written, not only the type the field is read as; times are cut to
   units, heights, IEEE numbers and numbers in their place are rounded to binary32. *)
Definition stored_as (t : ftype) (v : val) (c : bytes) : Prop :=
  match t with
  | TU n => exists z, number v z /\ 0 <= z < 256 ^ Z.of_nat n /\ c = le n z
  | TS n => exists z, number v z /\ - 256 ^ Z.of_nat n <= 2 * z < 256 ^ Z.of_nat n /\ c = le n z
  | TEnum n | TFlags n => exists z, v = VEnum z /\ 0 <= z < 256 ^ Z.of_nat n /\ c = le n z
  | TEnumS n | TFlagsS n _ =>
      exists z, v = VEnum z /\ - 256 ^ Z.of_nat n <= 2 * z < 256 ^ Z.of_nat n /\ c = le n z
  | TFlag => c = [if truthy v then 1 else 0]
  | TBool4 => exists z, number v z /\ 0 <= z < 2 ^ 32 /\ c = le 4 z
  | TRaw n => v = VBytes c /\ length c = n
  | TF32 => exists x w, (v = VFlt x \/ exists z, number v z /\ f_of_int z = Some x) /\
      f64_to_32 x = Some w /\ c = le 4 w
  | TMusical => exists bars beats ticks,
      v = VTup [VInt bars; VInt beats; VInt ticks] /\ Z.abs ticks < 2 ^ 50 /\
      let q := bars * 768 + beats * 48 + Z.quot ticks 5 in 0 <= q < 2 ^ 32 /\ c = le 4 q
  | THeight => exists n w, v = VStr (py_str_int n ++ str "%") /\ Z.abs n < 2 ^ 50 /\
      f64_to_32 (int_div n 100) = Some w /\ c = le 4 w
  | _ => False
  end.
