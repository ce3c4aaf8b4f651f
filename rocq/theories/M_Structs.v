(* The adapters and STRUCT class attributes of PyFLP.  No proofs. *)
From Coq Require Import String ZArith List Bool.
From Verif Require Import M_Base M_Float M_Text M_Construct.
Import ListNotations.


Local Open Scope string_scope.
Open Scope Z_scope.
Notation "n '//' c" := (pair n c) (at level 60, only parsing).

(* ------------------------------------------------------------------ *)
(* pyflp/_adapters.py                                                  *)

(* _adapters.py:29-31  FourByteBool *)
Definition py_int_of (v : val) : res Z :=
  match v with
  | VFlt b => f_trunc b
  | VStr s => match py_int s with Some z => Ok z | None => Err ValueError end
  | _ => match as_int v with Some z => Ok z | None => Err TypeError end
  end.
Definition FourByteBool : con := Adapter
  (fun _ v => Ok (VBool (truthy v)))
  (fun _ v => let* z := py_int_of v in Ok (VInt z)) Int32ul.

(* _adapters.py:34-40  List2Tuple *)
Definition List2Tuple (c : con) : con := Adapter
  (fun _ v => match v with VList [a; b] => Ok (VTup [a; b]) | _ => Err ValueError end)
  (fun _ v => let* l := seq_of v in Ok (VList l)) c.

(* types.py:46-54, _adapters.py:43-53  LinearMusical *)
Definition f_0_2 : Z := 4596373779694328218.   (* 0.2 *)
Definition musical_enc (bars beats ticks : Z) : res Z :=
  match f_of_int ticks with
  | Some t => let* k := f_trunc (f_mul t f_0_2) in Ok (bars * 768 + beats * 48 + k)
  | None => Err OverflowError
  end.
Definition musical_dec (z : Z) : val :=
  VTup [VInt (z / 768); VInt (z mod 768 / 48); VInt (z mod 768 mod 48 * 5)].
Definition LinearMusical (c : con) : con := Adapter
  (fun _ v => match as_int v with Some z => Ok (musical_dec z) | None => Err TypeError end)
  (fun _ v => match v with
              | VTup [a; b; t] =>
                  match as_int a, as_int b, as_int t with
                  | Some a, Some b, Some t => let* z := musical_enc a b t in Ok (VInt z)
                  | _, _, _ => Err TypeError
                  end
              | _ => Err AttributeError
              end) c.

(* _adapters.py:56-65  Log2(subcon, factor); factor a positive int *)
Definition Log2 (factor : Z) (c : con) : con := Adapter
  (fun cx v => match as_int v with
               | Some z => let* r := cx_exp2 cx (int_div z factor) in Ok (VFlt r)
               | None => Err TypeError
               end)
  (fun cx v => match as_float v with
               | Some x =>
                   let* l := cx_log2 cx x in
                   match f_of_int factor with
                   | Some f => let* z := f_trunc (f_mul f l) in Ok (VInt z)
                   | None => Err OverflowError
                   end
               | None => Err TypeError
               end) c.

(* _adapters.py:70-93  LogNormal(subcon, (lo, hi)) *)
Definition f_0 : Z := 0.
Definition f_1 : Z := 4607182418800017408.         (* 1.0 *)
Definition f_15 : Z := 4624633867356078080.        (* 15.0 *)
Definition f_4096 : Z := 4661225614328463360.      (* 4096.0 *)
Definition f_2m15 : Z := 4539628424389459968.      (* 2 ** -15 *)
Definition LogNormal (lo hi : Z) (c : con) : con := Adapter
  (fun cx v => match v with
               | VList (a :: b :: _) =>
                   match as_int a, as_int b with
                   | Some a, Some b =>
                       if a =? 0 then Ok (VFlt f_0)
                       else if negb (b =? 63) then Err ValueError
                       else let* p := cx_exp2 cx (int_div a 4096) in
                            let q := f_mul p f_2m15 in
                            let m := if f_lt q f_1 then q else f_1 in
                            Ok (VFlt (if f_lt m f_0 then f_0 else m))
                   | _, _ => Err TypeError
                   end
               | _ => Err IndexError
               end)
  (fun cx v => match as_float v with
               | Some x =>
                   if negb (f_le f_0 x && f_le x f_1) then Err ValueError
                   else if f_is_zero x then Ok (VList [VInt 0; VInt 0])
                   else let* l := cx_log2 cx x in
                        let* k := f_trunc (f_mul f_4096 (f_add l f_15)) in
                        Ok (VList [VInt (Z.min (Z.max lo k) hi); VInt 63])
               | None => Err TypeError
               end) c.

(* IntFlag(value) for the members' union [mask]:
   CPython <= 3.10 keeps any int; CPython >= 3.11 (boundary KEEP) turns negative
   values into non-negative ones (enum.py, Flag._missing_). *)
Definition intflag_norm (py311 : bool) (mask v : Z) : Z :=
  if py311 then
    let all_bits := 2 ^ (Z.log2 mask + 1) - 1 in
    let v1 :=
      if negb ((- all_bits - 1 <=? v) && (v <=? all_bits))
         || negb (Z.land v (Z.lxor all_bits mask) =? 0)
      then if v <? 0
           then Z.max (all_bits + 1) (2 ^ (if Z.abs v =? 0 then 0 else Z.log2 (Z.abs v) + 1)) + v
           else v
      else v in
    if v1 <? 0 then all_bits + 1 + v1 else v1
  else v.

(* _adapters.py:96-101  StdEnum[ct.EnumBase]: decoding is total, encoding wants
   an object with .value *)
Definition StdEnum (c : con) : con := Adapter
  (fun _ v => match as_int v with Some z => Ok (VEnum z) | None => Err ValueError end)
  (fun _ v => match v with VEnum z => Ok (VInt z) | _ => Err AttributeError end) c.
(* the same for an enum.IntFlag with members' union [mask] *)
Definition StdFlag (mask : Z) (c : con) : con := Adapter
  (fun cx v => match as_int v with
               | Some z => Ok (VEnum (intflag_norm (cx_py311 cx) mask z))
               | None => Err ValueError end)
  (fun _ v => match v with VEnum z => Ok (VInt z) | _ => Err AttributeError end) c.

(* ------------------------------------------------------------------ *)
(* pyflp/_events.py: fixed-size and text events                        *)

(* _events.py:269-276  U16TupleEvent.STRUCT *)
Definition U16Tuple : con := Adapter
  (fun _ v => match v with VList l => Ok (VTup l) | _ => Err TypeError end)
  (fun _ v => let* l := seq_of v in Ok (VList l)) (Array 2 Int16ul).

(* types.py:57-68 RGBA, _events.py:279-286 ColorEvent.STRUCT.
   Tuples assigned to a color are taken to be RGBA objects. *)
Definition rgba_dec (b : bytes) : val := VTup (map (fun c => VFlt (int_div c 255)) b).
Definition f_255 : Z := 4643176031446892544.       (* 255.0 *)
Definition chan_enc (v : val) : res Z :=
  let* z := match v with
            | VFlt x => f_rint (f_mul x f_255)
            | _ => match as_int v with Some z => Ok (z * 255) | None => Err TypeError end
            end in
  if (0 <=? z) && (z <=? 255) then Ok z else Err ValueError.
Definition Color : con := Adapter
  (fun _ v => match v with
              | VBytes b => if (length b =? 4)%nat then Ok (rgba_dec b) else Err TypeError
              | _ => Err TypeError end)
  (fun _ v => match v with
              | VBytes b => Ok (VBytes b)
              | VTup l => let* l := mapr chan_enc l in Ok (VBytes l)
              | _ => Err TypeError
              end) (Bytes 4).

(* _events.py:306-325  AsciiEvent / UnicodeEvent .STRUCT *)
Definition text_con (dec : bytes -> option pystr) (enc : pystr -> option bytes) : con := Adapter
  (fun _ v => match v with VStr s => Ok (VStr (rstrip0 s)) | _ => Err AttributeError end)
  (fun _ v => match v with VStr s => Ok (VStr (s ++ [0])%list) | _ => Err TypeError end)
  (GreedyString dec enc).
Definition AsciiText : con := text_con ascii_dec ascii_enc.
Definition UnicodeText : con := text_con utf16_dec utf16_enc.

(* ------------------------------------------------------------------ *)
(* pyflp/channel.py                                                    *)

(* channel.py:85-93  AutomationEvent._get_position: sum of the float64 found at
   21 + 24*i of the stream, i = 0..index *)
Fixpoint sum_offsets (k : nat) (i : Z) (pos : Z) (stream : bytes) : res Z :=
  match k with
  | O => Ok pos
  | S k =>
      let* (d, _) := take 8 (skipn (Z.to_nat (21 + i * 24)) stream) in
      sum_offsets k (i + 1) (f_add pos (le_dec d)) stream
  end.
Definition get_position (stream : bytes) (index : Z) : res Z :=
  sum_offsets (Z.to_nat (index + 1)) 0 f_0 stream.

(* channel.py:105-116 *)
Definition auto_point : con := Struct [
  "_offset" // Float64l;
  "position" // Computed (fun cx =>
      if 0 <? cx_index cx
      then let* p := get_position (cx_stream cx) (cx_index cx) in Ok (VFlt p)
      else match dget (cx_fields cx) "_offset" with Some v => Ok v | None => Err KeyError end);
  "value" // Float64l;
  "tension" // Float32l;
  "_u1" // Bytes 4].

(* channel.py:95-119 *)
Definition AutomationS : con := Struct [
  "_u1" // Bytes 4;
  "lfo.amount" // Int32sl;
  "_u2" // Bytes 1;
  "_u3" // Bytes 2;
  "_u4" // Bytes 2;
  "_u5" // Bytes 4;
  "points" // PrefixedArray Int32ul auto_point;
  "_u6" // GreedyBytes].

(* channel.py:122-129 *)
Definition DelayS : con := Struct [
  "feedback" // Optional Int32ul;
  "pan" // Optional Int32sl;
  "pitch_shift" // Optional Int32sl;
  "echoes" // Optional Int32ul;
  "time" // Optional Int32ul].

(* channel.py:132-137; union of the members *)
Definition EnvLFO_mask : Z := 39.

(* channel.py:150-169 *)
Definition EnvelopeLFOS : con := Struct [
  "flags" // Optional (StdFlag EnvLFO_mask Int32sl);
  "envelope.enabled" // Optional Int32sl;
  "envelope.predelay" // Optional Int32sl;
  "envelope.attack" // Optional Int32sl;
  "envelope.hold" // Optional Int32sl;
  "envelope.decay" // Optional Int32sl;
  "envelope.sustain" // Optional Int32sl;
  "envelope.release" // Optional Int32sl;
  "envelope.amount" // Optional Int32sl;
  "lfo.predelay" // Optional Int32ul;
  "lfo.attack" // Optional Int32ul;
  "lfo.amount" // Optional Int32sl;
  "lfo.speed" // Optional Int32ul;
  "lfo.shape" // Optional (StdEnum Int32sl);
  "envelope.attack_tension" // Optional Int32sl;
  "envelope.decay_tension" // Optional Int32sl;
  "envelope.release_tension" // Optional Int32sl].

(* channel.py:172-179 *)
Definition LevelAdjustsS : con := Struct [
  "pan" // Optional Int32sl;
  "volume" // Optional Int32ul;
  "_u1" // Optional Int32ul;
  "mod_x" // Optional Int32sl;
  "mod_y" // Optional Int32sl].

(* channel.py:193-201 *)
Definition LevelsS : con := Struct [
  "pan" // Optional Int32sl;
  "volume" // Optional Int32ul;
  "pitch_shift" // Optional Int32sl;
  "filter.mod_x" // Optional Int32ul;
  "filter.mod_y" // Optional Int32ul;
  "filter.type" // Optional (StdEnum Int32ul)].

(* channel.py:226-229 *)
Definition DelayFlags_mask : Z := 6.

(* channel.py:247-287 *)
Definition ParametersS : con := Struct [
  "_u1" // Optional (Bytes 9);
  "fx.remove_dc" // Optional Flag;
  "delay.flags" // Optional (StdFlag DelayFlags_mask Int8ul);
  "keyboard.main_pitch" // Optional Flag;
  "_u2" // Optional (Bytes 28);
  "arp.direction" // Optional (StdEnum Int32ul);
  "arp.range" // Optional Int32ul;
  "arp.chord" // Optional Int32ul;
  "arp.time" // Optional Float32l;
  "arp.gate" // Optional Float32l;
  "arp.slide" // Optional Flag;
  "_u3" // Optional (Bytes 1);
  "time.full_porta" // Optional Flag;
  "keyboard.add_root" // Optional Flag;
  "time.gate" // Optional Int16ul;
  "_u4" // Optional (Bytes 2);
  "keyboard.key_region" // Optional (List2Tuple (Array 2 Int32ul));
  "_u5" // Optional (Bytes 4);
  "fx.normalize" // Optional Flag;
  "fx.inverted" // Optional Flag;
  "_u6" // Optional (Bytes 1);
  "content.declick_mode" // Optional (StdEnum Int8ul);
  "fx.crossfade" // Optional Int32ul;
  "fx.trim" // Optional Int32ul;
  "arp.repeat" // Optional Int32ul;
  "stretching.time" // Optional (LinearMusical Int32ul);
  "stretching.pitch" // Optional Int32sl;
  "stretching.multiplier" // Optional (Log2 10000 Int32sl);
  "stretching.mode" // Optional (StdEnum Int32sl);
  "_u7" // Optional (Bytes 21);
  "fx.start" // Optional (LogNormal 0 61440 (Array 2 Int16ul));
  "_u8" // Optional (Bytes 4);
  "fx.length" // Optional (LogNormal 0 61440 (Array 2 Int16ul));
  "_u9" // Optional (Bytes 3);
  "playback.start_offset" // Optional Int32ul;
  "_u10" // Optional (Bytes 5);
  "fx.fix_trim" // Optional Flag;
  "_extra" // GreedyBytes].

(* channel.py:290-294 *)
Definition PolyphonyFlags_mask : Z := 3.

(* channel.py:297-302 *)
Definition PolyphonyS : con := Struct [
  "max" // Optional Int32ul;
  "slide" // Optional Int32ul;
  "flags" // Optional (StdFlag PolyphonyFlags_mask Byte)].

(* channel.py:305-311 *)
Definition TrackingS : con := Struct [
  "middle_value" // Optional Int32ul;
  "pan" // Optional Int32sl;
  "mod_x" // Optional Int32sl;
  "mod_y" // Optional Int32sl].

(* ------------------------------------------------------------------ *)
(* pyflp/plugin.py                                                     *)

Definition len_is (n : Z) (cx : ctx) : bool := cx_len cx =? n.

(* plugin.py:76-82 *)
Definition BooBassS : con := Struct [
  "_u1" // If_ (len_is 16) (Bytes 4);
  "bass" // Int32ul; "mid" // Int32ul; "high" // Int32ul].

(* plugin.py:85-95 *)
Definition FruitKickS : con := Struct [
  "_u1" // Bytes 4;
  "max_freq" // Int32sl; "min_freq" // Int32sl;
  "freq_decay" // Int32ul; "amp_decay" // Int32ul;
  "click" // Int32ul; "distortion" // Int32ul;
  "_u2" // Bytes 4].

(* plugin.py:98-99 *)
Definition FruityBalanceS : con := Struct ["pan" // Int32ul; "volume" // Int32ul].

(* plugin.py:102-113 *)
Definition FruityBloodOverdriveS : con := Struct [
  "plugin_marker" // If_ (len_is 36) (Bytes 4);
  "pre_band" // Int32ul; "color" // Int32ul; "pre_amp" // Int32ul;
  "x100" // FourByteBool;
  "post_filter" // Int32ul; "post_gain" // Int32ul;
  "_u1" // Bytes 4; "_u2" // Bytes 4].

(* plugin.py:116-119 *)
Definition FruityCenterS : con := Struct [
  "_u1" // If_ (len_is 8) (Bytes 4); "enabled" // FourByteBool].

(* plugin.py:122-129 *)
Definition FruityFastDistS : con := Struct [
  "pre" // Int32ul; "threshold" // Int32ul;
  "kind" // Enum [(str "A", 0); (str "B", 1)] Int32ul;
  "mix" // Int32ul; "post" // Int32ul].

(* plugin.py:132-146 *)
Definition ctx_field_is (n : string) (z : Z) (cx : ctx) : bool :=
  match dget (cx_fields cx) n with
  | Some v => match as_int v with Some x => x =? z | None => false end
  | None => false
  end.
Definition notebook_len (cx : ctx) : res Z :=
  match dget (cx_fields cx) "length" with
  | Some v => match as_int v with Some x => Ok (x * 2) | None => Err TypeError end
  | None => Err KeyError
  end.
Definition notebook_page : con := Struct [
  "index" // Int32sl;
  "" // StopIf (ctx_field_is "index" (-1));
  "length" // VarInt;
  "value" // PaddedString16 notebook_len].
Definition FruityNotebook2S : con := Struct [
  "_u1" // Bytes 4;
  "active_page" // Int32ul;
  "pages" // GreedyRange notebook_page;
  "editable" // Flag].

(* plugin.py:149-155 *)
Definition FruitySendS : con := Struct [
  "pan" // Int32sl; "dry" // Int32ul; "volume" // Int32ul; "send_to" // Int32sl].

(* plugin.py:158-159 *)
Definition FruitySoftClipperS : con := Struct ["threshold" // Int32ul; "post" // Int32ul].

(* plugin.py:162-170 *)
Definition FruityStereoEnhancerS : con := Struct [
  "pan" // Int32sl; "volume" // Int32ul; "stereo_separation" // Int32ul;
  "phase_offset" // Int32ul;
  "effect_position" // Enum [(str "pre", 0); (str "post", 1)] Int32ul;
  "phase_inversion" // Enum [(str "none", 0); (str "left", 1); (str "right", 2)] Int32ul].

(* plugin.py:173-180 *)
Definition PluckedS : con := Struct [
  "decay" // Int32ul; "color" // Int32ul;
  "normalize" // FourByteBool; "gate" // FourByteBool; "widen" // FourByteBool].

(* plugin.py:183-188 *)
Definition SoundgoodizerS : con := Struct [
  "_u1" // If_ (len_is 12) (Bytes 4);
  "mode" // Enum [(str "A", 0); (str "B", 1); (str "C", 2); (str "D", 3)] Int32ul;
  "amount" // Int32ul].

(* plugin.py:60-74: 1,2,4,16,32,64,128,256,512,1<<16,2<<16 *)
Definition WrapperFlags_mask : Z := 197623.

(* plugin.py:212-222 *)
Definition WrapperS : con := Struct [
  "_u1" // Optional (Bytes 16);
  "flags" // Optional (StdFlag WrapperFlags_mask Int16ul);
  "_u2" // Optional (Bytes 2);
  "page" // Optional (StdEnum Int8ul);
  "_u3" // Optional (Bytes 23);
  "width" // Optional Int32ul;
  "height" // Optional Int32ul;
  "_extra" // GreedyBytes].

(* plugin.py:242-262, 265-267: unions of the members *)
Definition VSTFlags_mask : Z := 4138178671.
Definition VSTFlags2_mask : Z := 3.

(* plugin.py:271-276 *)
Definition vst_midi : con := Struct [
  "input" // Optional Int32sl; "output" // Optional Int32sl;
  "pb_range" // Optional Int32ul; "_extra" // GreedyBytes].

(* plugin.py:278-285 *)
Definition vst_flags : con := Struct [
  "_u1" // Optional (Bytes 9);
  "flags" // Optional (StdFlag VSTFlags_mask Int32ul);
  "flags2" // Optional (StdFlag VSTFlags2_mask Int32ul);
  "_u2" // Optional (Bytes 5);
  "fast_idle" // Optional Flag;
  "_extra" // GreedyBytes].

(* plugin.py:297-311: Switch(this["id"], {...}, default=GreedyBytes); ids of
   plugin.py:225-239 *)
Definition vst_switch (cx : ctx) : con :=
  match dget (cx_fields cx) "id" with
  | Some v => match as_int v with
              | Some 1 => vst_midi
              | Some 2 => vst_flags
              | Some 51 | Some 54 | Some 55 | Some 56 => GreedyString utf8_dec utf8_enc
              | _ => GreedyBytes
              end
  | None => GreedyBytes
  end.

(* plugin.py:287-313 *)
Definition vst_event : con := Struct [
  "id" // StdEnum Int32ul;
  "data" // Prefixed Int64ul (Switch vst_switch)].
Definition VSTPluginS : con := Struct [
  "type" // Int32ul;
  "events" // GreedyRange vst_event].

(* ------------------------------------------------------------------ *)
(* pyflp/arrangement.py                                                *)

(* arrangement.py:66-67 *)
Definition PLSelectionS : con := Struct [
  "start" // Optional Int32ul; "end" // Optional Int32ul].

(* arrangement.py:70-86 *)
Definition playlist_item : con := Struct [
  "position" // Int32ul;
  "pattern_base" // Int16ul;
  "item_index" // Int16ul;
  "length" // Int32ul;
  "track_rvidx" // Int16ul;
  "group" // Int16ul;
  "_u1" // Bytes 2;
  "item_flags" // Int16ul;
  "_u2" // Bytes 4;
  "start_offset" // Float32l;
  "end_offset" // Float32l;
  "_u3" // If_ cx_new (Bytes 28)].
Definition PlaylistS : con := GreedyRange playlist_item.

(* arrangement.py:123-128  HeightAdapter.  int() of a text is modelled for ASCII
   text only. *)
Definition f_100 : Z := 4636737291354636288.       (* 100.0 *)
Definition height_dec (x : Z) : res pystr :=
  let* z := f_trunc (f_mul x f_100) in Ok (py_str_int z ++ [37])%list.
Definition height_enc (s : pystr) : res Z :=
  match py_int (removelast s) with
  | Some z => let q := int_div z 100 in if f_is_inf q then Err OverflowError else Ok q
  | None => Err ValueError
  end.
Definition HeightAdapter (c : con) : con := Adapter
  (fun _ v => match as_float v with
              | Some x => let* s := height_dec x in Ok (VStr s)
              | None => Err TypeError end)
  (fun _ v => match v with
              | VStr s => let* q := height_enc s in Ok (VFlt q)
              | _ => Err TypeError end) c.

(* arrangement.py:131-149 *)
Definition TrackS : con := Struct [
  "iid" // Optional Int32ul;
  "color" // Optional Int32ul;
  "icon" // Optional Int32ul;
  "enabled" // Optional Flag;
  "height" // Optional (HeightAdapter Float32l);
  "locked_height" // Optional Int32sl;
  "content_locked" // Optional Flag;
  "motion" // Optional (StdEnum Int32ul);
  "press" // Optional (StdEnum Int32ul);
  "trigger_sync" // Optional (StdEnum Int32ul);
  "queued" // Optional FourByteBool;
  "tolerant" // Optional FourByteBool;
  "position_sync" // Optional (StdEnum Int32ul);
  "grouped" // Optional Flag;
  "locked" // Optional Flag;
  "_u1" // Optional GreedyBytes].

(* ------------------------------------------------------------------ *)
(* pyflp/mixer.py                                                      *)

(* mixer.py:65-82 *)
Definition InsertFlags_mask : Z := 65535.

(* mixer.py:105-110 *)
Definition InsertFlagsS : con := Struct [
  "_u1" // Optional (Bytes 4);
  "flags" // Optional (StdFlag InsertFlags_mask Int32ul);
  "_u2" // Optional (Bytes 4)].

(* mixer.py:113-114 *)
Definition InsertRoutingS : con := GreedyRange Flag.

(* mixer.py:125-134 *)
Definition mixer_param : con := Struct [
  "_u4" // Bytes 4;
  "id" // StdEnum Byte;
  "_u1" // Byte;
  "channel_data" // Int16ul;
  "msg" // Int32sl].
Definition MixerParamsS : con := GreedyRange mixer_param.

(* ------------------------------------------------------------------ *)
(* pyflp/pattern.py, pyflp/controller.py, pyflp/project.py             *)

(* pattern.py:49-59 *)
Definition controller_item : con := Struct [
  "position" // Int32ul;
  "_u1" // Byte; "_u2" // Byte;
  "channel" // Int8ul; "_flags" // Int8ul;
  "value" // Float32l].
Definition ControllerS : con := GreedyRange controller_item.

(* pattern.py:62-64 *)
Definition NoteFlags_mask : Z := 8.

(* pattern.py:67-85 *)
Definition note_item : con := Struct [
  "position" // Int32ul;
  "flags" // StdFlag NoteFlags_mask Int16ul;
  "rack_channel" // Int16ul;
  "length" // Int32ul;
  "key" // Int16ul;
  "group" // Int16ul;
  "fine_pitch" // Int8ul;
  "_u1" // Byte;
  "release" // Int8ul;
  "midi_channel" // Int8ul;
  "pan" // Int8ul;
  "velocity" // Int8ul;
  "mod_x" // Int8ul;
  "mod_y" // Int8ul].
Definition NotesS : con := GreedyRange note_item.

(* controller.py:29-30 *)
Definition MIDIControllerS : con := Struct ["_u1" // GreedyBytes].

(* controller.py:33-42 *)
Definition RemoteControllerS : con := Struct [
  "_u1" // Optional (Bytes 2);
  "_u2" // Optional Byte;
  "_u3" // Optional Byte;
  "parameter_data" // Optional Int16ul;
  "destination_data" // Optional Int16sl;
  "_u4" // Optional (Bytes 8);
  "_u5" // Optional (Bytes 4)].

(* project.py:65-66 *)
Definition TimestampS : con := Struct ["created_on" // Float64l; "time_spent" // Float64l].
