(* Events: classes, constructor, serialisation.  pyflp/_events.py.  No proofs. *)
From Coq Require Import String ZArith List Bool.
From Verif Require Import M_Base M_Float M_Text M_Construct M_Structs.
Import ListNotations.
Open Scope Z_scope.

(* One constructor per concrete event class. *)
Inductive kind :=
(* _events.py *)
| KBool | KI8 | KU8 | KI16 | KU16 | KF32 | KI32 | KU32 | KU16Tuple | KColor
| KAscii | KUnicode | KUnknown
(* channel.py *)
| KAutomation | KDelay | KEnvelopeLFO | KLevelAdjusts | KLevels | KParameters
| KPolyphony | KTracking
(* plugin.py *)
| KBooBass | KFruitKick | KFruityBalance | KFruityBloodOverdrive | KFruityCenter
| KFruityFastDist | KFruityNotebook2 | KFruitySend | KFruitySoftClipper
| KFruityStereoEnhancer | KPlucked | KSoundgoodizer | KWrapper | KVSTPlugin
(* arrangement.py *)
| KPLSelection | KPlaylist | KTrack
(* mixer.py *)
| KInsertFlags | KInsertRouting | KMixerParams
(* pattern.py, controller.py, project.py *)
| KController | KNotes | KMIDIController | KRemoteController | KTimestamp.

(* The STRUCT class attribute of every class. *)
Definition kcon (k : kind) : con :=
  match k with
  | KBool => Flag                (* _events.py:185-188 *)
  | KI8 => Int8sl                (* _events.py:191-194 *)
  | KU8 => Int8ul                (* _events.py:197-200 *)
  | KI16 => Int16sl              (* _events.py:221-224 *)
  | KU16 => Int16ul              (* _events.py:227-230 *)
  | KF32 => Float32l             (* _events.py:251-254 *)
  | KI32 => Int32sl              (* _events.py:257-260 *)
  | KU32 => Int32ul              (* _events.py:263-266 *)
  | KU16Tuple => U16Tuple
  | KColor => Color
  | KAscii => AsciiText
  | KUnicode => UnicodeText
  | KUnknown => GreedyBytes      (* _events.py:381-384 *)
  | KAutomation => AutomationS
  | KDelay => DelayS
  | KEnvelopeLFO => EnvelopeLFOS
  | KLevelAdjusts => LevelAdjustsS
  | KLevels => LevelsS
  | KParameters => ParametersS
  | KPolyphony => PolyphonyS
  | KTracking => TrackingS
  | KBooBass => BooBassS
  | KFruitKick => FruitKickS
  | KFruityBalance => FruityBalanceS
  | KFruityBloodOverdrive => FruityBloodOverdriveS
  | KFruityCenter => FruityCenterS
  | KFruityFastDist => FruityFastDistS
  | KFruityNotebook2 => FruityNotebook2S
  | KFruitySend => FruitySendS
  | KFruitySoftClipper => FruitySoftClipperS
  | KFruityStereoEnhancer => FruityStereoEnhancerS
  | KPlucked => PluckedS
  | KSoundgoodizer => SoundgoodizerS
  | KWrapper => WrapperS
  | KVSTPlugin => VSTPluginS
  | KPLSelection => PLSelectionS
  | KPlaylist => PlaylistS
  | KTrack => TrackS
  | KInsertFlags => InsertFlagsS
  | KInsertRouting => InsertRoutingS
  | KMixerParams => MixerParamsS
  | KController => ControllerS
  | KNotes => NotesS
  | KMIDIController => MIDIControllerS
  | KRemoteController => RemoteControllerS
  | KTimestamp => TimestampS
  end.

(* _events.py:167-171,203-207,233-237,289-293: ALLOWED_IDS; an empty
   ALLOWED_IDS (the other classes) allows every id *)
Definition new_text_ids : list Z := [241; 231; 239].
Definition allowed_id (k : kind) (id : Z) : bool :=
  match k with
  | KBool | KI8 | KU8 => (0 <=? id) && (id <? 64)
  | KI16 | KU16 => (64 <=? id) && (id <? 128)
  | KF32 | KI32 | KU32 | KU16Tuple | KColor => (128 <=? id) && (id <? 192)
  | KAscii | KUnicode => ((192 <=? id) && (id <? 208)) || mem_Z id new_text_ids
  | _ => true
  end.

(* What is global in Python: interpreter generation, libm, and whether the
   module pyflp.controller has been imported (its EventEnum subclass then takes
   part in the type lookup of parse). *)
Record env := Env {
  en_py311 : bool;
  en_log2 : Z -> res Z;
  en_exp2 : Z -> res Z;
  en_ctrl : bool
}.

Definition mkctx (en : env) (len : Z) (new : bool) (stream : bytes) : ctx :=
  Ctx (en_py311 en) (en_log2 en) (en_exp2 en) len new 0 stream [].

(* An event object: id, class, the keyword arguments kept in _kwds
   (len for struct events, new for playlists) and the value. *)
Record event := Event {
  e_id : Z;
  e_kind : kind;
  e_len : Z;
  e_new : bool;
  e_val : val
}.

(* arrangement.py:88-89 *)
Definition new_of (data : bytes) : bool := zlen data mod 60 =? 0.

(* _events.py:108-125 EventBase.__init__, 335-337 StructEventBase.__init__,
   358-378 ListEventBase.__init__ (its size bookkeeping only decides whether the
   list interface works, see list_usable), plugin.py:315-324 for VST data. *)
Definition mk_event (en : env) (k : kind) (id : Z) (data : bytes) : res event :=
  let* _ := match k, data with
            | KVSTPlugin, [] => Err IndexError
            | _, _ => Ok tt
            end in
  if negb (allowed_id k id) then Err EventIDOutOfRange
  else
    let size_ok :=
      if id <? 192 then
        zlen data =? (if id <? 64 then 1 else if id <? 128 then 2 else 4)
      else true in
    if negb size_ok then Err InvalidEventChunkSize
    else
      let* (v, _) := cparse (kcon k) (mkctx en (zlen data) (new_of data) data) data in
      Ok (Event id k (zlen data) (new_of data) v).

(* _events.py:352-378: .data is only set when the payload size is a multiple of
   an item size (arrangement.py:86: SIZES = [32, 60]; other classes use sizeof()
   and always set it) *)
Definition list_usable (e : event) : bool :=
  match e_kind e with
  | KPlaylist => (e_len e mod 32 =? 0) || (e_len e mod 60 =? 0)
  | _ => true
  end.

(* STRUCT.build(self.value, **self._kwds) *)
Definition payload (en : env) (e : event) : res bytes :=
  cbuild (kcon (e_kind e)) (mkctx en (e_len e) (e_new e) []) (e_val e).

(* _events.py:137-145 EventBase.__bytes__ *)
Definition event_bytes (en : env) (e : event) : res bytes :=
  let* i := cbuild Byte (mkctx en 0 false []) (VInt (e_id e)) in
  let* d := payload en e in
  if e_id e <? 192 then Ok (i ++ d)
  else let* l := cbuild VarInt (mkctx en 0 false []) (VInt (zlen d)) in
       Ok (i ++ l ++ d).

(* _events.py:150-161 EventBase.size *)
Definition event_size (en : env) (e : event) : res Z :=
  if 192 <=? e_id e then let* b := event_bytes en e in Ok (zlen b)
  else if 128 <=? e_id e then Ok 5
  else if 64 <=? e_id e then Ok 3
  else Ok 2.
