(* parse and save.  pyflp/__init__.py.  No proofs. *)
From Coq Require Import String ZArith List Bool.
From Verif Require Import M_Base M_Float M_Text M_Construct M_Structs M_Events.
Import ListNotations.
Open Scope Z_scope.

(* The EventEnum subclasses: id and registered type ([None]: declared without a
   type).  In the order of EventEnum.__subclasses__(), i.e. of class creation. *)

(* plugin.py:327-338 *)
Definition PluginIDs : list (Z * option kind) :=
  [(128, Some KColor); (155, Some KU32); (201, None); (203, None);
   (212, Some KWrapper); (213, None)].
(* channel.py:314-374 *)
Definition ChannelIDs : list (Z * option kind) :=
  [(0, Some KBool); (2, Some KU8); (3, Some KU8); (15, Some KBool); (20, Some KBool);
   (21, Some KU8); (22, Some KI8); (32, Some KBool);
   (64, Some KU16); (69, Some KU16); (70, Some KU16); (71, Some KU16); (72, Some KU16);
   (73, Some KU16); (74, Some KU16); (75, Some KU16); (76, Some KU16); (83, Some KU16);
   (85, Some KU16); (86, Some KU16); (89, Some KU16); (94, Some KU16); (97, Some KU16);
   (131, Some KU16Tuple); (132, Some KU16Tuple); (135, Some KU32); (138, Some KU16Tuple);
   (139, Some KU32); (140, Some KF32); (142, Some KI32); (143, Some KU32);
   (144, Some KU32); (145, Some KI32); (153, Some KU32);
   (192, None); (196, None);
   (209, Some KDelay); (215, Some KParameters); (218, Some KEnvelopeLFO);
   (219, Some KLevels); (221, Some KPolyphony); (228, Some KTracking);
   (229, Some KLevelAdjusts); (234, Some KAutomation)].
(* channel.py:377-379 *)
Definition DisplayGroupIDs : list (Z * option kind) := [(231, None)].
(* channel.py:382-386 *)
Definition RackIDs : list (Z * option kind) :=
  [(11, Some KU8); (13, Some KU8); (133, Some KU32)].
(* timemarker.py:27-32 *)
Definition TimeMarkerIDs : list (Z * option kind) :=
  [(33, Some KU8); (34, Some KU8); (148, Some KU32); (205, None)].
(* pattern.py:88-90 *)
Definition PatternsIDs : list (Z * option kind) := [(30, Some KBool); (67, Some KU16)].
(* pattern.py:95-106 *)
Definition PatternIDs : list (Z * option kind) :=
  [(26, Some KBool); (65, Some KU16); (150, Some KColor); (193, None);
   (160, Some KU32); (161, Some KI32); (162, Some KU32); (164, Some KU32);
   (223, Some KController); (224, Some KNotes)].
(* arrangement.py:152-159 *)
Definition ArrangementsIDs : list (Z * option kind) :=
  [(17, Some KU8); (18, Some KU8); (100, Some KU16); (152, Some KU16Tuple);
   (217, Some KPLSelection)].
(* arrangement.py:162-167 *)
Definition ArrangementIDs : list (Z * option kind) :=
  [(99, Some KU16); (241, None); (233, Some KPlaylist)].
(* arrangement.py:170-173 *)
Definition TrackIDs : list (Z * option kind) := [(239, None); (238, Some KTrack)].
(* mixer.py:152-160 *)
Definition InsertIDs : list (Z * option kind) :=
  [(95, Some KI16); (147, Some KI32); (149, Some KColor); (154, Some KI32); (204, None);
   (235, Some KInsertRouting); (236, Some KInsertFlags)].
(* mixer.py:163-166 *)
Definition MixerIDs : list (Z * option kind) := [(29, None); (225, Some KMixerParams)].
(* mixer.py:169-171 *)
Definition SlotIDs : list (Z * option kind) := [(98, Some KU16)].
(* project.py:113-135 *)
Definition ProjectIDs : list (Z * option kind) :=
  [(9, Some KBool); (10, Some KBool); (12, Some KU8); (23, Some KU8); (28, Some KBool);
   (66, None); (80, Some KI16); (93, None); (146, Some KI32); (156, Some KU32);
   (159, Some KU32); (194, None); (195, None); (197, None); (198, None);
   (199, Some KAscii); (200, None); (202, None); (206, None); (207, None);
   (237, Some KTimestamp)].
(* controller.py:45-48 *)
Definition ControllerIDs : list (Z * option kind) :=
  [(226, Some KMIDIController); (227, Some KRemoteController)].

Definition enum_tables (en : env) : list (list (Z * option kind)) :=
  [PluginIDs; ChannelIDs; DisplayGroupIDs; RackIDs; TimeMarkerIDs; PatternsIDs; PatternIDs;
   ArrangementsIDs; ArrangementIDs; TrackIDs; InsertIDs; MixerIDs; SlotIDs; ProjectIDs]
  ++ (if en_ctrl en then [ControllerIDs] else []).

Fixpoint enum_find (id : Z) (t : list (Z * option kind)) : option (option kind) :=
  match t with
  | [] => None
  | (i, k) :: r => if i =? id then Some k else enum_find id r
  end.

(* __init__.py:142-145: type of the first enumeration containing the id *)
Fixpoint lookup_type (id : Z) (ts : list (list (Z * option kind))) : option kind :=
  match ts with
  | [] => None
  | t :: r => match enum_find id t with Some k => k | None => lookup_type id r end
  end.

(* plugin.py:1135-1139 get_event_by_internal_name; the INTERNAL_NAME of the
   _PluginBase subclasses (plugin.py:520-1118) *)
Definition internal_names : list (pystr * kind) :=
  [(str "Fruity Wrapper", KVSTPlugin); (str "BooBass", KBooBass);
   (str "Fruit Kick", KFruitKick); (str "Fruity Balance", KFruityBalance);
   (str "Fruity Blood Overdrive", KFruityBloodOverdrive);
   (str "Fruity Center", KFruityCenter); (str "Fruity Fast Dist", KFruityFastDist);
   (str "Fruity NoteBook 2", KFruityNotebook2); (str "Fruity Send", KFruitySend);
   (str "Fruity Soft Clipper", KFruitySoftClipper);
   (str "Fruity Stereo Enhancer", KFruityStereoEnhancer);
   (str "Plucked!", KPlucked); (str "Soundgoodizer", KSoundgoodizer)].
Fixpoint assoc_name (m : list (pystr * kind)) (s : pystr) : option kind :=
  match m with
  | [] => None
  | (n, k) :: r => if list_Zeqb n s then Some k else assoc_name r s
  end.
Definition event_by_internal_name (s : pystr) : kind :=
  match assoc_name internal_names s with Some k => k | None => KUnknown end.

(* __init__.py:136-140: [int(p) for p in parts][0:2] >= [11, 5].  Lists compare
   lexicographically, a proper prefix is smaller. *)
Definition version_parts (value : bytes) : res (list Z) :=
  match ascii_dec value with
  | None => Err UnicodeError
  | Some s =>
      mapr (fun p => match py_int p with Some z => Ok z | None => Err ValueError end)
           (split_on 46 (rstrip0 s))
  end.
Definition ge_11_5 (parts : list Z) : bool :=
  match parts with
  | [] => false
  | [a] => 11 <? a
  | a :: b :: _ => (11 <? a) || ((a =? 11) && (5 <=? b))
  end.

(* state of the event loop: str_type, plug_name *)
Record pstate := PState { ps_str : option kind; ps_plug : option pystr }.

(* __init__.py:135-166, one event *)
Definition classify (en : env) (st : pstate) (id : Z) (value : bytes)
  : res (kind * pstate) :=
  let* strt := if id =? 199
               then let* p := version_parts value in
                    Ok (Some (if ge_11_5 p then KUnicode else KAscii))
               else Ok (ps_str st) in
  match lookup_type id (enum_tables en) with
  | Some k => Ok (k, PState strt (ps_plug st))
  | None =>
      if id <? 64 then Ok (KU8, PState strt (ps_plug st))
      else if id <? 128 then Ok (KU16, PState strt (ps_plug st))
      else if id <? 192 then Ok (KU32, PState strt (ps_plug st))
      else if (id <? 208) || mem_Z id new_text_ids then
        match strt with
        | None => Err VersionNotDetected
        | Some k =>
            if id =? 201 then
              let* e := mk_event en k id value in
              Ok (k, PState strt (match e_val e with VStr s => Some s | _ => None end))
            else Ok (k, PState strt (ps_plug st))
        end
      else if id =? 213 then
        match ps_plug st with
        | Some n => Ok (event_by_internal_name n, PState strt (ps_plug st))
        | None => Ok (KUnknown, PState strt (ps_plug st))
        end
      else Ok (KUnknown, PState strt (ps_plug st))
  end.

(* io.BytesIO.read(n): what is left if there is less; n must fit a C ssize_t *)
Definition read_upto (n : Z) (bs : bytes) : res (bytes * bytes) :=
  if 2 ^ 63 <=? n then Err OverflowError
  else if zlen bs <=? n then Ok (bs, [])
  else Ok (firstn (Z.to_nat n) bs, skipn (Z.to_nat n) bs).

(* __init__.py:123-133: read one chunk *)
Definition read_chunk (bs : bytes) : res (Z * bytes * bytes) :=
  match bs with
  | [] => Err StreamError
  | id :: r =>
      let* (n, r') := if id <? 64 then Ok (1, r)
                      else if id <? 128 then Ok (2, r)
                      else if id <? 192 then Ok (4, r)
                      else varint_dec r in
      let* (v, r'') := read_upto n r' in
      Ok (id, v, r'')
  end.

(* __init__.py:121-166: the event loop.  Every iteration reads at least the id
   byte, so the number of bytes bounds the number of iterations. *)
Fixpoint parse_loop (fuel : nat) (en : env) (st : pstate) (bs : bytes)
  : res (list event) :=
  match bs with
  | [] => Ok []
  | _ :: _ =>
      match fuel with
      | O => Err OutOfFuel
      | S f =>
          let* (id, value, rest) := read_chunk bs in
          let* (k, st') := classify en st id value in
          let* e := mk_event en k id value in
          let* es := parse_loop f en st' rest in
          Ok (e :: es)
      end
  end.

(* project.py:77-111 FileFormat, project.py:61 VALID_PPQS *)
Definition file_formats : list Z := [-1; 0; 16; 24; 32; 48; 49; 50; 64; 80].
Definition valid_ppqs : list Z := [24; 48; 72; 96; 120; 144; 168; 192; 384; 768; 960].

Record project := Project {
  pr_events : list event;      (* the root tree's events in order *)
  pr_channel_count : Z;
  pr_format : Z;
  pr_ppq : Z
}.

(* b"FLhd", b"FLdt" *)
Definition FLhd : bytes := [70; 76; 104; 100].
Definition FLdt : bytes := [70; 76; 100; 116].

(* file[i:i+n], as returned by successive stream.read calls *)
Definition slice (i n : nat) (f : bytes) : bytes := firstn n (skipn i f).

(* __init__.py:71-173 parse.  The header is native "4sIh2H", little-endian and
   without padding on all supported platforms. *)
Definition parse (en : env) (f : bytes) : res project :=
  if zlen f <? 14 then Err HeaderCorrupted
  else
    let fmt := to_signed 2 (le_dec (slice 8 2 f)) in
    let channel_count := le_dec (slice 10 2 f) in
    let ppq := le_dec (slice 12 2 f) in
    if negb (list_Zeqb (slice 0 4 f) FLhd) then Err HeaderCorrupted
    else if negb (le_dec (slice 4 4 f) =? 6) then Err HeaderCorrupted
    else if negb (mem_Z fmt file_formats) then Err HeaderCorrupted
    else if negb (mem_Z ppq valid_ppqs) then Err HeaderCorrupted
    else if negb (list_Zeqb (slice 14 4 f) FLdt) then Err HeaderCorrupted
    else
      let events_size := le_dec (slice 18 4 f) in
      if events_size =? 0 then Err HeaderCorrupted
      else if negb (zlen f =? events_size + 22) then Err HeaderCorrupted
      else
        let body := skipn 22 f in
        let* es := parse_loop (length body) en (PState None None) body in
        Ok (Project es channel_count fmt ppq).

(* channel.py:1589-1597 ChannelRack.__len__ over project.py:208-222: the number
   of channel-start events (id 64) *)
Definition count_id (id : Z) (es : list event) : Z :=
  zlen (filter (fun e => e_id e =? id) es).
Definition num_channels (es : list event) : res Z :=
  if count_id 64 es =? 0 then Err NoModelsFound else Ok (count_id 64 es).

Fixpoint events_bytes (en : env) (es : list event) : res bytes :=
  match es with
  | [] => Ok []
  | e :: r => let* b := event_bytes en e in
              let* b' := events_bytes en r in Ok (b ++ b')
  end.

(* __init__.py:176-196: the buffer built by save before the file is opened.
   project.format is a FileFormat or any int in range; struct.pack "4sIh2H". *)
Definition serialise (en : env) (p : project) : res bytes :=
  let* n := num_channels (pr_events p) in
  if negb ((-32768 <=? pr_format p) && (pr_format p <? 32768)) then Err StructError
  else if negb (n <? 65536) then Err StructError
  else if negb ((0 <=? pr_ppq p) && (pr_ppq p <? 65536)) then Err StructError
  else
    let header := FLhd ++ le_enc 4 6 ++ le_enc 2 (pr_format p) ++ le_enc 2 n
                       ++ le_enc 2 (pr_ppq p) in
    let* body := events_bytes en (pr_events p) in
    if negb (zlen body <? 2 ^ 32) then Err OverflowError
    else Ok (header ++ FLdt ++ le_enc 4 (zlen body) ++ body).
