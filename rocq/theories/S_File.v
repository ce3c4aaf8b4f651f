(* Specification of FLP files: header, chunk grammar, event classes.  Nothing of
   M_Construct / M_Parse is used; M_Text models Python's own string functions. *)
From Coq Require Import String ZArith List Bool.
From Verif Require Import M_Base M_Text M_Events S_Canon.
Import ListNotations.
Open Scope Z_scope.

(* ---------- chunks ---------- *)
Definition chunk := (Z * bytes)%type.          (* id, payload *)

(* payload size of the ids below 192 *)
Definition width (id : Z) : Z := if id <? 64 then 1 else if id <? 128 then 2 else 4.

(* The bytes of one chunk.  [strict]: the length is written in its shortest form. *)
Inductive chunk_bytes (strict : bool) : chunk -> bytes -> Prop :=
| CFixed id p : 0 <= id < 192 -> zlen p = width id ->
    chunk_bytes strict (id, p) (id :: p)
| CVar id p pre m : 192 <= id < 256 -> lenprefix pre = Some (zlen p, m, []) ->
    (strict = true -> m = true) ->
    chunk_bytes strict (id, p) (id :: pre ++ p).

Inductive framed (strict : bool) : list chunk -> bytes -> Prop :=
| FNil : framed strict [] []
| FCons c cs b bs : chunk_bytes strict c b -> framed strict cs bs ->
    framed strict (c :: cs) (b ++ bs).

(* A last chunk that announces more bytes than there are; [cut] are the bytes
   that are there. *)
Inductive cut_chunk : chunk -> bytes -> Prop :=
| Cut id cut pre n m : 192 <= id < 256 -> lenprefix pre = Some (n, m, []) -> zlen cut < n ->
    cut_chunk (id, cut) (id :: pre ++ cut).
(* Chunks, the last one possibly cut *)
Inductive framed_cut : list chunk -> bytes -> Prop :=
| FWhole cs bs : framed false cs bs -> framed_cut cs bs
| FCut cs bs c b : framed false cs bs -> cut_chunk c b -> framed_cut (cs ++ [c]) (bs ++ b).

(* ---------- header ---------- *)
(* [n] bytes of [z], least significant first *)
Definition le (n : nat) (z : Z) : bytes := map (fun i => z / 256 ^ Z.of_nat i mod 256) (seq 0 n).
Definition magic_header : bytes := [70; 76; 104; 100].    (* FLhd *)
Definition magic_data : bytes := [70; 76; 100; 116].      (* FLdt *)
Definition formats : list Z := [-1; 0; 16; 24; 32; 48; 49; 50; 64; 80].
Definition ppqs : list Z := [24; 48; 72; 96; 120; 144; 168; 192; 384; 768; 960].
Definition file_bytes (format channels ppq : Z) (body : bytes) : bytes :=
  magic_header ++ le 4 6 ++ le 2 format ++ le 2 channels ++ le 2 ppq
  ++ magic_data ++ le 4 (zlen body) ++ body.
Definition good_header (format channels ppq : Z) (body : bytes) : Prop :=
  In format formats /\ In ppq ppqs /\ 0 <= channels < 65536 /\ 0 < zlen body < 2 ^ 32.
Definition valid_file (f : bytes) : Prop :=
  exists format channels ppq body,
    f = file_bytes format channels ppq body /\ good_header format channels ppq body.

(* ---------- event classes ---------- *)
Definition class_table : list (kind * list Z) :=
  [(KBool, [0; 9; 10; 15; 20; 26; 28; 30; 32]);
   (KU8, [2; 3; 11; 12; 13; 17; 18; 21; 23; 33; 34]);
   (KI8, [22]);
   (KU16, [64; 65; 67; 69; 70; 71; 72; 73; 74; 75; 76; 83; 85; 86; 89; 94; 97; 98; 99; 100]);
   (KI16, [80; 95]);
   (KColor, [128; 149; 150]);
   (KU16Tuple, [131; 132; 138; 152]);
   (KU32, [133; 135; 139; 143; 144; 148; 153; 155; 156; 159; 160; 162; 164]);
   (KI32, [142; 145; 146; 147; 154; 161]);
   (KF32, [140]);
   (KAscii, [199]);
   (KDelay, [209]); (KWrapper, [212]); (KParameters, [215]); (KPLSelection, [217]);
   (KEnvelopeLFO, [218]); (KLevels, [219]); (KPolyphony, [221]); (KController, [223]);
   (KNotes, [224]); (KMixerParams, [225]); (KTracking, [228]); (KLevelAdjusts, [229]);
   (KPlaylist, [233]); (KAutomation, [234]); (KInsertRouting, [235]); (KInsertFlags, [236]);
   (KTimestamp, [237]); (KTrack, [238])].
(* known once pyflp.controller has been imported *)
Definition controller_table : list (kind * list Z) :=
  [(KMIDIController, [226]); (KRemoteController, [227])].
Definition class_in (t : list (kind * list Z)) (id : Z) : option kind :=
  match find (fun r => mem_Z id (snd r)) t with Some (k, _) => Some k | None => None end.
Definition registered (en : env) (id : Z) : option kind :=
  class_in (class_table ++ if en_ctrl en then controller_table else []) id.

(* text ids without registered class *)
Definition text_id (id : Z) : bool := ((192 <=? id) && (id <? 208)) || mem_Z id [231; 239; 241].

(* lexicographic order *)
Fixpoint lex_le (a b : list Z) : bool :=
  match a, b with
  | [], _ => true
  | _ :: _, [] => false
  | x :: a, y :: b => (x <? y) || ((x =? y) && lex_le a b)
  end.

(* the numbers of a version text *)
Definition numbers (s : pystr) : option (list Z) :=
  fold_right (fun p r => match py_int p, r with Some n, Some ns => Some (n :: ns) | _, _ => None end)
             (Some []) (split_on 46 s).
Definition version_numbers (p : bytes) : option (list Z) :=
  match ascii_dec p with Some s => numbers (rstrip0 s) | None => None end.

(* Histories are newest first. *)
Fixpoint last_payload (id : Z) (h : list chunk) : option bytes :=
  match h with
  | [] => None
  | (i, p) :: h => if i =? id then Some p else last_payload id h
  end.
(* the text class in force *)
Definition text_class (h : list chunk) : option kind :=
  match last_payload 199 h with
  | Some p => match version_numbers p with
              | Some ns => Some (if lex_le [11; 5] (firstn 2 ns) then KUnicode else KAscii)
              | None => None
              end
  | None => None
  end.
Definition text_of (k : kind) (p : bytes) : option pystr :=
  option_map rstrip0 (match k with KUnicode => utf16_dec p | _ => ascii_dec p end).
(* the internal name announced last *)
Fixpoint plugin_name (h : list chunk) : option pystr :=
  match h with
  | [] => None
  | (i, p) :: h' => if i =? 201
                    then match text_class h with Some k => text_of k p | None => None end
                    else plugin_name h'
  end.
Definition plugin_class (name : pystr) : kind :=
  match find (fun r => list_Zeqb (fst r) name)
    [(str "Fruity Wrapper", KVSTPlugin); (str "BooBass", KBooBass);
     (str "Fruit Kick", KFruitKick); (str "Fruity Balance", KFruityBalance);
     (str "Fruity Blood Overdrive", KFruityBloodOverdrive);
     (str "Fruity Center", KFruityCenter); (str "Fruity Fast Dist", KFruityFastDist);
     (str "Fruity NoteBook 2", KFruityNotebook2); (str "Fruity Send", KFruitySend);
     (str "Fruity Soft Clipper", KFruitySoftClipper);
     (str "Fruity Stereo Enhancer", KFruityStereoEnhancer);
     (str "Plucked!", KPlucked); (str "Soundgoodizer", KSoundgoodizer)]
  with Some (_, k) => k | None => KUnknown end.

(* class of the newest chunk of a history *)
Definition class_of (en : env) (h : list chunk) : option kind :=
  match h with
  | [] => None
  | (id, p) :: h' =>
      match registered en id with
      | Some k => Some k
      | None =>
          if id <? 64 then Some KU8
          else if id <? 128 then Some KU16
          else if id <? 192 then Some KU32
          else if text_id id then text_class h
          else if id =? 213
          then Some (match plugin_name h' with Some n => plugin_class n | None => KUnknown end)
          else Some KUnknown
      end
  end.

(* every payload is the canonical one of its class; [h]: what came before *)
Fixpoint payloads_canonical (en : env) (h cs : list chunk) : Prop :=
  match cs with
  | [] => True
  | (id, p) :: cs' =>
      (exists k, class_of en ((id, p) :: h) = Some k /\ canonical_payload en k p = true)
      /\ payloads_canonical en ((id, p) :: h) cs'
  end.

Definition count_chunks (id : Z) (cs : list chunk) : Z :=
  zlen (filter (fun c => fst c =? id) cs).

(* Files that survive a round trip *)
Definition canonical_file (en : env) (f : bytes) : Prop :=
  exists format channels ppq body cs,
    f = file_bytes format channels ppq body /\ good_header format channels ppq body /\
    framed true cs body /\ payloads_canonical en [] cs /\
    channels = count_chunks 64 cs /\ channels <> 0.

(* The events of a list of chunks: event by event, what the class in force makes
   of the chunk's id and payload when called as class(id, payload).
   [h]: the chunks before, newest first. *)
Inductive reads (en : env) : list chunk -> list chunk -> list event -> Prop :=
| RNil h : reads en h [] []
| RCons h id p cs k e es :
    class_of en ((id, p) :: h) = Some k ->
    (id = 199 -> version_numbers p <> None) ->
    mk_event en k id p = Ok e ->
    reads en ((id, p) :: h) cs es ->
    reads en h ((id, p) :: cs) (e :: es).

(* the value of an event as far as a user can see it *)
Definition same_event (a b : event) : Prop :=
  e_id a = e_id b /\ e_kind a = e_kind b /\ e_val a = e_val b.

(* Events that can be written down: [encodes en h es cs] - the payloads of the
   events [es] are those of the chunks [cs], and each event is one that its
   payload, read after [h], stands for. *)
Inductive encodes (en : env) : list chunk -> list event -> list chunk -> Prop :=
| ENil h : encodes en h [] []
| ECons h e es p cs e' :
    payload en e = Ok p -> is_bytes p ->
    class_of en ((e_id e, p) :: h) = Some (e_kind e) ->
    (e_id e = 199 -> version_numbers p <> None) ->
    mk_event en (e_kind e) (e_id e) p = Ok e' -> same_event e e' ->
    encodes en ((e_id e, p) :: h) es cs ->
    encodes en h (e :: es) ((e_id e, p) :: cs).

(* number of bytes of a length prefix of a payload of n bytes: 7 bits each *)
Definition prefix_size (n : Z) : Z := 1 + Z.log2 n / 7.
Definition chunk_size (c : chunk) : Z :=
  if fst c <? 192 then 1 + width (fst c) else 1 + prefix_size (zlen (snd c)) + zlen (snd c).
Definition chunks_size (cs : list chunk) : Z := fold_right Z.add 0 (map chunk_size cs).
