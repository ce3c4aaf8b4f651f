(* Specification for the names of properties (C79): the members of the enumerations of
   events and flags, and the properties named otherwise than what they read.  No proofs. *)
From Coq Require Import String Ascii ZArith List Bool.
Import ListNotations.
Local Open Scope string_scope.
Open Scope Z_scope.

(* FadeStereo, _FadeStereo -> fade_stereo: capitals after a small letter or a digit get an
   underscore, leading underscores are dropped *)
Definition is_upper (c : ascii) : bool := let n := N_of_ascii c in ((65 <=? n) && (n <=? 90))%N.
Definition is_small (c : ascii) : bool := let n := N_of_ascii c in (((97 <=? n) && (n <=? 122)) || ((48 <=? n) && (n <=? 57)))%N.
Definition lower (c : ascii) : ascii := if is_upper c then ascii_of_N (N_of_ascii c + 32) else c.
Fixpoint snake_from (small : bool) (s : string) : string :=
  match s with
  | "" => ""
  | String c s => let r := String (lower c) (snake_from (is_small c) s) in
                  if small && is_upper c then String "_" r else r
  end.
Definition snake (s : string) : string :=
  match s with
  | String c s' => if Ascii.eqb c "_" then snake_from false s' else snake_from false s
  | "" => ""
  end.
(* fx.start -> start *)
Fixpoint last_part (s : string) : string :=
  match s with
  | "" => ""
  | String c s' => match index 0 "." s with
                   | None => s
                   | Some _ => last_part s'
                   end
  end.

(* the enumerations of events: member and id *)
Definition event_names : list (string * list (string * Z)) := [
  ("ArrangementsID",  (* arrangement.py:154 *)
     [("TimeSigNum", 17); ("TimeSigBeat", 18); ("Current", 100); ("_LoopPos", 152);
      ("PLSelection", 217)]);
  ("ArrangementID",  (* arrangement.py:164 *)
     [("New", 99); ("Name", 241); ("Playlist", 233)]);
  ("TrackID",  (* arrangement.py:172 *)
     [("Name", 239); ("Data", 238)]);
  ("ChannelID",  (* channel.py:316 *)
     [("IsEnabled", 0); ("_VolByte", 2); ("_PanByte", 3); ("Zipped", 15); ("PingPongLoop", 20);
      ("Type", 21); ("RoutedTo", 22); ("IsLocked", 32); ("New", 64); ("FreqTilt", 69); ("FXFlags", 70);
      ("Cutoff", 71); ("_VolWord", 72); ("_PanWord", 73); ("Preamp", 74); ("FadeOut", 75);
      ("FadeIn", 76); ("Resonance", 83); ("StereoDelay", 85); ("Pogo", 86); ("TimeShift", 89);
      ("Children", 94); ("Swing", 97); ("RingMod", 131); ("CutGroup", 132); ("RootNote", 135);
      ("DelayModXY", 138); ("Reverb", 139); ("_StretchTime", 140); ("FineTune", 142);
      ("SamplerFlags", 143); ("LayerFlags", 144); ("GroupNum", 145); ("AUSampleRate", 153);
      ("_Name", 192); ("SamplePath", 196); ("Delay", 209); ("Parameters", 215); ("EnvelopeLFO", 218);
      ("Levels", 219); ("Polyphony", 221); ("Tracking", 228); ("LevelAdjusts", 229);
      ("Automation", 234)]);
  ("DisplayGroupID",  (* channel.py:379 *)
     [("Name", 231)]);
  ("RackID",  (* channel.py:384 *)
     [("Swing", 11); ("_FitToSteps", 13); ("WindowHeight", 133)]);
  ("ControllerID",  (* controller.py:47 *)
     [("MIDI", 226); ("Remote", 227)]);
  ("InsertID",  (* mixer.py:154 *)
     [("Icon", 95); ("Output", 147); ("Color", 149); ("Input", 154); ("Name", 204); ("Routing", 235);
      ("Flags", 236)]);
  ("MixerID",  (* mixer.py:165 *)
     [("APDC", 29); ("Params", 225)]);
  ("SlotID",  (* mixer.py:171 *)
     [("Index", 98)]);
  ("PatternsID",  (* pattern.py:89 *)
     [("PlayTruncatedNotes", 30); ("CurrentlySelected", 67)]);
  ("PatternID",  (* pattern.py:96 *)
     [("Looped", 26); ("New", 65); ("Color", 150); ("Name", 193); ("ChannelIID", 160); ("_161", 161);
      ("_162", 162); ("Length", 164); ("Controllers", 223); ("Notes", 224)]);
  ("PluginID",  (* plugin.py:331 *)
     [("Color", 128); ("Icon", 155); ("InternalName", 201); ("Name", 203); ("Wrapper", 212);
      ("Data", 213)]);
  ("ProjectID",  (* project.py:115 *)
     [("LoopActive", 9); ("ShowInfo", 10); ("_Volume", 12); ("PanLaw", 23); ("Licensed", 28);
      ("_TempoCoarse", 66); ("Pitch", 80); ("_TempoFine", 93); ("CurGroupId", 146); ("Tempo", 156);
      ("FLBuild", 159); ("Title", 194); ("Comments", 195); ("Url", 197); ("_RTFComments", 198);
      ("FLVersion", 199); ("Licensee", 200); ("DataPath", 202); ("Genre", 206); ("Artists", 207);
      ("Timestamp", 237)]);
  ("TimeMarkerID",  (* timemarker.py:29 *)
     [("Numerator", 33); ("Denominator", 34); ("Position", 148); ("Name", 205)])].

(* the enumerations of flags: member and bit *)
Definition flag_names : list (string * list (string * Z)) := [
  ("_EnvLFOFlags",  (* channel.py:134 *)
     [("EnvelopeTempoSync", 1); ("Unknown", 4); ("LFOTempoSync", 2); ("LFOPhaseRetrig", 32)]);
  ("_DelayFlags",  (* channel.py:228 *)
     [("PingPong", 2); ("FatMode", 4)]);
  ("_PolyphonyFlags",  (* channel.py:293 *)
     [("Mono", 1); ("Porta", 2)]);
  ("_FXFlags",  (* channel.py:417 *)
     [("FadeStereo", 1); ("Reverse", 2); ("Clip", 4); ("SwapStereo", 256)]);
  ("_LayerFlags",  (* channel.py:424 *)
     [("Random", 1); ("Crossfade", 2)]);
  ("_SamplerFlags",  (* channel.py:429 *)
     [("Resample", 1); ("LoadRegions", 2); ("LoadSliceMarkers", 4); ("UsesLoopPoints", 8);
      ("KeepOnDisk", 256)]);
  ("_InsertFlags",  (* mixer.py:68 *)
     [("PolarityReversed", 1); ("SwapLeftRight", 2); ("EnableEffects", 4); ("Enabled", 8);
      ("DisableThreadedProcessing", 16); ("U5", 32); ("DockMiddle", 64); ("DockRight", 128);
      ("U8", 256); ("U9", 512); ("SeparatorShown", 1024); ("Locked", 2048); ("Solo", 4096);
      ("U13", 8192); ("U14", 16384); ("AudioTrack", 32768)]);
  ("_NoteFlags",  (* pattern.py:64 *)
     [("Slide", 8)]);
  ("_WrapperFlags",  (* plugin.py:62 *)
     [("Visible", 1); ("_Disabled", 2); ("Detached", 4); ("Generator", 16); ("SmartDisable", 32);
      ("ThreadedProcessing", 64); ("DemoMode", 128); ("HideSettings", 256); ("Minimized", 512);
      ("_DirectX", 65536); ("_EditorSize", 131072)]);
  ("_VSTFlags",  (* plugin.py:243 *)
     [("SendPBRange", 1); ("FixedSizeBuffers", 2); ("NotifyRender", 4); ("ProcessInactive", 8);
      ("DontSendRelVelo", 32); ("DontNotifyChanges", 64); ("SendLoopPos", 2048);
      ("AllowThreaded", 4096); ("KeepFocus", 32768); ("DontKeepCPUState", 65536); ("SendModX", 131072);
      ("LoadBridged", 262144); ("ExternalWindow", 2097152); ("UpdateWhenHidden", 8388608);
      ("DontResetOnTransport", 33554432); ("DPIAwareBridged", 67108864); ("AcceptFileDrop", 268435456);
      ("AllowSmartDisable", 536870912); ("ScaleEditor", 1073741824); ("DontUseTimeOffset", 2147483648)]);
  ("_VSTFlags2",  (* plugin.py:266 *)
     [("ProcessMaxSize", 1); ("UseMaxFromHost", 2)])].

(* the enumerations a class reads events of *)
Definition enums_of (c : string) : list string :=
  if existsb (String.eqb c) ["Track"] then ["TrackID"]
  else if existsb (String.eqb c) ["Arrangement"] then ["ArrangementID"]
  else if existsb (String.eqb c) ["TimeSignature"] then ["ArrangementsID"]
  else if existsb (String.eqb c) ["DisplayGroup"] then ["DisplayGroupID"]
  else if existsb (String.eqb c) ["ChannelRack"] then ["RackID"]
  else if existsb (String.eqb c) ["Slot"] then ["SlotID"; "PluginID"]
  else if existsb (String.eqb c) ["Insert"] then ["InsertID"]
  else if existsb (String.eqb c) ["Mixer"] then ["MixerID"]
  else if existsb (String.eqb c) ["Pattern"] then ["PatternID"]
  else if existsb (String.eqb c) ["Patterns"] then ["PatternsID"]
  else if existsb (String.eqb c) ["Project"] then ["ProjectID"]
  else if existsb (String.eqb c) ["TimeMarker"] then ["TimeMarkerID"]
  else if existsb (String.eqb c) ["Time"; "FX"; "Keyboard"; "Playback"; "Channel"; "_SamplerInstrument"; "Sampler"]
       then ["ChannelID"; "PluginID"]
  else [].
(* the enumeration of its flags *)
Definition flags_of (c : string) : string :=
  if existsb (String.eqb c) ["Envelope"; "SamplerLFO"] then "_EnvLFOFlags"
  else if existsb (String.eqb c) ["Delay"] then "_DelayFlags"
  else if existsb (String.eqb c) ["Polyphony"] then "_PolyphonyFlags"
  else if existsb (String.eqb c) ["FX"] then "_FXFlags"
  else if existsb (String.eqb c) ["Layer"] then "_LayerFlags"
  else if existsb (String.eqb c) ["Playback"; "Content"] then "_SamplerFlags"
  else if existsb (String.eqb c) ["Insert"] then "_InsertFlags"
  else if existsb (String.eqb c) ["Note"] then "_NoteFlags"
  else if existsb (String.eqb c) ["_PluginBase"] then "_WrapperFlags"
  else "".

(* class, property, what it reads: the properties with another name *)
Definition renamed : list (string * string * string) := [
  ("Arrangement", "iid", "new"); ("TimeSignature", "num", "time_sig_num"); ("TimeSignature", "beat", "time_sig_beat");
  ("Time", "shift", "time_shift"); ("FX", "boost", "preamp"); ("FX", "ringmod", "ring_mod");
  ("Envelope", "synced", "envelope_tempo_sync"); ("SamplerLFO", "synced", "lfotempo_sync"); ("SamplerLFO", "retrig", "lfophase_retrig");
  ("Playback", "use_loop_points", "uses_loop_points"); ("Content", "load_slices", "load_slice_markers");
  ("Channel", "enabled", "is_enabled"); ("Channel", "iid", "new"); ("Channel", "locked", "is_locked");
  ("_SamplerInstrument", "insert", "routed_to"); ("Sampler", "au_sample_rate", "ausample_rate"); ("ChannelRack", "height", "window_height");
  ("Slot", "iid", "index"); ("Insert", "bypassed", "enable_effects"); ("Insert", "channels_swapped", "swap_left_right"); ("Insert", "is_solo", "solo");
  ("Patterns", "play_cut_notes", "play_truncated_notes"); ("_PluginBase", "compact", "hide_settings"); ("_PluginBase", "directx", "direct_x");
  ("_PluginBase", "multithreaded", "threaded_processing");
  ("Project", "comments", "rtfcomments"); ("Project", "looped", "loop_active"); ("Project", "main_pitch", "pitch"); ("Project", "main_volume", "volume")].
Definition named_for (c n x : string) : Prop := snake x = n \/ In (c, n, snake x) renamed.

(* the member [x] of the enumeration [e] has the number [i] *)
Definition member_of (l : list (string * list (string * Z))) (e x : string) (i : Z) : Prop :=
  exists ms, In (e, ms) l /\ In (x, i) ms.
(* all bits of an enumeration of flags *)
Definition all_flags (e : string) : Z :=
  fold_right (fun r m => if String.eqb (fst r) e then fold_right (fun x m => Z.lor (snd x) m) m (snd r) else m) 0 flag_names.

