(* Specification for the table of declared properties (C76): the members of the
   records as pyflp writes them, where models live, and the declarations that do not
   work.  No proofs. *)
From Coq Require Import String ZArith List Bool.
From Verif Require Import M_Base M_Events M_Tree M_Prop M_Api S_Prop P_Tree.
Import ListNotations.
Local Open Scope string_scope.
Open Scope Z_scope.

(* the member names of the STRUCT of each class, and of the elements of lists *)
Definition record_names (k : kind) : list string :=
  match k with
  | KPLSelection =>  (* arrangement.py:67 *)
      ["start"; "end"]
  | KTrack =>  (* arrangement.py:132 *)
      ["iid"; "color"; "icon"; "enabled"; "height"; "locked_height"; "content_locked";
       "motion"; "press"; "trigger_sync"; "queued"; "tolerant"; "position_sync"; "grouped";
       "locked"; "_u1"]
  | KAutomation =>  (* channel.py:95 *)
      ["_u1"; "lfo.amount"; "_u2"; "_u3"; "_u4"; "_u5"; "points"; "_u6"]
  | KDelay =>  (* channel.py:123 *)
      ["feedback"; "pan"; "pitch_shift"; "echoes"; "time"]
  | KEnvelopeLFO =>  (* channel.py:151 *)
      ["flags"; "envelope.enabled"; "envelope.predelay"; "envelope.attack"; "envelope.hold";
       "envelope.decay"; "envelope.sustain"; "envelope.release"; "envelope.amount";
       "lfo.predelay"; "lfo.attack"; "lfo.amount"; "lfo.speed"; "lfo.shape";
       "envelope.attack_tension"; "envelope.decay_tension"; "envelope.release_tension"]
  | KLevelAdjusts =>  (* channel.py:173 *)
      ["pan"; "volume"; "_u1"; "mod_x"; "mod_y"]
  | KLevels =>  (* channel.py:194 *)
      ["pan"; "volume"; "pitch_shift"; "filter.mod_x"; "filter.mod_y"; "filter.type"]
  | KParameters =>  (* channel.py:248 *)
      ["_u1"; "fx.remove_dc"; "delay.flags"; "keyboard.main_pitch"; "_u2"; "arp.direction";
       "arp.range"; "arp.chord"; "arp.time"; "arp.gate"; "arp.slide"; "_u3";
       "time.full_porta"; "keyboard.add_root"; "time.gate"; "_u4"; "keyboard.key_region";
       "_u5"; "fx.normalize"; "fx.inverted"; "_u6"; "content.declick_mode"; "fx.crossfade";
       "fx.trim"; "arp.repeat"; "stretching.time"; "stretching.pitch";
       "stretching.multiplier"; "stretching.mode"; "_u7"; "fx.start"; "_u8"; "fx.length";
       "_u9"; "playback.start_offset"; "_u10"; "fx.fix_trim"; "_extra"]
  | KPolyphony =>  (* channel.py:298 *)
      ["max"; "slide"; "flags"]
  | KTracking =>  (* channel.py:306 *)
      ["middle_value"; "pan"; "mod_x"; "mod_y"]
  | KMIDIController =>  (* controller.py:30 *)
      ["_u1"]
  | KRemoteController =>  (* controller.py:34 *)
      ["_u1"; "_u2"; "_u3"; "parameter_data"; "destination_data"; "_u4"; "_u5"]
  | KInsertFlags =>  (* mixer.py:106 *)
      ["_u1"; "flags"; "_u2"]
  | KBooBass =>  (* plugin.py:77 *)
      ["_u1"; "bass"; "mid"; "high"]
  | KFruitKick =>  (* plugin.py:86 *)
      ["_u1"; "max_freq"; "min_freq"; "freq_decay"; "amp_decay"; "click"; "distortion"; "_u2"]
  | KFruityBalance =>  (* plugin.py:99 *)
      ["pan"; "volume"]
  | KFruityBloodOverdrive =>  (* plugin.py:103 *)
      ["plugin_marker"; "pre_band"; "color"; "pre_amp"; "x100"; "post_filter"; "post_gain";
       "_u1"; "_u2"]
  | KFruityCenter =>  (* plugin.py:117 *)
      ["_u1"; "enabled"]
  | KFruityFastDist =>  (* plugin.py:123 *)
      ["pre"; "threshold"; "kind"; "mix"; "post"]
  | KFruityNotebook2 =>  (* plugin.py:133 *)
      ["_u1"; "active_page"; "pages"; "editable"]
  | KFruitySend =>  (* plugin.py:150 *)
      ["pan"; "dry"; "volume"; "send_to"]
  | KFruitySoftClipper =>  (* plugin.py:159 *)
      ["threshold"; "post"]
  | KFruityStereoEnhancer =>  (* plugin.py:163 *)
      ["pan"; "volume"; "stereo_separation"; "phase_offset"; "effect_position";
       "phase_inversion"]
  | KPlucked =>  (* plugin.py:174 *)
      ["decay"; "color"; "normalize"; "gate"; "widen"]
  | KSoundgoodizer =>  (* plugin.py:184 *)
      ["_u1"; "mode"; "amount"]
  | KWrapper =>  (* plugin.py:213 *)
      ["_u1"; "flags"; "_u2"; "page"; "_u3"; "width"; "height"; "_extra"]
  | KVSTPlugin =>  (* plugin.py:287 *)
      ["type"; "events"]
  | KTimestamp =>  (* project.py:66 *)
      ["created_on"; "time_spent"]
  | _ => []
  end.
Definition item_names (k : kind) : list string :=
  match k with
  | KPlaylist =>  (* arrangement.py:71 *)
      ["position"; "pattern_base"; "item_index"; "length"; "track_rvidx"; "group"; "_u1";
       "item_flags"; "_u2"; "start_offset"; "end_offset"; "_u3"]
  | KMixerParams =>  (* mixer.py:126 *)
      ["_u4"; "id"; "_u1"; "channel_data"; "msg"]
  | KController =>  (* pattern.py:50 *)
      ["position"; "_u1"; "_u2"; "channel"; "_flags"; "value"]
  | KNotes =>  (* pattern.py:68 *)
      ["position"; "flags"; "rack_channel"; "length"; "key"; "group"; "fine_pitch"; "_u1";
       "release"; "midi_channel"; "pan"; "velocity"; "mod_x"; "mod_y"]
  | KAutomation => ["_offset"; "position"; "value"; "tension"; "_u1"]  (* channel.py:105-116 *)
  | _ => []
  end.
(* [m] is a model of a class that lives at [hm] *)
Inductive at_home (h : heap) : home -> model -> Prop :=
| AtTree t : (t < nt h)%nat -> at_home h HTree (EvModel t)
| AtOne id t e : (t < nt h)%nat -> events h t = [e] -> e_id e = id -> at_home h (HOne id) (EvModel t)
| AtItem k r i : (r < length (h_evs h))%nat -> e_kind (ev_of h r) = k ->
    (i < length (items (ev_of h r)))%nat -> at_home h (HItems k) (ItModel r i)
| AtPlugin k t : (t < nt h)%nat ->
    (forall j e, chosen [213] (events h t) (Some j) -> nth_error (events h t) j = Some e -> e_kind e = k) ->
    at_home h (HPlugin k) (EvModel t).

(* there is an event (or item) the property reads *)
Definition present (h : heap) (m : model) (ids : list Z) : Prop :=
  match m with
  | ItModel _ _ => True
  | EvModel t => ids = [] \/ exists e, In e (events h t) /\ In (e_id e) ids
  end.

(* what a property reads after [v] was assigned: flags are booleans *)
Definition reads_back (k : pkind) (v : val) : val :=
  match k with PFlag _ _ _ _ => VBool (truthy v) | _ => v end.

(* declarations naming members their record does not have *)
Definition broken : list (string * string) :=
  [("Arp", "chord"); ("Arp", "direction"); ("Arp", "gate"); ("Arp", "range"); ("Arp", "repeat");
   ("Arp", "slide"); ("Arp", "time");
   ("PLItemBase", "muted"); ("ChannelPLItem", "muted"); ("PatternPLItem", "muted")].

(* two names of one thing *)
Definition alias (c a b : string) : Prop :=
  c = "Slot" /\ (a = "iid" /\ b = "index" \/ a = "index" /\ b = "iid").
