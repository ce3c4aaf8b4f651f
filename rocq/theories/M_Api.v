(* The properties declared by the model classes: every EventProp, StructProp,
   FlagProp, _WrapperProp (plugin.py:351-353), _NativePluginProp (plugin.py:450-452)
   and NestedProp in the class bodies of pyflp/*.py, in the order of the files.
   Left out: the descriptors of other kinds (mixer parameters, EQ bands, VST plugin
   data, plugins, track colors, keyword properties), which are modelled one by one
   elsewhere, methods, and PluginIOInfo (plugin.py:505-507), which nothing makes.
   No proofs. *)
From Coq Require Import String ZArith List Bool.
From Verif Require Import M_Base M_Construct M_Structs M_Events M_Tree M_Prop.
Import ListNotations.
Local Open Scope string_scope.
Open Scope Z_scope.

(* class, attribute, descriptor; the masks are the unions of the members of
   channel.py:132-137 (39), 226-229 (6), 290-294 (3), 416-434 (263, 3, 271),
   mixer.py:65-82 (65535), pattern.py:62-64 (8), plugin.py:60-74 (197623) *)
Definition api : list (string * string * prop) := [
  ("PLItemBase", "group", MkProp [] VNone false (PStruct "group"));  (* arrangement.py:177 *)
  ("PLItemBase", "length", MkProp [] VNone false (PStruct "length"));  (* arrangement.py:180 *)
  ("PLItemBase", "muted", MkProp [] VNone false (PStruct "muted"));  (* arrangement.py:183 *)
  ("PLItemBase", "position", MkProp [] VNone false (PStruct "position"));  (* arrangement.py:198 *)
  ("Track", "content_locked", MkProp [238] VNone false (PStruct "content_locked"));  (* arrangement.py:282 *)
  ("Track", "enabled", MkProp [238] VNone false (PStruct "enabled"));  (* arrangement.py:285 *)
  ("Track", "grouped", MkProp [238] VNone false (PStruct "grouped"));  (* arrangement.py:288 *)
  ("Track", "height", MkProp [238] VNone false (PStruct "height"));  (* arrangement.py:296 *)
  ("Track", "icon", MkProp [238] VNone false (PStruct "icon"));  (* arrangement.py:299 *)
  ("Track", "iid", MkProp [238] VNone false (PStruct "iid"));  (* arrangement.py:307 *)
  ("Track", "locked", MkProp [238] VNone false (PStruct "locked"));  (* arrangement.py:310 *)
  ("Track", "motion", MkProp [238] VNone false (PStruct "motion"));  (* arrangement.py:316 *)
  ("Track", "name", MkProp [239] VNone false PEvent);  (* arrangement.py:319 *)
  ("Track", "position_sync", MkProp [238] VNone false (PStruct "position_sync"));  (* arrangement.py:322 *)
  ("Track", "press", MkProp [238] VNone false (PStruct "press"));  (* arrangement.py:325 *)
  ("Track", "tolerant", MkProp [238] VNone false (PStruct "tolerant"));  (* arrangement.py:328 *)
  ("Track", "trigger_sync", MkProp [238] VNone false (PStruct "trigger_sync"));  (* arrangement.py:331 *)
  ("Track", "queued", MkProp [238] VNone false (PStruct "queued"));  (* arrangement.py:334 *)
  ("Arrangement", "iid", MkProp [99] VNone false PEvent);  (* arrangement.py:363 *)
  ("Arrangement", "name", MkProp [241] VNone false PEvent);  (* arrangement.py:366 *)
  ("TimeSignature", "num", MkProp [17] VNone false PEvent);  (* arrangement.py:409 *)
  ("TimeSignature", "beat", MkProp [18] VNone false PEvent);  (* arrangement.py:417 *)
  ("DisplayGroup", "name", MkProp [231] VNone false PEvent);  (* channel.py:442 *)
  ("Arp", "chord", MkProp [] VNone false (PStruct "chord"));  (* channel.py:451 *)
  ("Arp", "direction", MkProp [] VNone false (PStruct "direction"));  (* channel.py:454 *)
  ("Arp", "gate", MkProp [] VNone false (PStruct "gate"));  (* channel.py:455 *)
  ("Arp", "range", MkProp [] VNone false (PStruct "range"));  (* channel.py:458 *)
  ("Arp", "repeat", MkProp [] VNone false (PStruct "repeat"));  (* channel.py:461 *)
  ("Arp", "slide", MkProp [] VNone false (PStruct "slide"));  (* channel.py:467 *)
  ("Arp", "time", MkProp [] VNone false (PStruct "time"));  (* channel.py:470 *)
  ("Delay", "echoes", MkProp [209] VNone false (PStruct "echoes"));  (* channel.py:482 *)
  ("Delay", "fat_mode", MkProp [215] VNone false (PFlag "delay.flags" 4 6 false));  (* channel.py:485 *)
  ("Delay", "feedback", MkProp [209] VNone false (PStruct "feedback"));  (* channel.py:488 *)
  ("Delay", "pan", MkProp [209] VNone false (PStruct "pan"));  (* channel.py:519 *)
  ("Delay", "ping_pong", MkProp [215] VNone false (PFlag "delay.flags" 2 6 false));  (* channel.py:528 *)
  ("Delay", "pitch_shift", MkProp [209] VNone false (PStruct "pitch_shift"));  (* channel.py:535 *)
  ("Delay", "time", MkProp [209] VNone false (PStruct "time"));  (* channel.py:543 *)
  ("Filter", "mod_x", MkProp [219] VNone false (PStruct "filter.mod_x"));  (* channel.py:560 *)
  ("Filter", "mod_y", MkProp [219] VNone false (PStruct "filter.mod_y"));  (* channel.py:563 *)
  ("Filter", "type", MkProp [219] VNone false (PStruct "filter.type"));  (* channel.py:566 *)
  ("LevelAdjusts", "mod_x", MkProp [] VNone false (PStruct "mod_x"));  (* channel.py:578 *)
  ("LevelAdjusts", "mod_y", MkProp [] VNone false (PStruct "mod_y"));  (* channel.py:579 *)
  ("LevelAdjusts", "pan", MkProp [] VNone false (PStruct "pan"));  (* channel.py:580 *)
  ("LevelAdjusts", "volume", MkProp [] VNone false (PStruct "volume"));  (* channel.py:581 *)
  ("Time", "swing", MkProp [97] VNone false PEvent);  (* channel.py:590 *)
  ("Time", "gate", MkProp [215] VNone false (PStruct "time.gate"));  (* channel.py:596 *)
  ("Time", "shift", MkProp [89] VNone false PEvent);  (* channel.py:606 *)
  ("Time", "full_porta", MkProp [215] VNone false (PStruct "time.full_porta"));  (* channel.py:615 *)
  ("FX", "boost", MkProp [74] VNone false PEvent);  (* channel.py:667 *)
  ("FX", "clip", MkProp [70] VNone false (PFlag "flags" 4 263 false));  (* channel.py:677 *)
  ("FX", "crossfade", MkProp [215] VNone false (PStruct "fx.crossfade"));  (* channel.py:680 *)
  ("FX", "cutoff", MkProp [71] VNone false PEvent);  (* channel.py:689 *)
  ("FX", "fade_in", MkProp [76] VNone false PEvent);  (* channel.py:692 *)
  ("FX", "fade_out", MkProp [75] VNone false PEvent);  (* channel.py:695 *)
  ("FX", "fade_stereo", MkProp [70] VNone false (PFlag "flags" 1 263 false));  (* channel.py:701 *)
  ("FX", "fix_trim", MkProp [215] VNone false (PStruct "fx.fix_trim"));  (* channel.py:702 *)
  ("FX", "freq_tilt", MkProp [69] VNone false PEvent);  (* channel.py:708 *)
  ("FX", "inverted", MkProp [215] VNone false (PStruct "fx.inverted"));  (* channel.py:716 *)
  ("FX", "length", MkProp [215] VNone false (PStruct "fx.length"));  (* channel.py:719 *)
  ("FX", "normalize", MkProp [215] VNone false (PStruct "fx.normalize"));  (* channel.py:725 *)
  ("FX", "pogo", MkProp [86] VNone false PEvent);  (* channel.py:728 *)
  ("FX", "remove_dc", MkProp [215] VNone false (PStruct "fx.remove_dc"));  (* channel.py:736 *)
  ("FX", "resonance", MkProp [83] VNone false PEvent);  (* channel.py:742 *)
  ("FX", "reverse", MkProp [70] VNone false (PFlag "flags" 2 263 false));  (* channel.py:746 *)
  ("FX", "ringmod", MkProp [131] VNone false PEvent);  (* channel.py:749 *)
  ("FX", "start", MkProp [215] VNone false (PStruct "fx.start"));  (* channel.py:759 *)
  ("FX", "stereo_delay", MkProp [85] VNone false PEvent);  (* channel.py:765 *)
  ("FX", "swap_stereo", MkProp [70] VNone false (PFlag "flags" 256 263 false));  (* channel.py:775 *)
  ("FX", "trim", MkProp [215] VNone false (PStruct "fx.trim"));  (* channel.py:778 *)
  ("Envelope", "enabled", MkProp [] VNone false (PStruct "envelope.enabled"));  (* channel.py:799 *)
  ("Envelope", "predelay", MkProp [] VNone false (PStruct "envelope.predelay"));  (* channel.py:802 *)
  ("Envelope", "amount", MkProp [] VNone false (PStruct "envelope.amount"));  (* channel.py:811 *)
  ("Envelope", "attack", MkProp [] VNone false (PStruct "envelope.attack"));  (* channel.py:821 *)
  ("Envelope", "hold", MkProp [] VNone false (PStruct "envelope.hold"));  (* channel.py:831 *)
  ("Envelope", "decay", MkProp [] VNone false (PStruct "envelope.decay"));  (* channel.py:841 *)
  ("Envelope", "sustain", MkProp [] VNone false (PStruct "envelope.sustain"));  (* channel.py:851 *)
  ("Envelope", "release", MkProp [] VNone false (PStruct "envelope.release"));  (* channel.py:861 *)
  ("Envelope", "synced", MkProp [] VNone false (PFlag "flags" 1 39 false));  (* channel.py:871 *)
  ("Envelope", "attack_tension", MkProp [] VNone false (PStruct "envelope.attack_tension"));  (* channel.py:874 *)
  ("Envelope", "decay_tension", MkProp [] VNone false (PStruct "envelope.decay_tension"));  (* channel.py:886 *)
  ("Envelope", "release_tension", MkProp [] VNone false (PStruct "envelope.release_tension"));  (* channel.py:898 *)
  ("SamplerLFO", "amount", MkProp [] VNone false (PStruct "lfo.amount"));  (* channel.py:922 *)
  ("SamplerLFO", "attack", MkProp [] VNone false (PStruct "lfo.attack"));  (* channel.py:932 *)
  ("SamplerLFO", "predelay", MkProp [] VNone false (PStruct "lfo.predelay"));  (* channel.py:942 *)
  ("SamplerLFO", "speed", MkProp [] VNone false (PStruct "lfo.speed"));  (* channel.py:951 *)
  ("SamplerLFO", "synced", MkProp [] VNone false (PFlag "flags" 2 39 false));  (* channel.py:961 *)
  ("SamplerLFO", "retrig", MkProp [] VNone false (PFlag "flags" 32 39 false));  (* channel.py:964 *)
  ("SamplerLFO", "shape", MkProp [] VNone false (PStruct "lfo.shape"));  (* channel.py:967 *)
  ("Polyphony", "mono", MkProp [] VNone false (PFlag "flags" 1 3 false));  (* channel.py:977 *)
  ("Polyphony", "porta", MkProp [] VNone false (PFlag "flags" 2 3 false));  (* channel.py:980 *)
  ("Polyphony", "max", MkProp [] VNone false (PStruct "max"));  (* channel.py:983 *)
  ("Polyphony", "slide", MkProp [] VNone false (PStruct "slide"));  (* channel.py:986 *)
  ("Tracking", "middle_value", MkProp [] VNone false (PStruct "middle_value"));  (* channel.py:1007 *)
  ("Tracking", "mod_x", MkProp [] VNone false (PStruct "mod_x"));  (* channel.py:1010 *)
  ("Tracking", "mod_y", MkProp [] VNone false (PStruct "mod_y"));  (* channel.py:1018 *)
  ("Tracking", "pan", MkProp [] VNone false (PStruct "pan"));  (* channel.py:1026 *)
  ("Keyboard", "fine_tune", MkProp [142] VNone false PEvent);  (* channel.py:1043 *)
  ("Keyboard", "root_note", MkProp [135] (VInt 60) false PEvent);  (* channel.py:1047 *)
  ("Keyboard", "main_pitch", MkProp [215] VNone false (PStruct "keyboard.main_pitch"));  (* channel.py:1050 *)
  ("Keyboard", "add_root", MkProp [215] VNone false (PStruct "keyboard.add_root"));  (* channel.py:1053 *)
  ("Keyboard", "key_region", MkProp [215] VNone false (PStruct "keyboard.key_region"));  (* channel.py:1061 *)
  ("Playback", "ping_pong_loop", MkProp [20] VNone false PEvent);  (* channel.py:1071 *)
  ("Playback", "start_offset", MkProp [215] VNone false (PStruct "playback.start_offset"));  (* channel.py:1072 *)
  ("Playback", "use_loop_points", MkProp [143] VNone false (PFlag "flags" 8 271 false));  (* channel.py:1081 *)
  ("TimeStretching", "mode", MkProp [215] VNone false (PStruct "stretching.mode"));  (* channel.py:1092 *)
  ("TimeStretching", "multiplier", MkProp [215] VNone false (PStruct "stretching.multiplier"));  (* channel.py:1093 *)
  ("TimeStretching", "pitch", MkProp [215] VNone false (PStruct "stretching.pitch"));  (* channel.py:1103 *)
  ("TimeStretching", "time", MkProp [215] VNone false (PStruct "stretching.time"));  (* channel.py:1106 *)
  ("Content", "declick_mode", MkProp [215] VNone false (PStruct "content.declick_mode"));  (* channel.py:1116 *)
  ("Content", "keep_on_disk", MkProp [143] VNone false (PFlag "flags" 256 271 false));  (* channel.py:1122 *)
  ("Content", "load_regions", MkProp [143] VNone false (PFlag "flags" 2 271 false));  (* channel.py:1128 *)
  ("Content", "load_slices", MkProp [143] VNone false (PFlag "flags" 4 271 false));  (* channel.py:1131 *)
  ("Content", "resample", MkProp [143] VNone false (PFlag "flags" 1 271 false));  (* channel.py:1134 *)
  ("AutomationLFO", "amount", MkProp [234] VNone false (PStruct "lfo.amount"));  (* channel.py:1142 *)
  ("AutomationPoint", "position", MkProp [] VNone true (PStruct "position"));  (* channel.py:1158 *)
  ("AutomationPoint", "tension", MkProp [] VNone false (PStruct "tension"));  (* channel.py:1164 *)
  ("AutomationPoint", "value", MkProp [] VNone false (PStruct "value"));  (* channel.py:1167 *)
  ("Channel", "color", MkProp [128] VNone false PEvent);  (* channel.py:1177 *)
  ("Channel", "internal_name", MkProp [201] VNone false PEvent);  (* channel.py:1186 *)
  ("Channel", "enabled", MkProp [0] VNone false PEvent);  (* channel.py:1198 *)
  ("Channel", "icon", MkProp [155] VNone false PEvent);  (* channel.py:1206 *)
  ("Channel", "iid", MkProp [64] VNone false PEvent);  (* channel.py:1212 *)
  ("Channel", "locked", MkProp [32] VNone false PEvent);  (* channel.py:1216 *)
  ("Channel", "name", MkProp [203; 192] VNone false PEvent);  (* channel.py:1222 *)
  ("Layer", "crossfade", MkProp [144] VNone false (PFlag "flags" 2 3 false));  (* channel.py:1374 *)
  ("Layer", "random", MkProp [144] VNone false (PFlag "flags" 1 3 false));  (* channel.py:1377 *)
  ("_SamplerInstrument", "cut_group", MkProp [132] VNone false PEvent);  (* channel.py:1385 *)
  ("_SamplerInstrument", "insert", MkProp [22] VNone false PEvent);  (* channel.py:1397 *)
  ("Sampler", "au_sample_rate", MkProp [153] VNone false PEvent);  (* channel.py:1459 *)
  ("ChannelRack", "fit_to_steps", MkProp [13] VNone false PEvent);  (* channel.py:1605 *)
  ("ChannelRack", "height", MkProp [133] VNone false PEvent);  (* channel.py:1612 *)
  ("ChannelRack", "swing", MkProp [11] VNone false PEvent);  (* channel.py:1630 *)
  ("Slot", "color", MkProp [128] VNone false PEvent);  (* mixer.py:326 *)
  ("Slot", "iid", MkProp [98] VNone false PEvent);  (* mixer.py:328 *)
  ("Slot", "internal_name", MkProp [201] VNone false PEvent);  (* mixer.py:331 *)
  ("Slot", "icon", MkProp [155] VNone false PEvent);  (* mixer.py:337 *)
  ("Slot", "index", MkProp [98] VNone false PEvent);  (* mixer.py:338 *)
  ("Slot", "name", MkProp [203] VNone false PEvent);  (* mixer.py:349 *)
  ("Insert", "bypassed", MkProp [236] VNone false (PFlag "flags" 4 65535 true));  (* mixer.py:421 *)
  ("Insert", "channels_swapped", MkProp [236] VNone false (PFlag "flags" 2 65535 false));  (* mixer.py:424 *)
  ("Insert", "color", MkProp [149] VNone false PEvent);  (* mixer.py:427 *)
  ("Insert", "enabled", MkProp [236] VNone false (PFlag "flags" 8 65535 false));  (* mixer.py:457 *)
  ("Insert", "icon", MkProp [95] VNone false PEvent);  (* mixer.py:471 *)
  ("Insert", "input", MkProp [154] VNone false PEvent);  (* mixer.py:477 *)
  ("Insert", "is_solo", MkProp [236] VNone false (PFlag "flags" 4096 65535 false));  (* mixer.py:480 *)
  ("Insert", "locked", MkProp [236] VNone false (PFlag "flags" 2048 65535 false));  (* mixer.py:483 *)
  ("Insert", "name", MkProp [204] VNone false PEvent);  (* mixer.py:489 *)
  ("Insert", "output", MkProp [147] VNone false PEvent);  (* mixer.py:492 *)
  ("Insert", "polarity_reversed", MkProp [236] VNone false (PFlag "flags" 1 65535 false));  (* mixer.py:507 *)
  ("Insert", "separator_shown", MkProp [236] VNone false (PFlag "flags" 1024 65535 false));  (* mixer.py:527 *)
  ("Mixer", "apdc", MkProp [29] VNone false PEvent);  (* mixer.py:631 *)
  ("Note", "fine_pitch", MkProp [] VNone false (PStruct "fine_pitch"));  (* pattern.py:121 *)
  ("Note", "group", MkProp [] VNone false (PStruct "group"));  (* pattern.py:133 *)
  ("Note", "length", MkProp [] VNone false (PStruct "length"));  (* pattern.py:164 *)
  ("Note", "midi_channel", MkProp [] VNone false (PStruct "midi_channel"));  (* pattern.py:167 *)
  ("Note", "mod_x", MkProp [] VNone false (PStruct "mod_x"));  (* pattern.py:176 *)
  ("Note", "mod_y", MkProp [] VNone false (PStruct "mod_y"));  (* pattern.py:184 *)
  ("Note", "pan", MkProp [] VNone false (PStruct "pan"));  (* pattern.py:192 *)
  ("Note", "position", MkProp [] VNone false (PStruct "position"));  (* pattern.py:201 *)
  ("Note", "rack_channel", MkProp [] VNone false (PStruct "rack_channel"));  (* pattern.py:202 *)
  ("Note", "release", MkProp [] VNone false (PStruct "release"));  (* pattern.py:205 *)
  ("Note", "slide", MkProp [] VNone false (PFlag "flags" 8 8 false));  (* pattern.py:212 *)
  ("Note", "velocity", MkProp [] VNone false (PStruct "velocity"));  (* pattern.py:215 *)
  ("Controller", "channel", MkProp [] VNone false (PStruct "channel"));  (* pattern.py:227 *)
  ("Controller", "position", MkProp [] VNone false (PStruct "position"));  (* pattern.py:230 *)
  ("Controller", "value", MkProp [] VNone false (PStruct "value"));  (* pattern.py:231 *)
  ("Pattern", "color", MkProp [150] VNone false PEvent);  (* pattern.py:253 *)
  ("Pattern", "length", MkProp [164] VNone false PEvent);  (* pattern.py:283 *)
  ("Pattern", "looped", MkProp [26] (VBool false) false PEvent);  (* pattern.py:289 *)
  ("Pattern", "name", MkProp [193] VNone false PEvent);  (* pattern.py:295 *)
  ("Patterns", "play_cut_notes", MkProp [30] VNone false PEvent);  (* pattern.py:367 *)
  ("_PluginBase", "compact", MkProp [212] VNone false (PFlag "flags" 256 197623 false));  (* plugin.py:360 *)
  ("_PluginBase", "demo_mode", MkProp [212] VNone false (PFlag "flags" 128 197623 false));  (* plugin.py:366 *)
  ("_PluginBase", "detached", MkProp [212] VNone false (PFlag "flags" 4 197623 false));  (* plugin.py:369 *)
  ("_PluginBase", "disabled", MkProp [212] VNone false (PFlag "flags" 2 197623 false));  (* plugin.py:372 *)
  ("_PluginBase", "directx", MkProp [212] VNone false (PFlag "flags" 65536 197623 false));  (* plugin.py:378 *)
  ("_PluginBase", "generator", MkProp [212] VNone false (PFlag "flags" 16 197623 false));  (* plugin.py:381 *)
  ("_PluginBase", "height", MkProp [212] VNone false (PStruct "height"));  (* plugin.py:384 *)
  ("_PluginBase", "minimized", MkProp [212] VNone false (PFlag "flags" 512 197623 false));  (* plugin.py:387 *)
  ("_PluginBase", "multithreaded", MkProp [212] VNone false (PFlag "flags" 64 197623 false));  (* plugin.py:393 *)
  ("_PluginBase", "page", MkProp [212] VNone false (PStruct "page"));  (* plugin.py:396 *)
  ("_PluginBase", "smart_disable", MkProp [212] VNone false (PFlag "flags" 32 197623 false));  (* plugin.py:402 *)
  ("_PluginBase", "visible", MkProp [212] VNone false (PFlag "flags" 1 197623 false));  (* plugin.py:405 *)
  ("_PluginBase", "width", MkProp [212] VNone false (PStruct "width"));  (* plugin.py:408 *)
  ("BooBass", "bass", MkProp [213] VNone false (PStruct "bass"));  (* plugin.py:722 *)
  ("BooBass", "high", MkProp [213] VNone false (PStruct "high"));  (* plugin.py:730 *)
  ("BooBass", "mid", MkProp [213] VNone false (PStruct "mid"));  (* plugin.py:738 *)
  ("FruitKick", "amp_decay", MkProp [213] VNone false (PStruct "amp_decay"));  (* plugin.py:751 *)
  ("FruitKick", "click", MkProp [213] VNone false (PStruct "click"));  (* plugin.py:761 *)
  ("FruitKick", "distortion", MkProp [213] VNone false (PStruct "distortion"));  (* plugin.py:771 *)
  ("FruitKick", "freq_decay", MkProp [213] VNone false (PStruct "freq_decay"));  (* plugin.py:780 *)
  ("FruitKick", "max_freq", MkProp [213] VNone false (PStruct "max_freq"));  (* plugin.py:790 *)
  ("FruitKick", "min_freq", MkProp [213] VNone false (PStruct "min_freq"));  (* plugin.py:800 *)
  ("FruityBalance", "pan", MkProp [213] VNone false (PStruct "pan"));  (* plugin.py:815 *)
  ("FruityBalance", "volume", MkProp [213] VNone false (PStruct "volume"));  (* plugin.py:825 *)
  ("FruityBloodOverdrive", "pre_band", MkProp [213] VNone false (PStruct "pre_band"));  (* plugin.py:841 *)
  ("FruityBloodOverdrive", "color", MkProp [213] VNone false (PStruct "color"));  (* plugin.py:851 *)
  ("FruityBloodOverdrive", "pre_amp", MkProp [213] VNone false (PStruct "pre_amp"));  (* plugin.py:861 *)
  ("FruityBloodOverdrive", "x100", MkProp [213] VNone false (PStruct "x100"));  (* plugin.py:871 *)
  ("FruityBloodOverdrive", "post_filter", MkProp [213] VNone false (PStruct "post_filter"));  (* plugin.py:881 *)
  ("FruityBloodOverdrive", "post_gain", MkProp [213] VNone false (PStruct "post_gain"));  (* plugin.py:891 *)
  ("FruityCenter", "enabled", MkProp [213] VNone false (PStruct "enabled"));  (* plugin.py:906 *)
  ("FruityFastDist", "kind", MkProp [213] VNone false (PStruct "kind"));  (* plugin.py:917 *)
  ("FruityFastDist", "mix", MkProp [213] VNone false (PStruct "mix"));  (* plugin.py:918 *)
  ("FruityFastDist", "post", MkProp [213] VNone false (PStruct "post"));  (* plugin.py:927 *)
  ("FruityFastDist", "pre", MkProp [213] VNone false (PStruct "pre"));  (* plugin.py:936 *)
  ("FruityFastDist", "threshold", MkProp [213] VNone false (PStruct "threshold"));  (* plugin.py:946 *)
  ("FruityNotebook2", "active_page", MkProp [213] VNone false (PStruct "active_page"));  (* plugin.py:960 *)
  ("FruityNotebook2", "editable", MkProp [213] VNone false (PStruct "editable"));  (* plugin.py:963 *)
  ("FruityNotebook2", "pages", MkProp [213] VNone false (PStruct "pages"));  (* plugin.py:969 *)
  ("FruitySend", "dry", MkProp [213] VNone false (PStruct "dry"));  (* plugin.py:977 *)
  ("FruitySend", "pan", MkProp [213] VNone false (PStruct "pan"));  (* plugin.py:986 *)
  ("FruitySend", "send_to", MkProp [213] VNone false (PStruct "send_to"));  (* plugin.py:996 *)
  ("FruitySend", "volume", MkProp [213] VNone false (PStruct "volume"));  (* plugin.py:999 *)
  ("FruitySoftClipper", "post", MkProp [213] VNone false (PStruct "post"));  (* plugin.py:1014 *)
  ("FruitySoftClipper", "threshold", MkProp [213] VNone false (PStruct "threshold"));  (* plugin.py:1024 *)
  ("FruityStereoEnhancer", "effect_position", MkProp [213] VNone false (PStruct "effect_position"));  (* plugin.py:1039 *)
  ("FruityStereoEnhancer", "pan", MkProp [213] VNone false (PStruct "pan"));  (* plugin.py:1042 *)
  ("FruityStereoEnhancer", "phase_inversion", MkProp [213] VNone false (PStruct "phase_inversion"));  (* plugin.py:1052 *)
  ("FruityStereoEnhancer", "phase_offset", MkProp [213] VNone false (PStruct "phase_offset"));  (* plugin.py:1055 *)
  ("FruityStereoEnhancer", "stereo_separation", MkProp [213] VNone false (PStruct "stereo_separation"));  (* plugin.py:1065 *)
  ("FruityStereoEnhancer", "volume", MkProp [213] VNone false (PStruct "volume"));  (* plugin.py:1075 *)
  ("Plucked", "color", MkProp [213] VNone false (PStruct "color"));  (* plugin.py:1090 *)
  ("Plucked", "decay", MkProp [213] VNone false (PStruct "decay"));  (* plugin.py:1098 *)
  ("Plucked", "gate", MkProp [213] VNone false (PStruct "gate"));  (* plugin.py:1106 *)
  ("Plucked", "normalize", MkProp [213] VNone false (PStruct "normalize"));  (* plugin.py:1109 *)
  ("Plucked", "widen", MkProp [213] VNone false (PStruct "widen"));  (* plugin.py:1115 *)
  ("Soundgoodizer", "amount", MkProp [213] VNone false (PStruct "amount"));  (* plugin.py:1123 *)
  ("Soundgoodizer", "mode", MkProp [213] VNone false (PStruct "mode"));  (* plugin.py:1131 *)
  ("Project", "artists", MkProp [207] VNone false PEvent);  (* project.py:183 *)
  ("Project", "comments", MkProp [195; 198] VNone false PEvent);  (* project.py:224 *)
  ("Project", "genre", MkProp [206] VNone false PEvent);  (* project.py:271 *)
  ("Project", "licensed", MkProp [28] VNone false PEvent);  (* project.py:279 *)
  ("Project", "looped", MkProp [9] VNone false PEvent);  (* project.py:332 *)
  ("Project", "main_pitch", MkProp [80] VNone false PEvent);  (* project.py:335 *)
  ("Project", "main_volume", MkProp [12] VNone false PEvent);  (* project.py:338 *)
  ("Project", "pan_law", MkProp [23] VNone false PEvent);  (* project.py:378 *)
  ("Project", "show_info", MkProp [10] VNone false PEvent);  (* project.py:417 *)
  ("Project", "title", MkProp [194] VNone false PEvent);  (* project.py:426 *)
  ("Project", "url", MkProp [197] VNone false PEvent);  (* project.py:495 *)
  ("TimeMarker", "denominator", MkProp [34] VNone false PEvent);  (* timemarker.py:60 *)
  ("TimeMarker", "name", MkProp [205] VNone false PEvent);  (* timemarker.py:61 *)
  ("TimeMarker", "numerator", MkProp [33] VNone false PEvent)  (* timemarker.py:62 *)
].

(* NestedProp: class, attribute, class of the nested model, ids of the events it gets *)
Definition nested_api : list (string * string * string * list Z) := [
  ("Arrangements", "time_signature", "TimeSignature", [17; 18]);  (* arrangement.py:542 *)
  ("FX", "reverb", "Reverb", [139]);  (* channel.py:745 *)
  ("Channel", "keyboard", "Keyboard", [142; 135; 215]);  (* channel.py:1213 *)
  ("Automation", "lfo", "AutomationLFO", [234]);  (* channel.py:1332 *)
  ("_SamplerInstrument", "arp", "Arp", [215]);  (* channel.py:1382 *)
  ("_SamplerInstrument", "delay", "Delay", [209; 138; 215]);  (* channel.py:1394 *)
  ("_SamplerInstrument", "level_adjusts", "LevelAdjusts", [229]);  (* channel.py:1403 *)
  ("_SamplerInstrument", "polyphony", "Polyphony", [221]);  (* channel.py:1425 *)
  ("_SamplerInstrument", "time", "Time", [97; 89; 215]);  (* channel.py:1428 *)
  ("Sampler", "content", "Content", [143; 215]);  (* channel.py:1462 *)
  ("Sampler", "filter", "Filter", [219]);  (* channel.py:1477 *)
  ("Sampler", "fx", "FX", [71; 76; 75; 69; 215; 86; 74; 83; 139; 131; 85; 70]);  (* channel.py:1479 *)
  ("Sampler", "playback", "Playback", [143; 20; 215]);  (* channel.py:1506 *)
  ("Sampler", "stretching", "TimeStretching", [215])  (* channel.py:1531 *)
].

(* class, base class (those with declarations) *)
Definition bases : list (string * string) := [
  ("ChannelPLItem", "PLItemBase");  (* arrangement.py:202 *)
  ("PatternPLItem", "PLItemBase");  (* arrangement.py:218 *)
  ("Automation", "Channel");  (* channel.py:1307 *)
  ("Layer", "Channel");  (* channel.py:1335 *)
  ("_SamplerInstrument", "Channel");  (* channel.py:1381 *)
  ("Instrument", "_SamplerInstrument");  (* channel.py:1442 *)
  ("Sampler", "_SamplerInstrument");  (* channel.py:1450 *)
  ("VSTPlugin", "_PluginBase");  (* plugin.py:510 *)
  ("BooBass", "_PluginBase");  (* plugin.py:718 *)
  ("FruitKick", "_PluginBase");  (* plugin.py:747 *)
  ("FruityBalance", "_PluginBase");  (* plugin.py:811 *)
  ("FruityBloodOverdrive", "_PluginBase");  (* plugin.py:836 *)
  ("FruityCenter", "_PluginBase");  (* plugin.py:902 *)
  ("FruityFastDist", "_PluginBase");  (* plugin.py:913 *)
  ("FruityNotebook2", "_PluginBase");  (* plugin.py:956 *)
  ("FruitySend", "_PluginBase");  (* plugin.py:973 *)
  ("FruitySoftClipper", "_PluginBase");  (* plugin.py:1010 *)
  ("FruityStereoEnhancer", "_PluginBase");  (* plugin.py:1035 *)
  ("Plucked", "_PluginBase");  (* plugin.py:1086 *)
  ("Soundgoodizer", "_PluginBase")  (* plugin.py:1119 *)
].

(* What a model of the class is made of: a tree of events; a tree of the one event
   [id] (channel.py:1382,1403,1425 through NestedProp of a single id, 1431-1439,
   1466-1475,1495-1504 through EventTree.separate); an item of an event of class
   [k] (pattern.py:287-309, arrangement.py:389-398, channel.py:1324-1330); the tree
   of a channel or slot whose plugin data are of class [k] (plugin.py:413-446) *)
Inductive home := HTree | HOne (id : Z) | HItems (k : kind) | HPlugin (k : kind).
Definition homes : list (string * home) := [
  ("PLItemBase", HItems KPlaylist);  (* arrangement.py:176 *)
  ("ChannelPLItem", HItems KPlaylist);  (* arrangement.py:202 *)
  ("PatternPLItem", HItems KPlaylist);  (* arrangement.py:218 *)
  ("Track", HTree);  (* arrangement.py:248 *)
  ("Arrangement", HTree);  (* arrangement.py:344 *)
  ("TimeSignature", HTree);  (* arrangement.py:403 *)
  ("Arrangements", HTree);  (* arrangement.py:428 *)
  ("DisplayGroup", HTree);  (* channel.py:436 *)
  ("Arp", HOne 215);  (* channel.py:445 *)
  ("Delay", HTree);  (* channel.py:474 *)
  ("Filter", HTree);  (* channel.py:554 *)
  ("LevelAdjusts", HOne 229);  (* channel.py:570 *)
  ("Time", HTree);  (* channel.py:584 *)
  ("Reverb", HTree);  (* channel.py:619 *)
  ("FX", HTree);  (* channel.py:657 *)
  ("Envelope", HOne 218);  (* channel.py:788 *)
  ("SamplerLFO", HOne 218);  (* channel.py:911 *)
  ("Polyphony", HOne 221);  (* channel.py:971 *)
  ("Tracking", HOne 228);  (* channel.py:999 *)
  ("Keyboard", HTree);  (* channel.py:1035 *)
  ("Playback", HTree);  (* channel.py:1065 *)
  ("TimeStretching", HTree);  (* channel.py:1084 *)
  ("Content", HTree);  (* channel.py:1110 *)
  ("AutomationLFO", HTree);  (* channel.py:1141 *)
  ("AutomationPoint", HItems KAutomation);  (* channel.py:1153 *)
  ("Channel", HTree);  (* channel.py:1171 *)
  ("Automation", HTree);  (* channel.py:1307 *)
  ("Layer", HTree);  (* channel.py:1335 *)
  ("_SamplerInstrument", HTree);  (* channel.py:1381 *)
  ("Instrument", HTree);  (* channel.py:1442 *)
  ("Sampler", HTree);  (* channel.py:1450 *)
  ("ChannelRack", HTree);  (* channel.py:1535 *)
  ("Slot", HTree);  (* mixer.py:314 *)
  ("Insert", HTree);  (* mixer.py:375 *)
  ("Mixer", HTree);  (* mixer.py:560 *)
  ("Note", HItems KNotes);  (* pattern.py:110 *)
  ("Controller", HItems KController);  (* pattern.py:223 *)
  ("Pattern", HTree);  (* pattern.py:234 *)
  ("Patterns", HTree);  (* pattern.py:317 *)
  ("_PluginBase", HTree);  (* plugin.py:356 *)
  ("VSTPlugin", HPlugin KVSTPlugin);  (* plugin.py:510 *)
  ("BooBass", HPlugin KBooBass);  (* plugin.py:718 *)
  ("FruitKick", HPlugin KFruitKick);  (* plugin.py:747 *)
  ("FruityBalance", HPlugin KFruityBalance);  (* plugin.py:811 *)
  ("FruityBloodOverdrive", HPlugin KFruityBloodOverdrive);  (* plugin.py:836 *)
  ("FruityCenter", HPlugin KFruityCenter);  (* plugin.py:902 *)
  ("FruityFastDist", HPlugin KFruityFastDist);  (* plugin.py:913 *)
  ("FruityNotebook2", HPlugin KFruityNotebook2);  (* plugin.py:956 *)
  ("FruitySend", HPlugin KFruitySend);  (* plugin.py:973 *)
  ("FruitySoftClipper", HPlugin KFruitySoftClipper);  (* plugin.py:1010 *)
  ("FruityStereoEnhancer", HPlugin KFruityStereoEnhancer);  (* plugin.py:1035 *)
  ("Plucked", HPlugin KPlucked);  (* plugin.py:1086 *)
  ("Soundgoodizer", HPlugin KSoundgoodizer);  (* plugin.py:1119 *)
  ("Project", HTree);  (* project.py:144 *)
  ("TimeMarker", HTree)  (* timemarker.py:43 *)
].
Definition home_of (c : string) : home :=
  match find (fun x => String.eqb (fst x) c) homes with Some (_, h) => h | None => HTree end.

(* attribute lookup over the base classes; no class has more than two ancestors here *)
Fixpoint ancestors (n : nat) (c : string) : list string :=
  c :: match n with
       | O => []
       | S n => flat_map (fun x => if String.eqb (fst x) c then ancestors n (snd x) else []) bases
       end.
Definition properties_of (c : string) : list (string * prop) :=
  flat_map (fun a => flat_map (fun x => if String.eqb (fst (fst x)) a then [(snd (fst x), snd x)] else []) api)
    (ancestors 3 c).
