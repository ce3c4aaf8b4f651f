(* Model of the options and texts declared for VST plugins: pyflp/plugin.py.  No proofs. *)
From Coq Require Import String ZArith List Bool.
From Verif Require Import M_Base M_Construct M_Structs M_Events M_Tree M_Items.
Import ListNotations.
Local Open Scope string_scope.
Open Scope Z_scope.

(* plugin.py:455-458 _VSTPluginProp(id), 480-486 _VSTFlagProp(flag, prop, inverted) *)
Inductive vst_decl :=
| VProp (id : Z)
| VFlag (key : string) (f : Z) (inv : bool).

(* the members of _VSTFlags and _VSTFlags2 used (plugin.py:242-267) are written as 2 ^ n *)
Definition vst_api : list (string * string * vst_decl) := [
  (* plugin.py:522-529 *)
  ("automation", "notify_changes", VFlag "flags" (2 ^ 6) true);
  (* plugin.py:531-567 *)
  ("compatibility", "buffers_maxsize", VFlag "flags2" (2 ^ 1) false);
  ("compatibility", "fast_idle", VProp 2);
  ("compatibility", "fixed_buffers", VFlag "flags" (2 ^ 1) false);
  ("compatibility", "process_maximum", VFlag "flags2" (2 ^ 0) false);
  ("compatibility", "reset_on_transport", VFlag "flags" (2 ^ 25) true);
  ("compatibility", "send_loop", VFlag "flags" (2 ^ 11) false);
  ("compatibility", "use_time_offset", VFlag "flags" (2 ^ 31) true);
  (* plugin.py:569-601 *)
  ("midi", "input", VProp 1);
  ("midi", "output", VProp 1);
  ("midi", "pb_range", VProp 1);
  ("midi", "send_modx", VFlag "flags" (2 ^ 17) false);
  ("midi", "send_pb", VFlag "flags" (2 ^ 0) false);
  ("midi", "send_release", VFlag "flags" (2 ^ 5) true);
  (* plugin.py:603-651 *)
  ("processing", "allow_sd", VFlag "flags" (2 ^ 29) false);
  ("processing", "bridged", VFlag "flags" (2 ^ 18) false);
  ("processing", "external", VFlag "flags" (2 ^ 21) false);
  ("processing", "keep_state", VFlag "flags" (2 ^ 16) true);
  ("processing", "multithreaded", VFlag "flags" (2 ^ 12) false);
  ("processing", "notify_render", VFlag "flags" (2 ^ 2) false);
  ("processing", "process_inactive", VFlag "flags" (2 ^ 3) false);
  (* plugin.py:653-678 *)
  ("ui", "accept_drop", VFlag "flags" (2 ^ 28) false);
  ("ui", "always_update", VFlag "flags" (2 ^ 23) false);
  ("ui", "dpi_aware", VFlag "flags" (2 ^ 26) false);
  ("ui", "scale_editor", VFlag "flags" (2 ^ 30) false);
  (* plugin.py:690-713; the plugin itself *)
  ("", "fourcc", VProp 51);
  ("", "guid", VProp 52);
  ("", "name", VProp 54);
  ("", "plugin_path", VProp 55);
  ("", "state", VProp 53);
  ("", "vendor", VProp 56)].

(* the enumeration of the flags a declaration names *)
Definition key_mask (key : string) : Z := if String.eqb key "flags2" then VSTFlags2_mask else VSTFlags_mask.

(* plugin.py:680-688: automation, compatibility, midi, processing and ui are made from the
   plugin's own events, so an option is read from and written to the plugin's tree [t] *)
Definition option_get (en : env) (h : heap) (t : nat) (name : string) (d : vst_decl) : res val :=
  match d with
  | VProp id => vst_prop_get h t id name
  | VFlag key f inv => vst_flag_get en h t key (key_mask key) f inv
  end.
(* only booleans are assigned to flags here *)
Definition option_set (en : env) (h : heap) (t : nat) (d : vst_decl) (v : val) : heap * res unit :=
  match d with
  | VProp id => vst_prop_set h t id v
  | VFlag key f inv => match v with
                       | VBool b => vst_flag_set en h t key (key_mask key) inv b
                       | _ => (h, Err TypeError)
                       end
  end.
