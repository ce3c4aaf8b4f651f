(* Specification for the options of VST plugins (C80): where in the plugin data each one
   stands.  No proofs. *)
From Coq Require Import String ZArith List Bool.
From Verif Require Import M_Base M_Text S_Canon S_File S_Domain S_Layout S_Vst.
Import ListNotations.
Local Open Scope string_scope.
Open Scope Z_scope.

(* the parts of VST plugin data: an id and data each *)
Definition parts_bytes (ps : list (Z * bytes)) : bytes := concat (map (fun x => sub_bytes (fst x) (snd x)) ps).
Definition part_means (x : Z * bytes) (v : val) : Prop :=
  0 <= fst x < 2 ^ 32 /\ zlen (snd x) < 2 ^ 64 /\ exists y, v = sub_dict (fst x) y /\ sub_means (fst x) (snd x) y.
(* the rest does not begin with another part *)
Definition no_part (b : bytes) : Prop :=
  forall id p y r, 0 <= id < 2 ^ 32 -> zlen p < 2 ^ 64 -> sub_means id p y -> b <> (sub_bytes id p ++ r)%list.
(* the data of the first part with an id *)
Fixpoint part (id : Z) (ps : list (Z * bytes)) : option bytes :=
  match ps with
  | [] => None
  | (i, p) :: r => if i =? id then Some p else part id r
  end.

(* where an option stands: a bit of a byte of the settings (part 2; options marked true are
   on when the bit is clear), a byte that is a truth value there, a signed or unsigned 32-bit
   number of the MIDI settings (part 1), a whole part *)
Inductive place :=
| ABit (k : nat) (b : Z) (clear : bool)
| ATruth (k : nat)
| ASigned (k : nat)
| AUnsigned (k : nat)
| AText (id : Z)
| ARaw (id : Z).
Definition part_of (pl : place) : Z :=
  match pl with ABit _ _ _ | ATruth _ => 2 | ASigned _ | AUnsigned _ => 1 | AText id | ARaw id => id end.

Definition places : list (string * string * place) := [
  ("midi", "send_pb", ABit 9 0 false); ("compatibility", "fixed_buffers", ABit 9 1 false);
  ("processing", "notify_render", ABit 9 2 false); ("processing", "process_inactive", ABit 9 3 false);
  ("midi", "send_release", ABit 9 5 true); ("automation", "notify_changes", ABit 9 6 true);
  ("compatibility", "send_loop", ABit 10 3 false); ("processing", "multithreaded", ABit 10 4 false);
  ("processing", "keep_state", ABit 11 0 true); ("midi", "send_modx", ABit 11 1 false);
  ("processing", "bridged", ABit 11 2 false); ("processing", "external", ABit 11 5 false);
  ("ui", "always_update", ABit 11 7 false); ("compatibility", "reset_on_transport", ABit 12 1 true);
  ("ui", "dpi_aware", ABit 12 2 false); ("ui", "accept_drop", ABit 12 4 false);
  ("processing", "allow_sd", ABit 12 5 false); ("ui", "scale_editor", ABit 12 6 false);
  ("compatibility", "use_time_offset", ABit 12 7 true);
  ("compatibility", "process_maximum", ABit 13 0 false); ("compatibility", "buffers_maxsize", ABit 13 1 false);
  ("compatibility", "fast_idle", ATruth 22);
  ("midi", "input", ASigned 0); ("midi", "output", ASigned 4); ("midi", "pb_range", AUnsigned 8);
  ("", "fourcc", AText 51); ("", "name", AText 54); ("", "plugin_path", AText 55); ("", "vendor", AText 56);
  ("", "guid", ARaw 52); ("", "state", ARaw 53)].

(* bytes the settings must have so that what stands at byte k is there: they are four bytes
   from 9, four from 13, five from 17 and one at 22 *)
Definition needed (k : nat) : nat := if (k <? 13)%nat then 13 else if (k <? 17)%nat then 17 else 23.

(* [says pl p v]: the data [p] of its part give an option the value [v] *)
Inductive says : place -> bytes -> val -> Prop :=
| SBit k b c p x : (needed k <= length p)%nat -> nth_error p k = Some x -> says (ABit k b c) p (VBool (xorb c (Z.testbit x b)))
| STruth k p x : (needed k <= length p)%nat -> nth_error p k = Some x -> says (ATruth k) p (VBool (negb (x =? 0)))
| SSigned k p : (k + 4 <= length p)%nat -> says (ASigned k) p (VInt (s_le (firstn 4 (skipn k p))))
| SUnsigned k p : (k + 4 <= length p)%nat -> says (AUnsigned k) p (VInt (u_le (firstn 4 (skipn k p))))
| SNone k p : (length p < k + 4)%nat -> says (ASigned k) p VNone
| SNone' k p : (length p < k + 4)%nat -> says (AUnsigned k) p VNone
| SText id p s : utf8_dec p = Some s -> says (AText id) p (VStr s)
| SRaw id p : says (ARaw id) p (VBytes p).
