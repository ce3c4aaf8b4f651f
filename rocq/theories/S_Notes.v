(* Notes and controllers of a pattern, read off the bytes of their events. *)
From Coq Require Import String ZArith List Bool.
From Verif Require Import M_Base M_Events M_Prop.
Import ListNotations.
Local Open Scope nat_scope.

(* names of the numbers of a note / controller: where, and how many bytes *)
Definition note_numbers : list (string * (nat * nat)) :=
  [("position", (0, 4)); ("rack_channel", (6, 2)); ("length", (8, 4)); ("group", (14, 2));
   ("fine_pitch", (16, 1)); ("release", (18, 1)); ("midi_channel", (19, 1)); ("pan", (20, 1));
   ("velocity", (21, 1)); ("mod_x", (22, 1)); ("mod_y", (23, 1))]%string.
Definition controller_numbers : list (string * (nat * nat)) :=
  [("position", (0, 4)); ("channel", (6, 1))]%string.

(* kind and number of the event, bytes per element *)
Inductive element_kind : kind -> Z -> nat -> list (string * (nat * nat)) -> Prop :=
| ek_notes : element_kind KNotes 224%Z 24 note_numbers
| ek_controllers : element_kind KController 223%Z 12 controller_numbers.

(* pattern.py:121-222, 225-235: the properties *)
Definition field_prop (n : string) : prop := MkProp [] VNone false (PStruct n).
Definition slide_prop : prop := MkProp [] VNone false (PFlag "flags" 8%Z 8%Z false).
