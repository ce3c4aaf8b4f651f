(* What a user expects of markers, notes, reverb, VST options and mixer parameters.
   Independent of M_Items. *)
From Coq Require Import String ZArith List Bool.
From Verif Require Import M_Base M_Events S_Prop S_Project.
Import ListNotations.
Open Scope Z_scope.

(* the name of a key: C0 is key 0, twelve semitones to the octave, B10 is key 131 *)
Definition semitone (k : Z) : string :=
  match k with
  | 0 => "C" | 1 => "C#" | 2 => "D" | 3 => "D#" | 4 => "E" | 5 => "F" | 6 => "F#"
  | 7 => "G" | 8 => "G#" | 9 => "A" | 10 => "A#" | _ => "B"
  end.
Definition octave (k : Z) : string :=
  match k with
  | 0 => "0" | 1 => "1" | 2 => "2" | 3 => "3" | 4 => "4" | 5 => "5" | 6 => "6" | 7 => "7"
  | 8 => "8" | 9 => "9" | _ => "10"
  end.
Definition key_name (k : Z) : string := semitone (k mod 12) ++ octave (k / 12).

(* notes written without a sharp, by their letter *)
Definition natural (c : Z) : option Z :=
  match c with
  | 67 => Some 0 | 68 => Some 2 | 69 => Some 4 | 70 => Some 5 | 71 => Some 7 | 65 => Some 9 | 66 => Some 11
  | _ => None
  end.

(* the event with value [v] instead of the first with an id; everything else as in [a] *)
Definition changed (id : Z) (v : val) (a b : list event) (j : nat) : Prop :=
  (exists e, nth_error a j = Some e /\ e_id e = id) /\ revalued a j v b.

(* the tables of the documentation of max_inserts and max_slots, read as "from this
   version on"; nothing is said about older versions *)
Fixpoint since (rows : list (list Z * Z)) (v : list Z) (d : option Z) : option Z :=
  match rows with
  | [] => d
  | (k, n) :: r => since r v (if lex_lt v k then d else Some n)
  end.
Definition doc_inserts : list (list Z * Z) :=
  [([1; 6; 5], 5); ([2; 0; 1], 8); ([3; 0; 0], 18); ([3; 3; 0], 20); ([4; 0; 0], 64); ([9; 0; 0], 105); ([12; 9; 0], 127)].
(* ... or read as "up to this version", which is what the code tries to do *)
Fixpoint up_to (rows : list (list Z * Z)) (v : list Z) (d : Z) : Z :=
  match rows with
  | [] => d
  | (k, n) :: r => if negb (lex_lt k v) then n else up_to r v d
  end.
Definition doc_slots : list (list Z * Z) := [([1; 6; 5], 4); ([3; 0; 0], 8)].

(* the last position at which a condition holds *)
Definition last_at {A} (P : A -> Prop) (l : list A) (i : nat) : Prop :=
  (exists x, nth_error l i = Some x /\ P x) /\
  forall j x, (i < j)%nat -> nth_error l j = Some x -> ~ P x.

(* the sub-events of VST plugin data: [sub l id i s x] - the first one with an id is the
   i-th, a dict [s] with data [x] *)
Definition has_sub_id (id : Z) (v : val) : Prop :=
  exists s n, v = VDict s /\ dget s "id" = Some n /\ number n id.
Definition sub (l : list val) (id : Z) (i : nat) (s : list (string * val)) (x : val) : Prop :=
  nth_error l i = Some (VDict s) /\ has_sub_id id (VDict s) /\ dget s "data" = Some x /\
  forall j v, (j < i)%nat -> nth_error l j = Some v -> ~ has_sub_id id v.
(* the whole value with other data in that sub-event *)
Definition with_sub (d : list (string * val)) (l : list val) (i : nat) (s : list (string * val)) (x : val) : val :=
  VDict (dset d "events" (VList (lset l i (VDict (dset s "data" x))))).

(* a mixer parameter record: insert, slot and id of its 16-bit address *)
Definition addressed (v : val) (insert slot id : Z) : Prop :=
  exists d a n, v = VDict d /\ dget d "channel_data" = Some a /\ dget d "id" = Some n /\ number n id /\
    exists top, number a (8192 * top + 64 * insert + slot) /\ 0 <= insert < 128 /\ 0 <= slot < 64.

(* an insert's own parameter, and one of a slot (enabled and mix, ids 0 and 1) *)
Definition own_param (insert id : Z) (v : val) : Prop := id <> 0 /\ id <> 1 /\ exists slot, addressed v insert slot id.
Definition slot_param (insert slot id : Z) (v : val) : Prop := (id = 0 \/ id = 1) /\ addressed v insert slot id.

(* what is displayed of a stored reverb value *)
Definition reverb_b (z : Z) : bool := 65536 <=? z.
