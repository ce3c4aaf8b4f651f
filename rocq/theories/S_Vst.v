(* What VST plugin data means: a type and a list of sub-events, each an id, a size and
   data - texts (51, 54, 55, 56), MIDI settings (1), flags (2) or raw data.
   Independent of the construct model. *)
From Coq Require Import String ZArith List Bool.
From Verif Require Import M_Base M_Text S_Canon S_File S_Domain S_Layout.
Import ListNotations.
Open Scope Z_scope.

(* optional fields: one that does not fit is absent; the rest is kept as it is *)
Fixpoint opt_fields (ts : list (string * nat * (bytes -> val))) (p : bytes) : list (string * val) :=
  match ts with
  | [] => [("_extra"%string, VBytes p)]
  | (n, k, f) :: r => if (k <=? length p)%nat then (n, f (firstn k p)) :: opt_fields r (skipn k p)
                      else (n, VNone) :: opt_fields r p
  end.
Definition unsigned (b : bytes) : val := VInt (u_le b).
Definition signed (b : bytes) : val := VInt (s_le b).
Definition flag_set (b : bytes) : val := VEnum (u_le b).
Definition truth (b : bytes) : val := VBool (negb (u_le b =? 0)).
Definition midi_fields : list (string * nat * (bytes -> val)) :=
  [("input"%string, 4%nat, signed); ("output"%string, 4%nat, signed); ("pb_range"%string, 4%nat, unsigned)].
Definition flag_fields : list (string * nat * (bytes -> val)) :=
  [("_u1"%string, 9%nat, VBytes); ("flags"%string, 4%nat, flag_set); ("flags2"%string, 4%nat, flag_set);
   ("_u2"%string, 5%nat, VBytes); ("fast_idle"%string, 1%nat, truth)].

Definition text_sub (id : Z) : Prop := In id [51; 54; 55; 56].
Definition raw_sub (id : Z) : Prop := ~ In id [1; 2; 51; 54; 55; 56].

(* [sub_means id p x]: the data [p] of a sub-event with that id are the value [x] *)
Inductive sub_means (id : Z) (p : bytes) : val -> Prop :=
| sm_midi : id = 1 -> sub_means id p (VDict (opt_fields midi_fields p))
| sm_flags : id = 2 -> sub_means id p (VDict (opt_fields flag_fields p))
| sm_text s : text_sub id -> utf8_dec p = Some s -> sub_means id p (VStr s)
| sm_raw : raw_sub id -> sub_means id p (VBytes p).

(* a sub-event, written and as seen by a user *)
Definition sub_bytes (id : Z) (p : bytes) : bytes := le 4 id ++ le 8 (zlen p) ++ p.
Definition sub_dict (id : Z) (x : val) : val := VDict [("id"%string, VEnum id); ("data"%string, x)].

(* [vst_means b ty l]: the plugin data [b] are of type [ty] and have the sub-events [l] *)
Inductive subs_mean : bytes -> list val -> Prop :=
| su_nil : subs_mean [] []
| su_cons id p x b l : 0 <= id < 2 ^ 32 -> is_bytes p -> zlen p < 2 ^ 64 -> sub_means id p x -> subs_mean b l ->
    subs_mean (sub_bytes id p ++ b) (sub_dict id x :: l).
Inductive vst_means : bytes -> Z -> list val -> Prop :=
| vst_of ty b l : 0 <= ty < 2 ^ 32 -> subs_mean b l -> vst_means (le 4 ty ++ b) ty l.

(* values that do not suit a sub-event: not a text that UTF-8 can write, not raw data, or
   not a group of settings *)
Definition unfit (id : Z) (y : val) : Prop :=
  (text_sub id /\ forall s, y = VStr s -> ~ Forall scalar s) \/
  (raw_sub id /\ forall b, y <> VBytes b) \/
  ((id = 1 \/ id = 2) /\ forall d, y <> VDict d).
