(* What a user expects of levels, playlist items, dates and paths.  Independent of M_Models. *)
From Coq Require Import String ZArith List Bool.
From Verif Require Import M_Base M_Events M_Prop S_Real S_Prop S_Project S_Items.
Import ListNotations.
Open Scope Z_scope.

(* the events of pan and volume: key in the levels event (219), old events of 16 and 8 bits *)
Inductive level := Pan | Volume.
Definition level_key (l : level) : string := match l with Pan => "pan" | Volume => "volume" end.
Definition word_id (l : level) : Z := match l with Pan => 73 | Volume => 72 end.
Definition byte_id (l : level) : Z := match l with Pan => 3 | Volume => 2 end.

(* nothing changed, or one event *)
Definition unless (a b : list event) (id : Z) (v : val) : Prop := a = b \/ exists j, changed id v a b j.

(* the i-th element of the r-th event is another dictionary, nothing else is different *)
Definition item_edited (a b : list event) (r i : nat) (d : list (string * val)) : Prop :=
  length b = length a /\ (forall j, j <> r -> nth_error b j = nth_error a j) /\
  exists e e', nth_error a r = Some e /\ nth_error b r = Some e' /\ e_id e' = e_id e /\ e_kind e' = e_kind e /\
    items e' = lset (items e) i (VDict d).

(* e' is e, but if e announces the pattern y then e' announces the pattern n *)
Inductive relabelled (y n : Z) (e e' : event) : Prop :=
| rel_new : e_id e = 65 -> number (e_val e) y -> e' = with_val e (VInt n) -> relabelled y n e e'
| rel_same : ~ (e_id e = 65 /\ number (e_val e) y) -> e' = e -> relabelled y n e e'.

(* dictionaries of a channel: the events they are made of and the names, in order *)
Inductive dict_kind := Envelopes | Lfos | Trackings.
Definition dict_event (k : dict_kind) : Z := match k with Trackings => 228 | _ => 218 end.
Definition dict_names (k : dict_kind) : list string :=
  match k with Trackings => ["volume"; "keyboard"] | _ => ["Panning"; "Volume"; "Mod X"; "Mod Y"; "Pitch"] end%string.

(* equaliser of an insert: ids of the parameters *)
Inductive eq_band := LowBand | MidBand | HighBand.
Inductive eq_field := EqGain | EqFreq | EqReso.
Definition eq_id (b : eq_band) (f : eq_field) : Z :=
  match f with EqGain => 208 | EqFreq => 216 | EqReso => 224 end + match b with LowBand => 0 | MidBand => 1 | HighBand => 2 end.

(* the ids of the own parameters of an insert, in the order of the records *)
Inductive own_ids (n : Z) : list val -> list Z -> Prop :=
| own_nil : own_ids n [] []
| own_cons v id l ids : own_param n id v -> own_ids n l ids -> own_ids n (v :: l) (id :: ids)
| own_skip v l ids : (forall id, ~ own_param n id v) -> own_ids n l ids -> own_ids n (v :: l) ids.

(* the values of those of some parameters whose flag is set, paired in order *)
Inductive flagged (value : Z -> res val) : list Z -> list bool -> list val -> Prop :=
| fl_flags ids : flagged value ids [] []
| fl_ids bs : flagged value [] bs []
| fl_on id ids bs v vs : value id = Ok v -> flagged value ids bs vs -> flagged value (id :: ids) (true :: bs) (v :: vs)
| fl_off id ids bs vs : flagged value ids bs vs -> flagged value (id :: ids) (false :: bs) vs.

(* [us] is x days in microseconds: the nearest integer, up to 2^-16 *)
Definition micros (x us : Z) : Prop := 2 ^ 16 * Z.abs (us * one - 86400000000 * units x) <= (2 ^ 15 + 1) * one.

(* What a text says as a path: words between slashes, of which empty ones and "." do not count;
   absolute if it starts with a slash, where exactly two slashes are a root of their own. *)
Definition plain_name (w : pystr) : Prop := w <> [] /\ w <> [46] /\ ~ In 47 w.
Definition no_name (w : pystr) : Prop := w = [] \/ w = [46].
Inductive words : pystr -> list pystr -> Prop :=
| wo_none w : no_name w -> words w []
| wo_last w : plain_name w -> words w [w]
| wo_skip w s l : no_name w -> words s l -> words (w ++ 47 :: s) l
| wo_name w s l : plain_name w -> words s l -> words (w ++ 47 :: s) (w :: l).
Definition root_of (slashes : nat) : nat := match slashes with 0 => 0 | 2 => 2 | _ => 1 end%nat.
Inductive says : pystr -> nat -> list pystr -> Prop :=
| says_path n s l : words s l -> (forall r, s <> 47 :: r) -> says (repeat 47 n ++ s) (root_of n) l.
