(* What a user expects of the collections of a project, in terms of plain lists of events. *)
From Coq Require Import String ZArith List Bool.
From Verif Require Import M_Base M_Events S_Prop S_Items.
Import ListNotations.
Open Scope Z_scope.

(* the events of a pattern and of its time markers *)
Definition pattern_ids : list Z :=
  [26; 33; 34; 65; 148; 150; 160; 161; 162; 164; 193; 205; 223; 224].
Definition pattern_event (e : event) : bool := existsb (Z.eqb (e_id e)) pattern_ids.

(* the number announced by the last new-pattern event (65) up to position k, 0 if none was *)
Definition announces (e : event) : Prop := e_id e = 65.
Inductive in_force (es : list event) (k : nat) : Z -> Prop :=
| announced j e z : last_at announces (firstn (S k) es) j -> nth_error es j = Some e ->
    number (e_val e) z -> in_force es k z
| unannounced : Forall (fun e => ~ announces e) (firstn (S k) es) -> in_force es k 0.
(* a pattern event comes before the first announcement *)
Definition early (es : list event) : Prop :=
  exists k e, nth_error es k = Some e /\ pattern_event e = true /\
    Forall (fun e => ~ announces e) (firstn (S k) es).
(* the number is announced *)
Definition announced_in (es : list event) (z : Z) : Prop :=
  exists e, In e es /\ announces e /\ number (e_val e) z.

(* each value once, in the order of the first occurrences *)
Fixpoint firsts (l : list Z) : list Z :=
  match l with
  | [] => []
  | x :: r => x :: filter (fun y => negb (y =? x)) (firsts r)
  end.

(* a list cut before its first element with a property *)
Definition cut_before {A} (P : A -> bool) (l a b : list A) : Prop :=
  l = a ++ b /\ forallb (fun x => negb (P x)) a = true /\
  match b with [] => True | x :: _ => P x = true end.

(* kinds of events, by id *)
Definition marker_id (id : Z) : bool := existsb (Z.eqb id) [33; 34; 148; 205].
Definition pattern_id (id : Z) : bool := existsb (Z.eqb id) [26; 65; 150; 160; 161; 162; 164; 193; 223; 224].
Definition patterns_id (id : Z) : bool := existsb (Z.eqb id) [30; 67].
Definition plugin_id (id : Z) : bool := existsb (Z.eqb id) [128; 155; 201; 203; 212; 213].
Definition channel_id (id : Z) : bool :=
  existsb (Z.eqb id) [0; 2; 3; 15; 20; 21; 22; 32; 64; 69; 70; 71; 72; 73; 74; 75; 76; 83; 85; 86; 89;
    94; 97; 131; 132; 135; 138; 139; 140; 142; 143; 144; 145; 153; 192; 196; 209; 215; 218; 219; 221;
    228; 229; 234].
Definition rack_id (id : Z) : bool := existsb (Z.eqb id) [11; 13; 133; 231].
Definition insert_id (id : Z) : bool := existsb (Z.eqb id) [95; 147; 149; 154; 204; 235; 236].
Definition slot_id (id : Z) : bool := id =? 98.
Definition mixer_id (id : Z) : bool := insert_id id || slot_id id || existsb (Z.eqb id) [29; 225].
Definition arrangement_id (id : Z) : bool := existsb (Z.eqb id) [99; 233; 241].
Definition arrangements_id (id : Z) : bool := existsb (Z.eqb id) [17; 18; 100; 152; 217].
Definition track_id (id : Z) : bool := existsb (Z.eqb id) [238; 239].

(* [l] cut in pieces before every element with [cut]: the first piece has none, each other
   starts with one and has no other *)
Definition starts_at {A} (cut : A -> bool) (l : list A) (ps : list (list A)) : Prop :=
  concat ps = l /\
  match ps with
  | [] => False
  | p0 :: r => forallb (fun x => negb (cut x)) p0 = true /\
      Forall (fun p => exists x q, p = x :: q /\ cut x = true /\ forallb (fun x => negb (cut x)) q = true) r
  end.

(* a number stored in a record *)
Definition field (v : val) (k : string) (z : Z) : Prop :=
  exists d x, v = VDict d /\ dget d k = Some x /\ number x z.

(* an event of an arrangement, its tracks or its time markers *)
Definition arrangement_part (id : Z) : bool := arrangement_id id || marker_id id || track_id id.

(* the first element of a list with a property of it and its position, if any *)
Definition first_match {A} (P : nat -> A -> Prop) (l : list A) (o : option A) : Prop :=
  match o with
  | Some x => exists k, nth_error l k = Some x /\ P k x /\ forall j y, (j < k)%nat -> nth_error l j = Some y -> ~ P j y
  | None => forall j y, nth_error l j = Some y -> ~ P j y
  end.
