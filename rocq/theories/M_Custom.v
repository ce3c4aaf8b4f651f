(* Descriptors with their own _get and _set.  No proofs. *)
From Coq Require Import String ZArith List Bool.
From Verif Require Import M_Base M_Float M_Text M_Construct M_Structs M_Events M_Tree M_Prop.
Import ListNotations.
Open Scope Z_scope.

(* PropBase.__get__ and __set__ (_descriptors.py:96-118) around given _get and _set *)
Definition custom_get (h : heap) (m : model) (ids : list Z) (default : val)
    (rd : target -> res val) : res val :=
  let* g := get_event h ids m in
  match g with Some g => rd g | None => Ok default end.
Definition custom_set (h : heap) (m : model) (ids : list Z)
    (wr : target -> heap * res unit) : heap * res unit :=
  match get_event h ids m with
  | Err x => (h, Err x)
  | Ok None => (h, Err PropertyCannotBeSet)
  | Ok (Some g) => wr g
  end.

(* types.py:67-68 RGBA.__bytes__; bytes(v) of a bytes object is itself *)
Definition bytes_of (v : val) : res bytes :=
  match v with
  | VBytes b => Ok b
  | VTup l => mapr chan_enc l
  | _ => Err TypeError
  end.

(* arrangement.py:234-241 _TrackColorProp *)
Definition color_get (h : heap) (g : target) : res val :=
  let* v := tg_get h g "color" in
  match v with
  | VNone => Ok VNone
  | _ => match as_int v with
         | Some z => if (0 <=? z) && (z <? 2 ^ 32) then Ok (rgba_dec (le_enc 4 z)) else Err OverflowError
         | None => Err AttributeError
         end
  end.
Definition color_set (h : heap) (v : val) (g : target) : heap * res unit :=
  match bytes_of v with
  | Ok b => tg_set h g "color" (VInt (le_dec b))
  | Err x => (h, Err x)
  end.
(* arrangement.py:272 Track.color *)
Definition track_color_get (h : heap) (t : nat) : res val :=
  custom_get h (EvModel t) [238] VNone (color_get h).
Definition track_color_set (h : heap) (t : nat) (v : val) : heap * res unit :=
  custom_set h (EvModel t) [238] (color_set h v).
