(* Time markers of arrangements and patterns. *)
From Coq Require Import ZArith List Bool.
From Verif Require Import M_Base M_Events M_Parse M_Tree M_Prop M_Items M_Collections.
Import ListNotations.
Open Scope Z_scope.

(* arrangement.py:369-371 Arrangement.timemarkers, pattern.py:311-314 Pattern.timemarkers: the
   models' trees; the ids in the order of timemarker.py:27-32 *)
Definition timemarkers (h : heap) (t : nat) : heap * list nat := group h t (members TimeMarkerIDs).
(* timemarker.py:60-62 denominator, name, numerator; position and type as in M_Items *)
Definition marker_get (en : env) (h : heap) (u : nat) (a : marker_attr) : res val :=
  match a with
  | MName => ev_get en h u [205]
  | MNumerator => ev_get en h u [33]
  | MDenominator => ev_get en h u [34]
  | MPosition => marker_position h u
  | MType => marker_type h u
  end.
