(* What a user expects of model properties, in terms of plain event lists and
   numbers.  Independent of the descriptor model. *)
From Coq Require Import String ZArith List Bool.
From Verif Require Import M_Base M_Events S_File.
Import ListNotations.
Open Scope Z_scope.

(* The event a property with several ids stands for: the first one with the
   first id that occurs at all. *)
Inductive chosen (ids : list Z) (evs : list event) : option nat -> Prop :=
| ch_some ids1 id ids2 k e :
    ids = ids1 ++ id :: ids2 ->
    (forall e', In e' evs -> ~ In (e_id e') ids1) ->
    nth_error evs k = Some e -> e_id e = id ->
    (forall j e', (j < k)%nat -> nth_error evs j = Some e' -> e_id e' <> id) ->
    chosen ids evs (Some k)
| ch_none :
    (forall e, In e evs -> ~ In (e_id e) ids) -> chosen ids evs None.

(* the value of the k-th event of a list *)
Definition value_at (evs : list event) (k : nat) : option val :=
  option_map e_val (nth_error evs k).

(* [b] is [a] except that the value of the k-th event is [v] *)
Definition revalued (a : list event) (k : nat) (v : val) (b : list event) : Prop :=
  length a = length b /\
  (forall j, j <> k -> nth_error b j = nth_error a j) /\
  (exists e e', nth_error a k = Some e /\ nth_error b k = Some e' /\
     e_id e' = e_id e /\ e_kind e' = e_kind e /\ e_len e' = e_len e /\
     e_new e' = e_new e /\ e_val e' = v).

(* the number held by an int, bool or enum object *)
Definition number (v : val) (z : Z) : Prop :=
  v = VInt z \/ v = VEnum z \/ exists b, v = VBool b /\ z = (if b then 1 else 0).

(* bit [i] of [w] is that of [v], except the bits of [f], which are all [b] *)
Definition bits_set (v f : Z) (b : bool) (w : Z) : Prop :=
  forall i, 0 <= i -> Z.testbit w i = if Z.testbit f i then b else Z.testbit v i.
(* ... except that above bit [n] everything is cleared *)
Definition bits_set_below (n v f : Z) (b : bool) (w : Z) : Prop :=
  forall i, 0 <= i ->
    Z.testbit w i = if n <? i then false else if Z.testbit f i then b else Z.testbit v i.

(* Python slice seq[a:b] of a sequence, 0 <= a, b *)
Definition list_slice {A} (l : list A) (a b : Z) : list A :=
  skipn (Z.to_nat a) (firstn (Z.to_nat b) l).

(* a dict in which one existing key got another value *)
Definition dict_updated (d : list (string * val)) (k : string) (v : val)
    (d' : list (string * val)) : Prop :=
  map fst d' = map fst d /\ dget d' k = Some v /\
  (forall k', k' <> k -> dget d' k' = dget d k').

(* [b] is a loaded list of events like [a], but the value of the k-th is [v] *)
Definition reloaded (a : list event) (k : nat) (v : val) (b : list event) : Prop :=
  length b = length a /\
  (forall j x, j <> k -> nth_error a j = Some x ->
     exists y, nth_error b j = Some y /\ same_event x y) /\
  (exists x y, nth_error a k = Some x /\ nth_error b k = Some y /\
     e_id y = e_id x /\ e_kind y = e_kind x /\ e_val y = v).
