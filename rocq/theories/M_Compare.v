(* Model of == and != between models (pyflp/_models.py:73-82 EventModel).  No proofs. *)
From Coq Require Import String ZArith List Bool.
From Verif Require Import M_Base M_Events M_Tree M_Collections.
Import ListNotations.
Open Scope Z_scope.

(* a model is its class (type(self).__name__; the names are distinct) and its tree *)
Record model := Model { md_class : string; md_tree : nat }.

(* a == b: what Python makes of _models.py:78-82.  __eq__ of a raises TypeError unless b is an
   instance of a's class.  If b's class is a proper subclass of a's, Python calls __eq__ of b
   first, which raises since a is not an instance of b's class.  So different classes always
   raise, as does anything that is not a model (None here: its own comparison gives
   NotImplemented, and then __eq__ of the model is called). *)
Definition model_eq (ha : heap) (a : model) (hb : heap) (b : option model) : res bool :=
  match b with
  | Some b => if String.eqb (md_class a) (md_class b) then Ok (tree_eqb hb ha (md_tree b) (md_tree a))
              else Err TypeError
  | None => Err TypeError
  end.
(* a != b: object.__ne__ negates what == gives *)
Definition model_ne (ha : heap) (a : model) (hb : heap) (b : option model) : res bool :=
  let* x := model_eq ha a hb b in Ok (negb x).

(* a in l for a list l of models, none of which is the same object as a: its elements are
   compared in order, until one is equal *)
Fixpoint model_in (ha : heap) (a : model) (hb : heap) (l : list model) : res bool :=
  match l with
  | [] => Ok false
  | b :: r => let* x := model_eq hb b ha (Some a) in if x then Ok true else model_in ha a hb r
  end.

(* the models that iterating yields: channel.py:1560-1587, pattern.py:340-355,
   mixer.py:600-616 *)
Definition class_name (c : chan_class) : string :=
  match c with
  | CChannel => "Channel" | CAutomation => "Automation" | CLayer => "Layer"
  | CSampler => "Sampler" | CInstrument => "Instrument"
  end%string.
Definition chan_model (c : chan) : model := Model (class_name (ch_class c)) (ch_tree c).
Definition pattern_model (u : nat) : model := Model "Pattern" u.
Definition insert_model (i : insert_obj) : model := Model "Insert" (in_tree i).
