(* Model of str() and repr() of the patterns, the channel rack, layers,
   arrangements, tracks, the mixer, inserts and channel
   groups.  No proofs. *)
From Coq Require Import String ZArith List Bool.
From Verif Require Import M_Base M_Events M_Tree M_Prop M_Project M_Collections M_Models M_Markers M_Print.
Import ListNotations.
Local Open Scope string_scope.
Open Scope Z_scope.

(* pattern.py:318-320 Patterns.__str__ *)
Definition patterns_str (h : heap) (t : nat) : heap * res (list piece) :=
  match patterns_iter h t with
  | (h, Err x) => (h, Err x)
  | (h, Ok us) => (h, let* iids := mapr (iid_get h) us in Ok [Str (VInt (zlen iids)); Lit " Patterns "; Rep (VList iids)])
  end.
(* channel.py:1541-1542 ChannelRack.__repr__ *)
Definition rack_repr (h : heap) (t : nat) : res (list piece) :=
  let* n := rack_len h t in Ok [Lit "ChannelRack - "; Str (VInt n); Lit " channels"].
(* channel.py:1371-1372 Layer.__repr__: without the last character of what a channel is
   printed as, the bracket *)
Definition layer_repr (en : env) (h : heap) (t : nat) : res (list piece) :=
  let* l := channel_repr en h "Layer" t in
  Ok (removelast l ++ [Lit ", "; Str (VInt (layer_len h t)); Lit " children)"])%list.
(* arrangement.py:355-361 Arrangement.__repr__ *)
Definition arrangement_repr (en : env) (h : heap) (t : nat) (v : flversion) (cs : list chan)
    (ps : list (val * nat)) : heap * res (list piece) :=
  match ev_get en h t [99], ev_get en h t [241] with
  | Ok i, Ok n =>
      let '(h, us) := timemarkers h t in
      match tracks_iter h t v cs ps with
      | (h, Ok (l, None)) =>
          (h, Ok [Lit "Arrangement(iid="; Str i; Lit ", name="; Rep n; Lit ", "; Str (VInt (zlen us)); Lit " timemarkers, ";
                  Str (VInt (zlen l)); Lit " tracks)"])
      | (h, Ok (_, Some x)) => (h, Err x)
      | (h, Err x) => (h, Err x)
      end
  | Err x, _ => (h, Err x)
  | _, Err x => (h, Err x)
  end.
(* mixer.py:628-629 Mixer.__str__ *)
Definition mixer_str (h : heap) (t : nat) : res (list piece) :=
  let* n := mixer_len h t in Ok [Lit "Mixer: "; Str (VInt n); Lit " inserts"].
(* mixer.py:385-386 Insert.__repr__ *)
Definition insert_repr (en : env) (h : heap) (x : insert_obj) : res (list piece) :=
  let* n := ev_get en h (in_tree x) [204] in
  Ok [Lit "Insert(name="; Rep n; Lit ", iid="; Str (VInt (in_iid x)); Lit ")"].
(* channel.py:437-440 DisplayGroup.__str__ *)
Definition group_str (en : env) (h : heap) (t : nat) : res (list piece) :=
  let* n := ev_get en h t [231] in
  match n with
  | VNone => Ok [Lit "Unnamed display group"]
  | _ => Ok [Lit "Display group "; Str n]
  end.
(* arrangement.py:269-270 Track.__repr__, with the name (319), the number (307) and the items (266-267) *)
Definition track_repr (en : env) (h : heap) (x : track_obj) : res (list piece) :=
  let* n := ev_get en h (tr_tree x) [239] in
  let* i := prop_get en h (EvModel (tr_tree x)) (MkProp [238] VNone false (PStruct "iid")) in
  Ok [Lit "Track(name="; Str n; Lit ", iid="; Str i; Lit ", "; Str (VInt (zlen (tr_items x))); Lit " items)"].
