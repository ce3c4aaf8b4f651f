(* Model of what repr() of a model shows: pyflp/_models.py:120-129.  No proofs. *)
From Coq Require Import String ZArith List Bool.
From Verif Require Import M_Base M_Events M_Tree M_Prop M_Items M_Api.
Import ListNotations.
Local Open Scope string_scope.
Open Scope Z_scope.

(* the attributes of [vars(type(self))]: those of the class itself, not of its bases *)
Definition own_declared (c : string) : list (string * prop) :=
  flat_map (fun x => if String.eqb (fst (fst x)) c then [(snd (fst x), snd x)] else []) api.

(* _models.py:126 getattr(self, var, None) *)
Definition shown (r : res val) : res val :=
  match r with Err AttributeError => Ok VNone | _ => r end.
Fixpoint show_all (l : list (string * res val)) : res (list (string * val)) :=
  match l with
  | [] => Ok []
  | (n, r) :: l => let* v := shown r in let* vs := show_all l in Ok ((n, v) :: vs)
  end.
(* attributes that are properties with code of their own: channel.py:499-512 Delay,
   625-647 Reverb, timemarker.py:64-81 TimeMarker *)
Definition own_coded (h : heap) (t : nat) (c : string) : list (string * res val) :=
  if String.eqb c "Delay" then [("mod_x", mod_x_get h t); ("mod_y", mod_y_get h t)]
  else if String.eqb c "Reverb" then [("type", reverb_type_get h t); ("mix", reverb_mix_get h t)]
  else if String.eqb c "TimeMarker" then [("position", marker_position h t); ("type", marker_type h t)]
  else [].
(* The attributes are shown in the order of the class's source, here the declared ones come
   first; the text made of them is not modelled, nor are INTERNAL_NAME of plugins and
   methods, which are shown as well. *)
Definition show (en : env) (h : heap) (m : model) (c : string) : res (list (string * val)) :=
  show_all (map (fun x => (fst x, prop_get en h m (snd x))) (own_declared c) ++
            match m with EvModel t => own_coded h t c | ItModel _ _ => [] end).
(* a nested model is shown by its own repr: channel.py:745 FX.reverb is the only one *)
Definition repr (en : env) (h : heap) (m : model) (c : string) : res (list (string * val)) :=
  match m with
  | EvModel t =>
      if String.eqb c "FX" then
        let* vs := show en h m c in
        let (h', u) := nested h t [139] in
        let* rs := show en h' (EvModel u) "Reverb" in
        Ok (vs ++ map (fun x => (String.append "reverb." (fst x), snd x)) rs)%list
      else show en h m c
  | _ => show en h m c
  end.
