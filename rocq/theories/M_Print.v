(* Model of str() and repr() of projects, versions, patterns, notes, controllers, markers,
   channels and time signatures.  No proofs. *)
From Coq Require Import String ZArith List Bool.
From Verif Require Import M_Base M_Events M_Parse M_Tree M_Prop M_Project M_Items M_Collections M_Models.
Import ListNotations.
Local Open Scope string_scope.
Open Scope Z_scope.

(* what a format string is made of: characters, str() of a value, repr() of a value.  How
   values are printed is not modelled. *)
Inductive piece := Lit (s : string) | Str (v : val) | Rep (v : val).

(* types.py:39-43 FLVersion.__str__ *)
Definition version_str (v : flversion) : pystr :=
  let version := (py_str_int (v_major v) ++ [46] ++ py_str_int (v_minor v) ++ [46] ++ py_str_int (v_patch v))%list in
  match v_build v with
  | Some b => (version ++ [46] ++ py_str_int b)%list
  | None => version
  end.

(* project.py:78-111 FileFormat: the names *)
Definition format_names : list (Z * string) :=
  [(-1, "None_"); (0, "Project"); (16, "Score"); (24, "Automation"); (32, "ChannelState"); (48, "PluginState");
   (49, "GeneratorState"); (50, "FXState"); (64, "InsertState"); (80, "_ProbablyPatcher")].
Fixpoint format_name (l : list (Z * string)) (z : Z) : res string :=
  match l with
  | [] => Err AttributeError   (* an int has no name *)
  | (n, s) :: r => if n =? z then Ok s else format_name r z
  end.
(* project.py:153-154 Project.__str__ *)
Definition project_str (p : proj) : res pystr :=
  let* v := version_get (pj_heap p) in
  let* n := format_name format_names (pj_format p) in
  Ok (str "FL Studio v" ++ version_str v ++ str " " ++ str n)%list.

(* arrangement.py:406-407 TimeSignature.__str__ *)
Definition signature_str (en : env) (h : heap) (t : nat) : res (list piece) :=
  let* n := ev_get en h t [17] in
  let* b := ev_get en h t [18] in
  Ok [Lit "Global time signature: "; Str n; Lit "/"; Str b].

(* timemarker.py:49-58 TimeMarker.__str__ *)
Definition truthy (v : val) : bool := match v with VNone | VStr [] => false | _ => true end.
Definition marker_str (en : env) (h : heap) (t : nat) : res (list piece) :=
  let* ty := marker_type h t in
  if match ty with VEnum z => z =? Marker | _ => false end then
    let* n := ev_get en h t [205] in
    let* p := marker_position h t in
    Ok (if truthy n then [Lit "Marker "; Rep n; Lit " @ "; Rep p] else [Lit "Unnamed marker @ "; Rep p])
  else
    let* a := ev_get en h t [33] in
    let* b := ev_get en h t [34] in
    let sig := [Str a; Lit "/"; Str b] in
    let* n := ev_get en h t [205] in
    let* p := marker_position h t in
    Ok (if truthy n then ([Lit "Signature "; Rep n; Lit " ("] ++ sig ++ [Lit ") @ "; Rep p])%list
        else ([Lit "Unnamed "] ++ sig ++ [Lit " signature @ "; Rep p])%list).

(* pattern.py:237-252 Pattern.__repr__: len() of the first event, 0 without one *)
Definition len_first (h : heap) (t : nat) (id : Z) : res Z :=
  match get_ie h t [id] with
  | [] => Ok 0
  | c :: _ => let* l := event_items (e_of h c) in Ok (zlen l)
  end.
Definition pattern_repr (en : env) (h : heap) (t : nat) : res (list piece) :=
  let* n := len_first h t 224 in
  let* c := len_first h t 223 in
  let* i := iid_get h t in
  let* s := ev_get en h t [193] in
  Ok [Lit "Pattern(iid="; Str i; Lit ", name="; Rep s; Lit ","; Str (VInt n); Lit " notes, "; Str (VInt c); Lit " controllers)"].

(* pattern.py:113-119 Note.__repr__, __str__; 224-225 Controller.__str__ *)
Definition note_repr (h : heap) (g : target) : res (list piece) :=
  let* k := key_get h g in
  let* p := tg_get h g "position" in
  let* l := tg_get h g "length" in
  let* c := tg_get h g "rack_channel" in
  Ok [Lit "Note(key="; Str k; Lit ", position="; Str p; Lit ", length="; Str l; Lit ", channel="; Str c; Lit ")"].
Definition note_str (h : heap) (g : target) : res (list piece) :=
  let* k := key_get h g in
  let* p := tg_get h g "position" in
  let* l := tg_get h g "length" in
  Ok [Str k; Lit " note @ "; Str p; Lit " of "; Str l].
Definition controller_str (h : heap) (g : target) : res (list piece) :=
  let* p := tg_get h g "position" in
  let* c := tg_get h g "channel" in
  Ok [Lit "Controller @ "; Str p; Lit " of channel #"; Str c].

(* channel.py:1174-1175 Channel.__repr__ for the classes that do not have their own *)
Definition channel_repr (en : env) (h : heap) (class : string) (t : nat) : res (list piece) :=
  let* n := display_name en h t in
  let* i := ev_get en h t [64] in
  Ok [Lit class; Lit " (name="; Rep n; Lit ", iid="; Str i; Lit ")"].
