(* Domain objects with their own getters and setters: time markers, note keys, reverb,
   delay modulation, remote controllers, VST options, mixer parameters, and the version
   tables of the mixer.  No proofs. *)
From Coq Require Import String ZArith List Bool.
From Verif Require Import M_Base M_Construct M_Structs M_Events M_Tree M_Prop M_Project.
Import ListNotations.
Open Scope Z_scope.

(* ---------------------------------------------------------------- time markers *)

(* timemarker.py:35-40 TimeMarkerType *)
Definition Marker : Z := 0.
Definition Signature : Z := 134217728.

(* timemarker.py:63-69 TimeMarker.position *)
Definition marker_position (h : heap) (t : nat) : res val :=
  if contains h t 148 then
    let* v := first_val h t 148 in
    match as_int v with
    | Some z => if z <? Signature then Ok v else Ok (VInt (z - Signature))
    | None => Err TypeError
    end
  else Ok VNone.
(* timemarker.py:71-81 TimeMarker.type *)
Definition marker_type (h : heap) (t : nat) : res val :=
  if contains h t 148 then
    let* v := first_val h t 148 in
    match as_int v with
    | Some z => Ok (VEnum (if Signature <=? z then Signature else Marker))
    | None => Err TypeError
    end
  else Ok VNone.
(* timemarker.py:59-81: assigning an attribute of a marker; position and type are
   properties without a setter *)
Inductive marker_attr := MName | MNumerator | MDenominator | MPosition | MType.
Definition marker_assign (en : env) (h : heap) (t : nat) (a : marker_attr) (v : val) : heap * res unit :=
  let event_prop id := prop_set en h (EvModel t) (MkProp [id] VNone false PEvent) v in
  match a with
  | MName => event_prop 205
  | MNumerator => event_prop 33
  | MDenominator => event_prop 34
  | MPosition | MType => (h, Err AttributeError)
  end.

(* ------------------------------------------------------------------- note keys *)

(* pattern.py:111 *)
Definition note_names : list pystr :=
  map str ["C"; "C#"; "D"; "D#"; "E"; "F"; "F#"; "G"; "G#"; "A"; "A#"; "B"]%string.

(* pattern.py:139-149 Note.key; the model of an item is [M_Prop.tg_get] *)
Definition key_get (h : heap) (g : target) : res val :=
  let* v := tg_get h g "key" in
  match as_int v with
  | Some k => match nth_error note_names (Z.to_nat (k mod 12)) with
              | Some n => Ok (VStr (n ++ py_str_int (k / 12)))
              | None => Err IndexError
              end
  | None => Err TypeError
  end.

Fixpoint starts_with (s p : pystr) {struct p} : bool :=
  match p, s with
  | [], _ => true
  | c :: p, d :: s => (c =? d) && starts_with s p
  | _ :: _, [] => false
  end.
(* s.replace(p, "", 1) for an s that starts with p *)
Definition drop_prefix (s p : pystr) : pystr := skipn (length p) s.

(* pattern.py:158-163: the loop over the names, then ValueError *)
Fixpoint key_names_set (h : heap) (g : target) (s : pystr) (i : Z) (names : list pystr)
  : heap * res unit :=
  match names with
  | [] => (h, Err ValueError)
  | n :: r =>
      if starts_with s n then
        match py_int (drop_prefix s n) with
        | None => (h, Err ValueError)
        | Some o => and_then (tg_set h g "key" (VInt (o * 12 + i)))
                      (fun h => key_names_set h g s (i + 1) r)
        end
      else key_names_set h g s (i + 1) r
  end.
(* pattern.py:152-163; something that is neither an int nor a text has no startswith *)
Definition key_set (h : heap) (g : target) (v : val) : heap * res unit :=
  match v with
  | VStr s => key_names_set h g s 0 note_names
  | _ => match as_int v with
         | Some k => if (0 <=? k) && (k <? 132) then tg_set h g "key" v else (h, Err ValueError)
         | None => (h, Err AttributeError)
         end
  end.

(* ---------------------------------------------------------------------- reverb *)

(* channel.py:390-394 ReverbType: A = 0, B = 65536 *)
Definition ReverbA : Z := 0.
Definition ReverbB : Z := 65536.
Definition reverb_id : Z := 139.
Definition reverb_kind (z : Z) : Z := if ReverbB <=? z then ReverbB else ReverbA.

(* channel.py:625-629 Reverb.type *)
Definition reverb_type_get (h : heap) (t : nat) : res val :=
  if contains h t reverb_id then
    let* v := first_val h t reverb_id in
    match as_int v with Some z => Ok (VEnum (reverb_kind z)) | None => Err TypeError end
  else Ok VNone.
(* channel.py:638-647 Reverb.mix *)
Definition reverb_mix_get (h : heap) (t : nat) : res val :=
  if contains h t reverb_id then
    let* v := first_val h t reverb_id in
    match as_int v with Some z => Ok (VInt (z - reverb_kind z)) | None => Err TypeError end
  else Ok VNone.
(* channel.py:631-636; [ty] is the value of a ReverbType *)
Definition reverb_type_set (h : heap) (t : nat) (ty : Z) : heap * res unit :=
  with_res h (reverb_mix_get h t) (fun m =>
    match m with
    | VInt m => set_first h t reverb_id (VInt (ty + m))
    | _ => (h, Err PropertyCannotBeSet)
    end).
(* channel.py:649-654 *)
Definition reverb_mix_set (h : heap) (t : nat) (m : Z) : heap * res unit :=
  if negb (contains h t reverb_id) then (h, Err PropertyCannotBeSet)
  else with_res h (first_val h t reverb_id) (fun v =>
         match as_int v with
         | Some z => set_first h t reverb_id (VInt (z + m))
         | None => (h, Err TypeError)
         end).

(* ------------------------------------------------------------ delay modulation *)

Definition delay_mod_id : Z := 138.
(* value[i] of a tuple or list *)
Definition seq_at (v : val) (i : nat) : res val :=
  match v with
  | VTup l | VList l => match nth_error l i with Some x => Ok x | None => Err IndexError end
  | _ => Err TypeError
  end.
(* channel.py:499-502, 509-512 Delay.mod_x and mod_y *)
Definition mod_x_get (h : heap) (t : nat) : res val :=
  let* v := first_val h t delay_mod_id in seq_at v 0.
Definition mod_y_get (h : heap) (t : nat) : res val :=
  let* v := first_val h t delay_mod_id in seq_at v 1.
(* channel.py:504-507, 514-517 *)
Definition mod_x_set (h : heap) (t : nat) (x : val) : heap * res unit :=
  with_res h (mod_y_get h t) (fun y => set_first h t delay_mod_id (VTup [x; y])).
Definition mod_y_set (h : heap) (t : nat) (y : val) : heap * res unit :=
  with_res h (mod_x_get h t) (fun x => set_first h t delay_mod_id (VTup [x; y])).

(* ---------------------------------------------------------- remote controllers *)

(* self.events.first(ControllerID.Remote)["parameter_data"] *)
Definition remote_data (h : heap) (t : nat) : res val :=
  let* e := first h t 227 in struct_get e "parameter_data".
Definition is_none (v : val) : bool := match v with VNone => true | _ => false end.
(* controller.py:57-64: the name is bound to the result of [is not None] *)
Definition remote_parameter (h : heap) (t : nat) : res val :=
  let* v := remote_data h t in
  let value := negb (is_none v) in
  Ok (if value then VInt (Z.land (Z.b2z value) 32767) else VNone).
(* controller.py:66-76 *)
Definition remote_controls_vst (h : heap) (t : nat) : res val :=
  let* v := remote_data h t in
  let value := negb (is_none v) in
  Ok (if value then VBool (0 <? Z.land (Z.b2z value) 32768) else VNone).

(* ----------------------------------------------------------------- VST options *)

(* e["id"] == id for an element of event["events"] *)
Definition sub_id (v : val) (id : Z) : bool :=
  match v with
  | VDict d => match dget d "id" with
               | Some i => match as_int i with Some z => z =? id | None => false end
               | None => false
               end
  | _ => false
  end.
(* position and data of the first sub-event with an id *)
Fixpoint sub_find (l : list val) (id : Z) (i : nat) : option (nat * val) :=
  match l with
  | [] => None
  | v :: r => if sub_id v id
              then match v with
                   | VDict d => match dget d "data" with Some x => Some (i, x) | None => None end
                   | _ => None
                   end
              else sub_find r id (S i)
  end.
Definition vst_subs (e : event) : res (list val) :=
  let* v := struct_get e "events" in
  match v with VList l => Ok l | _ => Err TypeError end.
(* e["data"] = x on the i-th sub-event, in place *)
Definition sub_put (l : list val) (i : nat) (x : val) : list val :=
  match nth_error l i with
  | Some (VDict d) => lset l i (VDict (dset d "data" x))
  | _ => l
  end.
Definition vst_put (h : heap) (r : nat) (l : list val) : heap :=
  match e_val (ev_of h r) with
  | VDict d => set_val h r (VDict (dset d "events" (VList l)))
  | _ => h
  end.
(* the object ins.events.first(PluginID.Data) *)
Definition vst_ref (h : heap) (t : nat) : res nat :=
  match get_ie h t [213] with [] => Err KeyError | c :: _ => Ok (ref_of h c) end.

(* plugin.py:460-468 _VSTPluginProp.__get__ and _get *)
Definition vst_get (h : heap) (t : nat) (id : Z) (f : val -> res val) : res val :=
  let* r := vst_ref h t in
  let* l := vst_subs (ev_of h r) in
  match sub_find l id 0 with Some (_, x) => f x | None => Err AttributeError end.
Definition vst_field (name : string) (x : val) : res val :=
  match x with
  | VStr _ | VBytes _ => Ok x
  | VDict d => dindex d name
  | _ => Err TypeError
  end.
Definition vst_prop_get (h : heap) (t : nat) (id : Z) (name : string) : res val :=
  vst_get h t id (vst_field name).
(* plugin.py:470-477 __set__ and _set *)
Definition vst_set (h : heap) (t : nat) (id : Z) (f : val -> res val) : heap * res unit :=
  match (let* r := vst_ref h t in let* l := vst_subs (ev_of h r) in Ok (r, l)) with
  | Err x => (h, Err x)
  | Ok (r, l) =>
      match sub_find l id 0 with
      | Some (i, x) => match f x with
                       | Ok y => (vst_put h r (sub_put l i y), Ok tt)
                       | Err x => (h, Err x)
                       end
      | None => (h, Ok tt)
      end
  end.
Definition vst_prop_set (h : heap) (t : nat) (id : Z) (v : val) : heap * res unit :=
  vst_set h t id (fun _ => Ok v).

(* plugin.py:488-490 _VSTFlagProp._get; the flags are those of sub-event 2 *)
Definition vst_flag_get (en : env) (h : heap) (t : nat) (name : string) (mask f : Z) (inv : bool) : res val :=
  vst_get h t 2 (fun x =>
    match x with
    | VDict d => let* v := dindex d name in
                 match v with
                 | VEnum z => Ok (VBool (xorb inv (Z.land z f =? f)))
                 | _ => Err TypeError
                 end
    | _ => Err TypeError
    end).
(* plugin.py:492-502 _set.  [value] is a bool here; flags |= True, flags &= ~False *)
Definition vst_flag_set (en : env) (h : heap) (t : nat) (name : string) (mask : Z) (inv value : bool)
  : heap * res unit :=
  let value := if inv then negb value else value in
  vst_set h t 2 (fun x =>
    match x with
    | VDict d => let* v := dindex d name in
                 match v with
                 | VEnum z =>
                     Ok (VDict (dset d name (VEnum (intflag_norm (en_py311 en) mask
                       (if value then Z.lor z (Z.b2z value) else Z.land z (Z.lnot (Z.b2z value)))))))
                 | _ => Err TypeError
                 end
    | _ => Err TypeError
    end).

(* ------------------------------------------------------------ mixer parameters *)

(* mixer.py:140-141 *)
Definition insert_of (a : Z) : Z := Z.land (Z.shiftr a 6) 127.
Definition slot_of (a : Z) : Z := Z.land a 63.
(* mixer.py:139-150: what one record is filed under; None stands for the insert itself.
   items_ is computed when the event is made; here it is computed from the records the
   event holds now, which only differs after somebody changed the address or id of a
   record through the event itself. *)
Definition rec_int (v : val) (k : string) : option Z :=
  match v with VDict d => match dget d k with Some x => as_int x | None => None end | _ => None end.
Record filed := Filed { f_insert : Z; f_slot : option Z; f_id : Z }.
Definition filed_of (v : val) : option filed :=
  match rec_int v "channel_data", rec_int v "id" with
  | Some a, Some id =>
      Some (Filed (insert_of a) (if mem_Z id [0; 1] then Some (slot_of a) else None) id)
  | _, _ => None
  end.
(* dict assignment: an existing key keeps its place *)
Fixpoint own_put (d : list (Z * nat)) (id : Z) (i : nat) : list (Z * nat) :=
  match d with
  | [] => [(id, i)]
  | (k, j) :: r => if k =? id then (k, i) :: r else (k, j) :: own_put r id i
  end.
(* items_[n].own: parameter id and position of the record *)
Fixpoint own_from (l : list val) (n : Z) (i : nat) (d : list (Z * nat)) : list (Z * nat) :=
  match l with
  | [] => d
  | v :: r => own_from r n (S i)
                match filed_of v with
                | Some (Filed m None id) => if m =? n then own_put d id i else d
                | _ => d
                end
  end.
Definition own_of (l : list val) (n : Z) : list (Z * nat) := own_from l n 0 [].
(* items_[n].slots[s] *)
Fixpoint slot_from (l : list val) (n s : Z) (i : nat) (d : list (Z * nat)) : list (Z * nat) :=
  match l with
  | [] => d
  | v :: r => slot_from r n s (S i)
                match filed_of v with
                | Some (Filed m (Some q) id) => if (m =? n) && (q =? s) then own_put d id i else d
                | _ => d
                end
  end.
Definition slots_of (l : list val) (n s : Z) : list (Z * nat) := slot_from l n s 0 [].
(* n in items_ *)
Definition has_params (l : list val) (n : Z) : bool :=
  existsb (fun v => match filed_of v with Some f => f_insert f =? n | None => false end) l.

(* What is passed as params: an Insert gets the _InsertItems of its number out of an event
   object (mixer.py:607-616) or nothing; a Slot gets one of the dicts in it (408-411),
   or a list if that is empty (320-321: params or []) *)
Inductive params_obj :=
| PItems (r : nat) (n : Z)
| PSlotDict (r : nat) (d : list (Z * nat))
| PList.
Definition slot_params (r : nat) (d : list (Z * nat)) : params_obj :=
  match d with [] => PList | _ => PSlotDict r d end.
(* params.own.items() with the event object they are in; dict and list have no such
   attribute *)
Definition own_items (h : heap) (p : params_obj) : res (nat * list (Z * nat)) :=
  match p with
  | PItems r n => Ok (r, own_of (items (ev_of h r)) n)
  | PSlotDict _ _ | PList => Err AttributeError
  end.
(* ins._kw["params"] *)
Definition kw_params (p : option params_obj) : res params_obj :=
  match p with Some p => Ok p | None => Err KeyError end.
Fixpoint assoc_Z (d : list (Z * nat)) (k : Z) : option nat :=
  match d with [] => None | (k', i) :: r => if k' =? k then Some i else assoc_Z r k end.
(* mixer.py:298-304 _MixerParamProp.__get__ *)
Definition param_get (h : heap) (p : option params_obj) (id : Z) : res val :=
  let* p := kw_params p in
  let* (r, d) := own_items h p in
  match assoc_Z d id with
  | Some i => tg_get h (TItem r i) "msg"
  | None => Ok VNone
  end.
(* mixer.py:306-311 __set__; the record is a dict of the event's list *)
Definition param_set (h : heap) (p : option params_obj) (id : Z) (v : val) : heap * res unit :=
  match (let* p := kw_params p in own_items h p) with
  | Err x => (h, Err x)
  | Ok (r, d) => match assoc_Z d id with
                 | Some i => tg_set h (TItem r i) "msg" v
                 | None => (h, Err PropertyCannotBeSet)
                 end
  end.

(* -------------------------------------------------------------- version tables *)

(* mixer.py:566-576 *)
Definition MAX_INSERTS : list (list Z * Z) :=
  [([1; 6; 5], 5); ([2; 0; 1], 8); ([3; 0; 0], 18); ([3; 3; 0], 20); ([4; 0; 0], 64);
   ([9; 0; 0], 105); ([12; 9; 0], 127)].
Definition MAX_SLOTS : list (list Z * Z) := [([1; 6; 5], 4); ([3; 0; 0], 8)].

(* astuple(version) <= k: k has three components, so the build number is never
   compared and a version with three equal components is longer, hence greater *)
Fixpoint tuple_le (a b : list Z) : bool :=
  match a, b with
  | [], _ => true
  | _ :: _, [] => false
  | x :: a, y :: b => if x =? y then tuple_le a b else x <? y
  end.
Definition astuple (v : flversion) : list Z :=
  [v_major v; v_minor v; v_patch v; match v_build v with Some b => b | None => 0 end].
Fixpoint first_row (v : list Z) (rows : list (list Z * Z)) (d : Z) : Z :=
  match rows with
  | [] => d
  | (k, n) :: r => if tuple_le v k then n else first_row v r d
  end.
(* mixer.py:634-652 Mixer.max_inserts, 654-667 Mixer.max_slots *)
Definition max_inserts (v : flversion) : Z := first_row (astuple v) MAX_INSERTS 127.
Definition max_slots (v : flversion) : Z := first_row (astuple v) MAX_SLOTS 10.
