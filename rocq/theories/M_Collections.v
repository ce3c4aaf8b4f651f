(* The collections of a project: channel rack, patterns, mixer, arrangements and their
   tracks, and plugins.  pyflp/project.py 156-181, 208-222, 341-376; channel.py 436-442,
   1301-1304, 1335-1369, 1534-1600; pattern.py 318-390; mixer.py 375-419, 552-632;
   arrangement.py 365-545; plugin.py 413-447.  No proofs.

   Iterators are generators in Python: trees are made one after the other as the caller asks
   for the next model.  Here an iterator is run to its end; where it raises on the way, the
   models yielded before are kept next to the exception. *)
From Coq Require Import String ZArith List Bool.
From Verif Require Import M_Base M_Float M_Text M_Construct M_Structs M_Events M_Parse M_Tree M_Prop M_Project M_Items.
Import ListNotations.
Open Scope Z_scope.

(* the members of an EventEnum: ( *ChannelID, ...) and [e.id in TimeMarkerID]
   (_events.py:53-60) *)
Definition members (t : list (Z * option kind)) : list Z := map fst t.

(* what a generator has yielded, and the exception it ended with *)
Definition gen (A : Type) : Type := list A * option exn.

(* a == b where a is an int-like value *)
Definition same_int (a b : val) : bool :=
  match as_int a, as_int b with Some x, Some y => x =? y | _, _ => false end.
(* a == b for texts *)
Definition same_text (s : pystr) (v : val) : bool :=
  match v with VStr r => list_Zeqb s r | _ => false end.

(* EventProp read through a model, no default *)
Definition ev_prop (ids : list Z) : prop := MkProp ids VNone false PEvent.
Definition ev_get (en : env) (h : heap) (t : nat) (ids : list Z) : res val :=
  prop_get en h (EvModel t) (ev_prop ids).

(* ---------------------------------------------------------- views of a project *)

(* project.py:212-217 *)
Definition channels_sel (s : unit) (e : event) : unit * option bool :=
  (s, if e_id e =? 236 then Some false
      else if mem_Z (e_id e) (members ChannelIDs ++ members DisplayGroupIDs ++
                              members PluginIDs ++ members RackIDs) then Some true
      else None).
Definition channels (h : heap) : heap * nat := subtree h 0 channels_sel tt.

(* project.py:344-356 *)
Definition mixer_sel (began : bool) (e : event) : bool * option bool :=
  if mem_Z (e_id e) (members MixerIDs ++ members InsertIDs ++ members SlotIDs)
  then (true, Some true)
  else if began && mem_Z (e_id e) (members PluginIDs) then (began, Some true)
  else (began, None).
Definition mixer (h : heap) : heap * nat := subtree h 0 mixer_sel false.

(* project.py:361-376 *)
Definition patterns_sel (arr : bool) (e : event) : bool * option bool :=
  if e_id e =? 99 then (true, None)
  else if mem_Z (e_id e) (members TimeMarkerIDs) && negb arr then (arr, Some true)
  else if mem_Z (e_id e) (members PatternIDs ++ members PatternsIDs) then (arr, Some true)
  else (arr, None).
Definition patterns (h : heap) : heap * nat := subtree h 0 patterns_sel false.

(* project.py:159-177 *)
Definition arrangements_sel (arr : bool) (e : event) : bool * option bool :=
  let arr := if e_id e =? 99 then true else arr in
  if mem_Z (e_id e) (members TimeMarkerIDs) && arr then (arr, Some true)
  else if mem_Z (e_id e) (members ArrangementIDs ++ members ArrangementsIDs ++ members TrackIDs)
  then (arr, Some true)
  else (arr, None).
Definition arrangements (h : heap) : heap * nat := subtree h 0 arrangements_sel false.

(* -------------------------------------------------------------------- patterns *)

(* pattern.py:350 tmp_dict[cur].append(ie): a dict keeps its keys in order of first use *)
Fixpoint dict_append (d : list (Z * list nat)) (k : Z) (c : nat) : list (Z * list nat) :=
  match d with
  | [] => [(k, [c])]
  | (k', l) :: r => if k' =? k then (k', l ++ [c]) :: r else (k', l) :: dict_append r k c
  end.
(* pattern.py:345-350.  A pattern id that is not an int (it is one in every parsed file) could
   still be a key of the dict; the model stops with TypeError there. *)
Fixpoint patterns_fill (h : heap) (l : list nat) (cur : Z) (d : list (Z * list nat))
  : res (list (Z * list nat)) :=
  match l with
  | [] => Ok d
  | c :: r =>
      let* cur := if id_of h c =? 65
                  then match as_int (e_val (e_of h c)) with Some z => Ok z | None => Err TypeError end
                  else Ok cur in
      let d := if mem_Z (id_of h c) (members PatternIDs ++ members TimeMarkerIDs)
               then dict_append d cur c else d in
      patterns_fill h r cur d
  end.
(* pattern.py:340-355 Patterns.__iter__ *)
Definition patterns_iter (h : heap) (t : nat) : heap * res (list nat) :=
  match patterns_fill h (lst_of h t) 0 [] with
  | Err x => (h, Err x)
  | Ok d => let '(h', us) := new_trees h t (map snd d) in (h', Ok us)
  end.

(* pattern.py:357-365 Patterns.__len__ *)
Fixpoint distinct (l : list Z) : list Z :=
  match l with
  | [] => []
  | x :: r => if mem_Z x r then distinct r else x :: distinct r
  end.
Definition patterns_len (h : heap) (t : nat) : res Z :=
  if contains h t 65 then
    let* l := mapr (fun e => match as_int (e_val e) with Some z => Ok z | None => Err TypeError end)
                (get h t [65]) in
    Ok (zlen (distinct l))
  else Err NoModelsFound.

(* the loops of the various __getitem__ and of [current]: the first model accepted *)
Fixpoint find_model {A} (f : nat -> A -> res bool) (i : nat) (l : list A) : res (option A) :=
  match l with
  | [] => Ok None
  | x :: r => let* b := f i x in if b then Ok (Some x) else find_model f (S i) r
  end.
(* an index or a name *)
Inductive key := KIndex (i : Z) | KName (s : pystr).

(* pattern.py:323-336 Patterns.__getitem__ over the patterns yielded *)
Definition pattern_at (en : env) (h : heap) (us : list nat) (k : key) : res nat :=
  let* o := find_model (fun i u => match k with
                                   | KIndex z => Ok (Z.of_nat i =? z)
                                   | KName s => let* v := ev_get en h u [193] in Ok (same_text s v)
                                   end) 0 us in
  match o with Some u => Ok u | None => Err ModelNotFound end.

(* pattern.py:376-383 Patterns.current over the patterns yielded; None if there is none *)
Definition pattern_current (en : env) (h : heap) (t : nat) (us : list nat) : res (option nat) :=
  if contains h t 67 then
    let* index := first_val h t 67 in
    find_model (fun _ u => let* v := ev_get en h u [65] in Ok (same_int v index)) 0 us
  else Ok None.

(* -------------------------------------------------------------------- channels *)

Inductive chan_class := CChannel | CAutomation | CLayer | CSampler | CInstrument.
Record chan := Chan { ch_tree : nat; ch_class : chan_class; ch_iid : val; ch_group : nat }.

(* channel.py:402-413, 1568-1577 *)
Definition class_by_type (typ : val) : chan_class :=
  match as_int typ with
  | Some 5 => CAutomation
  | Some 3 => CLayer
  | Some 0 => CSampler
  | Some 4 | Some 2 => CInstrument
  | _ => CChannel
  end.
(* not value, for what a text event can hold *)
Definition falsy (v : val) : bool :=
  match v with
  | VNone | VStr [] | VBytes [] => true
  | VInt 0 | VBool false => true
  | _ => false
  end.
(* channel.py:1580-1583 *)
Definition chan_class_of (h : heap) (t : nat) (typ : val) : res chan_class :=
  let ct := class_by_type typ in
  if contains h t 196 && contains h t 201 then
    let* n := first_val h t 201 in
    Ok (match ct with CInstrument => if falsy n then CSampler else ct | _ => ct end)
  else Ok ct.
(* channel.py:1565-1587: one turn of the loop; None if nothing is yielded *)
Definition chan_make (h : heap) (groups : list nat) (t : nat) : res (option chan) :=
  let* iid := first_val h t 64 in
  let* typ := first_val h t 21 in
  let* g := first_val h t 145 in
  let* ct := chan_class_of h t typ in
  match iid with
  | VNone => Ok None
  | _ => match as_int g with
         | Some z => let* gr := py_nth groups z in Ok (Some (Chan t ct iid gr))
         | None => Err TypeError
         end
  end.
Fixpoint chans_from (h : heap) (groups : list nat) (ts : list nat) : gen chan :=
  match ts with
  | [] => ([], None)
  | t :: r => match chan_make h groups t with
              | Err x => ([], Some x)
              | Ok o => let '(l, x) := chans_from h groups r in
                        (match o with Some c => c :: l | None => l end, x)
              end
  end.
(* channel.py:1560-1587 ChannelRack.__iter__ *)
Definition rack_iter (h : heap) (t : nat) : heap * gen chan :=
  let '(h1, groups) := separate h t 231 in
  let '(h2, ts) := divide h1 t 64 (members ChannelIDs ++ members PluginIDs) in
  (h2, chans_from h2 groups ts).

(* channel.py:1589-1597 ChannelRack.__len__ *)
Definition rack_len (h : heap) (t : nat) : res Z :=
  if contains h t 64 then Ok (count h t 64) else Err NoModelsFound.

(* channel.py:1301-1304 display_name: name or internal_name *)
Definition display_name (en : env) (h : heap) (t : nat) : res val :=
  let* v := ev_get en h t [203; 192] in
  if falsy v then ev_get en h t [201] else Ok v.

(* channel.py:1544-1558 ChannelRack.__getitem__.  The loop stops at the first match, so an
   exception of the iterator only shows when nothing matches before. *)
Definition channel_at (en : env) (h : heap) (cs : gen chan) (k : key) : res chan :=
  let* o := find_model (fun _ c => match k with
                                   | KIndex z => let* v := ev_get en h (ch_tree c) [64] in
                                                 Ok (same_int v (VInt z))
                                   | KName s => let* v := display_name en h (ch_tree c) in
                                                Ok (same_text s v)
                                   end) 0 (fst cs) in
  match o, snd cs with
  | Some c, _ => Ok c
  | None, Some x => Err x
  | None, None => Err ChannelNotFound
  end.

(* channel.py:1586 ch_dict[iid] = ..., 1362 self._kw["channels"][event.value]: the last
   channel stored under the number *)
Definition chan_by_iid (cs : list chan) (v : val) : res chan :=
  match filter (fun c => same_int (ch_iid c) v) (rev cs) with
  | c :: _ => Ok c
  | [] => Err KeyError
  end.
(* channel.py:1359-1362 Layer.__iter__, when the rack has yielded the channels [seen] so far *)
Fixpoint children_from (seen : list chan) (es : list event) : gen chan :=
  match es with
  | [] => ([], None)
  | e :: r => match chan_by_iid seen (e_val e) with
              | Err x => ([], Some x)
              | Ok c => let '(l, x) := children_from seen r in (c :: l, x)
              end
  end.
Definition layer_iter (h : heap) (seen : list chan) (t : nat) : gen chan :=
  children_from seen (get h t [94]).
(* channel.py:1364-1369 Layer.__len__ *)
Definition layer_len (h : heap) (t : nat) : Z := count h t 94.

(* ----------------------------------------------------------------------- mixer *)

(* mixer.py:600-605 *)
Definition inserts_sel (s : unit) (e : event) : unit * option bool :=
  (s, if e_id e =? 147 then Some false
      else if mem_Z (e_id e) (members InsertIDs ++ members PluginIDs ++ members SlotIDs)
      then Some true else None).
Record insert_obj := InsertObj { in_tree : nat; in_iid : Z; in_params : option params_obj }.
(* mixer.py:611-616 *)
Fixpoint inserts_from (h : heap) (pe : option nat) (i : Z) (ts : list nat) : list insert_obj :=
  match ts with
  | [] => []
  | t :: r => InsertObj t (i - 1)
                match pe with
                | Some e => if has_params (items (ev_of h e)) i then Some (PItems e i) else None
                | None => None
                end :: inserts_from h pe (i + 1) r
  end.
(* mixer.py:599-616 Mixer.__iter__ *)
Definition mixer_iter (h : heap) (t : nat) (v : flversion) : heap * list insert_obj :=
  let pe := match get_ie h t [225] with c :: _ => Some (ref_of h c) | [] => None end in
  let '(h', ts) := subtrees h t inserts_sel tt (max_inserts v) in
  (h', inserts_from h' pe 0 ts).
(* mixer.py:618-626 Mixer.__len__ *)
Definition mixer_len (h : heap) (t : nat) : res Z :=
  if contains h t 236 then Ok (count h t 236) else Err NoModelsFound.
(* mixer.py:584-597 Mixer.__getitem__ *)
Definition insert_at (en : env) (h : heap) (l : list insert_obj) (k : key) : res insert_obj :=
  let* o := find_model (fun i x => match k with
                                   | KIndex z => Ok (Z.of_nat i =? z + 1)
                                   | KName s => let* v := ev_get en h (in_tree x) [204] in
                                                Ok (same_text s v)
                                   end) 0 l in
  match o with Some x => Ok x | None => Err ModelNotFound end.

Record slot_obj := SlotObj { sl_tree : nat; sl_params : params_obj }.
(* mixer.py:320-321, 413 *)
Fixpoint slots_from (h : heap) (p : option params_obj) (i : Z) (ts : list nat) : gen slot_obj :=
  match ts with
  | [] => ([], None)
  | t :: r => match p with
              | Some (PItems e n) =>
                  let '(l, x) := slots_from h p (i + 1) r in
                  (SlotObj t (slot_params e (slots_of (items (ev_of h e)) n i)) :: l, x)
              | Some _ => ([], Some AttributeError)
              | None => ([], Some KeyError)
              end
  end.
(* mixer.py:410-413 Insert.__iter__, 415-419 __len__ *)
Definition insert_iter (h : heap) (x : insert_obj) : heap * gen slot_obj :=
  let '(h', ts) := divide h (in_tree x) 98 (members SlotIDs ++ members PluginIDs) in
  (h', slots_from h' (in_params x) 0 ts).
Definition insert_len (h : heap) (x : insert_obj) : Z := count h (in_tree x) 98.
(* mixer.py:388-403 Insert.__getitem__ *)
Definition slot_at (en : env) (h : heap) (l : gen slot_obj) (k : key) : res slot_obj :=
  let* o := find_model (fun i x => match k with
                                   | KIndex z => Ok (Z.of_nat i =? z)
                                   | KName s => let* v := ev_get en h (sl_tree x) [203] in
                                                Ok (same_text s v)
                                   end) 0 (fst l) in
  match o, snd l with
  | Some x, _ => Ok x
  | None, Some e => Err e
  | None, None => Err ModelNotFound
  end.

(* ---------------------------------------------------------------- arrangements *)

(* arrangement.py:464-477 *)
Definition arrs_sel (occ : bool) (e : event) : bool * option bool :=
  if (e_id e =? 99) && occ then (occ, Some false)
  else
    let occ := if e_id e =? 99 then true else occ in
    if mem_Z (e_id e) (members ArrangementIDs ++ members TimeMarkerIDs ++ members TrackIDs)
    then (occ, Some true)
    else if e_id e =? 100 then (occ, Some false)
    else (occ, None).
(* arrangement.py:481-489 Arrangements.__len__ *)
Definition arrs_len (h : heap) (t : nat) : res Z :=
  if contains h t 99 then Ok (count h t 99) else Err NoModelsFound.
(* arrangement.py:458-479 Arrangements.__iter__ *)
Definition arrs_iter (h : heap) (t : nat) : heap * res (list nat) :=
  match arrs_len h t with
  | Err x => (h, Err x)
  | Ok n => let '(h', us) := subtrees h t arrs_sel false n in (h', Ok us)
  end.
(* arrangement.py:494-508 Arrangements.current over the arrangements yielded *)
Definition arr_current (h : heap) (t : nat) (us : list nat) : res (option nat) :=
  if contains h t 100 then
    let* v := first_val h t 100 in
    match as_int v with
    | None => Err TypeError
    | Some z => match py_nth us z with
                | Ok u => Ok (Some u)
                | Err IndexError => Err ModelNotFound
                | Err x => Err x
                end
    end
  else Ok None.
(* arrangement.py:435-450 Arrangements.__getitem__ *)
Definition arr_at (en : env) (h : heap) (us : list nat) (k : key) : res nat :=
  let* o := find_model (fun i u => match k with
                                   | KIndex z => Ok (Z.of_nat i =? z)
                                   | KName s => let* v := ev_get en h u [241] in Ok (same_text s v)
                                   end) 0 us in
  match o with Some u => Ok u | None => Err ModelNotFound end.

(* arrangement.py:510-526 loop_pos; a tuple of two *)
Definition loop_get (h : heap) (t : nat) : res val :=
  if contains h t 217 then
    match get_ie h t [217] with
    | c :: _ => let* a := struct_get (e_of h c) "start" in
                let* b := struct_get (e_of h c) "end" in
                Ok (VTup [a; b])
    | [] => Err KeyError
    end
  else if contains h t 152 then first_val h t 152
  else Ok VNone.
(* arrangement.py:528-536; value is a tuple of two *)
Definition loop_set (h : heap) (t : nat) (a b : val) : heap * res unit :=
  if contains h t 217 then
    match get_ie h t [217] with
    | c :: _ => and_then (tg_set h (TEvent (ref_of h c)) "start" a)
                  (fun h => tg_set h (TEvent (ref_of h c)) "end" b)
    | [] => (h, Err KeyError)
    end
  else if contains h t 152 then set_first h t 152 (VTup [a; b])
  else (h, Err PropertyCannotBeSet).

(* an item of the playlist on a track: position in the event and what it plays *)
Inductive plays := PlaysChannel (c : chan) | PlaysPattern (u : nat).
Definition pat_by_iid (ps : list (val * nat)) (v : Z) : res nat :=
  match filter (fun x => same_int (fst x) (VInt v)) (rev ps) with
  | (_, u) :: _ => Ok u
  | [] => Err KeyError
  end.
(* item["..."] of a playlist item, as a number *)
Definition item_int (v : val) (k : string) : res Z :=
  match v with
  | VDict d => let* x := dindex d k in
               match as_int x with Some z => Ok z | None => Err TypeError end
  | _ => Err TypeError
  end.
(* arrangement.py:389-398 *)
Fixpoint track_items (max idx : Z) (cs : list chan) (ps : list (val * nat)) (i : nat)
    (l : list val) : res (list (nat * plays)) :=
  match l with
  | [] => Ok []
  | v :: r =>
      let* rv := item_int v "track_rvidx" in
      if negb (max - rv =? idx) then track_items max idx cs ps (S i) r
      else
        let* a := item_int v "item_index" in
        let* b := item_int v "pattern_base" in
        let* p := if a <=? b
                  then let* c := chan_by_iid cs (VInt a) in Ok (PlaysChannel c)
                  else let* u := pat_by_iid ps (a - b) in Ok (PlaysPattern u) in
        let* rest := track_items max idx cs ps (S i) r in
        Ok ((i, p) :: rest)
  end.
Record track_obj := TrackObj { tr_tree : nat; tr_items : list (nat * plays) }.
(* iterating over a list event: without the attribute data (_events.py:374-378) it fails *)
Definition event_items (e : event) : res (list val) :=
  if list_usable e then Ok (items e) else Err AttributeError.
(* arrangement.py:383-399 *)
Fixpoint tracks_from (max idx : Z) (cs : list chan) (ps : list (val * nat))
    (pl : option (res (list val)))
    (ts : list nat) : gen track_obj :=
  match ts with
  | [] => ([], None)
  | t :: r => match match pl with
                    | None => Ok []
                    | Some r => let* l := r in track_items max idx cs ps 0 l
                    end with
              | Err x => ([], Some x)
              | Ok its => let '(l, x) := tracks_from max (idx + 1) cs ps pl r in
                          (TrackObj t its :: l, x)
              end
  end.
(* arrangement.py:373-399 Arrangement.tracks.  [cs] and [ps]: the channels and the patterns
   (with their iids) that iterating channels and patterns gave (378-379). *)
Definition tracks_iter (h : heap) (t : nat) (v : flversion) (cs : list chan)
    (ps : list (val * nat)) : heap * res (gen track_obj) :=
  match max_tracks v with
  | Err x => (h, Err x)
  | Ok n =>
      let pl := match get_ie h t [233] with
                | c :: _ => Some (event_items (e_of h c))
                | [] => None
                end in
      let '(h', ts) := divide h t 238 (members TrackIDs) in
      (h', Ok (tracks_from (n - 1) 0 cs ps pl ts))
  end.

(* --------------------------------------------------------------------- plugins *)

(* plugin.py:419-421 *)
Definition plugin_view (h : heap) (t : nat) : heap * nat :=
  subtree h t (fun (s : unit) e => (s, Some (mem_Z (e_id e) [212; 213]))) tt.
(* plugin.py:423-436 PluginProp.__get__: the class of the plugin object (None: _PluginBase,
   known by its data's class otherwise) and its tree.  The classes of event are in bijection
   with the plugin classes (BooBass with BooBassEvent, ...). *)
Definition kind_eqb (a b : kind) : bool :=
  if (ltac:(decide equality) : {a = b} + {a <> b}) then true else false.
Definition plugin_get (h : heap) (t : nat) (types : list kind) : heap * option (option kind * nat) :=
  match get_ie h t [213] with
  | [] => (h, None)
  | c :: _ =>
      match e_kind (e_of h c) with
      | KUnknown => let '(h', u) := plugin_view h t in (h', Some (None, u))
      | k => if existsb (kind_eqb k) types
             then let '(h', u) := plugin_view h t in (h', Some (Some k, u))
             else (h, None)
      end
  end.

(* mixer.py:350-361 Slot.plugin; channel.py:1445 Instrument.plugin *)
Definition effect_types : list kind :=
  [KVSTPlugin; KFruityBalance; KFruityBloodOverdrive; KFruityCenter; KFruityFastDist;
   KFruityNotebook2; KFruitySend; KFruitySoftClipper; KFruityStereoEnhancer; KSoundgoodizer].
Definition instrument_types : list kind := [KVSTPlugin; KBooBass; KFruitKick; KPlucked].

(* ie.e = event *)
Definition set_ref (h : heap) (c : nat) (r : nat) : heap :=
  Heap (h_evs h) (lset (h_cells h) c (Cell (r_of h c) r)) (h_trees h).
(* plugin.py:445-447, for one id; [u] is value.events *)
Fixpoint replace_from (h : heap) (u : nat) (id : Z) (l : list nat) : heap * res unit :=
  match l with
  | [] => (h, Ok tt)
  | c :: r => if id_of h c =? id
              then match get_ie h u [id] with
                   | [] => (h, Err KeyError)
                   | d :: _ => replace_from (set_ref h c (ref_of h d)) u id r
                   end
              else replace_from h u id r
  end.
(* plugin.py:440-447 PluginProp.__set__: [t] is the tree of the channel or slot, [u] that of the
   plugin, [name] its INTERNAL_NAME if it has one; 440-442 assigns the EventProp internal_name
   (channel.py and mixer.py: PluginID.InternalName) *)
Definition plugin_set (en : env) (h : heap) (t u : nat) (name : option pystr) : heap * res unit :=
  and_then (match name with
            | Some s => prop_set en h (EvModel t) (ev_prop [201]) (VStr s)
            | None => (h, Ok tt)
            end) (fun h =>
  and_then (replace_from h u 213 (lst_of h t)) (fun h =>
  replace_from h u 212 (lst_of h t))).

(* _models.py:111-117 supports_slice: the models whose index is in range(start, stop); the
   step is not looked at and range is made anew for every model.  None for a bound left out;
   bounds are ints. *)
Fixpoint slice_from {A} (i : nat) (l : list A) (start stop : option Z) : res (list A) :=
  match l with
  | [] => Ok []
  | x :: r =>
      match start, stop with
      | Some a, Some b =>
          let* rest := slice_from (S i) r start stop in
          Ok (if (a <=? Z.of_nat i) && (Z.of_nat i <? b) then x :: rest else rest)
      | _, _ => Err TypeError
      end
  end.
Definition models_slice {A} (l : gen A) (start stop : option Z) : res (list A) :=
  let* r := slice_from 0 (fst l) start stop in
  match snd l with None => Ok r | Some x => Err x end.
