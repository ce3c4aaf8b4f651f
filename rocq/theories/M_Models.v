(* More of the models' properties: levels, envelopes and sample paths of channels, numbers and
   notes of patterns, playlist items, dock, equaliser and routes of inserts, dates and data path
   of the project.  No proofs. *)
From Coq Require Import String ZArith List Bool.
From Verif Require Import M_Base M_Float M_Text M_Construct M_Structs M_Events M_Parse M_Tree M_Prop M_Project M_Items M_Collections.
Import ListNotations.
Open Scope Z_scope.

(* self.events.first(id)[k] *)
Definition first_item (h : heap) (t : nat) (id : Z) (k : string) : res val :=
  let* e := first h t id in struct_get e k.
(* self.events.first(id)[k] = v *)
Definition set_first_item (h : heap) (t : nat) (id : Z) (k : string) (v : val) : heap * res unit :=
  match get_ie h t [id] with
  | [] => (h, Err KeyError)
  | c :: _ => tg_set h (TEvent (ref_of h c)) k v
  end.

(* -------------------------------------------------------------------- channels *)

(* channel.py:1234-1247 Channel.pan ("pan", 73, 3), 1262-1275 volume ("volume", 72, 2) *)
Definition level_get (h : heap) (t : nat) (k : string) (w b : Z) : res val :=
  if contains h t 219 then first_item h t 219 k
  else if contains h t w then first_val h t w
  else if contains h t b then first_val h t b
  else Ok VNone.
(* channel.py:1249-1260, 1277-1288: the loop has no break *)
Definition level_set (h : heap) (t : nat) (k : string) (w b : Z) (v : val) : heap * res unit :=
  with_res h (level_get h t k w b) (fun old =>
    match old with
    | VNone => (h, Err PropertyCannotBeSet)
    | _ =>
        if contains h t 219 then set_first_item h t 219 k v
        else and_then (if contains h t w then set_first h t w v else (h, Ok tt))
               (fun h => if contains h t b then set_first h t b v else (h, Ok tt))
    end).
Definition pan_get h t := level_get h t "pan" 73 3.
Definition pan_set h t := level_set h t "pan" 73 3.
Definition volume_get h t := level_get h t "volume" 72 2.
Definition volume_set h t := level_set h t "volume" 72 2.
(* channel.py:1406-1414 pitch_shift *)
Definition pitch_get (h : heap) (t : nat) : res val :=
  if contains h t 219 then first_item h t 219 "pitch_shift" else Ok VNone.
(* channel.py:1416-1423: KeyError of first is turned into PropertyCannotBeSet, what comes
   after it is not *)
Definition pitch_set (h : heap) (t : nat) (v : val) : heap * res unit :=
  match get_ie h t [219] with
  | [] => (h, Err PropertyCannotBeSet)
  | c :: _ => tg_set h (TEvent (ref_of h c)) "pitch_shift" v
  end.
(* channel.py:1291-1299 zipped *)
Definition zipped_get (h : heap) (t : nat) : res val :=
  if contains h t 15 then first_val h t 15 else Ok (VBool false).

(* dict(zip(names, [Model(e) for e in self.events.separate(id)])): the views are made first,
   zip stops at the shorter list *)
Definition named_views (h : heap) (t : nat) (id : Z) (names : list string)
  : heap * option (list (string * nat)) :=
  if contains h t id
  then let '(h', us) := separate h t id in (h', Some (combine names us))
  else (h, None).
(* channel.py:76 *)
Definition envelope_names : list string := ["Panning"; "Volume"; "Mod X"; "Mod Y"; "Pitch"]%string.
(* channel.py:1467-1475 Sampler.envelopes, 1496-1504 lfos *)
Definition envelopes (h : heap) (t : nat) := named_views h t 218 envelope_names.
Definition lfos (h : heap) (t : nat) := named_views h t 218 envelope_names.
(* channel.py:1431-1439 tracking *)
Definition tracking (h : heap) (t : nat) := named_views h t 228 ["volume"; "keyboard"]%string.

Definition class_eqb (a b : chan_class) : bool :=
  match a, b with
  | CChannel, CChannel | CAutomation, CAutomation | CLayer, CLayer
  | CSampler, CSampler | CInstrument, CInstrument => true
  | _, _ => false
  end.
(* channel.py:1599-1629 automations, instruments, layers, samplers; none of the classes is a
   subclass of another one (1308, 1335, 1441, 1449) *)
Definition channels_of (c : chan_class) (g : gen chan) : gen chan :=
  (filter (fun x => class_eqb (ch_class x) c) (fst g), snd g).

(* channel.py:1324-1330 Automation.__iter__: event["points"] *)
Definition points (h : heap) (t : nat) : res (list model) :=
  match get_ie h t [234] with
  | [] => Ok []
  | c :: _ => let* v := struct_get (e_of h c) "points" in
              match v with
              | VList l => Ok (map (ItModel (ref_of h c)) (seq 0 (length l)))
              | _ => Err TypeError
              end
  end.

(* -------------------------------------------------------------------- patterns *)

(* pattern.py:268-276 Pattern.iid *)
Definition iid_get (h : heap) (t : nat) : res val := first_val h t 65.
(* pattern.py:278-281 *)
Definition iid_set (h : heap) (t : nat) (v : val) : heap :=
  fold_left (fun h c => set_val h (ref_of h c) v) (get_ie h t [65]) h.
(* pattern.py:261-266 controllers (223), 298-309 notes (224): one model per element *)
Definition elements (h : heap) (t : nat) (id : Z) : res (list model) :=
  match get_ie h t [id] with
  | [] => Ok []
  | c :: _ => let* l := event_items (e_of h c) in
              Ok (map (ItModel (ref_of h c)) (seq 0 (length l)))
  end.

(* -------------------------------------------------------------- playlist items *)

(* arrangement.py:186-192 PLItemBase.offsets *)
Definition offsets_get (h : heap) (g : target) : res val :=
  let* a := tg_get h g "start_offset" in
  let* b := tg_get h g "end_offset" in
  Ok (VTup [a; b]).
(* arrangement.py:194-196 *)
Definition offsets_set (h : heap) (g : target) (a b : val) : heap * res unit :=
  and_then (tg_set h g "start_offset" a) (fun h => tg_set h g "end_offset" b).
(* arrangement.py:212-215 ChannelPLItem.channel = c; the item also remembers c *)
Definition item_channel_set (en : env) (h : heap) (g : target) (c : chan) : heap * res unit :=
  with_res h (ev_get en h (ch_tree c) [64]) (fun v => tg_set h g "item_index" v).
(* arrangement.py:228-231 PatternPLItem.pattern = p; numbers only *)
Definition item_pattern_set (h : heap) (g : target) (u : nat) : heap * res unit :=
  with_res h (iid_get h u) (fun v =>
    with_res h (tg_get h g "pattern_base") (fun b =>
      match as_int v, as_int b with
      | Some n, Some m => tg_set h g "item_index" (VInt (n + m))
      | _, _ => (h, Err TypeError)
      end)).

(* --------------------------------------------------------------------- inserts *)

(* mixer.py:172-183 InsertDock *)
Inductive dock := DockLeft | DockMiddle | DockRight.
(* mixer.py:437-456 Insert.dock *)
Definition dock_get (en : env) (h : heap) (t : nat) : res (option dock) :=
  match get_ie h t [236] with
  | [] => Ok None
  | c :: _ =>
      let* v := struct_get (e_of h c) "flags" in
      let* m := flag_in (en_py311 en) InsertFlags_mask 64 v in
      if m then Ok (Some DockMiddle) else
      let* r := flag_in (en_py311 en) InsertFlags_mask 128 v in
      Ok (Some (if r then DockRight else DockLeft))
  end.

(* mixer.py:246-258 _InsertEQProp.__get__: the records of a band, by the last of equal ids (the
   ids of a dict are different); 186-201: a record missing makes KeyError *)
Definition band := (Z * Z * Z)%type.  (* freq, gain, reso *)
Definition eq_low : band := (216, 208, 224).
Definition eq_mid : band := (217, 209, 225).
Definition eq_high : band := (218, 210, 226).
Inductive band_prop := Freq | Gain | Reso.
Definition band_id (b : band) (k : band_prop) : Z :=
  let '(f, g, r) := b in match k with Freq => f | Gain => g | Reso => r end.
Definition eq_record (h : heap) (p : option params_obj) (b : band) (k : band_prop) : res target :=
  let* p := kw_params p in
  let* (r, d) := own_items h p in
  match assoc_Z d (band_id b k) with
  | Some i => Ok (TItem r i)
  | None => Err KeyError
  end.
(* mixer.py:194-200 _InsertEQBandProp *)
Definition eq_get (h : heap) (p : option params_obj) (b : band) (k : band_prop) : res val :=
  let* g := eq_record h p b k in tg_get h g "msg".
Definition eq_set (h : heap) (p : option params_obj) (b : band) (k : band_prop) (v : val)
  : heap * res unit :=
  with_res h (eq_record h p b k) (fun g => tg_set h g "msg" v).

(* mixer.py:510-526 Insert.routes: one flag is used up for each parameter with an id from 64 on *)
Fixpoint routes_from (h : heap) (r : nat) (d : list (Z * nat)) (flags : list val) : res (list val) :=
  match d with
  | [] => Ok []
  | (id, i) :: d =>
      if 64 <=? id then
        match flags with
        | [] => routes_from h r d []
        | f :: flags =>
            if truthy f
            then let* v := tg_get h (TItem r i) "msg" in
                 let* l := routes_from h r d flags in Ok (v :: l)
            else routes_from h r d flags
        end
      else routes_from h r d flags
  end.
Definition routes (h : heap) (t : nat) (p : option params_obj) : res (list val) :=
  let* e := first h t 235 in
  let* flags := event_items e in
  let* p := kw_params p in
  let* (r, d) := own_items h p in
  routes_from h r d flags.

(* ------------------------------------------------------------------------ dates *)

(* the fraction of a finite float (math.modf), which is a float *)
Definition f_frac (x : Z) : Z :=
  f_round (f_sign x) (dy_n (f_mag x) (f_e x) mod dy_d (f_e x)) (dy_d (f_e x)).
Definition us_per_day : Z := 86400000000.
(* datetime.timedelta(days=v) in microseconds (CPython accum and microseconds_to_delta): the
   whole days exactly, the rest of a day times the microseconds of a day as floats, then rounded to
   the nearest, ties to even; OverflowError beyond 999999999 days *)
Definition delta_us (v : val) : res Z :=
  let* us := match v with
             | VInt n => Ok (n * us_per_day)
             | VFlt x => let* n := f_trunc x in
                         match f_of_int us_per_day with
                         | Some d => let* f := f_rint (f_mul d (f_frac x)) in Ok (n * us_per_day + f)
                         | None => Err OverflowError
                         end
             | _ => Err TypeError
             end in
  let d := us / us_per_day in
  if (-999999999 <=? d) && (d <=? 999999999) then Ok us else Err OverflowError.
(* project.py:484-494 time_spent *)
Definition time_spent (h : heap) (t : nat) : res (option Z) :=
  if contains h t 237
  then let* v := first_item h t 237 "time_spent" in let* us := delta_us v in Ok (Some us)
  else Ok None.
(* project.py:236-245 created_on, in microseconds since project.py:55 _DELPHI_EPOCH.  A datetime
   is between year 1 (693593 days before it) and the end of year 9999 *)
Definition created_on (h : heap) (t : nat) : res (option Z) :=
  if contains h t 237
  then let* v := first_item h t 237 "created_on" in
       let* us := delta_us v in
       let d := us / us_per_day in
       if (-693593 <=? d) && (d <=? 2958465) then Ok (Some us) else Err OverflowError
  else Ok None.

(* ------------------------------------------------------------------------ paths *)

(* pathlib.PurePosixPath: number of slashes of the root (0, 1 or 2) and the parts *)
Record path := Path { pa_root : nat; pa_parts : list pystr }.
Definition slash : Z := 47.
Fixpoint split_slash (s : pystr) : list pystr :=
  match s with
  | [] => [[]]
  | c :: s => if c =? slash then [] :: split_slash s
              else match split_slash s with w :: r => (c :: w) :: r | [] => [[c]] end
  end.
Fixpoint slashes (s : pystr) : nat :=
  match s with c :: s => if c =? slash then S (slashes s) else O | [] => O end.
Definition is_part (w : pystr) : bool :=
  match w with [] => false | [c] => negb (c =? 46) | _ => true end.
(* pathlib.Path(s) *)
Definition path_of (s : pystr) : path :=
  Path (match slashes s with 0 => 0 | 2 => 2 | _ => 1 end)%nat
       (filter is_part (split_slash (skipn (slashes s) s))).
Fixpoint join_slash (l : list pystr) : pystr :=
  match l with [] => [] | [w] => w | w :: r => w ++ slash :: join_slash r end.
(* str(p) *)
Definition path_str (p : path) : pystr :=
  match repeat slash (pa_root p) ++ join_slash (pa_parts p) with [] => [46] | s => s end.

(* channel.py:1511-1520 Sampler.sample_path (196), project.py:249-258 Project.data_path (202) *)
Definition path_get (h : heap) (t : nat) (id : Z) : res (option path) :=
  if contains h t id
  then let* v := first_val h t id in
       match v with VStr s => Ok (Some (path_of s)) | _ => Err TypeError end
  else Ok None.
Definition str_eqb (a b : pystr) : bool := if list_eq_dec Z.eq_dec a b then true else false.
Definition undot (s : pystr) : pystr := if str_eqb s [46] then [] else s.
(* channel.py:1522-1528 sample_path = p *)
Definition sample_path_set (h : heap) (t : nat) (p : path) : heap * res unit :=
  with_res h (path_get h t 196) (fun o =>
    match o with
    | None => (h, Err PropertyCannotBeSet)
    | Some _ => set_first h t 196 (VStr (undot (path_str p)))
    end).
(* project.py:260-269 data_path = v, a str or a path *)
Definition data_path_set (h : heap) (t : nat) (v : pystr + path) : heap * res unit :=
  if contains h t 202
  then set_first h t 202 (VStr (undot (match v with inl s => s | inr p => path_str p end)))
  else (h, Err PropertyCannotBeSet).
