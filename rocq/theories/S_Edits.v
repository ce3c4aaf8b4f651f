(* Editing sessions in which every value given suits the event it is given to: views are
   made and values given, in any order and any number. *)
From Coq Require Import String ZArith List Bool.
From Verif Require Import M_Base M_Text M_Structs M_Events M_Parse M_Tree M_Prop S_Canon S_File S_Domain S_Tree S_Prop S_Layout S_Items S_Vst P_TreeEdit.
Import ListNotations.
Open Scope Z_scope.

(* [suits en e v]: the event [e] may be given the value [v] *)
Inductive suits (en : env) (e : event) : val -> Prop :=
(* a number, a text, raw data, a tuple: what its class can store *)
| fit_value v : scalar_kind (e_kind e) = true -> domain (e_kind e) v -> suits en e v
(* a member of an enumeration, flags or a truth value in the place of a number *)
| fit_number v z : scalar_kind (e_kind e) = true -> number v z -> domain (e_kind e) (VInt z) -> suits en e v
(* a struct: one field that is there given a value that is stored as some bytes, which are
   read as that value *)
| fit_field b fs i m fd ty d old v c d' :
    payload en e = Ok b -> layout (zlen b) (e_kind e) = Some fs -> cut_at fs b i -> readable en fs b i ->
    nth_error fs m = Some fd -> f_type fd = Some ty ->
    e_val e = VDict d -> dget d (f_name fd) = Some old -> old <> VNone ->
    stored_as ty v c -> is_bytes c -> ft_dec en ty c = Some v ->
    dict_updated d (f_name fd) v d' -> suits en e (VDict d')
(* a list of structs: one field of one of them *)
| fit_item b rs l j m fd ty d v c d' :
    payload en e = Ok b -> record (new_of b) (e_kind e) = Some rs ->
    nth_error rs m = Some fd -> f_type fd = Some ty ->
    e_val e = VList l -> nth_error l j = Some (VDict d) ->
    stored_as ty v c -> is_bytes c -> ft_dec en ty c = Some v ->
    dict_updated d (f_name fd) v d' -> suits en e (VList (firstn j l ++ VDict d' :: skipn (S j) l))
(* VST plugin data: a text or raw data of one sub-event *)
| fit_sub b ty l j id x y :
    e_kind e = KVSTPlugin -> payload en e = Ok b ->
    e_val e = VDict [("type"%string, VInt ty); ("events"%string, VList l)] -> nth_error l j = Some (sub_dict id x) ->
    (text_sub id /\ (exists s, y = VStr s /\ Forall scalar s /\ zlen b + 4 * zlen s < 2 ^ 64)) \/
    (raw_sub id /\ (exists q, y = VBytes q /\ is_bytes q /\ zlen b + zlen q < 2 ^ 64)) ->
    suits en e (VDict [("type"%string, VInt ty); ("events"%string, VList (firstn j l ++ sub_dict id y :: skipn (S j) l))]).

(* the first number of the file's version and of the plugin name decide how other events are
   read: those two kinds of event are not edited here *)
Inductive edits (en : env) (evs : list event) : heap -> Prop :=
| edits_load : edits en evs (parsed evs)
| edits_look h h' : edits en evs h -> view_op h h' -> edits en evs h'
| edits_give h r v : edits en evs h -> ~ (e_id (ev_of h r) = 199 \/ e_id (ev_of h r) = 201) -> suits en (ev_of h r) v -> edits en evs (set_val h r v).

(* [b] is the event [a] after saving and loading: what was given in the place of a number is
   that number *)
Definition alike (a b : event) : Prop :=
  e_id a = e_id b /\ e_kind a = e_kind b /\
  (e_val b = e_val a \/ exists z, number (e_val a) z /\ e_val b = VInt z).

(* the sizes of events, added up *)
Inductive total_size (en : env) : list event -> Z -> Prop :=
| ts_nil : total_size en [] 0
| ts_cons e es n m : event_size en e = Ok n -> total_size en es m -> total_size en (e :: es) (n + m).

(* a project that was read from the file [f] and is being edited *)
Definition editing (en : env) (f : bytes) (p : project) (h : heap) : Prop :=
  is_bytes f /\ parse en f = Ok p /\ canonical_file en f /\ edits en (pr_events p) h.
(* an operation that succeeds and leaves such a project *)
Definition an_edit (en : env) (f : bytes) (p : project) (a : heap * res unit) : Prop :=
  exists h', a = (h', Ok tt) /\ editing en f p h'.
