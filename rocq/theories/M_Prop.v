(* Descriptors and item models: pyflp/_descriptors.py, pyflp/_models.py, and the
   item access of struct and list events (pyflp/_events.py 327-378).  No proofs. *)
From Coq Require Import String ZArith List Bool.
From Verif Require Import M_Base M_Construct M_Structs M_Events M_Tree.
Import ListNotations.
Open Scope Z_scope.

(* subclasses of ListEventBase: arrangement.py:70, mixer.py:113,125,
   pattern.py:49,67 *)
Definition is_list_kind (k : kind) : bool :=
  match k with
  | KPlaylist | KInsertRouting | KMixerParams | KController | KNotes => true
  | _ => false
  end.
(* subclasses of StructEventBase: every class of channel.py and plugin.py and
   arrangement.py:66,131, controller.py:29,33, mixer.py:105, project.py:65 *)
Definition is_struct_kind (k : kind) : bool :=
  match k with
  | KBool | KI8 | KU8 | KI16 | KU16 | KF32 | KI32 | KU32 | KU16Tuple | KColor
  | KAscii | KUnicode | KUnknown => false
  | _ => negb (is_list_kind k)
  end.

(* event.value = v on an event object *)
Definition with_val (e : event) (v : val) : event :=
  Event (e_id e) (e_kind e) (e_len e) (e_new e) v.
Definition set_val (h : heap) (r : nat) (v : val) : heap :=
  set_event h r (with_val (ev_of h r) v).

(* ------------------------------------------------------- struct and list events *)

(* dict[k] *)
Definition dindex (d : list (string * val)) (k : string) : res val :=
  match dget d k with Some v => Ok v | None => Err KeyError end.

(* event[key]: UserDict.__getitem__ over the value (_events.py:335-337).  The
   key "_io", which construct adds to every parsed Container, is left out. *)
Definition struct_get (e : event) (k : string) : res val :=
  if is_struct_kind (e_kind e)
  then match e_val e with VDict d => dindex d k | _ => Err TypeError end
  else Err TypeError.

(* _events.py:339-346 StructEventBase.__setitem__, on the value *)
Definition struct_set (e : event) (k : string) (v : val) : res val :=
  if is_struct_kind (e_kind e)
  then match e_val e with
       | VDict d => match dget d k with
                    | None => Err KeyError
                    | Some VNone => Err PropertyCannotBeSet
                    | Some _ => Ok (VDict (dset d k v))
                    end
       | _ => Err TypeError
       end
  else Err TypeError.

(* The containers an ItemModel can be made of: the elements of a list event
   (pattern.py:287-309, arrangement.py:389-398) or the points of an
   automation (channel.py:1324-1330).  Models refer to the container by its
   place: nothing in the library replaces one by another object. *)
Definition items (e : event) : list val :=
  match e_val e with
  | VList l => if list_usable e then l else []
  | VDict d => match dget d "points" with Some (VList l) => l | _ => [] end
  | _ => []
  end.
Definition set_items (e : event) (l : list val) : event :=
  with_val e (match e_val e with
              | VList _ => VList l
              | VDict d => VDict (dset d "points" (VList l))
              | v => v
              end).

(* ------------------------------------------------------------------ descriptors *)

(* The object a descriptor is read through: an EventModel with its tree, or an
   ItemModel with its parent event and index. *)
Inductive model := EvModel (t : nat) | ItModel (r : nat) (i : nat).
(* what _get_event returns *)
Inductive target := TEvent (r : nat) | TItem (r : nat) (i : nat).

Definition ref_of (h : heap) (c : nat) : nat := c_e (cell_of h c).

(* _descriptors.py:69-81 PropBase._get_event *)
Fixpoint first_of (h : heap) (t : nat) (ids : list Z) : option nat :=
  match ids with
  | [] => None
  | id :: r => if contains h t id
               then match get_ie h t [id] with c :: _ => Some (ref_of h c) | [] => None end
               else first_of h t r
  end.
Definition get_event (h : heap) (ids : list Z) (m : model) : res (option target) :=
  match m with
  | ItModel r i => Ok (Some (TItem r i))
  | EvModel t =>
      match ids with
      | [] => match lst_of h t with
              | [] => Err IndexError
              | [c] => Ok (Some (TEvent (ref_of h c)))
              | _ => Err LookupError
              end
      | _ => Ok (option_map TEvent (first_of h t ids))
      end
  end.

(* _models.py:61-62 ItemModel.__getitem__, or struct event item access *)
Definition tg_get (h : heap) (g : target) (k : string) : res val :=
  match g with
  | TEvent r => struct_get (ev_of h r) k
  | TItem r i => match nth_error (items (ev_of h r)) i with
                 | Some (VDict d) => dindex d k
                 | _ => Err TypeError
                 end
  end.
(* _models.py:64-70 ItemModel.__setitem__ for the elements of list events,
   channel.py:1154-1156 AutomationPoint.__setitem__ for the points of an automation
   (there are no other items, so the NotImplementedError of the former is never raised) *)
Definition tg_set (h : heap) (g : target) (k : string) (v : val) : heap * res unit :=
  match g with
  | TEvent r => match struct_set (ev_of h r) k v with
                | Ok w => (set_val h r w, Ok tt)
                | Err x => (h, Err x)
                end
  | TItem r i =>
      let e := ev_of h r in
      match nth_error (items e) i with
      | Some (VDict d) =>
          (set_event h r (set_items e (lset (items e) i (VDict (dset d k v)))), Ok tt)
      | _ => (h, Err TypeError)
      end
  end.

(* enum.IntFlag: int | flag, int & ~flag, for a class whose members' union is
   [mask].  bool | flag is computed by int and stays a plain int. *)
Definition flag_or (py311 : bool) (mask f : Z) (v : val) : res val :=
  match v with
  | VInt z | VEnum z => Ok (VEnum (intflag_norm py311 mask (Z.lor z f)))
  | VBool b => Ok (VInt (Z.lor (Z.b2z b) f))
  | _ => Err TypeError
  end.
Definition flag_invert (py311 : bool) (mask f : Z) : Z := intflag_norm py311 mask (Z.lnot f).
Definition flag_andnot (py311 : bool) (mask f : Z) (v : val) : res val :=
  match v with
  | VInt z | VEnum z =>
      Ok (VEnum (intflag_norm py311 mask (Z.land z (flag_invert py311 mask f))))
  | VBool b => Ok (VInt (Z.land (Z.b2z b) (flag_invert py311 mask f)))
  | _ => Err TypeError
  end.
(* flag in flag_type(flags) *)
Definition flag_in (py311 : bool) (mask f : Z) (v : val) : res bool :=
  match as_int v with
  | Some z => Ok (Z.land (intflag_norm py311 mask z) f =? f)
  | None => Err ValueError
  end.

(* EventProp (192-199), StructProp (214-225), FlagProp (121-169) of
   _descriptors.py; the common part is PropBase (55-118) *)
Inductive pkind :=
| PEvent
| PStruct (name : string)
| PFlag (name : string) (flag mask : Z) (inverted : bool).
Record prop := MkProp {
  p_ids : list Z;
  p_default : val;
  p_readonly : bool;
  p_kind : pkind
}.

(* the flags a FlagProp works on (147-150, 160-169) *)
Definition has_items (h : heap) (g : target) : bool :=
  match g with TItem _ _ => true | TEvent r => is_struct_kind (e_kind (ev_of h r)) end.
Definition flags_get (h : heap) (g : target) (name : string) : res val :=
  if has_items h g then tg_get h g name
  else match g with TEvent r => Ok (e_val (ev_of h r)) | TItem _ _ => Err TypeError end.
Definition flags_set (h : heap) (g : target) (name : string) (v : val) : heap * res unit :=
  if has_items h g then tg_set h g name v
  else match g with
       | TEvent r => (set_val h r v, Ok tt)
       | TItem _ _ => (h, Err TypeError)
       end.

(* _get *)
Definition target_read (en : env) (h : heap) (k : pkind) (g : target) : res val :=
  match k with
  | PEvent => match g with
              | TEvent r => Ok (e_val (ev_of h r))
              | TItem _ _ => Err AttributeError
              end
  | PStruct n => tg_get h g n
  | PFlag n f mask inv =>
      let* v := flags_get h g n in
      match v with
      | VNone => Ok VNone
      | _ => let* b := flag_in (en_py311 en) mask f v in Ok (VBool (xorb inv b))
      end
  end.
(* _set *)
Definition target_write (en : env) (h : heap) (k : pkind) (g : target) (v : val)
  : heap * res unit :=
  match k with
  | PEvent => match g with
              | TEvent r => (set_val h r v, Ok tt)
              | TItem _ _ => (h, Err AttributeError)  (* ItemModel has no value; Python
                                                         would create the attribute *)
              end
  | PStruct n => tg_set h g n v
  | PFlag n f mask inv =>
      match (let* old := flags_get h g n in
             (if xorb inv (truthy v) then flag_or else flag_andnot) (en_py311 en) mask f old)
      with
      | Ok w => flags_set h g n w
      | Err x => (h, Err x)
      end
  end.

(* _descriptors.py:96-107 PropBase.__get__ *)
Definition prop_get (en : env) (h : heap) (m : model) (p : prop) : res val :=
  let* g := get_event h (p_ids p) m in
  match g with
  | Some g => target_read en h (p_kind p) g
  | None => Ok (p_default p)
  end.
(* _descriptors.py:110-118 PropBase.__set__ *)
Definition prop_set (en : env) (h : heap) (m : model) (p : prop) (v : val)
  : heap * res unit :=
  if p_readonly p then (h, Err PropertyCannotBeSet)
  else match get_event h (p_ids p) m with
       | Err x => (h, Err x)
       | Ok None => (h, Err PropertyCannotBeSet)
       | Ok (Some g) => target_write en h (p_kind p) g v
       end.

(* _descriptors.py:207-211 NestedProp.__get__ *)
Definition nested (h : heap) (t : nat) (ids : list Z) : heap * nat :=
  subtree h t (fun (s : unit) e => (s, Some (mem_Z (e_id e) ids))) tt.

(* _models.py:111-117 supports_slice: collection[a:b] for integer bounds *)
Definition slice_models {A} (ms : list A) (a b : option Z) : res (list A) :=
  match a, b with
  | Some a, Some b =>
      Ok (map snd (filter (fun x => (a <=? Z.of_nat (fst x)) && (Z.of_nat (fst x) <? b))
                     (combine (seq 0 (length ms)) ms)))
  | _, _ => match ms with [] => Ok [] | _ => Err TypeError end
  end.
