(* The project object: tempo, version, licensee, and the values of the file header.
   pyflp/project.py 185-206, 247, 289-330, 385-415, 434-545; pyflp/types.py 32-43
   (FLVersion).  No proofs. *)
From Coq Require Import String ZArith List Bool.
From Verif Require Import M_Base M_Float M_Text M_Construct M_Structs M_Events M_Parse M_Tree M_Prop.
Import ListNotations.
Open Scope Z_scope.

(* self.events.first(id).value and self.events.first(id).value = v *)
Definition first_val (h : heap) (t : nat) (id : Z) : res val :=
  let* e := first h t id in Ok (e_val e).
Definition set_first (h : heap) (t : nat) (id : Z) (v : val) : heap * res unit :=
  match get_ie h t [id] with
  | [] => (h, Err KeyError)
  | c :: _ => (set_val h (ref_of h c) v, Ok tt)
  end.

(* one statement after the other *)
Definition and_then (a : heap * res unit) (f : heap -> heap * res unit) : heap * res unit :=
  match snd a with Ok _ => f (fst a) | Err x => (fst a, Err x) end.
(* an expression, then the rest *)
Definition with_res {A} (h : heap) (r : res A) (f : A -> heap * res unit) : heap * res unit :=
  match r with Ok a => f a | Err x => (h, Err x) end.

(* ------------------------------------------------------------------- FLVersion *)

(* types.py:32-37 *)
Record flversion := FLV { v_major : Z; v_minor : Z; v_patch : Z; v_build : option Z }.
(* FLVersion( *parts ) *)
Definition flversion_of (l : list Z) : res flversion :=
  match l with
  | [a] => Ok (FLV a 0 0 None)
  | [a; b] => Ok (FLV a b 0 None)
  | [a; b; c] => Ok (FLV a b c None)
  | [a; b; c; d] => Ok (FLV a b c (Some d))
  | _ => Err TypeError
  end.
(* dataclass(order=True): the tuples of the fields are compared; None and an int
   are unequal and cannot be ordered *)
Definition ver_cmp (a b : flversion) : res comparison :=
  match v_major a ?= v_major b with
  | Eq => match v_minor a ?= v_minor b with
          | Eq => match v_patch a ?= v_patch b with
                  | Eq => match v_build a, v_build b with
                          | None, None => Ok Eq
                          | Some x, Some y => Ok (x ?= y)
                          | _, _ => Err TypeError
                          end
                  | c => Ok c
                  end
          | c => Ok c
          end
  | c => Ok c
  end.
Definition ver_lt (a b : flversion) : res bool :=
  let* c := ver_cmp a b in Ok (match c with Lt => true | _ => false end).
Definition ver_le (a b : flversion) : res bool :=
  let* c := ver_cmp a b in Ok (match c with Gt => false | _ => true end).

(* int(part) for part in text.split(".") *)
Definition int_parts (s : pystr) : res (list Z) :=
  mapr (fun p => match py_int p with Some z => Ok z | None => Err ValueError end) (split_on 46 s).

(* project.py:506-523 Project.version *)
Definition version_get (h : heap) : res flversion :=
  let* v := first_val h 0 199 in
  match v with
  | VStr s => let* l := int_parts s in flversion_of l
  | _ => Err AttributeError
  end.

(* what can be assigned: an FLVersion, a text or a tuple of ints *)
Inductive version_arg := AVersion (v : flversion) | AText (s : pystr) | AParts (l : list Z).
Definition version_list (a : version_arg) : res (list Z) :=
  match a with
  | AVersion v => Ok ([v_major v; v_minor v; v_patch v] ++
                      match v_build v with Some b => [b] | None => [] end)
  | AText s => int_parts s
  | AParts l => Ok l
  end.
(* project.py:525-545 *)
Definition version_set (h : heap) (a : version_arg) : heap * res unit :=
  if negb (contains h 0 199) then (h, Err PropertyCannotBeSet)
  else
    with_res h (version_list a) (fun parts =>
      if (length parts <? 3)%nat || (4 <? length parts)%nat then (h, Err ValueError)
      else
        and_then (set_first h 0 199 (VStr (join_with 46 (map py_str_int parts)))) (fun h =>
          match parts with
          | [_; _; _; b] => if contains h 0 159 then set_first h 0 159 (VInt b) else (h, Ok tt)
          | _ => (h, Ok tt)
          end)).

(* arrangement.py:538-540 Arrangements.max_tracks; 376 uses the same comparison *)
Definition max_tracks (v : flversion) : res Z :=
  let* b := ver_le (FLV 12 9 1 None) v in Ok (if b then 500 else 199).

(* ----------------------------------------------------------------------- tempo *)

Definition f_neg (x : Z) : Z := if f_sign x then x - 2 ^ 63 else x + 2 ^ 63.
Definition f_sub (x y : Z) : Z := f_add x (f_neg y).
(* 1000.0, 999.0, 522.0, 10.0 *)
Definition f1000 : Z := 4652007308841189376.
Definition f999 : Z := 4651998512748167168.
Definition f522 : Z := 4647802776376573952.
Definition f10 : Z := 4621819117588971520.

(* int / 1000 *)
Definition per_mille (v : val) : res Z :=
  match as_int v with
  | Some z => let x := int_div z 1000 in if f_is_inf x then Err OverflowError else Ok x
  | None => Err TypeError
  end.

(* project.py:434-459; the stored values are ints *)
Definition tempo_get (h : heap) : res val :=
  if contains h 0 156 then
    let* v := first_val h 0 156 in let* x := per_mille v in Ok (VFlt x)
  else
    let* c := if contains h 0 66 then first_val h 0 66 else Ok VNone in
    if contains h 0 93 then
      let* v := first_val h 0 93 in
      let* x := per_mille v in
      match as_int c with
      | Some z => match f_of_int z with Some y => Ok (VFlt (f_add y x)) | None => Err OverflowError end
      | None => Err TypeError
      end
    else Ok c.

(* a tempo to assign: an int or a float; other types are not modelled *)
Inductive num := NInt (z : Z) | NFlt (x : Z).
(* float(value), int(value * 1000), int((value - floor(value)) * 1000), floor(value) *)
Definition num_float (n : num) : res Z :=
  match n with
  | NInt z => match f_of_int z with Some x => Ok x | None => Err OverflowError end
  | NFlt x => Ok x
  end.
Definition num_mille (n : num) : res Z :=
  match n with NInt z => Ok (z * 1000) | NFlt x => f_trunc (f_mul x f1000) end.
Definition num_floor (n : num) : res Z :=
  match n with NInt z => Ok z | NFlt x => f_floor x end.
Definition num_fine (n : num) : res Z :=
  match n with
  | NInt z => Ok ((z - z) * 1000)
  | NFlt x => let* z := f_floor x in
              match f_of_int z with
              | Some y => f_trunc (f_mul (f_sub x y) f1000)
              | None => Err OverflowError
              end
  end.
(* if id in self.events.ids: self.events.first(id).value = r *)
Definition set_if (h : heap) (id : Z) (r : res Z) : heap * res unit :=
  if contains h 0 id then with_res h r (fun z => set_first h 0 id (VInt z)) else (h, Ok tt).

(* project.py:461-481 *)
Definition tempo_max (h : heap) : res Z :=
  let* v := version_get h in
  let* a := ver_le (FLV 1 4 2 None) v in
  let* b := if a then ver_lt v (FLV 11 0 0 None) else Ok false in
  Ok (if b then f999 else f522).
Definition tempo_float_ok (h : heap) (n : num) : res unit :=
  match n with
  | NInt _ => Ok tt
  | NFlt _ => let* v := version_get h in
              let* old := ver_lt v (FLV 3 4 0 None) in
              if old then Err TypeError else Ok tt
  end.
Definition tempo_check (h : heap) (n : num) : res unit :=
  let* t := tempo_get h in
  match t with
  | VNone => Err PropertyCannotBeSet
  | _ =>
      let* m := tempo_max h in
      let* _ := tempo_float_ok h n in
      let* x := num_float n in
      if f_lt m x || f_lt x f10 then Err ValueError else Ok tt
  end.
Definition tempo_set (h : heap) (n : num) : heap * res unit :=
  with_res h (tempo_check h n) (fun _ =>
    and_then (set_if h 156 (num_mille n)) (fun h =>
    and_then (set_if h 93 (num_fine n)) (fun h =>
    set_if h 66 (num_floor n)))).

(* -------------------------------------------------------------------- licensee *)

Section Licensee.
  (* chr(n).isalnum(), for the Unicode tables of the interpreter *)
  Variable alnum : Z -> bool.

  (* project.py:303-311, one character: the byte appended, if any *)
  Definition unjumble (idx c : Z) : res (list Z) :=
    let try (n : Z) (k : res (list Z)) : res (list Z) :=
      if (n <? 0) || (1114111 <? n) then Err ValueError
      else if alnum n then (if n <? 256 then Ok [n] else Err ValueError)
      else k in
    try (c - 26 + idx) (try (c + 49 + idx) (Ok [])).
  Fixpoint unjumble_all (idx : Z) (s : pystr) : res (list Z) :=
    match s with
    | [] => Ok []
    | c :: r => let* a := unjumble idx c in let* b := unjumble_all (idx + 1) r in Ok (a ++ b)
    end.
  (* project.py:289-311 Project.licensee *)
  Definition licensee_get (h : heap) : res val :=
    if contains h 0 200 then
      let* v := first_val h 0 200 in
      match v with
      | VStr s => let* b := unjumble_all 0 s in
                  match ascii_dec b with Some s => Ok (VStr s) | None => Err UnicodeError end
      | _ => Err TypeError
      end
    else Ok VNone.
End Licensee.

(* project.py:321-329 *)
Definition jumble (idx c : Z) : list Z :=
  let c1 := c + 26 - idx in
  let c2 := c - 49 - idx in
  if (0 <? c1) && (c1 <=? 127) then [c1]
  else if (0 <? c2) && (c2 <=? 127) then [c2] else [].
Fixpoint jumble_all (idx : Z) (s : pystr) : list Z :=
  match s with [] => [] | c :: r => jumble idx c ++ jumble_all (idx + 1) r end.
(* project.py:313-330 *)
Definition licensee_set (h : heap) (s : pystr) : heap * res unit :=
  with_res h (let* v := version_get h in ver_lt v (FLV 1 3 9 None)) (fun _ =>
    if contains h 0 200 then set_first h 0 200 (VStr (jumble_all 0 s))
    else (h, Err PropertyCannotBeSet)).

(* ------------------------------------------------------------ values of the header *)

(* Project with its _kw dict *)
Record proj := Proj { pj_heap : heap; pj_channels : Z; pj_format : Z; pj_ppq : Z }.
Definition opened (p : project) : proj :=
  Proj (parsed (pr_events p)) (pr_channel_count p) (pr_format p) (pr_ppq p).
(* __init__.py:176-199 save *)
Definition closed (p : proj) : project :=
  Project (root_events (pj_heap p)) (pj_channels p) (pj_format p) (pj_ppq p).

(* project.py:202-206 *)
Definition channel_count_set (p : proj) (n : Z) : proj * res unit :=
  if n <? 0 then (p, Err ValueError) else (Proj (pj_heap p) n (pj_format p) (pj_ppq p), Ok tt).
(* project.py:411-415 *)
Definition ppq_set (p : proj) (n : Z) : proj * res unit :=
  if mem_Z n valid_ppqs then (Proj (pj_heap p) (pj_channels p) (pj_format p) n, Ok tt)
  else (p, Err ValueError).
(* project.py:247 format, a KWProp (_descriptors.py:172-190) *)
Definition format_set (p : proj) (n : Z) : proj * res unit :=
  (Proj (pj_heap p) (pj_channels p) n (pj_ppq p), Ok tt).
