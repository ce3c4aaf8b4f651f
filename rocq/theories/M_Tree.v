(* Event trees: the mutable views of pyflp/_events.py 387-607 over a heap of
   shared [IndexedEvent] objects.

   Object identity matters here (a view holds the *same* IndexedEvent objects
   as its parent until something is inserted), so the model is a small heap:
   cells are IndexedEvent objects, trees are EventTree objects and events are
   the event objects; references are natural numbers. *)
From Coq Require Import String ZArith List Bool.
From Verif Require Import M_Base M_Events.
Import ListNotations.
Open Scope Z_scope.

(* _events.py:387-394 IndexedEvent: root index and a reference to the event.
   dataclass(order=True) with compare=False on [e]: equality and order only
   look at [r]. *)
Record cell := Cell { c_r : Z; c_e : nat }.

(* _events.py:408-435 EventTree attributes. [children] is left out: nothing in
   the library reads it. *)
Record tree := Tree { t_parent : option nat; t_root : nat; t_lst : list nat }.

Record heap := Heap {
  h_evs : list event;
  h_cells : list cell;
  h_trees : list tree
}.

(* an object reference that does not exist is impossible in Python; the
   defaults below are never reached from [parsed] (P_Tree, [wf]) *)
Definition no_event : event := Event 0 KUnknown 0 false VNone.
Definition no_cell : cell := Cell 0 0.
Definition no_tree : tree := Tree None 0 [].

Definition ev_of (h : heap) (i : nat) : event := nth i (h_evs h) no_event.
Definition cell_of (h : heap) (c : nat) : cell := nth c (h_cells h) no_cell.
Definition tree_of (h : heap) (t : nat) : tree := nth t (h_trees h) no_tree.

Definition r_of (h : heap) (c : nat) : Z := c_r (cell_of h c).
Definition e_of (h : heap) (c : nat) : event := ev_of h (c_e (cell_of h c)).
Definition id_of (h : heap) (c : nat) : Z := e_id (e_of h c).
Definition lst_of (h : heap) (t : nat) : list nat := t_lst (tree_of h t).

Definition set_r (h : heap) (c : nat) (r : Z) : heap :=
  Heap (h_evs h) (lset (h_cells h) c (Cell r (c_e (cell_of h c)))) (h_trees h).
Definition set_lst (h : heap) (t : nat) (l : list nat) : heap :=
  Heap (h_evs h) (h_cells h)
    (lset (h_trees h) t (Tree (t_parent (tree_of h t)) (t_root (tree_of h t)) l)).
Definition set_event (h : heap) (i : nat) (e : event) : heap :=
  Heap (lset (h_evs h) i e) (h_cells h) (h_trees h).
Definition new_event (h : heap) (e : event) : heap * nat :=
  (Heap (h_evs h ++ [e]) (h_cells h) (h_trees h), length (h_evs h)).
Definition new_cell (h : heap) (r : Z) (e : nat) : heap * nat :=
  (Heap (h_evs h) (h_cells h ++ [Cell r e]) (h_trees h), length (h_cells h)).

(* ------------------------------------------------- sortedcontainers.SortedList
   (third party) as used here. One sublist is modelled; the library splits a
   list above 2000 elements, which on sorted contents makes no difference. *)

(* bisect.bisect_right / bisect_left, on the keys *)
Fixpoint bisect_r (fuel : nat) (ks : list Z) (x : Z) (lo hi : nat) : nat :=
  match fuel with
  | O => lo
  | S fuel =>
      if Nat.ltb lo hi then
        let mid := Nat.div2 (lo + hi) in
        if x <? nth mid ks 0 then bisect_r fuel ks x lo mid
        else bisect_r fuel ks x (S mid) hi
      else lo
  end.
Fixpoint bisect_l (fuel : nat) (ks : list Z) (x : Z) (lo hi : nat) : nat :=
  match fuel with
  | O => lo
  | S fuel =>
      if Nat.ltb lo hi then
        let mid := Nat.div2 (lo + hi) in
        if nth mid ks 0 <? x then bisect_l fuel ks x (S mid) hi
        else bisect_l fuel ks x lo mid
      else lo
  end.
Definition bisect_right (ks : list Z) (x : Z) : nat :=
  bisect_r (length ks) ks x 0 (length ks).
Definition bisect_left (ks : list Z) (x : Z) : nat :=
  bisect_l (length ks) ks x 0 (length ks).

Definition insert_at {A} (n : nat) (x : A) (l : list A) : list A :=
  firstn n l ++ x :: skipn n l.
Definition delete_at {A} (n : nat) (l : list A) : list A :=
  firstn n l ++ skipn (S n) l.

(* SortedList.add: append when not below the current maximum, else insort *)
Definition sl_add (h : heap) (l : list nat) (c : nat) : list nat :=
  let ks := map (r_of h) l in
  match l with
  | [] => [c]
  | _ => if r_of h c <? last ks 0 then insert_at (bisect_right ks (r_of h c)) c l
         else l ++ [c]
  end.

(* SortedList.remove: ValueError when no element compares equal *)
Definition sl_remove (h : heap) (l : list nat) (c : nat) : res (list nat) :=
  let ks := map (r_of h) l in
  match l with
  | [] => Err ValueError
  | _ => if last ks 0 <? r_of h c then Err ValueError
         else let i := bisect_left ks (r_of h c) in
              if nth i ks 0 =? r_of h c then Ok (delete_at i l) else Err ValueError
  end.

(* SortedList(iterable): sorted(iterable), a stable sort *)
Fixpoint ins_sorted (key : nat -> Z) (c : nat) (l : list nat) : list nat :=
  match l with
  | [] => [c]
  | d :: r => if key c <=? key d then c :: d :: r else d :: ins_sorted key c r
  end.
Fixpoint sl_init (key : nat -> Z) (l : list nat) : list nat :=
  match l with [] => [] | c :: r => ins_sorted key c (sl_init key r) end.

(* ------------------------------------------------------------------ EventTree *)

(* _events.py:431-434 / 464-470: the ancestors of a tree, itself first. [fuel]
   bounds the depth; the number of trees always suffices (P_Tree). *)
Fixpoint chain_fuel (fuel : nat) (h : heap) (t : nat) : list nat :=
  match fuel with
  | O => [t]
  | S fuel => t :: match t_parent (tree_of h t) with
                   | Some p => chain_fuel fuel h p
                   | None => []
                   end
  end.
Definition chain (h : heap) (t : nat) : list nat :=
  chain_fuel (length (h_trees h)) h t.

(* _events.py:419-435 EventTree.__init__; note [parent or self]: an empty
   topmost ancestor is falsy *)
Definition new_tree (h : heap) (parent : option nat) (init : list nat) : heap * nat :=
  let self := length (h_trees h) in
  let lst := sl_init (r_of h) init in
  let root := match parent with
              | None => self
              | Some p => let top := last (chain h p) p in
                          match lst_of h top with [] => self | _ => top end
              end in
  (Heap (h_evs h) (h_cells h) (h_trees h ++ [Tree parent root lst]), self).

(* several views of one tree, created one after the other *)
Fixpoint new_trees (h : heap) (parent : nat) (inits : list (list nat))
  : heap * list nat :=
  match inits with
  | [] => (h, [])
  | i :: r => let '(h1, t) := new_tree h (Some parent) i in
              let '(h2, ts) := new_trees h1 parent r in
              (h2, t :: ts)
  end.

(* __init__.py:166-169: the tree of a parsed project (tree 0) *)
Fixpoint cells_from (n : nat) (k : nat) : list cell :=
  match k with O => [] | S k => Cell (Z.of_nat n) n :: cells_from (S n) k end.
Definition parsed (evs : list event) : heap :=
  fst (new_tree (Heap evs (cells_from 0 (length evs)) []) None
         (seq 0 (length evs))).

(* _events.py:451-452 __iter__ *)
Definition events (h : heap) (t : nat) : list event := map (e_of h) (lst_of h t).

(* _events.py:435-437 __contains__ *)
Definition contains (h : heap) (t : nat) (id : Z) : bool :=
  existsb (fun c => id_of h c =? id) (lst_of h t).

(* _events.py:439-445 __eq__ *)
Definition tree_eqb (h1 h2 : heap) (t1 t2 : nat) : bool :=
  list_Zeqb (map (r_of h1) (lst_of h1 t1)) (map (r_of h2) (lst_of h2 t2)).

(* _events.py:460-461 _get_ie *)
Definition get_ie (h : heap) (t : nat) (ids : list Z) : list nat :=
  filter (fun c => mem_Z (id_of h c) ids) (lst_of h t).

(* _events.py:475-477 count *)
Definition count (h : heap) (t : nat) (id : Z) : Z := zlen (get_ie h t [id]).

(* _events.py:507-509 get; 496-503 first *)
Definition get (h : heap) (t : nat) (ids : list Z) : list event :=
  filter (fun e => mem_Z (e_id e) ids) (events h t).
Definition first (h : heap) (t : nat) (id : Z) : res event :=
  match get h t [id] with [] => Err KeyError | e :: _ => Ok e end.

(* _events.py:479-494 divide: the lists handed to the new trees *)
Fixpoint divide_lists (h : heap) (sep : Z) (ids : list Z)
    (l el : list nat) (first : bool) : list (list nat) :=
  match l with
  | [] => [el]
  | c :: r =>
      let '(out, el, first) :=
        if id_of h c =? sep then
          if first then ([], el, false) else ([el], [], first)
        else ([], el, first) in
      let el := if mem_Z (id_of h c) ids then el ++ [c] else el in
      out ++ divide_lists h sep ids r el first
  end.
Definition divide (h : heap) (t : nat) (sep : Z) (ids : list Z) : heap * list nat :=
  new_trees h t (divide_lists h sep ids (lst_of h t) [] true).

(* _events.py:511-515 group: zip_longest over the per-id streams, None dropped *)
Fixpoint zip_longest (fuel : nat) (ls : list (list nat)) : list (list nat) :=
  match fuel with
  | O => []
  | S fuel =>
      match concat (map (fun l => firstn 1 l) ls) with
      | [] => []
      | row => row :: zip_longest fuel (map (fun l => skipn 1 l) ls)
      end
  end.
Definition group (h : heap) (t : nat) (ids : list Z) : heap * list nat :=
  new_trees h t
    (zip_longest (S (length (lst_of h t))) (map (fun id => get_ie h t [id]) ids)).

(* _events.py:548-551 separate *)
Definition separate (h : heap) (t : nat) (id : Z) : heap * list nat :=
  new_trees h t (map (fun c => [c]) (get_ie h t [id])).

(* _events.py:553-566 subtree. The callback may keep state ([nonlocal]
   variables in the callers), so it is a state transformer. *)
Fixpoint select_list {S} (h : heap) (sel : S -> event -> S * option bool) (s : S)
    (l : list nat) : list nat :=
  match l with
  | [] => []
  | c :: r => let '(s, a) := sel s (e_of h c) in
              match a with
              | Some true => c :: select_list h sel s r
              | _ => select_list h sel s r
              end
  end.
Definition subtree {S} (h : heap) (t : nat) (sel : S -> event -> S * option bool)
    (s : S) : heap * nat :=
  new_tree h (Some t) (select_list h sel s (lst_of h t)).

(* _events.py:568-592 subtrees *)
Fixpoint subtrees_lists {S} (h : heap) (sel : S -> event -> S * option bool) (s : S)
    (repeat : Z) (l el : list nat) : list (list nat) :=
  match l with
  | [] => []
  | c :: r =>
      if repeat =? 0 then []
      else
        let '(s, a) := sel s (e_of h c) in
        match a with
        | Some false => el :: subtrees_lists h sel s (repeat - 1) r [c]
        | Some true => subtrees_lists h sel s repeat r (el ++ [c])
        | None => subtrees_lists h sel s repeat r el
        end
  end.
Definition subtrees {S} (h : heap) (t : nat) (sel : S -> event -> S * option bool)
    (s : S) (repeat : Z) : heap * list nat :=
  new_trees h t (subtrees_lists h sel s repeat (lst_of h t) []).

(* list[i] in Python: negative indexes count from the end *)
Definition py_nth {A} (l : list A) (i : Z) : res A :=
  let i := if i <? 0 then i + zlen l else i in
  if i <? 0 then Err IndexError
  else match nth_error l (Z.to_nat i) with Some x => Ok x | None => Err IndexError end.

(* _events.py:598-601 indexes, as sorted by insert: a set, so no duplicates *)
Fixpoint set_add (x : Z) (l : list Z) : list Z :=
  match l with
  | [] => [x]
  | y :: r => if x <? y then x :: y :: r else if x =? y then y :: r else y :: set_add x r
  end.
Definition sorted_indexes (h : heap) (t : nat) : list Z :=
  fold_right set_add [] (map (r_of h) (lst_of h t)).

(* _events.py:523-525: shift one IndexedEvent of the root *)
Definition shift_up (x : Z) (h : heap) (c : nat) : heap :=
  if x <=? r_of h c then set_r h c (r_of h c + 1) else h.
(* _events.py:538-540; the comparand [ie.r] is read again for every element *)
Definition shift_down (ie : nat) (h : heap) (c : nat) : heap :=
  if r_of h ie <=? r_of h c then set_r h c (r_of h c - 1) else h.

(* _events.py:527: every tree of the chain gets an IndexedEvent of its own *)
Definition add_new (r : Z) (e : nat) (h : heap) (t : nat) : heap :=
  let '(h1, c) := new_cell h r e in
  set_lst h1 t (sl_add h1 (lst_of h1 t) c).

(* _events.py:517-527 insert; [e] is a reference to an event object *)
Definition insert (h : heap) (t : nat) (pos : Z) (e : nat) : heap * res unit :=
  match (match lst_of h t with
         | [] => Ok 0
         | _ => py_nth (sorted_indexes h t) pos
         end) with
  | Err x => (h, Err x)
  | Ok r =>
      let h1 := fold_left (shift_up r) (lst_of h (t_root (tree_of h t))) h in
      (fold_left (add_new r e) (chain h t) h1, Ok tt)
  end.

(* _events.py:471-473 append *)
Definition append (h : heap) (t : nat) (e : nat) : heap * res unit :=
  insert h t (zlen (lst_of h t)) e.

(* _events.py:535: lst.remove(ie) on every tree of the chain; an exception
   leaves the trees before it changed *)
Fixpoint remove_chain (h : heap) (ts : list nat) (ie : nat) : heap * res unit :=
  match ts with
  | [] => (h, Ok tt)
  | t :: r => match sl_remove h (lst_of h t) ie with
              | Ok l => remove_chain (set_lst h t l) r ie
              | Err x => (h, Err x)
              end
  end.

(* _events.py:529-542 pop *)
Definition pop (h : heap) (t : nat) (id pos : Z) : heap * res nat :=
  if negb (contains h t id) then (h, Err KeyError)
  else match py_nth (get_ie h t [id]) pos with
       | Err x => (h, Err x)
       | Ok ie =>
           let '(h1, a) := remove_chain h (chain h t) ie in
           match a with
           | Err x => (h1, Err x)
           | Ok _ =>
               (fold_left (shift_down ie) (lst_of h1 (t_root (tree_of h1 t))) h1,
                Ok (c_e (cell_of h1 ie)))
           end
       end.

(* __init__.py:176-199 save serialises the events of the project's tree *)
Definition root_events (h : heap) : list event := events h 0.
