(* What a user expects of event trees, in terms of plain lists.  Independent of
   the heap model in M_Tree. *)
From Coq Require Import String ZArith List Bool.
From Verif Require Import M_Base M_Events.
Import ListNotations.
Open Scope Z_scope.

(* [a] is obtained from [b] by deleting elements *)
Inductive subseq {A} : list A -> list A -> Prop :=
| sub_nil : forall l, subseq [] l
| sub_keep : forall x a b, subseq a b -> subseq (x :: a) (x :: b)
| sub_skip : forall x a b, subseq a b -> subseq a (x :: b).

(* Python's meaning of an index into a sequence of [n] elements *)
Definition norm_index (n i : Z) : option nat :=
  if (0 <=? i) && (i <? n) then Some (Z.to_nat i)
  else if (- n <=? i) && (i <? 0) then Some (Z.to_nat (i + n))
  else None.

(* positions of the events with an id *)
Fixpoint positions (id : Z) (n : nat) (l : list event) : list nat :=
  match l with
  | [] => []
  | e :: r => if e_id e =? id then n :: positions id (S n) r
              else positions id (S n) r
  end.

(* editing a list of events *)
Inductive edit :=
| Insert (pos : Z) (e : event)
| Pop (id k : Z).

Definition list_edit (l : list event) (o : edit) : list event * res (option event) :=
  match o with
  | Insert pos e =>
      match l with
      | [] => ([e], Ok None)
      | _ => match norm_index (zlen l) pos with
             | Some i => (firstn i l ++ e :: skipn i l, Ok None)
             | None => (l, Err IndexError)
             end
      end
  | Pop id k =>
      match positions id 0 l with
      | [] => (l, Err KeyError)
      | ps => match norm_index (zlen ps) k with
              | None => (l, Err IndexError)
              | Some j => let i := nth j ps 0%nat in
                          (firstn i l ++ skipn (S i) l, Ok (nth_error l i))
              end
      end
  end.

Fixpoint list_edits (l : list event) (os : list edit)
  : list event * list (res (option event)) :=
  match os with
  | [] => (l, [])
  | o :: r => let '(l1, a) := list_edit l o in
              let '(l2, b) := list_edits l1 r in (l2, a :: b)
  end.

(* consecutive integers *)
Fixpoint upto (n : Z) (k : nat) : list Z :=
  match k with O => [] | S k => n :: upto (n + 1) k end.

(* [l] cut in pieces, a piece starting at every element with [cut] except that
   the first piece also absorbs the first such element. *)
Definition cut_pieces {A} (cut : A -> bool) (l : list A) (ps : list (list A)) : Prop :=
  concat ps = l /\
  match ps with
  | [] => False
  | p0 :: r =>
      (exists a b, p0 = a ++ b /\ forallb (fun x => negb (cut x)) a = true /\
         match b with
         | [] => r = []
         | x :: b' => cut x = true /\ forallb (fun x => negb (cut x)) b' = true
         end) /\
      Forall (fun p => exists x p', p = x :: p' /\ cut x = true /\
                forallb (fun x => negb (cut x)) p' = true) r
  end.

(* answers of a callback on a list of events, threading its state *)
Fixpoint answers {S} (sel : S -> event -> S * option bool) (s : S) (l : list event)
  : list (option bool) :=
  match l with
  | [] => []
  | e :: r => let '(s1, a) := sel s e in a :: answers sel s1 r
  end.
