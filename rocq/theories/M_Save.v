(* pyflp/__init__.py:176-199 save, as seen from the destination file.  No proofs. *)
From Coq Require Import String ZArith List Bool.
From Verif Require Import M_Base M_Events M_Parse.
Import ListNotations.
Open Scope Z_scope.

(* Contents of the destination; None: no such file. *)
Definition disk := option bytes.

(* fp.write hands the buffer to the operating system in one or more pieces;
   [sizes]: how much each call takes, the rest goes in a last piece. *)
Fixpoint pieces (sizes : list nat) (buf : bytes) : list bytes :=
  match sizes with
  | [] => [buf]
  | n :: r => firstn n buf :: pieces r (skipn n buf)
  end.
Fixpoint appends (acc : bytes) (ps : list bytes) : list disk :=
  match ps with
  | [] => []
  | p :: r => Some (acc ++ p) :: appends (acc ++ p) r
  end.

(* __init__.py:187-199: the states of the destination in order, and the outcome.
   open(file, "wb") creates or empties the file. *)
Definition save_states (en : env) (p : project) (old : disk) (sizes : list nat)
  : list disk * res unit :=
  match serialise en p with
  | Err e => ([old], Err e)
  | Ok buf => (old :: Some [] :: appends [] (pieces sizes buf), Ok tt)
  end.
