(* Proofs about replacing plugins. *)
From Coq Require Import String ZArith List Bool Lia Arith.
From Verif Require Import M_Base M_Float M_Text M_Construct M_Structs M_Events M_Parse M_Tree M_Prop M_Project M_Items M_Collections.
From Verif Require Import S_Tree S_Prop S_Project S_Items S_Collections.
From Verif Require Import P_Base P_TreeBase P_Tree P_TreeEdit P_Prop P_Edit P_Project P_Items P_Patterns P_Rack.
Import ListNotations.
Open Scope Z_scope.

(* ------------------------------------------------------------------- one cell *)

Lemma set_ref_lst h c r t : lst_of (set_ref h c r) t = lst_of h t.
Proof. reflexivity. Qed.
Lemma set_ref_ev h c r s : ev_of (set_ref h c r) s = ev_of h s.
Proof. reflexivity. Qed.
Lemma set_ref_nc h c r : nc (set_ref h c r) = nc h.
Proof. unfold nc, set_ref. cbn [h_cells]. apply lset_length. Qed.
Lemma set_ref_cell h c r x : (c < nc h)%nat -> cell_of (set_ref h c r) x = if Nat.eqb x c then Cell (r_of h c) r else cell_of h x.
Proof.
  intros L. unfold cell_of at 1, set_ref. cbn [h_cells]. rewrite nth_lset. replace (c <? length (h_cells h))%nat with true by (symmetry; apply Nat.ltb_lt; exact L).
  rewrite andb_true_r. reflexivity.
Qed.
Lemma set_ref_ref h c r x : (c < nc h)%nat -> ref_of (set_ref h c r) x = if Nat.eqb x c then r else ref_of h x.
Proof. intros L. unfold ref_of. rewrite set_ref_cell by exact L. destruct (Nat.eqb x c); reflexivity. Qed.
Lemma set_ref_r h c r x : (c < nc h)%nat -> r_of (set_ref h c r) x = r_of h x.
Proof. intros L. unfold r_of at 1. rewrite set_ref_cell by exact L. destruct (Nat.eqb_spec x c) as [->|]; reflexivity. Qed.
Lemma e_of_ref h c : e_of h c = ev_of h (ref_of h c). Proof. reflexivity. Qed.

(* ------------------------------------------------------------------ one event id *)

Definition hits (h : heap) (id : Z) (l : list nat) (x : nat) : bool := existsb (Nat.eqb x) l && (id_of h x =? id).

(* cells of the list with the id refer to r afterwards; nothing else changes *)
Definition replaced (h : heap) (id : Z) (l : list nat) (r : nat) (h' : heap) : Prop :=
  h_evs h' = h_evs h /\ h_trees h' = h_trees h /\ nc h' = nc h /\ (forall x, r_of h' x = r_of h x) /\
  forall x, ref_of h' x = if hits h id l x then r else ref_of h x.

Lemma replaced_id h id l r h' x : e_id (ev_of h r) = id -> replaced h id l r h' -> id_of h' x = id_of h x.
Proof.
  intros E (EV & _ & _ & _ & R). unfold id_of at 1. rewrite e_of_ref, R. unfold ev_of. rewrite EV. fold (ev_of h (if hits h id l x then r else ref_of h x)).
  destruct (hits h id l x) eqn:H; [|reflexivity]. unfold hits in H. apply andb_true_iff in H. rewrite E. destruct H as [_ H]. apply Z.eqb_eq in H. now rewrite H.
Qed.

Lemma replace_some u id d : forall l h m, get_ie h u [id] = d :: m -> (forall c, In c l -> (c < nc h)%nat) ->
  exists h', replace_from h u id l = (h', Ok tt) /\ replaced h id l (ref_of h d) h'.
Proof.
  induction l as [|c l IH]; intros h m G B.
  - exists h. split; [reflexivity|]. repeat split.
  - cbn [replace_from]. destruct (Z.eqb_spec (id_of h c) id) as [E|E].
    + rewrite G. assert (Bc : (c < nc h)%nat) by (apply B; now left). set (h1 := set_ref h c (ref_of h d)).
      assert (D : id_of h d = id) by (rewrite get_ie_1 in G; assert (I : In d (filter (fun c => id_of h c =? id) (lst_of h u))) by (rewrite G; now left); apply filter_In in I; apply Z.eqb_eq; tauto).
      assert (I1 : forall x, id_of h1 x = id_of h x).
      { intros x. unfold id_of at 1. rewrite e_of_ref. unfold h1. rewrite set_ref_ref by exact Bc. rewrite set_ref_ev. destruct (Nat.eqb_spec x c) as [->|]; [|reflexivity]. rewrite E. exact D. }
      assert (G1 : get_ie h1 u [id] = d :: m). { rewrite get_ie_1 in *. rewrite <- G. unfold h1. rewrite set_ref_lst. apply filter_ext. intros x. fold h1. now rewrite I1. }
      assert (RD : ref_of h1 d = ref_of h d). { unfold h1. rewrite set_ref_ref by exact Bc. destruct (Nat.eqb_spec d c) as [->|]; reflexivity. }
      destruct (IH h1 m G1) as (h' & R & EV & T & N & RR & X). { intros y I. unfold h1. rewrite set_ref_nc. apply B. now right. }
      exists h'. split; [exact R|]. split; [exact EV|]. split; [exact T|]. split; [rewrite N; apply set_ref_nc|]. split.
      * intros x. rewrite RR. now apply set_ref_r.
      * intros x. rewrite X, RD. unfold hits. rewrite I1. cbn [existsb]. unfold h1. rewrite set_ref_ref by exact Bc. destruct (Nat.eqb_spec x c) as [->|]; cbn [orb andb].
        -- rewrite E, Z.eqb_refl. now destruct (existsb _ l).
        -- reflexivity.
    + destruct (IH h m G) as (h' & R & EV & T & N & RR & X). { intros y I. apply B. now right. }
      exists h'. split; [exact R|]. split; [exact EV|]. split; [exact T|]. split; [exact N|]. split; [exact RR|]. intros x. rewrite X. unfold hits. cbn [existsb].
      destruct (Nat.eqb_spec x c) as [->|]; cbn [orb]; [|reflexivity]. replace (id_of h c =? id) with false by lia. now rewrite !andb_false_r.
Qed.

Lemma replace_none u id : forall l h, get_ie h u [id] = [] ->
  replace_from h u id l = (h, if existsb (fun c => id_of h c =? id) l then Err KeyError else Ok tt).
Proof.
  induction l as [|c l IH]; intros h G; [reflexivity|]. cbn [replace_from existsb]. destruct (id_of h c =? id); [now rewrite G|]. now apply IH.
Qed.

Lemma replaced_get_ie h id l r h' v i : e_id (ev_of h r) = id -> replaced h id l r h' -> get_ie h' v [i] = get_ie h v [i].
Proof.
  intros E R. rewrite !get_ie_1. pose proof (replaced_id h id l r h') as I. destruct R as (EV & T & N & RR & X).
  unfold lst_of, tree_of. rewrite T. apply filter_ext. intros x. rewrite I; [reflexivity|exact E|repeat split; assumption].
Qed.

(* both ids, when the plugin has both events *)
Lemma replace_both h t u d m w n : (forall c, In c (lst_of h t) -> (c < nc h)%nat) ->
  get_ie h u [213] = d :: m -> get_ie h u [212] = w :: n ->
  exists h', and_then (replace_from h u 213 (lst_of h t)) (fun h => replace_from h u 212 (lst_of h t)) = (h', Ok tt) /\
    h_evs h' = h_evs h /\ h_trees h' = h_trees h /\ nc h' = nc h /\ (forall x, r_of h' x = r_of h x) /\
    (forall x, ref_of h' x = if hits h 213 (lst_of h t) x then ref_of h d else if hits h 212 (lst_of h t) x then ref_of h w else ref_of h x) /\
    forall x, id_of h' x = id_of h x.
Proof.
  intros B D W.
  assert (ED : e_id (ev_of h (ref_of h d)) = 213) by (rewrite get_ie_1 in D; assert (I : In d (filter (fun c => id_of h c =? 213) (lst_of h u))) by (rewrite D; now left); apply filter_In in I; apply Z.eqb_eq; exact (proj2 I)).
  assert (EW : e_id (ev_of h (ref_of h w)) = 212) by (rewrite get_ie_1 in W; assert (I : In w (filter (fun c => id_of h c =? 212) (lst_of h u))) by (rewrite W; now left); apply filter_In in I; apply Z.eqb_eq; exact (proj2 I)).
  destruct (replace_some u 213 d (lst_of h t) h m D B) as (h1 & E1 & R1). rewrite E1. cbn [and_then].
  assert (W1 : get_ie h1 u [212] = w :: n) by (rewrite (replaced_get_ie _ _ _ _ _ _ _ ED R1); exact W).
  pose proof (fun x => replaced_id h 213 _ _ h1 x ED R1) as I1. destruct R1 as (EV & T & N & RR & X).
  assert (LT : lst_of h1 t = lst_of h t) by (unfold lst_of, tree_of; now rewrite T).
  destruct (replace_some u 212 w (lst_of h1 t) h1 n W1) as (h' & E2 & R2). { rewrite LT, N. exact B. }
  assert (RW : ref_of h1 w = ref_of h w).
  { rewrite X. unfold hits. replace (id_of h w =? 213) with false; [now rewrite andb_false_r|]. unfold id_of. rewrite e_of_ref, EW. reflexivity. }
  assert (EW1 : e_id (ev_of h1 (ref_of h1 w)) = 212) by (unfold ev_of; rewrite EV, RW; exact EW).
  pose proof (fun x => replaced_id h1 212 _ _ h' x EW1 R2) as I2. destruct R2 as (EV2 & T2 & N2 & RR2 & X2).
  exists h'. split; [exact E2|]. split; [congruence|]. split; [congruence|]. split; [congruence|]. split; [intros x; now rewrite RR2|]. split; [|intros x; now rewrite I2].
  intros x. rewrite X2, RW, X. unfold hits. rewrite I1, LT. destruct (existsb _ _); cbn [andb]; [|reflexivity].
  destruct (Z.eqb_spec (id_of h x) 212) as [Q|]; [rewrite Q; reflexivity|]. reflexivity.
Qed.

(* ------------------------------------------------------------ later assignments *)

(* The cells, trees and the ids of events survive any assignment to a property. *)
Definition same_frame (h h' : heap) : Prop :=
  h_cells h' = h_cells h /\ h_trees h' = h_trees h /\ forall r, e_id (ev_of h' r) = e_id (ev_of h r).
Lemma frame_refl h : same_frame h h. Proof. repeat split. Qed.
Lemma frame_event h r e : e_id e = e_id (ev_of h r) -> same_frame h (set_event h r e).
Proof.
  intros E. repeat split. intros s. unfold ev_of at 1, set_event. cbn [h_evs]. rewrite nth_lset. destruct (Nat.eqb_spec s r) as [->|]; cbn [andb]; [|reflexivity].
  destruct (_ <? _)%nat; [exact E|reflexivity].
Qed.
Lemma frame_val h r v : same_frame h (set_val h r v).
Proof. unfold set_val. now apply frame_event. Qed.
Lemma frame_tg h g k v : same_frame h (fst (tg_set h g k v)).
Proof.
  destruct g as [r|r i]; cbn [tg_set].
  - destruct (struct_set _ _ _); cbn [fst]; [apply frame_val|apply frame_refl].
  - destruct (nth_error _ _) as [[]|]; cbn [fst]; try apply frame_refl. apply frame_event. reflexivity.
Qed.
Lemma frame_flags h g n v : same_frame h (fst (flags_set h g n v)).
Proof. unfold flags_set. destruct (has_items h g); [apply frame_tg|]. destruct g; cbn [fst]; [apply frame_val|apply frame_refl]. Qed.
Lemma frame_prop en h m p v : same_frame h (fst (prop_set en h m p v)).
Proof.
  unfold prop_set. destruct (p_readonly p); [apply frame_refl|]. destruct (get_event h (p_ids p) m) as [[g|]|]; try apply frame_refl.
  unfold target_write. destruct (p_kind p) as [|n|n f mask inv].
  - destruct g; cbn [fst]; [apply frame_val|apply frame_refl].
  - apply frame_tg.
  - match goal with |- context [match ?X with Ok w => _ | Err x => _ end] => destruct X end; [apply frame_flags|apply frame_refl].
Qed.

(* what follows: assignments to any properties, successful or not, any change of an event's
   value, and new views *)
Inductive used (en : env) (h : heap) : heap -> Prop :=
| used_none : used en h h
| used_set : forall h1 m p v, used en h h1 -> used en h (fst (prop_set en h1 m p v))
| used_value : forall h1 r v, used en h h1 -> used en h (set_val h1 r v)
| used_view : forall h1 h2, used en h h1 -> view_op h1 h2 -> used en h h2.

Lemma view_op_ext h h' : view_op h h' -> extends h h'.
Proof.
  intros V. assert (K : forall t inits, extends h (fst (new_trees h t inits))).
  { intros t inits. destruct (new_trees h t inits) as [h1 us] eqn:E. now destruct (new_trees_spec _ _ _ _ _ E). }
  destruct V; unfold divide, group, separate, subtrees; try apply K. unfold subtree. apply new_tree_ext.
Qed.
Lemma used_keeps en h h' : used en h h' -> h_cells h' = h_cells h /\ (exists ts, h_trees h' = h_trees h ++ ts) /\ forall r, e_id (ev_of h' r) = e_id (ev_of h r).
Proof.
  induction 1 as [|h1 m p v U (C & (ts & T) & I)|h1 s v U (C & (ts & T) & I)|h1 h2 U (C & (ts & T) & I) V].
  - repeat split. exists []. now rewrite app_nil_r.
  - destruct (frame_prop en h1 m p v) as (C2 & T2 & I2). split; [congruence|]. split; [exists ts; congruence|]. intros r. now rewrite I2.
  - destruct (frame_val h1 s v) as (C2 & T2 & I2). split; [congruence|]. split; [exists ts; congruence|]. intros r. now rewrite I2.
  - destruct (view_op_ext _ _ V) as (E2 & C2 & (ts2 & T2)). split; [congruence|]. split; [exists (ts ++ ts2); now rewrite T2, T, app_assoc|]. intros r. rewrite <- I. unfold ev_of. now rewrite E2.
Qed.
Lemma used_lst en h h' t : used en h h' -> (t < nt h)%nat -> lst_of h' t = lst_of h t.
Proof.
  intros U L. destruct (used_keeps _ _ _ U) as (_ & (ts & T) & _). unfold lst_of, tree_of. rewrite T, app_nth1; [reflexivity|exact L].
Qed.
Lemma used_ref en h h' c : used en h h' -> ref_of h' c = ref_of h c.
Proof. intros U. destruct (used_keeps _ _ _ U) as (C & _). unfold ref_of, cell_of. now rewrite C. Qed.
Lemma used_id en h h' c : used en h h' -> id_of h' c = id_of h c.
Proof. intros U. unfold id_of. rewrite !e_of_ref, (used_ref _ _ _ _ U). now destruct (used_keeps _ _ _ U) as (_ & _ & ->). Qed.
Lemma used_get_ie en h h' t i : used en h h' -> (t < nt h)%nat -> get_ie h' t [i] = get_ie h t [i].
Proof. intros U L. rewrite !get_ie_1, (used_lst _ _ _ _ U L). apply filter_ext. intros c. now rewrite (used_id _ _ _ _ U). Qed.

Lemma first_of_1 h t i : first_of h t [i] = match get_ie h t [i] with c :: _ => Some (ref_of h c) | [] => None end.
Proof. cbn [first_of]. rewrite contains_get_ie. destruct (get_ie h t [i]); reflexivity. Qed.
