(* C59 looking models up: by index, by name, by slice; C60 children of layers; C61 loop position. *)
From Coq Require Import String ZArith List Bool Lia Arith.
From Verif Require Import M_Base M_Float M_Text M_Construct M_Structs M_Events M_Parse M_Tree M_Prop M_Project M_Items M_Collections.
From Verif Require Import S_Canon S_File S_Domain S_Tree S_Prop S_Project S_Items S_Collections.
From Verif Require Import P_Base P_Null P_TreeBase P_Tree P_TreeEdit P_Prop P_Edit P_Project P_Items P_Patterns P_Views P_Rack P_Mixer P_Arrange.
From Verif Require Import C_Samples C_Patterns C_Mixer C_Arrange.
Import ListNotations.
Open Scope Z_scope.

(* ------------------------------------------------------------------------ C59 *)

Lemma find_model_spec A (f : nat -> A -> res bool) (P : nat -> A -> Prop) : forall l i,
  (forall j x, nth_error l j = Some x -> exists b, f (i + j)%nat x = Ok b /\ (b = true <-> P j x)) ->
  exists o, find_model f i l = Ok o /\ first_match P l o.
Proof.
  induction l as [|x l IH] in P |- *; intros i H; [exists None; split; [reflexivity|intros [|j] y; discriminate]|].
  cbn [find_model]. destruct (H 0%nat x eq_refl) as (b & F & B). rewrite Nat.add_0_r in F. rewrite F. cbn [bind]. destruct b.
  - exists (Some x). split; [reflexivity|]. exists 0%nat. split; [reflexivity|]. split; [now apply B|]. intros j y L. lia.
  - destruct (IH (fun j => P (S j)) (S i)) as (o & E & M).
    { intros j y J. destruct (H (S j) y J) as (b & G & GB). exists b. split; [|exact GB]. rewrite <- G. f_equal. lia. }
    exists o. split; [exact E|]. destruct o as [y|]; cbn [first_match] in *.
    + destruct M as (k & K & PK & BK). exists (S k). split; [exact K|]. split; [exact PK|]. intros [|j] z L Z; [cbn [nth_error] in Z; assert (z = x) by congruence; subst z; intros PX; apply B in PX; discriminate|]. apply (BK j); [lia|exact Z].
    + intros [|j] z Z; [cbn [nth_error] in Z; assert (z = x) by congruence; subst z; intros PX; apply B in PX; discriminate|]. apply (M j z Z).
Qed.
Lemma first_match_index A (l : list A) z o : first_match (fun k _ => Z.of_nat k = z) l o ->
  o = if (0 <=? z) && (z <? zlen l) then nth_error l (Z.to_nat z) else None.
Proof.
  destruct o as [x|]; cbn [first_match].
  - intros (k & K & <- & _). assert (k < length l)%nat by (apply nth_error_Some; congruence). unfold zlen. replace ((0 <=? Z.of_nat k) && (Z.of_nat k <? Z.of_nat (length l))) with true by lia. now rewrite Nat2Z.id.
  - intros N. destruct (Z.leb_spec 0 z) as [L|L]; [|reflexivity]. destruct (Z.ltb_spec z (zlen l)) as [M|M]; [|reflexivity]. cbn [andb].
    destruct (nth_error l (Z.to_nat z)) as [x|] eqn:X; [|reflexivity]. exfalso. apply (N (Z.to_nat z) x X). lia.
Qed.
Lemma ev_get_ok en h t ids : ids <> [] -> exists v, ev_get en h t ids = Ok v.
Proof. intros N. destruct (chosen_total ids (events h t)) as (o & C). unfold ev_get, ev_prop. rewrite (event_prop_get en h t ids VNone false o N C). eauto. Qed.
Lemma same_text_spec s v : same_text s v = true <-> v = VStr s.
Proof.
  unfold same_text. destruct v; try (split; discriminate). destruct (list_Zeqb s s0) eqn:E; [apply list_Zeqb_eq in E; split; congruence|].
  split; [discriminate|]. intros [= ->]. assert (list_Zeqb s s = true) by (now apply list_Zeqb_eq). congruence.
Qed.

(* Patterns and arrangements by index: counted from 0; negative indexes do not count from the
   end as in Python's sequences, but find nothing. *)
Theorem C59_index : forall en h us z,
  pattern_at en h us (KIndex z) = (if (0 <=? z) && (z <? zlen us) then match nth_error us (Z.to_nat z) with Some u => Ok u | None => Err ModelNotFound end else Err ModelNotFound) /\
  arr_at en h us (KIndex z) = pattern_at en h us (KIndex z).
Proof.
  intros en h us z. unfold pattern_at, arr_at. split; [|reflexivity].
  destruct (find_model_spec _ (fun (i : nat) (u : nat) => Ok (Z.of_nat i =? z)) (fun k _ => Z.of_nat k = z) us 0) as (o & E & M).
  { intros j x _. eexists. split; [reflexivity|]. rewrite Z.eqb_eq. reflexivity. }
  rewrite E. cbn [bind]. apply first_match_index in M. rewrite M. destruct ((0 <=? z) && (z <? zlen us)); reflexivity.
Qed.
Print Assumptions C59_index.

(* By name: the first one with exactly that name. *)
Definition named (en : env) (h : heap) (id : Z) (s : pystr) (u : nat) : Prop := ev_get en h u [id] = Ok (VStr s).
Theorem C59_name : forall en h us s,
  exists o o', first_match (fun _ u => named en h 193 s u) us o /\ pattern_at en h us (KName s) = match o with Some u => Ok u | None => Err ModelNotFound end /\
    first_match (fun _ u => named en h 241 s u) us o' /\ arr_at en h us (KName s) = match o' with Some u => Ok u | None => Err ModelNotFound end.
Proof.
  intros en h us s.
  assert (K : forall id, exists o, find_model (fun (_ : nat) u => let* v := ev_get en h u [id] in Ok (same_text s v)) 0 us = Ok o /\ first_match (fun _ u => named en h id s u) us o).
  { intros id. apply find_model_spec. intros j u _. destruct (ev_get_ok en h u [id] ltac:(discriminate)) as (v & V). rewrite V. cbn [bind]. eexists. split; [reflexivity|]. unfold named. rewrite V, same_text_spec. split; congruence. }
  destruct (K 193) as (o & E & M), (K 241) as (o' & E' & M'). exists o, o'. split; [exact M|]. split; [unfold pattern_at; now rewrite E|]. split; [exact M'|]. unfold arr_at. now rewrite E'.
Qed.
Print Assumptions C59_name.

(* The mixer counts from -1: mixer[-1] is the first insert. *)
Theorem C59_mixer : forall en h l k,
  match k with
  | KIndex z => insert_at en h l (KIndex z) =
      if (-1 <=? z) && (z + 1 <? zlen l) then match nth_error l (Z.to_nat (z + 1)) with Some x => Ok x | None => Err ModelNotFound end else Err ModelNotFound
  | KName s => exists o, first_match (fun _ x => named en h 204 s (in_tree x)) l o /\
      insert_at en h l (KName s) = match o with Some x => Ok x | None => Err ModelNotFound end
  end.
Proof.
  intros en h l [z|s]; unfold insert_at.
  - destruct (find_model_spec _ (fun (i : nat) (_ : insert_obj) => Ok (Z.of_nat i =? z + 1)) (fun k _ => Z.of_nat k = z + 1) l 0) as (o & E & M).
    { intros j x _. eexists. split; [reflexivity|]. rewrite Z.eqb_eq. reflexivity. }
    rewrite E. cbn [bind]. apply first_match_index in M. rewrite M. replace (-1 <=? z) with (0 <=? z + 1) by lia. destruct ((0 <=? z + 1) && (z + 1 <? zlen l)); reflexivity.
  - destruct (find_model_spec _ (fun (_ : nat) x => let* v := ev_get en h (in_tree x) [204] in Ok (same_text s v)) (fun _ x => named en h 204 s (in_tree x)) l 0) as (o & E & M).
    { intros j x _. destruct (ev_get_ok en h (in_tree x) [204] ltac:(discriminate)) as (v & V). rewrite V. cbn [bind]. eexists. split; [reflexivity|]. unfold named. rewrite V, same_text_spec. split; congruence. }
    exists o. split; [exact M|]. now rewrite E.
Qed.
Print Assumptions C59_mixer.

(* Slots by index or name.  If iterating raises before a match, that exception is raised. *)
Theorem C59_slot : forall en h l ex k,
  exists o, first_match (fun j x => match k with KIndex z => Z.of_nat j = z | KName s => named en h 203 s (sl_tree x) end) l o /\
    slot_at en h (l, ex) k = match o, ex with Some x, _ => Ok x | None, Some e => Err e | None, None => Err ModelNotFound end.
Proof.
  intros en h l ex k. unfold slot_at. cbn [fst snd].
  match goal with |- context [find_model ?f 0 l] => destruct (find_model_spec _ f (fun j x => match k with KIndex z => Z.of_nat j = z | KName s => named en h 203 s (sl_tree x) end) l 0) as (o & E & M) end.
  { intros j x _. destruct k as [z|s]; [eexists; split; [reflexivity|]; rewrite Z.eqb_eq; reflexivity|].
    destruct (ev_get_ok en h (sl_tree x) [203] ltac:(discriminate)) as (v & V). rewrite V. cbn [bind]. eexists. split; [reflexivity|]. unfold named. rewrite V, same_text_spec. split; congruence. }
  exists o. split; [exact M|]. rewrite E. cbn [bind]. destruct o, ex; reflexivity.
Qed.
Print Assumptions C59_slot.

(* Channels are looked up by their number or by the name displayed: their own, or else the
   internal name. *)
Definition shows (en : env) (h : heap) (u : nat) (s : pystr) : Prop :=
  exists v, ev_get en h u [203; 192] = Ok v /\
    ((v = VNone \/ v = VStr []) /\ ev_get en h u [201] = Ok (VStr s) \/ v = VStr s /\ s <> []).
Definition textual (en : env) (h : heap) (u : nat) : Prop := forall v, ev_get en h u [203; 192] = Ok v -> v = VNone \/ exists s, v = VStr s.
Theorem C59_channel : forall en h l ex k, Forall (fun c => textual en h (ch_tree c)) l ->
  exists o, first_match (fun _ c => match k with
                                     | KIndex z => exists v, ev_get en h (ch_tree c) [64] = Ok v /\ number v z
                                     | KName s => shows en h (ch_tree c) s
                                     end) l o /\
    channel_at en h (l, ex) k = match o, ex with Some x, _ => Ok x | None, Some e => Err e | None, None => Err ChannelNotFound end.
Proof.
  intros en h l ex k F. unfold channel_at. cbn [fst snd].
  match goal with |- context [find_model ?f 0 l] => match goal with |- context [first_match ?P l] => destruct (find_model_spec _ f P l 0) as (o & E & M) end end.
  { intros j x J. apply nth_error_In in J. rewrite Forall_forall in F. specialize (F x J). destruct k as [z|s].
    - destruct (ev_get_ok en h (ch_tree x) [64] ltac:(discriminate)) as (v & V). rewrite V. cbn [bind]. eexists. split; [reflexivity|].
      rewrite same_int_spec. split; [eauto|]. intros (v' & [= <-] & N). exact N.
    - unfold display_name. destruct (ev_get_ok en h (ch_tree x) [203; 192] ltac:(discriminate)) as (v & V). rewrite V. cbn [bind].
      destruct (ev_get_ok en h (ch_tree x) [201] ltac:(discriminate)) as (w & W). rewrite W.
      assert (FV : (falsy v = true /\ (v = VNone \/ v = VStr [])) \/ (falsy v = false /\ v <> VNone /\ v <> VStr [])).
      { destruct (F v V) as [->|([|a r] & ->)]; [left; auto|left; auto|right; repeat split; discriminate]. }
      destruct FV as [(-> & FV)|(-> & F1 & F2)]; cbn [bind]; eexists; (split; [reflexivity|]); rewrite same_text_spec; unfold shows.
      + split; [intros ->; exists v; split; [exact V|]; left; auto|]. intros (v' & E & H). assert (v' = v) by congruence. subst v'. destruct H as [[_ H]|[-> N]]; [congruence|]. destruct FV as [FV|FV]; congruence.
      + split; [intros ->; exists (VStr s); split; [exact V|]; right; split; [reflexivity|congruence]|]. intros (v' & E & H). assert (v' = v) by congruence. subst v'. destruct H as [[[H|H] _]|[H _]]; congruence. }
  exists o. split; [exact M|]. rewrite E. cbn [bind]. destruct o, ex; reflexivity.
Qed.
Print Assumptions C59_channel.

(* Slices of any collection go by position from 0 and an exception of the iterator comes
   through; a bound left out raises TypeError unless there is nothing to look at. *)
Lemma slice_from_spec A : forall (l : list A) i a b, slice_from i l (Some a) (Some b) =
  Ok (map snd (filter (fun x => (a <=? Z.of_nat (fst x)) && (Z.of_nat (fst x) <? b)) (combine (seq i (length l)) l))).
Proof.
  induction l as [|x l IH]; intros i a b; [reflexivity|]. cbn [slice_from length seq combine filter fst]. rewrite IH. cbn [bind].
  destruct ((a <=? Z.of_nat i) && (Z.of_nat i <? b)); reflexivity.
Qed.
Theorem C59_slice : forall A (l : list A) ex,
  (forall a b, 0 <= a -> 0 <= b -> models_slice (l, ex) (Some a) (Some b) = match ex with None => Ok (list_slice l a b) | Some x => Err x end) /\
  (forall a b, a = None \/ b = None -> models_slice (l, ex) a b = match l, ex with [], None => Ok [] | [], Some x => Err x | _, _ => Err TypeError end).
Proof.
  intros A l ex. unfold models_slice. cbn [fst snd]. split.
  - intros a b La Lb. rewrite slice_from_spec. cbn [bind]. destruct ex; [reflexivity|]. exact (slice_spec A l a b La Lb).
  - intros a b H. destruct l as [|x l]; [destruct ex; reflexivity|]. cbn [slice_from]. destruct a, b; try reflexivity. destruct H; discriminate.
Qed.
Print Assumptions C59_slice.

(* In the mixer a slice and an index count differently: mixer[0:1] has the first insert,
   mixer[0] is the second one. *)
Theorem C59_refuted : exists x y, insert_at en0 mixer_h2 mixer_l (KIndex 0) = Ok x /\ models_slice (mixer_l, None) (Some 0) (Some 1) = Ok [y] /\
  in_iid x = 0 /\ in_iid y = -1.
Proof. eexists _, _. split; [vm_compute; reflexivity|]. split; [vm_compute; reflexivity|]. split; reflexivity. Qed.
Print Assumptions C59_refuted.

(* The patterns of the file of C43 by index and name; the second and the first pattern have
   names, the former with the same text. *)
Example C59_case : let us := [2; 3; 4]%nat in
  pattern_at en0 pat_iter us (KIndex 2) = Ok 4%nat /\ pattern_at en0 pat_iter us (KIndex 3) = Err ModelNotFound /\ pattern_at en0 pat_iter us (KIndex (-1)) = Err ModelNotFound /\
  (exists s, named en0 pat_iter 193 s 2 /\ named en0 pat_iter 193 s 4 /\ pattern_at en0 pat_iter us (KName s) = Ok 2%nat) /\
  pattern_at en0 pat_iter us (KName []) = Err ModelNotFound.
Proof.
  cbn zeta. split; [vm_compute; reflexivity|]. split; [vm_compute; reflexivity|]. split; [vm_compute; reflexivity|]. split; [|vm_compute; reflexivity].
  eexists. split; [vm_compute; reflexivity|]. split; vm_compute; reflexivity.
Qed.

(* ------------------------------------------------------------------------ C60 *)

Lemma chan_by_number cs v z : number v z -> chan_by_iid cs v = chan_by_iid cs (VInt z).
Proof.
  intros N. apply number_as in N. unfold chan_by_iid. replace (fun c => same_int (ch_iid c) v) with (fun c => same_int (ch_iid c) (VInt z)); [reflexivity|].
  unfold same_int. cbn [as_int]. rewrite N. reflexivity.
Qed.
Lemma chan_by_missing cs z : (forall c, In c cs -> ~ number (ch_iid c) z) -> chan_by_iid cs (VInt z) = Err KeyError.
Proof.
  intros H. unfold chan_by_iid. destruct (filter _ (rev cs)) as [|c r] eqn:F; [reflexivity|]. exfalso.
  assert (I : In c (filter (fun c => same_int (ch_iid c) (VInt z)) (rev cs))) by (rewrite F; now left). apply filter_In in I. destruct I as [I S].
  apply in_rev in I. apply (H c I). now apply same_int_spec.
Qed.

(* the channel of a number: the last one with it *)
Definition last_of (cs : list chan) (z : Z) (c : chan) : Prop :=
  exists j, nth_error cs j = Some c /\ number (ch_iid c) z /\ forall j' c', (j < j')%nat -> nth_error cs j' = Some c' -> ~ number (ch_iid c') z.
Lemma children_spec seen : forall es,
  Forall (fun e => exists z c, number (e_val e) z /\ In c seen /\ number (ch_iid c) z) es ->
  exists l, length l = length es /\ (forall r, children_from seen (es ++ r) = let '(m, x) := children_from seen r in (l ++ m, x)) /\
    Forall2 (fun e c => exists z, number (e_val e) z /\ last_of seen z c) es l.
Proof.
  induction es as [|e es IH]; intros F.
  - exists []. split; [reflexivity|]. split; [intros r; cbn [app]; now destruct (children_from seen r)|constructor].
  - inversion F as [|? ? (z & c & N & I & C) F']; subst. destruct (IH F') as (l & L & E & M). destruct (chan_by_iid_total seen z c I C) as (d & D).
    exists (d :: l). split; [cbn [length]; now rewrite L|]. split.
    + intros r. cbn [app children_from]. rewrite (chan_by_number _ _ _ N), D, E. destruct (children_from seen r); reflexivity.
    + constructor; [exists z; split; [exact N|]; exact (chan_by_iid_spec _ _ _ D)|exact M].
Qed.

(* When the channels yielded so far have all the numbers a layer lists, iterating the layer gives
   one channel per listed number, the last one with it, in the order listed. *)
Theorem C60_children : forall h seen t, let es := filter (fun e => e_id e =? 94) (events h t) in
  Forall (fun e => exists z c, number (e_val e) z /\ In c seen /\ number (ch_iid c) z) es ->
  exists l, layer_iter h seen t = (l, None) /\ zlen l = layer_len h t /\
    Forall2 (fun e c => exists z, number (e_val e) z /\ last_of seen z c) es l.
Proof.
  intros h seen t es F. destruct (children_spec seen es F) as (l & L & E & M). exists l. unfold layer_iter. rewrite get_value. fold es.
  specialize (E []). rewrite app_nil_r in E. rewrite E. cbn [children_from]. rewrite app_nil_r. split; [reflexivity|]. split; [|exact M].
  unfold layer_len, count, zlen. rewrite L, get_ie_1. unfold es, events. f_equal. clear. induction (lst_of h t) as [|c m IH]; [reflexivity|]. cbn [map filter]. unfold id_of at 1. destruct (e_id (e_of h c) =? 94); cbn [length]; now rewrite IH.
Qed.
Print Assumptions C60_children.

(* At the first listed number no channel has, KeyError is raised after the children before it. *)
Theorem C60_missing : forall h seen t a e b z, filter (fun e => e_id e =? 94) (events h t) = a ++ e :: b ->
  Forall (fun e => exists z c, number (e_val e) z /\ In c seen /\ number (ch_iid c) z) a ->
  number (e_val e) z -> (forall c, In c seen -> ~ number (ch_iid c) z) ->
  exists l, layer_iter h seen t = (l, Some KeyError) /\ Forall2 (fun e c => exists z, number (e_val e) z /\ last_of seen z c) a l.
Proof.
  intros h seen t a e b z F A N M. destruct (children_spec seen a A) as (l & L & E & Q). exists l. unfold layer_iter. rewrite get_value, F, E.
  cbn [children_from]. rewrite (chan_by_number _ _ _ N), (chan_by_missing _ _ M), app_nil_r. split; [reflexivity|exact Q].
Qed.
Print Assumptions C60_missing.

(* A layer listing channels 1, 2 and 1, before them in the rack: after the whole rack has been
   iterated the children are there; while the rack is at the layer (as in rack[0]) they are not. *)
Definition layer_chunks : list chunk :=
  [(199, ver20); (64, [0; 0]); (21, [3]); (94, [1; 0]); (94, [2; 0]); (94, [1; 0]); (145, [0; 0; 0; 0]);
   (64, [1; 0]); (21, [0]); (145, [0; 0; 0; 0]); (64, [2; 0]); (21, [0]); (145, [0; 0; 0; 0]); (231, title16)].
Definition layer_file : bytes := sample layer_chunks.
Definition layer_h1 : heap := fst (channels (parsed (pr_events (load layer_file)))).
Definition layer_h2 : heap := fst (rack_iter layer_h1 1).
Definition layer_cs : list chan := fst (snd (rack_iter layer_h1 1)).
Theorem C60_refuted : is_bytes layer_file /\ parse en0 layer_file = Ok (load layer_file) /\
  (exists c x y, layer_cs = [c; x; y] /\ ch_class c = CLayer /\ layer_len layer_h2 (ch_tree c) = 3 /\
     layer_iter layer_h2 layer_cs (ch_tree c) = ([x; y; x], None) /\
     channel_at en0 layer_h2 (layer_cs, None) (KIndex 0) = Ok c /\ layer_iter layer_h2 [c] (ch_tree c) = ([], Some KeyError)).
Proof.
  destruct (sample_ok layer_chunks ltac:(vm_compute; reflexivity)) as [B _]. split; [exact B|]. split; [vm_compute; reflexivity|].
  eexists _, _, _. split; [vm_compute; reflexivity|]. split; [reflexivity|]. split; [vm_compute; reflexivity|]. split; [vm_compute; reflexivity|]. split; vm_compute; reflexivity.
Qed.
Print Assumptions C60_refuted.

(* ------------------------------------------------------------------------ C61 *)

Lemma lset_lset A : forall (l : list A) i x y, lset (lset l i x) i y = lset l i y.
Proof. induction l as [|a l IH]; intros [|i] x y; cbn [lset]; [reflexivity|reflexivity|reflexivity|now rewrite IH]. Qed.
Lemma set_val_twice h r v w : set_val (set_val h r v) r w = set_val h r w.
Proof.
  unfold set_val, set_event. cbn [h_evs h_cells h_trees]. rewrite lset_lset. f_equal. f_equal. unfold ev_of at 1. cbn [h_evs]. rewrite nth_lset, Nat.eqb_refl.
  destruct (_ <? _)%nat; reflexivity.
Qed.
Definition pl_selection (e : event) (a b : val) : Prop :=
  e_id e = 217 /\ e_kind e = KPLSelection /\ exists d, e_val e = VDict d /\ dget d "start" = Some a /\ dget d "end" = Some b.
Lemma first_217 h t e m : filter (fun e => e_id e =? 217) (events h t) = e :: m ->
  exists c l, get_ie h t [217] = c :: l /\ e_of h c = e /\ contains h t 217 = true /\ value_of 217 (events h t) <> None.
Proof.
  intros F. assert (G : exists c l, get_ie h t [217] = c :: l /\ e_of h c = e).
  { rewrite get_ie_1. unfold events in F. revert F. induction (lst_of h t) as [|c l IH]; [discriminate|]. cbn [map filter].
    change (id_of h c) with (e_id (e_of h c)). destruct (e_id (e_of h c) =? 217); [|exact IH]. intros F. injection F as F _.
    eexists c, _. split; [reflexivity|exact F]. }
  destruct G as (c & l & G & E). exists c, l. split; [exact G|]. split; [exact E|]. split; [now rewrite contains_get_ie, G|]. rewrite value_of_filter, F. discriminate.
Qed.

(* With a playlist selection event the loop position is its start and end; without one, the value
   of the old event; without either, None. *)
Theorem C61_get : forall h t,
  (forall e m a b, filter (fun e => e_id e =? 217) (events h t) = e :: m -> pl_selection e a b -> loop_get h t = Ok (VTup [a; b])) /\
  (value_of 217 (events h t) = None -> loop_get h t = Ok match value_of 152 (events h t) with Some v => v | None => VNone end).
Proof.
  intros h t. unfold loop_get. split.
  - intros e m a b F (_ & K & d & D & A & B). destruct (first_217 _ _ _ _ F) as (c & l & G & E & C & _). rewrite C, G, E. unfold struct_get. rewrite K, D. unfold dindex. rewrite A, B. reflexivity.
  - rewrite !contains_value. intros ->. rewrite first_val_spec. destruct (value_of 152 (events h t)); reflexivity.
Qed.
Print Assumptions C61_get.

(* Assigning: both numbers of the selection are stored and read back, nothing else changes in
   the project. *)
Lemma ref_in h r : e_kind (ev_of h r) = KPLSelection -> (r < length (h_evs h))%nat.
Proof. intros K. destruct (Nat.lt_ge_cases r (length (h_evs h))) as [|G]; [assumption|]. unfold ev_of in K. rewrite nth_overflow in K by exact G. discriminate. Qed.
Lemma ev_set_val h r v : (r < length (h_evs h))%nat -> ev_of (set_val h r v) r = with_val (ev_of h r) v.
Proof. intros L. unfold set_val, set_event, ev_of at 1. cbn [h_evs]. rewrite nth_lset, Nat.eqb_refl. apply Nat.ltb_lt in L. now rewrite L. Qed.
Lemma sel_set e d k a v : e_kind e = KPLSelection -> e_val e = VDict d -> dget d k = Some a -> a <> VNone -> struct_set e k v = Ok (VDict (dset d k v)).
Proof. intros K D A N. unfold struct_set. rewrite K, D, A. destruct a; try congruence; reflexivity. Qed.
Lemma put_first_filter id v : forall l e m, filter (fun e => e_id e =? id) l = e :: m -> filter (fun e => e_id e =? id) (put id v l) = with_val e v :: m.
Proof.
  induction l as [|x l IH]; intros e m F; [discriminate|]. cbn [filter] in F. cbn [put]. destruct (e_id x =? id) eqn:I.
  - cbn [filter with_val e_id]. rewrite I. injection F as -> ->. reflexivity.
  - cbn [filter]. rewrite I. now apply IH.
Qed.
Theorem C61_set : forall evs h t e m d a b x y, evs <> [] -> views (parsed evs) h -> (t < nt h)%nat ->
  filter (fun e => e_id e =? 217) (events h t) = e :: m -> pl_selection e a b -> a <> VNone -> b <> VNone -> e_val e = VDict d ->
  exists h' j, loop_set h t x y = (h', Ok tt) /\ loop_get h' t = Ok (VTup [x; y]) /\
    changed 217 (VDict (dset (dset d "start" x) "end" y)) evs (root_events h') j.
Proof.
  intros evs h t e m d a b x y NE V L F (ID & K & d' & D' & A & B) NA NB D. assert (d' = d) by congruence. subst d'. clear D'. destruct (first_217 _ _ _ _ F) as (c & l & G & E & C & VN).
  set (w := VDict (dset (dset d "start" x) "end" y)).
  destruct (set_first_view evs h t 217 w NE V L VN) as (h' & j & S & SH & CH & EV & _).
  exists h', j. split; [|split; [|exact CH]].
  - rewrite <- S. unfold loop_set, set_first. rewrite C, G. unfold e_of in E. fold (ref_of h c) in E.
    assert (R : (ref_of h c < length (h_evs h))%nat) by (apply ref_in; now rewrite E).
    assert (T : tg_set h (TEvent (ref_of h c)) "start" x = (set_val h (ref_of h c) (VDict (dset d "start" x)), Ok tt)) by (unfold tg_set; rewrite E, (sel_set _ _ _ _ _ K D A NA); reflexivity).
    rewrite T. unfold and_then. cbn [fst snd]. change (ref_of (set_val h (ref_of h c) (VDict (dset d "start" x))) c) with (ref_of h c). unfold tg_set. rewrite ev_set_val by exact R. rewrite E.
    rewrite (sel_set (with_val e (VDict (dset d "start" x))) (dset d "start" x) "end" b y K eq_refl); [|rewrite dget_dset_other by discriminate; exact B|exact NB].
    now rewrite set_val_twice.
  - apply (proj1 (C61_get h' t) (with_val e w) m x y).
    + rewrite EV. now apply put_first_filter.
    + split; [exact ID|]. split; [exact K|]. exists (dset (dset d "start" x) "end" y). split; [reflexivity|]. split; [|apply dget_dset_same].
      rewrite dget_dset_other by discriminate. apply dget_dset_same.
Qed.
Print Assumptions C61_set.

(* The old event takes both numbers at once. *)
Theorem C61_old : forall evs h t x y, evs <> [] -> views (parsed evs) h -> (t < nt h)%nat ->
  value_of 217 (events h t) = None -> value_of 152 (events h t) <> None ->
  exists h' j, loop_set h t x y = (h', Ok tt) /\ loop_get h' t = Ok (VTup [x; y]) /\ changed 152 (VTup [x; y]) evs (root_events h') j.
Proof.
  intros evs h t x y NE V L N O. destruct (set_first_view evs h t 152 (VTup [x; y]) NE V L O) as (h' & j & S & SH & CH & EV & _).
  exists h', j. unfold loop_set. rewrite !contains_value, N. destruct (value_of 152 (events h t)) as [o|] eqn:O2; [|congruence]. split; [exact S|]. split; [|exact CH].
  rewrite (proj2 (C61_get h' t)); rewrite EV.
  - now rewrite value_put, O2.
  - rewrite value_put_other by discriminate. exact N.
Qed.
Print Assumptions C61_old.

(* Without either event nothing is changed and PropertyCannotBeSet is raised. *)
Theorem C61_none : forall h t x y, value_of 217 (events h t) = None -> value_of 152 (events h t) = None ->
  loop_get h t = Ok VNone /\ loop_set h t x y = (h, Err PropertyCannotBeSet).
Proof. intros h t x y A B. unfold loop_get, loop_set. rewrite !contains_value, A, B. split; reflexivity. Qed.
Print Assumptions C61_none.

(* A selection event that ends before its end: the assignment is refused, but the start is
   already changed. *)
Theorem C61_half : forall evs h t e m d a x y, evs <> [] -> views (parsed evs) h -> (t < nt h)%nat ->
  filter (fun e => e_id e =? 217) (events h t) = e :: m -> pl_selection e a VNone -> a <> VNone -> e_val e = VDict d ->
  exists h' j, loop_set h t x y = (h', Err PropertyCannotBeSet) /\ loop_get h' t = Ok (VTup [x; VNone]) /\
    changed 217 (VDict (dset d "start" x)) evs (root_events h') j.
Proof.
  intros evs h t e m d a x y NE V L F (ID & K & d' & D' & A & B) NA D. assert (d' = d) by congruence. subst d'. clear D'. destruct (first_217 _ _ _ _ F) as (c & l & G & E & C & VN).
  destruct (set_first_view evs h t 217 (VDict (dset d "start" x)) NE V L VN) as (h' & j & S & SH & CH & EV & _).
  exists h', j. split; [|split; [|exact CH]].
  - unfold set_first in S. rewrite G in S. injection S as S. unfold loop_set. rewrite C, G. unfold e_of in E. fold (ref_of h c) in E.
    assert (R : (ref_of h c < length (h_evs h))%nat) by (apply ref_in; now rewrite E).
    assert (T : tg_set h (TEvent (ref_of h c)) "start" x = (set_val h (ref_of h c) (VDict (dset d "start" x)), Ok tt)) by (unfold tg_set; rewrite E, (sel_set _ _ _ _ _ K D A NA); reflexivity).
    rewrite T. unfold and_then. cbn [fst snd]. change (ref_of (set_val h (ref_of h c) (VDict (dset d "start" x))) c) with (ref_of h c). unfold tg_set. rewrite ev_set_val by exact R. rewrite E.
    unfold struct_set. cbn [with_val e_kind e_val]. rewrite K. cbn [is_struct_kind is_list_kind negb]. rewrite dget_dset_other by discriminate. rewrite B. now rewrite S.
  - apply (proj1 (C61_get h' t) (with_val e (VDict (dset d "start" x))) m x VNone).
    + rewrite EV. now apply put_first_filter.
    + split; [exact ID|]. split; [exact K|]. exists (dset d "start" x). split; [reflexivity|]. split; [apply dget_dset_same|].
      rewrite dget_dset_other by discriminate. exact B.
Qed.
Print Assumptions C61_half.

(* The loop of an arrangement as FL 20 stores it, and of a file whose selection ends after four
   bytes. *)
Definition loop_chunks (n : nat) : list chunk :=
  [(199, ver20); (64, [0; 0]); (145, [0; 0; 0; 0]); (99, [0; 0]); (217, firstn n [7; 0; 0; 0; 9; 0; 0; 0]); (233, []); (100, [0; 0])].
Definition loop_h (n : nat) : heap := parsed (pr_events (load (sample (loop_chunks n)))).
Example C61_case :
  (is_bytes (sample (loop_chunks 8)) /\ parse en0 (sample (loop_chunks 8)) = Ok (load (sample (loop_chunks 8)))) /\
  (exists e, filter (fun e => e_id e =? 217) (events (loop_h 8) 0) = [e] /\ pl_selection e (VInt 7) (VInt 9)) /\
  (exists e, filter (fun e => e_id e =? 217) (events (loop_h 4) 0) = [e] /\ pl_selection e (VInt 7) VNone) /\
  loop_get (loop_h 8) 0 = Ok (VTup [VInt 7; VInt 9]) /\
  loop_get (fst (loop_set (loop_h 8) 0 (VInt 96) (VInt 192))) 0 = Ok (VTup [VInt 96; VInt 192]).
Proof.
  split; [destruct (sample_ok (loop_chunks 8) ltac:(vm_compute; reflexivity)) as [B _]; split; [exact B|vm_compute; reflexivity]|].
  split; [|split; [|split; vm_compute; reflexivity]].
  - eexists. split; [vm_compute; reflexivity|]. split; [reflexivity|]. split; [reflexivity|]. eexists. split; [reflexivity|]. split; reflexivity.
  - eexists. split; [vm_compute; reflexivity|]. split; [reflexivity|]. split; [reflexivity|]. eexists. split; [reflexivity|]. split; reflexivity.
Qed.
