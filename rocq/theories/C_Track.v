(* C84 a track as a sequence of its items. *)
From Coq Require Import String ZArith List Bool Lia Arith Sorting.Sorted.
From Verif Require Import M_Base M_Float M_Text M_Construct M_Structs M_Events M_Parse M_Tree M_Prop M_Project M_Items M_Collections M_Track.
From Verif Require Import S_Canon S_File S_Domain S_Tree S_Prop S_Project S_Items S_Collections S_Track.
From Verif Require Import P_Base P_TreeBase P_Tree P_Arrange P_Track.
From Verif Require Import C_Samples C_Arrange.
Import ListNotations.
Open Scope Z_scope.

(* track[i] is the item iterating yields at that place, negative places counting from the end;
   IndexError otherwise. *)
Theorem C84_index : forall t z,
  match norm_index (track_len t) z with
  | Some k => exists x, nth_error (track_iter t) k = Some x /\ track_get t (IInt z) = Ok (One x)
  | None => track_get t (IInt z) = Err IndexError
  end.
Proof.
  intros t z. unfold track_len, track_iter, track_get, py_nth, norm_index. set (l := tr_items t). pose proof (Zle_0_nat (length l)) as N. fold (zlen l) in N.
  destruct (Z.ltb_spec z 0) as [L|L].
  - replace (0 <=? z) with false by lia. cbn [andb]. destruct (Z.leb_spec (- zlen l) z) as [H|H]; cbn [andb].
    + replace (z + zlen l <? 0) with false by lia. destruct (nth_error l (Z.to_nat (z + zlen l))) as [x|] eqn:E; [exists x; split; reflexivity|].
      apply nth_error_None in E. unfold zlen in *. lia.
    + replace (z + zlen l <? 0) with true by lia. reflexivity.
  - replace (0 <=? z) with true by lia. replace (z <? 0) with false by lia. cbn [andb]. rewrite andb_false_r. destruct (Z.ltb_spec z (zlen l)) as [H|H].
    + destruct (nth_error l (Z.to_nat z)) as [x|] eqn:E; [exists x; split; reflexivity|]. apply nth_error_None in E. unfold zlen in *. lia.
    + destruct (nth_error l (Z.to_nat z)) as [x|] eqn:E; [|reflexivity]. assert (Z.to_nat z < length l)%nat by (apply nth_error_Some; congruence). unfold zlen in *. lia.
Qed.
Print Assumptions C84_index.

(* track[a:b:s] has the items at the positions meant, upwards or downwards; a step of 0 raises. *)
Theorem C84_slice : forall t a b step, let s := match step with Some s => s | None => 1 end in
  (s = 0 -> track_get t (ISlice a b step) = Err ValueError) /\
  (s <> 0 -> exists l ps, track_get t (ISlice a b step) = Ok (Many l) /\
     map Some l = map (fun p => nth_error (track_iter t) (Z.to_nat p)) ps /\
     (forall p, In p ps <-> in_slice (track_len t) a b s p) /\
     (0 < s -> StronglySorted Z.lt ps) /\ (s < 0 -> StronglySorted Z.gt ps)).
Proof.
  intros t a b step s. unfold track_get, py_slice. fold (track_len t). assert (N : 0 <= track_len t) by apply Zle_0_nat.
  destruct (slice_indices (track_len t) a b step) as [[[x st] k]|e] eqn:E.
  - destruct (indices_meant _ _ _ _ _ _ _ N E) as (ES & NZ & IN). fold s in ES. subst st. split; [intros Z0; congruence|]. intros _. cbn [bind].
    exists (pick (tr_items t) x s (Z.to_nat k)), (stepping x s (Z.to_nat k)). split; [reflexivity|]. split.
    + apply pick_stepping. intros p I. apply IN in I. apply I.
    + split; [exact IN|]. apply stepping_sorted.
  - unfold slice_indices in E. fold s in E. destruct (Z.eqb_spec s 0) as [Z0|NZ]; [|discriminate]. split; [intros _; cbn [bind]; congruence|congruence].
Qed.
Print Assumptions C84_slice.

(* Nothing else raises: an int out of range, a step of 0, and something that is neither an int
   nor a slice nor a text. *)
Theorem C84_raises : forall t i x, track_get t i = Err x <->
  (exists z, i = IInt z /\ (z < - track_len t \/ track_len t <= z) /\ x = IndexError) \/
  (exists a b, i = ISlice a b (Some 0) /\ x = ValueError) \/
  (i = IOther /\ x = TypeError).
Proof.
  intros t i x. assert (N : 0 <= track_len t) by apply Zle_0_nat. destruct i as [z|a b step|s|].
  - pose proof (C84_index t z) as H. unfold norm_index in H. split.
    + intros E. left. exists z. split; [reflexivity|]. destruct (_ && _) eqn:B1 in H; [destruct H as (y & _ & H); congruence|]. destruct (_ && _) eqn:B2 in H; [destruct H as (y & _ & H); congruence|].
      split; [lia|congruence].
    + intros [(y & E & R & ->)|[(a & b & E & _)|[E _]]]; try discriminate. injection E as <-.
      destruct (_ && _) eqn:B1 in H; [exfalso; lia|]. destruct (_ && _) eqn:B2 in H; [exfalso; lia|exact H].
  - destruct (C84_slice t a b step) as [H0 H1]. cbv zeta in H0, H1. split.
    + intros E. right. left. destruct (Z.eq_dec (match step with Some s => s | None => 1 end) 0) as [Z0|NZ].
      * exists a, b. destruct step as [s|]; [subst s|discriminate]. split; [reflexivity|]. specialize (H0 eq_refl). congruence.
      * destruct (H1 NZ) as (l & ps & H & _). congruence.
    + intros [(y & E & _)|[(a' & b' & E & ->)|[E _]]]; try discriminate. injection E as -> -> ->. now apply H0.
  - split; [discriminate|]. intros [(y & E & _)|[(a & b & E & _)|[E _]]]; discriminate.
  - split; [intros E; injection E as <-; right; right; split; reflexivity|]. intros [(y & E & _)|[(a & b & E & _)|[_ ->]]]; [discriminate|discriminate|reflexivity].
Qed.
Print Assumptions C84_raises.

Lemma pick_up A (l : list A) : forall k a, pick l (Z.of_nat a) 1 k = firstn k (skipn a l).
Proof.
  induction k as [|k IH]; intros a; [reflexivity|]. cbn [pick]. rewrite Nat2Z.id. replace (Z.of_nat a + 1) with (Z.of_nat (S a)) by lia. rewrite IH. clear IH.
  revert a. induction l as [|y l IH]; intros [|a]; try reflexivity. cbn [nth_error skipn]. exact (IH a).
Qed.
Lemma firstn_last A (l : list A) : forall k x, nth_error l k = Some x -> firstn (S k) l = firstn k l ++ [x].
Proof. induction l as [|y l IH]; intros [|k] x E; try discriminate; cbn [nth_error firstn app] in *; [congruence|]. f_equal. now apply (IH k). Qed.
Lemma pick_down A (l : list A) : forall k, (k <= length l)%nat -> pick l (Z.of_nat k - 1) (-1) k = rev (firstn k l).
Proof.
  induction k as [|k IH]; intros L; [reflexivity|]. cbn [pick]. replace (Z.of_nat (S k) - 1) with (Z.of_nat k) by lia. rewrite Nat2Z.id.
  destruct (nth_error l k) as [x|] eqn:E; [|apply nth_error_None in E; lia]. rewrite (firstn_last _ _ _ _ E), rev_app_distr. cbn [rev app]. f_equal. apply IH. lia.
Qed.

(* In particular track[:] has all items, track[::-1] all of them backwards, and track[a:b] those
   from a on, up to b. *)
Theorem C84_plain : forall t,
  track_get t (ISlice None None None) = Ok (Many (track_iter t)) /\
  track_get t (ISlice None None (Some (-1))) = Ok (Many (rev (track_iter t))) /\
  forall a b, (a <= b)%nat -> (b <= length (track_iter t))%nat ->
    track_get t (ISlice (Some (Z.of_nat a)) (Some (Z.of_nat b)) None) = Ok (Many (firstn (b - a) (skipn a (track_iter t)))).
Proof.
  intros t. unfold track_get, py_slice, slice_indices, track_iter. set (l := tr_items t). assert (N : 0 <= zlen l) by apply Zle_0_nat. split; [|split].
  - change (1 =? 0) with false. change (1 <? 0) with false. cbv iota. replace (if 0 <? zlen l then (zlen l - 0 - 1) / 1 + 1 else 0) with (zlen l) by (rewrite Z.div_1_r; destruct (Z.ltb_spec 0 (zlen l)); lia).
    cbn [bind]. pose proof (pick_up _ l (Z.to_nat (zlen l)) 0) as P. change (Z.of_nat 0) with 0 in P. rewrite P. unfold zlen. rewrite Nat2Z.id. cbn [skipn]. now rewrite firstn_all.
  - change (-1 =? 0) with false. change (-1 <? 0) with true. cbv iota. replace (if -1 <? zlen l - 1 then (zlen l - 1 - -1 - 1) / - -1 + 1 else 0) with (zlen l)
      by (change (- -1) with 1; rewrite Z.div_1_r; destruct (Z.ltb_spec (-1) (zlen l - 1)); lia).
    cbn [bind]. unfold zlen at 1 2. rewrite Nat2Z.id, pick_down by lia. now rewrite firstn_all.
  - intros a b AB BL. change (1 =? 0) with false. replace (Z.of_nat a <? 0) with false by lia. replace (Z.of_nat b <? 0) with false by lia. change (1 <? 0) with false. cbv iota.
    assert (A : (if zlen l <=? Z.of_nat a then zlen l else Z.of_nat a) = Z.of_nat a) by (unfold zlen; destruct (Z.leb_spec (Z.of_nat (length l)) (Z.of_nat a)); lia).
    assert (B : (if zlen l <=? Z.of_nat b then zlen l else Z.of_nat b) = Z.of_nat b) by (unfold zlen; destruct (Z.leb_spec (Z.of_nat (length l)) (Z.of_nat b)); lia).
    rewrite A, B. replace (if Z.of_nat a <? Z.of_nat b then (Z.of_nat b - Z.of_nat a - 1) / 1 + 1 else 0) with (Z.of_nat (b - a))
      by (rewrite Z.div_1_r; destruct (Z.ltb_spec (Z.of_nat a) (Z.of_nat b)); lia).
    cbn [bind]. rewrite Nat2Z.id, pick_up. reflexivity.
Qed.
Print Assumptions C84_plain.

(* The items of a track of a project come in the order of the playlist. *)
Theorem C84_order : forall h t v cs ps n h' l ex e r k tr i j p q x y, ordered h t -> max_tracks v = Ok n -> tracks_iter h t v cs ps = (h', Ok (l, ex)) ->
  filter (fun e => e_id e =? 233) (events h t) = e :: r -> nth_error l k = Some tr -> 0 <= i < j ->
  track_get tr (IInt i) = Ok (One (p, x)) -> track_get tr (IInt j) = Ok (One (q, y)) -> (p < q)%nat.
Proof.
  intros h t v cs ps n h' l ex e r k tr i j p q x y O N E F K IJ GI GJ. destruct (C44_items _ _ _ _ _ _ _ _ _ _ _ _ _ O N E F K) as (_ & S & _).
  assert (AT : forall z m, 0 <= z -> track_get tr (IInt z) = Ok (One m) -> nth_error (map fst (tr_items tr)) (Z.to_nat z) = Some (fst m)).
  { intros z m Z0 G. pose proof (C84_index tr z) as P. unfold norm_index in P. replace (0 <=? z) with true in P by lia. replace (z <? 0) with false in P by lia. rewrite andb_false_r in P.
    cbn [andb] in P. destruct (z <? track_len tr); [|rewrite P in G; discriminate]. destruct P as (w & W & GW). rewrite nth_error_map. unfold track_iter in W. rewrite W. cbn. congruence. }
  apply AT in GI; [|lia]. apply AT in GJ; [|lia]. cbn [fst] in *. assert (L : (Z.to_nat i < Z.to_nat j)%nat) by lia. revert GI GJ L S. clear.
  generalize (Z.to_nat i) (Z.to_nat j). induction (map fst (tr_items tr)) as [|a m IH]; intros [|i'] [|j'] GI GJ L S; try discriminate; try lia; cbn [nth_error] in *; inversion S; subst.
  - injection GI as ->. rewrite Forall_forall in H2. apply H2. eapply nth_error_In; eauto.
  - eapply (IH i' j'); eauto. lia.
Qed.
Print Assumptions C84_order.

(* a text is neither looked up nor refused: the object NotImplemented comes back; slices of the
   first track of the sample project of C44, and of a longer one *)
Definition long_track : track_obj := TrackObj 0 (map (fun k => (k, PlaysPattern 7%nat)) (seq 0 7)).
Definition shown (r : res (found (nat * plays))) : res (list nat) :=
  match r with Ok (Many l) => Ok (map fst l) | Ok (One x) => Ok [fst x] | Ok NotImpl => Ok [99%nat] | Err e => Err e end.
Example C84_case : (exists h' a b, arr_tracks = (h', Ok ([a; b], None)) /\ track_len a = 2 /\
    shown (track_get a (IInt (-1))) = Ok [2%nat] /\ shown (track_get a (IInt 2)) = Err IndexError /\ shown (track_get a (ISlice (Some 1) None None)) = Ok [2%nat] /\
    track_get a (IStr "Track") = Ok NotImpl) /\
  shown (track_get long_track (ISlice (Some 5) (Some (-100)) (Some (-2)))) = Ok [5; 3; 1]%nat /\
  shown (track_get long_track (ISlice (Some (-100)) (Some (-1)) (Some 3))) = Ok [0; 3]%nat /\
  shown (track_get long_track (ISlice (Some 100) None (Some (-3)))) = Ok [6; 3; 0]%nat /\
  shown (track_get long_track (ISlice (Some 2) (Some 5) None)) = Ok [2; 3; 4]%nat /\
  shown (track_get long_track (ISlice None None (Some 0))) = Err ValueError /\
  in_slice 7 (Some 5) (Some (-100)) (-2) 3 /\ ~ in_slice 7 (Some 5) (Some (-100)) (-2) 2.
Proof.
  split.
  { do 3 eexists. split; [vm_compute; reflexivity|]. split; [vm_compute; reflexivity|]. split; [vm_compute; reflexivity|]. split; [vm_compute; reflexivity|]. split; vm_compute; reflexivity. }
  split; [vm_compute; reflexivity|]. split; [vm_compute; reflexivity|]. split; [vm_compute; reflexivity|]. split; [vm_compute; reflexivity|]. split; [vm_compute; reflexivity|]. split.
  - split; [lia|]. split; [lia|]. intros _. unfold from_end. change (5 <? 0) with false. change (-100 <? 0) with true. cbv zeta iota. split; [lia|]. split; [exists 1; lia|lia].
  - intros (_ & _ & D). destruct (D ltac:(lia)) as (_ & (q & Q) & _). unfold from_end in Q. change (5 <? 0) with false in Q. cbv iota in Q. lia.
Qed.
