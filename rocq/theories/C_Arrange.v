(* C44 the items of the tracks, C58 the arrangements. *)
From Coq Require Import String ZArith List Bool Lia Arith Sorting.Sorted.
From Verif Require Import M_Base M_Float M_Text M_Construct M_Structs M_Events M_Parse M_Tree M_Prop M_Project M_Items M_Collections.
From Verif Require Import S_Canon S_File S_Domain S_Tree S_Prop S_Project S_Items S_Collections.
From Verif Require Import P_Base P_Null P_TreeBase P_Tree P_TreeEdit P_Prop P_Edit P_Project P_Items P_Patterns P_Views P_Rack P_Mixer P_Arrange.
From Verif Require Import C_Samples.
Import ListNotations.
Open Scope Z_scope.

(* ------------------------------------------------------------------------- C44 *)

Lemma tracks_iter_spec h t v cs ps n h' l ex : ordered h t -> max_tracks v = Ok n -> tracks_iter h t v cs ps = (h', Ok (l, ex)) ->
  exists pcs ts pl, cut_pieces (fun c => id_of h c =? 238) (lst_of h t) pcs /\ extends h h' /\
    map (lst_of h') ts = map (filter (fun c => track_id (id_of h c))) pcs /\
    pl = match filter (fun e => e_id e =? 233) (events h t) with e :: _ => Some (event_items e) | [] => None end /\
    tracks_from (n - 1) 0 cs ps pl ts = (l, ex).
Proof.
  intros O N E. unfold tracks_iter in E. rewrite N in E.
  destruct (divide h t 238 (members TrackIDs)) as [hd ts] eqn:D. unfold divide in D.
  pose proof (new_trees_sub _ _ _ _ _ O (divide_subseq h 238 _ (lst_of h t)) D) as MT. destruct (new_trees_spec _ _ _ _ _ D) as (X & _).
  destruct (divide_pieces h 238 (members TrackIDs) (lst_of h t)) as (pcs & C & DP). rewrite DP in MT.
  set (pl := match get_ie h t [233] with c :: _ => Some (event_items (e_of h c)) | [] => None end) in *.
  assert (hd = h' /\ tracks_from (n - 1) 0 cs ps pl ts = (l, ex)) as [-> TF] by (split; congruence).
  exists pcs, ts, pl. split; [exact C|]. split; [exact X|]. split; [|split; [|exact TF]].
  - rewrite MT. apply map_ext. intros p. apply filter_ext. intros c. unfold keep. apply track_ids.
  - unfold pl. rewrite get_ie_1. unfold events. clear. induction (lst_of h t) as [|c m IH]; [reflexivity|]. cbn [map filter]. unfold id_of at 1.
    destruct (e_id (e_of h c) =? 233); [reflexivity|exact IH].
Qed.

(* The tracks of an arrangement are the pieces of its events between track data (238); without
   a playlist they have no items. *)
Theorem C44_tracks : forall h t v cs ps n h' l ex, ordered h t -> max_tracks v = Ok n -> tracks_iter h t v cs ps = (h', Ok (l, ex)) ->
  (exists pcs, cut_pieces (fun c => id_of h c =? 238) (lst_of h t) pcs /\
     map (fun x => lst_of h' (tr_tree x)) l = firstn (length l) (map (filter (fun c => track_id (id_of h c))) pcs) /\
     (ex = None -> length l = length pcs)) /\
  (filter (fun e => e_id e =? 233) (events h t) = [] -> ex = None /\ forall tr, In tr l -> tr_items tr = []).
Proof.
  intros h t v cs ps n h' l ex O N E. destruct (tracks_iter_spec _ _ _ _ _ _ _ _ _ O N E) as (pcs & ts & pl & C & _ & MT & PL & TF).
  destruct (tracks_spec _ _ _ _ _ _ _ _ TF) as (A & B & D). split.
  - exists pcs. split; [exact C|]. split.
    + rewrite <- MT, <- (map_map tr_tree (lst_of h')), A. now rewrite firstn_map.
    + intros ->. rewrite D. apply (f_equal (@length _)) in MT. now rewrite !map_length in MT.
  - intros F. rewrite F in PL. subst pl. split; [destruct ex; [destruct D|reflexivity]|]. intros tr I. apply In_nth_error in I. destruct I as (k & K). exact (B k tr K).
Qed.
Print Assumptions C44_tracks.

(* The items of the k-th track are those of the playlist whose reversed index is the track's,
   in the order of the playlist, and play the channel or the pattern they name. *)
Theorem C44_items : forall h t v cs ps n h' l ex e r k tr, ordered h t -> max_tracks v = Ok n -> tracks_iter h t v cs ps = (h', Ok (l, ex)) ->
  filter (fun e => e_id e =? 233) (events h t) = e :: r -> nth_error l k = Some tr ->
  (forall p, In p (map fst (tr_items tr)) <-> exists x, nth_error (items e) p = Some x /\ field x "track_rvidx" (n - 1 - Z.of_nat k)) /\
  StronglySorted lt (map fst (tr_items tr)) /\
  forall p q, In (p, q) (tr_items tr) -> exists x a b, nth_error (items e) p = Some x /\
    field x "item_index" a /\ field x "pattern_base" b /\
    match q with
    | PlaysChannel c => a <= b /\ exists j, nth_error cs j = Some c /\ number (ch_iid c) a /\
        forall j' c', (j < j')%nat -> nth_error cs j' = Some c' -> ~ number (ch_iid c') a
    | PlaysPattern u => b < a /\ exists j i, nth_error ps j = Some (i, u) /\ number i (a - b) /\
        forall j' i' u', (j < j')%nat -> nth_error ps j' = Some (i', u') -> ~ number i' (a - b)
    end.
Proof.
  intros h t v cs ps n h' l ex e r k tr O N E F K. destruct (tracks_iter_spec _ _ _ _ _ _ _ _ _ O N E) as (pcs & ts & pl & _ & _ & _ & PL & TF).
  rewrite F in PL. destruct (tracks_spec _ _ _ _ _ _ _ _ TF) as (_ & B & _). specialize (B k tr K). subst pl. destruct B as (vs & EI & TI).
  unfold event_items in EI. destruct (list_usable e); [|discriminate]. assert (vs = items e) by congruence. subst vs.
  rewrite Z.add_0_l in TI. destruct (track_items_spec _ _ _ _ _ _ _ TI) as (T1 & T2 & T3). split; [|split; [exact T2|]].
  - intros p. rewrite T1, Nat.sub_0_r. split; intros (x & H); exists x; [tauto|]. split; [lia|tauto].
  - intros p q I. destruct (T3 p q I) as (x & X & a & b & F1 & F2 & G1 & G2). rewrite Nat.sub_0_r in X. exists x, a, b. split; [exact X|]. split; [exact F1|]. split; [exact F2|].
    destruct (Z.le_gt_cases a b) as [L|L].
    + destruct (G1 L) as (c & CB & ->). split; [exact L|]. now apply chan_by_iid_spec.
    + destruct (G2 L) as (u & PB & ->). split; [exact L|]. now apply pat_by_iid_spec.
Qed.
Print Assumptions C44_items.

(* When iterating ends without an exception, every item whose track exists is on exactly that
   track, once; the others are on none. *)
Theorem C44_once : forall h t v cs ps n h' l e r p x z, ordered h t -> max_tracks v = Ok n -> tracks_iter h t v cs ps = (h', Ok (l, None)) ->
  filter (fun e => e_id e =? 233) (events h t) = e :: r -> nth_error (items e) p = Some x -> field x "track_rvidx" z ->
  (0 <= n - 1 - z < zlen l -> exists tr, nth_error l (Z.to_nat (n - 1 - z)) = Some tr /\
     count_occ Nat.eq_dec (map fst (tr_items tr)) p = 1%nat) /\
  forall k tr, nth_error l k = Some tr -> Z.of_nat k <> n - 1 - z -> ~ In p (map fst (tr_items tr)).
Proof.
  intros h t v cs ps n h' l e r p x z O N E F X Z. split.
  - intros R. destruct (nth_error l (Z.to_nat (n - 1 - z))) as [tr|] eqn:K; [|apply nth_error_None in K; unfold zlen in R; lia].
    exists tr. split; [reflexivity|]. destruct (C44_items _ _ _ _ _ _ _ _ _ _ _ _ _ O N E F K) as (T1 & T2 & _).
    apply NoDup_count_occ'.
    + clear -T2. induction T2 as [|a m SS IH FA]; [constructor|]. constructor; [|exact IH]. intros I. rewrite Forall_forall in FA. specialize (FA a I). lia.
    + apply T1. exists x. split; [exact X|]. replace (n - 1 - Z.of_nat (Z.to_nat (n - 1 - z))) with z by lia. exact Z.
  - intros k tr K NE I. destruct (C44_items _ _ _ _ _ _ _ _ _ _ _ _ _ O N E F K) as (T1 & _). apply T1 in I. destruct I as (y & Y & FY).
    assert (y = x) by congruence. subst y. destruct Z as (d & w & -> & D & W), FY as (d' & w' & [= <-] & D' & W'). assert (w' = w) by congruence. subst w'.
    pose proof (number_fun _ _ _ W W'). lia.
Qed.
Print Assumptions C44_once.

(* Nothing is raised when the playlist is readable and every item names something that exists. *)
Theorem C44_total : forall h t v cs ps n, max_tracks v = Ok n ->
  (forall e r, filter (fun e => e_id e =? 233) (events h t) = e :: r -> list_usable e = true /\
     forall x, In x (items e) -> exists z a b, field x "track_rvidx" z /\ field x "item_index" a /\ field x "pattern_base" b /\
       (a <= b -> exists c, In c cs /\ number (ch_iid c) a) /\ (b < a -> exists y, In y ps /\ number (fst y) (a - b))) ->
  exists h' l, tracks_iter h t v cs ps = (h', Ok (l, None)).
Proof.
  intros h t v cs ps n N H. unfold tracks_iter. rewrite N.
  assert (PL : match get_ie h t [233] with c :: _ => Some (event_items (e_of h c)) | [] => None end =
    match filter (fun e => e_id e =? 233) (events h t) with e :: _ => Some (event_items e) | [] => None end).
  { rewrite get_ie_1. unfold events. clear. induction (lst_of h t) as [|c m IH]; [reflexivity|]. cbn [map filter]. unfold id_of at 1.
    destruct (e_id (e_of h c) =? 233); [reflexivity|exact IH]. }
  rewrite PL. destruct (divide h t 238 (members TrackIDs)) as [hd ts]. set (pl := match filter _ (events h t) with [] => None | e :: _ => _ end) in *.
  destruct (tracks_from (n - 1) 0 cs ps pl ts) as [l ex] eqn:TF. exists hd, l. do 2 f_equal. destruct ex as [e|]; [|reflexivity]. exfalso.
  destruct (tracks_spec _ _ _ _ _ _ _ _ TF) as (_ & _ & B). unfold pl in B. destruct (filter _ (events h t)) as [|e0 r] eqn:F; [exact B|]. destruct B as [_ B].
  destruct (H e0 r eq_refl) as [U HI]. unfold event_items in B. rewrite U in B. cbn [bind] in B.
  destruct (track_items_total (n - 1) (0 + zlen l) cs ps (items e0)) with (i := 0%nat) as (q & Q); [|congruence].
  intros x I. destruct (HI x I) as (z & a & b & F1 & F2 & F3 & G1 & G2). exists z, a, b. repeat (split; [assumption|]). split.
  - intros _ L. destruct (G1 L) as (c & IC & NC). now apply (chan_by_iid_total cs a c).
  - intros _ L. destruct (G2 L) as (y & IY & NY). now apply (pat_by_iid_total ps (a - b) y).
Qed.
Print Assumptions C44_total.

(* ------------------------------------------------------------------------- C58 *)

Lemma no_filter A (f : A -> bool) l : forallb (fun x => negb (f x)) l = true -> filter f l = [].
Proof. induction l as [|x l IH]; [reflexivity|]. cbn [forallb filter]. destruct (f x); [discriminate|exact IH]. Qed.
Lemma part_wanted h l : (forall c, In c l -> id_of h c <> 100) -> filter (arr_wanted h) l = filter (fun c => arrangement_part (id_of h c)) l.
Proof.
  intros N. apply filter_ext_in. intros c I. unfold arr_wanted, arrangement_part. destruct (Z.eqb_spec (id_of h c) 100) as [E|E]; [exfalso; exact (N c I E)|]. now rewrite orb_false_r.
Qed.
Lemma cuts_count h d l : filter (arr_cut h d) (filter (arr_wanted h) l) = filter (arr_cut h d) l.
Proof.
  induction l as [|c l IH]; [reflexivity|]. cbn [filter]. destruct (arr_wanted h c) eqn:W; cbn [filter]; rewrite IH; [reflexivity|].
  unfold arr_wanted in W. apply orb_false_iff in W. destruct W as [W1 W2]. unfold arr_cut. rewrite W2. cbn [orb]. destruct (Z.eqb_spec (id_of h c) 99) as [E|E]; [rewrite E in W1; discriminate|reflexivity].
Qed.
Lemma cuts_length h d : forall l, NoDup l -> (In d l -> id_of h d = 99) ->
  (length (filter (arr_cut h d) l) + (if existsb (Nat.eqb d) l then 1 else 0) =
   length (filter (fun c => (id_of h c =? 99)%Z) l) + length (filter (fun c => (id_of h c =? 100)%Z) l))%nat.
Proof.
  induction l as [|c l IH]; intros ND HD; [reflexivity|]. inversion ND as [|? ? NI ND']; subst. cbn [filter existsb]. specialize (IH ND' (fun I => HD (or_intror I))).
  unfold arr_cut at 1. destruct (Nat.eqb_spec d c) as [E|E].
  - subst c. rewrite (HD (or_introl eq_refl)). rewrite Nat.eqb_refl. change (99 =? 100) with false. change (99 =? 99) with true. cbn [orb andb negb length].
    replace (existsb (Nat.eqb d) l) with false in IH; [lia|]. symmetry. apply not_true_iff_false. intros X. apply existsb_exists in X. destruct X as (y & I & Y). apply Nat.eqb_eq in Y. subst y. contradiction.
  - replace (Nat.eqb c d) with false by (symmetry; apply Nat.eqb_neq; congruence). cbn [negb orb]. rewrite andb_true_r.
    destruct (Z.eqb_spec (id_of h c) 100) as [E1|E1], (Z.eqb_spec (id_of h c) 99) as [E2|E2]; cbn [orb length]; [congruence|lia|lia|exact IH].
Qed.
Lemma firstn_pre A (l m : list A) n : n = length l -> firstn n (l ++ m) = l.
Proof. intros ->. rewrite firstn_app, Nat.sub_diag, firstn_all. now rewrite app_nil_r. Qed.

(* Iterating works as soon as there is a new-arrangement event (99), and len counts those. *)
Theorem C58_total : forall h t,
  (Forall (fun e => e_id e <> 99) (events h t) -> arrs_len h t = Err NoModelsFound /\ snd (arrs_iter h t) = Err NoModelsFound) /\
  (forall e, In e (events h t) -> e_id e = 99 -> exists us,
     arrs_len h t = Ok (zlen (filter (fun e => e_id e =? 99) (events h t))) /\ snd (arrs_iter h t) = Ok us).
Proof.
  intros h t. unfold arrs_iter, arrs_len. rewrite contains_filter. unfold count. rewrite get_ie_1. split.
  - intros F. replace (filter (fun c => id_of h c =? 99) (lst_of h t)) with (@nil nat); [auto|].
    symmetry. apply no_filter. apply forallb_forall. intros c I. rewrite Forall_forall in F. assert (X : id_of h c <> 99) by (apply F; apply in_map; exact I). destruct (Z.eqb_spec (id_of h c) 99); [contradiction|reflexivity].
  - intros e I E. apply in_map_iff in I. destruct I as (c & <- & I). assert (X : In c (filter (fun c => id_of h c =? 99) (lst_of h t))) by (apply filter_In; split; [exact I|]; apply Z.eqb_eq; exact E).
    replace (zlen (filter (fun e => e_id e =? 99) (events h t))) with (zlen (filter (fun c => id_of h c =? 99) (lst_of h t))).
    + destruct (filter (fun c => id_of h c =? 99) (lst_of h t)) as [|d r]; [destruct X|]. destruct (subtrees h t arrs_sel false (zlen (d :: r))) as [h' us]. exists us. auto.
    + unfold events, zlen. f_equal. clear. induction (lst_of h t) as [|c m IH]; [reflexivity|]. cbn [map filter]. unfold id_of at 1. destruct (e_id (e_of h c) =? 99); cbn [length]; now rewrite IH.
Qed.
Print Assumptions C58_total.

(* How many arrangements iterating gives: one is lost unless a current-arrangement event (100)
   is there. *)
Theorem C58_count : forall h t h' us, ordered h t -> arrs_iter h t = (h', Ok us) ->
  let n := length (filter (fun c => id_of h c =? 99) (lst_of h t)) in
  let m := length (filter (fun c => id_of h c =? 100) (lst_of h t)) in
  length us = Nat.min n (n - 1 + m).
Proof.
  intros h t h' us O E. destruct (arrs_spec h t h' us O E) as (d & r & ps & tail & F & SA & X & M). cbn zeta. rewrite F. cbn [length].
  apply (f_equal (@length _)) in M. rewrite map_length, firstn_length in M. rewrite M. f_equal.
  pose proof (starts_at_count _ _ _ _ SA) as SC. rewrite cuts_count, app_length in SC. cbn [length] in SC.
  assert (ID : In d (filter (fun c => id_of h c =? 99) (lst_of h t))) by (rewrite F; now left). apply filter_In in ID. destruct ID as [ID D99]. apply Z.eqb_eq in D99.
  pose proof (cuts_length h d (lst_of h t) (ordered_nodup h t O) (fun _ => D99)) as CL. rewrite F in CL. cbn [length] in CL.
  replace (existsb (Nat.eqb d) (lst_of h t)) with true in CL by (symmetry; apply existsb_exists; exists d; split; [exact ID|apply Nat.eqb_refl]). lia.
Qed.
Print Assumptions C58_count.

(* The order of events a file has: all arrangements before the event telling which is current.
   Then each arrangement is yielded with its own new-arrangement event and no other, and
   together they have all events up to there, in order. *)
Theorem C58_normal : forall h t h' us a c b, ordered h t -> arrs_iter h t = (h', Ok us) ->
  lst_of h t = a ++ c :: b -> id_of h c = 100 -> (forall x, In x a -> id_of h x <> 100) -> (forall x, In x b -> id_of h x <> 99) ->
  concat (map (lst_of h') us) = filter (fun x => arrangement_part (id_of h x)) a /\
  map (fun u => filter (fun x => id_of h x =? 99) (lst_of h' u)) us = map (fun x => [x]) (filter (fun x => id_of h x =? 99) (lst_of h t)) /\
  forall k u, (0 < k)%nat -> nth_error us k = Some u -> exists x q, lst_of h' u = x :: q /\ id_of h x = 99.
Proof.
  intros h t h' us a c b O E L C NA NB. destruct (arrs_spec h t h' us O E) as (d & r & ps & tail & F & SA & X & M).
  assert (FA : filter (fun c => id_of h c =? 99) a = d :: r).
  { rewrite L, filter_app in F. cbn [filter] in F. rewrite C in F. change (100 =? 99) with false in F. cbn iota in F. rewrite (no_filter _ _ b), app_nil_r in F; [exact F|].
    apply forallb_forall. intros y I. destruct (Z.eqb_spec (id_of h y) 99) as [Y|Y]; [exfalso; exact (NB y I Y)|reflexivity]. }
  pose proof (ordered_nodup h t O) as ND. rewrite L in ND. destruct (NoDup_app_split _ _ _ ND) as (NDa & _ & _).
  assert (CX : arr_cut h d c = true) by (unfold arr_cut; rewrite C; reflexivity).
  assert (CW : arr_wanted h c = true) by (unfold arr_wanted; rewrite C; now rewrite orb_true_r).
  destruct (starts_at_exists _ (arr_cut h d) (filter (arr_wanted h) a)) as (qs & Q). destruct (starts_at_exists _ (arr_cut h d) (c :: filter (arr_wanted h) b)) as (rs & R).
  destruct (starts_at_app _ _ _ _ _ _ _ Q CX R) as (r0 & -> & NE & QR). rewrite L, filter_app in SA. cbn [filter] in SA. rewrite CW in SA.
  pose proof (starts_at_fun _ _ _ _ _ SA QR) as EQ.
  assert (ID : In d a) by (assert (Y : In d (filter (fun c => id_of h c =? 99) a)) by (rewrite FA; now left); apply filter_In in Y; tauto).
  assert (D99 : id_of h d = 99) by (assert (Y : In d (filter (fun c => id_of h c =? 99) a)) by (rewrite FA; now left); apply filter_In in Y; apply Z.eqb_eq; tauto).
  assert (LQ : length qs = S (length r)).
  { pose proof (starts_at_count _ _ _ _ Q) as SC. rewrite cuts_count in SC. pose proof (cuts_length h d a NDa (fun _ => D99)) as CL. rewrite FA in CL.
    replace (existsb (Nat.eqb d) a) with true in CL by (symmetry; apply existsb_exists; exists d; split; [exact ID|apply Nat.eqb_refl]).
    rewrite (no_filter _ (fun c => id_of h c =? 100) a) in CL; [cbn [length] in CL; lia|].
    apply forallb_forall. intros y I. destruct (Z.eqb_spec (id_of h y) 100) as [Y|Y]; [exfalso; exact (NA y I Y)|reflexivity]. }
  assert (PS : exists m, ps = qs ++ m).
  { destruct (exists_last NE) as (m & z & ->). rewrite app_assoc in EQ. apply app_inj_tail in EQ. exists m. tauto. }
  destruct PS as (m & ->). rewrite firstn_pre in M by (symmetry; exact LQ).
  split; [|split].
  - rewrite M. destruct Q as [Q _]. rewrite Q. now apply part_wanted.
  - rewrite <- (map_map (lst_of h') (filter _)), M, F. apply own_arrangement with a; [now apply NoDup_filter|exact FA|exact NA|exact Q].
  - intros k u K U. assert (UQ : nth_error qs k = Some (lst_of h' u)) by (rewrite <- M; now apply map_nth_error).
    destruct Q as [QC Q]. destruct qs as [|q0 qs]; [destruct k; discriminate|]. destruct Q as [_ QR']. destruct k as [|k]; [lia|]. cbn [nth_error] in UQ. apply nth_error_In in UQ.
    rewrite Forall_forall in QR'. destruct (QR' _ UQ) as (x & q & EX & CC & _). exists x, q. split; [exact EX|].
    assert (IX : In x (filter (arr_wanted h) a)). { rewrite <- QC. cbn [concat]. apply in_or_app. right. apply in_concat. exists (lst_of h' u). split; [exact UQ|]. rewrite EX. now left. }
    apply filter_In in IX. destruct IX as [IX _]. unfold arr_cut in CC. destruct (Z.eqb_spec (id_of h x) 100) as [Y|Y]; [exfalso; exact (NA x IX Y)|]. cbn [orb] in CC. apply andb_true_iff in CC. apply Z.eqb_eq. tauto.
Qed.
Print Assumptions C58_normal.

(* Without a current-arrangement event, the last arrangement is not yielded though len counts it. *)
Theorem C58_lost : forall h t h' us, ordered h t -> arrs_iter h t = (h', Ok us) -> (forall x, In x (lst_of h t) -> id_of h x <> 100) ->
  map (fun u => filter (fun x => id_of h x =? 99) (lst_of h' u)) us = map (fun x => [x]) (removelast (filter (fun x => id_of h x =? 99) (lst_of h t))).
Proof.
  intros h t h' us O E NA. destruct (arrs_spec h t h' us O E) as (d & r & ps & tail & F & SA & X & M).
  pose proof (ordered_nodup h t O) as ND. pose proof (own_arrangement h d r _ (lst_of h t) (NoDup_filter _ ND) F NA SA) as OA.
  rewrite map_app in OA. cbn [map] in OA. rewrite <- (map_map (lst_of h') (filter _)), M, F.
  assert (LP : (length ps = length r)%nat) by (apply (f_equal (@length _)) in OA; rewrite app_length in OA; cbn [length] in OA; rewrite !map_length in OA; lia).
  rewrite firstn_all2 by lia. change ([d] :: map (fun x => [x]) r) with (map (fun x : nat => [x]) (d :: r)) in OA. clear -OA. destruct (@exists_last _ (d :: r)) as (m & z & EZ); [discriminate|]. rewrite EZ in *. rewrite removelast_last.
  rewrite map_app in OA. cbn [map] in OA. apply app_inj_tail in OA. tauto.
Qed.
Print Assumptions C58_lost.

(* The current arrangement is the one at the (Python) index the event holds; None without one. *)
Theorem C58_current : forall h t us,
  (value_of 100 (events h t) = None -> arr_current h t us = Ok None) /\
  forall v z, value_of 100 (events h t) = Some v -> number v z ->
  match norm_index (zlen us) z with
  | Some k => exists u, nth_error us k = Some u /\ arr_current h t us = Ok (Some u)
  | None => arr_current h t us = Err ModelNotFound
  end.
Proof.
  intros h t us. unfold arr_current. rewrite contains_value, first_val_spec. split; [intros ->; reflexivity|].
  intros v z V N. rewrite V. cbn [bind]. apply number_as in N. rewrite N. pose proof (py_nth_norm _ us z) as P.
  destruct (norm_index (zlen us) z) as [k|]; [destruct P as (u & K & ->); eauto|now rewrite P].
Qed.
Print Assumptions C58_current.

(* What a project shows as arrangements: all their events; time markers only from the first
   arrangement on, those before belong to the patterns. *)
Theorem C58_view : forall h h1 t, ordered h 0 -> arrangements h = (h1, t) ->
  exists a b, cut_before (fun c => id_of h c =? 99) (lst_of h 0) a b /\
    lst_of h1 t = filter (fun c => arrangements_id (id_of h c) || arrangement_id (id_of h c) || track_id (id_of h c)) a ++
                  filter (fun c => arrangements_id (id_of h c) || arrangement_part (id_of h c)) b.
Proof.
  intros h h1 t O E. destruct (arrangements_view h h1 t O E) as (a & b & C & L). exists a, b. split; [exact C|]. rewrite L. f_equal.
  apply filter_ext. intros c. unfold arrangement_part. destruct (arrangements_id _), (arrangement_id _), (track_id _), (marker_id _); reflexivity.
Qed.
Print Assumptions C58_view.

(* --------------------------------------------------------------------- examples *)

(* Two arrangements, the second with a playlist of three items: channel 3 on the first track,
   pattern 1 (5001 - 5000) on the second, channel 3 on the first again; two tracks. *)
Definition pl_item (index : Z) (rv : Z) : bytes :=
  [0; 0; 0; 0] ++ le_enc 2 5000 ++ le_enc 2 index ++ [96; 0; 0; 0] ++ le_enc 2 rv ++ [0; 0] ++ [120; 0; 0; 0] ++ [64; 100; 128; 128] ++ [0; 0; 128; 191; 0; 0; 128; 191].
Definition trk (iid : Z) : bytes := le_enc 4 iid ++ repeat 0 9 ++ [0; 0; 128; 63] ++ repeat 0 31.
Definition arr_chunks (tail : list chunk) : list chunk :=
  [(199, ver20); (64, [3; 0]); (148, [1; 0; 0; 0]); (99, [0; 0]); (241, title16); (238, trk 1); (99, [1; 0]); (148, [2; 0; 0; 0]);
   (233, pl_item 3 499 ++ pl_item 5001 498 ++ pl_item 3 499); (238, trk 1); (239, title16); (238, trk 2)] ++ tail.
Definition arr_file : bytes := sample (arr_chunks [(100, [1; 0])]).
Definition arr_heap : heap := parsed (pr_events (load arr_file)).
Definition arr_h1 : heap := fst (arrangements arr_heap).
Definition arr_h2 : heap := fst (arrs_iter arr_h1 1).
Definition arr_cs : list chan := [Chan 5 CSampler (VInt 3) 6].
Definition arr_tracks : heap * res (gen track_obj) := tracks_iter arr_h2 3 (FLV 20 8 3 None) arr_cs [(VInt 1, 7%nat)].
Example C44_case : is_bytes arr_file /\ parse en0 arr_file = Ok (load arr_file) /\ ordered arr_heap 0 /\ arrangements arr_heap = (arr_h1, 1%nat) /\
  arrs_iter arr_h1 1 = (arr_h2, Ok [2; 3]%nat) /\ ordered arr_h2 3 /\ max_tracks (FLV 20 8 3 None) = Ok 500 /\
  exists h' a b e, arr_tracks = (h', Ok ([a; b], None)) /\ filter (fun e => e_id e =? 233) (events arr_h2 3) = [e] /\
    tr_items a = [(0%nat, PlaysChannel (Chan 5 CSampler (VInt 3) 6)); (2%nat, PlaysChannel (Chan 5 CSampler (VInt 3) 6))] /\
    tr_items b = [(1%nat, PlaysPattern 7%nat)] /\
    map e_id (events h' (tr_tree a)) = [238; 239] /\ map e_id (events h' (tr_tree b)) = [238].
Proof.
  destruct (sample_ok (arr_chunks [(100, [1; 0])]) ltac:(vm_compute; reflexivity)) as [B _]. split; [exact B|]. split; [vm_compute; reflexivity|].
  split; [apply parsed_ordered|]. split; [vm_compute; reflexivity|]. split; [vm_compute; reflexivity|]. split; [vm_compute; repeat constructor|]. split; [reflexivity|].
  eexists _, _, _, _. split; [vm_compute; reflexivity|]. split; [vm_compute; reflexivity|]. split; [reflexivity|]. split; [reflexivity|]. split; vm_compute; reflexivity.
Qed.

(* The same file: two arrangements, the current one is the second. *)
Example C58_case : map e_id (events arr_h1 1) = [99; 241; 238; 99; 148; 233; 238; 239; 238; 100] /\
  map (fun u => map e_id (events arr_h2 u)) [2; 3]%nat = [[99; 241; 238]; [99; 148; 233; 238; 239; 238]] /\
  arrs_len arr_h1 1 = Ok 2 /\ arr_current arr_h1 1 [2; 3]%nat = Ok (Some 3%nat) /\ ordered arr_h1 1 /\
  exists a c, lst_of arr_h1 1 = a ++ [c] /\ id_of arr_h1 c = 100 /\ forallb (fun x => negb (id_of arr_h1 x =? 100)) a = true.
Proof.
  split; [vm_compute; reflexivity|]. split; [vm_compute; reflexivity|]. split; [vm_compute; reflexivity|]. split; [vm_compute; reflexivity|]. split; [vm_compute; repeat constructor|].
  exists [3; 4; 5; 6; 7; 8; 9; 10; 11]%nat, 12%nat. split; [vm_compute; reflexivity|]. split; vm_compute; reflexivity.
Qed.

(* Without the event telling the current arrangement, the last arrangement is lost: len says two,
   iterating gives one. *)
Definition arr_short : bytes := sample (arr_chunks []).
Definition arr_short1 : heap := fst (arrangements (parsed (pr_events (load arr_short)))).
Theorem C58_refuted : is_bytes arr_short /\ parse en0 arr_short = Ok (load arr_short) /\ ordered arr_short1 1 /\
  arrs_len arr_short1 1 = Ok 2 /\ exists us, snd (arrs_iter arr_short1 1) = Ok us /\ length us = 1%nat.
Proof.
  destruct (sample_ok (arr_chunks []) ltac:(vm_compute; reflexivity)) as [B _]. split; [exact B|]. split; [vm_compute; reflexivity|]. split; [vm_compute; repeat constructor|].
  split; [vm_compute; reflexivity|]. eexists. split; vm_compute; reflexivity.
Qed.
Print Assumptions C58_refuted.

(* If that event comes first, the first arrangement yielded is empty and the last one is lost. *)
Definition arr_early : bytes := sample ((100, [1; 0]) :: arr_chunks []).
Definition arr_early1 : heap := fst (arrangements (parsed (pr_events (load arr_early)))).
Theorem C58_early_refuted : is_bytes arr_early /\ parse en0 arr_early = Ok (load arr_early) /\ ordered arr_early1 1 /\
  arrs_len arr_early1 1 = Ok 2 /\ exists h' u w, arrs_iter arr_early1 1 = (h', Ok [u; w]) /\ lst_of h' u = [] /\ map e_id (events h' w) = [100; 99; 241; 238].
Proof.
  destruct (sample_ok ((100, [1; 0]) :: arr_chunks []) ltac:(vm_compute; reflexivity)) as [B _]. split; [exact B|]. split; [vm_compute; reflexivity|]. split; [vm_compute; repeat constructor|].
  split; [vm_compute; reflexivity|]. eexists _, _, _. split; [vm_compute; reflexivity|]. split; vm_compute; reflexivity.
Qed.
Print Assumptions C58_early_refuted.
