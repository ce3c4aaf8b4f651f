(* C52 replacing the plugin of a channel or a slot. *)
From Coq Require Import String ZArith List Bool Lia Arith.
From Verif Require Import M_Base M_Float M_Text M_Construct M_Structs M_Events M_Parse M_Tree M_Prop M_Project M_Items M_Collections.
From Verif Require Import S_Canon S_File S_Domain S_Tree S_Prop S_Project S_Items S_Collections.
From Verif Require Import P_Base P_Null P_TreeBase P_Tree P_TreeEdit P_Prop P_Edit P_Project P_Items P_Patterns P_Views P_Rack P_Plugins.
From Verif Require Import C_Samples.
Import ListNotations.
Open Scope Z_scope.

(* [c] is one of the events of [t], and of this id *)
Lemma hits_in h id t x : hits h id (lst_of h t) x = true <-> In x (lst_of h t) /\ id_of h x = id.
Proof.
  unfold hits. rewrite andb_true_iff, existsb_exists, Z.eqb_eq. split; [intros [(y & I & E) J]|intros [I J]].
  - apply Nat.eqb_eq in E. subst y. auto.
  - split; [exists x; split; [exact I|apply Nat.eqb_refl]|exact J].
Qed.
Lemma hits_not h id t x : ~ (In x (lst_of h t) /\ id_of h x = id) -> hits h id (lst_of h t) x = false.
Proof. intros N. apply not_true_iff_false. intros H. apply N. now apply hits_in. Qed.
Lemma first_ie h u id e m : filter (fun e => e_id e =? id) (events h u) = e :: m -> exists d n, get_ie h u [id] = d :: n /\ e_of h d = e /\ In d (lst_of h u) /\ id_of h d = id.
Proof.
  intros F. rewrite get_ie_1. unfold events in F. revert F. induction (lst_of h u) as [|c l IH]; [discriminate|]. cbn [map filter]. unfold id_of at 1.
  destruct (Z.eqb_spec (e_id (e_of h c)) id) as [E|E].
  - intros F. exists c, (filter (fun c => id_of h c =? id) l). repeat split; [congruence|now left|exact E].
  - intros F. destruct (IH F) as (d & n & G & D & I & J). exists d, n. repeat split; auto. now right.
Qed.
Lemma first_ie_none h u id : filter (fun e => e_id e =? id) (events h u) = [] -> get_ie h u [id] = [].
Proof.
  rewrite get_ie_1. unfold events. induction (lst_of h u) as [|c l IH]; [reflexivity|]. cbn [map filter]. unfold id_of at 1.
  destruct (e_id (e_of h c) =? id); [discriminate|exact IH].
Qed.

(* Assigning a plugin with data and wrapper events to a channel or slot [t]: its own data and
   wrapper events are replaced in place, in every view; with a plugin class that has a name,
   the first internal name event of [t] gets that name.  All other events stay what they are,
   and no event moves. *)
Theorem C52_set : forall en h t u s k e d m w n, synced h t -> in_heap h t ->
  chosen [201] (events h t) (Some k) -> nth_error (refs h t) k = Some e ->
  filter (fun e => e_id e =? 213) (events h u) = d :: m -> filter (fun e => e_id e =? 212) (events h u) = w :: n ->
  exists h', plugin_set en h t u (Some s) = (h', Ok tt) /\
    (forall v, lst_of h' v = lst_of h v) /\ (forall x, r_of h' x = r_of h x) /\
    (forall x, In x (lst_of h t) -> id_of h x = 213 -> e_of h' x = d) /\
    (forall x, In x (lst_of h t) -> id_of h x = 212 -> e_of h' x = w) /\
    (forall x, ~ (In x (lst_of h t) /\ (id_of h x = 213 \/ id_of h x = 212)) ->
       e_of h' x = if Nat.eqb (ref_of h x) e then with_val (e_of h x) (VStr s) else e_of h x) /\
    ev_get en h' t [201] = Ok (VStr s).
Proof.
  intros en h t u s k e d m w n SY IH CH NE D W.
  destruct (event_prop_set en h t [201] VNone (VStr s) k ltac:(discriminate) IH CH) as (r & h1 & R & PS & OV). assert (r = e) by congruence. subst r.
  destruct (first_ie _ _ _ _ _ D) as (dc & dn & GD & ED & ID & JD). destruct (first_ie _ _ _ _ _ W) as (wc & wn & GW & EW & IW & JW).
  assert (ID1 : forall x, id_of h1 x = id_of h x) by (intros; now apply (only_value_id _ _ _ _ OV)).
  assert (L1 : forall v, lst_of h1 v = lst_of h v) by (intros; now apply (only_value_lst _ _ _ _ OV)).
  assert (C1 : forall c, cell_of h1 c = cell_of h c) by (intros; now apply (only_value_cell _ _ _ _ OV)).
  assert (R1 : forall c, ref_of h1 c = ref_of h c) by (intros; unfold ref_of; now rewrite C1).
  assert (G1 : forall v i, get_ie h1 v [i] = get_ie h v [i]) by (intros; rewrite !get_ie_1, L1; apply filter_ext; intros; now rewrite ID1).
  assert (E201 : e_id (ev_of h e) = 201).
  { assert (NK : nth_error (events h t) k = Some (ev_of h e)) by (rewrite events_refs; now apply map_nth_error).
    inversion CH as [ids1 id ids2 k' e' HI HN HE HID HJ EK|]. destruct ids1 as [|? ids1]; [|destruct ids1; discriminate]. cbn [app] in HI. assert (id = 201) by congruence. assert (e' = ev_of h e) by congruence. congruence. }
  assert (NR : forall x, id_of h x <> 201 -> e_of h1 x = e_of h x).
  { intros x N. rewrite !e_of_ref, R1. destruct OV as (_ & _ & _ & O1 & _). apply O1. intros EQ. apply N. unfold id_of. now rewrite e_of_ref, EQ. }
  destruct (replace_both h1 t u dc dn wc wn) as (h' & EH & EV & T & N & RR & X & IX).
  { intros c I. rewrite L1 in I. unfold nc. destruct OV as (-> & _). now apply (synced_bound h t SY). }
  { now rewrite G1. } { now rewrite G1. }
  exists h'. assert (EO : forall x, e_of h' x = ev_of h1 (ref_of h' x)) by (intros; rewrite e_of_ref; unfold ev_of; now rewrite EV).
  assert (HS : forall id x, hits h1 id (lst_of h1 t) x = hits h id (lst_of h t) x) by (intros; unfold hits; now rewrite ID1, L1).
  split; [unfold plugin_set, ev_prop; rewrite PS; cbn [and_then]; exact EH|].
  split; [intros v; unfold lst_of, tree_of; rewrite T; apply L1|]. split; [intros x; rewrite RR; unfold r_of; now rewrite C1|].
  assert (A213 : forall x, In x (lst_of h t) -> id_of h x = 213 -> e_of h' x = d).
  { intros x I J. rewrite EO, X, HS. replace (hits h 213 (lst_of h t) x) with true by (symmetry; now apply hits_in).
    rewrite R1. transitivity (e_of h1 dc); [rewrite e_of_ref, R1; reflexivity|]. rewrite NR; [exact ED|]. rewrite JD. discriminate. }
  split; [exact A213|]. split.
  { intros x I J. rewrite EO, X, !HS. rewrite (hits_not h 213) by lia. replace (hits h 212 (lst_of h t) x) with true by (symmetry; now apply hits_in).
    rewrite R1. transitivity (e_of h1 wc); [rewrite e_of_ref, R1; reflexivity|]. rewrite NR; [exact EW|]. rewrite JW. discriminate. }
  assert (REST : forall x, ~ (In x (lst_of h t) /\ (id_of h x = 213 \/ id_of h x = 212)) -> e_of h' x = if Nat.eqb (ref_of h x) e then with_val (e_of h x) (VStr s) else e_of h x).
  { intros x NX. rewrite EO, X, !HS, !hits_not by tauto. rewrite R1. destruct OV as (_ & _ & _ & O1 & O2). destruct (Nat.eqb_spec (ref_of h x) e) as [Q|Q].
    - rewrite Q, O2, e_of_ref, Q. reflexivity.
    - now rewrite O1. }
  split; [exact REST|].
  assert (CH' : chosen [201] (events h' t) (Some k)).
  { apply (chosen_ids _ (events h t)); [|exact CH]. unfold events. rewrite !map_map.
    replace (lst_of h' t) with (lst_of h t) by (unfold lst_of at 2, tree_of; rewrite T; symmetry; apply L1). apply map_ext. intros x. change (id_of h x = id_of h' x). rewrite IX. symmetry. apply ID1. }
  unfold ev_get, ev_prop. rewrite (event_prop_get en h' t [201] VNone false (Some k) ltac:(discriminate) CH'). f_equal. unfold value_at.
  unfold refs in NE. rewrite nth_error_map in NE. destruct (nth_error (lst_of h t) k) as [c|] eqn:NC; [|discriminate]. cbn [option_map] in NE. assert (RC : ref_of h c = e) by congruence.
  unfold events. rewrite nth_error_map. replace (lst_of h' t) with (lst_of h t) by (unfold lst_of at 2, tree_of; rewrite T; symmetry; apply L1). rewrite NC. cbn [option_map].
  rewrite REST; [rewrite RC, Nat.eqb_refl; reflexivity|]. intros [_ H]. assert (id_of h c = 201) by (unfold id_of; rewrite e_of_ref, RC; exact E201). lia.
Qed.
Print Assumptions C52_set.

(* The same for a plugin of unknown class, which has no name: events only. *)
Theorem C52_unnamed : forall en h t u d m w n, synced h t ->
  filter (fun e => e_id e =? 213) (events h u) = d :: m -> filter (fun e => e_id e =? 212) (events h u) = w :: n ->
  exists h', plugin_set en h t u None = (h', Ok tt) /\
    (forall v, lst_of h' v = lst_of h v) /\ (forall x, r_of h' x = r_of h x) /\
    forall x, (In x (lst_of h t) -> id_of h x = 213 -> e_of h' x = d) /\ (In x (lst_of h t) -> id_of h x = 212 -> e_of h' x = w) /\
      (~ (In x (lst_of h t) /\ (id_of h x = 213 \/ id_of h x = 212)) -> e_of h' x = e_of h x).
Proof.
  intros en h t u d m w n SY D W. destruct (first_ie _ _ _ _ _ D) as (dc & dn & GD & ED & ID & JD). destruct (first_ie _ _ _ _ _ W) as (wc & wn & GW & EW & IW & JW).
  destruct (replace_both h t u dc dn wc wn (fun c I => synced_bound h t SY c I) GD GW) as (h' & EH & EV & T & N & RR & X & IX).
  exists h'. assert (EO : forall x, e_of h' x = ev_of h (ref_of h' x)) by (intros; rewrite e_of_ref; unfold ev_of; now rewrite EV).
  split; [exact EH|]. split; [intros v; unfold lst_of, tree_of; now rewrite T|]. split; [exact RR|]. intros x. split; [|split].
  - intros I J. rewrite EO, X. replace (hits h 213 (lst_of h t) x) with true by (symmetry; now apply hits_in). exact ED.
  - intros I J. rewrite EO, X. rewrite (hits_not h 213) by lia. replace (hits h 212 (lst_of h t) x) with true by (symmetry; now apply hits_in). exact EW.
  - intros NX. rewrite EO, X, !hits_not by tauto. reflexivity.
Qed.
Print Assumptions C52_unnamed.

(* A channel or slot without an internal name event refuses a plugin with a name. *)
Theorem C52_refused : forall en h t u s, chosen [201] (events h t) None -> plugin_set en h t u (Some s) = (h, Err PropertyCannotBeSet).
Proof.
  intros en h t u s C. unfold plugin_set, ev_prop. rewrite (event_prop_refused en h t [201] VNone false (VStr s) ltac:(discriminate) (or_intror C)). reflexivity.
Qed.
Print Assumptions C52_refused.

(* A plugin without a wrapper event: the data are replaced, then KeyError is raised if the target
   has a wrapper event.  (Without data, nothing is replaced.) *)
Theorem C52_half : forall en h t u d m x y, synced h t ->
  filter (fun e => e_id e =? 213) (events h u) = d :: m -> filter (fun e => e_id e =? 212) (events h u) = [] ->
  In x (lst_of h t) -> id_of h x = 213 -> In y (lst_of h t) -> id_of h y = 212 ->
  exists h', plugin_set en h t u None = (h', Err KeyError) /\ e_of h' x = d /\ e_of h' y = e_of h y.
Proof.
  intros en h t u d m x y SY D W IX JX IY JY. destruct (first_ie _ _ _ _ _ D) as (dc & dn & GD & ED & ID & JD).
  destruct (replace_some u 213 dc (lst_of h t) h dn GD (fun c I => synced_bound h t SY c I)) as (h1 & E1 & R1).
  assert (ED1 : e_id (ev_of h (ref_of h dc)) = 213) by exact JD.
  pose proof (fun x => replaced_id h 213 _ _ h1 x ED1 R1) as I1. pose proof (replaced_get_ie h 213 (lst_of h t) _ h1 u 212 ED1 R1) as G1. destruct R1 as (EV & T & N & RR & X).
  exists h1. split; [|split].
  - change (plugin_set en h t u None) with (and_then (replace_from h u 213 (lst_of h t)) (fun h => replace_from h u 212 (lst_of h t))). rewrite E1. unfold and_then. cbn [fst snd].
    rewrite replace_none by (rewrite G1; now apply first_ie_none). f_equal. replace (existsb (fun c => id_of h1 c =? 212) (lst_of h1 t)) with true; [reflexivity|].
    symmetry. apply existsb_exists. exists y. rewrite I1, JY. split; [|reflexivity]. unfold lst_of, tree_of. rewrite T. exact IY.
  - rewrite e_of_ref, X. replace (hits h 213 (lst_of h t) x) with true by (symmetry; now apply hits_in). unfold ev_of. rewrite EV. exact ED.
  - rewrite e_of_ref, X. rewrite hits_not by lia. unfold ev_of. rewrite EV. reflexivity.
Qed.
Print Assumptions C52_half.

(* From then on both plugins are the same: whatever is assigned later to whatever property,
   through one or the other, or done with the project's views, every property of the plugin's
   data and of its wrapper reads the same through both. *)
Theorem C52_shared : forall en h t u name h' h2 p i, synced h t -> (t < nt h)%nat -> (u < nt h)%nat ->
  filter (fun e => e_id e =? 213) (events h u) <> [] -> filter (fun e => e_id e =? 212) (events h u) <> [] ->
  plugin_set en h t u name = (h', Ok tt) -> used en h' h2 ->
  (i = 213 \/ i = 212) -> p_ids p = [i] -> filter (fun e => e_id e =? i) (events h t) <> [] ->
  prop_get en h2 (EvModel t) p = prop_get en h2 (EvModel u) p.
Proof.
  intros en h t u name h' h2 p i SY LT LU D W PS U HI PI TI.
  (* the heap after assigning the name *)
  assert (exists h1, same_frame h h1 /\ and_then (replace_from h1 u 213 (lst_of h1 t)) (fun h => replace_from h u 212 (lst_of h t)) = (h', Ok tt)) as (h1 & (FC & FT & FI) & RB).
  { unfold plugin_set in PS. destruct name as [s|]; [|exists h; split; [apply frame_refl|exact PS]].
    pose proof (frame_prop en h (EvModel t) (ev_prop [201]) (VStr s)) as F. destruct (prop_set en h (EvModel t) (ev_prop [201]) (VStr s)) as [h1 [[]|x]]; [|discriminate].
    exists h1. split; [exact F|exact PS]. }
  assert (R1 : forall c, ref_of h1 c = ref_of h c) by (intros; unfold ref_of, cell_of; now rewrite FC).
  assert (ID1 : forall c, id_of h1 c = id_of h c) by (intros; unfold id_of; rewrite !e_of_ref, R1; apply FI).
  assert (L1 : forall v, lst_of h1 v = lst_of h v) by (intros; unfold lst_of, tree_of; now rewrite FT).
  assert (G1 : forall v j, get_ie h1 v [j] = get_ie h v [j]) by (intros; rewrite !get_ie_1, L1; apply filter_ext; intros; now rewrite ID1).
  destruct (filter (fun e => e_id e =? 213) (events h u)) as [|d m] eqn:FD; [congruence|]. destruct (filter (fun e => e_id e =? 212) (events h u)) as [|w n] eqn:FW; [congruence|].
  destruct (first_ie _ _ _ _ _ FD) as (dc & dn & GD & ED & IDd & JD). destruct (first_ie _ _ _ _ _ FW) as (wc & wn & GW & EW & IW & JW).
  destruct (replace_both h1 t u dc dn wc wn) as (hb & EH & EV & T & N & RR & X & IX).
  { intros c I. rewrite L1 in I. unfold nc. rewrite FC. now apply (synced_bound h t SY). } { now rewrite G1. } { now rewrite G1. }
  assert (hb = h') by (unfold and_then in *; congruence). subst hb.
  assert (LT' : (t < nt h')%nat) by (unfold nt; rewrite T, FT; exact LT). assert (LU' : (u < nt h')%nat) by (unfold nt; rewrite T, FT; exact LU).
  assert (G2 : forall v j, get_ie h' v [j] = get_ie h v [j]).
  { intros. rewrite !get_ie_1. replace (lst_of h' v) with (lst_of h v) by (unfold lst_of at 2, tree_of; rewrite T; symmetry; apply L1). apply filter_ext. intros. now rewrite IX, ID1. }
  unfold prop_get. rewrite PI. cbn [get_event]. rewrite !first_of_1, !(used_get_ie _ _ _ _ _ U) by assumption. rewrite !G2.
  destruct (filter (fun e => e_id e =? i) (events h t)) as [|x xs] eqn:FX; [congruence|]. destruct (first_ie _ _ _ _ _ FX) as (xc & xn & GX & EX & IXx & JX). rewrite GX.
  assert (HS : forall id x, hits h1 id (lst_of h1 t) x = hits h id (lst_of h t) x) by (intros; unfold hits; now rewrite ID1, L1).
  assert (HX : forall c j, hits h j (lst_of h t) c = true -> j = id_of h c) by (intros c j HC; apply hits_in in HC; symmetry; tauto).
  destruct HI as [-> | ->].
  - rewrite GD. cbn [option_map bind]. rewrite !(used_ref _ _ _ _ U), !X, !HS. replace (hits h 213 (lst_of h t) xc) with true by (symmetry; now apply hits_in).
    destruct (hits h 213 (lst_of h t) dc) eqn:Q; [reflexivity|]. destruct (hits h 212 (lst_of h t) dc) eqn:Q2; [apply HX in Q2; lia|]. reflexivity.
  - rewrite GW. cbn [option_map bind]. rewrite !(used_ref _ _ _ _ U), !X, !HS. rewrite (hits_not h 213 t xc) by lia. replace (hits h 212 (lst_of h t) xc) with true by (symmetry; now apply hits_in).
    destruct (hits h 213 (lst_of h t) wc) eqn:Q; [apply HX in Q; lia|]. destruct (hits h 212 (lst_of h t) wc) eqn:Q2; reflexivity.
Qed.
Print Assumptions C52_shared.

(* Two channels with the same kind of plugin. *)
Definition plug_chunks : list chunk :=
  [(199, ver20); (64, [1; 0]); (21, [2]); (201, boobass16); (212, repeat 0 52); (213, boobass_data); (145, [0; 0; 0; 0]);
   (64, [2; 0]); (21, [2]); (201, boobass16); (212, repeat 1 52); (213, [0; 0; 0; 0; 9; 0; 0; 0; 9; 0; 0; 0; 9; 0; 0; 0]); (145, [0; 0; 0; 0]);
   (231, title16)].
Definition plug_file : bytes := sample plug_chunks.
Definition plug_h0 : heap := parsed (pr_events (load plug_file)).
Definition plug_h1 : heap := fst (channels plug_h0).
Definition plug_h2 : heap := fst (rack_iter plug_h1 1).
Definition plug_cs : list chan := fst (snd (rack_iter plug_h1 1)).
Definition plug_h3 : heap := fst (plugin_get plug_h2 3 instrument_types).
Definition boobass : pystr := [66; 111; 111; 66; 97; 115; 115].
Definition plug_h4 : heap := fst (plugin_set en0 plug_h3 4 5 (Some boobass)).
Definition bass_prop : prop := MkProp [213] VNone false (PStruct "bass").
Definition plug_h5 : heap := fst (prop_set en0 plug_h4 (EvModel 4) bass_prop (VInt 7)).

Example C52_case : is_bytes plug_file /\ parse en0 plug_file = Ok (load plug_file) /\
  map ch_tree plug_cs = [3; 4]%nat /\ views plug_h0 plug_h3 /\ plugin_get plug_h2 3 instrument_types = (plug_h3, Some (Some KBooBass, 5%nat)) /\
  plugin_set en0 plug_h3 4 5 (Some boobass) = (plug_h4, Ok tt) /\
  chosen [201] (events plug_h3 4) (Some 2%nat) /\
  map e_id (events plug_h3 4) = [64; 21; 201; 212; 213; 145] /\ map e_id (events plug_h3 5) = [212; 213] /\
  events plug_h4 0 = firstn 10 (events plug_h3 0) ++ [e_of plug_h3 4; e_of plug_h3 5] ++ skipn 12 (events plug_h3 0) /\
  events plug_h3 0 <> events plug_h4 0.
Proof.
  destruct (sample_ok plug_chunks ltac:(vm_compute; reflexivity)) as [B _]. split; [exact B|]. split; [vm_compute; reflexivity|]. split; [vm_compute; reflexivity|]. split.
  { eapply views_more with plug_h2.
    - eapply views_more with (fst (separate plug_h1 1 231)).
      + eapply views_more with plug_h1; [eapply views_more; [apply views_none|apply op_subtree; vm_compute; lia]|apply op_separate; vm_compute; lia].
      + unfold plug_h2, rack_iter. destruct (separate plug_h1 1 231) as [ha g] eqn:S. cbn [fst]. destruct (divide ha 1 64 (members ChannelIDs ++ members PluginIDs)) as [hb ts] eqn:D. cbn [fst].
        assert (HB : hb = fst (divide ha 1 64 (members ChannelIDs ++ members PluginIDs))) by now rewrite D. rewrite HB. apply op_divide.
        assert (HA : ha = fst (separate plug_h1 1 231)) by now rewrite S. rewrite HA. vm_compute. lia.
    - change plug_h3 with (fst (plugin_view plug_h2 3)). apply op_subtree. vm_compute. lia. }
  split; [vm_compute; reflexivity|]. split; [vm_compute; reflexivity|]. split.
  { eapply (ch_some _ _ [] 201 []); [reflexivity|intros e _ []|vm_compute; reflexivity|vm_compute; reflexivity|].
    intros [|[|j]] e L; [vm_compute; intros [= <-]; discriminate|vm_compute; intros [= <-]; discriminate|lia]. }
  split; [vm_compute; reflexivity|]. split; [vm_compute; reflexivity|]. split; [vm_compute; reflexivity|].
  intros H. apply (f_equal (fun l => nth_error l 11)) in H. vm_compute in H. discriminate.
Qed.

(* So the copy is not independent: after setting the bass of the second channel's plugin, that
   of the first one is changed as well, though nothing was assigned to it. *)
Theorem C52_refuted : plugin_set en0 plug_h3 4 5 (Some boobass) = (plug_h4, Ok tt) /\
  prop_set en0 plug_h4 (EvModel 4) bass_prop (VInt 7) = (plug_h5, Ok tt) /\
  prop_get en0 plug_h3 (EvModel 3) bass_prop = Ok (VInt 1) /\ prop_get en0 plug_h4 (EvModel 3) bass_prop = Ok (VInt 1) /\
  prop_get en0 plug_h5 (EvModel 3) bass_prop = Ok (VInt 7).
Proof. split; [vm_compute; reflexivity|]. split; [vm_compute; reflexivity|]. split; [vm_compute; reflexivity|]. split; vm_compute; reflexivity. Qed.
Print Assumptions C52_refuted.

(* The conditions on the heap hold for every view of a loaded project. *)
Theorem C52_loaded : forall evs h t, evs <> [] -> views (parsed evs) h -> (t < nt h)%nat -> synced h t /\ in_heap h t.
Proof.
  intros evs h t NE V L. destruct (views_synced _ _ NE V) as (A & _). split; [now apply A|]. now destruct (views_tree _ _ _ NE V L).
Qed.
Print Assumptions C52_loaded.
