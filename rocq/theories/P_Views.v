(* Proofs about the views a project hands to its collections. *)
From Coq Require Import String ZArith List Bool Lia Arith.
From Verif Require Import M_Base M_Float M_Text M_Construct M_Structs M_Events M_Parse M_Tree M_Prop M_Project M_Items M_Collections.
From Verif Require Import S_Tree S_Prop S_Project S_Items S_Collections.
From Verif Require Import P_Base P_TreeBase P_Tree P_TreeEdit P_Patterns.
Import ListNotations.
Open Scope Z_scope.

Definition yes (a : option bool) : bool := match a with Some true => true | _ => false end.

Section Latch.
  Variable h : heap.
  Variable sel : bool -> event -> bool * option bool.
  Variables trig g0 g1 : event -> bool.
  Hypothesis H0 : forall e, trig e = false -> fst (sel false e) = false /\ yes (snd (sel false e)) = g0 e.
  Hypothesis H1 : forall e, trig e = true -> fst (sel false e) = true /\ yes (snd (sel false e)) = g1 e.
  Hypothesis H2 : forall e, fst (sel true e) = true /\ yes (snd (sel true e)) = g1 e.

  Lemma select_cons s c l : select_list h sel s (c :: l) =
    (if yes (snd (sel s (e_of h c))) then [c] else []) ++ select_list h sel (fst (sel s (e_of h c))) l.
  Proof. cbn [select_list]. destruct (sel s (e_of h c)) as [s' [[]|]]; reflexivity. Qed.
  Lemma select_after l : select_list h sel true l = filter (fun c => g1 (e_of h c)) l.
  Proof.
    induction l as [|c l IH]; [reflexivity|]. rewrite select_cons. destruct (H2 (e_of h c)) as [-> ->]. rewrite IH. cbn [filter].
    now destruct (g1 (e_of h c)).
  Qed.
  Lemma select_latch l : exists a b, cut_before (fun c => trig (e_of h c)) l a b /\
    select_list h sel false l = filter (fun c => g0 (e_of h c)) a ++ filter (fun c => g1 (e_of h c)) b.
  Proof.
    induction l as [|c l IH].
    - exists [], []. split; [repeat split|reflexivity].
    - rewrite select_cons. destruct (trig (e_of h c)) eqn:T.
      + destruct (H1 _ T) as [-> ->]. exists [], (c :: l). split; [split; [reflexivity|split; [reflexivity|exact T]]|].
        rewrite select_after. cbn [filter app]. now destruct (g1 (e_of h c)).
      + destruct (H0 _ T) as [-> ->]. destruct IH as (a & b & (-> & F & HB) & ->). exists (c :: a), b. split.
        * split; [reflexivity|]. split; [|exact HB]. cbn [forallb]. rewrite T. exact F.
        * cbn [filter]. now destruct (g0 (e_of h c)).
  Qed.
End Latch.

(* a choice without memory *)
Lemma select_plain h (sel : unit -> event -> unit * option bool) g : (forall e, yes (snd (sel tt e)) = g e) -> forall l,
  select_list h sel tt l = filter (fun c => g (e_of h c)) l.
Proof.
  intros H. induction l as [|c l IH]; [reflexivity|]. cbn [select_list filter]. rewrite <- H. destruct (sel tt (e_of h c)) as [[] [[]|]]; cbn [snd yes]; now rewrite IH.
Qed.

Lemma subtree_spec S h t (sel : S -> event -> S * option bool) s h' u : ordered h t -> subtree h t sel s = (h', u) ->
  u = nt h /\ extends h h' /\ nt h' = Datatypes.S (nt h) /\ lst_of h' u = select_list h sel s (lst_of h t) /\ ordered h' u.
Proof.
  intros O E. unfold subtree in E. pose proof (new_tree_ext h (Some t) (select_list h sel s (lst_of h t))) as X. rewrite E in X. cbn [fst] in X.
  destruct (new_tree_self _ _ _ _ _ E) as (-> & N & P & L). rewrite (init_subseq h t) in L by auto using select_subseq.
  split; [reflexivity|]. split; [exact X|]. split; [exact N|]. split; [exact L|]. unfold ordered, keys. rewrite L, (extends_r _ _ X).
  apply (subseq_sorted _ _ _ (map (r_of h) (lst_of h t))); [apply subseq_map, select_subseq|exact O].
Qed.

Lemma existsb_mem id l : existsb (Z.eqb id) l = mem_Z id l. Proof. reflexivity. Qed.
Ltac same_ids := apply eq_true_iff_eq; rewrite ?orb_true_iff, ?mem_Z_in, ?existsb_mem, ?mem_Z_in; vm_compute; tauto.

Lemma marker_ids id : mem_Z id (members TimeMarkerIDs) = marker_id id. Proof. unfold marker_id. same_ids. Qed.
Lemma plugin_ids id : mem_Z id (members PluginIDs) = plugin_id id. Proof. unfold plugin_id. same_ids. Qed.
Lemma mem_app id a b : mem_Z id (a ++ b) = mem_Z id a || mem_Z id b.
Proof. apply eq_true_iff_eq. rewrite orb_true_iff, !mem_Z_in, in_app_iff. reflexivity. Qed.
Lemma pattern_ids' id : mem_Z id (members PatternIDs) = pattern_id id. Proof. unfold pattern_id. same_ids. Qed.
Lemma patterns_ids id : mem_Z id (members PatternsIDs) = patterns_id id. Proof. unfold patterns_id. same_ids. Qed.
Lemma channel_ids id : mem_Z id (members ChannelIDs) = channel_id id.
Proof. apply eq_true_iff_eq. unfold channel_id. rewrite existsb_mem, !mem_Z_in. reflexivity. Qed.
Lemma rack_ids id : mem_Z id (members DisplayGroupIDs) || mem_Z id (members RackIDs) = rack_id id.
Proof. rewrite <- mem_app. apply eq_true_iff_eq. unfold rack_id. rewrite existsb_mem, !mem_Z_in. vm_compute. tauto. Qed.
Lemma insert_ids id : mem_Z id (members InsertIDs) = insert_id id. Proof. unfold insert_id. same_ids. Qed.
Lemma slot_ids id : mem_Z id (members SlotIDs) = slot_id id.
Proof. unfold slot_id. change (members SlotIDs) with [98]. apply mem_Z_1. Qed.
Lemma mixer_ids id : mem_Z id (members MixerIDs ++ members InsertIDs ++ members SlotIDs) = mixer_id id.
Proof. rewrite !mem_app, insert_ids, slot_ids. unfold mixer_id. change (members MixerIDs) with [29; 225]. rewrite existsb_mem. destruct (mem_Z id [29; 225]), (insert_id id), (slot_id id); reflexivity. Qed.
Lemma arrangement_ids id : mem_Z id (members ArrangementIDs) = arrangement_id id. Proof. unfold arrangement_id. same_ids. Qed.
Lemma arrangements_ids id : mem_Z id (members ArrangementsIDs) = arrangements_id id. Proof. unfold arrangements_id. same_ids. Qed.
Lemma track_ids id : mem_Z id (members TrackIDs) = track_id id. Proof. unfold track_id. same_ids. Qed.

(* the view of the patterns *)
Lemma patterns_view h h1 t : ordered h 0 -> patterns h = (h1, t) ->
  exists a b, cut_before (fun c => id_of h c =? 99) (lst_of h 0) a b /\
    lst_of h1 t = filter (fun c => pattern_id (id_of h c) || patterns_id (id_of h c) || marker_id (id_of h c)) a ++
                  filter (fun c => pattern_id (id_of h c) || patterns_id (id_of h c)) b.
Proof.
  intros O E. destruct (subtree_spec _ _ _ _ _ _ _ O E) as (-> & _ & _ & L & _).
  destruct (select_latch h patterns_sel (fun e => e_id e =? 99)
    (fun e => pattern_id (e_id e) || patterns_id (e_id e) || marker_id (e_id e)) (fun e => pattern_id (e_id e) || patterns_id (e_id e))) with (l := lst_of h 0) as (a & b & C & S).
  - intros e T. unfold patterns_sel. rewrite T, mem_app, marker_ids, pattern_ids', patterns_ids.
    destruct (marker_id (e_id e)), (pattern_id (e_id e)), (patterns_id (e_id e)); split; reflexivity.
  - intros e T. unfold patterns_sel. rewrite T. split; [reflexivity|]. apply Z.eqb_eq in T. rewrite T. reflexivity.
  - intros e. unfold patterns_sel. rewrite mem_app, pattern_ids', patterns_ids, andb_false_r.
    destruct (Z.eqb_spec (e_id e) 99) as [T|T]; [rewrite T; split; reflexivity|]. destruct (pattern_id (e_id e)), (patterns_id (e_id e)); split; reflexivity.
  - exists a, b. split; [exact C|]. rewrite L. exact S.
Qed.

Lemma arrangements_view h h1 t : ordered h 0 -> arrangements h = (h1, t) ->
  exists a b, cut_before (fun c => id_of h c =? 99) (lst_of h 0) a b /\
    lst_of h1 t = filter (fun c => arrangements_id (id_of h c) || arrangement_id (id_of h c) || track_id (id_of h c)) a ++
                  filter (fun c => arrangements_id (id_of h c) || arrangement_id (id_of h c) || track_id (id_of h c) || marker_id (id_of h c)) b.
Proof.
  intros O E. destruct (subtree_spec _ _ _ _ _ _ _ O E) as (-> & _ & _ & L & _).
  destruct (select_latch h arrangements_sel (fun e => e_id e =? 99)
    (fun e => arrangements_id (e_id e) || arrangement_id (e_id e) || track_id (e_id e))
    (fun e => arrangements_id (e_id e) || arrangement_id (e_id e) || track_id (e_id e) || marker_id (e_id e))) with (l := lst_of h 0) as (a & b & C & S).
  - intros e T. unfold arrangements_sel. rewrite T, !mem_app, arrangement_ids, arrangements_ids, track_ids, andb_false_r.
    destruct (arrangement_id (e_id e)), (arrangements_id (e_id e)), (track_id (e_id e)); split; reflexivity.
  - intros e T. unfold arrangements_sel. rewrite T. apply Z.eqb_eq in T. rewrite T. split; reflexivity.
  - intros e. unfold arrangements_sel. rewrite !mem_app, arrangement_ids, arrangements_ids, track_ids, marker_ids.
    replace (if e_id e =? 99 then true else true) with true by now destruct (e_id e =? 99). rewrite andb_true_r.
    destruct (marker_id (e_id e)), (arrangement_id (e_id e)), (arrangements_id (e_id e)), (track_id (e_id e)); split; reflexivity.
  - exists a, b. split; [exact C|]. rewrite L. exact S.
Qed.

Lemma mixer_view h h1 t : ordered h 0 -> mixer h = (h1, t) ->
  exists a b, cut_before (fun c => mixer_id (id_of h c)) (lst_of h 0) a b /\
    lst_of h1 t = filter (fun c => mixer_id (id_of h c) || plugin_id (id_of h c)) b.
Proof.
  intros O E. destruct (subtree_spec _ _ _ _ _ _ _ O E) as (-> & _ & _ & L & _).
  destruct (select_latch h mixer_sel (fun e => mixer_id (e_id e)) (fun _ => false)
    (fun e => mixer_id (e_id e) || plugin_id (e_id e))) with (l := lst_of h 0) as (a & b & C & S).
  - intros e T. unfold mixer_sel. rewrite mixer_ids, T. split; reflexivity.
  - intros e T. unfold mixer_sel. rewrite mixer_ids, T. split; reflexivity.
  - intros e. unfold mixer_sel. rewrite mixer_ids, plugin_ids. destruct (mixer_id (e_id e)), (plugin_id (e_id e)); split; reflexivity.
  - exists a, b. split; [exact C|]. rewrite L. etransitivity; [exact S|].
    assert (X : filter (fun _ : nat => false) a = []) by (clear; induction a; [reflexivity|assumption]). now rewrite X.
Qed.

Lemma channels_view h h1 t : ordered h 0 -> channels h = (h1, t) ->
  lst_of h1 t = filter (fun c => channel_id (id_of h c) || plugin_id (id_of h c) || rack_id (id_of h c)) (lst_of h 0).
Proof.
  intros O E. destruct (subtree_spec _ _ _ _ _ _ _ O E) as (-> & _ & _ & L & _). rewrite L.
  apply (select_plain h channels_sel (fun e => channel_id (e_id e) || plugin_id (e_id e) || rack_id (e_id e))).
  intros e. unfold channels_sel. cbn [snd]. rewrite !mem_app, channel_ids, plugin_ids. rewrite <- rack_ids.
  destruct (Z.eqb_spec (e_id e) 236) as [T|T]; [rewrite T; reflexivity|].
  destruct (channel_id (e_id e)), (plugin_id (e_id e)), (mem_Z (e_id e) (members DisplayGroupIDs)), (mem_Z (e_id e) (members RackIDs)); reflexivity.
Qed.

Lemma parsed_ordered evs : ordered (parsed evs) 0.
Proof. apply synced_ordered, parsed_synced. unfold nt, parsed. cbn. lia. Qed.

Lemma cut_before_fun A (p : A -> bool) l a b a' b' : cut_before p l a b -> cut_before p l a' b' -> a' = a /\ b' = b.
Proof.
  intros (-> & F & B) (E & F' & B'). revert a' b' E F F' B B'. induction a as [|x a IH]; intros [|y a'] b' E F F' B B'; cbn [app forallb] in *.
  - auto.
  - subst b. apply andb_true_iff in F'. destruct F' as [F' _]. now rewrite B in F'.
  - subst b'. apply andb_true_iff in F. destruct F as [F _]. now rewrite B' in F.
  - injection E as <- E. apply andb_true_iff in F, F'. destruct (IH a' b' E) as [-> ->]; tauto.
Qed.
