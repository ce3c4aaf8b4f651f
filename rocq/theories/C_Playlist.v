(* C64 editing playlist items, C65 numbers of patterns. *)
From Coq Require Import String ZArith List Bool Lia Arith Sorting.Sorted.
From Verif Require Import M_Base M_Float M_Text M_Construct M_Structs M_Events M_Parse M_Tree M_Prop M_Project M_Items M_Collections M_Models.
From Verif Require Import S_Canon S_File S_Domain S_Tree S_Prop S_Project S_Items S_Collections S_Models.
From Verif Require Import P_Base P_TreeBase P_Tree P_TreeEdit P_Prop P_Edit P_Project P_Items P_Patterns P_Arrange P_Session P_Models P_Number.
From Verif Require Import C_Samples C_Patterns C_Arrange.
Import ListNotations.
Open Scope Z_scope.

(* ------------------------------------------------------------------------ C64 *)

(* The offsets of an item are a pair; assigning a pair stores both, in that order, and nothing
   else changes. *)
Theorem C64_offsets : forall evs h r i d a b x y, evs <> [] -> session evs h -> element h r i d ->
  dget d "start_offset" = Some a -> dget d "end_offset" = Some b ->
  offsets_get h (TItem r i) = Ok (VTup [a; b]) /\
  exists h' d', offsets_set h (TItem r i) x y = (h', Ok tt) /\ session evs h' /\ offsets_get h' (TItem r i) = Ok (VTup [x; y]) /\
    item_edited (root_events h) (root_events h') r i d' /\
    forall k, k <> "start_offset"%string -> k <> "end_offset"%string -> dget d' k = dget d k.
Proof.
  intros evs h r i d a b x y NE S EL A B. split.
  - unfold offsets_get. rewrite (element_get _ _ _ _ _ _ EL A), (element_get _ _ _ _ _ _ EL B). reflexivity.
  - destruct (session_item_set evs h r i d "start_offset" x NE S EL) as (h1 & E1 & S1 & _ & EL1 & I1).
    destruct (session_item_set evs h1 r i _ "end_offset" y NE S1 EL1) as (h2 & E2 & S2 & _ & EL2 & I2).
    exists h2, (dset (dset d "start_offset" x) "end_offset" y). split; [unfold offsets_set, and_then; rewrite E1; cbn [fst snd]; exact E2|]. split; [exact S2|]. split.
    + unfold offsets_get. rewrite (element_get _ _ _ _ "start_offset" x EL2), (element_get _ _ _ _ "end_offset" y EL2); [reflexivity|apply dget_dset|].
      rewrite dget_dset_other by discriminate. apply dget_dset.
    + split; [eapply item_edited_twice; eassumption|]. intros k N1 N2. rewrite !dget_dset_other by assumption. reflexivity.
Qed.
Print Assumptions C64_offsets.

(* What the tracks of an arrangement show after the item index of an item was changed. *)
Lemma session_ordered evs h t : evs <> [] -> session evs h -> (t < nt h)%nat -> ordered h t.
Proof. intros NE S L. destruct (session_root _ _ NE S) as (NE' & V & _). apply synced_ordered. destruct (views_synced _ _ NE' V) as (SY & _). now apply SY. Qed.
Lemma shown_after evs h t c l i d v z h' : evs <> [] -> session evs h -> (t < nt h)%nat -> get_ie h t [233] = c :: l ->
  element h (ref_of h c) i d -> number v z -> tg_set h (TItem (ref_of h c) i) "item_index" v = (h', Ok tt) ->
  forall ver cs ps n h2 tl ex k tr q base, max_tracks ver = Ok n -> tracks_iter h' t ver cs ps = (h2, Ok (tl, ex)) ->
    nth_error tl k = Some tr -> In (i, q) (tr_items tr) -> field (VDict d) "pattern_base" base ->
    match q with
    | PlaysChannel ch => z <= base /\ exists j, nth_error cs j = Some ch /\ number (ch_iid ch) z
    | PlaysPattern u => base < z /\ exists j iid, nth_error ps j = Some (iid, u) /\ number iid (z - base)
    end.
Proof.
  intros NE S L G EL NV E ver cs ps n h2 tl ex k tr q base MX TI K IQ FB.
  destruct (session_item_set evs h _ i d "item_index" v NE S EL) as (h'' & E' & S' & SH & EL' & _). assert (h'' = h') by congruence. subst h''. clear E'.
  assert (N' : nt h' = nt h) by (unfold nt; destruct SH as (_ & -> & _); reflexivity).
  assert (ID : forall x, id_of h' x = id_of h x).
  { intros x. destruct (element_set h _ i d "item_index" v EL) as (h3 & w & E3 & O & _). assert (h3 = h') by congruence. subst h3. exact (only_value_id _ _ _ _ O x). }
  assert (G' : get_ie h' t [233] = c :: l) by (rewrite (shape_get h h' t [233] SH ID); exact G).
  assert (RF : ref_of h' c = ref_of h c) by (unfold ref_of, cell_of; destruct SH as (-> & _); reflexivity).
  rewrite <- RF in EL'. destruct (element_first _ _ _ _ _ _ _ G' EL') as (m & F).
  destruct (C44_items h' t ver cs ps n h2 tl ex _ m k tr ltac:(eapply session_ordered; [exact NE|exact S'|lia]) MX TI F K) as (_ & _ & PL).
  destruct (PL i q IQ) as (x & a & b & X & FA & FB' & Q). destruct EL' as (_ & _ & X'). assert (x = VDict (dset d "item_index" v)) by congruence. subst x.
  assert (a = z).
  { destruct FA as (d1 & w & [= <-] & D & W). rewrite dget_dset in D. assert (w = v) by congruence. subst w. eapply number_fun; eassumption. }
  assert (b = base).
  { destruct FB' as (d1 & w & [= <-] & D & W), FB as (d2 & w2 & [= <-] & D2 & W2). rewrite dget_dset_other in D by discriminate. assert (w2 = w) by congruence. subst w2. eapply number_fun; eassumption. }
  subst a b. destruct q as [ch|u].
  - destruct Q as (Q1 & j & Q2 & Q3 & _). split; [exact Q1|]. exists j. split; assumption.
  - destruct Q as (Q1 & j & iid & Q2 & Q3 & _). split; [exact Q1|]. exists j, iid. split; assumption.
Qed.

(* Assigning a channel to an item: only the item's index changes, and if the number of the
   channel is not above the item's base the tracks show the item with a channel of that number. *)
Theorem C64_channel : forall en evs h t c l i d base ch v z, evs <> [] -> session evs h -> (t < nt h)%nat ->
  get_ie h t [233] = c :: l -> element h (ref_of h c) i d -> field (VDict d) "pattern_base" base ->
  ev_get en h (ch_tree ch) [64] = Ok v -> number v z ->
  exists h', item_channel_set en h (TItem (ref_of h c) i) ch = (h', Ok tt) /\ session evs h' /\
    item_edited (root_events h) (root_events h') (ref_of h c) i (dset d "item_index" v) /\
    (z <= base -> forall ver cs ps n h2 tl ex k tr q, max_tracks ver = Ok n -> tracks_iter h' t ver cs ps = (h2, Ok (tl, ex)) ->
       nth_error tl k = Some tr -> In (i, q) (tr_items tr) ->
       exists ch', q = PlaysChannel ch' /\ In ch' cs /\ number (ch_iid ch') z).
Proof.
  intros en evs h t c l i d base ch v z NE S L G EL FB EV NV.
  destruct (session_item_set evs h _ i d "item_index" v NE S EL) as (h' & E & S' & SH & EL' & IE). exists h'.
  split; [unfold item_channel_set, with_res; rewrite EV; exact E|]. split; [exact S'|]. split; [exact IE|].
  intros LE ver cs ps n h2 tl ex k tr q MX TI K IQ.
  pose proof (shown_after evs h t c l i d v z h' NE S L G EL NV E ver cs ps n h2 tl ex k tr q base MX TI K IQ FB) as Q.
  destruct q as [ch'|u]; [|lia]. destruct Q as (_ & j & Q1 & Q2). exists ch'. split; [reflexivity|]. split; [eapply nth_error_In; exact Q1|exact Q2].
Qed.
Print Assumptions C64_channel.

(* Assigning a pattern: the index is the number of the pattern above the item's base; the tracks
   show the item with a pattern of that number, if it is at least 1. *)
Theorem C64_pattern : forall evs h t c l i d base u v z, evs <> [] -> session evs h -> (t < nt h)%nat ->
  get_ie h t [233] = c :: l -> element h (ref_of h c) i d -> field (VDict d) "pattern_base" base ->
  iid_get h u = Ok v -> number v z ->
  exists h', item_pattern_set h (TItem (ref_of h c) i) u = (h', Ok tt) /\ session evs h' /\
    item_edited (root_events h) (root_events h') (ref_of h c) i (dset d "item_index" (VInt (z + base))) /\
    (1 <= z -> forall ver cs ps n h2 tl ex k tr q, max_tracks ver = Ok n -> tracks_iter h' t ver cs ps = (h2, Ok (tl, ex)) ->
       nth_error tl k = Some tr -> In (i, q) (tr_items tr) ->
       exists u' iid, q = PlaysPattern u' /\ In (iid, u') ps /\ number iid z).
Proof.
  intros evs h t c l i d base u v z NE S L G EL FB EV NV.
  destruct (session_item_set evs h _ i d "item_index" (VInt (z + base)) NE S EL) as (h' & E & S' & SH & EL' & IE). exists h'. split.
  { unfold item_pattern_set, with_res. rewrite EV. destruct FB as (d' & w & [= <-] & D & W). rewrite (element_get _ _ _ _ _ _ EL D).
    apply number_as in NV, W. rewrite NV, W. exact E. }
  split; [exact S'|]. split; [exact IE|]. intros LE ver cs ps n h2 tl ex k tr q MX TI K IQ.
  pose proof (shown_after evs h t c l i d (VInt (z + base)) (z + base) h' NE S L G EL ltac:(apply number_as; reflexivity) E ver cs ps n h2 tl ex k tr q base MX TI K IQ FB) as Q.
  destruct q as [ch'|u']; [lia|]. destruct Q as (_ & j & iid & Q1 & Q2). exists u', iid. split; [reflexivity|]. split; [eapply nth_error_In; exact Q1|].
  replace z with (z + base - base) by lia. exact Q2.
Qed.
Print Assumptions C64_pattern.

(* In the arrangement of C44 the second item plays pattern 1, and its base is 5000.  It is given
   other offsets and then the channel 3; both are read back and the tracks show the channel. *)
Definition pl_evs : list event := pr_events (load arr_file).
Lemma arr_session : session pl_evs arr_h2.
Proof.
  apply ses_look with arr_h1; [apply ses_look with arr_heap; [apply ses_load|]|].
  - unfold arr_h1, arrangements. apply op_subtree. apply Nat.ltb_lt. vm_compute. reflexivity.
  - replace arr_h2 with (fst (subtrees arr_h1 1 arrs_sel false 2)) by (vm_compute; reflexivity). apply op_subtrees. apply Nat.ltb_lt. vm_compute. reflexivity.
Qed.
Definition pl_cell : nat := match get_ie arr_h2 3 [233] with c :: _ => c | [] => 0%nat end.
Definition pl_dict : list (string * val) := match nth_error (items (e_of arr_h2 pl_cell)) 1 with Some (VDict d) => d | _ => [] end.
Definition pl_target : target := TItem (ref_of arr_h2 pl_cell) 1.
Definition pl_h3 : heap := fst (offsets_set arr_h2 pl_target (VInt 7) (VInt 8)).
Definition pl_h4 : heap := fst (item_channel_set en0 pl_h3 pl_target (Chan 0 CSampler (VInt 3) 6)).
Example C64_case : is_bytes arr_file /\ parse en0 arr_file = Ok (load arr_file) /\ pl_evs <> [] /\ session pl_evs arr_h2 /\ (3 < nt arr_h2)%nat /\
  get_ie arr_h2 3 [233] = [pl_cell] /\ element arr_h2 (ref_of arr_h2 pl_cell) 1 pl_dict /\ field (VDict pl_dict) "pattern_base" 5000 /\
  dget pl_dict "item_index" = Some (VInt 5001) /\ ev_get en0 arr_h2 0 [64] = Ok (VInt 3) /\
  offsets_set arr_h2 pl_target (VInt 7) (VInt 8) = (pl_h3, Ok tt) /\ offsets_get pl_h3 pl_target = Ok (VTup [VInt 7; VInt 8]) /\
  item_channel_set en0 pl_h3 pl_target (Chan 0 CSampler (VInt 3) 6) = (pl_h4, Ok tt) /\
  offsets_get pl_h4 pl_target = Ok (VTup [VInt 7; VInt 8]) /\
  exists h' a b, tracks_iter pl_h4 3 (FLV 20 8 3 None) arr_cs [(VInt 1, 7%nat)] = (h', Ok ([a; b], None)) /\
    tr_items b = [(1%nat, PlaysChannel (Chan 5 CSampler (VInt 3) 6))].
Proof.
  destruct (sample_ok (arr_chunks [(100, [1; 0])]) ltac:(vm_compute; reflexivity)) as [B _]. split; [exact B|]. split; [vm_compute; reflexivity|].
  split; [vm_compute; discriminate|]. split; [exact arr_session|]. split; [apply Nat.ltb_lt; vm_compute; reflexivity|]. split; [vm_compute; reflexivity|].
  split; [split; [apply Nat.ltb_lt; vm_compute; reflexivity|split; vm_compute; reflexivity]|].
  split; [eexists _, _; split; [reflexivity|]; split; [vm_compute; reflexivity|apply number_as; reflexivity]|].
  split; [vm_compute; reflexivity|]. split; [vm_compute; reflexivity|]. split; [vm_compute; reflexivity|]. split; [vm_compute; reflexivity|].
  split; [vm_compute; reflexivity|]. split; [vm_compute; reflexivity|].
  eexists _, _, _. split; [vm_compute; reflexivity|]. vm_compute. reflexivity.
Qed.

(* A pattern of number 0 cannot be given to an item: the item then plays a channel.  And a
   channel whose number is above the item's base makes the item play a pattern. *)
Definition pz_chunks : list chunk :=
  [(199, ver20); (64, le_enc 2 5002); (64, le_enc 2 5000); (65, [0; 0]); (65, [2; 0]); (99, [0; 0]); (233, pl_item 5001 499); (238, trk 1); (100, [0; 0])].
Definition pz_file : bytes := sample pz_chunks.
Definition pz_h0 : heap := parsed (pr_events (load pz_file)).
Definition pz_h1 : heap := fst (arrangements pz_h0).
Definition pz_h2 : heap := fst (arrs_iter pz_h1 1).
Definition pz_h3 : heap := fst (patterns pz_h2).
Definition pz_h4 : heap := fst (patterns_iter pz_h3 3).
Definition pz_target : target := TItem 6 0.
Definition pz_cs : list chan := [Chan 0 CSampler (VInt 5002) 0; Chan 8 CSampler (VInt 5000) 0].
Definition pz_shown (h : heap) : option (list (nat * plays)) :=
  match tracks_iter h 2 (FLV 20 8 3 None) pz_cs [(VInt 0, 4%nat); (VInt 2, 5%nat)] with
  | (_, Ok ([a], None)) => Some (tr_items a)
  | _ => None
  end.
Theorem C64_refuted : is_bytes pz_file /\ parse en0 pz_file = Ok (load pz_file) /\
  patterns_iter pz_h3 3 = (pz_h4, Ok [4; 5]%nat) /\ iid_get pz_h4 4 = Ok (VInt 0) /\ iid_get pz_h4 5 = Ok (VInt 2) /\
  (exists h', item_pattern_set pz_h4 pz_target 4 = (h', Ok tt) /\ pz_shown h' = Some [(0%nat, PlaysChannel (Chan 8 CSampler (VInt 5000) 0))]) /\
  (ev_get en0 pz_h4 0 [64] = Ok (VInt 5002) /\
   exists h', item_channel_set en0 pz_h4 pz_target (Chan 0 CSampler (VInt 5002) 0) = (h', Ok tt) /\ pz_shown h' = Some [(0%nat, PlaysPattern 5%nat)]).
Proof.
  destruct (sample_ok pz_chunks ltac:(vm_compute; reflexivity)) as [B _]. split; [exact B|]. split; [vm_compute; reflexivity|].
  split; [vm_compute; reflexivity|]. split; [vm_compute; reflexivity|]. split; [vm_compute; reflexivity|]. split.
  - eexists. split; [vm_compute; reflexivity|]. vm_compute. reflexivity.
  - split; [vm_compute; reflexivity|]. eexists. split; [vm_compute; reflexivity|]. vm_compute. reflexivity.
Qed.
Print Assumptions C64_refuted.

(* ------------------------------------------------------------------------ C65 *)

Lemma renumbered_relabelled y n e : relabelled y n e (renumbered y n e).
Proof.
  unfold renumbered. destruct (Z.eqb_spec (e_id e) 65) as [I|I]; cbn [andb]; [|apply rel_same; [tauto|reflexivity]].
  destruct (as_int (e_val e)) as [z|] eqn:A.
  - destruct (Z.eqb_spec z y) as [->|N]; [apply rel_new; [exact I|now apply number_as|reflexivity]|]. apply rel_same; [|reflexivity]. intros (_ & H). apply number_as in H. congruence.
  - apply rel_same; [|reflexivity]. intros (_ & H). apply number_as in H. congruence.
Qed.
Lemma relabelled_map y n l : Forall2 (relabelled y n) l (map (renumbered y n) l).
Proof. induction l; constructor; [apply renumbered_relabelled|assumption]. Qed.

Lemma get_events h t ids : get h t ids = map (e_of h) (get_ie h t ids).
Proof. unfold get, get_ie, events. induction (lst_of h t) as [|c l IH]; [reflexivity|]. cbn [map filter]. change (e_id (e_of h c)) with (id_of h c). destruct (mem_Z (id_of h c) ids); cbn [map]; now rewrite IH. Qed.

(* A pattern is given another number: it reads back, every announcement of the pattern in the
   project now has that number, nothing else changed. *)
Theorem C65_set : forall evs h t h1 us i u y n, evs <> [] -> session evs h -> (t < nt h)%nat -> patterns_iter h t = (h1, Ok us) -> nth_error us i = Some u ->
  announced_in (events h1 u) y ->
  (exists v, iid_get h1 u = Ok v /\ number v y) /\
  iid_get (iid_set h1 u (VInt n)) u = Ok (VInt n) /\ session evs (iid_set h1 u (VInt n)) /\
  Forall2 (relabelled y n) (events h t) (events (iid_set h1 u (VInt n)) t) /\
  (forall r, ~ In r (refs h1 u) -> ev_of (iid_set h1 u (VInt n)) r = ev_of h r) /\
  forall t', lst_of (iid_set h1 u (VInt n)) t' = lst_of h1 t'.
Proof.
  intros evs h t h1 us i u y n NE S L IT U A. pose proof (session_patterns _ _ _ _ _ S L IT) as S1.
  pose proof (session_ordered _ _ _ NE S L) as O. destruct (patterns_label _ _ _ _ _ _ O IT U) as (zs & z & F & FZ & LL & EV).
  destruct (patterns_iter_spec _ _ _ _ O IT) as (_ & _ & X & _).
  assert (z = y) by (destruct A as (e0 & I0 & A0 & N0); rewrite EV in I0; eapply number_fun; [eapply label_announces; eassumption|exact N0]). subst z.
  destruct (renumbered_events evs h t h1 us i u y n NE S L IT U A) as (EV2 & _).
  destruct (set_all_shape (VInt n) (get_ie h1 u [65]) h1) as (SC & ST & SL).
  assert (G : exists c l, get_ie h1 u [65] = c :: l /\ In c (lst_of h1 u) /\ id_of h1 c = 65).
  { destruct A as (e0 & I0 & A0 & N0). unfold events in I0. apply in_map_iff in I0. destruct I0 as (c & E & I).
    destruct (get_ie h1 u [65]) as [|c0 l] eqn:G.
    - exfalso. assert (IC : In c (get_ie h1 u [65])). { rewrite get_ie_one. apply filter_In. split; [exact I|]. unfold id_of. rewrite E. apply Z.eqb_eq. exact A0. } now rewrite G in IC.
    - exists c0, l. split; [reflexivity|]. assert (IC : In c0 (get_ie h1 u [65])) by (rewrite G; now left). rewrite get_ie_one in IC. apply filter_In in IC. destruct IC as [I1 I2]. split; [exact I1|]. now apply Z.eqb_eq. }
  destruct G as (c & l & G & IC & IDC).
  assert (FV : forall h', h_trees h' = h_trees h1 -> (forall x, id_of h' x = id_of h1 x) -> first_val h' u 65 = Ok (e_val (e_of h' c))).
  { intros h' T ID. unfold first_val, first. assert (G' : get_ie h' u [65] = c :: l); [|rewrite get_events, G'; reflexivity].
    rewrite <- G, !get_ie_one. unfold lst_of, tree_of. rewrite T. apply filter_ext. intros x. now rewrite ID. }
  assert (IDS : forall x, id_of (iid_set h1 u (VInt n)) x = id_of h1 x).
  { intros x. rewrite iid_set_all. unfold id_of, e_of, cell_of. rewrite SC. rewrite set_all_ev. destruct (_ && _); reflexivity. }
  split; [|split; [|split; [|split; [|split]]]].
  - exists (e_val (e_of h1 c)). split; [apply FV; reflexivity|]. eapply (label_announces h t zs y F (e_of h1 c)); [|exact IDC]. rewrite <- EV. unfold events. now apply in_map.
  - unfold iid_get. rewrite FV; [|rewrite iid_set_all; exact ST|exact IDS]. rewrite iid_set_all. unfold e_of, cell_of. rewrite SC. fold (cell_of h1 c). fold (ref_of h1 c). rewrite set_all_ev, G. cbn [existsb]. rewrite Nat.eqb_refl. cbn [orb andb].
    destruct (session_root _ _ NE S1) as (NE' & V & _). destruct (views_refs _ _ NE' V) as (R0 & _ & SU).
    assert (LU : (u < nt h1)%nat).
    { destruct (Nat.lt_ge_cases u (nt h1)) as [Y|Y]; [exact Y|]. exfalso. unfold lst_of, tree_of in IC. rewrite nth_overflow in IC by exact Y. exact IC. }
    assert (RL : (ref_of h1 c < length (h_evs h1))%nat).
    { assert (IR : In (ref_of h1 c) (refs h1 u)) by (unfold refs; now apply in_map). apply (subseq_in _ _ _ (SU u LU)) in IR. apply in_seq in IR. lia. }
    apply Nat.ltb_lt in RL. rewrite RL. reflexivity.
  - rewrite iid_set_all. now apply set_all_session.
  - rewrite EV2. apply relabelled_map.
  - intros r N. rewrite iid_set_all, set_all_ev. destruct X as (X1 & _).
    replace (existsb _ _) with false; [unfold ev_of; now rewrite X1|]. symmetry. apply not_true_iff_false. intros E. apply existsb_exists in E. destruct E as (x & I & E). apply Nat.eqb_eq in E.
    apply N. rewrite <- E. unfold refs. apply in_map. rewrite get_ie_one in I. apply filter_In in I. tauto.
  - intros t'. rewrite iid_set_all. unfold lst_of, tree_of. now rewrite ST.
Qed.
Print Assumptions C65_set.

(* Iterating again then gives the same patterns, if the number is new and not 0. *)
Theorem C65_fresh : forall evs h t h1 us i u y n, evs <> [] -> session evs h -> (t < nt h)%nat -> patterns_iter h t = (h1, Ok us) -> nth_error us i = Some u ->
  announced_in (events h1 u) y -> y <> 0 -> n <> 0 -> ~ announced_in (events h t) n ->
  exists h3 ws, patterns_iter (iid_set h1 u (VInt n)) t = (h3, Ok ws) /\ session evs h3 /\
    map (refs h3) ws = map (refs h1) us /\
    Forall2 (Forall2 (relabelled y n)) (map (events h1) us) (map (events h3) ws).
Proof.
  intros evs h t h1 us i u y n NE S L IT U A Y N FR. pose proof (session_patterns _ _ _ _ _ S L IT) as S1.
  pose proof (session_ordered _ _ _ NE S L) as O. destruct (patterns_iter_spec _ _ _ _ O IT) as (zs & F & X & M).
  destruct (renumbered_events evs h t h1 us i u y n NE S L IT U A) as (EV2 & K).
  destruct (set_all_shape (VInt n) (get_ie h1 u [65]) h1) as (SC & ST & SL).
  set (h2 := iid_set h1 u (VInt n)) in *.
  assert (L1 : (t < nt h1)%nat) by (pose proof (extends_nt _ _ X); lia).
  assert (S2 : session evs h2) by (unfold h2; rewrite iid_set_all; now apply set_all_session).
  assert (L2 : (t < nt h2)%nat) by (unfold nt, h2; rewrite iid_set_all, ST; exact L1).
  assert (LT : lst_of h2 t = lst_of h t).
  { unfold lst_of, tree_of, h2. rewrite iid_set_all, ST. fold (tree_of h1 t). now rewrite (extends_tree _ _ _ X L). }
  destruct (renumbered_patterns h h2 t y n h1 us O IT LT (session_ordered _ _ _ NE S2 L2) K Y N FR) as (h3 & ws & IT2 & ME).
  exists h3, ws. split; [exact IT2|]. split; [eapply session_patterns; eassumption|].
  destruct (patterns_iter_spec _ _ _ _ (session_ordered _ _ _ NE S2 L2) IT2) as (_ & _ & X2 & _).
  assert (RF : forall c, ref_of h3 c = ref_of h1 c). { intros c. unfold ref_of, cell_of. destruct X2 as (_ & -> & _). unfold h2. now rewrite iid_set_all, SC. }
  assert (SUB : forall x c, In x us -> In c (lst_of h1 x) -> In c (lst_of h t)).
  { intros x c I IC. assert (IL : In (lst_of h1 x) (map (lst_of h1) us)) by now apply in_map. rewrite M in IL. apply in_map_iff in IL. destruct IL as (z & E & _). rewrite <- E in IC.
    apply labelled_in in IC. apply mine_in in IC. destruct IC as (k & C & _). eapply nth_error_In. exact C. }
  assert (EE : forall x w, In x us -> lst_of h3 w = lst_of h1 x -> Forall2 (relabelled y n) (events h1 x) (events h3 w)).
  { intros x w I E. unfold events. rewrite E. assert (E2 : map (e_of h3) (lst_of h1 x) = map (renumbered y n) (map (e_of h1) (lst_of h1 x))); [|rewrite E2; apply relabelled_map].
    rewrite map_map. apply map_ext_in. intros c IC. destruct X as (X1 & X3 & _), X2 as (Y1 & Y3 & _).
    replace (e_of h3 c) with (e_of h2 c) by (unfold e_of, ev_of, cell_of; now rewrite Y1, Y3).
    replace (e_of h1 c) with (e_of h c) by (unfold e_of, ev_of, cell_of; now rewrite X1, X3). apply K. eapply SUB; eassumption. }
  assert (LE : length ws = length us) by (apply (f_equal (@length _)) in ME; now rewrite !map_length in ME).
  split.
  - apply list_ext_nth. intros j. rewrite !nth_error_map. apply (f_equal (fun l => nth_error l j)) in ME. rewrite !nth_error_map in ME.
    destruct (nth_error ws j) as [w|], (nth_error us j) as [x|]; try discriminate ME; [|reflexivity]. cbn [option_map] in *. f_equal. assert (E : lst_of h3 w = lst_of h1 x) by congruence. unfold refs. rewrite E. apply map_ext. exact RF.
  - clear -ME EE. revert ws ME. induction us as [|x us IH]; intros [|w ws] ME; try discriminate ME; [constructor|]. cbn [map] in *. constructor.
    + apply EE; [now left|congruence].
    + apply IH; [intros x' w' I; apply EE; now right|congruence].
Qed.
Print Assumptions C65_fresh.

(* A pattern known only from events before any announcement has no number and cannot get one. *)
Theorem C65_unnumbered : forall h u v, ~ (exists e, In e (events h u) /\ announces e) -> iid_get h u = Err KeyError /\ iid_set h u v = h.
Proof.
  intros h u v N. assert (G : get_ie h u [65] = []).
  { destruct (get_ie h u [65]) as [|c l] eqn:G; [reflexivity|]. exfalso. assert (IC : In c (get_ie h u [65])) by (rewrite G; now left). rewrite get_ie_one in IC. apply filter_In in IC. destruct IC as [I1 I2].
    apply N. exists (e_of h c). split; [unfold events; now apply in_map|]. now apply Z.eqb_eq. }
  unfold iid_get, iid_set, first_val, first. rewrite get_events, G. split; reflexivity.
Qed.
Print Assumptions C65_unnumbered.

(* The file of C43: pattern 2 is renumbered 7, both its announcements follow and the patterns
   stay; renumbered 1, it is joined with the pattern that had the number 1. *)
Definition num_h : heap := iid_set pat_iter 3 (VInt 7).
Example C65_case : is_bytes pat_file /\ parse en0 pat_file = Ok (load pat_file) /\ session (pr_events (load pat_file)) pat_view /\ (1 < nt pat_view)%nat /\
  patterns_iter pat_view 1 = (pat_iter, Ok [2; 3; 4]%nat) /\ announced_in (events pat_iter 3) 2 /\ ~ announced_in (events pat_view 1) 7 /\
  iid_get pat_iter 3 = Ok (VInt 2) /\ iid_get num_h 3 = Ok (VInt 7) /\
  map e_val (filter (fun e => e_id e =? 65) (events num_h 0)) = [VInt 7; VInt 1; VInt 7] /\
  exists h3, patterns_iter num_h 1 = (h3, Ok [5; 6; 7]%nat) /\ map (fun w => map e_id (events h3 w)) [5; 6; 7]%nat = [[193]; [65; 65; 150]; [65; 193; 148]].
Proof.
  destruct (sample_ok pat_chunks ltac:(vm_compute; reflexivity)) as [B _]. split; [exact B|]. split; [vm_compute; reflexivity|].
  split. { apply ses_look with pat_heap; [apply ses_load|]. apply op_subtree. apply Nat.ltb_lt. vm_compute. reflexivity. }
  split; [apply Nat.ltb_lt; vm_compute; reflexivity|]. split; [vm_compute; reflexivity|].
  split. { exists (Event 65 KU16 2 false (VInt 2)). split; [vm_compute; tauto|]. split; [reflexivity|apply number_as; reflexivity]. }
  split. { intros (e & I & A & N). apply number_as in N.
    assert (K : forallb (fun e => negb (e_id e =? 65) || negb (match as_int (e_val e) with Some z => z =? 7 | None => false end)) (events pat_view 1) = true) by (vm_compute; reflexivity).
    rewrite forallb_forall in K. specialize (K e I). rewrite N, A in K. discriminate K. }
  split; [vm_compute; reflexivity|]. split; [vm_compute; reflexivity|]. split; [vm_compute; reflexivity|].
  eexists. split; [vm_compute; reflexivity|]. vm_compute. reflexivity.
Qed.
Theorem C65_refuted : is_bytes pat_file /\ parse en0 pat_file = Ok (load pat_file) /\
  patterns_iter pat_view 1 = (pat_iter, Ok [2; 3; 4]%nat) /\ announced_in (events pat_iter 3) 2 /\
  exists h3, patterns_iter (iid_set pat_iter 3 (VInt 1)) 1 = (h3, Ok [5; 6]%nat) /\ map (fun w => map e_id (events h3 w)) [5; 6]%nat = [[193]; [65; 65; 193; 148; 65; 150]].
Proof.
  destruct (sample_ok pat_chunks ltac:(vm_compute; reflexivity)) as [B _]. split; [exact B|]. split; [vm_compute; reflexivity|].
  split; [vm_compute; reflexivity|].
  split. { exists (Event 65 KU16 2 false (VInt 2)). split; [vm_compute; tauto|]. split; [reflexivity|apply number_as; reflexivity]. }
  eexists. split; [vm_compute; reflexivity|]. vm_compute. reflexivity.
Qed.
Print Assumptions C65_refuted.
