(* C71 time markers of arrangements and patterns. *)
From Coq Require Import String ZArith List Bool Lia Arith.
From Verif Require Import M_Base M_Float M_Text M_Construct M_Structs M_Events M_Parse M_Tree M_Prop M_Project M_Items M_Collections M_Models M_Markers.
From Verif Require Import S_Canon S_File S_Domain S_Tree S_Prop S_Project S_Items S_Collections S_Models.
From Verif Require Import P_Base P_TreeBase P_Tree P_TreeEdit P_Prop P_Edit P_Project P_Items P_Patterns P_Session P_Models.
From Verif Require Import C_Samples C_Tree C_Dicts C_Paths.
Import ListNotations.
Open Scope Z_scope.

Definition marker_ids : list Z := [33; 34; 148; 205].
Lemma timemarkers_eq h t : timemarkers h t = group h t marker_ids.
Proof. reflexivity. Qed.
(* the events of one id in a view *)
Definition at_id (h : heap) (t : nat) (id : Z) : list nat := filter (fun r => e_id (ev_of h r) =? id) (refs h t).
Lemma at_cells h t id : at_id h t id = map (ref_of h) (filter (fun c => id_of h c =? id) (lst_of h t)).
Proof.
  unfold at_id, refs. induction (lst_of h t) as [|c l IH]; [reflexivity|]. cbn [map filter]. change (e_id (ev_of h (ref_of h c))) with (id_of h c).
  destruct (id_of h c =? id); cbn [map]; now rewrite IH.
Qed.
Lemma at_events h t id : filter (fun e => e_id e =? id) (events h t) = map (ev_of h) (at_id h t id).
Proof. rewrite events_refs. unfold at_id. induction (refs h t) as [|r l IH]; [reflexivity|]. cbn [map filter]. destruct (_ =? _); cbn [map]; now rewrite IH. Qed.

Lemma markers_spec evs h t h1 us : evs <> [] -> session evs h -> (t < nt h)%nat -> timemarkers h t = (h1, us) ->
  extends h h1 /\ session evs h1 /\ length us = list_max (map (fun id => length (at_id h t id)) marker_ids) /\
  forall k u, nth_error us k = Some u -> (u < nt h1)%nat /\ subseq (refs h1 u) (refs h t) /\
    forall r, In r (refs h1 u) <-> exists id, In id marker_ids /\ nth_error (at_id h t id) k = Some r.
Proof.
  intros NE S L E. rewrite timemarkers_eq in E. assert (ND : NoDup marker_ids) by (repeat constructor; cbn; intuition discriminate).
  assert (S' : session evs h1) by (apply ses_look with h; [exact S|]; replace h1 with (fst (group h t marker_ids)) by (now rewrite E); now apply op_group).
  destruct (C17_group h t _ h1 us (session_order _ _ _ NE S L) ND E) as (LN & K). pose proof E as E'. unfold group in E'. destruct (new_trees_spec _ _ _ _ _ E') as (X & _).
  split; [exact X|]. split; [exact S'|]. split; [rewrite LN; f_equal; apply map_ext; intros id; now rewrite at_cells, map_length|].
  intros k u U. destruct (K k u U) as (SU & I). assert (RF : forall c, ref_of h1 c = ref_of h c) by (intros c; unfold ref_of, cell_of; now destruct X as (_ & -> & _)).
  assert (RE : refs h1 u = map (ref_of h) (lst_of h1 u)) by (unfold refs; apply map_ext; exact RF).
  split; [|split].
  - apply nth_error_In in U. destruct (Nat.lt_ge_cases u (nt h1)) as [Y|Y]; [exact Y|exfalso].
    destruct (new_trees_spec _ _ _ _ _ E') as (_ & US & NT & _). rewrite US in U. apply in_seq in U. lia.
  - rewrite RE. unfold refs. now apply subseq_map.
  - intros r. rewrite RE, in_map_iff. split.
    + intros (c & <- & C). apply I in C. destruct C as (id & A & B). exists id. split; [exact A|]. now rewrite at_cells, nth_error_map, B.
    + intros (id & A & B). rewrite at_cells, nth_error_map in B. destruct (nth_error (filter (fun c => id_of h c =? id) (lst_of h t)) k) as [c|] eqn:C; [|discriminate]. assert (B' : ref_of h c = r) by (cbn [option_map] in B; now injection B). exists c. split; [exact B'|]. apply I. exists id. auto.
Qed.

Lemma nth_all A (a b : list A) : (forall i, nth_error a i = nth_error b i) -> a = b.
Proof.
  revert b. induction a as [|x a IH]; intros [|y b] H; [reflexivity|specialize (H 0%nat); discriminate|specialize (H 0%nat); discriminate|].
  pose proof (H 0%nat) as H0. cbn in H0. injection H0 as ->. f_equal. apply IH. intros i. exact (H (S i)).
Qed.
Lemma nodup_one (l : list nat) o : NoDup l -> (forall r, In r l <-> o = Some r) -> l = match o with Some r => [r] | None => [] end.
Proof.
  intros N I. destruct o as [x|].
  - assert (IX : In x l) by now apply I. destruct l as [|a [|b l]]; [destruct IX|assert (IA : In a [a]) by (now left); apply I in IA; congruence|].
    exfalso. assert (A : In a (a :: b :: l)) by now left. assert (B : In b (a :: b :: l)) by (right; now left). apply I in A, B. inversion N as [|? ? N1 _]; subst. apply N1. left. congruence.
  - destruct l as [|a l]; [reflexivity|]. exfalso. assert (A : In a (a :: l)) by now left. apply I in A. discriminate.
Qed.
Lemma in_ids_at h t id k r : nth_error (at_id h t id) k = Some r -> e_id (ev_of h r) = id /\ In r (refs h t).
Proof. intros N. apply nth_error_In in N. unfold at_id in N. apply filter_In in N. destruct N as [I E]. apply Z.eqb_eq in E. auto. Qed.
(* the events of a marker *)
Lemma marker_at evs h t h1 us k u id : evs <> [] -> session evs h -> (t < nt h)%nat -> timemarkers h t = (h1, us) -> nth_error us k = Some u -> In id marker_ids ->
  at_id h1 u id = match nth_error (at_id h t id) k with Some r => [r] | None => [] end.
Proof.
  intros NE S L E U I. destruct (markers_spec evs h t h1 us NE S L E) as (X & S1 & _ & M). destruct (M k u U) as (LU & SU & R).
  destruct (session_root _ _ NE S) as (NE' & V & _). destruct (views_tree _ _ t NE' V L) as (_ & ND & _).
  assert (EV : forall s, ev_of h1 s = ev_of h s) by (intros s; unfold ev_of; now destruct X as (-> & _)).
  apply nodup_one; [apply NoDup_filter; eapply subseq_nodup; eassumption|]. intros r. unfold at_id at 1. rewrite filter_In, Z.eqb_eq, EV, R. split.
  - intros ((id' & I' & N) & EI). destruct (in_ids_at _ _ _ _ _ N) as (EI' & _). congruence.
  - intros N. split; [eauto|]. now destruct (in_ids_at _ _ _ _ _ N).
Qed.
Lemma marker_value evs h t h1 us k u id : evs <> [] -> session evs h -> (t < nt h)%nat -> timemarkers h t = (h1, us) -> nth_error us k = Some u -> In id marker_ids ->
  value_of id (events h1 u) = option_map e_val (nth_error (filter (fun e => e_id e =? id) (events h t)) k).
Proof.
  intros NE S L E U I. rewrite value_of_filter, at_events, (marker_at evs h t h1 us k u id NE S L E U I), at_events, nth_error_map.
  destruct (markers_spec evs h t h1 us NE S L E) as (X & _). destruct (nth_error (at_id h t id) k) as [r|]; [|reflexivity]. cbn [map option_map].
  unfold ev_of. destruct X as (-> & _). reflexivity.
Qed.

Definition attr_id (a : marker_attr) : Z := match a with MName => 205 | MNumerator => 33 | MDenominator => 34 | _ => 148 end.
Lemma attr_in a : In (attr_id a) marker_ids.
Proof. destruct a; cbn; tauto. Qed.
(* The k-th marker shows, of each sort, the k-th event: name, numerator and denominator as they
   are, position and type from the k-th position (C41_split).  There are as many markers as
   events of the most frequent sort.  Looking changes nothing. *)
Theorem C71_markers : forall en evs h t h1 us, evs <> [] -> session evs h -> (t < nt h)%nat -> timemarkers h t = (h1, us) ->
  session evs h1 /\ root_events h1 = root_events h /\
  (forall k, (k < length us)%nat <-> exists id, In id [33; 34; 148; 205] /\ nth_error (filter (fun e => e_id e =? id) (events h t)) k <> None) /\
  forall k u, nth_error us k = Some u ->
    (forall a, a = MName \/ a = MNumerator \/ a = MDenominator ->
       marker_get en h1 u a = Ok (match nth_error (filter (fun e => e_id e =? attr_id a) (events h t)) k with Some e => e_val e | None => VNone end)) /\
    value_of 148 (events h1 u) = option_map e_val (nth_error (filter (fun e => e_id e =? 148) (events h t)) k).
Proof.
  intros en evs h t h1 us NE S L E. destruct (markers_spec evs h t h1 us NE S L E) as (X & S1 & LN & M). split; [exact S1|].
  split; [destruct (session_root _ _ NE S) as (_ & _ & ->), (session_root _ _ NE S1) as (_ & _ & ->); apply X|]. split.
  - intros k. rewrite LN. split.
    + intros K. assert (Q : exists id, In id marker_ids /\ (k < length (at_id h t id))%nat).
      { clear - K. induction marker_ids as [|i l IH]; [cbn in K; lia|]. cbn [map] in K. change (list_max (?a :: ?b)) with (Nat.max a (list_max b)) in K.
        destruct (Nat.lt_ge_cases k (length (at_id h t i))) as [G|G]; [exists i; split; [now left|exact G]|]. destruct IH as (id & I & J); [lia|]. exists id. split; [now right|exact J]. }
      destruct Q as (id & I & J). exists id. split; [exact I|]. rewrite at_events. apply nth_error_Some. now rewrite map_length.
    + intros (id & I & N). apply nth_error_Some in N. rewrite at_events, map_length in N. eapply Nat.lt_le_trans; [exact N|].
      assert (LM : forall l n, In n l -> (n <= list_max l)%nat).
      { induction l as [|m l IH]; intros n J; [destruct J|]. destruct J as [->|J]; change (list_max (?a :: ?b)) with (Nat.max a (list_max b)); [lia|]. specialize (IH n J). lia. }
      apply LM. apply in_map_iff. exists id. split; [reflexivity|exact I].
  - intros k u U. split; [|apply (marker_value evs h t h1 us k u 148 NE S L E U); cbn; tauto].
    intros a A. assert (marker_get en h1 u a = ev_get en h1 u [attr_id a]) as -> by (destruct A as [->|[->| ->]]; reflexivity). rewrite ev_get_one.
    rewrite (marker_value evs h t h1 us k u _ NE S L E U (attr_in a)). clear - a. now destruct (nth_error (filter (fun e => e_id e =? attr_id a) (events h t)) k).
Qed.
Print Assumptions C71_markers.

(* If the project keeps the events of a marker together - position, numerator, denominator and
   name once each, in any order - the markers are these groups, in order. *)
Lemma subseq_filter_of (a l : list nat) : subseq a l -> NoDup l -> a = filter (fun x => existsb (Nat.eqb x) a) l.
Proof.
  induction 1 as [l|x a b H IH|x a b H IH]; intros N.
  - clear N. induction l as [|y l IHl]; [reflexivity|exact IHl].
  - inversion N as [|? ? N1 N2]; subst. cbn [filter existsb]. rewrite Nat.eqb_refl. cbn [orb]. f_equal. rewrite (IH N2) at 1. apply filter_ext_in. intros y Y.
    destruct (Nat.eqb_spec y x) as [->|]; [contradiction|reflexivity].
  - inversion N as [|? ? N1 N2]; subst. cbn [filter]. destruct (existsb (Nat.eqb x) a) eqn:E; [|now apply IH]. exfalso. apply N1. apply existsb_exists in E. destruct E as (y & Y & EY). apply Nat.eqb_eq in EY. subst y.
    eapply subseq_in; eassumption.
Qed.
Lemma subseq_same (a b l : list nat) : NoDup l -> subseq a l -> subseq b l -> (forall x, In x a <-> In x b) -> a = b.
Proof.
  intros N SA SB E. rewrite (subseq_filter_of _ _ SA N), (subseq_filter_of _ _ SB N). apply filter_ext. intros x. apply eq_true_iff_eq. rewrite !existsb_exists.
  split; intros (y & Y & Q); exists y; (split; [now apply E|exact Q]).
Qed.
Lemma filter_concat (f : nat -> bool) bs : filter f (concat bs) = concat (map (filter f) bs).
Proof. induction bs as [|b bs IH]; [reflexivity|]. cbn [concat map]. now rewrite filter_app, IH. Qed.
Lemma nth_concat_ones : forall (bs : list (list nat)) k, Forall (fun b => length b = 1%nat) bs -> nth_error (concat bs) k = match nth_error bs k with Some (r :: _) => Some r | _ => None end.
Proof.
  induction bs as [|b bs IH]; intros k F; [destruct k; reflexivity|]. inversion F as [|? ? F1 F2]; subst. destruct b as [|r [|]]; try discriminate F1. cbn [concat app]. destruct k as [|k]; [reflexivity|]. cbn [nth_error]. now apply IH.
Qed.
Theorem C71_blocks : forall evs h t h1 us bs, evs <> [] -> session evs h -> (t < nt h)%nat -> timemarkers h t = (h1, us) ->
  filter (fun r => marker_id (e_id (ev_of h r))) (refs h t) = concat bs ->
  (forall b id, In b bs -> In id [33; 34; 148; 205] -> exists r, filter (fun r => e_id (ev_of h r) =? id) b = [r]) ->
  map (refs h1) us = bs.
Proof.
  intros evs h t h1 us bs NE S L E C B. destruct (markers_spec evs h t h1 us NE S L E) as (X & S1 & LN & M).
  destruct (session_root _ _ NE S) as (NE' & V & _). destruct (views_tree _ _ t NE' V L) as (_ & ND & _).
  assert (AT : forall id, In id marker_ids -> at_id h t id = concat (map (filter (fun r => e_id (ev_of h r) =? id)) bs)).
  { intros id I. rewrite <- filter_concat, <- C. unfold at_id. clear - I. induction (refs h t) as [|r l IH]; [reflexivity|]. cbn [filter].
    destruct (Z.eqb_spec (e_id (ev_of h r)) id) as [EI|NI].
    - replace (marker_id (e_id (ev_of h r))) with true by (rewrite EI; cbn in I; destruct I as [<-|[<-|[<-|[<-|[]]]]]; reflexivity). cbn [filter]. rewrite EI, Z.eqb_refl. now rewrite IH.
    - destruct (marker_id _); [|exact IH]. cbn [filter]. apply Z.eqb_neq in NI. rewrite NI. exact IH. }
  assert (ONE : forall id, In id marker_ids -> Forall (fun b => length b = 1%nat) (map (filter (fun r => e_id (ev_of h r) =? id)) bs)).
  { intros id I. apply Forall_forall. intros x IX. apply in_map_iff in IX. destruct IX as (b & <- & IB). destruct (B b id IB I) as (r & ->). reflexivity. }
  assert (LA : forall id, In id marker_ids -> length (at_id h t id) = length bs).
  { intros id I. rewrite (AT id I). specialize (ONE id I). clear - ONE. induction bs as [|b bs IH]; [reflexivity|]. cbn [map concat] in *. inversion ONE as [|? ? O1 O2]; subst. rewrite app_length, O1, (IH O2). reflexivity. }
  assert (LU : length us = length bs).
  { rewrite LN. unfold marker_ids. cbn [map]. rewrite !LA by (cbn; tauto). cbn [list_max fold_right]. lia. }
  apply nth_all. intros k. rewrite nth_error_map. destruct (nth_error us k) as [u|] eqn:U.
  2: { symmetry. apply nth_error_None. apply nth_error_None in U. lia. }
  cbn [option_map]. destruct (nth_error bs k) as [b|] eqn:BK; [|apply nth_error_None in BK; assert (k < length us)%nat by (apply nth_error_Some; congruence); lia].
  f_equal. destruct (M k u U) as (_ & SU & R). pose proof (nth_error_In _ _ BK) as IB.
  assert (SB : subseq b (refs h t)).
  { eapply subseq_trans; [|apply (subseq_filter _ (fun r => marker_id (e_id (ev_of h r))))]. rewrite C. now apply subseq_concat. }
  apply (subseq_same _ _ (refs h t) ND SU SB). intros r. rewrite R.
  assert (NB : forall id, In id marker_ids -> nth_error (at_id h t id) k = match filter (fun r => e_id (ev_of h r) =? id) b with r :: _ => Some r | [] => None end).
  { intros id I. rewrite (AT id I), (nth_concat_ones _ _ (ONE id I)), nth_error_map, BK. reflexivity. }
  split.
  - intros (id & I & N). rewrite (NB id I) in N. destruct (B b id IB I) as (x & F). rewrite F in N. injection N as ->. assert (Q : In r [r]) by now left. rewrite <- F in Q. apply filter_In in Q. tauto.
  - intros IR. assert (MI : marker_id (e_id (ev_of h r)) = true).
    { assert (Q : In r (concat bs)) by (apply in_concat; eauto). rewrite <- C in Q. apply filter_In in Q. tauto. }
    assert (I : In (e_id (ev_of h r)) marker_ids).
    { unfold marker_id in MI. apply existsb_exists in MI. destruct MI as (y & Y & EY). apply Z.eqb_eq in EY. rewrite EY. exact Y. }
    exists (e_id (ev_of h r)). split; [exact I|]. rewrite (NB _ I). destruct (B b _ IB I) as (x & F). rewrite F. f_equal.
    assert (Q : In r (filter (fun r0 => e_id (ev_of h r0) =? e_id (ev_of h r)) b)) by (apply filter_In; split; [exact IR|apply Z.eqb_refl]). rewrite F in Q. destruct Q as [Q|[]]. exact Q.
Qed.
Print Assumptions C71_blocks.

(* Name, numerator or denominator of the k-th marker assigned: the k-th event of that sort changes
   and nothing else in the project; the marker shows it, its other attributes and all other
   markers stay. *)
Theorem C71_edit : forall en evs h t h1 us k u a e v, evs <> [] -> session evs h -> (t < nt h)%nat -> timemarkers h t = (h1, us) -> nth_error us k = Some u ->
  a = MName \/ a = MNumerator \/ a = MDenominator -> nth_error (filter (fun e => e_id e =? attr_id a) (events h t)) k = Some e ->
  exists h2 j, marker_assign en h1 u a v = (h2, Ok tt) /\ session evs h2 /\ changed (attr_id a) v (root_events h) (root_events h2) j /\
    filter (fun e => e_id e =? attr_id a) (events h2 t) = lset (filter (fun e => e_id e =? attr_id a) (events h t)) k (with_val e v) /\
    marker_get en h2 u a = Ok v /\ (forall a', attr_id a' <> attr_id a -> marker_get en h2 u a' = marker_get en h1 u a') /\
    forall k' u', k' <> k -> nth_error us k' = Some u' -> events h2 u' = events h1 u'.
Proof.
  intros en evs h t h1 us k u a e v NE S L E U A N. destruct (markers_spec evs h t h1 us NE S L E) as (X & S1 & LN & M). destruct (M k u U) as (LU & SU & R).
  pose proof (marker_at evs h t h1 us k u (attr_id a) NE S L E U (attr_in a)) as AT.
  rewrite at_events, nth_error_map in N. destruct (nth_error (at_id h t (attr_id a)) k) as [r|] eqn:AR; [|discriminate]. cbn [option_map] in N. assert (N' : ev_of h r = e) by congruence. clear N.
  assert (EV : forall s, ev_of h1 s = ev_of h s) by (intros s; unfold ev_of; now destruct X as (-> & _)).
  destruct (session_root _ _ NE S) as (NE0 & V0 & RR0). destruct (views_tree _ _ t NE0 V0 L) as (_ & NDt & _).
  destruct (session_root _ _ NE S1) as (NE1 & V1 & RR1). destruct (views_tree _ _ u NE1 V1 LU) as (W & ND & _).
  assert (VO : value_of (attr_id a) (events h1 u) = Some (e_val e)) by (rewrite value_of_filter, at_events, AT; cbn [map]; now rewrite EV, N').
  destruct (value_chosen _ _ _ VO) as (i & e' & CH & I & EI & _).
  destruct (event_prop_set en h1 u [attr_id a] VNone v i ltac:(discriminate) W CH) as (r' & h2 & RI & PS & O).
  assert (r' = r).
  { assert (Q : In r' (at_id h1 u (attr_id a))).
    { unfold at_id. apply filter_In. split; [eapply nth_error_In; exact RI|]. rewrite events_refs, nth_error_map, RI in I. cbn in I. apply Z.eqb_eq. congruence. }
    rewrite AT in Q. destruct Q as [Q|[]]. congruence. }
  subst r'. assert (AS : marker_assign en h1 u a v = (h2, Ok tt)) by (destruct A as [->|[->| ->]]; exact PS).
  assert (RL : (r < length (h_evs h1))%nat) by (unfold in_heap in W; rewrite Forall_forall in W; apply W; eapply nth_error_In; exact RI).
  assert (S2 : session evs h2).
  { assert (Q : set_first h1 u (attr_id a) v = (h2, Ok tt)) by (rewrite <- PS; apply set_first_prop; now rewrite contains_value, VO).
    eapply set_first_session; eassumption. }
  exists h2, r. split; [exact AS|]. split; [exact S2|].
  assert (EX : nth_error (root_events h) r = Some e).
  { rewrite RR0. rewrite <- N'. unfold ev_of. apply nth_error_nth'. destruct X as (<- & _). exact RL. }
  split; [|split; [|split; [|split]]].
  - split; [exists e; split; [exact EX|rewrite <- N'; now destruct (in_ids_at _ _ _ _ _ AR)]|].
    destruct (views_refs _ _ NE1 V1) as (R0 & _ & _).
    assert (RT1 : root_events h = root_events h1) by (rewrite RR0, RR1; symmetry; apply X). rewrite RT1. unfold root_events.
    apply (only_value_revalued _ _ _ _ 0 r O); [rewrite R0; apply seq_NoDup|]. rewrite R0. rewrite (nth_error_nth' _ 0%nat) by (now rewrite seq_length). now rewrite seq_nth.
  - assert (RT : refs h2 t = refs h t).
    { rewrite (only_value_refs _ _ _ _ O). unfold refs. assert (Q : lst_of h1 t = lst_of h t) by (unfold lst_of; now rewrite (extends_tree _ _ _ X L)). rewrite Q. apply map_ext. intros c. unfold ref_of, cell_of. now destruct X as (_ & -> & _). }
    assert (EV2 : forall s, e_id (ev_of h2 s) = e_id (ev_of h s)).
    { intros s. destruct O as (_ & _ & _ & O1 & O2). destruct (Nat.eq_dec s r) as [->|NR]; [rewrite O2|rewrite (O1 s NR)]; now rewrite EV. }
    assert (AT2 : at_id h2 t (attr_id a) = at_id h t (attr_id a)) by (unfold at_id; rewrite RT; apply filter_ext; intros s; now rewrite EV2).
    rewrite !at_events, AT2. assert (NDA : NoDup (at_id h t (attr_id a))) by (apply NoDup_filter; exact NDt).
    apply nth_all. intros i'. rewrite nth_error_lset, !nth_error_map. destruct O as (_ & _ & _ & O1 & O2). destruct (Nat.eqb_spec i' k) as [->|NK].
    + assert (KL : (k < length (map (ev_of h) (at_id h t (attr_id a))))%nat) by (rewrite map_length; apply nth_error_Some; congruence).
      apply Nat.ltb_lt in KL. rewrite KL, AR. cbn [option_map andb]. rewrite O2, EV, N'. reflexivity.
    + destruct (nth_error (at_id h t (attr_id a)) i') as [s|] eqn:AS'; [|reflexivity]. cbn [option_map andb]. f_equal. rewrite O1; [apply EV|]. intros ->. apply NK.
      rewrite NoDup_nth_error in NDA. apply NDA; [apply nth_error_Some; congruence|congruence].
  - assert (marker_get en h2 u a = ev_get en h2 u [attr_id a]) as -> by (destruct A as [->|[->| ->]]; reflexivity). rewrite ev_get_one.
    assert (AT2 : at_id h2 u (attr_id a) = [r]).
    { rewrite <- AT. unfold at_id. rewrite (only_value_refs _ _ _ _ O). apply filter_ext. intros s. destruct O as (_ & _ & _ & O1 & O2). destruct (Nat.eq_dec s r) as [->|NR]; [now rewrite O2|now rewrite (O1 s NR)]. }
    rewrite value_of_filter, at_events, AT2. cbn [map]. destruct O as (_ & _ & _ & _ & ->). reflexivity.
  - intros a' NA. assert (VV : value_of (attr_id a') (events h2 u) = value_of (attr_id a') (events h1 u)).
    { rewrite !value_of_filter. rewrite (only_value_filter h1 r v h2 (attr_id a') u O); [reflexivity|]. rewrite EV. destruct (in_ids_at _ _ _ _ _ AR) as (-> & _). congruence. }
    destruct a'; cbn [marker_get attr_id] in *; unfold marker_position, marker_type; rewrite ?ev_get_one, ?contains_value, ?first_val_spec, VV; reflexivity.
  - intros k' u' NK U'. apply (only_value_same _ _ _ _ u' O). destruct (M k' u' U') as (_ & _ & R'). intros IR. apply R' in IR. destruct IR as (id & I' & N2).
    assert (id = attr_id a) by (destruct (in_ids_at _ _ _ _ _ N2) as (Q1 & _), (in_ids_at _ _ _ _ _ AR) as (Q2 & _); congruence). subst id. apply NK.
    assert (NDA : NoDup (at_id h t (attr_id a))) by (apply NoDup_filter; exact NDt). rewrite NoDup_nth_error in NDA. apply NDA; [apply nth_error_Some; congruence|congruence].
Qed.
Print Assumptions C71_edit.

(* --------------------------------------------------------------------- examples *)

Definition letters (s : pystr) : bytes := flat_map (fun c => [c; 0]) (s ++ [0]).
Definition tm (pos num den : Z) (name : option pystr) : list chunk :=
  [(148, le_enc 4 pos); (33, [num]); (34, [den])] ++ match name with Some s => [(205, letters s)] | None => [] end.
Definition tm_chunks (first : option pystr) : list chunk := (199, ver20) :: (64, [0; 0]) :: tm 0 4 4 first ++ tm 384 3 4 (Some (str "B")).
Definition tm_file (first : option pystr) : bytes := sample (tm_chunks first).
Definition tm_h (first : option pystr) : heap := parsed (pr_events (load (tm_file first))).
Definition tm_shown (first : option pystr) : list (list (res val)) :=
  let '(h, us) := timemarkers (tm_h first) 0 in map (fun u => map (marker_get en0 h u) [MPosition; MNumerator; MName]) us.
Example C71_case : is_bytes (tm_file (Some (str "A"))) /\ parse en0 (tm_file (Some (str "A"))) = Ok (load (tm_file (Some (str "A")))) /\
  filter (fun r => marker_id (e_id (ev_of (tm_h (Some (str "A"))) r))) (refs (tm_h (Some (str "A"))) 0) = concat [[2; 3; 4; 5]; [6; 7; 8; 9]]%nat /\
  (forall b id, In b [[2; 3; 4; 5]; [6; 7; 8; 9]]%nat -> In id [33; 34; 148; 205] -> exists r, filter (fun r => e_id (ev_of (tm_h (Some (str "A"))) r) =? id) b = [r]) /\
  tm_shown (Some (str "A")) = [[Ok (VInt 0); Ok (VInt 4); Ok (VStr (str "A"))]; [Ok (VInt 384); Ok (VInt 3); Ok (VStr (str "B"))]] /\
  exists h2, marker_assign en0 (fst (timemarkers (tm_h (Some (str "A"))) 0)) 2 MNumerator (VInt 7) = (h2, Ok tt) /\
    map (fun u => marker_get en0 h2 u MNumerator) [1; 2]%nat = [Ok (VInt 4); Ok (VInt 7)].
Proof.
  destruct (sample_ok (tm_chunks (Some (str "A"))) ltac:(vm_compute; reflexivity)) as [B _]. split; [exact B|]. split; [vm_compute; reflexivity|]. split; [vm_compute; reflexivity|].
  split. { intros b id IB I. destruct IB as [<-|[<-|[]]]; destruct I as [<-|[<-|[<-|[<-|[]]]]]; eexists; vm_compute; reflexivity. }
  split; [vm_compute; reflexivity|]. eexists. split; vm_compute; reflexivity.
Qed.
(* If a marker has no name event, it shows the name of the next one, which appears unnamed. *)
Theorem C71_refuted : is_bytes (tm_file None) /\ parse en0 (tm_file None) = Ok (load (tm_file None)) /\
  map (fun e => (e_id e, e_val e)) (events (tm_h None) 0) =
    [(199, VStr (str "20.8.3")); (64, VInt 0); (148, VInt 0); (33, VInt 4); (34, VInt 4); (148, VInt 384); (33, VInt 3); (34, VInt 4); (205, VStr (str "B"))] /\
  tm_shown None = [[Ok (VInt 0); Ok (VInt 4); Ok (VStr (str "B"))]; [Ok (VInt 384); Ok (VInt 3); Ok VNone]].
Proof.
  destruct (sample_ok (tm_chunks None) ltac:(vm_compute; reflexivity)) as [B _]. split; [exact B|]. split; [vm_compute; reflexivity|]. split; vm_compute; reflexivity.
Qed.
Print Assumptions C71_refuted.
