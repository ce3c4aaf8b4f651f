(* C66 envelopes, LFOs and tracking of channels. *)
From Coq Require Import String ZArith List Bool Lia Arith.
From Verif Require Import M_Base M_Float M_Text M_Construct M_Structs M_Events M_Parse M_Tree M_Prop M_Project M_Items M_Collections M_Models.
From Verif Require Import S_Canon S_File S_Domain S_Tree S_Prop S_Project S_Items S_Collections S_Models.
From Verif Require Import P_Base P_TreeBase P_Tree P_TreeEdit P_Prop P_Edit P_Project P_Items P_Session P_Models.
From Verif Require Import C_Samples C_Tree.
Import ListNotations.
Open Scope Z_scope.

Definition dict_of (k : dict_kind) := match k with Envelopes => envelopes | Lfos => lfos | Trackings => tracking end.
Lemma dict_of_eq k h t : dict_of k h t = named_views h t (dict_event k) (dict_names k).
Proof. destruct k; reflexivity. Qed.

Lemma session_order evs h t : evs <> [] -> session evs h -> (t < nt h)%nat -> ordered h t.
Proof. intros NE S L. destruct (session_root _ _ NE S) as (NE' & V & _). apply synced_ordered. destruct (views_synced _ _ NE' V) as (SY & _). now apply SY. Qed.

Lemma nth_combine A B : forall (a : list A) (b : list B) i x y, nth_error (combine a b) i = Some (x, y) <-> nth_error a i = Some x /\ nth_error b i = Some y.
Proof.
  induction a as [|p a IH]; intros [|q b] [|i] x y; cbn [combine nth_error]; try (split; [discriminate|intros [? ?]; discriminate]).
  - split; [intros [= -> ->]; auto|intros [[= ->] [= ->]]; reflexivity].
  - apply IH.
Qed.
Lemma fst_combine A B : forall (a : list A) (b : list B), map fst (combine a b) = firstn (length b) a.
Proof. induction a as [|x a IH]; intros [|y b]; cbn [combine map length firstn fst]; [reflexivity|reflexivity|reflexivity|now rewrite IH]. Qed.
Lemma filter_map_nth A B (f : A -> B) (p : B -> bool) l i : nth_error (map f (filter (fun a => p (f a)) l)) i = nth_error (filter p (map f l)) i.
Proof. f_equal. induction l as [|a l IH]; [reflexivity|]. cbn [map filter]. destruct (p (f a)); cbn [map]; now rewrite IH. Qed.

(* The entries are, in order, the events of that sort the channel has, under the fixed names:
   entry i shows exactly the i-th of these events. *)
Theorem C66_dict : forall k evs h t, evs <> [] -> session evs h -> (t < nt h)%nat ->
  (value_of (dict_event k) (events h t) = None -> dict_of k h t = (h, None)) /\
  (value_of (dict_event k) (events h t) <> None -> exists h' l, dict_of k h t = (h', Some l) /\ session evs h' /\ root_events h' = root_events h /\
     map fst l = firstn (length (filter (fun e => e_id e =? dict_event k) (events h t))) (dict_names k) /\
     forall i name u, nth_error l i = Some (name, u) -> (u < nt h')%nat /\
       exists r, refs h' u = [r] /\ nth_error (filter (fun r => e_id (ev_of h r) =? dict_event k) (refs h t)) i = Some r).
Proof.
  intros k evs h t NE S L. rewrite dict_of_eq. unfold named_views. rewrite contains_value. split; [intros ->; reflexivity|].
  destruct (value_of (dict_event k) (events h t)) as [v|]; [intros _|congruence]. destruct (separate h t (dict_event k)) as [h' us] eqn:E.
  assert (S' : session evs h') by (apply ses_look with h; [exact S|]; replace h' with (fst (separate h t (dict_event k))) by (now rewrite E); now apply op_separate).
  exists h', (combine (dict_names k) us). split; [reflexivity|]. split; [exact S'|].
  destruct (C17_separate h t _ h' us (session_order _ _ _ NE S L) E) as (M & _).
  pose proof E as E'. unfold separate in E'. destruct (new_trees_spec _ _ _ _ _ E') as (X & _).
  split; [destruct (session_root _ _ NE S) as (_ & _ & ->), (session_root _ _ NE S') as (_ & _ & ->); apply X|].
  assert (FL : length us = length (filter (fun e => e_id e =? dict_event k) (events h t))).
  { apply (f_equal (@length _)) in M. rewrite !map_length in M. rewrite M. unfold events. clear. induction (lst_of h t) as [|c l IH]; [reflexivity|]. cbn [map filter].
    change (e_id (e_of h c)) with (id_of h c). destruct (id_of h c =? dict_event k); cbn [length]; now rewrite IH. }
  split; [rewrite fst_combine; now rewrite FL|]. intros i name u N. apply nth_combine in N. destruct N as [_ N].
  assert (N2 : nth_error (map (lst_of h') us) i = Some (lst_of h' u)) by now rewrite nth_error_map, N. rewrite M, nth_error_map in N2.
  destruct (nth_error (filter _ (lst_of h t)) i) as [c|] eqn:C; [|discriminate]. cbn [option_map] in N2. assert (LU : lst_of h' u = [c]) by congruence.
  split. { destruct (Nat.lt_ge_cases u (nt h')) as [Y|Y]; [exact Y|]. exfalso. unfold lst_of, tree_of in LU. rewrite nth_overflow in LU by exact Y. discriminate LU. }
  exists (ref_of h' c). split; [unfold refs; now rewrite LU|]. assert (RF : ref_of h' c = ref_of h c) by (unfold ref_of, cell_of; now destruct X as (_ & -> & _)).
  rewrite RF. unfold refs. rewrite <- (filter_map_nth _ _ (ref_of h) (fun r => e_id (ev_of h r) =? dict_event k)), nth_error_map.
  change (fun a => e_id (ev_of h (ref_of h a)) =? dict_event k) with (fun c => id_of h c =? dict_event k). now rewrite C.
Qed.
Print Assumptions C66_dict.

(* a property of an entry: the event is the only one of the view *)
Definition entry_prop (df : val) (key : string) : prop := MkProp [] df false (PStruct key).
Lemma entry_get en h u df key r : refs h u = [r] -> prop_get en h (EvModel u) (entry_prop df key) = struct_get (ev_of h r) key.
Proof.
  unfold refs, prop_get. cbn [p_ids entry_prop get_event]. destruct (lst_of h u) as [|c [|c2 l]]; try discriminate. cbn [map]. intros [= <-]. reflexivity.
Qed.
Lemma entry_set en h u df key r v : refs h u = [r] -> prop_set en h (EvModel u) (entry_prop df key) v = tg_set h (TEvent r) key v.
Proof.
  unfold refs, prop_set. cbn [p_ids p_readonly entry_prop get_event]. destruct (lst_of h u) as [|c [|c2 l]]; try discriminate. cbn [map]. intros [= <-]. reflexivity.
Qed.
Lemma dict_extends k h t h' o : dict_of k h t = (h', o) -> extends h h'.
Proof.
  rewrite dict_of_eq. unfold named_views. destruct (contains h t (dict_event k)); [|intros [= <- _]; apply extends_refl].
  destruct (separate h t (dict_event k)) as [h1 us] eqn:E. intros [= <- _]. unfold separate in E. now destruct (new_trees_spec _ _ _ _ _ E).
Qed.

(* Envelope and LFO of the same name are one event: an assignment to a field through either is
   shown by both; every other field reads as before through both; nothing else in the project
   changes, and no entry of another name. *)
Theorem C66_edit : forall en a b evs h t h1 l h2 m i x u w df key v d o, evs <> [] -> session evs h -> (t < nt h)%nat ->
  dict_event a = dict_event b -> dict_of a h t = (h1, Some l) -> dict_of b h1 t = (h2, Some m) ->
  nth_error l i = Some (x, u) -> nth_error m i = Some (x, w) ->
  (forall e, events h1 u = [e] -> is_struct_kind (e_kind e) = true /\ e_val e = VDict d) -> dget d key = Some o -> o <> VNone ->
  prop_get en h2 (EvModel u) (entry_prop df key) = Ok o /\
  exists h3 j, prop_set en h2 (EvModel w) (entry_prop df key) v = (h3, Ok tt) /\ session evs h3 /\
    changed (dict_event a) (VDict (dset d key v)) (root_events h) (root_events h3) j /\
    prop_get en h3 (EvModel u) (entry_prop df key) = Ok v /\
    (forall key', key' <> key -> prop_get en h3 (EvModel u) (entry_prop df key') = prop_get en h2 (EvModel u) (entry_prop df key')) /\
    (forall i' x' u', i' <> i -> nth_error l i' = Some (x', u') -> events h3 u' = events h1 u').
Proof.
  intros en a b evs h t h1 l h2 m i x u w df key v d o NE S L DE A B LI MI SE D NO.
  assert (CA : value_of (dict_event a) (events h t) <> None).
  { intros Z. destruct (C66_dict a evs h t NE S L) as (Q & _). rewrite (Q Z) in A. discriminate A. }
  destruct (C66_dict a evs h t NE S L) as (_ & Q). destruct (Q CA) as (h1' & l' & A' & S1 & R1 & _ & EN1). rewrite A in A'. injection A' as <- <-. clear Q.
  pose proof (dict_extends _ _ _ _ _ A) as X1. pose proof (dict_extends _ _ _ _ _ B) as X2.
  assert (L1 : (t < nt h1)%nat) by (pose proof (extends_nt _ _ X1); lia).
  assert (CB : value_of (dict_event b) (events h1 t) <> None).
  { intros Z. destruct (C66_dict b evs h1 t NE S1 L1) as (Q & _). rewrite (Q Z) in B. discriminate B. }
  destruct (C66_dict b evs h1 t NE S1 L1) as (_ & Q). destruct (Q CB) as (h2' & m' & B' & S2 & R2 & _ & EN2). rewrite B in B'. injection B' as <- <-. clear Q.
  destruct (EN1 i x u LI) as (LU & r & RU & NR). destruct (EN2 i x w MI) as (LW & r2 & RW & NR2).
  assert (EV : forall s, ev_of h1 s = ev_of h s) by (intros s; unfold ev_of; now destruct X1 as (-> & _)).
  assert (EV2 : forall s, ev_of h2 s = ev_of h1 s) by (intros s; unfold ev_of; now destruct X2 as (-> & _)).
  assert (RT : refs h1 t = refs h t).
  { unfold refs. assert (E : lst_of h1 t = lst_of h t) by (unfold lst_of; now rewrite (extends_tree _ _ _ X1 L)). rewrite E. apply map_ext. intros c. unfold ref_of, cell_of. now destruct X1 as (_ & -> & _). }
  assert (r2 = r).
  { rewrite RT, <- DE in NR2. rewrite (filter_ext _ (fun r => e_id (ev_of h r) =? dict_event a)) in NR2 by (intros s; now rewrite EV). congruence. }
  subst r2.
  assert (U2 : forall u', (u' < nt h1)%nat -> refs h2 u' = refs h1 u').
  { intros u' LU'. unfold refs. assert (E : lst_of h2 u' = lst_of h1 u') by (unfold lst_of; now rewrite (extends_tree _ _ _ X2 LU')). rewrite E. apply map_ext. intros c. unfold ref_of, cell_of. now destruct X2 as (_ & -> & _). }
  assert (RU2 : refs h2 u = [r]) by (rewrite U2 by exact LU; exact RU).
  destruct (SE (ev_of h1 r)) as (KI & DV). { rewrite events_refs, RU. reflexivity. }
  assert (SG : forall k, struct_get (ev_of h2 r) k = dindex d k) by (intros k; rewrite EV2; unfold struct_get; now rewrite KI, DV).
  split. { rewrite (entry_get en h2 u df key r RU2), SG. unfold dindex. now rewrite D. }
  destruct (session_root _ _ NE S2) as (NE2 & V2 & RR2).
  assert (RL : (r < length (h_evs h2))%nat).
  { destruct (views_refs _ _ NE2 V2) as (_ & _ & SU). assert (LU2 : (u < nt h2)%nat) by (pose proof (extends_nt _ _ X2); lia). specialize (SU u LU2). rewrite RU2 in SU.
    pose proof (subseq_in _ _ _ SU r (or_introl eq_refl)) as IR. apply in_seq in IR. lia. }
  assert (ST : tg_set h2 (TEvent r) key v = (set_val h2 r (VDict (dset d key v)), Ok tt)).
  { unfold tg_set, struct_set. rewrite EV2, KI, DV, D. destruct o; try congruence; reflexivity. }
  pose proof (set_val_only h2 r (VDict (dset d key v)) RL) as O. set (h3 := set_val h2 r (VDict (dset d key v))) in *.
  assert (S3 : session evs h3) by (eapply tg_set_session; [exact S2|exact ST]).
  exists h3, r. split; [rewrite (entry_set en h2 w df key r v RW); exact ST|]. split; [exact S3|].
  assert (E3 : ev_of h3 r = with_val (ev_of h1 r) (VDict (dset d key v))) by (destruct O as (_ & _ & _ & _ & ->); now rewrite EV2).
  assert (RU3 : refs h3 u = [r]) by (rewrite (only_value_refs _ _ _ _ O); exact RU2).
  assert (SG3 : forall k, struct_get (ev_of h3 r) k = dindex (dset d key v) k) by (intros k; rewrite E3; unfold struct_get; cbn [with_val e_kind e_val]; now rewrite KI).
  split; [|split; [|split]].
  - rewrite <- R1, <- R2. unfold root_events. destruct (views_refs _ _ NE2 V2) as (R0 & _ & _). split.
    + exists (ev_of h2 r). rewrite events_refs, nth_error_map, R0.
      assert (NS : nth_error (seq 0 (length (h_evs h2))) r = Some r) by (rewrite (nth_error_nth' _ 0%nat) by (now rewrite seq_length); now rewrite seq_nth). rewrite NS. split; [reflexivity|].
      rewrite EV2, EV. apply nth_error_In in NR. apply filter_In in NR. apply Z.eqb_eq. tauto.
    + apply (only_value_revalued _ _ _ _ 0 r O); [rewrite R0; apply seq_NoDup|]. rewrite R0. rewrite (nth_error_nth' _ 0%nat) by (now rewrite seq_length). now rewrite seq_nth.
  - rewrite (entry_get en h3 u df key r RU3), SG3. unfold dindex. now rewrite dget_dset.
  - intros key' N. rewrite (entry_get en h3 u df key' r RU3), (entry_get en h2 u df key' r RU2), SG3, SG. unfold dindex. now rewrite dget_dset_other.
  - intros i' x' u' NI LI'. destruct (EN1 i' x' u' LI') as (LU' & r' & RU' & NR').
    rewrite (only_value_same _ _ _ _ u' O).
    + rewrite !events_refs, U2 by exact LU'. apply map_ext. exact EV2.
    + rewrite U2 by exact LU'. rewrite RU'. intros [->|[]]. apply NI.
      assert (ND : NoDup (filter (fun r => e_id (ev_of h r) =? dict_event a) (refs h t))).
      { destruct (session_root _ _ NE S) as (NE' & V & _). apply NoDup_filter. now destruct (views_tree _ _ t NE' V L) as (_ & ND & _). }
      rewrite NoDup_nth_error in ND. apply ND; [apply nth_error_Some; congruence|congruence].
Qed.
Print Assumptions C66_edit.

(* A channel with two envelope events and three tracking events: the amount of the second LFO is
   set; the envelope of that name keeps its attack, the first LFO stays; the third tracking event
   has no name. *)
Definition env_ev (attack amount : Z) : bytes := repeat 0 12 ++ le_enc 4 attack ++ repeat 0 28 ++ le_enc 4 amount ++ repeat 0 20.
Definition di_chunks : list chunk :=
  [(199, ver20); (64, [0; 0]); (218, env_ev 5 6); (228, le_enc 4 1 ++ repeat 0 12); (218, env_ev 7 8); (228, le_enc 4 2 ++ repeat 0 12); (228, le_enc 4 3 ++ repeat 0 12)].
Definition di_file : bytes := sample di_chunks.
Definition di_h : heap := parsed (pr_events (load di_file)).
Definition di_h1 : heap := fst (envelopes di_h 0).
Definition di_h2 : heap := fst (lfos di_h1 0).
Definition di_dict (u : nat) : list (string * val) := match events di_h2 u with [e] => match e_val e with VDict d => d | _ => [] end | _ => [] end.
Definition amount_of (h : heap) (u : nat) : res val := prop_get en0 h (EvModel u) (entry_prop VNone "lfo.amount").
Definition attack_of (h : heap) (u : nat) : res val := prop_get en0 h (EvModel u) (entry_prop VNone "envelope.attack").
Example C66_case : is_bytes di_file /\ parse en0 di_file = Ok (load di_file) /\
  dict_of Envelopes di_h 0 = (di_h1, Some [("Panning", 1%nat); ("Volume", 2%nat)]%string) /\
  dict_of Lfos di_h1 0 = (di_h2, Some [("Panning", 3%nat); ("Volume", 4%nat)]%string) /\
  snd (dict_of Trackings di_h2 0) = Some [("volume", 5%nat); ("keyboard", 6%nat)]%string /\
  (forall e, events di_h1 2 = [e] -> is_struct_kind (e_kind e) = true /\ e_val e = VDict (di_dict 2)) /\
  dget (di_dict 2) "lfo.amount" = Some (VInt 8) /\
  exists h3, prop_set en0 di_h2 (EvModel 4) (entry_prop VNone "lfo.amount") (VInt 99) = (h3, Ok tt) /\
    map (amount_of h3) [1; 2; 3; 4]%nat = [Ok (VInt 6); Ok (VInt 99); Ok (VInt 6); Ok (VInt 99)] /\
    map (attack_of h3) [1; 2; 3; 4]%nat = [Ok (VInt 5); Ok (VInt 7); Ok (VInt 5); Ok (VInt 7)].
Proof.
  destruct (sample_ok di_chunks ltac:(vm_compute; reflexivity)) as [B _]. split; [exact B|]. split; [vm_compute; reflexivity|].
  split; [vm_compute; reflexivity|]. split; [vm_compute; reflexivity|]. split; [vm_compute; reflexivity|].
  split. { vm_compute. intros e [= <-]. split; reflexivity. }
  split; [vm_compute; reflexivity|]. eexists. split; [vm_compute; reflexivity|]. split; vm_compute; reflexivity.
Qed.
