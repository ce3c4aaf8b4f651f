(* C62 looking at a project and editing it in any order; C63 pan, volume and pitch of channels. *)
From Coq Require Import String ZArith List Bool Lia Arith.
From Verif Require Import M_Base M_Float M_Text M_Construct M_Structs M_Events M_Parse M_Tree M_Prop M_Project M_Items M_Collections M_Models.
From Verif Require Import S_Canon S_File S_Domain S_Tree S_Prop S_Layout S_Project S_Items S_Collections S_Models.
From Verif Require Import P_Base P_TreeBase P_Tree P_TreeEdit P_Prop P_Edit P_Project P_Items P_Session P_Models.
From Verif Require Import P_EditStruct.
From Verif Require Import C_Samples C_Struct.
Import ListNotations.
Open Scope Z_scope.

(* ------------------------------------------------------------------------ C62 *)

(* After any number of looks and edits, in any order, the project is in a state that loading its
   present events and only looking at them leads to: the events have the ids they were loaded
   with and every view shows some of the project's present events, in their order. *)
Theorem C62_session : forall evs h, evs <> [] -> session evs h ->
  views (parsed (root_events h)) h /\ map e_id (root_events h) = map e_id evs /\
  forall t, (t < nt h)%nat -> subseq (events h t) (root_events h) /\ synced h t.
Proof.
  intros evs h NE S. destruct (session_root _ _ NE S) as (NE' & V & R). rewrite R. split; [exact V|].
  split; [exact (proj2 (session_views _ _ S))|]. intros t L.
  destruct (views_refs _ _ NE' V) as (R0 & _ & SU). destruct (views_synced _ _ NE' V) as (A & _). split; [|now apply A].
  rewrite <- R. unfold root_events. rewrite !events_refs. apply subseq_map. rewrite R0. now apply SU.
Qed.
Print Assumptions C62_session.

(* An edit does not depend on whether the views were made before or after it: dividing, grouping
   and separating, and selecting by anything the edit does not touch. *)
Theorem C62_commute : forall h r e, e_id e = e_id (ev_of h r) ->
  (forall t sep ids, divide (set_event h r e) t sep ids = (set_event (fst (divide h t sep ids)) r e, snd (divide h t sep ids))) /\
  (forall t ids, group (set_event h r e) t ids = (set_event (fst (group h t ids)) r e, snd (group h t ids))) /\
  (forall t id, separate (set_event h r e) t id = (set_event (fst (separate h t id)) r e, snd (separate h t id))) /\
  (forall S t (sel : S -> event -> S * option bool) s, (forall s, sel s e = sel s (ev_of h r)) ->
     subtree (set_event h r e) t sel s = (set_event (fst (subtree h t sel s)) r e, snd (subtree h t sel s))).
Proof.
  intros h r e E.
  assert (I : same_ids (h_evs (set_event h r e)) (h_evs h)) by (now apply set_event_ids).
  change (set_event h r e) with (with_evs h (h_evs (set_event h r e))). set (es := h_evs (set_event h r e)) in *.
  assert (N : forall t inits, h_evs (set_event (fst (new_trees h t inits)) r e) = es) by (intros t inits; unfold set_event; cbn [h_evs]; now rewrite new_trees_evs).
  assert (K : forall t inits, new_trees (with_evs h es) t inits = (set_event (fst (new_trees h t inits)) r e, snd (new_trees h t inits))).
  { intros t inits. pose proof (with_new_trees es inits h t) as W. pose proof (with_new_trees_snd es inits h t) as W2. specialize (N t inits). unfold set_event in N. cbn [h_evs] in N.
    destruct (new_trees (with_evs h es) t inits) as [a b]. cbn [fst snd] in *. rewrite W, W2. f_equal. unfold set_event, with_evs. now rewrite N. }
  split; [|split; [|split]].
  - intros t sep ids. unfold divide. change (lst_of (with_evs h es) t) with (lst_of h t). rewrite (with_divide h es sep ids I). apply K.
  - intros t ids. unfold group. change (lst_of (with_evs h es) t) with (lst_of h t).
    rewrite (map_ext (fun id => get_ie (with_evs h es) t [id]) (fun id => get_ie h t [id])) by (intros id; apply with_get; exact I). apply K.
  - intros t id. unfold separate. rewrite (with_get h es t [id] I). apply K.
  - intros S t sel s A. unfold subtree. change (lst_of (with_evs h es) t) with (lst_of h t).
    assert (SL : forall l s, select_list (with_evs h es) sel s l = select_list h sel s l).
    { induction l as [|c l IH]; intros s0; [reflexivity|]. cbn [select_list].
      assert (EE : sel s0 (e_of (with_evs h es) c) = sel s0 (e_of h c)).
      { unfold e_of. change (cell_of (with_evs h es) c) with (cell_of h c). generalize (c_e (cell_of h c)) as q. intros q. unfold ev_of at 1. cbn [with_evs h_evs]. unfold es, set_event. cbn [h_evs]. rewrite nth_lset.
        destruct (Nat.eqb_spec q r) as [->|]; [|reflexivity]. destruct (r <? length (h_evs h))%nat; [|reflexivity]. cbn [andb]. apply A. }
      rewrite EE. destruct (sel s0 (e_of h c)) as [s1 a]. now rewrite IH. }
    rewrite SL. unfold new_tree. rewrite with_chain. reflexivity.
Qed.
Print Assumptions C62_commute.

(* Look at three patterns, set one value, look again: both views show it. *)
Definition ses_evs : list event :=
  [Event 199 KAscii 7 false (VStr [50]); Event 64 KU16 2 false (VInt 0); Event 3 KU8 1 false (VInt 9); Event 64 KU16 2 false (VInt 1); Event 3 KU8 1 false (VInt 7)].
Definition ses_h1 : heap := fst (divide (parsed ses_evs) 0 64 [3; 64]).
Definition ses_h2 : heap := set_val ses_h1 2 (VInt 100).
Definition ses_h3 : heap := fst (separate ses_h2 1 3).
Example C62_case : session ses_evs ses_h3 /\ nt ses_h3 = 4%nat /\ events ses_h3 3 = [Event 3 KU8 1 false (VInt 100)] /\
  map e_val (events ses_h3 1) = [VInt 0; VInt 100] /\ map e_val (events ses_h3 2) = [VInt 1; VInt 7].
Proof.
  split; [|vm_compute; repeat split].
  apply ses_look with ses_h2; [|apply op_separate; vm_compute; lia].
  apply ses_edit; [|reflexivity]. apply ses_look with (parsed ses_evs); [apply ses_load|]. apply op_divide. vm_compute. lia.
Qed.

(* ------------------------------------------------------------------------ C63 *)

Definition get_level (l : level) := match l with Pan => pan_get | Volume => volume_get end.
Definition set_level (l : level) := match l with Pan => pan_set | Volume => volume_set end.
Lemma get_level_eq l h t : get_level l h t = level_get h t (level_key l) (word_id l) (byte_id l).
Proof. destruct l; reflexivity. Qed.
Lemma set_level_eq l h t v : set_level l h t v = level_set h t (level_key l) (word_id l) (byte_id l) v.
Proof. destruct l; reflexivity. Qed.

(* Pan and volume are taken from the levels event if the channel has one, otherwise from the old
   16-bit event, otherwise from the old 8-bit event; otherwise they are None. *)
Theorem C63_get : forall l h t,
  (forall e m d v, filter (fun e => e_id e =? 219) (events h t) = e :: m -> struct_event 219 d e -> dget d (level_key l) = Some v ->
     get_level l h t = Ok v) /\
  (value_of 219 (events h t) = None ->
     get_level l h t = Ok match value_of (word_id l) (events h t), value_of (byte_id l) (events h t) with
                          | Some v, _ => v
                          | None, Some v => v
                          | None, None => VNone
                          end).
Proof.
  intros l h t. rewrite get_level_eq. unfold level_get. split.
  - intros e m d v F S D. destruct (first_event _ _ _ _ _ F) as (_ & _ & _ & _ & _ & C & _). rewrite C.
    rewrite (first_item_get _ _ _ _ _ _ _ F S), D. reflexivity.
  - intros N. rewrite !contains_value, N, !first_val_spec.
    destruct (value_of (word_id l) (events h t)), (value_of (byte_id l) (events h t)); reflexivity.
Qed.
Print Assumptions C63_get.

(* Assigning with a levels event: this key of it gets the value, nothing else changes, the value
   is shown, and the other level and the pitch stay. *)
Theorem C63_set : forall l evs h t e m d a v, evs <> [] -> session evs h -> (t < nt h)%nat ->
  filter (fun e => e_id e =? 219) (events h t) = e :: m -> struct_event 219 d e -> dget d (level_key l) = Some a -> a <> VNone ->
  exists h' j, set_level l h t v = (h', Ok tt) /\ session evs h' /\ get_level l h' t = Ok v /\
    changed 219 (VDict (dset d (level_key l) v)) (root_events h) (root_events h') j /\
    (forall l', l' <> l -> get_level l' h' t = get_level l' h t) /\ pitch_get h' t = pitch_get h t.
Proof.
  intros l evs h t e m d a v NE S L F SE D NA. rewrite set_level_eq. unfold level_set.
  destruct (first_event _ _ _ _ _ F) as (c & r & G & EE & IN & C & FI & VF).
  unfold with_res, level_get. rewrite C, (first_item_get _ _ _ _ _ _ _ F SE), D.
  assert (X : set_first_item h t 219 (level_key l) v = set_first h t 219 (VDict (dset d (level_key l) v))) by (eapply first_item_set; eassumption).
  destruct (session_set_first evs h t 219 (VDict (dset d (level_key l) v)) NE S L ltac:(congruence)) as (h' & j & E & S' & _ & CH & EV & _).
  exists h', j. rewrite X. split; [destruct a; try congruence; exact E|]. split; [exact S'|].
  pose proof (filter_put 219 (VDict (dset d (level_key l) v)) _ _ _ F) as F'. rewrite <- EV in F'.
  assert (SE' : struct_event 219 (dset d (level_key l) v) (with_val e (VDict (dset d (level_key l) v)))) by (destruct SE as (A & B & _); repeat split; assumption).
  split; [eapply (proj1 (C63_get l h' t)); [exact F'|exact SE'|apply dget_dset]|]. split; [exact CH|]. split.
  - intros l' N. rewrite !get_level_eq. unfold level_get. destruct (first_event _ _ _ _ _ F') as (_ & _ & _ & _ & _ & C' & _). rewrite C, C'.
    rewrite (first_item_get _ _ _ _ _ _ _ F SE), (first_item_get _ _ _ _ _ _ _ F' SE'), dget_dset_other; [reflexivity|]. destruct l, l'; try congruence; discriminate.
  - unfold pitch_get. destruct (first_event _ _ _ _ _ F') as (_ & _ & _ & _ & _ & C' & _). rewrite C, C'.
    rewrite (first_item_get _ _ _ _ _ _ _ F SE), (first_item_get _ _ _ _ _ _ _ F' SE'), dget_dset_other; [reflexivity|]. destruct l; discriminate.
Qed.
Print Assumptions C63_set.

(* Assigning without one: each of the old events the channel has gets the value - both, if it
   has both - and nothing else changes. *)
Theorem C63_old : forall l evs h t v o, evs <> [] -> session evs h -> (t < nt h)%nat ->
  value_of 219 (events h t) = None -> get_level l h t = Ok o -> o <> VNone ->
  exists h' mid, set_level l h t v = (h', Ok tt) /\ session evs h' /\ get_level l h' t = Ok v /\
    events h' t = put (byte_id l) v (put (word_id l) v (events h t)) /\
    unless (root_events h) mid (word_id l) v /\ unless mid (root_events h') (byte_id l) v.
Proof.
  intros l evs h t v o NE S L N G NO. pose proof G as G0. rewrite (proj2 (C63_get l h t) N) in G. rewrite set_level_eq. rewrite get_level_eq in G0.
  unfold level_set. rewrite G0. unfold with_res. rewrite contains_value, N.
  assert (ST : exists h1, (if contains h t (word_id l) then set_first h t (word_id l) v else (h, Ok tt)) = (h1, Ok tt) /\ session evs h1 /\ nt h1 = nt h /\
     events h1 t = put (word_id l) v (events h t) /\ unless (root_events h) (root_events h1) (word_id l) v).
  { rewrite contains_value. destruct (value_of (word_id l) (events h t)) as [w|] eqn:W.
    - destruct (session_set_first evs h t (word_id l) v NE S L ltac:(congruence)) as (h1 & j & E & S1 & N1 & CH & EV & _). exists h1. split; [exact E|]. split; [exact S1|]. split; [exact N1|]. split; [exact EV|right; eauto].
    - exists h. split; [reflexivity|]. split; [exact S|]. split; [reflexivity|]. split; [now rewrite put_none|left; reflexivity]. }
  destruct ST as (h1 & E1 & S1 & N1 & EV1 & U1).
  assert (ST : exists h2, (if contains h1 t (byte_id l) then set_first h1 t (byte_id l) v else (h1, Ok tt)) = (h2, Ok tt) /\ session evs h2 /\
     events h2 t = put (byte_id l) v (events h1 t) /\ unless (root_events h1) (root_events h2) (byte_id l) v).
  { rewrite contains_value. destruct (value_of (byte_id l) (events h1 t)) as [w|] eqn:W.
    - destruct (session_set_first evs h1 t (byte_id l) v NE S1 ltac:(lia) ltac:(congruence)) as (h2 & j & E & S2 & N2 & CH & EV & _). exists h2. split; [exact E|]. split; [exact S2|]. split; [exact EV|right; eauto].
    - exists h1. split; [reflexivity|]. split; [exact S1|]. split; [now rewrite put_none|left; reflexivity]. }
  destruct ST as (h2 & E2 & S2 & EV2 & U2). exists h2, (root_events h1).
  split; [rewrite E1; unfold and_then; cbn [fst snd]; destruct o; try congruence; exact E2|]. split; [exact S2|].
  rewrite EV1 in EV2. split; [|split; [exact EV2|split; [exact U1|exact U2]]].
  assert (WB : word_id l <> byte_id l) by (destruct l; discriminate). assert (W9 : 219 <> word_id l /\ 219 <> byte_id l) by (destruct l; split; discriminate). destruct W9 as [W9 B9].
  rewrite (proj2 (C63_get l h2 t)); rewrite EV2.
  - rewrite value_put_other by exact WB. rewrite !value_put, value_put_other by (intros X; apply WB; congruence).
    destruct (value_of (word_id l) (events h t)); [reflexivity|]. destruct (value_of (byte_id l) (events h t)); [reflexivity|congruence].
  - rewrite !value_put_other by assumption. exact N.
Qed.
Print Assumptions C63_old.

(* A level that is not there - no event, or a levels event that ends before it - cannot be set. *)
Theorem C63_none : forall l h t v,
  (value_of 219 (events h t) = None -> value_of (word_id l) (events h t) = None -> value_of (byte_id l) (events h t) = None ->
     get_level l h t = Ok VNone /\ set_level l h t v = (h, Err PropertyCannotBeSet)) /\
  (forall e m d, filter (fun e => e_id e =? 219) (events h t) = e :: m -> struct_event 219 d e -> dget d (level_key l) = Some VNone ->
     get_level l h t = Ok VNone /\ set_level l h t v = (h, Err PropertyCannotBeSet)).
Proof.
  intros l h t v. assert (K : get_level l h t = Ok VNone -> set_level l h t v = (h, Err PropertyCannotBeSet)).
  { rewrite get_level_eq, set_level_eq. unfold level_set. intros ->. reflexivity. }
  split.
  - intros N W B. assert (G : get_level l h t = Ok VNone) by (rewrite (proj2 (C63_get l h t) N), W, B; reflexivity). auto.
  - intros e m d F S D. assert (G : get_level l h t = Ok VNone) by exact (proj1 (C63_get l h t) e m d VNone F S D). auto.
Qed.
Print Assumptions C63_none.

(* The pitch is only kept in the levels event. *)
Theorem C63_pitch : forall evs h t e m d a v, evs <> [] -> session evs h -> (t < nt h)%nat ->
  filter (fun e => e_id e =? 219) (events h t) = e :: m -> struct_event 219 d e -> dget d "pitch_shift" = Some a ->
  pitch_get h t = Ok a /\
  (a <> VNone -> exists h' j, pitch_set h t v = (h', Ok tt) /\ session evs h' /\ pitch_get h' t = Ok v /\
     changed 219 (VDict (dset d "pitch_shift" v)) (root_events h) (root_events h') j /\ forall l, get_level l h' t = get_level l h t) /\
  (a = VNone -> pitch_set h t v = (h, Err PropertyCannotBeSet)).
Proof.
  intros evs h t e m d a v NE S L F SE D. destruct (first_event _ _ _ _ _ F) as (c & r & G & EE & IN & C & FI & VF).
  assert (X : pitch_set h t v = set_first_item h t 219 "pitch_shift" v) by (unfold pitch_set, set_first_item; now rewrite G).
  split; [unfold pitch_get; rewrite C, (first_item_get _ _ _ _ _ _ _ F SE), D; reflexivity|]. split.
  - intros NA. rewrite X, (first_item_set _ _ _ _ v _ _ _ _ F SE D NA).
    destruct (session_set_first evs h t 219 (VDict (dset d "pitch_shift" v)) NE S L ltac:(congruence)) as (h' & j & E & S' & _ & CH & EV & _).
    exists h', j. split; [exact E|]. split; [exact S'|].
    pose proof (filter_put 219 (VDict (dset d "pitch_shift" v)) _ _ _ F) as F'. rewrite <- EV in F'.
    assert (SE' : struct_event 219 (dset d "pitch_shift" v) (with_val e (VDict (dset d "pitch_shift" v)))) by (destruct SE as (A & B & _); repeat split; assumption).
    destruct (first_event _ _ _ _ _ F') as (_ & _ & _ & _ & _ & C' & _).
    split; [unfold pitch_get; rewrite C', (first_item_get _ _ _ _ _ _ _ F' SE'), dget_dset; reflexivity|]. split; [exact CH|].
    intros l. rewrite !get_level_eq. unfold level_get. rewrite C, C', (first_item_get _ _ _ _ _ _ _ F SE), (first_item_get _ _ _ _ _ _ _ F' SE'), dget_dset_other; [reflexivity|destruct l; discriminate].
  - intros ->. rewrite X. eapply first_item_refused; eassumption.
Qed.
Print Assumptions C63_pitch.
Theorem C63_no_pitch : forall h t v, value_of 219 (events h t) = None -> pitch_get h t = Ok VNone /\ pitch_set h t v = (h, Err PropertyCannotBeSet).
Proof. intros h t v N. unfold pitch_get, pitch_set. destruct (no_first _ _ _ N) as [-> ->]. split; reflexivity. Qed.
Print Assumptions C63_no_pitch.

(* Saving and loading again keeps the assigned level (any that 32 bits hold) and everything else. *)
Definition level_range (l : level) (z : Z) : Prop :=
  match l with Pan => - 2 ^ 31 <= z < 2 ^ 31 | Volume => 0 <= z < 2 ^ 32 end.
Lemma encodes_payload en : forall es h cs e, encodes en h es cs -> In e es -> exists p, payload en e = Ok p.
Proof. induction es as [|x es IH]; intros h cs e E I; [destruct I|]. inversion E; subst. destruct I as [->|I]; eauto. Qed.
Lemma first_chosen_event id es e m : filter (fun e => e_id e =? id) es = e :: m -> exists k, chosen [id] es (Some k) /\ nth_error es k = Some e.
Proof.
  intros F. destruct (filter_head _ _ _ _ _ F) as (k & K & P & B). exists k. split; [|exact K].
  eapply (ch_some [id] es [] id [] k e); [reflexivity|intros i e' []|exact K|lia|]. intros j x L X. apply Z.eqb_neq. eapply B; eassumption.
Qed.
Theorem C63_saved : forall l en f p h t e m d a z, is_bytes f -> parse en f = Ok p -> canonical_file en f ->
  views (parsed (pr_events p)) h -> (t < nt h)%nat ->
  filter (fun e => e_id e =? 219) (events h t) = e :: m -> e_val e = VDict d -> dget d (level_key l) = Some a -> a <> VNone -> level_range l z ->
  exists h' f' p' j d', set_level l h t (VInt z) = (h', Ok tt) /\
    serialise en (Project (root_events h') (pr_channel_count p) (pr_format p) (pr_ppq p)) = Ok f' /\ parse en f' = Ok p' /\
    nth_error (pr_events p) j = Some e /\ dict_updated d (level_key l) (VInt z) d' /\ reloaded (pr_events p) j (VDict d') (pr_events p').
Proof.
  intros l en f p h t e m d a z Hb H HC V L F D A NA R.
  destruct (canonical_encodes en f p Hb H HC) as (cs & HE & _ & _ & _ & _ & _ & _ & NE).
  destruct (first_chosen_event _ _ _ _ F) as (k & CH & K).
  assert (EI : e_id e = 219) by (assert (I : In e (e :: m)) by (left; reflexivity); rewrite <- F in I; apply filter_In in I as [_ I]; now apply Z.eqb_eq).
  assert (I : In e (pr_events p)) by (eapply in_view; [exact NE|exact V|exact L|]; eapply nth_error_In; exact K).
  assert (EK : e_kind e = KLevels) by (eapply registered_kind; [exact HE|exact I|rewrite EI; reflexivity]).
  destruct (encodes_payload _ _ _ _ _ HE I) as (b & PB).
  set (fs := match layout (zlen b) KLevels with Some fs => fs | None => [] end).
  assert (LY : layout (zlen b) (e_kind e) = Some fs) by (rewrite EK; reflexivity).
  assert (CA : cut_at fs b (Nat.min (length fs) (length b / 4))).
  { apply (C29_every_payload (zlen b) KLevels fs 4); [reflexivity|lia|]. intros x X. cbn in X. repeat (destruct X as [<-|X]; [eexists; split; reflexivity|]). destruct X. }
  assert (RD : readable en fs b (Nat.min (length fs) (length b / 4))) by (apply (C28_readable en (zlen b) KLevels); [reflexivity|discriminate|discriminate]).
  assert (FD : exists i fd ty, nth_error fs i = Some fd /\ f_type fd = Some ty /\ f_name fd = level_key l /\ storable en ty (VInt z)).
  { destruct l; [exists 0%nat|exists 1%nat]; eexists _, _; (split; [reflexivity|]); (split; [reflexivity|]); (split; [reflexivity|]).
    - apply (proj1 (proj2 (C25_storable en 4 (VInt z)))); [lia|]. exists z. split; [reflexivity|]. cbn in R. change (256 ^ Z.of_nat 4) with (2 ^ 32). lia.
    - apply (C25_storable en 4 (VInt z)). exists z. split; [reflexivity|]. exact R. }
  destruct FD as (i & fd & ty & N & T & NM & ST). rewrite <- NM in A.
  destruct (C25_struct_property en f p h t [219] VNone k e b fs _ i fd ty d a (VInt z) Hb H HC V L ltac:(discriminate) CH K ltac:(rewrite EI; intros [X|X]; discriminate) PB LY CA RD N T ST D A NA)
    as (h' & f' & p' & j & d' & E & S & P & J & U & RL & _).
  exists h', f', p', j, d'. rewrite NM in *. split; [|repeat (split; [assumption|]); assumption].
  rewrite <- E, set_level_eq. destruct (first_event _ _ _ _ _ F) as (c & r & G & EE & IN & C & FI & VF).
  assert (SE : struct_event 219 d e) by (split; [exact EI|]; split; [rewrite EK; reflexivity|exact D]).
  unfold level_set, with_res, level_get. rewrite C, (first_item_get _ _ _ _ _ _ _ F SE), A.
  assert (X : set_first_item h t 219 (level_key l) (VInt z) = prop_set en h (EvModel t) (MkProp [219] VNone false (PStruct (level_key l))) (VInt z)).
  { unfold set_first_item, prop_set. cbn [p_readonly p_ids p_kind get_event first_of]. rewrite C, G. reflexivity. }
  rewrite X. destruct a; try congruence; reflexivity.
Qed.
Print Assumptions C63_saved.

(* The documented range of pan and volume (0 to 12800) is accepted for an old 8-bit event as
   well, but the project cannot be saved any more. *)
Definition old_pan : list chunk := [(199, ver11); (64, [0; 0]); (3, [64])].
Theorem C63_refuted : exists h', parse en0 (sample old_pan) = Ok (load (sample old_pan)) /\ canonical_file en0 (sample old_pan) /\
  pan_get (parsed (pr_events (load (sample old_pan)))) 0 = Ok (VInt 64) /\
  pan_set (parsed (pr_events (load (sample old_pan)))) 0 (VInt 6400) = (h', Ok tt) /\ pan_get h' 0 = Ok (VInt 6400) /\
  exists x, serialise en0 (Project (root_events h') 1 0 96) = Err x.
Proof.
  eexists. split; [vm_compute; reflexivity|]. split; [apply sample_ok; vm_compute; reflexivity|]. split; [vm_compute; reflexivity|]. split; [vm_compute; reflexivity|]. split; [vm_compute; reflexivity|]. eexists. vm_compute. reflexivity.
Qed.
Print Assumptions C63_refuted.

(* A channel with old events of both sizes, and one with a levels event of two fields. *)
Example C63_case : let evs := [Event 72 KU16 2 false (VInt 10000); Event 2 KU8 1 false (VInt 100); Event 219 KLevels 8 false (VDict [("pan"%string, VInt 6400); ("volume"%string, VInt 10000); ("pitch_shift"%string, VNone)])] in
  let h := fst (separate (fst (divide (parsed evs) 0 72 [2; 72])) 0 219) in
  session evs h /\ value_of 219 (events h 1) = None /\ volume_get h 1 = Ok (VInt 10000) /\ value_of 2 (events h 1) = Some (VInt 100) /\
  (exists e, filter (fun e => e_id e =? 219) (events h 2) = [e] /\ struct_event 219 [("pan"%string, VInt 6400); ("volume"%string, VInt 10000); ("pitch_shift"%string, VNone)] e) /\
  snd (pan_set h 2 (VInt 1)) = Ok tt /\ snd (pitch_set h 2 (VInt 1)) = Err PropertyCannotBeSet.
Proof.
  cbv zeta. split; [|split; [|split; [|split; [|split; [|split]]]]]; try (vm_compute; reflexivity).
  - eapply ses_look; [|apply op_separate; vm_compute; lia]. eapply ses_look; [apply ses_load|]. apply op_divide. vm_compute. lia.
  - eexists. split; [vm_compute; reflexivity|]. split; [reflexivity|]. split; reflexivity.
Qed.
