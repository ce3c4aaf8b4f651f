(* Lemmas for C62 to C71: the first event of an id, its keys, and assignments in a session. *)
From Coq Require Import String ZArith List Bool Lia Arith.
From Verif Require Import M_Base M_Events M_Tree M_Prop M_Project M_Items M_Collections M_Models.
From Verif Require Import S_Tree S_Prop S_Project S_Items S_Collections S_Models.
From Verif Require Import P_Base P_TreeBase P_Tree P_TreeEdit P_Prop P_Edit P_Project P_Items P_Session.
Import ListNotations.
Open Scope Z_scope.

Lemma get_ie_one h t id : get_ie h t [id] = filter (fun c => id_of h c =? id) (lst_of h t).
Proof. unfold get_ie. apply filter_ext. intros c. cbn. now rewrite orb_false_r. Qed.
(* the first event of an id, as cell and as event *)
Lemma first_event h t id e m : filter (fun e => e_id e =? id) (events h t) = e :: m ->
  exists c l, get_ie h t [id] = c :: l /\ ev_of h (ref_of h c) = e /\ In c (lst_of h t) /\
    contains h t id = true /\ first h t id = Ok e /\ value_of id (events h t) = Some (e_val e).
Proof.
  intros F. assert (G : exists c l, get_ie h t [id] = c :: l /\ e_of h c = e /\ In c (lst_of h t)).
  { rewrite get_ie_one. unfold events in F. revert F. induction (lst_of h t) as [|c l IH]; [discriminate|]. cbn [map filter].
    change (id_of h c) with (e_id (e_of h c)). destruct (e_id (e_of h c) =? id).
    - intros F. injection F as F _. eexists c, _. split; [reflexivity|]. split; [exact F|left; reflexivity].
    - intros F. destruct (IH F) as (c' & l' & A & B & C). exists c', l'. split; [exact A|]. split; [exact B|right; exact C]. }
  destruct G as (c & l & G & E & I). exists c, l. split; [exact G|]. split; [exact E|]. split; [exact I|]. split; [now rewrite contains_get_ie, G|].
  split; [unfold first; now rewrite get_value, F|]. now rewrite value_of_filter, F.
Qed.
Lemma no_first h t id : value_of id (events h t) = None -> get_ie h t [id] = [] /\ contains h t id = false.
Proof.
  intros N. rewrite contains_value, N. split; [|reflexivity]. pose proof (contains_get_ie h t id) as C. rewrite contains_value, N in C.
  destruct (get_ie h t [id]); [reflexivity|discriminate].
Qed.

Definition struct_event (id : Z) (d : list (string * val)) (e : event) : Prop :=
  e_id e = id /\ is_struct_kind (e_kind e) = true /\ e_val e = VDict d.

Lemma first_item_get h t id k e m d : filter (fun e => e_id e =? id) (events h t) = e :: m -> struct_event id d e ->
  first_item h t id k = match dget d k with Some v => Ok v | None => Err KeyError end.
Proof.
  intros F (I & K & D). destruct (first_event _ _ _ _ _ F) as (c & l & G & E & _ & C & FI & _).
  unfold first_item. rewrite FI. cbn [bind]. unfold struct_get. rewrite K, D. reflexivity.
Qed.
(* assigning to a key is assigning a new dictionary to the event *)
Lemma first_item_set h t id k v e m d a : filter (fun e => e_id e =? id) (events h t) = e :: m -> struct_event id d e ->
  dget d k = Some a -> a <> VNone -> set_first_item h t id k v = set_first h t id (VDict (dset d k v)).
Proof.
  intros F (I & K & D) A NA. destruct (first_event _ _ _ _ _ F) as (c & l & G & E & _ & C & FI & _).
  unfold set_first_item, set_first. rewrite G. unfold tg_set, struct_set. rewrite E, K, D, A. destruct a; try congruence; reflexivity.
Qed.
Lemma first_item_refused h t id k v e m d : filter (fun e => e_id e =? id) (events h t) = e :: m -> struct_event id d e ->
  dget d k = Some VNone -> set_first_item h t id k v = (h, Err PropertyCannotBeSet).
Proof.
  intros F (I & K & D) A. destruct (first_event _ _ _ _ _ F) as (c & l & G & E & _ & C & FI & _).
  unfold set_first_item. rewrite G. unfold tg_set, struct_set. now rewrite E, K, D, A.
Qed.

(* ------------------------------------------------------------ in a session *)

Lemma session_root evs h : evs <> [] -> session evs h -> h_evs h <> [] /\ views (parsed (h_evs h)) h /\ root_events h = h_evs h.
Proof.
  intros NE S. destruct (session_views _ _ S) as (V & I). assert (NE' : h_evs h <> []).
  { intros E. unfold same_ids in I. rewrite E in I. destruct evs; [congruence|discriminate]. }
  split; [exact NE'|]. split; [exact V|]. now apply tidy_views.
Qed.
(* assignments to existing events keep the session *)
Lemma set_first_session evs h t id v h' a : session evs h -> set_first h t id v = (h', a) -> session evs h'.
Proof.
  intros S. unfold set_first. destruct (get_ie h t [id]) as [|c l]; intros H; injection H as <- _; [exact S|].
  apply ses_edit; [exact S|reflexivity].
Qed.
Lemma tg_set_session evs h g k v h' a : session evs h -> tg_set h g k v = (h', a) -> session evs h'.
Proof.
  intros S. unfold tg_set. destruct g as [r|r i].
  - destruct (struct_set (ev_of h r) k v); intros H; injection H as <- _; [apply ses_edit; [exact S|reflexivity]|exact S].
  - destruct (nth_error (items (ev_of h r)) i) as [[]|]; intros H; injection H as <- _; try exact S. apply ses_edit; [exact S|]. reflexivity.
Qed.

(* one event of the project with another value; the views show it *)
Lemma session_set_first evs h t id v : evs <> [] -> session evs h -> (t < nt h)%nat -> value_of id (events h t) <> None ->
  exists h' j, set_first h t id v = (h', Ok tt) /\ session evs h' /\ nt h' = nt h /\
    changed id v (root_events h) (root_events h') j /\ events h' t = put id v (events h t) /\
    (forall u, (u < nt h)%nat -> events h' u = events h u \/
       exists i, nth_error (events h u) i = nth_error (root_events h) j /\ revalued (events h u) i v (events h' u)).
Proof.
  intros NE S L N. destruct (session_root _ _ NE S) as (NE' & V & R). rewrite R.
  destruct (set_first_view _ _ t id v NE' V L N) as (h' & j & E & SH & CH & EV & U). exists h', j.
  split; [exact E|]. split; [eapply set_first_session; eassumption|]. split; [unfold nt; destruct SH as (_ & -> & _); reflexivity|]. split; [exact CH|]. split; [exact EV|exact U].
Qed.
Lemma filter_put id v : forall l e m, filter (fun e => e_id e =? id) l = e :: m -> filter (fun e => e_id e =? id) (put id v l) = with_val e v :: m.
Proof.
  induction l as [|x l IH]; intros e m F; [discriminate|]. cbn [filter] in F. cbn [put]. destruct (e_id x =? id) eqn:I.
  - cbn [filter with_val e_id]. rewrite I. injection F as -> ->. reflexivity.
  - cbn [filter]. rewrite I. now apply IH.
Qed.

(* ------------------------------------------------------- elements in a session *)

Lemma only_value_h_evs h r w h' : (r < length (h_evs h))%nat -> only_value h r w h' -> h_evs h' = lset (h_evs h) r (with_val (ev_of h r) w).
Proof.
  intros L (_ & _ & N & O1 & O2). apply nth_ext with no_event no_event; [now rewrite lset_length|]. intros j _. rewrite nth_lset.
  destruct (Nat.eqb_spec j r) as [->|NE]; [|now apply O1]. replace (r <? length (h_evs h))%nat with true by (symmetry; now apply Nat.ltb_lt). exact O2.
Qed.
Lemma session_item_set evs h r i d k v : evs <> [] -> session evs h -> element h r i d ->
  exists h', tg_set h (TItem r i) k v = (h', Ok tt) /\ session evs h' /\ same_shape h h' /\ element h' r i (dset d k v) /\
    item_edited (root_events h) (root_events h') r i (dset d k v).
Proof.
  intros NE S EL. destruct (element_set h r i d k v EL) as (h' & w & E & O & IT & EL'). exists h'. split; [exact E|].
  assert (S' : session evs h') by (eapply tg_set_session; eassumption). split; [exact S'|].
  split; [destruct O as (A & B & C & _); repeat split; assumption|]. split; [exact EL'|].
  destruct (session_root _ _ NE S) as (_ & _ & ->), (session_root _ _ NE S') as (_ & _ & ->). pose proof (proj1 EL) as L.
  pose proof (only_value_h_evs _ _ _ _ L O) as HE. split; [rewrite HE; apply lset_length|]. split.
  - intros j NJ. rewrite HE, nth_error_lset. apply Nat.eqb_neq in NJ. now rewrite NJ.
  - exists (ev_of h r), (ev_of h' r). split; [now apply nth_error_nth'|]. destruct O as (_ & _ & LL & _ & O2).
    split; [apply nth_error_nth'; now rewrite LL|]. rewrite IT, O2. repeat split.
Qed.
Lemma lset_twice A : forall (l : list A) i x y, lset (lset l i x) i y = lset l i y.
Proof. induction l as [|a l IH]; intros [|i] x y; cbn [lset]; [reflexivity|reflexivity|reflexivity|now rewrite IH]. Qed.
Lemma item_edited_twice a b c r i d d' : item_edited a b r i d -> item_edited b c r i d' -> item_edited a c r i d'.
Proof.
  intros (L & O & e & e' & E & E' & I & K & IT) (L2 & O2 & f & f' & F & F' & I2 & K2 & IT2). split; [congruence|]. split; [intros j N; now rewrite O2, O|].
  exists e, f'. split; [exact E|]. split; [exact F'|]. assert (f = e') by congruence. subst f. split; [congruence|]. split; [congruence|]. now rewrite IT2, IT, lset_twice.
Qed.
Lemma shape_get h h' t ids : same_shape h h' -> (forall c, id_of h' c = id_of h c) -> get_ie h' t ids = get_ie h t ids.
Proof. intros (A & B & _) I. unfold get_ie, lst_of, tree_of. rewrite B. apply filter_ext. intros c. now rewrite I. Qed.
Lemma element_first h t id c l i d : get_ie h t [id] = c :: l -> element h (ref_of h c) i d ->
  exists m, filter (fun e => e_id e =? id) (events h t) = ev_of h (ref_of h c) :: m.
Proof.
  intros G _. rewrite get_ie_one in G. unfold events. revert G. induction (lst_of h t) as [|x m IH]; [discriminate|]. cbn [map filter].
  change (e_id (e_of h x)) with (id_of h x). destruct (id_of h x =? id); [|exact IH]. intros G. injection G as -> _. eexists. reflexivity.
Qed.
