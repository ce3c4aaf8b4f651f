(* C24-C27, C53: properties of models, edits through them, slices. *)
From Coq Require Import String ZArith List Bool Lia Arith.
From Verif Require Import M_Base M_Construct M_Structs M_Events M_Parse M_Tree M_Prop.
From Verif Require Import S_Canon S_File S_Domain S_Tree S_Prop P_Base P_Null P_Save P_TreeBase P_Tree P_TreeEdit P_Prop P_Edit.
From Verif Require Import C_Samples.
Import ListNotations.
Open Scope Z_scope.

(* ------------------------------------------------------------------------- C24 *)

(* reading *)
Theorem C24_get : forall en h t ids d ro o, ids <> [] -> chosen ids (events h t) o ->
  prop_get en h (EvModel t) (MkProp ids d ro PEvent) =
    Ok (match o with
        | Some k => match value_at (events h t) k with Some v => v | None => d end
        | None => d
        end).
Proof. exact event_prop_get. Qed.
Print Assumptions C24_get.
(* there is always exactly one answer to which event is meant *)
Theorem C24_chosen : forall ids evs, exists o, chosen ids evs o /\ forall o', chosen ids evs o' -> o' = o.
Proof.
  intros ids evs. destruct (chosen_total ids evs) as [o H]. exists o. split; [exact H|].
  intros o' H'. symmetry. exact (chosen_fun _ _ _ H _ H').
Qed.
Print Assumptions C24_chosen.

(* writing: through any view, of any depth, of the events of a loaded project *)
Theorem C24_set : forall en evs h t ids d v k, evs <> [] -> views (parsed evs) h -> (t < nt h)%nat ->
  ids <> [] -> chosen ids (events h t) (Some k) ->
  exists h' j, prop_set en h (EvModel t) (MkProp ids d false PEvent) v = (h', Ok tt) /\
    (* one event of the project changes, the others do not *)
    nth_error evs j = nth_error (events h t) k /\ revalued evs j v (root_events h') /\
    (* the view shows it, and so do all others that contain the event *)
    revalued (events h t) k v (events h' t) /\
    (forall u, (u < nt h)%nat -> events h' u = events h u \/
       exists i, nth_error (events h u) i = nth_error evs j /\ revalued (events h u) i v (events h' u)) /\
    prop_get en h' (EvModel t) (MkProp ids d false PEvent) = Ok v.
Proof.
  intros en evs h t ids d v k NE V L NI CH. destruct (views_tree _ _ t NE V L) as (W & ND & F).
  destruct (event_prop_set en h t ids d v k NI W CH) as (r & h' & R & S & O).
  exists h', r. split; [exact S|]. rewrite Forall_forall in F. pose proof (F r (nth_error_In _ _ R)) as FR.
  assert (LR : (r < length evs)%nat) by (apply nth_error_Some; congruence).
  split; [rewrite FR, events_refs, nth_error_map, R; reflexivity|]. split.
  - rewrite (only_value_root _ _ _ _ _ NE V LR O). split; [now rewrite lset_length|]. split.
    + intros j N. rewrite nth_error_lset. apply Nat.eqb_neq in N. now rewrite N.
    + exists (ev_of h r), (with_val (ev_of h r) v). split; [exact FR|]. split; [|repeat split].
      rewrite nth_error_lset, Nat.eqb_refl. apply Nat.ltb_lt in LR. now rewrite LR.
  - pose proof (only_value_revalued _ _ _ _ t k O ND R) as RV. split; [exact RV|]. split.
    + intros u LU. destruct (views_tree _ _ u NE V LU) as (_ & NDU & _).
      destruct (in_dec Nat.eq_dec r (refs h u)) as [I|I]; [right|left; now apply (only_value_same _ _ _ _ _ O)].
      apply In_nth_error in I as [i I]. exists i. split; [rewrite FR, events_refs, nth_error_map, I; reflexivity|].
      now apply (only_value_revalued _ _ _ _ _ _ O).
    + rewrite (event_prop_get en h' t ids d false (Some k) NI).
      * unfold value_at. destruct RV as (_ & _ & e & e' & _ & N & _ & _ & _ & _ & X). rewrite N. cbn [option_map]. now rewrite X.
      * eapply chosen_ids; [symmetry; exact (only_value_ids _ _ _ _ t O)|exact CH].
Qed.
Print Assumptions C24_set.

(* refused writes *)
Theorem C24_refused : forall en h t ids d ro v, ids <> [] ->
  (ro = true \/ chosen ids (events h t) None) ->
  prop_set en h (EvModel t) (MkProp ids d ro PEvent) v = (h, Err PropertyCannotBeSet).
Proof. exact event_prop_refused. Qed.
Print Assumptions C24_refused.

(* properties without ids belong to models of one event *)
Theorem C24_single : forall en h t d ro,
  match events h t with
  | [] => prop_get en h (EvModel t) (MkProp [] d ro PEvent) = Err IndexError
  | [e] => prop_get en h (EvModel t) (MkProp [] d ro PEvent) = Ok (e_val e)
  | _ => prop_get en h (EvModel t) (MkProp [] d ro PEvent) = Err LookupError
  end.
Proof.
  intros. unfold events, prop_get. cbn [p_ids get_event]. destruct (lst_of h t) as [|c [|c2 l]]; reflexivity.
Qed.
Print Assumptions C24_single.

Definition evs1 : list event :=
  [Event 21 KU8 1 false (VInt 3); Event 194 KUnicode 4 false (VStr [65]); Event 194 KUnicode 4 false (VStr [66]);
   Event 193 KUnicode 4 false (VStr [67]); Event 21 KU8 1 false (VInt 5)].
Definition pick (ids : list Z) (s : unit) (e : event) : unit * option bool := (s, Some (mem_Z (e_id e) ids)).
Definition h1 : heap := fst (subtree (parsed evs1) 0 (pick [193; 194]) tt).
Example C24_case : views (parsed evs1) h1 /\ (1 < nt h1)%nat /\
  chosen [231; 194; 193] (events h1 1) (Some 0%nat) /\ chosen [21] (events h1 1) None /\
  prop_get en0 h1 (EvModel 1) (MkProp [231; 194; 193] VNone false PEvent) = Ok (VStr [65]) /\
  map e_val (root_events (fst (prop_set en0 h1 (EvModel 1) (MkProp [231; 193] VNone false PEvent) (VStr [90]))))
    = [VInt 3; VStr [65]; VStr [66]; VStr [90]; VInt 5].
Proof.
  split.
  { eapply views_more; [apply views_none|]. apply op_subtree. vm_compute. lia. }
  split; [vm_compute; lia|]. split.
  { eapply (ch_some _ _ [231] 194 [193] 0%nat); [reflexivity| |vm_compute; reflexivity|reflexivity|lia].
    intros e I. vm_compute in I. intros [X|[]]. repeat (destruct I as [<-|I]; [discriminate X|]). contradiction. }
  split.
  { apply ch_none. intros e I. vm_compute in I. intros [X|[]]. repeat (destruct I as [<-|I]; [discriminate X|]). contradiction. }
  vm_compute. split; reflexivity.
Qed.

(* ------------------------------------------------------------------------- C25 *)

(* Numbers, texts and raw data, through any view: the saved file parses to the same
   project with that one event changed.  Events 199 (version) and 201 (plugin name)
   are left out because they decide how other events are read. *)
Theorem C25_event_property : forall en f p h t ids d k e v,
  is_bytes f -> parse en f = Ok p -> canonical_file en f ->
  views (parsed (pr_events p)) h -> (t < nt h)%nat ->
  ids <> [] -> chosen ids (events h t) (Some k) -> nth_error (events h t) k = Some e ->
  ~ (e_id e = 199 \/ e_id e = 201) -> scalar_kind (e_kind e) = true -> domain (e_kind e) v ->
  zlen f + room v + 6 < 2 ^ 32 ->
  exists h' f' p' j, prop_set en h (EvModel t) (MkProp ids d false PEvent) v = (h', Ok tt) /\
    serialise en (Project (root_events h') (pr_channel_count p) (pr_format p) (pr_ppq p)) = Ok f' /\
    parse en f' = Ok p' /\
    nth_error (pr_events p) j = Some e /\ reloaded (pr_events p) j v (pr_events p') /\
    pr_channel_count p' = pr_channel_count p /\ pr_format p' = pr_format p /\ pr_ppq p' = pr_ppq p.
Proof. exact edit_event_prop. Qed.
Print Assumptions C25_event_property.

(* Flags kept in a numeric event *)
Theorem C25_flag_property : forall en f p h t ids d n fl mask inv k e v,
  is_bytes f -> parse en f = Ok p -> canonical_file en f ->
  views (parsed (pr_events p)) h -> (t < nt h)%nat ->
  ids <> [] -> chosen ids (events h t) (Some k) -> nth_error (events h t) k = Some e ->
  unsigned_kind (e_kind e) = true -> good_flag mask fl -> fl < 2 ^ bit_width (e_kind e) ->
  zlen f + 10 < 2 ^ 32 ->
  exists z y h' f' p' j, e_val e = VInt z /\
    prop_set en h (EvModel t) (MkProp ids d false (PFlag n fl mask inv)) v = (h', Ok tt) /\
    serialise en (Project (root_events h') (pr_channel_count p) (pr_format p) (pr_ppq p)) = Ok f' /\
    parse en f' = Ok p' /\
    nth_error (pr_events p) j = Some e /\ reloaded (pr_events p) j (VInt y) (pr_events p') /\
    (if xorb inv (truthy v) then bits_set z fl true y
     else if en_py311 en then bits_set_below (Z.log2 mask) z fl false y else bits_set z fl false y).
Proof. exact edit_flag_prop. Qed.
Print Assumptions C25_flag_property.

(* the sample file: its title and a U8 event, seen through a view *)
Definition p0 : project := match parse en0 f0 with Ok p => p | Err _ => Project [] 0 0 0 end.
Definition h0 : heap := fst (subtree (parsed (pr_events p0)) 0 (pick [21; 194]) tt).
Example C25_case :
  parse en0 f0 = Ok p0 /\ views (parsed (pr_events p0)) h0 /\ (1 < nt h0)%nat /\
  chosen [194] (events h0 1) (Some 1%nat) /\ chosen [21] (events h0 1) (Some 0%nat) /\
  option_map e_kind (nth_error (events h0 1) 1) = Some KUnicode /\ option_map e_kind (nth_error (events h0 1) 0) = Some KU8 /\
  domain KUnicode (VStr [72; 128521]) /\ zlen f0 + room (VStr [72; 128521]) + 6 < 2 ^ 32 /\ good_flag 127 1 /\
  value_at (match serialise en0 (Project (root_events (fst (prop_set en0 h0 (EvModel 1) (MkProp [194] VNone false PEvent)
     (VStr [72; 128521])))) 0 0 96) with
   | Ok f' => match parse en0 f' with Ok p' => pr_events p' | Err _ => [] end
   | Err _ => [] end) 3 = Some (VStr [72; 128521]).
Proof.
  split; [vm_compute; reflexivity|]. split.
  { eapply views_more; [apply views_none|]. apply op_subtree. vm_compute. lia. }
  split; [vm_compute; lia|]. split.
  { eapply (ch_some _ _ [] 194 [] 1%nat); [reflexivity|intros e _ []|vm_compute; reflexivity|reflexivity|].
    intros [|j] e' J X; [|lia]. vm_compute in X. injection X as <-. discriminate. }
  split.
  { eapply (ch_some _ _ [] 21 [] 0%nat); [reflexivity|intros e _ []|vm_compute; reflexivity|reflexivity|lia]. }
  split; [vm_compute; reflexivity|]. split; [vm_compute; reflexivity|]. split.
  { exists [72; 128521]. split; [reflexivity|]. split.
    - intros [|a [|b [|c t]]] X; try discriminate.
    - repeat constructor; unfold scalar; lia. }
  split; [vm_compute; reflexivity|]. split; [vm_compute; repeat split|vm_compute; reflexivity].
Qed.

(* ------------------------------------------------------------------------- C26 *)

(* Setting a flag property, of an event or of a list item, on any stored number
   (not negative from Python 3.11 on). *)
Theorem C26_set : forall en h m p n f mask inv g old z v h',
  p_kind p = PFlag n f mask inv -> good_flag mask f ->
  get_event h (p_ids p) m = Ok (Some g) -> target_ok h g ->
  flags_get h g n = Ok old -> number old z -> (en_py311 en = true -> 0 <= z) ->
  prop_set en h m p v = (h', Ok tt) ->
  exists u w y, only_value h (target_ref g) u h' /\ flags_get h' g n = Ok w /\ number w y /\
    (if xorb inv (truthy v) then bits_set z f true y
     else if en_py311 en then bits_set_below (Z.log2 mask) z f false y else bits_set z f false y) /\
    prop_get en h' m p = Ok (VBool (truthy v)).
Proof. exact flag_prop_set. Qed.
Print Assumptions C26_set.

(* Below Python 3.11, and when a flag is switched on, or when every bit in the file
   is below the highest known one, only the flag changes. *)
Theorem C26_other_bits : forall en h m p n f mask inv g old z v h',
  p_kind p = PFlag n f mask inv -> good_flag mask f ->
  get_event h (p_ids p) m = Ok (Some g) -> target_ok h g ->
  flags_get h g n = Ok old -> number old z -> (en_py311 en = true -> 0 <= z) ->
  (en_py311 en = false \/ xorb inv (truthy v) = true \/ z < 2 ^ (Z.log2 mask + 1)) ->
  prop_set en h m p v = (h', Ok tt) ->
  exists w y, flags_get h' g n = Ok w /\ number w y /\ bits_set z f (xorb inv (truthy v)) y.
Proof.
  intros en h m p n f mask inv g old z v h' K G E T F N P Q H.
  destruct (flag_prop_set en h m p n f mask inv g old z v h' K G E T F N P H) as (u & w & y & _ & W & NY & B & _).
  exists w, y. split; [exact W|]. split; [exact NY|]. destruct (xorb inv (truthy v)); [exact B|]. unfold cleared in B.
  destruct (en_py311 en); [|exact B]. destruct Q as [Q|[Q|Q]]; [discriminate|discriminate|].
  intros i Hi. rewrite (B i Hi). destruct (Z.ltb_spec (Z.log2 mask) i) as [L|L]; [|reflexivity].
  rewrite (good_flag_high _ _ _ G) by exact L.
  symmetry. apply (proj1 (bits_bound (Z.log2 mask + 1) z ltac:(pose proof (Z.log2_nonneg mask); lia) (P eq_refl)) Q). lia.
Qed.
Print Assumptions C26_other_bits.

(* clearing "slide" of a note from Python 3.11 on loses a bit PyFLP does not know *)
Definition note_item (z : Z) : val := VDict [("flags"%string, VInt z); ("key"%string, VInt 60)].
Definition notes_ev (z : Z) : event := Event 224 KNotes 24 false (VList [note_item z]).
Definition slide : prop := MkProp [] VNone false (PFlag "flags" 8 8 false).
Theorem C26_other_bits_refuted : exists h m z,
  flags_get h (TItem 0 0) "flags" = Ok (VInt z) /\ get_event h (p_ids slide) m = Ok (Some (TItem 0 0)) /\
  ~ (exists h' w y, prop_set en0 h m slide (VBool false) = (h', Ok tt) /\
     flags_get h' (TItem 0 0) "flags" = Ok w /\ number w y /\ bits_set z 8 false y).
Proof.
  exists (parsed [notes_ev 16392]), (ItModel 0 0), 16392. split; [vm_compute; reflexivity|]. split; [reflexivity|].
  intros (h' & w & y & S & W & N & B). vm_compute in S. injection S as <-. vm_compute in W. injection W as <-.
  destruct N as [N|[N|(b & N & _)]]; try discriminate N. injection N as <-.
  specialize (B 14 ltac:(lia)). vm_compute in B. discriminate.
Qed.
Print Assumptions C26_other_bits_refuted.

Example C26_case :
  good_flag 8 8 /\ get_event (parsed [notes_ev 3]) (p_ids slide) (ItModel 0 0) = Ok (Some (TItem 0 0)) /\
  target_ok (parsed [notes_ev 3]) (TItem 0 0) /\
  flags_get (parsed [notes_ev 3]) (TItem 0 0) "flags" = Ok (VInt 3) /\
  prop_get en0 (fst (prop_set en0 (parsed [notes_ev 3]) (ItModel 0 0) slide (VBool true))) (ItModel 0 0) slide = Ok (VBool true) /\
  flags_get (fst (prop_set en0 (parsed [notes_ev 3]) (ItModel 0 0) slide (VBool true))) (TItem 0 0) "flags" = Ok (VEnum 11).
Proof. vm_compute. repeat split; auto. Qed.

(* A flag of a struct field that the file lacks: the write fails with TypeError. *)
Theorem C26_absent : forall en h m p n f mask inv g v,
  p_kind p = PFlag n f mask inv -> p_readonly p = false ->
  get_event h (p_ids p) m = Ok (Some g) -> flags_get h g n = Ok VNone ->
  prop_set en h m p v = (h, Err TypeError) /\ prop_get en h m p = Ok VNone.
Proof.
  intros en h m p n f mask inv g v K R E F. unfold prop_set, prop_get. rewrite R, E, K. cbn [bind target_write target_read].
  rewrite F. cbn [bind]. split; [|reflexivity]. destruct (xorb inv (truthy v)); reflexivity.
Qed.
Print Assumptions C26_absent.
Definition delay_ev : event := Event 215 KParameters 9 false (VDict [("delay.flags"%string, VNone)]).
Example C26_absent_case :
  get_event (parsed [delay_ev]) [215] (EvModel 0) = Ok (Some (TEvent 0)) /\
  flags_get (parsed [delay_ev]) (TEvent 0) "delay.flags" = Ok VNone.
Proof. vm_compute. auto. Qed.

(* ------------------------------------------------------------------------- C27 *)

(* Fields of a struct event *)
Theorem C27_struct : forall en evs h t ids df k e d name v, evs <> [] -> views (parsed evs) h -> (t < nt h)%nat ->
  ids <> [] -> chosen ids (events h t) (Some k) -> nth_error (events h t) k = Some e ->
  is_struct_kind (e_kind e) = true -> e_val e = VDict d ->
  let p := MkProp ids df false (PStruct name) in
  match dget d name with
  | None => prop_set en h (EvModel t) p v = (h, Err KeyError) /\ prop_get en h (EvModel t) p = Err KeyError
  | Some VNone => prop_set en h (EvModel t) p v = (h, Err PropertyCannotBeSet) /\ prop_get en h (EvModel t) p = Ok VNone
  | Some old => prop_get en h (EvModel t) p = Ok old /\
      exists h' j d', prop_set en h (EvModel t) p v = (h', Ok tt) /\ dict_updated d name v d' /\
        nth_error evs j = Some e /\ revalued evs j (VDict d') (root_events h') /\
        revalued (events h t) k (VDict d') (events h' t) /\
        prop_get en h' (EvModel t) p = Ok v
  end.
Proof.
  intros en evs h t ids df k e d name v NE V L NI CH E SK EV p. destruct (views_tree _ _ t NE V L) as (W & ND & F).
  destruct (get_event_spec h t ids NI) as [A _]. destruct (A k CH) as (c & K & GE). set (r := ref_of h c) in *.
  assert (R : nth_error (refs h t) k = Some r) by (unfold refs; now rewrite nth_error_map, K).
  assert (EE : ev_of h r = e) by (rewrite events_refs, nth_error_map, R in E; cbn in E; congruence).
  unfold prop_set, prop_get. cbn [p p_readonly p_ids p_kind]. rewrite GE. cbn [bind target_write target_read tg_set tg_get].
  rewrite EE. unfold struct_set, struct_get. rewrite SK, EV. unfold dindex.
  destruct (dget d name) as [old|] eqn:D; [|split; reflexivity].
  assert (X : old <> VNone -> exists h' j d', (set_val h r (VDict (dset d name v)), Ok tt) = (h', Ok tt) /\ dict_updated d name v d' /\
        nth_error evs j = Some e /\ revalued evs j (VDict d') (root_events h') /\
        revalued (events h t) k (VDict d') (events h' t) /\
        (let* g := get_event h' ids (EvModel t) in match g with Some g => tg_get h' g name | None => Ok df end) = Ok v).
  { intros _. exists (set_val h r (VDict (dset d name v))), r, (dset d name v). split; [reflexivity|].
    split; [eapply dset_updated; exact D|]. rewrite Forall_forall in F. pose proof (F r (nth_error_In _ _ R)) as FR. rewrite EE in FR.
    assert (LR : (r < length evs)%nat) by (apply nth_error_Some; congruence).
    assert (LH : (r < length (h_evs h))%nat) by (unfold in_heap in W; rewrite Forall_forall in W; apply W; eapply nth_error_In; eauto).
    pose proof (set_val_only h r (VDict (dset d name v)) LH) as O.
    split; [exact FR|]. split; [|split].
    - rewrite (only_value_root _ _ _ _ _ NE V LR O), EE. split; [now rewrite lset_length|]. split.
      + intros j N. rewrite nth_error_lset. apply Nat.eqb_neq in N. now rewrite N.
      + exists e, (with_val e (VDict (dset d name v))). split; [exact FR|]. split; [|repeat split].
        rewrite nth_error_lset, Nat.eqb_refl. apply Nat.ltb_lt in LR. now rewrite LR.
    - exact (only_value_revalued _ _ _ _ t k O ND R).
    - rewrite (only_value_get_event _ _ _ _ _ _ O), GE. cbn [bind tg_get]. destruct O as (_ & _ & _ & _ & ->). rewrite EE.
      unfold struct_get, with_val. cbn [e_kind e_val]. rewrite SK. unfold dindex. now rewrite dget_dset. }
  destruct old; try (split; [reflexivity|apply X; discriminate]). split; reflexivity.
Qed.
Print Assumptions C27_struct.

(* Fields of an element of a list event, or of a point of an automation *)
Theorem C27_item : forall en h r i ids df d name v, (r < length (h_evs h))%nat ->
  nth_error (items (ev_of h r)) i = Some (VDict d) ->
  let p := MkProp ids df false (PStruct name) in
  exists h' d', prop_set en h (ItModel r i) p v = (h', Ok tt) /\
    dget d' name = Some v /\ (forall n, n <> name -> dget d' n = dget d n) /\
    (* the element, and nothing else, changes *)
    nth_error (items (ev_of h' r)) i = Some (VDict d') /\
    length (items (ev_of h' r)) = length (items (ev_of h r)) /\
    (forall j, j <> i -> nth_error (items (ev_of h' r)) j = nth_error (items (ev_of h r)) j) /\
    (forall s, s <> r -> ev_of h' s = ev_of h s) /\
    prop_get en h' (ItModel r i) p = Ok v.
Proof.
  intros en h r i ids df d name v LR N p. unfold prop_set, prop_get. cbn [p p_readonly p_ids p_kind get_event bind target_write target_read].
  destruct (tg_set h (TItem r i) name v) as [h' a] eqn:T. pose proof T as T'. cbn [tg_set] in T. rewrite N in T.
  set (e' := set_items (ev_of h r) (lset (items (ev_of h r)) i (VDict (dset d name v)))) in *. injection T as <- <-.
  exists (set_event h r e'), (dset d name v). split; [reflexivity|]. split; [apply dget_dset|].
  split; [intros n Hn; now apply dget_dset_other|].
  assert (LI : (i < length (items (ev_of h r)))%nat) by (apply nth_error_Some; congruence).
  destruct (tg_set_spec h (TItem r i) name v _ _ LR T') as [(_ & x & X)|(w & O & G & _)]; [discriminate|].
  assert (EV : ev_of (set_event h r e') r = e').
  { unfold ev_of, set_event. cbn [h_evs]. rewrite nth_lset, Nat.eqb_refl. apply Nat.ltb_lt in LR. now rewrite LR. }
  rewrite EV. unfold e' at 1 2 3. rewrite !(items_set h r i _ _ eq_refl N). rewrite nth_error_lset, Nat.eqb_refl.
  pose proof LI as LI'. apply Nat.ltb_lt in LI'. rewrite LI'. split; [reflexivity|].
  split; [apply lset_length|]. split.
  - intros j J. rewrite nth_error_lset. apply Nat.eqb_neq in J. now rewrite J.
  - split; [|exact G]. destruct O as (_ & _ & _ & O & _). exact O.
Qed.
Print Assumptions C27_item.

Definition delay_ev2 : event :=
  Event 209 KDelay 8 false (VDict [("feedback"%string, VInt 1); ("pan"%string, VInt 2); ("echoes"%string, VNone)]).
Example C27_case :
  views (parsed [delay_ev2]) (parsed [delay_ev2]) /\ chosen [209] (events (parsed [delay_ev2]) 0) (Some 0%nat) /\
  snd (prop_set en0 (parsed [delay_ev2]) (EvModel 0) (MkProp [209] VNone false (PStruct "pan")) (VInt 7)) = Ok tt /\
  snd (prop_set en0 (parsed [delay_ev2]) (EvModel 0) (MkProp [209] VNone false (PStruct "echoes")) (VInt 7)) = Err PropertyCannotBeSet /\
  snd (prop_set en0 (parsed [delay_ev2]) (EvModel 0) (MkProp [209] VNone false (PStruct "pann")) (VInt 7)) = Err KeyError /\
  length (items (ev_of (parsed [notes_ev 3]) 0)) = 1%nat.
Proof.
  split; [apply views_none|]. split.
  { eapply (ch_some _ _ [] 209 [] 0%nat); [reflexivity|intros e _ []|vm_compute; reflexivity|reflexivity|lia]. }
  vm_compute. repeat split.
Qed.

(* ------------------------------------------------------------------------- C53 *)

Theorem C53_slice : forall A (l : list A) a b, 0 <= a -> 0 <= b ->
  slice_models l (Some a) (Some b) = Ok (list_slice l a b).
Proof. exact slice_spec. Qed.
Print Assumptions C53_slice.
(* an omitted bound *)
Theorem C53_open_ended : forall A (l : list A) a b, l <> [] -> a = None \/ b = None ->
  slice_models l a b = Err TypeError.
Proof. intros A l a b NE [->| ->]; destruct l; try congruence; try reflexivity. destruct a; reflexivity. Qed.
Print Assumptions C53_open_ended.
(* a negative bound does not count from the end *)
Theorem C53_negative : forall A (l : list A) a b, a < 0 -> 0 <= b -> slice_models l (Some a) (Some b) = Ok (list_slice l 0 b).
Proof.
  intros A l a b Ha Hb. rewrite <- slice_spec by lia. unfold slice_models. do 2 f_equal. apply filter_ext.
  intros [n x]. cbn [fst]. f_equal. lia.
Qed.
Print Assumptions C53_negative.
Example C53_case : slice_models [10; 11; 12; 13] (Some 1) (Some 3) = Ok [11; 12] /\
  slice_models [10; 11] (Some 1) (Some 300) = Ok [11] /\ slice_models [10] (Some 2) (Some 1) = Ok [].
Proof. vm_compute. auto. Qed.
