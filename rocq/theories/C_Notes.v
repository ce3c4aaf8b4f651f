(* C25 (elements given any accepted value), C73: notes and controllers of patterns. *)
From Coq Require Import String ZArith List Bool Lia Arith.
From Verif Require Import M_Base M_Float M_Text M_Construct M_Structs M_Events M_Parse M_Tree M_Prop M_Custom M_Items M_Collections M_Models.
From Verif Require Import S_Canon S_File S_Domain S_Tree S_Prop S_Layout S_Real S_Project S_Items S_Notes.
From Verif Require Import P_Base P_Codec P_RT P_Cells P_Kinds P_Lists P_Payload P_File P_Null P_Save P_Domain.
From Verif Require Import P_TreeBase P_Tree P_TreeEdit P_Prop P_Edit P_Rewrite P_Layout P_Struct P_Records P_EditStruct P_Misfit P_Written P_Round P_Items P_Models P_Notes.
From Verif Require Import C_Samples C_Items C_Struct C_Automation.
Import ListNotations.
Open Scope Z_scope.

(* ------------------------------------------------------------------------- C25 *)

(* An element given a value in any accepted form: after saving and loading it reads as
   what the written bytes stand for; everything else is as before. *)
Theorem C25_item_written : forall en f p h t r ids df e b rs i m fd ty d v c v',
  is_bytes f -> parse en f = Ok p -> canonical_file en f ->
  views (parsed (pr_events p)) h -> (t < nt h)%nat -> In r (refs h t) -> ev_of h r = e ->
  ~ (e_id e = 199 \/ e_id e = 201) ->
  payload en e = Ok b -> record (new_of b) (e_kind e) = Some rs ->
  nth_error rs m = Some fd -> f_type fd = Some ty -> stored_as ty v c -> is_bytes c -> ft_dec en ty c = Some v' ->
  nth_error (items e) i = Some (VDict d) ->
  exists h' f' p' d', prop_set en h (ItModel r i) (MkProp ids df false (PStruct (f_name fd))) v = (h', Ok tt) /\
    serialise en (Project (root_events h') (pr_channel_count p) (pr_format p) (pr_ppq p)) = Ok f' /\
    parse en f' = Ok p' /\
    nth_error (pr_events p) r = Some e /\ dict_updated d (f_name fd) v' d' /\
    reloaded (pr_events p) r (VList (lset (items e) i (VDict d'))) (pr_events p') /\
    pr_channel_count p' = pr_channel_count p /\ pr_format p' = pr_format p /\ pr_ppq p' = pr_ppq p.
Proof. exact write_item_prop. Qed.
Print Assumptions C25_item_written.

(* ------------------------------------------------------------------------- C73 *)

Definition kind_record (k : kind) : list field := match record false k with Some rs => rs | None => [] end.

Lemma kind_record_is k id s tb w : element_kind k id s tb -> record w k = Some (kind_record k) /\ rec_size (kind_record k) = s /\ is_list_kind k = true /\ 192 <= id.
Proof. intros []; repeat split; try reflexivity; lia. Qed.
Lemma number_field k id s tb n o z : element_kind k id s tb -> In (n, (o, z)) tb ->
  exists m, nth_error (kind_record k) m = Some (Req n (TU z)) /\ offset (kind_record k) m = o.
Proof.
  intros K I. destruct K; cbn [In note_numbers controller_numbers] in I;
  repeat (destruct I as [I|I]; [injection I as <- <- <-;
    first [exists 0%nat; split; [reflexivity|reflexivity] | exists 2%nat; split; [reflexivity|reflexivity] | exists 3%nat; split; [reflexivity|reflexivity]
     | exists 5%nat; split; [reflexivity|reflexivity] | exists 6%nat; split; [reflexivity|reflexivity] | exists 8%nat; split; [reflexivity|reflexivity]
     | exists 9%nat; split; [reflexivity|reflexivity] | exists 10%nat; split; [reflexivity|reflexivity] | exists 11%nat; split; [reflexivity|reflexivity]
     | exists 12%nat; split; [reflexivity|reflexivity] | exists 13%nat; split; [reflexivity|reflexivity]]|]); destruct I.
Qed.
Lemma number_names k id s tb n o z n' o' z' : element_kind k id s tb -> In (n, (o, z)) tb -> In (n', (o', z')) tb -> n = n' -> o = o' /\ z = z'.
Proof.
  intros K I I' ->. assert (ND : NoDup (map fst tb)) by (destruct K; repeat constructor; cbn [In map fst note_numbers controller_numbers]; intuition discriminate).
  assert (E : (o, z) = (o', z')); [|injection E as -> ->; auto]. clear K. induction tb as [|[x y] tb IH]; [destruct I|]. cbn [map fst] in ND. apply NoDup_cons_iff in ND. destruct ND as [N ND].
  destruct I as [I|I], I' as [I'|I'].
  - congruence.
  - exfalso. injection I as -> _. apply N. apply in_map_iff. eexists. split; [|exact I']. reflexivity.
  - exfalso. injection I' as -> _. apply N. apply in_map_iff. eexists. split; [|exact I]. reflexivity.
  - auto.
Qed.

(* a field of an element, whatever heap the event is in *)
Lemma item_get en h r b e k id s tb i m f t : element_kind k id s tb -> is_bytes b -> mk_event en k id b = Ok e -> ev_of h r = e ->
  (i < length b / s)%nat -> nth_error (kind_record k) m = Some f -> f_type f = Some t ->
  exists v, tg_get h (TItem r i) (f_name f) = Ok v /\ ft_dec en t (slice b (i * s + offset (kind_record k) m) (ft_size t)) = Some v.
Proof.
  intros K Hb HM E L N T. destruct (kind_record_is k id s tb (new_of b) K) as (R & SZ & IL & _).
  destruct (list_event_item en k id b e _ Hb HM R i ltac:(rewrite SZ; exact L)) as (vs & d & EV & _ & NV & _ & FF).
  destruct (FF m f t N T) as (v & G & D). exists v. rewrite SZ in D. split; [|exact D].
  cbn [tg_get]. rewrite E. unfold items. rewrite EV.
  assert (LU : list_usable e = true).
  { destruct (mk_event_inv _ _ _ _ _ HM) as (? & ? & _ & -> & _). destruct K; reflexivity. }
  rewrite LU, NV. unfold dindex. now rewrite G.
Qed.

(* The notes (controllers) of a pattern are the elements of its first event of that kind, in
   order: as many as the payload has room for, each number of each where it belongs. *)
Theorem C73_elements : forall en h t b e m k id s tb, element_kind k id s tb -> is_bytes b -> mk_event en k id b = Ok e ->
  filter (fun e => e_id e =? id) (events h t) = e :: m ->
  exists r, elements h t id = Ok (map (ItModel r) (seq 0 (length b / s))) /\ ev_of h r = e /\ In r (refs h t) /\
    forall i, (i < length b / s)%nat ->
      forall n o z, In (n, (o, z)) tb -> prop_get en h (ItModel r i) (field_prop n) = Ok (VInt (u_le (slice b (i * s + o) z))).
Proof.
  intros en h t b e mm k id s tb K Hb HM F. destruct (first_event _ _ _ _ _ F) as (c & l & G & E & IC & CT & _ & _).
  exists (ref_of h c). destruct (kind_record_is k id s tb (new_of b) K) as (R & SZ & IL & _). split; [|split; [exact E|split]].
  - unfold elements. rewrite G. unfold event_items. change (e_of h c) with (ev_of h (ref_of h c)). rewrite E.
    pose proof (list_event_dec en k id b e _ Hb HM R) as EE. rewrite SZ in EE.
    assert (LU : list_usable e = true) by (rewrite EE; destruct K; reflexivity).
    rewrite LU. cbn [bind]. unfold items. rewrite LU, EE. cbn [e_val]. now rewrite map_length, seq_length.
  - unfold refs. apply in_map. exact IC.
  - intros i L n o z I. destruct (number_field _ _ _ _ _ _ _ K I) as (m & N & O).
    destruct (item_get en h (ref_of h c) b e k id s tb i m _ (TU z) K Hb HM E L N eq_refl) as (v & G1 & D). rewrite O in D. cbn [ft_dec ft_size] in D. injection D as <-. exact G1.
Qed.
Print Assumptions C73_elements.
Theorem C73_none : forall h t id, value_of id (events h t) = None -> elements h t id = Ok [].
Proof. intros h t id N. unfold elements. now rewrite (proj1 (no_first _ _ _ N)). Qed.
Print Assumptions C73_none.
(* a payload without room for one element *)
Theorem C73_short : forall en h t b e m k id s tb, element_kind k id s tb -> is_bytes b -> mk_event en k id b = Ok e ->
  filter (fun e => e_id e =? id) (events h t) = e :: m -> (length b < s)%nat -> elements h t id = Ok [].
Proof.
  intros en h t b e m k id s tb K Hb HM F L. destruct (C73_elements en h t b e m k id s tb K Hb HM F) as (r & E & _).
  rewrite E, Nat.div_small by exact L. reflexivity.
Qed.
Print Assumptions C73_short.

Lemma slide_bit en h r i z : 0 <= z -> tg_get h (TItem r i) "flags" = Ok (VEnum z) ->
  prop_get en h (ItModel r i) slide_prop = Ok (VBool (Z.testbit z 3)).
Proof.
  intros H G. unfold prop_get. cbn [slide_prop p_ids p_kind get_event bind target_read].
  unfold flags_get. cbn [has_items]. rewrite G. cbn [bind]. unfold flag_in. cbn [as_int bind].
  rewrite norm_nonneg by lia. f_equal. f_equal. rewrite Bool.xorb_false_l. change 8 with (2 ^ 3).
  destruct (Z.testbit z 3) eqn:B.
  + apply Z.eqb_eq. apply Z.bits_inj'. intros q Q. rewrite Z.land_spec, Z.pow2_bits_eqb by lia. destruct (Z.eqb_spec 3 q) as [<-|]; [now rewrite B|now rewrite andb_false_r].
  + apply Z.eqb_neq. intros X. assert (Y : Z.testbit (Z.land z (2 ^ 3)) 3 = Z.testbit (2 ^ 3) 3) by now rewrite X. rewrite Z.land_spec, B in Y. discriminate Y.
Qed.

(* the key and whether a note slides; the value of a controller *)
Theorem C73_note : forall en h r b e i, is_bytes b -> mk_event en KNotes 224 b = Ok e -> ev_of h r = e -> (i < length b / 24)%nat ->
  (u_le (slice b (i * 24 + 12) 2) < 132 -> key_get h (TItem r i) = Ok (VStr (str (key_name (u_le (slice b (i * 24 + 12) 2)))))) /\
  prop_get en h (ItModel r i) slide_prop = Ok (VBool (Z.testbit (u_le (slice b (i * 24 + 4) 2)) 3)).
Proof.
  intros en h r b e i Hb HM E L. split.
  - intros B. destruct (item_get en h r b e KNotes 224 24 _ i 4 _ (TU 2) ek_notes Hb HM E L eq_refl eq_refl) as (v & G & D).
    cbn [ft_dec] in D. apply Some_inj in D. subst v. apply C42_name; [exact G|]. split; [|exact B]. apply u_le_bound. now apply is_bytes_firstn, is_bytes_skipn.
  - destruct (item_get en h r b e KNotes 224 24 _ i 1 _ (TFlags 2) ek_notes Hb HM E L eq_refl eq_refl) as (v & G & D).
    cbn [ft_dec] in D. apply Some_inj in D. subst v. apply slide_bit; [|exact G]. apply u_le_bound. now apply is_bytes_firstn, is_bytes_skipn.
Qed.
Print Assumptions C73_note.
Theorem C73_controller : forall en h r b e i, is_bytes b -> mk_event en KController 223 b = Ok e -> ev_of h r = e -> (i < length b / 12)%nat ->
  prop_get en h (ItModel r i) (field_prop "value") = Ok (VFlt (f32_to_64 (u_le (slice b (i * 12 + 8) 4)))).
Proof.
  intros en h r b e i Hb HM E L. destruct (item_get en h r b e KController 223 12 _ i 5 _ TF32 ek_controllers Hb HM E L eq_refl eq_refl) as (v & G & D).
  cbn [ft_dec] in D. apply Some_inj in D. subst v. exact G.
Qed.
Print Assumptions C73_controller.

(* ------------------------------------------------------------------ saving *)

Lemma ev_of_parsed evs r e : nth_error evs r = Some e -> ev_of (parsed evs) r = e.
Proof. intros N. unfold ev_of, parsed. cbn [h_evs]. apply nth_error_nth. exact N. Qed.

Section Saved.
  Variables (en : env) (f : bytes) (p : project) (h : heap) (t r : nat) (e : event) (b : bytes) (k : kind) (id : Z) (s : nat) (tb : list (string * (nat * nat))).
  Hypothesis (Hf : is_bytes f) (HP : parse en f = Ok p) (HC : canonical_file en f) (V : views (parsed (pr_events p)) h) (LT : (t < nt h)%nat)
    (IR : In r (refs h t)) (E : ev_of h r = e) (EI : e_id e = id) (EK : e_kind e = k) (PL : payload en e = Ok b) (K : element_kind k id s tb).

  Lemma element_is i : (i < length b / s)%nat -> exists d, nth_error (items e) i = Some (VDict d) /\ (i < length (items e))%nat /\
    record (new_of b) k = Some (kind_record k) /\ ~ (e_id e = 199 \/ e_id e = 201) /\ is_bytes b /\ mk_event en k id b = Ok e /\
    forall m fd ty, nth_error (kind_record k) m = Some fd -> f_type fd = Some ty ->
      exists v, dget d (f_name fd) = Some v /\ ft_dec en ty (slice b (i * s + offset (kind_record k) m) (ft_size ty)) = Some v.
  Proof using All.
    intros L. destruct (canonical_encodes en f p Hf HP HC) as (cs & _ & _ & _ & _ & _ & _ & _ & NE).
    destruct (views_tree _ _ t NE V LT) as (_ & _ & FF). rewrite Forall_forall in FF. pose proof (FF r IR) as FR. rewrite E in FR.
    pose proof (canonical_read en f p Hf HP HC) as CR. rewrite Forall_forall in CR.
    destruct (CR e (nth_error_In _ _ FR)) as (b0 & B0 & B1 & B2 & _). assert (b0 = b) by congruence. subst b0. rewrite EK, EI in B1.
    destruct (kind_record_is k id s tb (new_of b) K) as (R & SZ & IL & _).
    destruct (list_event_item en k id b e _ B0 B1 R i ltac:(rewrite SZ; exact L)) as (vs & d & EV & LV & NV & _ & FF').
    assert (LU : list_usable e = true) by (unfold list_usable; rewrite EK; destruct K; reflexivity).
    assert (IT : items e = vs) by (unfold items; now rewrite EV, LU).
    exists d. rewrite IT. split; [exact NV|]. split; [rewrite LV, SZ; exact L|]. split; [exact R|].
    split; [rewrite EI; destruct K; lia|]. split; [exact B0|]. split; [exact B1|]. rewrite SZ in FF'. exact FF'.
  Qed.
  (* what is read after loading again *)
  Lemma reload_reads i d n v' d' p' : nth_error (items e) i = Some (VDict d) -> (i < length (items e))%nat -> nth_error (pr_events p) r = Some e ->
    dict_updated d n v' d' -> reloaded (pr_events p) r (VList (lset (items e) i (VDict d'))) (pr_events p') ->
    forall i' n', tg_get (parsed (pr_events p')) (TItem r i') n' = if (i' =? i)%nat && (n' =? n)%string then Ok v' else tg_get h (TItem r i') n'.
  Proof using E EK EI K.
    intros NV L N (_ & G1 & G2) (_ & _ & (x & y & X & Y & YI & YK & YV)). assert (x = e) by congruence. subst x.
    intros i' n'. cbn [tg_get]. rewrite (ev_of_parsed _ _ _ Y), E.
    assert (LU' : list_usable y = true) by (unfold list_usable; rewrite YK, EK; destruct K; reflexivity).
    assert (ITY : items y = lset (items e) i (VDict d')) by (unfold items at 1; now rewrite YV, LU').
    rewrite ITY. destruct (Nat.eqb_spec i' i) as [->|NI].
    - rewrite nth_error_lset_same by exact L. rewrite NV. unfold dindex. destruct (String.eqb_spec n' n) as [->|NN]; cbn [andb].
      + now rewrite G1.
      + now rewrite G2.
    - rewrite nth_error_lset_other by (apply not_eq_sym; exact NI). reflexivity.
  Qed.

  Definition again (h' : heap) (p' : project) (reads : heap -> Prop) : Prop :=
    exists f' w, serialise en (Project (root_events h') (pr_channel_count p) (pr_format p) (pr_ppq p)) = Ok f' /\ parse en f' = Ok p' /\
      nth_error (pr_events p) r = Some e /\ reloaded (pr_events p) r w (pr_events p') /\ reads (parsed (pr_events p')) /\
      pr_channel_count p' = pr_channel_count p /\ pr_format p' = pr_format p /\ pr_ppq p' = pr_ppq p.

  Lemma write_element i m fd ty v c v' : (i < length b / s)%nat ->
    nth_error (kind_record k) m = Some fd -> f_type fd = Some ty -> stored_as ty v c -> is_bytes c -> ft_dec en ty c = Some v' ->
    exists h' p', prop_set en h (ItModel r i) (field_prop (f_name fd)) v = (h', Ok tt) /\
      again h' p' (fun h2 => forall i' n', tg_get h2 (TItem r i') n' =
         if (i' =? i)%nat && (n' =? f_name fd)%string then Ok v' else tg_get h (TItem r i') n').
  Proof using All.
    intros L N T ST Bc Dc. destruct (element_is i L) as (d & NV & LI & R & NS & _).
    destruct (write_item_prop en f p h t r [] VNone e b (kind_record k) i m fd ty d v c v' Hf HP HC V LT IR E NS PL ltac:(rewrite EK; exact R) N T ST Bc Dc NV)
      as (h' & f' & p' & d' & S1 & S2 & S3 & S4 & S5 & S6 & S7).
    exists h', p'. split; [exact S1|]. exists f'. eexists. split; [exact S2|]. split; [exact S3|]. split; [exact S4|]. split; [exact S6|]. split; [|exact S7].
    eapply reload_reads; eauto.
  Qed.
End Saved.

Section Opened.
  Variables (en : env) (f : bytes) (p : project) (h : heap) (t r : nat) (e : event) (b : bytes).
  (* a project loaded from a canonical file, looked at through the list of events [t] of [h];
     [r] is one of them, [e] *)
  Definition open_event : Prop := is_bytes f /\ parse en f = Ok p /\ canonical_file en f /\ views (parsed (pr_events p)) h /\ (t < nt h)%nat /\
    In r (refs h t) /\ ev_of h r = e /\ payload en e = Ok b.
End Opened.

(* A number of a note or controller, given a number that fits: the saved file, loaded again, has
   that number there; every other number of every note or controller is as before, and so is
   every other event. *)
Theorem C73_saved : forall en f p h t r e b k id s tb i n o z v y, open_event en f p h t r e b -> e_id e = id -> e_kind e = k -> element_kind k id s tb ->
  (i < length b / s)%nat -> In (n, (o, z)) tb -> number v y -> 0 <= y < 256 ^ Z.of_nat z ->
  exists h' p', prop_set en h (ItModel r i) (field_prop n) v = (h', Ok tt) /\
    again en p r e h' p' (fun h2 => forall i' n', prop_get en h2 (ItModel r i') (field_prop n') =
      if (i' =? i)%nat && (n' =? n)%string then Ok (VInt y) else prop_get en h (ItModel r i') (field_prop n')).
Proof.
  intros en f p h t r e b k id s tb i n o z v y (Hf & HP & HC & V & LT & IR & E & PL) EI EK K L I NV B.
  destruct (number_field _ _ _ _ _ _ _ K I) as (m & N & O).
  destruct (write_element en f p h t r e b k id s tb Hf HP HC V LT IR E EI EK PL K i m _ (TU z) v (le z y) (VInt y) L N eq_refl) as (h' & p' & S & A).
  - exists y. auto.
  - rewrite le_spec. apply le_enc_bytes.
  - cbn [ft_dec]. now rewrite le_spec, u_le_enc.
  - exists h', p'. split; [exact S|]. exact A.
Qed.
Print Assumptions C73_saved.

(* the key *)
Theorem C73_key_saved : forall en f p h t r e b i y, open_event en f p h t r e b -> e_id e = 224 -> e_kind e = KNotes ->
  (i < length b / 24)%nat -> 0 <= y < 132 ->
  exists h' p', key_set h (TItem r i) (VInt y) = (h', Ok tt) /\
    again en p r e h' p' (fun h2 => key_get h2 (TItem r i) = Ok (VStr (str (key_name y))) /\ (forall i', i' <> i -> key_get h2 (TItem r i') = key_get h (TItem r i')) /\
      (forall i', prop_get en h2 (ItModel r i') slide_prop = prop_get en h (ItModel r i') slide_prop) /\
      forall i' n', n' <> "key"%string -> prop_get en h2 (ItModel r i') (field_prop n') = prop_get en h (ItModel r i') (field_prop n')).
Proof.
  intros en f p h t r e b i y (Hf & HP & HC & V & LT & IR & E & PL) EI EK L B.
  destruct (write_element en f p h t r e b KNotes 224 24 _ Hf HP HC V LT IR E EI EK PL ek_notes i 4 _ (TU 2) (VInt y) (le 2 y) (VInt y) L eq_refl eq_refl) as (h' & p' & S & (f' & w & A1 & A2 & A3 & A4 & A5 & A6)).
  - exists y. split; [now left|]. split; [change (256 ^ Z.of_nat 2) with 65536; lia|reflexivity].
  - rewrite le_spec. apply le_enc_bytes.
  - cbn [ft_dec]. rewrite le_spec, u_le_enc; [reflexivity|]. change (256 ^ Z.of_nat 2) with 65536. lia.
  - exists h', p'. split.
    + cbn [key_set as_int]. replace ((0 <=? y) && (y <? 132)) with true by lia. exact S.
    + exists f', w. split; [exact A1|]. split; [exact A2|]. split; [exact A3|]. split; [exact A4|]. split; [|exact A6]. cbn [f_name] in A5. split; [|split; [|split]].
      * apply C42_name; [|exact B]. rewrite A5, Nat.eqb_refl. reflexivity.
      * intros i' NI. unfold key_get. rewrite A5. apply Nat.eqb_neq in NI. now rewrite NI.
      * intros i'. unfold prop_get. cbn [slide_prop p_ids p_kind get_event bind target_read]. unfold flags_get. cbn [has_items]. rewrite A5. cbn [String.eqb Ascii.eqb Bool.eqb]. now rewrite andb_false_r.
      * intros i' n' NN. unfold prop_get. cbn [field_prop p_ids p_kind get_event bind target_read]. rewrite A5. apply String.eqb_neq in NN. now rewrite NN, andb_false_r.
Qed.
Print Assumptions C73_key_saved.

(* whether a note slides *)
Theorem C73_slide_saved : forall en f p h t r e b i x, open_event en f p h t r e b -> e_id e = 224 -> e_kind e = KNotes ->
  (i < length b / 24)%nat ->
  exists h' p', prop_set en h (ItModel r i) slide_prop (VBool x) = (h', Ok tt) /\
    again en p r e h' p' (fun h2 => prop_get en h2 (ItModel r i) slide_prop = Ok (VBool x) /\ (forall i', i' <> i -> prop_get en h2 (ItModel r i') slide_prop = prop_get en h (ItModel r i') slide_prop) /\
      (forall i', key_get h2 (TItem r i') = key_get h (TItem r i')) /\
      forall i' n', n' <> "flags"%string -> prop_get en h2 (ItModel r i') (field_prop n') = prop_get en h (ItModel r i') (field_prop n')).
Proof.
  intros en f p h t r e b i x (Hf & HP & HC & V & LT & IR & E & PL) EI EK L.
  destruct (element_is en f p h t r e b KNotes 224 24 _ Hf HP HC V LT IR E EI EK PL ek_notes i L) as (d & NV & LI & R & NS & Hb & _ & FF).
  destruct (FF 1%nat _ (TFlags 2) eq_refl eq_refl) as (v & DG & DV). cbn [ft_dec f_name] in DG, DV. apply Some_inj in DV. subst v.
  set (z := u_le (slice b (i * 24 + offset (kind_record KNotes) 1) (ft_size (TFlags 2)))) in *.
  assert (HZ : 0 <= z < 2 ^ 16).
  { unfold z. pose proof (u_le_bound (slice b (i * 24 + offset (kind_record KNotes) 1) (ft_size (TFlags 2))) ltac:(now apply is_bytes_firstn, is_bytes_skipn)) as U.
    assert (LS : (length (slice b (i * 24 + offset (kind_record KNotes) 1) (ft_size (TFlags 2))) <= 2)%nat) by (unfold slice; rewrite firstn_length; cbn [ft_size]; lia).
    pose proof (Z.pow_le_mono_r 256 (Z.of_nat (length (slice b (i * 24 + offset (kind_record KNotes) 1) (ft_size (TFlags 2))))) 2 ltac:(lia) ltac:(lia)) as PM.
    change (256 ^ 2) with (2 ^ 16) in PM. lia. }
  assert (FR : flag_room (TFlags 2) 16) by (left; exists 2%nat; split; reflexivity).
  destruct (flag_write_storable en (TFlags 2) 16 8 8 z (VBool x) false FR ltac:(vm_compute; repeat split) ltac:(vm_compute; reflexivity) HZ) as (y & WR & ST & S7).
  destruct (edit_item_prop en f p h t r [] VNone e b (kind_record KNotes) i 1 _ (TFlags 2) d (VEnum y) Hf HP HC V LT IR E NS PL ltac:(rewrite EK; exact R) eq_refl eq_refl ST NV)
    as (h' & f' & p' & d' & S1 & S2 & S3 & S4 & S5 & S6 & S8).
  exists h', p'. split.
  { rewrite <- S1. unfold prop_set. cbn [p_readonly p_ids p_kind get_event target_write slide_prop f_name].
    unfold flags_get, flags_set. cbn [has_items tg_get]. rewrite E, NV. unfold dindex. rewrite DG. cbn [bind]. rewrite WR. reflexivity. }
  exists f'. eexists. split; [exact S2|]. split; [exact S3|]. split; [exact S4|]. split; [exact S6|].
  pose proof (reload_reads p h r e KNotes 224 24 _ E EI EK ek_notes i d _ _ d' p' NV LI S4 S5 S6) as RR. cbn [f_name] in RR.
  assert (Y : 0 <= y /\ Z.testbit y 3 = x).
  { cbn [xorb truthy] in S7.
    assert (ZH : forall q, 16 < q -> Z.testbit z q = false).
    { intros q Q. destruct (Z.eq_dec z 0) as [->|]; [apply Z.bits_0|]. apply Z.bits_above_log2; [lia|]. apply Z.log2_lt_pow2; [lia|].
      pose proof (Z.pow_lt_mono_r 2 16 q ltac:(lia) ltac:(lia) ltac:(lia)). lia. }
    assert (FH : forall q, 16 < q -> Z.testbit 8 q = false).
    { intros q Q. change 8 with (2 ^ 3). rewrite Z.pow2_bits_eqb by lia. apply Z.eqb_neq. lia. }
    split.
    - apply Z.bits_iff_nonneg_ex. exists 16. intros q Q. destruct x; [rewrite S7 by lia; now rewrite ZH, FH|].
      unfold cleared in S7. destruct (en_py311 en); rewrite S7 by lia; rewrite ZH, FH by lia; [now destruct (_ <? q)|reflexivity].
    - destruct x; [now rewrite S7 by lia|]. unfold cleared in S7. destruct (en_py311 en); rewrite S7 by lia; reflexivity. }
  split; [|exact S8].
  - split; [|split; [|split]].
    + destruct Y as [Y0 Y3]. rewrite <- Y3. apply slide_bit; [exact Y0|]. now rewrite RR, Nat.eqb_refl.
    + intros i' NI. unfold prop_get. cbn [slide_prop p_ids p_kind get_event bind target_read]. unfold flags_get. cbn [has_items]. rewrite RR. apply Nat.eqb_neq in NI. now rewrite NI.
    + intros i'. unfold key_get. rewrite RR. cbn [String.eqb Ascii.eqb Bool.eqb]. now rewrite andb_false_r.
    + intros i' n' NN. unfold prop_get. cbn [field_prop p_ids p_kind get_event bind target_read]. rewrite RR. apply String.eqb_neq in NN. now rewrite NN, andb_false_r.
Qed.
Print Assumptions C73_slide_saved.

(* the value of a controller, given a float or any number: rounded to single precision *)
Theorem C73_value_saved : forall en f p h t r e b i v x w, open_event en f p h t r e b -> e_id e = 223 -> e_kind e = KController ->
  (i < length b / 12)%nat -> v = VFlt x \/ (exists z, number v z /\ f_of_int z = Some x) -> f64_to_32 x = Some w ->
  exists h' p', prop_set en h (ItModel r i) (field_prop "value") v = (h', Ok tt) /\
    again en p r e h' p' (fun h2 => forall i' n', prop_get en h2 (ItModel r i') (field_prop n') =
      if (i' =? i)%nat && (n' =? "value")%string then Ok (VFlt (f32_to_64 w)) else prop_get en h (ItModel r i') (field_prop n')).
Proof.
  intros en f p h t r e b i v x w (Hf & HP & HC & V & LT & IR & E & PL) EI EK L X W.
  destruct (write_element en f p h t r e b KController 223 12 _ Hf HP HC V LT IR E EI EK PL ek_controllers i 5 _ TF32 v (le 4 w) (VFlt (f32_to_64 w)) L eq_refl eq_refl) as (h' & p' & S & A).
  - exists x, w. auto.
  - rewrite le_spec. apply le_enc_bytes.
  - cbn [ft_dec]. rewrite le_spec, u_le_enc; [reflexivity|]. change (256 ^ Z.of_nat 4) with (2 ^ 32). eapply f64_to_32_range; eauto.
  - exists h', p'. split; [exact S|]. exact A.
Qed.
Print Assumptions C73_value_saved.

(* A pattern with two notes, the second sliding, and a controller of value 0.5 *)
Definition note1 : bytes := [96; 0; 0; 0; 8; 64; 1; 0; 48; 0; 0; 0; 61; 0; 0; 0; 120; 0; 64; 0; 64; 90; 128; 127].
Definition note2 : bytes := [144; 0; 0; 0; 0; 64; 1; 0; 24; 0; 0; 0; 72; 0; 3; 0; 110; 0; 60; 1; 70; 80; 127; 126].
Definition ctrl1 : bytes := [12; 0; 0; 0; 0; 0; 3; 0; 0; 0; 0; 63].
Definition roll_cs : list chunk := [(199, ver20); (64, [0; 0]); (65, [1; 0]); (224, note1 ++ note2); (223, ctrl1)].
Definition roll_p : project := load (sample roll_cs).
Definition roll_h : heap := parsed (pr_events roll_p).
Definition roll_notes : event := nth 3 (pr_events roll_p) (Event 0 KU8 0 false VNone).
Definition roll_ctrls : event := nth 4 (pr_events roll_p) (Event 0 KU8 0 false VNone).
Definition roll_all (h : heap) : list (res val) :=
  map (fun n => prop_get en0 h (ItModel 3 0) (field_prop n)) (map fst note_numbers) ++ [key_get h (TItem 3 0); prop_get en0 h (ItModel 3 0) slide_prop] ++
  map (fun n => prop_get en0 h (ItModel 3 1) (field_prop n)) (map fst note_numbers) ++ [key_get h (TItem 3 1); prop_get en0 h (ItModel 3 1) slide_prop] ++
  map (fun n => prop_get en0 h (ItModel 4 0) (field_prop n)) ["position"; "channel"; "value"]%string.
Definition f64_half : Z := 4602678819172646912.
Example C73_case :
  open_event en0 (sample roll_cs) roll_p roll_h 0 3 roll_notes (note1 ++ note2) /\ e_id roll_notes = 224 /\ e_kind roll_notes = KNotes /\
  open_event en0 (sample roll_cs) roll_p roll_h 0 4 roll_ctrls ctrl1 /\ e_id roll_ctrls = 223 /\ e_kind roll_ctrls = KController /\
  mk_event en0 KNotes 224 (note1 ++ note2) = Ok roll_notes /\ mk_event en0 KController 223 ctrl1 = Ok roll_ctrls /\
  filter (fun e => e_id e =? 224) (events roll_h 0) = [roll_notes] /\ filter (fun e => e_id e =? 223) (events roll_h 0) = [roll_ctrls] /\
  elements roll_h 0 224 = Ok [ItModel 3 0; ItModel 3 1] /\ elements roll_h 0 223 = Ok [ItModel 4 0] /\
  roll_all roll_h = map (fun z => Ok (VInt z)) [96; 1; 48; 0; 120; 64; 0; 64; 90; 128; 127] ++ [Ok (VStr (str "C#5")); Ok (VBool true)] ++
    map (fun z => Ok (VInt z)) [144; 1; 24; 3; 110; 60; 1; 70; 80; 127; 126] ++ [Ok (VStr (str "C6")); Ok (VBool false)] ++ [Ok (VInt 12); Ok (VInt 3); Ok (VFlt f64_half)].
Proof.
  destruct (sample_ok roll_cs ltac:(vm_compute; reflexivity)) as [A B].
  assert (P : parse en0 (sample roll_cs) = Ok roll_p) by (vm_compute; reflexivity).
  assert (O : forall r b, In r (refs roll_h 0) -> payload en0 (ev_of roll_h r) = Ok b -> open_event en0 (sample roll_cs) roll_p roll_h 0 r (ev_of roll_h r) b).
  { intros r b I PL. split; [exact A|]. split; [exact P|]. split; [exact B|]. split; [apply views_none|]. split; [apply Nat.ltb_lt; vm_compute; reflexivity|]. auto. }
  split; [apply (O 3%nat); vm_compute; tauto|]. do 2 (split; [vm_compute; reflexivity|]). split; [apply (O 4%nat); vm_compute; tauto|].
  vm_compute. repeat split.
Qed.
(* edits, saved and loaded again: 0.1 becomes the nearest binary32 *)
Definition roll_again (r : heap * res unit) : list (res val) :=
  match r with
  | (h, Ok tt) => match serialise en0 (Project (root_events h) 2 0 96) with Ok f' => roll_all (parsed (pr_events (load f'))) | Err x => [Err x] end
  | (_, Err x) => [Err x]
  end.
Example C73_again :
  roll_again (prop_set en0 roll_h (ItModel 3 1) (field_prop "velocity") (VInt 127)) = lset (roll_all roll_h) 21 (Ok (VInt 127)) /\
  roll_again (prop_set en0 roll_h (ItModel 3 0) slide_prop (VBool false)) = lset (roll_all roll_h) 12 (Ok (VBool false)) /\
  roll_again (key_set roll_h (TItem 3 0) (VInt 131)) = lset (roll_all roll_h) 11 (Ok (VStr (str "B10"))) /\
  roll_again (prop_set en0 roll_h (ItModel 4 0) (field_prop "value") (VFlt 4591870180066957722)) = lset (roll_all roll_h) 28 (Ok (VFlt 4591870180174331904)) /\
  roll_again (prop_set en0 roll_h (ItModel 4 0) (field_prop "value") (VInt 1)) = lset (roll_all roll_h) 28 (Ok (VFlt 4607182418800017408)).
Proof. vm_compute. repeat split. Qed.
