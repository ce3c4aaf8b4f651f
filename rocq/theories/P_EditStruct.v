(* Edited fields of struct and list events, saved and loaded again. *)
From Coq Require Import String ZArith List Bool Lia Arith.
From Verif Require Import M_Base M_Float M_Text M_Construct M_Structs M_Events M_Parse M_Tree M_Prop.
From Verif Require Import S_Canon S_File S_Domain S_Tree S_Prop S_Layout.
From Verif Require Import P_Base P_Codec P_RT P_Cells P_Kinds P_Lists P_Payload P_File P_Null P_Save P_Domain.
From Verif Require Import P_TreeBase P_Tree P_TreeEdit P_Prop P_Edit P_Layout P_Struct P_Records.
Import ListNotations.
Open Scope Z_scope.

(* ---------------------------------------------------------------- canonical payloads keep their fields *)

Lemma canon_kept en : forall fs b i, wf_items (map (f_item en) fs) = true -> forallb f_wf fs = true ->
  cut_at fs b i -> readable en fs b i -> canon (map (f_item en) fs) b = true -> kept en fs b i.
Proof.
  induction fs as [|f fs IH]; intros b i WI W C R HK.
  - intros [|m] g t _ N; discriminate.
  - destruct i as [|i]; [intros m g t L; lia|].
    destruct (wf_tail en f fs WI) as [WI' TL]. cbn [forallb] in W. apply andb_true_iff in W as [W0 W].
    destruct (cut_S f fs b i C) as [Z C']. destruct (readable_S en f fs b i R) as [R0 R'].
    assert (G : (forall t, f_type f = Some t -> c_ok (ft_cell en t) (firstn (ft_size t) b) = true) /\
                (is_tail f = false -> canon (map (f_item en) fs) (skipn (f_size f) b) = true)).
    { unfold f_wf in W0. destruct f as [n t|n t|n|n]; cbn [f_type map f_item canon is_tail] in *.
      - rewrite (ft_size_cell en t W0) in HK. apply andb_true_iff in HK as [HK1 HK2]. apply andb_true_iff in HK1 as [_ HK1].
        split; [intros u [= <-]; exact HK1|intros _; exact HK2].
      - change (f_size (Opt n t)) with (ft_size t) in *. specialize (R0 t eq_refl).
        assert (F : fits (ft_cell en t) b = true).
        { rewrite (fits_dec en t b W0). apply Nat.leb_le in Z. rewrite Z. destruct (ft_dec en t (firstn (ft_size t) b)); congruence. }
        unfold fits in F. rewrite (ft_size_cell en t W0) in F.
        assert (X : t = TFlag \/ f_item en (Opt n t) = May (ft_cell en t)) by (destruct t; auto).
        destruct X as [->|X].
        + cbn [f_item canon] in HK. destruct b as [|x b]; [discriminate|]. apply andb_true_iff in HK as [H1 H2].
          split; [|intros _; exact H2]. intros u [= <-]. cbn [ft_cell c_flag c_ok ft_size firstn u_le fold_right]. lia.
        + cbn [f_item] in X. rewrite X in HK. cbn [canon] in HK. rewrite (ft_size_cell en t W0), F in HK.
          apply andb_true_iff in HK as [H1 H2]. split; [intros u [= <-]; exact H1|intros _; exact H2].
      - split; [intros u; discriminate|intros _].
        cbn [any c_size c_reads c_ok Nat.leb andb skipn firstn] in HK. exact HK.
      - split; [intros u; discriminate|discriminate]. }
    destruct G as [G1 G2]. intros [|m] g t L N T.
    + cbn [nth_error] in N. injection N as <-. rewrite offset_0. unfold slice. cbn [skipn]. now apply G1.
    + cbn [nth_error] in N. destruct (is_tail f) eqn:ET; [rewrite (TL eq_refl) in N; destruct m; discriminate|].
      specialize (IH _ i WI' W C' R' (G2 eq_refl) m g t ltac:(lia) N T).
      rewrite offset_S, <- slice_skipn. exact IH.
Qed.

Lemma records_slices n ok : (0 < n)%nat -> forall fuel b, records fuel n ok b = true ->
  exists q, length b = (q * n)%nat /\ forall j, (j < q)%nat -> ok (slice b (j * n) n) = true.
Proof.
  intros Hn. induction fuel as [|fuel IH]; intros b H.
  - destruct b; [|discriminate]. exists O. split; [reflexivity|lia].
  - destruct b as [|x b]; [exists O; split; [reflexivity|lia]|]. remember (x :: b) as l. clear Heql x b.
    assert (X : l = [] \/ (n <=? length l)%nat && ok (firstn n l) && records fuel n ok (skipn n l) = true).
    { destruct l; [now left|right; exact H]. }
    destruct X as [->|X]; [exists O; split; [reflexivity|lia]|].
    apply andb_true_iff in X as [X1 X2]. apply andb_true_iff in X1 as [X0 X1]. apply Nat.leb_le in X0.
    destruct (IH _ X2) as (q & Q1 & Q2). rewrite skipn_length in Q1. exists (S q). split; [cbn [Nat.mul]; lia|].
    intros [|j] Lj; [exact X1|]. specialize (Q2 j ltac:(lia)). rewrite slice_skipn in Q2. exact Q2.
Qed.

(* item sizes *)
Lemma rec_sizes w k rs : record w k = Some rs -> rec_size rs =
  match k with KPlaylist => if w then 60 else 32 | KNotes => 24 | _ => 12 end%nat.
Proof. destruct k; intros H; try discriminate H; apply Some_inj in H; subst rs; [destruct w|..]; reflexivity. Qed.

Lemma list_canonical en k b rs : is_bytes b -> record (new_of b) k = Some rs -> canonical_payload en k b = true ->
  exists q, length b = (q * rec_size rs)%nat /\ forall j, (j < q)%nat -> kept en rs (slice b (j * rec_size rs) (rec_size rs)) (length rs).
Proof.
  intros Hb HR HC. pose proof (rec_sizes _ _ _ HR) as SZ. 
  assert (F4 : forall x o, (o + 4 <= length x)%nat -> forall l, canon (need (any o :: c_f32 :: l)) x = true ->
     c_ok c_f32 (slice x o 4) = true /\ canon (need l) (skipn (o + 4) x) = true).
  { intros x o L l H. cbn [need map canon any c_size c_reads c_ok] in H. rewrite !andb_true_iff in H.
    destruct H as (_ & H2 & H3). change (c_size c_f32) with 4%nat in *. split; [exact (proj2 H2)|]. 
    rewrite skipn_skipn in H3. now rewrite Nat.add_comm. }
  assert (F0 : forall x l, (4 <= length x)%nat -> canon (need (c_f32 :: l)) x = true -> c_ok c_f32 (slice x 0 4) = true).
  { intros x l L H. cbn [need map canon] in H. rewrite !andb_true_iff in H. change (c_size c_f32) with 4%nat in *. apply H. }
  destruct k; try discriminate HR; cbn [canonical_payload] in HC; rewrite SZ.
  - (* playlist *)
    unfold new_of in *. destruct (zlen b mod 60 =? 0) eqn:NW; apply Some_inj in HR; subst rs.
    + destruct (records_slices 60 _ ltac:(lia) _ _ HC) as (q & Q1 & Q2). exists q. split; [exact Q1|]. intros j Lj. specialize (Q2 j Lj).
      set (x := slice b (j * 60) 60) in *.
      assert (Lx : length x = 60%nat) by (unfold x, slice; rewrite firstn_length, skipn_length; nia).
      destruct (F4 x 24%nat ltac:(lia) _ Q2) as [K1 Q3].
      pose proof (F0 (skipn 28 x) _ ltac:(rewrite skipn_length; lia) Q3) as K2.
      rewrite slice_skipn in K2.
      intros m f t Lm N T. do 12 (destruct m as [|m]; [cbn in N; injection N as <-; cbn in T; try discriminate T; injection T as <-; first [reflexivity|exact K1|exact K2]|]).
      cbn [length] in Lm. lia.
    + destruct (records_slices 32 _ ltac:(lia) _ _ HC) as (q & Q1 & Q2). exists q. split; [exact Q1|]. intros j Lj. specialize (Q2 j Lj).
      set (x := slice b (j * 32) 32) in *.
      assert (Lx : length x = 32%nat) by (unfold x, slice; rewrite firstn_length, skipn_length; nia).
      destruct (F4 x 24%nat ltac:(lia) _ Q2) as [K1 Q3].
      pose proof (F0 (skipn 28 x) _ ltac:(rewrite skipn_length; lia) Q3) as K2.
      rewrite slice_skipn in K2.
      intros m f t Lm N T. do 12 (destruct m as [|m]; [cbn in N; injection N as <-; cbn in T; try discriminate T; injection T as <-; first [reflexivity|exact K1|exact K2]|]).
      cbn [length] in Lm. lia.
  - (* mixer parameters *)
    apply Some_inj in HR; subst rs. exists (Z.to_nat (zlen b / 12)). unfold zlen in *. split; [lia|]. intros j Lj.
    intros m f t Lm N T. do 5 (destruct m as [|m]; [cbn in N; injection N as <-; cbn in T; injection T as <-; reflexivity|]).
    cbn [length] in Lm. lia.
  - (* controllers *)
    apply Some_inj in HR; subst rs.
    destruct (records_slices 12 _ ltac:(lia) _ _ HC) as (q & Q1 & Q2). exists q. split; [exact Q1|]. intros j Lj. specialize (Q2 j Lj).
    set (x := slice b (j * 12) 12) in *.
    assert (Lx : length x = 12%nat) by (unfold x, slice; rewrite firstn_length, skipn_length; nia).
    destruct (F4 x 8%nat ltac:(lia) _ Q2) as [K1 _].
    intros m f t Lm N T. do 6 (destruct m as [|m]; [cbn in N; injection N as <-; cbn in T; injection T as <-; first [reflexivity|exact K1]|]).
    cbn [length] in Lm. lia.
  - (* notes *)
    apply Some_inj in HR; subst rs. exists (Z.to_nat (zlen b / 24)). unfold zlen in *. split; [lia|]. intros j Lj.
    intros m f t Lm N T. do 14 (destruct m as [|m]; [cbn in N; injection N as <-; cbn in T; injection T as <-; reflexivity|]).
    cbn [length] in Lm. lia.
Qed.

(* ---------------------------------------------------------------- one field edited: the event *)

Lemma nth_error_skipn A n (l : list A) i : nth_error (skipn n l) i = nth_error l (n + i).
Proof. revert l. induction n as [|n IH]; intros [|x l]; cbn [skipn nth_error Nat.add]; auto. now destruct i. Qed.

Lemma field_saved en k id b e fs i m f t v d old : is_bytes b -> mk_event en k id b = Ok e -> canonical_payload en k b = true ->
  layout (zlen b) k = Some fs -> cut_at fs b i -> readable en fs b i ->
  nth_error fs m = Some f -> f_type f = Some t -> e_val e = VDict d -> dget d (f_name f) = Some old -> old <> VNone ->
  storable en t v ->
  exists b', is_bytes b' /\ zlen b' = zlen b /\ mk_event en k id b' = Ok (with_val e (VDict (dset d (f_name f) v))) /\
    payload en (with_val e (VDict (dset d (f_name f) v))) = Ok b'.
Proof.
  intros Hb HM HC HL C R N T EV DG NN (c & Bc & Lc & Dc & Kc).
  destruct (layout_ok en (zlen b) (new_of b) k fs HL) as (cs & KC & F & NM & W & WI & FI).
  assert (Lm : (m < i)%nat).
  { destruct (struct_event_field en k id b e fs Hb HM HL i C R) as (d' & EV' & _ & FF).
    assert (d' = d) by congruence. subst d'. destruct (FF m f N) as (v0 & _ & V & G).
    assert (v0 = old) by congruence. subst v0.
    destruct f as [n u|n u|n|n]; try discriminate T; cbn [field_value] in V; destruct (Nat.ltb_spec m i); congruence. }
  pose proof (canon_kept en fs b i WI W C R ltac:(rewrite (flat_bridge en b k _ FI); exact HC)) as K.
  pose proof (struct_event_saved en k id b e fs Hb HM HL i C R K) as P0.
  pose proof (proj2 (payload_canonical en k id b e Hb HM) HC) as P1.
  assert (PE : (if catch_all fs then b else firstn (offset fs i) b) ++ repeat 0 (missing_flags fs i) = b) by congruence.
  pose proof (struct_event_edit en k id b e fs i m f t c v d Hb HM HL C R N T Lm Bc Lc Dc EV) as HM'.
  destruct (mk_event_inv _ _ _ _ _ HM) as (v0 & r0 & _ & EE & _).
  assert (WE : Event id k (e_len e) (e_new e) (VDict (dset d (f_name f) v)) = with_val e (VDict (dset d (f_name f) v))) by (rewrite EE; reflexivity).
  rewrite WE in HM'. set (b' := splice b (offset fs m) c) in *.
  pose proof (replace_room fs i m f t c N T Lm Lc) as RM1.
  pose proof (replace_room' fs b i m f t c C N T Lm Lc) as RM.
  assert (LB : length b' = length b) by (apply splice_length; exact RM).
  assert (ZL : zlen b' = zlen b) by (unfold zlen; now rewrite LB).
  assert (Bb' : is_bytes b') by (apply is_bytes_splice; assumption).
  exists b'. split; [exact Bb'|]. split; [exact ZL|]. split; [exact HM'|].
  rewrite (struct_event_saved en k id b' _ fs Bb' HM' ltac:(rewrite ZL; exact HL) i).
  - f_equal. destruct (catch_all fs).
    + assert (MF : missing_flags fs i = O).
      { apply (f_equal (@length Z)) in PE. rewrite app_length, repeat_length in PE. lia. }
      rewrite MF. cbn [repeat]. apply app_nil_r.
    + assert (MF : missing_flags fs i = O /\ (length b <= offset fs i)%nat).
      { pose proof PE as PE'. apply (f_equal (@length Z)) in PE'. rewrite app_length, repeat_length, firstn_length in PE'.
        destruct C as (_ & C1 & C2).
        assert (OM : (offset fs i + missing_flags fs i = length b)%nat) by lia.
        destruct (missing_flags fs i) as [|mf] eqn:MF; [lia|].
        (* a missing flag would still fit *)
        exfalso. assert (X : exists q g, (i <= q)%nat /\ nth_error fs q = Some g /\ f_type g = Some TFlag).
        { unfold missing_flags in MF. destruct (filter is_flag (skipn i fs)) as [|g l] eqn:FL; [discriminate|].
          assert (I : In g (filter is_flag (skipn i fs))) by (rewrite FL; now left).
          apply filter_In in I as [I1 I2]. apply In_nth_error in I1 as [q Q]. rewrite nth_error_skipn in Q.
          exists (i + q)%nat, g. split; [lia|]. split; [exact Q|]. destruct g as [n u|n u|n|n]; try discriminate. destruct u; try discriminate. reflexivity. }
        destruct X as (q & g & Q1 & Q2 & Q3). 
        specialize (C2 q g TFlag Q1 Q2 Q3). cbn [ft_size] in C2. lia. }
      destruct MF as [MF OL]. rewrite MF. cbn [repeat]. rewrite app_nil_r. apply firstn_all2. lia.
  - exact (replace_cut fs b i m f t c C N T Lm Lc).
  - exact (replace_readable en fs b i m f t c v C R N T Lm Lc Dc).
  - eapply replace_kept; eauto.
Qed.

Lemma slice_whole_splice b s q j a c : length b = (q * s)%nat -> (j < q)%nat -> (a + length c <= s)%nat ->
  forall x, (x < q)%nat -> slice (splice b (j * s + a) c) (x * s) s = if (x =? j)%nat then splice (slice b (j * s) s) a c else slice b (x * s) s.
Proof.
  intros LB Lj La x Lx. destruct (Nat.eqb_spec x j) as [->|NE].
  - apply slice_of_splice; nia.
  - apply slice_splice; [nia|]. destruct (Nat.lt_ge_cases x j); [left|right]; nia.
Qed.

Lemma item_saved en k id b e rs j m f t v vs d : is_bytes b -> mk_event en k id b = Ok e -> canonical_payload en k b = true ->
  record (new_of b) k = Some rs ->
  nth_error rs m = Some f -> f_type f = Some t -> e_val e = VList vs -> nth_error vs j = Some (VDict d) ->
  storable en t v ->
  exists b', is_bytes b' /\ zlen b' = zlen b /\ mk_event en k id b' = Ok (with_val e (VList (lset vs j (VDict (dset d (f_name f) v))))) /\
    payload en (with_val e (VList (lset vs j (VDict (dset d (f_name f) v))))) = Ok b'.
Proof.
  intros Hb HM HC HR N T EV NV (c & Bc & Lc & Dc & Kc).
  destruct (list_canonical en k b rs Hb HR HC) as (q & LB & K). set (s := rec_size rs) in *.
  destruct (record_ok en (zlen b) (new_of b) k rs HR) as (cs & KC & F & NM & W & WI & TT & SP). fold s in SP.
  assert (DV : (length b / s = q)%nat) by (rewrite LB; apply Nat.div_mul; lia).
  pose proof (list_event_dec en k id b e rs Hb HM HR) as EE. fold s in EE. rewrite DV in EE.
  assert (Lj : (j < q)%nat).
  { rewrite EE in EV. cbn [e_val] in EV. injection EV as <-.
    assert (X : (j < length (map (rec_val en rs b) (seq 0 q)))%nat) by (apply nth_error_Some; congruence).
    now rewrite map_length, seq_length in X. }
  assert (Lm : (m < length rs)%nat) by (apply nth_error_Some; congruence).
  pose proof (offset_le rs m (length rs) f N Lm) as LO. fold (rec_size rs) in LO. fold s in LO.
  rewrite (f_size_type _ _ T), <- Lc in LO.
  pose proof (list_event_edit en k id b e rs j m f t c v vs d Hb HM HR ltac:(fold s; rewrite DV; exact Lj) N T Bc Lc Dc EV NV) as HM'.
  fold s in HM'. set (b' := splice b (j * s + offset rs m) c) in *.
  assert (WE : forall w, Event id k (e_len e) (e_new e) w = with_val e w) by (intros w; rewrite EE; reflexivity).
  rewrite WE in HM'.
  assert (LE : length b' = length b) by (apply splice_length; nia).
  assert (ZL : zlen b' = zlen b) by (unfold zlen; now rewrite LE).
  assert (Bb' : is_bytes b') by (apply is_bytes_splice; assumption).
  exists b'. split; [exact Bb'|]. split; [exact ZL|]. split; [exact HM'|].
  assert (NW : new_of b' = new_of b) by (unfold new_of; now rewrite ZL).
  rewrite (list_event_saved en k id b' _ rs Bb' HM' ltac:(rewrite NW; exact HR)); fold s; rewrite LE, DV.
  - f_equal. apply firstn_all2. lia.
  - intros x Lx. unfold b'. rewrite (slice_whole_splice b s q j (offset rs m) c LB Lj LO x Lx).
    destruct (Nat.eqb_spec x j) as [->|NE]; [|now apply K].
    assert (LS : length (slice b (j * s) s) = s) by (unfold slice; rewrite firstn_length, skipn_length; nia).
    eapply replace_kept; eauto. now apply record_cut.
Qed.

(* ---------------------------------------------------------------- ... the project *)

(* the event at place [r] of a project loaded from a canonical file gets a value
   that some payload of the same size stands for *)
Lemma same_size_saved en f p h t r e v h' : is_bytes f -> parse en f = Ok p -> canonical_file en f ->
  views (parsed (pr_events p)) h -> (t < nt h)%nat ->
  In r (refs h t) -> ev_of h r = e -> ~ steering (e_id e) ->
  (forall b, is_bytes b -> mk_event en (e_kind e) (e_id e) b = Ok e -> payload en e = Ok b -> canonical_payload en (e_kind e) b = true ->
     exists b', is_bytes b' /\ zlen b' = zlen b /\ mk_event en (e_kind e) (e_id e) b' = Ok (with_val e v) /\ payload en (with_val e v) = Ok b') ->
  only_value h r v h' ->
  exists f' p', nth_error (pr_events p) r = Some e /\
    serialise en (Project (root_events h') (pr_channel_count p) (pr_format p) (pr_ppq p)) = Ok f' /\
    parse en f' = Ok p' /\ reloaded (pr_events p) r v (pr_events p') /\
    pr_channel_count p' = pr_channel_count p /\ pr_format p' = pr_format p /\ pr_ppq p' = pr_ppq p.
Proof.
  intros Hb H HC V L R EE NS HB O.
  destruct (canonical_encodes en f p Hb H HC) as (cs & HE & HI & _ & _ & _ & _ & _ & NE).
  destruct (views_tree _ _ t NE V L) as (_ & _ & F). rewrite Forall_forall in F.
  pose proof (F r R) as FR. rewrite EE in FR.
  assert (LT : (r < length (pr_events p))%nat) by (apply nth_error_Some; congruence).
  rewrite (only_value_root _ _ _ _ _ NE V LT O), EE.
  pose proof (canonical_read en f p Hb H HC) as CR. rewrite Forall_forall in CR.
  destruct (CR e (nth_error_In _ _ FR)) as (b & B0 & B1 & B2 & B3).
  destruct (HB b B0 B1 B2 B3) as (b' & C0 & C1 & C2 & C3).
  destruct (edit_saved en f p r e (with_val e v) b' (with_val e v) Hb H HC FR NS eq_refl eq_refl C3 C0 C2 C3) as (f' & p' & S1 & S2 & S3 & S4).
  - right. eauto.
  - exists f', p'. split; [exact FR|]. split; [exact S1|]. split; [exact S2|]. split; [|exact S4].
    eapply reloaded_lset; [exact FR| | | |exact S3]; reflexivity.
Qed.

Lemma layout_struct L k fs : layout L k = Some fs -> is_struct_kind k = true.
Proof. destruct k; intros H; try discriminate H; reflexivity. Qed.
Lemma record_list w k rs : record w k = Some rs -> is_list_kind k = true.
Proof. destruct k; intros H; try discriminate H; reflexivity. Qed.

(* a struct property *)
Theorem edit_struct_prop en f p h t ids df k e b fs i m fd ty d old v : is_bytes f -> parse en f = Ok p -> canonical_file en f ->
  views (parsed (pr_events p)) h -> (t < nt h)%nat ->
  ids <> [] -> chosen ids (events h t) (Some k) -> nth_error (events h t) k = Some e -> ~ steering (e_id e) ->
  payload en e = Ok b -> layout (zlen b) (e_kind e) = Some fs -> cut_at fs b i -> readable en fs b i ->
  nth_error fs m = Some fd -> f_type fd = Some ty -> storable en ty v ->
  e_val e = VDict d -> dget d (f_name fd) = Some old -> old <> VNone ->
  exists h' f' p' j d', prop_set en h (EvModel t) (MkProp ids df false (PStruct (f_name fd))) v = (h', Ok tt) /\
    serialise en (Project (root_events h') (pr_channel_count p) (pr_format p) (pr_ppq p)) = Ok f' /\
    parse en f' = Ok p' /\
    nth_error (pr_events p) j = Some e /\ dict_updated d (f_name fd) v d' /\ reloaded (pr_events p) j (VDict d') (pr_events p') /\
    pr_channel_count p' = pr_channel_count p /\ pr_format p' = pr_format p /\ pr_ppq p' = pr_ppq p.
Proof.
  intros Hb H HC V L NI CH E NS HP HL C R N T ST EV DG NN.
  destruct (canonical_encodes en f p Hb H HC) as (cs & HE & HI & _ & _ & _ & _ & _ & NE).
  destruct (views_tree _ _ t NE V L) as (W & _ & _).
  destruct (get_event_spec h t ids NI) as [A _]. destruct (A k CH) as (c & K & GE). set (r := ref_of h c) in *.
  assert (RR : nth_error (refs h t) k = Some r) by (unfold refs; now rewrite nth_error_map, K).
  assert (EE : ev_of h r = e) by (rewrite events_refs, nth_error_map, RR in E; cbn in E; congruence).
  assert (LH : (r < length (h_evs h))%nat) by (unfold in_heap in W; rewrite Forall_forall in W; apply W; eapply nth_error_In; eauto).
  set (d' := dset d (f_name fd) v).
  destruct (same_size_saved en f p h t r e (VDict d') (set_val h r (VDict d')) Hb H HC V L (nth_error_In _ _ RR) EE NS) as (f' & p' & S1 & S2 & S3 & S4).
  - intros b0 B0 B1 B2 B3. assert (b0 = b) by congruence. subst b0.
    eapply (field_saved en (e_kind e) (e_id e) b e fs i m fd ty v d old); eauto.
  - now apply set_val_only.
  - exists (set_val h r (VDict d')), f', p', r, d'. split.
    + unfold prop_set. cbn [p_readonly p_ids p_kind]. rewrite GE. cbn [target_write tg_set].
      unfold struct_set. rewrite EE, (layout_struct _ _ _ HL), EV, DG. destruct old; try reflexivity. congruence.
    + split; [exact S2|]. split; [exact S3|]. split; [exact S1|]. split; [eapply dset_updated; exact DG|]. exact S4.
Qed.

(* a property of one element of a list *)
Theorem edit_item_prop en f p h t r ids df e b rs i m fd ty d v : is_bytes f -> parse en f = Ok p -> canonical_file en f ->
  views (parsed (pr_events p)) h -> (t < nt h)%nat -> In r (refs h t) -> ev_of h r = e -> ~ steering (e_id e) ->
  payload en e = Ok b -> record (new_of b) (e_kind e) = Some rs ->
  nth_error rs m = Some fd -> f_type fd = Some ty -> storable en ty v ->
  nth_error (items e) i = Some (VDict d) ->
  exists h' f' p' d', prop_set en h (ItModel r i) (MkProp ids df false (PStruct (f_name fd))) v = (h', Ok tt) /\
    serialise en (Project (root_events h') (pr_channel_count p) (pr_format p) (pr_ppq p)) = Ok f' /\
    parse en f' = Ok p' /\
    nth_error (pr_events p) r = Some e /\ dict_updated d (f_name fd) v d' /\
    reloaded (pr_events p) r (VList (lset (items e) i (VDict d'))) (pr_events p') /\
    pr_channel_count p' = pr_channel_count p /\ pr_format p' = pr_format p /\ pr_ppq p' = pr_ppq p.
Proof.
  intros Hb H HC V L IR EE NS HP HR N T ST NI.
  destruct (canonical_encodes en f p Hb H HC) as (cs & HE & HI & _ & _ & _ & _ & _ & NE).
  destruct (views_tree _ _ t NE V L) as (W & _ & FF). rewrite Forall_forall in FF. pose proof (FF r IR) as FR. rewrite EE in FR.
  assert (LH : (r < length (h_evs h))%nat) by (unfold in_heap in W; rewrite Forall_forall in W; now apply W).
  pose proof (canonical_read en f p Hb H HC) as CR. rewrite Forall_forall in CR.
  destruct (CR e (nth_error_In _ _ FR)) as (b0 & B0 & B1 & B2 & B3). assert (b0 = b) by congruence. subst b0.
  pose proof (list_event_dec en _ _ b e rs B0 B1 HR) as ED.
  set (vs := map (rec_val en rs b) (seq 0 (length b / rec_size rs))) in *.
  assert (EV : e_val e = VList vs) by (rewrite ED; reflexivity).
  assert (IT : items e = vs).
  { unfold items in *. rewrite EV in *. destruct (list_usable e); [reflexivity|destruct i; discriminate]. }
  rewrite IT in *.
  assert (DG : exists w, dget d (f_name fd) = Some w).
  { unfold vs in NI. rewrite nth_error_map in NI. destruct (nth_error (seq 0 (length b / rec_size rs)) i) as [j|]; [|discriminate].
    cbn [option_map] in NI. unfold rec_val in NI. injection NI as <-.
    destruct (dget (dec_fields en rs (slice b (j * rec_size rs) (rec_size rs))) (f_name fd)) eqn:D; [eauto|].
    apply dget_None in D. exfalso. apply D. rewrite dec_names. apply in_map. eapply nth_error_In; eauto. }
  destruct DG as (w & DG).
  set (d' := dset d (f_name fd) v). set (v' := VList (lset vs i (VDict d'))).
  assert (SI : set_items e (lset vs i (VDict d')) = with_val e v') by (unfold set_items; now rewrite EV).
  assert (O : only_value h r v' (set_event h r (with_val e v'))).
  { pose proof (set_val_only h r v' LH) as O. unfold set_val in O. now rewrite EE in O. }
  destruct (same_size_saved en f p h t r e v' (set_event h r (with_val e v')) Hb H HC V L IR EE NS) as (f' & p' & S1 & S2 & S3 & S4).
  - intros b0 C0 C1 C2 C3. assert (b0 = b) by congruence. subst b0.
    eapply (item_saved en (e_kind e) (e_id e) b e rs i m fd ty v vs d); eauto.
  - exact O.
  - eexists _, f', p', d'. split.
    + unfold prop_set. cbn [p_readonly p_ids p_kind get_event target_write tg_set]. rewrite EE, IT, NI.
      fold d'. rewrite SI. reflexivity.
    + split; [exact S2|]. split; [exact S3|]. split; [exact S1|]. split; [eapply dset_updated; exact DG|]. exact S4.
Qed.

(* ---------------------------------------------------------------- which values fit *)

Lemma u_le_enc n z : 0 <= z < 256 ^ Z.of_nat n -> u_le (le_enc n z) = z.
Proof. intros H. rewrite (u_le_dec (le_enc n z)). now apply le_dec_enc. Qed.
Lemma u_le_bound b : is_bytes b -> 0 <= u_le b < 256 ^ Z.of_nat (length b).
Proof. intros H. rewrite (u_le_dec b). now apply le_dec_bound. Qed.
Lemma s_le_enc n z : (0 < n)%nat -> - 256 ^ Z.of_nat n <= 2 * z < 256 ^ Z.of_nat n -> exists c, is_bytes c /\ length c = n /\ s_le c = z.
Proof.
  intros Hn H. set (M := 256 ^ Z.of_nat n) in *. assert (0 < M) by (apply Z.pow_pos_nonneg; lia).
  assert (EV : M = 2 * (128 * 256 ^ (Z.of_nat n - 1))).
  { unfold M. replace (Z.of_nat n) with (Z.succ (Z.of_nat n - 1)) at 1 by lia. rewrite Z.pow_succ_r by lia. lia. }
  exists (le_enc n (z mod M)). split; [apply le_enc_bytes|]. split; [apply le_enc_length|].
  unfold s_le. rewrite le_enc_length. fold M. pose proof (Z.mod_pos_bound z M ltac:(lia)).
  rewrite u_le_enc by (fold M; lia).
  destruct (Z.ltb_spec z 0).
  - assert (E : z mod M = z + M) by (rewrite <- (Z.mod_add z 1 M), Z.mod_small; lia). rewrite E.
    destruct (Z.ltb_spec (2 * (z + M)) M); lia.
  - rewrite Z.mod_small by lia. destruct (Z.ltb_spec (2 * z) M); lia.
Qed.

Lemma storable_TU en n v : storable en (TU n) v <-> exists z, v = VInt z /\ 0 <= z < 256 ^ Z.of_nat n.
Proof.
  split.
  - intros (c & B & L & D & _). cbn [ft_dec ft_size] in *. injection D as <-. exists (u_le c). split; [reflexivity|].
    rewrite <- L. now apply u_le_bound.
  - intros (z & -> & H). exists (le_enc n z). split; [apply le_enc_bytes|]. split; [apply le_enc_length|]. cbn [ft_dec].
    split; [now rewrite u_le_enc|reflexivity].
Qed.
Lemma storable_TEnum en n v : storable en (TEnum n) v <-> exists z, v = VEnum z /\ 0 <= z < 256 ^ Z.of_nat n.
Proof.
  split.
  - intros (c & B & L & D & _). cbn [ft_dec ft_size] in *. injection D as <-. exists (u_le c). split; [reflexivity|].
    rewrite <- L. now apply u_le_bound.
  - intros (z & -> & H). exists (le_enc n z). split; [apply le_enc_bytes|]. split; [apply le_enc_length|]. cbn [ft_dec].
    split; [now rewrite u_le_enc|reflexivity].
Qed.
Lemma storable_TFlags en n v : storable en (TFlags n) v <-> exists z, v = VEnum z /\ 0 <= z < 256 ^ Z.of_nat n.
Proof.
  split.
  - intros (c & B & L & D & _). cbn [ft_dec ft_size] in *. injection D as <-. exists (u_le c). split; [reflexivity|].
    rewrite <- L. now apply u_le_bound.
  - intros (z & -> & H). exists (le_enc n z). split; [apply le_enc_bytes|]. split; [apply le_enc_length|]. cbn [ft_dec].
    split; [now rewrite u_le_enc|reflexivity].
Qed.
Lemma s_le_bound c : is_bytes c -> - 256 ^ Z.of_nat (length c) <= 2 * s_le c < 256 ^ Z.of_nat (length c).
Proof. intros B. pose proof (u_le_bound c B). unfold s_le. destruct (Z.ltb_spec (2 * u_le c) (256 ^ Z.of_nat (length c))); lia. Qed.
Lemma storable_TS en n v : (0 < n)%nat -> storable en (TS n) v <-> exists z, v = VInt z /\ - 256 ^ Z.of_nat n <= 2 * z < 256 ^ Z.of_nat n.
Proof.
  intros Hn. split.
  - intros (c & B & L & D & _). cbn [ft_dec ft_size] in *. injection D as <-. exists (s_le c). split; [reflexivity|].
    rewrite <- L. now apply s_le_bound.
  - intros (z & -> & H). destruct (s_le_enc n z Hn H) as (c & B & L & E). exists c. cbn [ft_dec ft_size]. rewrite E. auto.
Qed.
Lemma storable_TRaw en n v : storable en (TRaw n) v <-> exists b, v = VBytes b /\ is_bytes b /\ length b = n.
Proof.
  split.
  - intros (c & B & L & D & _). cbn [ft_dec ft_size] in *. injection D as <-. eauto.
  - intros (b & -> & B & L). exists b. cbn [ft_dec ft_size]. auto.
Qed.
Lemma storable_truth en t v : t = TFlag \/ t = TBool4 -> (storable en t v <-> exists x, v = VBool x).
Proof.
  intros HT. split.
  - intros (c & B & L & D & _). destruct HT as [-> | ->]; cbn [ft_dec] in D; injection D as <-; eauto.
  - intros (x & ->). destruct HT as [-> | ->].
    + exists [if x then 1 else 0]. split; [repeat constructor; destruct x; lia|]. split; [reflexivity|]. destruct x; auto.
    + exists [if x then 1 else 0; 0; 0; 0]. split; [repeat constructor; destruct x; lia|]. split; [reflexivity|]. destruct x; auto.
Qed.

(* ---------------------------------------------------------------- flags *)

Lemma flag_or_enum py mask f z w : flag_or py mask f (VEnum z) = Ok w -> exists y, w = VEnum y.
Proof. intros [= <-]. eauto. Qed.
Lemma flag_andnot_enum py mask f z w : flag_andnot py mask f (VEnum z) = Ok w -> exists y, w = VEnum y.
Proof. intros [= <-]. eauto. Qed.

Lemma flag_number_range n z f y (b : bool) py mask : 0 <= n -> 0 <= z < 2 ^ n -> 0 <= f < 2 ^ n -> 0 <= y ->
  (if b then bits_set z f true y else cleared py mask f z y) -> y < 2 ^ n.
Proof.
  intros Hn Hz Hf Hy B. apply bits_bound; [lia|lia|]. intros i Hi.
  pose proof (proj1 (bits_bound n z Hn (proj1 Hz)) (proj2 Hz) i Hi) as TZ.
  pose proof (proj1 (bits_bound n f Hn (proj1 Hf)) (proj2 Hf) i Hi) as TF.
  destruct b.
  - rewrite (B i) by lia. now rewrite TF.
  - unfold cleared in B. destruct py; rewrite (B i) by lia; rewrite TF, TZ; [|reflexivity]. now destruct (_ <? _).
Qed.

(* a flag field of [n] bytes holds [y] *)
Lemma flag_storable en ty n y : 0 <= y ->
  (ty = TFlags n /\ y < 256 ^ Z.of_nat n) \/ (exists mask, ty = TFlagsS n mask /\ n = 4%nat /\ 0 < mask /\ y < 2 ^ 31) -> storable en ty (VEnum y).
Proof.
  intros Hy [[-> L]|(mask & -> & -> & M & L)].
  - apply storable_TFlags. eauto.
  - exists (le_enc 4 y). split; [apply le_enc_bytes|]. split; [apply le_enc_length|].
    assert (U : u_le (le_enc 4 y) = y) by (apply u_le_enc; change (256 ^ Z.of_nat 4) with (2 ^ 32); lia).
    cbn [ft_dec ft_cell c_envflags c_ok]. split.
    + unfold s_le. rewrite le_enc_length, U. change (256 ^ Z.of_nat 4) with (2 ^ 32).
      destruct (Z.ltb_spec (2 * y) (2 ^ 32)); [|lia]. do 2 f_equal. destruct (en_py311 en); [now apply norm_nonneg|reflexivity].
    + rewrite U. replace (y <? 2 ^ 31) with true by lia. apply orb_true_r.
Qed.

Lemma flag_write_storable en ty w mask fl z v inv : flag_room ty w -> good_flag mask fl -> fl < 2 ^ w -> 0 <= z < 2 ^ w ->
  exists y, (if xorb inv (truthy v) then flag_or else flag_andnot) (en_py311 en) mask fl (VEnum z) = Ok (VEnum y) /\
    storable en ty (VEnum y) /\
    (if xorb inv (truthy v) then bits_set z fl true y else cleared (en_py311 en) mask fl z y).
Proof.
  intros FR G FL HZ.
  destruct (flag_write_spec (en_py311 en) mask fl (VEnum z) z (xorb inv (truthy v)) G ltac:(right; now left) ltac:(lia))
    as (x & y & WR & NY & BS & _ & Y0).
  assert (X : x = VEnum y).
  { assert (exists q, x = VEnum q) as [q ->] by (destruct (xorb inv (truthy v)); [eapply flag_or_enum|eapply flag_andnot_enum]; eauto).
    destruct NY as [NY|[NY|(c & NY & _)]]; congruence. }
  subst x. exists y. split; [exact WR|]. split; [|exact BS].
  assert (W0 : 0 <= w) by (destruct FR as [(n & _ & ->)|(m & _ & _ & ->)]; lia).
  assert (YB : y < 2 ^ w) by (eapply (flag_number_range w z fl y); [exact W0|exact HZ|destruct G as (_ & G & _); lia|apply Y0; lia|exact BS]).
  destruct FR as [(n & -> & ->)|(m & -> & M & ->)].
  - apply (flag_storable en _ n); [apply Y0; lia|]. left. split; [reflexivity|]. rewrite Z.pow_mul_r in YB by lia. exact YB.
  - apply (flag_storable en _ 4%nat); [apply Y0; lia|]. right. exists m. auto.
Qed.

Theorem edit_struct_flag en f p h t ids df k e b fs i m fd ty w d z fl mask inv v : is_bytes f -> parse en f = Ok p -> canonical_file en f ->
  views (parsed (pr_events p)) h -> (t < nt h)%nat ->
  ids <> [] -> chosen ids (events h t) (Some k) -> nth_error (events h t) k = Some e -> ~ steering (e_id e) ->
  payload en e = Ok b -> layout (zlen b) (e_kind e) = Some fs -> cut_at fs b i -> readable en fs b i ->
  nth_error fs m = Some fd -> f_type fd = Some ty -> flag_room ty w -> good_flag mask fl -> fl < 2 ^ w ->
  e_val e = VDict d -> dget d (f_name fd) = Some (VEnum z) -> 0 <= z < 2 ^ w ->
  exists y h' f' p' j d', prop_set en h (EvModel t) (MkProp ids df false (PFlag (f_name fd) fl mask inv)) v = (h', Ok tt) /\
    serialise en (Project (root_events h') (pr_channel_count p) (pr_format p) (pr_ppq p)) = Ok f' /\
    parse en f' = Ok p' /\
    nth_error (pr_events p) j = Some e /\ dict_updated d (f_name fd) (VEnum y) d' /\ reloaded (pr_events p) j (VDict d') (pr_events p') /\
    (if xorb inv (truthy v) then bits_set z fl true y else cleared (en_py311 en) mask fl z y).
Proof.
  intros Hb H HC V L NI CH E NS HP HL C R N T FR G FL EV DG HZ.
  destruct (flag_write_storable en ty w mask fl z v inv FR G FL HZ) as (y & WR & ST & BS).
  destruct (edit_struct_prop en f p h t ids df k e b fs i m fd ty d (VEnum z) (VEnum y) Hb H HC V L NI CH E NS HP HL C R N T ST EV DG ltac:(discriminate))
    as (h' & f' & p' & j & d' & S1 & S2 & S3 & S4 & S5 & S6 & _).
  exists y, h', f', p', j, d'. split; [|auto 8].
  rewrite <- S1. unfold prop_set. cbn [p_readonly p_ids p_kind].
  destruct (get_event_spec h t ids NI) as [A _]. destruct (A k CH) as (c & K & GE). set (r := ref_of h c) in *.
  assert (RR : nth_error (refs h t) k = Some r) by (unfold refs; now rewrite nth_error_map, K).
  assert (EE : ev_of h r = e) by (rewrite events_refs, nth_error_map, RR in E; cbn in E; congruence).
  rewrite GE. cbn [target_write]. unfold flags_get, flags_set. cbn [has_items]. rewrite EE, (layout_struct _ _ _ HL).
  cbn [tg_get]. unfold struct_get. rewrite EE, (layout_struct _ _ _ HL), EV. unfold dindex. rewrite DG. cbn [bind]. rewrite WR. reflexivity.
Qed.

Theorem edit_item_flag en f p h t r ids df e b rs i m fd ty w d z fl mask inv v : is_bytes f -> parse en f = Ok p -> canonical_file en f ->
  views (parsed (pr_events p)) h -> (t < nt h)%nat -> In r (refs h t) -> ev_of h r = e -> ~ steering (e_id e) ->
  payload en e = Ok b -> record (new_of b) (e_kind e) = Some rs ->
  nth_error rs m = Some fd -> f_type fd = Some ty -> flag_room ty w -> good_flag mask fl -> fl < 2 ^ w ->
  nth_error (items e) i = Some (VDict d) -> dget d (f_name fd) = Some (VEnum z) -> 0 <= z < 2 ^ w ->
  exists y h' f' p' d', prop_set en h (ItModel r i) (MkProp ids df false (PFlag (f_name fd) fl mask inv)) v = (h', Ok tt) /\
    serialise en (Project (root_events h') (pr_channel_count p) (pr_format p) (pr_ppq p)) = Ok f' /\
    parse en f' = Ok p' /\
    nth_error (pr_events p) r = Some e /\ dict_updated d (f_name fd) (VEnum y) d' /\
    reloaded (pr_events p) r (VList (lset (items e) i (VDict d'))) (pr_events p') /\
    (if xorb inv (truthy v) then bits_set z fl true y else cleared (en_py311 en) mask fl z y).
Proof.
  intros Hb H HC V L IR EE NS HP HR N T FR G FL NI DG HZ.
  destruct (flag_write_storable en ty w mask fl z v inv FR G FL HZ) as (y & WR & ST & BS).
  destruct (edit_item_prop en f p h t r ids df e b rs i m fd ty d (VEnum y) Hb H HC V L IR EE NS HP HR N T ST NI)
    as (h' & f' & p' & d' & S1 & S2 & S3 & S4 & S5 & S6 & _).
  exists y, h', f', p', d'. split; [|auto 8].
  rewrite <- S1. unfold prop_set. cbn [p_readonly p_ids p_kind get_event target_write].
  unfold flags_get, flags_set. cbn [has_items tg_get]. rewrite EE, NI. unfold dindex. rewrite DG. cbn [bind]. rewrite WR. reflexivity.
Qed.
