(* Values written into a field, in the form they are read back. *)
From Coq Require Import String ZArith List Bool Lia Arith.
From Verif Require Import M_Base M_Float M_Text M_Construct M_Structs M_Events M_Parse M_Tree M_Prop.
From Verif Require Import S_Canon S_File S_Domain S_Tree S_Prop S_Layout.
From Verif Require Import P_Base P_Codec P_RT P_Cells P_Kinds P_Lists P_Payload P_File P_Null P_Save P_Domain.
From Verif Require Import P_TreeBase P_Tree P_TreeEdit P_Prop P_Edit P_Rewrite P_Layout P_Struct P_Records P_EditStruct P_Misfit.
Import ListNotations.
Open Scope Z_scope.

Lemma stored_bytes t v c : stored_as t v c -> t <> TRaw (length c) -> is_bytes c.
Proof.
  intros H N. destruct t; cbn [stored_as] in H; try (destruct H; fail);
    repeat match goal with
    | H : exists _, _ |- _ => destruct H as [? H]
    | H : _ /\ _ |- _ => destruct H
    end; subst; rewrite ?le_spec; try apply le_enc_bytes; try congruence.
  destruct (truthy v); repeat constructor; unfold is_byte; lia.
Qed.
Lemma stored_length t v c : stored_as t v c -> length c = ft_size t.
Proof.
  intros H. destruct t; cbn [stored_as ft_size] in *; try (destruct H; fail);
    repeat match goal with
    | H : exists _, _ |- _ => destruct H as [? H]
    | H : _ /\ _ |- _ => destruct H
    end; subst; rewrite ?le_spec; try apply le_enc_length; reflexivity.
Qed.

Lemma splice_app a b o c : splice (a ++ b) (length a + o) c = a ++ splice b o c.
Proof.
  unfold splice. rewrite firstn_app, skipn_app, firstn_all2 by lia. rewrite (skipn_all2 a) by lia.
  replace (length a + o - length a)%nat with o by lia. replace (length a + o + length c - length a)%nat with (o + length c)%nat by lia.
  now rewrite <- app_assoc.
Qed.
Lemma splice_0 a b c : length c = length a -> splice (a ++ b) 0 c = c ++ b.
Proof. intros L. unfold splice. cbn [firstn app Nat.add]. now rewrite L, skipn_app, skipn_all, Nat.sub_diag. Qed.

Section Written.
  Variables (P : ctx -> Prop) (en : env).
  Hypothesis Pf : forall cx d, P cx -> P (cx_with_fields cx d).

  Lemma enc_written : forall fs tb, Forall2 (fld_ok P en) fs tb -> forallb f_wf tb = true ->
    wf_items (map (f_item en) tb) = true ->
    forall cx d b i m f t v w, P cx -> is_bytes b -> cut_at tb b i -> readable en tb b i -> kept en tb b i -> required tb i ->
    NoDup (map f_name tb) -> nth_error tb m = Some f -> f_type f = Some t -> (m < i)%nat -> stored_as t v w -> dget d (f_name f) = Some v ->
    has_but d (f_name f) (dec_fields en tb b) ->
    struct_build fs cx d = Ok (splice ((if catch_all tb then b else firstn (offset tb i) b) ++ repeat 0 (missing_flags tb i)) (offset tb m) w).
  Proof.
    induction 1 as [|[n c] g fs tb Hgf HF IH]; intros W WI cx d b i m f t v w Hcx Hb C R K Q ND N T Lm M G HD; [destruct m; discriminate|].
    destruct i as [|i]; [lia|].
    pose proof Hgf as [Hn Hf]. destruct (wf_tail en g tb WI) as [WI' TL]. cbn [forallb] in W. apply andb_true_iff in W as [W0 W].
    destruct (cut_S g tb b i C) as [Z C']. pose proof (required_S _ _ _ Q) as Q'.
    destruct (readable_S en g tb b i R) as [R0 R']. destruct (kept_S en g tb b i K) as [K0 K'].
    cbn [fst snd map] in *. inversion ND as [|x0 l0 N1 N2]; subst x0 l0 n.
    assert (NT : is_tail g = false).
    { destruct m as [|m]; [injection N as ->; now destruct f|]. destruct (is_tail g); [|reflexivity].
      rewrite (TL eq_refl) in N. destruct m; discriminate. }
    destruct (enc_head P en (f_name g) c g tb b Hgf W0 NT ltac:(eauto) Hb Z R0 K0) as (v0 & E0 & B0). rewrite E0 in HD.
    cbn [struct_build]. rewrite out_cons by exact NT.
    destruct m as [|m].
    - injection N as ->. rewrite G. cbn [bind].
      assert (HD' : has d (dec_fields en tb (skipn (f_size f) b))).
      { intros x1 w1 I. apply HD; [now right|]. intros ->. apply N1. apply (in_map fst) in I. rewrite dec_names in I. exact I. }
      assert (BW : cbuild c (cx_with_fields cx d) v = Ok w).
      { destruct f as [n' u|n' u|n'|n']; cbn [f_type] in T; try discriminate T; injection T as ->.
        - destruct Hf as (_ & _ & _ & _ & WR). cbn [snd] in WR. apply WR; auto.
        - destruct Hf as (c0 & EC & _ & _ & (_ & WR) & _). cbn [snd] in EC. subst c. cbn [Optional cbuild]. rewrite (WR _ v w (Pf _ _ Hcx) M). reflexivity. }
      assert (FS : f_size f = ft_size t) by (unfold f_size; now rewrite T).
      rewrite BW. cbn [bind].
      rewrite (enc_cut P en Pf fs tb HF W WI' cx d _ i Hcx (is_bytes_skipn _ _ Hb) C' R' K' Q' HD').
      cbn [bind]. rewrite offset_0, splice_0; [reflexivity|].
      rewrite (firstn_length_le b Z), (stored_length _ _ _ M). congruence.
    - cbn [nth_error] in N.
      assert (NE : f_name g <> f_name f).
      { intros E. apply N1. rewrite E. apply in_map. eapply nth_error_In; eauto. }
      apply has_but_cons in HD as [G0 HD]; [|exact NE]. rewrite G0. cbn [bind]. rewrite (B0 _ (Pf _ _ Hcx)).
      specialize (IH W WI' cx d (skipn (f_size g) b) i m f t v w Hcx (is_bytes_skipn _ _ Hb) C' R' K' Q' N2 N T ltac:(lia) M G HD).
      rewrite IH. cbn [bind]. rewrite offset_S.
      match goal with |- _ = Ok (splice (_ ++ ?r) (_ + ?o) ?s) => pose proof (splice_app (firstn (f_size g) b) r o s) as X0 end.
      rewrite (firstn_length_le b Z) in X0. now rewrite X0.
  Qed.
End Written.

Lemma written_payload en k id b e fs i m f t v d c :
  is_bytes b -> mk_event en k id b = Ok e -> layout (zlen b) k = Some fs ->
  cut_at fs b i -> readable en fs b i -> kept en fs b i ->
  nth_error fs m = Some f -> f_type f = Some t -> (m < i)%nat -> stored_as t v c -> e_val e = VDict d ->
  exists p, payload en e = Ok p /\
    payload en (Event id k (e_len e) (e_new e) (VDict (dset d (f_name f) v))) = Ok (splice p (offset fs m) c).
Proof.
  intros Hb HM HL C R K N T Lm M EV.
  pose proof (struct_event_saved en k id b e fs Hb HM HL i C R K) as SV.
  destruct (struct_event_dec en k id b e fs Hb HM HL) as (EE & (r & LO) & ND).
  destruct (layout_ok en (zlen b) (new_of b) k fs HL) as (cs & KC & F & NM & W & WI & FI).
  pose proof (leftover_required en fs b i r WI W C R LO) as RQ.
  rewrite EE in EV. cbn [e_val] in EV. injection EV as <-.
  assert (IN : In (f_name f) (map fst (dec_fields en fs b))).
  { rewrite dec_names. apply in_map. eapply nth_error_In; eauto. }
  assert (NDD : NoDup (map fst (dec_fields en fs b))) by (rewrite dec_names; exact ND).
  set (d := dec_fields en fs b) in *.
  assert (X := enc_written (cxp en (zlen b) (new_of b)) en ltac:(auto) cs fs F W WI (mkctx en (zlen b) (new_of b) []) (dset d (f_name f) v) b i m f t v c (cxp_mk _ _ _ _) Hb C R K RQ ND N T Lm M).
  assert (G : dget (dset d (f_name f) v) (f_name f) = Some v) by (clear; induction d as [|[x w] d IH]; cbn [dset dget]; [now rewrite String.eqb_refl|]; destruct (String.eqb_spec x (f_name f)) as [->|NE]; cbn [dget]; [now rewrite String.eqb_refl|]; apply String.eqb_neq in NE; now rewrite NE).
  assert (HB : has_but (dset d (f_name f) v) (f_name f) d).
  { intros x w I NE. apply (NoDup_dget d NDD) in I. clear - I NE.
    induction d as [|[y u] d IH]; [discriminate|]. cbn [dset]. cbn [dget] in I.
    destruct (String.eqb_spec y (f_name f)) as [->|NE']; cbn [dget].
    - apply not_eq_sym in NE. apply String.eqb_neq in NE. rewrite NE in *. exact I.
    - destruct (String.eqb y x); [exact I|now apply IH]. }
  specialize (X G HB). subst e. cbn [e_len e_new] in *.
  assert (PU : forall d0, payload en (Event id k (zlen b) (new_of b) (VDict d0)) = struct_build cs (mkctx en (zlen b) (new_of b) []) d0).
  { intros d0. unfold payload. cbn [e_kind e_len e_new e_val]. rewrite KC. reflexivity. }
  rewrite (PU (dset d (f_name f) v)). eexists. split; [exact SV|]. exact X.
Qed.

(* a field of a canonical payload *)
Lemma written_saved en k id b e fs i m f t v d old c v' : is_bytes b -> mk_event en k id b = Ok e -> canonical_payload en k b = true ->
  layout (zlen b) k = Some fs -> cut_at fs b i -> readable en fs b i ->
  nth_error fs m = Some f -> f_type f = Some t -> e_val e = VDict d -> dget d (f_name f) = Some old -> old <> VNone ->
  stored_as t v c -> is_bytes c -> ft_dec en t c = Some v' ->
  exists b', is_bytes b' /\ zlen b' = zlen b /\ mk_event en k id b' = Ok (with_val e (VDict (dset d (f_name f) v'))) /\
    payload en (with_val e (VDict (dset d (f_name f) v))) = Ok b'.
Proof.
  intros Hb HM HC HL C R N T EV DG NN M Bc Dc.
  pose proof (stored_length _ _ _ M) as Lc.
  destruct (layout_ok en (zlen b) (new_of b) k fs HL) as (cs & KC & F & NM & W & WI & FI).
  assert (Lm : (m < i)%nat).
  { destruct (struct_event_field en k id b e fs Hb HM HL i C R) as (d' & EV' & _ & FF).
    assert (d' = d) by congruence. subst d'. destruct (FF m f N) as (v0 & _ & V & G).
    assert (v0 = old) by congruence. subst v0.
    destruct f as [n u|n u|n|n]; try discriminate T; cbn [field_value] in V; destruct (Nat.ltb_spec m i); congruence. }
  pose proof (canon_kept en fs b i WI W C R ltac:(rewrite (flat_bridge en b k _ FI); exact HC)) as K.
  destruct (written_payload en k id b e fs i m f t v d c Hb HM HL C R K N T Lm M EV) as (p & P0 & PW).
  pose proof (proj2 (payload_canonical en k id b e Hb HM) HC) as P1.
  assert (p = b) by congruence. subst p.
  pose proof (struct_event_edit en k id b e fs i m f t c v' d Hb HM HL C R N T Lm Bc Lc Dc EV) as HM'.
  destruct (mk_event_inv _ _ _ _ _ HM) as (v0 & r0 & _ & EE & _).
  assert (WE : forall u, Event id k (e_len e) (e_new e) (VDict (dset d (f_name f) u)) = with_val e (VDict (dset d (f_name f) u))) by (intros u; rewrite EE; reflexivity).
  rewrite WE in HM', PW. set (b' := splice b (offset fs m) c) in *.
  pose proof (replace_room' fs b i m f t c C N T Lm Lc) as RM.
  assert (LB : length b' = length b) by (apply splice_length; exact RM).
  exists b'. split; [now apply is_bytes_splice|]. split; [unfold zlen; now rewrite LB|]. split; [exact HM'|exact PW].
Qed.

(* the event at place [r] gets the value [v], written with the same size and read back as [v'] *)
Lemma same_size_written en f p h t r e v v' h' : is_bytes f -> parse en f = Ok p -> canonical_file en f ->
  views (parsed (pr_events p)) h -> (t < nt h)%nat ->
  In r (refs h t) -> ev_of h r = e -> ~ steering (e_id e) ->
  (forall b, is_bytes b -> mk_event en (e_kind e) (e_id e) b = Ok e -> payload en e = Ok b -> canonical_payload en (e_kind e) b = true ->
     exists b', is_bytes b' /\ zlen b' = zlen b /\ mk_event en (e_kind e) (e_id e) b' = Ok (with_val e v') /\ payload en (with_val e v) = Ok b') ->
  only_value h r v h' ->
  exists f' p', nth_error (pr_events p) r = Some e /\
    serialise en (Project (root_events h') (pr_channel_count p) (pr_format p) (pr_ppq p)) = Ok f' /\
    parse en f' = Ok p' /\ reloaded (pr_events p) r v' (pr_events p') /\
    pr_channel_count p' = pr_channel_count p /\ pr_format p' = pr_format p /\ pr_ppq p' = pr_ppq p.
Proof.
  intros Hb H HC V L R EE NS HB O.
  destruct (canonical_encodes en f p Hb H HC) as (cs & HE & HI & _ & _ & _ & _ & _ & NE).
  destruct (views_tree _ _ t NE V L) as (_ & _ & F). rewrite Forall_forall in F.
  pose proof (F r R) as FR. rewrite EE in FR.
  assert (LT : (r < length (pr_events p))%nat) by (apply nth_error_Some; congruence).
  rewrite (only_value_root _ _ _ _ _ NE V LT O), EE.
  pose proof (canonical_read en f p Hb H HC) as CR. rewrite Forall_forall in CR.
  destruct (CR e (nth_error_In _ _ FR)) as (b & B0 & B1 & B2 & B3).
  destruct (HB b B0 B1 B2 B3) as (b' & C0 & C1 & C2 & C3).
  pose proof (edited_one en (pr_events p) r e (with_val e v) b' (with_val e v') 0 FR NS eq_refl eq_refl C3 C0 C2 ltac:(lia) ltac:(right; eauto)) as ED.
  destruct (edits_saved en f p 0 _ _ Hb H HC ED ltac:(now left)) as (f' & p' & S1 & S2 & S3 & S4).
  exists f', p'. split; [exact FR|]. split; [exact S1|]. split; [exact S2|]. split; [|exact S4].
  eapply reloaded_lset; [exact FR| | | |exact S3]; reflexivity.
Qed.

(* a struct property given the value [v], which is read back as [v'] *)
Theorem write_struct_prop en f p h t ids df k e b fs i m fd ty d old v c v' : is_bytes f -> parse en f = Ok p -> canonical_file en f ->
  views (parsed (pr_events p)) h -> (t < nt h)%nat ->
  ids <> [] -> chosen ids (events h t) (Some k) -> nth_error (events h t) k = Some e -> ~ steering (e_id e) ->
  payload en e = Ok b -> layout (zlen b) (e_kind e) = Some fs -> cut_at fs b i -> readable en fs b i ->
  nth_error fs m = Some fd -> f_type fd = Some ty -> stored_as ty v c -> is_bytes c -> ft_dec en ty c = Some v' ->
  e_val e = VDict d -> dget d (f_name fd) = Some old -> old <> VNone ->
  exists h' f' p' j d', prop_set en h (EvModel t) (MkProp ids df false (PStruct (f_name fd))) v = (h', Ok tt) /\
    serialise en (Project (root_events h') (pr_channel_count p) (pr_format p) (pr_ppq p)) = Ok f' /\
    parse en f' = Ok p' /\
    nth_error (pr_events p) j = Some e /\ dict_updated d (f_name fd) v' d' /\ reloaded (pr_events p) j (VDict d') (pr_events p') /\
    pr_channel_count p' = pr_channel_count p /\ pr_format p' = pr_format p /\ pr_ppq p' = pr_ppq p.
Proof.
  intros Hb H HC V L NI CH E NS HP HL C R N T ST Bc Dc EV DG NN.
  destruct (canonical_encodes en f p Hb H HC) as (cs & HE & HI & _ & _ & _ & _ & _ & NE).
  destruct (views_tree _ _ t NE V L) as (W & _ & _).
  destruct (get_event_spec h t ids NI) as [A _]. destruct (A k CH) as (c0 & K & GE). set (r := ref_of h c0) in *.
  assert (RR : nth_error (refs h t) k = Some r) by (unfold refs; now rewrite nth_error_map, K).
  assert (EE : ev_of h r = e) by (rewrite events_refs, nth_error_map, RR in E; cbn in E; congruence).
  assert (LH : (r < length (h_evs h))%nat) by (unfold in_heap in W; rewrite Forall_forall in W; apply W; eapply nth_error_In; eauto).
  set (d1 := dset d (f_name fd) v). set (d' := dset d (f_name fd) v').
  destruct (same_size_written en f p h t r e (VDict d1) (VDict d') (set_val h r (VDict d1)) Hb H HC V L (nth_error_In _ _ RR) EE NS) as (f' & p' & S1 & S2 & S3 & S4).
  - intros b0 B0 B1 B2 B3. assert (b0 = b) by congruence. subst b0.
    eapply (written_saved en (e_kind e) (e_id e) b e fs i m fd ty v d old); eauto.
  - now apply set_val_only.
  - exists (set_val h r (VDict d1)), f', p', r, d'. split.
    + unfold prop_set. cbn [p_readonly p_ids p_kind]. rewrite GE. cbn [target_write tg_set].
      unfold struct_set. rewrite EE, (layout_struct _ _ _ HL), EV, DG. destruct old; try reflexivity. congruence.
    + split; [exact S2|]. split; [exact S3|]. split; [exact S1|]. split; [eapply dset_updated; exact DG|]. exact S4.
Qed.
