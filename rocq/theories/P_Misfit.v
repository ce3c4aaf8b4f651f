(* Values that do not fit their field. *)
From Coq Require Import String ZArith List Bool Lia Arith.
From Verif Require Import M_Base M_Float M_Text M_Construct M_Structs M_Events.
From Verif Require Import S_Canon S_Prop S_Layout P_Base P_Codec P_Float P_Text P_RT P_Cells P_Kinds P_Lists P_Payload P_Layout P_Struct P_Records.
Import ListNotations.
Open Scope Z_scope.

Section Misfit.
  Variables (P : ctx -> Prop) (en : env).
  Hypothesis Pf : forall cx d, P cx -> P (cx_with_fields cx d).

  Lemma enc_head n c f tb b : fld_ok P en (n, c) f -> f_wf f = true -> is_tail f = false -> (exists cx0, P cx0) -> is_bytes b ->
    (f_size f <= length b)%nat ->
    (forall t, f_type f = Some t -> ft_dec en t (firstn (ft_size t) b) <> None) ->
    (forall t, f_type f = Some t -> c_ok (ft_cell en t) (firstn (ft_size t) b) = true) ->
    exists v, dec_fields en (f :: tb) b = (f_name f, v) :: dec_fields en tb (skipn (f_size f) b) /\
      forall cx, P cx -> cbuild c cx v = Ok (firstn (f_size f) b).
  Proof.
    intros [Hn Hf] W NT HP Hb L R K. unfold f_wf in W. cbn [fst snd] in *.
    destruct f as [m t|m t|m|m]; cbn [f_name f_type is_tail] in *; [| | |discriminate];
      try change (f_size (Req m t)) with (ft_size t) in *; try change (f_size (Opt m t)) with (ft_size t) in *.
    - destruct Hf as (FX & HC & HR & _). cbn [dec_fields]. pose proof L as L'. apply Nat.leb_le in L'. rewrite L'.
      specialize (R t eq_refl). specialize (K t eq_refl).
      destruct (ft_dec en t (firstn (ft_size t) b)) as [v|] eqn:D; [|congruence]. exists v. split; [reflexivity|].
      intros cx Hcx. eapply (field_back P en c t); eauto; [now apply is_bytes_firstn|now apply firstn_length_le].
    - destruct Hf as (c0 & -> & HC & HR & RJ & HN). cbn [dec_fields]. pose proof L as L'. apply Nat.leb_le in L'. rewrite L'.
      specialize (R t eq_refl). specialize (K t eq_refl).
      destruct (ft_dec en t (firstn (ft_size t) b)) as [v|] eqn:D; [|congruence]. exists v. split; [reflexivity|].
      intros cx Hcx. cbn [Optional cbuild].
      rewrite (field_back P en c0 t (firstn (ft_size t) b) v cx HC HR W HP (is_bytes_firstn _ _ Hb) (firstn_length_le _ L) D K Hcx).
      reflexivity.
    - destruct Hf as (_ & HB & _). exists VNone. split; [reflexivity|]. intros cx Hcx. cbn [f_size f_type firstn]. now apply HB.
  Qed.

  (* [d]: the fields read from [b], except that field [n0] holds [v0] *)
  Definition has_but (d : list (string * val)) (n0 : string) (l : list (string * val)) : Prop :=
    forall n v, In (n, v) l -> n <> n0 -> dget d n = Some v.
  Lemma has_but_cons d n0 n v l : n <> n0 -> has_but d n0 ((n, v) :: l) -> dget d n = Some v /\ has_but d n0 l.
  Proof. intros N H. split; [apply H; [now left|exact N]|]. intros m w I. apply H. now right. Qed.

  Lemma without_app a b o s : without (a ++ b) (length a + o) s = a ++ without b o s.
  Proof.
    unfold without. rewrite firstn_app, skipn_app, firstn_all2 by lia. rewrite (skipn_all2 a) by lia.
    replace (length a + o - length a)%nat with o by lia. replace (length a + o + s - length a)%nat with (o + s)%nat by lia.
    now rewrite <- app_assoc.
  Qed.
  Lemma without_0 a b : without (a ++ b) 0 (length a) = b.
  Proof. unfold without. cbn [firstn app]. rewrite Nat.add_0_l, skipn_app, skipn_all, Nat.sub_diag. reflexivity. Qed.

  (* what is saved, split after the first field *)
  Lemma out_cons f tb b i : is_tail f = false ->
    ((if catch_all (f :: tb) then b else firstn (offset (f :: tb) (S i)) b) ++ repeat 0 (missing_flags (f :: tb) (S i))) =
    firstn (f_size f) b ++ ((if catch_all tb then skipn (f_size f) b else firstn (offset tb i) (skipn (f_size f) b)) ++ repeat 0 (missing_flags tb i)).
  Proof.
    intros NT. unfold missing_flags, catch_all. cbn [skipn existsb]. rewrite NT, offset_S. cbn [orb]. rewrite app_assoc. f_equal.
    destruct (existsb is_tail tb); [now rewrite firstn_skipn|].
    rewrite <- (firstn_skipn (f_size f) b) at 1. rewrite firstn_app, firstn_firstn.
    rewrite Nat.min_r by lia. f_equal. rewrite firstn_length.
    destruct (Nat.le_gt_cases (f_size f) (length b)) as [G|G].
    - f_equal. lia.
    - rewrite skipn_all2 by lia. now rewrite !firstn_nil.
  Qed.

  Lemma enc_misfit : forall fs tb, Forall2 (fld_ok P en) fs tb -> forallb f_wf tb = true ->
    wf_items (map (f_item en) tb) = true ->
    forall cx d b i m f t v, P cx -> is_bytes b -> cut_at tb b i -> readable en tb b i -> kept en tb b i -> required tb i ->
    NoDup (map f_name tb) -> nth_error tb m = Some f -> f_type f = Some t -> (m < i)%nat -> misfit t v -> dget d (f_name f) = Some v ->
    has_but d (f_name f) (dec_fields en tb b) ->
    match f with
    | Opt _ _ => struct_build fs cx d = Ok (without ((if catch_all tb then b else firstn (offset tb i) b) ++ repeat 0 (missing_flags tb i)) (offset tb m) (ft_size t))
    | _ => exists x, struct_build fs cx d = Err x
    end.
  Proof.
    induction 1 as [|[n c] g fs tb Hgf HF IH]; intros W WI cx d b i m f t v Hcx Hb C R K Q ND N T Lm M G HD; [destruct m; discriminate|].
    destruct i as [|i]; [lia|].
    pose proof Hgf as [Hn Hf]. destruct (wf_tail en g tb WI) as [WI' TL]. cbn [forallb] in W. apply andb_true_iff in W as [W0 W].
    destruct (cut_S g tb b i C) as [Z C']. pose proof (required_S _ _ _ Q) as Q'.
    destruct (readable_S en g tb b i R) as [R0 R']. destruct (kept_S en g tb b i K) as [K0 K'].
    cbn [fst snd map] in *. inversion ND as [|x0 l0 N1 N2]; subst x0 l0 n.
    assert (NT : is_tail g = false).
    { destruct m as [|m]; [injection N as ->; now destruct f|]. destruct (is_tail g); [|reflexivity].
      rewrite (TL eq_refl) in N. destruct m; discriminate. }
    destruct (enc_head (f_name g) c g tb b Hgf W0 NT ltac:(eauto) Hb Z R0 K0) as (v0 & E0 & B0). rewrite E0 in HD.
    cbn [struct_build].
    destruct m as [|m].
    - injection N as ->. rewrite G. cbn [bind].
      assert (HD' : has d (dec_fields en tb (skipn (f_size f) b))).
      { intros x1 w1 I. apply HD; [now right|]. intros ->. apply N1. apply (in_map fst) in I. rewrite dec_names in I. exact I. }
      destruct f as [n' u|n' u|n'|n']; cbn [f_type] in T; try discriminate T; injection T as ->.
      + destruct Hf as (FX & HC & HR & RJ & _). cbn [snd] in RJ. destruct (RJ (cx_with_fields cx d) v (Pf _ _ Hcx) M) as (x & -> & NX).
        destruct x; try congruence; cbn [bind]; eauto.
      + destruct Hf as (c0 & EC & HC & HR & (RJ & _) & HN). cbn [snd] in EC. subst c. destruct (RJ (cx_with_fields cx d) v (Pf _ _ Hcx) M) as (x & EX & NX).
        cbn [Optional cbuild]. rewrite EX. cbn [bind].
        rewrite (enc_cut P en Pf fs tb HF W WI' cx d _ i Hcx (is_bytes_skipn _ _ Hb) C' R' K' Q' HD').
        cbn [bind app]. rewrite out_cons by reflexivity. change (f_size (Opt n' t)) with (ft_size t) in *. rewrite offset_0.
        match goal with |- _ = Ok (without (_ ++ ?r) 0 _) => pose proof (without_0 (firstn (ft_size t) b) r) as X0 end.
        rewrite (firstn_length_le b Z) in X0. now rewrite X0.
    - cbn [nth_error] in N.
      assert (NE : f_name g <> f_name f).
      { intros E. apply N1. rewrite E. apply in_map. eapply nth_error_In; eauto. }
      apply has_but_cons in HD as [G0 HD]; [|exact NE]. rewrite G0. cbn [bind]. rewrite (B0 _ (Pf _ _ Hcx)).
      specialize (IH W WI' cx d (skipn (f_size g) b) i m f t v Hcx (is_bytes_skipn _ _ Hb) C' R' K' Q' N2 N T ltac:(lia) M G HD).
      destruct f as [n' u|n' u|n'|n']; cbn [f_type] in T; try discriminate T.
      + destruct IH as [x ->]. cbn [bind]. eauto.
      + rewrite IH. cbn [bind]. rewrite out_cons by exact NT. rewrite offset_S.
        match goal with |- _ = Ok (without (_ ++ ?r) (_ + ?o) ?s) => pose proof (without_app (firstn (f_size g) b) r o s) as X0 end.
        rewrite (firstn_length_le b Z) in X0. now rewrite X0.
  Qed.
End Misfit.

Lemma misfit_saved en k id b e fs i m f t v d :
  is_bytes b -> mk_event en k id b = Ok e -> layout (zlen b) k = Some fs ->
  cut_at fs b i -> readable en fs b i -> kept en fs b i ->
  nth_error fs m = Some f -> f_type f = Some t -> (m < i)%nat -> misfit t v -> e_val e = VDict d ->
  match f with
  | Opt _ _ => exists p, payload en e = Ok p /\
      payload en (Event id k (e_len e) (e_new e) (VDict (dset d (f_name f) v))) = Ok (without p (offset fs m) (ft_size t))
  | _ => exists x, payload en (Event id k (e_len e) (e_new e) (VDict (dset d (f_name f) v))) = Err x
  end.
Proof.
  intros Hb HM HL C R K N T Lm M EV.
  pose proof (struct_event_saved en k id b e fs Hb HM HL i C R K) as SV.
  destruct (struct_event_dec en k id b e fs Hb HM HL) as (EE & (r & LO) & ND).
  destruct (layout_ok en (zlen b) (new_of b) k fs HL) as (cs & KC & F & NM & W & WI & FI).
  pose proof (leftover_required en fs b i r WI W C R LO) as RQ.
  rewrite EE in EV. cbn [e_val] in EV. injection EV as <-.
  assert (IN : In (f_name f) (map fst (dec_fields en fs b))).
  { rewrite dec_names. apply in_map. eapply nth_error_In; eauto. }
  assert (NDD : NoDup (map fst (dec_fields en fs b))) by (rewrite dec_names; exact ND).
  set (d := dec_fields en fs b) in *.
  assert (X := enc_misfit (cxp en (zlen b) (new_of b)) en ltac:(auto) cs fs F W WI (mkctx en (zlen b) (new_of b) []) (dset d (f_name f) v) b i m f t v (cxp_mk _ _ _ _) Hb C R K RQ ND N T Lm M).
  assert (G : dget (dset d (f_name f) v) (f_name f) = Some v) by (clear; induction d as [|[x w] d IH]; cbn [dset dget]; [now rewrite String.eqb_refl|]; destruct (String.eqb_spec x (f_name f)) as [->|NE]; cbn [dget]; [now rewrite String.eqb_refl|]; apply String.eqb_neq in NE; now rewrite NE).
  assert (HB : has_but (dset d (f_name f) v) (f_name f) d).
  { intros x w I NE. apply (NoDup_dget d NDD) in I. clear - I NE.
    induction d as [|[y u] d IH]; [discriminate|]. cbn [dset]. cbn [dget] in I.
    destruct (String.eqb_spec y (f_name f)) as [->|NE']; cbn [dget].
    - apply not_eq_sym in NE. apply String.eqb_neq in NE. rewrite NE in *. exact I.
    - destruct (String.eqb y x); [exact I|now apply IH]. }
  specialize (X G HB). subst e. cbn [e_len e_new] in *.
  assert (PU : forall d0, payload en (Event id k (zlen b) (new_of b) (VDict d0)) = struct_build cs (mkctx en (zlen b) (new_of b) []) d0).
  { intros d0. unfold payload. cbn [e_kind e_len e_new e_val]. rewrite KC. reflexivity. }
  rewrite (PU (dset d (f_name f) v)).
  destruct f as [n' u|n' u|n'|n']; try exact X. eexists. split; [exact SV|]. exact X.
Qed.

(* payloads that have all required fields are accepted *)
Lemma struct_event_parses en k id b fs i : is_bytes b -> layout (zlen b) k = Some fs ->
  allowed_id k id = true -> 192 <= id -> cut_at fs b i -> readable en fs b i ->
  (forall m n t, nth_error fs m = Some (Req n t) -> (m < i)%nat) ->
  exists e, mk_event en k id b = Ok e.
Proof.
  intros Hb HL HA HI C R Q.
  destruct (layout_ok en (zlen b) (new_of b) k fs HL) as (cs & KC & F & NM & W & WI & FI).
  assert (Q' : required fs i) by (intros m n t N; specialize (Q m n t N); lia).
  pose proof (leftover_cut en fs b i WI W C R Q') as LO. destruct (names_ok_spec _ NM) as [ND NE].
  unfold mk_event.
  assert (VX : (match k, b with KVSTPlugin, [] => Err IndexError | _, _ => Ok tt end) = Ok tt).
  { destruct k; try reflexivity. discriminate HL. }
  rewrite VX. cbn [bind]. rewrite HA. cbn [negb]. replace (id <? 192) with false by lia. cbn [negb]. rewrite KC. cbn [Struct cparse].
  rewrite (struct_dec (cxp en (zlen b) (new_of b)) en ltac:(auto) cs fs F W WI ND NE (mkctx en (zlen b) (new_of b) b) [] b _ (cxp_mk _ _ _ _) Hb ltac:(intros n []) LO).
  cbn [bind]. eauto.
Qed.

Lemma without_slice b o s p n : (o + s <= length b)%nat ->
  slice (without b o s) p n =
    if (p + n <=? o)%nat then slice b p n else if (o <=? p)%nat then slice b (p + s) n else slice (without b o s) p n.
Proof.
  intros L. destruct (Nat.leb_spec (p + n) o) as [A|A].
  - unfold slice, without. rewrite skipn_app, firstn_app, !skipn_length, firstn_length.
    replace (n - (Nat.min o (length b) - p))%nat with O by lia. cbn [firstn]. rewrite app_nil_r.
    rewrite skipn_firstn_comm, firstn_firstn. f_equal. lia.
  - destruct (Nat.leb_spec o p) as [B|B]; [|reflexivity].
    unfold slice, without. rewrite skipn_app, (skipn_all2 (firstn o b)) by (rewrite firstn_length; lia).
    cbn [app]. rewrite firstn_length, skipn_skipn. do 2 f_equal. lia.
Qed.

(* what is read from the payload that lacks the field's bytes *)
Lemma misread en k id p fs m f t j g u i' e' : is_bytes p ->
  nth_error fs m = Some f -> f_type f = Some t -> (offset fs m + ft_size t <= length p)%nat ->
  let p' := without p (offset fs m) (ft_size t) in
  mk_event en k id p' = Ok e' -> layout (zlen p') k = Some fs -> cut_at fs p' i' -> readable en fs p' i' ->
  nth_error fs j = Some g -> f_type g = Some u -> (j < i')%nat ->
  exists d' v, e_val e' = VDict d' /\ dget d' (f_name g) = Some v /\
    ft_dec en u (slice p (offset fs j + (if (m <=? j)%nat then ft_size t else 0)) (ft_size u)) = Some v.
Proof.
  intros Hp N T L p' HM HL C R NJ TJ Lj.
  assert (Hp' : is_bytes p').
  { unfold p', without. apply is_bytes_app. split; [now apply is_bytes_firstn|now apply is_bytes_skipn]. }
  destruct (struct_event_field en k id p' e' fs Hp' HM HL i' C R) as (d' & EV & _ & X).
  destruct (X j g NJ) as (v & _ & FV & DG). exists d', v. split; [exact EV|]. split; [exact DG|].
  assert (FV' : ft_dec en u (slice p' (offset fs j) (ft_size u)) = Some v).
  { apply Nat.ltb_lt in Lj. destruct g; cbn [f_type] in TJ; try discriminate TJ; injection TJ as ->;
      cbn [field_value] in FV; rewrite Lj in FV; exact FV. }
  rewrite <- FV'. f_equal. unfold p'. rewrite without_slice by exact L.
  destruct (Nat.leb_spec m j) as [A|A].
  - assert (O : (offset fs m <= offset fs j)%nat).
    { destruct (Nat.eq_dec m j) as [->|NE]; [lia|]. pose proof (offset_le fs m j f N ltac:(lia)). lia. }
    replace (offset fs m <=? offset fs j)%nat with true by (symmetry; now apply Nat.leb_le).
    destruct (Nat.leb_spec (offset fs j + ft_size u) (offset fs m)) as [B|B]; [|reflexivity].
    destruct (layout_ok en (zlen p') (new_of p') k fs HL) as (cs & _ & _ & _ & W & _).
    rewrite forallb_forall in W. specialize (W g (nth_error_In _ _ NJ)). unfold f_wf in W. rewrite TJ in W.
    pose proof (ft_size_pos _ W). lia.
  - pose proof (offset_le fs j m g NJ A). rewrite (f_size_type _ _ TJ) in *.
    replace (offset fs j + ft_size u <=? offset fs m)%nat with true by (symmetry; now apply Nat.leb_le).
    now rewrite Nat.add_0_r.
Qed.

Lemma layout_allowed L k fs id : layout L k = Some fs -> allowed_id k id = true.
Proof. destruct k; intros H; try discriminate H; reflexivity. Qed.

(* ---------------------------------------------------------------- lists *)

Lemma list_event_parses en k id b w rs : is_bytes b -> record w k = Some rs -> 192 <= id ->
  exists e, mk_event en k id b = Ok e.
Proof.
  intros Hb HR HI.
  assert (HR' : exists rs', record (new_of b) k = Some rs') by (destruct k; try discriminate HR; eexists; reflexivity).
  destruct HR' as (rs' & HR').
  destruct (record_ok en (zlen b) (new_of b) k rs' HR') as (cs & KC & F & NM & W & WI & TT & SP).
  assert (HA : allowed_id k id = true) by (destruct k; try discriminate HR; reflexivity).
  assert (VX : (match k, b with KVSTPlugin, [] => Err IndexError | _, _ => Ok tt end) = Ok tt).
  { destruct k; try reflexivity. discriminate HR. }
  unfold mk_event. rewrite VX. cbn [bind]. rewrite HA. cbn [negb]. replace (id <? 192) with false by lia. cbn [negb]. rewrite KC.
  cbn [GreedyRange cparse].
  rewrite (greedy_dec (cxp en (zlen b) (new_of b)) en cs rs' ltac:(auto) ltac:(auto) F NM W WI TT SP _ _ _ _ (cxp_mk _ _ _ _) Hb) by lia.
  cbn [bind]. eauto.
Qed.

(* routing: one truth value per byte *)
Lemma routing_read en id b : is_bytes b -> 192 <= id ->
  exists e, mk_event en KInsertRouting id b = Ok e /\
    e_val e = VList (map (fun x => VBool (negb (x =? 0))) b) /\
    payload en e = Ok (map (fun x => if x =? 0 then 0 else 1) b).
Proof.
  intros Hb HI. unfold mk_event. cbn [bind allowed_id negb]. replace (id <? 192) with false by lia. cbn [negb kcon].
  unfold InsertRoutingS. cbn [GreedyRange cparse].
  assert (G : forall fuel cx i l, is_bytes l -> (length l < fuel)%nat ->
     greedy_parse fuel Flag cx i l = Ok (map (fun x => VBool (negb (x =? 0))) l, [])).
  { induction fuel as [|fuel IH]; intros cx i l Hl L; [lia|]. destruct l as [|x l]; [reflexivity|].
    inversion Hl as [|? ? X1 X2]; subst. unfold is_byte in X1. cbn [length] in L.
    cbn [greedy_parse]. assert (T1 : forall cx', cparse Flag cx' (x :: l) = Ok (VBool (negb (le_dec [x] =? 0)), l)) by reflexivity.
    rewrite T1. clear T1.
    rewrite IH by (assumption || lia). cbn [bind map]. do 4 f_equal. cbn [le_dec]. f_equal. f_equal. lia. }
  rewrite G by (assumption || lia). cbn [bind]. eexists. split; [reflexivity|]. split; [reflexivity|].
  unfold payload. cbn [e_kind kcon e_val e_len e_new]. unfold InsertRoutingS. cbn [GreedyRange cbuild seq_of bind].
  assert (B : forall l cx i, items_build Flag cx i (map (fun x => VBool (negb (x =? 0))) l) = Ok (map (fun x => if x =? 0 then 0 else 1) l)).
  { induction l as [|x l IH]; intros cx i; [reflexivity|]. cbn [map items_build Flag cbuild truthy bind]. rewrite IH. cbn [bind app].
    do 2 f_equal. now destruct (x =? 0). }
  apply B.
Qed.
