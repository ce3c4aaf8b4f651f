(* Elements of list events: values written in any accepted form (C25), notes and controllers (C73). *)
From Coq Require Import String ZArith List Bool Lia Arith.
From Verif Require Import M_Base M_Float M_Text M_Construct M_Structs M_Events M_Parse M_Tree M_Prop.
From Verif Require Import S_Canon S_File S_Domain S_Tree S_Prop S_Layout.
From Verif Require Import P_Base P_Codec P_RT P_Cells P_Kinds P_Lists P_Payload P_File P_Null P_Save P_Domain.
From Verif Require Import P_TreeBase P_Tree P_TreeEdit P_Prop P_Edit P_Rewrite P_Layout P_Struct P_Records P_EditStruct P_Misfit P_Written.
Import ListNotations.
Open Scope Z_scope.

Lemma has_but_dset d n v : NoDup (map fst d) -> has_but (dset d n v) n d.
Proof.
  intros ND x w I NE. apply (NoDup_dget d ND) in I. rewrite dget_dset_other by exact NE. exact I.
Qed.

Section Written.
  Variables (P : ctx -> Prop) (en : env) (cs : list (string * con)) (rs : list field).
  Hypothesis Pf : forall cx d, P cx -> P (cx_with_fields cx d).
  Hypothesis Pi : forall cx i, P cx -> P (cx_with_index cx i).
  Hypothesis F : Forall2 (fld_ok P en) cs rs.
  Hypothesis NM : names_ok cs = true.
  Hypothesis W : forallb f_wf rs = true.
  Hypothesis WI : wf_items (map (f_item en) rs) = true.
  Hypothesis TT : forallb f_total rs = true.
  Hypothesis SP : (0 < rec_size rs)%nat.
  Let s := rec_size rs.

  Lemma rec_written cx b m f t v w : P cx -> is_bytes b -> length b = s -> kept en rs b (length rs) ->
    nth_error rs m = Some f -> f_type f = Some t -> stored_as t v w ->
    cbuild (Struct cs) cx (VDict (dset (dec_fields en rs b) (f_name f) v)) = Ok (splice b (offset rs m) w).
  Proof.
    intros Hcx Hb L K N T M. cbn [Struct cbuild].
    assert (Lm : (m < length rs)%nat) by (apply nth_error_Some; congruence).
    assert (ND : NoDup (map f_name rs)) by (eapply rec_names; eauto).
    rewrite (enc_written P en Pf cs rs F W WI cx _ b (length rs) m f t v w Hcx Hb (record_cut rs b TT L) (record_readable en rs _ _ TT) K (record_required rs) ND N T Lm M).
    - rewrite (total_tail rs TT). fold (rec_size rs). fold s. rewrite <- L, firstn_all.
      unfold missing_flags. rewrite skipn_all. cbn [filter length repeat]. now rewrite app_nil_r.
    - apply dget_dset.
    - apply has_but_dset. rewrite dec_names. exact ND.
  Qed.

  Lemma items_written m f t v w n : nth_error rs m = Some f -> f_type f = Some t -> stored_as t v w -> forall j cx i b, P cx -> is_bytes b -> (n * s <= length b)%nat -> (j < n)%nat ->
    (forall j, (j < n)%nat -> kept en rs (slice b (j * s) s) (length rs)) ->
    items_build (Struct cs) cx i (lset (map (rec_val en rs b) (seq 0 n)) j (VDict (dset (dec_fields en rs (slice b (j * s) s)) (f_name f) v)))
      = Ok (firstn (n * s) (splice b (j * s + offset rs m) w)).
  Proof.
    intros N T M. assert (Lm : (m < length rs)%nat) by (apply nth_error_Some; congruence).
    pose proof (offset_le rs m (length rs) f N Lm) as LO. fold (rec_size rs) in LO. fold s in LO.
    rewrite (f_size_type _ _ T) in LO. pose proof (stored_length _ _ _ M) as LW. rewrite <- LW in LO. fold s in SP.
    induction n as [|n IH]; intros j cx i b Hcx Hb L Lj K; [lia|].
    cbn [seq map]. unfold rec_val at 1. cbn [Nat.mul].
    assert (LS : length (slice b 0 s) = s) by (apply firstn_length_le; cbn [skipn]; nia).
    assert (E : map (rec_val en rs b) (seq 1 n) = map (rec_val en rs (skipn s b)) (seq 0 n)).
    { rewrite <- seq_shift, map_map. apply map_ext. intros j0. unfold rec_val. fold s. rewrite slice_skipn. reflexivity. }
    assert (SB : slice b 0 s = firstn s b) by reflexivity.
    destruct j as [|j]; cbn [lset items_build Nat.mul Nat.add].
    - fold s. rewrite (rec_written (cx_with_index cx i) (slice b 0 s) m f t v w); try assumption; [|auto|now apply is_bytes_firstn|exact (K 0%nat ltac:(lia))].
      cbn [bind]. rewrite E, (items_back P en cs rs Pf Pi F NM W WI TT SP n cx (i + 1) (skipn s b) Hcx (is_bytes_skipn _ _ Hb)); [|fold s; rewrite skipn_length; nia|intros j Lj'; fold s; rewrite slice_skipn; exact (K (S j) ltac:(lia))].
      cbn [bind]. f_equal. fold s. rewrite SB in *.
      rewrite <- (firstn_skipn s b) at 3.
      assert (X : splice (firstn s b ++ skipn s b) (offset rs m) w = splice (firstn s b) (offset rs m) w ++ skipn s b).
      { unfold splice. rewrite firstn_app, skipn_app, LS. replace (offset rs m - s)%nat with O by lia. replace (offset rs m + length w - s)%nat with O by lia.
        cbn [firstn skipn]. rewrite app_nil_r, <- !app_assoc. reflexivity. }
      rewrite X. assert (LX : length (splice (firstn s b) (offset rs m) w) = s) by (rewrite splice_length; lia).
      rewrite firstn_app, LX. rewrite (firstn_all2 (splice _ _ _)) by lia. f_equal. f_equal. lia.
    - fold s. rewrite (rec_build P en cs rs Pf F NM W WI TT (cx_with_index cx i) (slice b 0 s)); [|auto|now apply is_bytes_firstn|exact LS|exact (K 0%nat ltac:(lia))].
      cbn [bind]. rewrite E.
      replace (slice b (s + j * s) s) with (slice (skipn s b) (j * s) s) by (rewrite slice_skipn; reflexivity).
      rewrite IH; [|exact Hcx|now apply is_bytes_skipn|rewrite skipn_length; nia|lia|intros j0 Lj0; rewrite slice_skipn; exact (K (S j0) ltac:(lia))].
      cbn [bind]. f_equal. rewrite SB in *. rewrite <- (firstn_skipn s b) at 3.
      replace (s + j * s + offset rs m)%nat with (length (firstn s b) + (j * s + offset rs m))%nat by lia. rewrite splice_app.
      rewrite firstn_app, LS. rewrite (firstn_all2 (firstn s b)) by lia. f_equal. f_equal. lia.
  Qed.
End Written.

(* a field of an element, of a canonical payload *)
Lemma item_written en k id b e rs j m f t v vs d w v' : is_bytes b -> mk_event en k id b = Ok e -> canonical_payload en k b = true ->
  record (new_of b) k = Some rs ->
  nth_error rs m = Some f -> f_type f = Some t -> e_val e = VList vs -> nth_error vs j = Some (VDict d) ->
  stored_as t v w -> is_bytes w -> ft_dec en t w = Some v' ->
  let b' := splice b (j * rec_size rs + offset rs m) w in
  is_bytes b' /\ zlen b' = zlen b /\ mk_event en k id b' = Ok (with_val e (VList (lset vs j (VDict (dset d (f_name f) v'))))) /\
    payload en (with_val e (VList (lset vs j (VDict (dset d (f_name f) v))))) = Ok b'.
Proof.
  intros Hb HM HC HR N T EV NV M Bc Dc. pose proof (stored_length _ _ _ M) as Lc.
  destruct (list_canonical en k b rs Hb HR HC) as (q & LB & K). set (s := rec_size rs) in *.
  destruct (record_ok en (zlen b) (new_of b) k rs HR) as (cs & KC & F & NM & W & WI & TT & SP). fold s in SP.
  assert (DV : (length b / s = q)%nat) by (rewrite LB; apply Nat.div_mul; lia).
  pose proof (list_event_dec en k id b e rs Hb HM HR) as EE. fold s in EE. rewrite DV in EE.
  assert (VS : vs = map (rec_val en rs b) (seq 0 q)) by (rewrite EE in EV; cbn [e_val] in EV; congruence).
  assert (Lj : (j < q)%nat).
  { assert (X : (j < length vs)%nat) by (apply nth_error_Some; congruence).
    now rewrite VS, map_length, seq_length in X. }
  assert (DD : d = dec_fields en rs (slice b (j * s) s)).
  { rewrite VS, nth_error_map, nth_error_nth' with (d := 0%nat) in NV by (rewrite seq_length; exact Lj).
    rewrite seq_nth in NV by exact Lj. cbn [option_map] in NV. unfold rec_val in NV. fold s in NV. injection NV as <-. reflexivity. }
  assert (Lm : (m < length rs)%nat) by (apply nth_error_Some; congruence).
  pose proof (offset_le rs m (length rs) f N Lm) as LO. fold (rec_size rs) in LO. fold s in LO.
  rewrite (f_size_type _ _ T), <- Lc in LO.
  pose proof (list_event_edit en k id b e rs j m f t w v' vs d Hb HM HR ltac:(fold s; rewrite DV; exact Lj) N T Bc Lc Dc EV NV) as HM'.
  fold s in HM'. intros b'. fold b' in HM'.
  assert (WE : forall w, Event id k (e_len e) (e_new e) w = with_val e w) by (intros u; rewrite EE; reflexivity).
  rewrite WE in HM'.
  assert (LE : length b' = length b) by (apply splice_length; nia).
  split; [apply is_bytes_splice; assumption|]. split; [unfold zlen; now rewrite LE|]. split; [exact HM'|].
  rewrite EE. unfold payload, with_val. cbn [e_kind e_len e_new e_val e_id]. rewrite KC. cbn [GreedyRange cbuild seq_of bind].
  rewrite VS, DD.
  rewrite (items_written (cxp en (zlen b) (new_of b)) en cs rs ltac:(auto) ltac:(auto) F NM W WI TT SP m f t v w q N T M j _ _ b); auto; [|fold s; lia].
  fold s. fold b'. f_equal. apply firstn_all2. lia.
Qed.

(* a property of one element of a list, given the value [v], which is read back as [v'] *)
Theorem write_item_prop en f p h t r ids df e b rs i m fd ty d v c v' : is_bytes f -> parse en f = Ok p -> canonical_file en f ->
  views (parsed (pr_events p)) h -> (t < nt h)%nat -> In r (refs h t) -> ev_of h r = e -> ~ steering (e_id e) ->
  payload en e = Ok b -> record (new_of b) (e_kind e) = Some rs ->
  nth_error rs m = Some fd -> f_type fd = Some ty -> stored_as ty v c -> is_bytes c -> ft_dec en ty c = Some v' ->
  nth_error (items e) i = Some (VDict d) ->
  exists h' f' p' d', prop_set en h (ItModel r i) (MkProp ids df false (PStruct (f_name fd))) v = (h', Ok tt) /\
    serialise en (Project (root_events h') (pr_channel_count p) (pr_format p) (pr_ppq p)) = Ok f' /\
    parse en f' = Ok p' /\
    nth_error (pr_events p) r = Some e /\ dict_updated d (f_name fd) v' d' /\
    reloaded (pr_events p) r (VList (lset (items e) i (VDict d'))) (pr_events p') /\
    pr_channel_count p' = pr_channel_count p /\ pr_format p' = pr_format p /\ pr_ppq p' = pr_ppq p.
Proof.
  intros Hb H HC V L IR EE NS HP HR N T ST Bc Dc NI.
  destruct (canonical_encodes en f p Hb H HC) as (cs & HE & HI & _ & _ & _ & _ & _ & NE).
  destruct (views_tree _ _ t NE V L) as (W & _ & FF). rewrite Forall_forall in FF. pose proof (FF r IR) as FR. rewrite EE in FR.
  assert (LH : (r < length (h_evs h))%nat) by (unfold in_heap in W; rewrite Forall_forall in W; now apply W).
  pose proof (canonical_read en f p Hb H HC) as CR. rewrite Forall_forall in CR.
  destruct (CR e (nth_error_In _ _ FR)) as (b0 & B0 & B1 & B2 & B3). assert (b0 = b) by congruence. subst b0.
  pose proof (list_event_dec en _ _ b e rs B0 B1 HR) as ED.
  set (vs := map (rec_val en rs b) (seq 0 (length b / rec_size rs))) in *.
  assert (EV : e_val e = VList vs) by (rewrite ED; reflexivity).
  assert (IT : items e = vs).
  { unfold items in *. rewrite EV in *. destruct (list_usable e); [reflexivity|destruct i; discriminate]. }
  rewrite IT in *.
  assert (DG : exists w, dget d (f_name fd) = Some w).
  { unfold vs in NI. rewrite nth_error_map in NI. destruct (nth_error (seq 0 (length b / rec_size rs)) i) as [j|]; [|discriminate].
    cbn [option_map] in NI. unfold rec_val in NI. injection NI as <-.
    destruct (dget (dec_fields en rs (slice b (j * rec_size rs) (rec_size rs))) (f_name fd)) eqn:D; [eauto|].
    apply dget_None in D. exfalso. apply D. rewrite dec_names. apply in_map. eapply nth_error_In; eauto. }
  destruct DG as (w & DG).
  set (d1 := dset d (f_name fd) v). set (v1 := VList (lset vs i (VDict d1))).
  set (d' := dset d (f_name fd) v'). set (v2 := VList (lset vs i (VDict d'))).
  assert (SI : set_items e (lset vs i (VDict d1)) = with_val e v1) by (unfold set_items; now rewrite EV).
  assert (O : only_value h r v1 (set_event h r (with_val e v1))).
  { pose proof (set_val_only h r v1 LH) as O. unfold set_val in O. now rewrite EE in O. }
  destruct (same_size_written en f p h t r e v1 v2 (set_event h r (with_val e v1)) Hb H HC V L IR EE NS) as (f' & p' & S1 & S2 & S3 & S4).
  - intros b0 C0 C1 C2 C3. assert (b0 = b) by congruence. subst b0. eexists.
    eapply (item_written en (e_kind e) (e_id e) b e rs i m fd ty v vs d); eauto.
  - exact O.
  - eexists _, f', p', d'. split.
    + unfold prop_set. cbn [p_readonly p_ids p_kind get_event target_write tg_set]. rewrite EE, IT, NI.
      fold d1. rewrite SI. reflexivity.
    + split; [exact S2|]. split; [exact S3|]. split; [exact S1|]. split; [eapply dset_updated; exact DG|]. exact S4.
Qed.
