(* Reading, saving and editing list events. *)
From Coq Require Import String ZArith List Bool Lia Arith.
From Verif Require Import M_Base M_Float M_Text M_Construct M_Structs M_Events M_Tree.
From Verif Require Import S_Canon S_Prop S_Layout P_Base P_Codec P_Float P_Text P_RT P_Cells P_Kinds P_Lists P_Payload P_Prop P_Layout P_Struct.
Import ListNotations.
Open Scope Z_scope.

(* records have mandatory fields only, readable whatever the bytes *)
Definition f_total (f : field) : bool :=
  match f with
  | Req _ t => match t with TMult | TLevel | THeight => false | _ => true end
  | Gone _ => true
  | _ => false
  end.

Lemma record_ok en L w k rs : record w k = Some rs ->
  exists cs, kcon k = GreedyRange (Struct cs) /\ Forall2 (fld_ok (cxp en L w) en) cs rs /\ names_ok cs = true /\
    forallb f_wf rs = true /\ wf_items (map (f_item en) rs) = true /\ forallb f_total rs = true /\ (0 < rec_size rs)%nat.
Proof.
  pose proof (new_true en L w). pose proof (new_false en L w).
  destruct k; intros R; try discriminate R; apply Some_inj in R; subst rs; cbn [kcon].
  all: eexists; split; [reflexivity|].
  1: destruct w; [specialize (H eq_refl)|specialize (H0 eq_refl)].
  all: unfold u32, i32, raw.
  all: split; [flds|].
  all: repeat split; unfold rec_size, offset; cbn; lia.
Qed.

Lemma f_total_dec en f t b : f_total f = true -> f_type f = Some t -> ft_dec en t b <> None.
Proof. destruct f as [n u|n u|n|n]; cbn [f_total f_type]; try discriminate. intros H [= ->]. destruct t; discriminate. Qed.

Lemma record_cut rs b : forallb f_total rs = true -> length b = rec_size rs -> cut_at rs b (length rs).
Proof.
  intros _ L. split; [lia|]. split; [unfold rec_size in L; lia|]. intros m f t Hm N. exfalso.
  assert (m < length rs)%nat by (apply nth_error_Some; congruence). lia.
Qed.
Lemma record_readable en rs b i : forallb f_total rs = true -> readable en rs b i.
Proof.
  intros H m f t _ N T. rewrite forallb_forall in H. specialize (H f (nth_error_In _ _ N)). now apply (f_total_dec en f t).
Qed.
Lemma record_required rs : required rs (length rs).
Proof. intros m n t N. apply nth_error_Some. congruence. Qed.
Lemma total_tail rs : forallb f_total rs = true -> catch_all rs = false.
Proof.
  induction rs as [|f rs IH]; [reflexivity|]. cbn [forallb]. intros H. apply andb_true_iff in H as [A B].
  unfold catch_all in *. cbn [existsb]. rewrite (IH B). destruct f; try discriminate; reflexivity.
Qed.

Section Records.
  Variables (P : ctx -> Prop) (en : env) (cs : list (string * con)) (rs : list field).
  Hypothesis Pf : forall cx d, P cx -> P (cx_with_fields cx d).
  Hypothesis Pi : forall cx i, P cx -> P (cx_with_index cx i).
  Hypothesis F : Forall2 (fld_ok P en) cs rs.
  Hypothesis NM : names_ok cs = true.
  Hypothesis W : forallb f_wf rs = true.
  Hypothesis WI : wf_items (map (f_item en) rs) = true.
  Hypothesis TT : forallb f_total rs = true.
  Hypothesis SP : (0 < rec_size rs)%nat.
  Let s := rec_size rs.

  Lemma rec_names : NoDup (map f_name rs).
  Proof.
    destruct (names_ok_spec _ NM) as [ND _].
    assert (EN : map fst cs = map f_name rs).
    { clear - F. induction F as [|x y l l' [H _] F' IH]; [reflexivity|]. cbn [map]. now rewrite H, IH. }
    now rewrite <- EN.
  Qed.

  (* at least one record left *)
  Lemma rec_parse cx b r : P cx -> is_bytes b -> is_bytes r -> length b = s ->
    cparse (Struct cs) cx (b ++ r) = Ok (VDict (dec_fields en rs b), r).
  Proof.
    intros Hcx Hb Hr L. destruct (names_ok_spec _ NM) as [ND NE]. cbn [Struct cparse].
    assert (C : cut_at rs (b ++ r) (length rs)).
    { split; [lia|]. split; [rewrite app_length; unfold s, rec_size in L; lia|]. intros m f t Hm N. exfalso.
      assert (m < length rs)%nat by (apply nth_error_Some; congruence). lia. }
    pose proof (leftover_cut en rs (b ++ r) (length rs) WI W C (record_readable en rs _ _ TT) (record_required rs)) as LO.
    rewrite (total_tail rs TT) in LO. fold (rec_size rs) in LO. fold s in LO.
    rewrite skipn_app, <- L, skipn_all, Nat.sub_diag in LO. cbn [skipn app] in LO.
    rewrite (struct_dec P en Pf cs rs F W WI ND NE cx [] (b ++ r) r Hcx ltac:(apply is_bytes_app; split; assumption) ltac:(intros n []) LO).
    cbn [bind app]. do 3 f_equal.
    (* the record only looks at its own bytes *)
    assert (D : forall x, length x = s -> forall y, dec_fields en rs (x ++ y) = dec_fields en rs x).
    { clear - W TT. subst s. revert W TT. unfold rec_size. induction rs as [|f l IH]; intros W TT x L y; [reflexivity|].
      cbn [forallb] in W, TT. apply andb_true_iff in W as [W0 W]. apply andb_true_iff in TT as [T0 TT].
      cbn [length] in L. rewrite offset_S in L.
      destruct f as [n t|n t|n|n]; try discriminate; cbn [dec_fields].
      - change (f_size (Req n t)) with (ft_size t) in L.
        replace (ft_size t <=? length (x ++ y))%nat with true by (symmetry; apply Nat.leb_le; rewrite app_length; lia).
        replace (ft_size t <=? length x)%nat with true by (symmetry; apply Nat.leb_le; lia).
        rewrite firstn_app, skipn_app. replace (ft_size t - length x)%nat with O by lia. cbn [firstn skipn]. rewrite app_nil_r.
        pose proof (f_total_dec en (Req n t) t (firstn (ft_size t) x) T0 eq_refl) as NN.
        destruct (ft_dec en t (firstn (ft_size t) x)); [|congruence]. f_equal. apply IH; try assumption. rewrite skipn_length. lia.
      - change (f_size (Gone n)) with O in L. f_equal. now apply IH. }
    now apply D.
  Qed.
  Lemma rec_short cx b : P cx -> is_bytes b -> (length b < s)%nat -> exists x, cparse (Struct cs) cx b = Err x.
  Proof.
    intros Hcx Hb L. destruct (names_ok_spec _ NM) as [ND NE].
    assert (FR : Forall2 (field_rt P) cs (map (f_item en) rs)).
    { clear - F TT. induction F as [|[x c] f l l' [H1 H2] F' IH]; [constructor|]. cbn [forallb] in TT. apply andb_true_iff in TT as [T0 TT].
      cbn [map]. constructor; [|now apply IH]. unfold field_rt. cbn [snd] in *.
      destruct f as [n t|n t|n|n]; try discriminate; cbn [f_item item_rt].
      - tauto.
      - split; [reflexivity|]. intros cx bs Hcx Hbs. unfold fits. cbn [any c_size c_reads Nat.leb andb skipn firstn].
        destruct H2 as (A & B & _). eexists. split; [now apply A|]. intros cx' Hcx'. rewrite B by exact Hcx'.
        split; [reflexivity|]. split; reflexivity. }
    pose proof (struct_rt P Pf cs _ FR ND NE WI cx [] b Hcx Hb) as X. unfold struct_spec in X.
    assert (LN : leftover (map (f_item en) rs) b = None).
    { clear - L TT W. subst s. revert b L. unfold rec_size. revert W TT. induction rs as [|f l IH]; intros W TT b L; [cbn in L; lia|].
      cbn [forallb] in W, TT. apply andb_true_iff in W as [W0 W]. apply andb_true_iff in TT as [T0 TT].
      cbn [length] in L. rewrite offset_S in L.
      destruct f as [n t|n t|n|n]; try discriminate; cbn [map f_item leftover].
      - change (f_size (Req n t)) with (ft_size t) in L. rewrite (fits_dec en t b W0), (ft_size_cell en t W0).
        destruct (Nat.leb_spec (ft_size t) (length b)) as [Z|Z]; [|reflexivity].
        pose proof (f_total_dec en (Req n t) t (firstn (ft_size t) b) T0 eq_refl) as NN.
        destruct (ft_dec en t (firstn (ft_size t) b)); [|congruence]. apply IH; try assumption. rewrite skipn_length. lia.
      - unfold fits. cbn [any c_size c_reads Nat.leb andb skipn]. change (f_size (Gone n)) with O in L. now apply IH. }
    rewrite LN in X. destruct X as (x & E & _). exists x. cbn [Struct cparse]. now rewrite E.
  Qed.

  Definition rec_val (b : bytes) (j : nat) : val := VDict (dec_fields en rs (slice b (j * s) s)).

  Lemma greedy_dec fuel : forall cx i b, P cx -> is_bytes b -> (length b < fuel)%nat ->
    greedy_parse fuel (Struct cs) cx i b =
      Ok (map (rec_val b) (seq 0 (length b / s)), skipn (length b / s * s) b).
  Proof.
    induction fuel as [|fuel IH]; intros cx i b Hcx Hb L; [lia|]. cbn [greedy_parse].
    destruct (Nat.le_gt_cases s (length b)) as [Z|Z].
    - rewrite <- (firstn_skipn s b) at 1.
      rewrite (rec_parse _ _ _ (Pi _ _ Hcx) (is_bytes_firstn _ _ Hb) (is_bytes_skipn _ _ Hb) (firstn_length_le _ Z)).
      rewrite (IH cx (i + 1) (skipn s b) Hcx (is_bytes_skipn _ _ Hb)) by (rewrite skipn_length; lia). cbn [bind].
      rewrite skipn_length.
      assert (DV : (length b / s = S ((length b - s) / s))%nat).
      { replace (length b) with ((length b - s) + 1 * s)%nat at 1 by lia. rewrite Nat.div_add by (unfold s; lia). lia. }
      rewrite DV. cbn [seq map]. do 2 f_equal.
      + f_equal. rewrite <- seq_shift, map_map. apply map_ext. intros j. unfold rec_val.
        rewrite slice_skipn. reflexivity.
      + rewrite skipn_skipn. f_equal. lia.
    - destruct (rec_short (cx_with_index cx i) b (Pi _ _ Hcx) Hb Z) as [x ->].
      rewrite Nat.div_small by exact Z. reflexivity.
  Qed.

  Lemma rec_build cx b : P cx -> is_bytes b -> length b = s -> kept en rs b (length rs) ->
    cbuild (Struct cs) cx (VDict (dec_fields en rs b)) = Ok b.
  Proof.
    intros Hcx Hb L K. cbn [Struct cbuild].
    rewrite (enc_cut P en Pf cs rs F W WI cx _ b (length rs) Hcx Hb (record_cut rs b TT L) (record_readable en rs _ _ TT) K (record_required rs)).
    - rewrite (total_tail rs TT). fold (rec_size rs). fold s. rewrite <- L, firstn_all.
      unfold missing_flags. rewrite skipn_all. cbn [filter length repeat]. now rewrite app_nil_r.
    - apply NoDup_dget. rewrite dec_names. apply rec_names.
  Qed.

  Lemma items_back n : forall cx i b, P cx -> is_bytes b -> (n * s <= length b)%nat ->
    (forall j, (j < n)%nat -> kept en rs (slice b (j * s) s) (length rs)) ->
    items_build (Struct cs) cx i (map (rec_val b) (seq 0 n)) = Ok (firstn (n * s) b).
  Proof.
    induction n as [|n IH]; intros cx i b Hcx Hb L K; [reflexivity|].
    cbn [seq map items_build]. unfold rec_val at 1. cbn [Nat.mul].
    rewrite (rec_build (cx_with_index cx i) (slice b 0 s)); [|auto|now apply is_bytes_firstn|apply firstn_length_le; cbn [skipn]; nia|exact (K 0%nat ltac:(lia))].
    cbn [bind]. rewrite <- seq_shift, map_map.
    assert (E : map (fun x => rec_val b (S x)) (seq 0 n) = map (rec_val (skipn s b)) (seq 0 n)).
    { apply map_ext. intros j. unfold rec_val. rewrite slice_skipn. reflexivity. }
    rewrite E, IH; [|exact Hcx|now apply is_bytes_skipn|rewrite skipn_length; nia|].
    - cbn [bind]. f_equal. unfold slice. cbn [skipn].
      rewrite <- (firstn_skipn s b) at 3. rewrite firstn_app, firstn_firstn, Nat.min_r by lia.
      f_equal. rewrite firstn_length_le by nia. f_equal. lia.
    - intros j Lj. rewrite slice_skipn. exact (K (S j) ltac:(lia)).
  Qed.
End Records.

(* ---------------------------------------------------------------- list events *)

Section Event.
  Variables (en : env) (k : kind) (id : Z) (b : bytes) (e : event) (rs : list field).
  Hypothesis Hb : is_bytes b.
  Hypothesis HM : mk_event en k id b = Ok e.
  Hypothesis HL : record (new_of b) k = Some rs.
  Let s := rec_size rs.

  Lemma list_event_dec : e = Event id k (zlen b) (new_of b) (VList (map (rec_val en rs b) (seq 0 (length b / s)))).
  Proof.
    destruct (mk_event_inv _ _ _ _ _ HM) as (v & r & E & EE & _).
    destruct (record_ok en (zlen b) (new_of b) k rs HL) as (cs & KC & F & NM & W & WI & TT & SP).
    rewrite KC in E. cbn [GreedyRange cparse] in E.
    rewrite (greedy_dec (cxp en (zlen b) (new_of b)) en cs rs ltac:(auto) ltac:(auto) F NM W WI TT SP _ _ _ _ (cxp_mk _ _ _ _) Hb) in E by lia.
    cbn [bind] in E. injection E as <- <-. exact EE.
  Qed.
  Lemma list_event_saved : (forall j, (j < length b / s)%nat -> kept en rs (slice b (j * s) s) (length rs)) ->
    payload en e = Ok (firstn (length b / s * s) b).
  Proof.
    intros K. rewrite list_event_dec.
    destruct (record_ok en (zlen b) (new_of b) k rs HL) as (cs & KC & F & NM & W & WI & TT & SP).
    unfold payload. cbn [e_kind e_len e_new e_val]. rewrite KC. cbn [GreedyRange cbuild seq_of bind].
    apply (items_back (cxp en (zlen b) (new_of b)) en cs rs); auto. 
    rewrite Nat.mul_comm. apply Nat.mul_div_le. unfold s. lia.
  Qed.

  Lemma list_event_item j : (j < length b / s)%nat -> 
    exists vs d, e_val e = VList vs /\ length vs = (length b / s)%nat /\ nth_error vs j = Some (VDict d) /\ map fst d = map f_name rs /\
    forall m f t, nth_error rs m = Some f -> f_type f = Some t ->
      exists v, dget d (f_name f) = Some v /\ ft_dec en t (slice b (j * s + offset rs m) (ft_size t)) = Some v.
  Proof.
    intros Lj. rewrite list_event_dec. cbn [e_val].
    destruct (record_ok en (zlen b) (new_of b) k rs HL) as (cs & KC & F & NM & W & WI & TT & SP).
    eexists. exists (dec_fields en rs (slice b (j * s) s)). split; [reflexivity|]. split; [now rewrite map_length, seq_length|].
    split.
    { rewrite nth_error_map. replace (nth_error (seq 0 (length b / s)) j) with (Some j); [reflexivity|].
      symmetry. rewrite nth_error_nth' with (d := 0%nat) by (rewrite seq_length; exact Lj). now rewrite seq_nth by exact Lj. }
    split; [apply dec_names|]. intros m f t N T.
    assert (LB : ((j + 1) * s <= length b)%nat).
    { transitivity (length b / s * s)%nat; [apply Nat.mul_le_mono_r; lia|]. rewrite Nat.mul_comm. apply Nat.mul_div_le. unfold s. lia. }
    assert (LS : length (slice b (j * s) s) = s) by (unfold slice; rewrite firstn_length, skipn_length; lia).
    destruct (dec_nth en rs _ (length rs) WI W (record_cut rs _ TT LS) (record_readable en rs _ _ TT) m f N) as (v & V1 & V2).
    exists v. split.
    { apply NoDup_dget; [rewrite dec_names; eapply rec_names; eauto|]. eapply nth_error_In; eauto. }
    assert (Lm : (m < length rs)%nat) by (apply nth_error_Some; congruence).
    destruct f as [n u|n u|n|n]; cbn [f_type field_value] in *; try discriminate; injection T as ->.
    1,2: apply Nat.ltb_lt in Lm; rewrite Lm in V2.
    1,2: rewrite <- V2; f_equal; unfold slice at 1; unfold slice at 1; unfold slice.
    1,2: pose proof (offset_le rs m (length rs) _ N ltac:(apply Nat.ltb_lt; exact Lm)) as LO; fold (rec_size rs) in LO; fold s in LO.
    1: change (f_size (Req n t)) with (ft_size t) in LO.
    2: change (f_size (Opt n t)) with (ft_size t) in LO.
    1,2: rewrite skipn_firstn_comm, firstn_firstn, Nat.min_l by lia; rewrite skipn_skipn; do 2 f_equal; lia.
  Qed.
End Event.

Lemma slice_of_splice b a o s c : (o + length c <= s)%nat -> (a + s <= length b)%nat ->
  slice (splice b (a + o) c) a s = splice (slice b a s) o c.
Proof.
  intros L1 L2. unfold slice, splice.
  rewrite skipn_app, skipn_firstn_comm, firstn_length_le by lia.
  replace (a + o - a)%nat with o by lia. replace (a - (a + o))%nat with 0%nat by lia. cbn [skipn].
  rewrite firstn_app, firstn_firstn, Nat.min_r by lia. rewrite (firstn_firstn _ o s), Nat.min_l by lia. f_equal.
  rewrite firstn_length_le by (rewrite skipn_length; lia).
  rewrite firstn_app, (firstn_all2 c) by lia. f_equal.
  rewrite skipn_firstn_comm, skipn_skipn. f_equal; [lia|f_equal; lia].
Qed.

Lemma list_event_edit en k id b e rs j m f t c v vs d :
  is_bytes b -> mk_event en k id b = Ok e -> record (new_of b) k = Some rs ->
  (j < length b / rec_size rs)%nat -> nth_error rs m = Some f -> f_type f = Some t ->
  is_bytes c -> length c = ft_size t -> ft_dec en t c = Some v ->
  e_val e = VList vs -> nth_error vs j = Some (VDict d) ->
  mk_event en k id (splice b (j * rec_size rs + offset rs m) c) =
    Ok (Event id k (e_len e) (e_new e) (VList (lset vs j (VDict (dset d (f_name f) v))))).
Proof.
  intros Hb HM HL Lj N T Bc Lc Dc EV NV. set (s := rec_size rs) in *.
  pose proof (list_event_dec en k id b e rs Hb HM HL) as EE. fold s in EE.
  destruct (record_ok en (zlen b) (new_of b) k rs HL) as (cs & KC & F & NM & W & WI & TT & SP). fold s in SP.
  set (b' := splice b (j * s + offset rs m) c).
  assert (LB : ((j + 1) * s <= length b)%nat).
  { transitivity (length b / s * s)%nat; [apply Nat.mul_le_mono_r; lia|]. rewrite Nat.mul_comm. apply Nat.mul_div_le. lia. }
  assert (Lm : (m < length rs)%nat) by (apply nth_error_Some; congruence).
  pose proof (offset_le rs m (length rs) f N Lm) as LO. fold (rec_size rs) in LO. fold s in LO.
  rewrite (f_size_type _ _ T), <- Lc in LO.
  assert (RM : (j * s + offset rs m + length c <= length b)%nat) by nia.
  assert (LE : length b' = length b) by (apply splice_length; exact RM).
  assert (ZL : zlen b' = zlen b) by (unfold zlen; now rewrite LE).
  assert (NW : new_of b' = new_of b) by (unfold new_of; now rewrite ZL).
  destruct (mk_event_inv _ _ _ _ _ HM) as (v0 & r0 & _ & _ & HA & HW).
  unfold mk_event. rewrite ZL, NW.
  assert (VX : (match k, b' with KVSTPlugin, [] => Err IndexError | _, _ => Ok tt end) = Ok tt).
  { destruct k; try reflexivity. discriminate HL. }
  rewrite VX. cbn [bind]. rewrite HA. cbn [negb].
  assert (SZ : (if id <? 192 then zlen b =? (if id <? 64 then 1 else if id <? 128 then 2 else 4) else true) = true).
  { destruct (Z.ltb_spec id 192) as [L|]; [|reflexivity]. specialize (HW L). lia. }
  rewrite SZ. cbn [negb]. rewrite KC. cbn [GreedyRange cparse].
  assert (Bb' : is_bytes b') by (now apply is_bytes_splice).
  rewrite (greedy_dec (cxp en (zlen b) (new_of b)) en cs rs ltac:(auto) ltac:(auto) F NM W WI TT SP _ _ _ _ (cxp_mk _ _ _ _) Bb') by lia.
  fold s. cbn [bind]. rewrite LE. subst e. cbn [e_val e_len e_new] in *. injection EV as <-.
  do 3 f_equal.
  apply nth_error_ext; [rewrite lset_length, !map_length; reflexivity|].
  intros x w X. rewrite nth_error_lset. rewrite nth_error_map in X.
  destruct (nth_error (seq 0 (length b / s)) x) as [y|] eqn:Y; [|discriminate]. cbn [option_map] in X. injection X as <-.
  assert (LX : (x < length b / s)%nat). { rewrite <- (seq_length (length b / s) 0) at 1. apply nth_error_Some. congruence. }
  rewrite nth_error_nth' with (d := 0%nat) in Y by (rewrite seq_length; exact LX). rewrite seq_nth in Y by exact LX. injection Y as <-.
  cbn [Nat.add]. rewrite map_length, seq_length. apply Nat.ltb_lt in Lj as Lj'. rewrite Lj', andb_true_r.
  assert (ND : NoDup (map f_name rs)) by (eapply rec_names; eauto).
  assert (SS : forall z, (z < length b / s)%nat -> length (slice b (z * s) s) = s).
  { intros z Lz. unfold slice. rewrite firstn_length, skipn_length.
    assert ((z + 1) * s <= length b)%nat; [|lia].
    transitivity (length b / s * s)%nat; [apply Nat.mul_le_mono_r; lia|]. rewrite Nat.mul_comm. apply Nat.mul_div_le. lia. }
  destruct (Nat.eqb_spec x j) as [->|NE].
  - f_equal. unfold rec_val. fold s. f_equal.
    rewrite nth_error_map in NV. rewrite nth_error_nth' with (d := 0%nat) in NV by (rewrite seq_length; exact Lj).
    rewrite seq_nth in NV by exact Lj. cbn [option_map Nat.add] in NV. unfold rec_val in NV. fold s in NV. injection NV as <-.
    assert (SP' : slice b' (j * s) s = splice (slice b (j * s) s) (offset rs m) c).
    { unfold b'. apply slice_of_splice; nia. }
    rewrite SP'. symmetry. apply (replace_dec en rs (slice b (j * s) s) (length rs) m f t c v); try assumption.
    + apply record_cut; [assumption|now apply SS].
    + now apply record_readable.
  - rewrite nth_error_map. rewrite nth_error_nth' with (d := 0%nat) by (rewrite seq_length; exact LX).
    rewrite seq_nth by exact LX. cbn [option_map Nat.add]. f_equal. unfold rec_val. fold s. do 2 f_equal.
    unfold b'. symmetry. apply slice_splice; [exact RM|].
    destruct (Nat.lt_ge_cases x j) as [L|L]; [left|right]; nia.
Qed.
