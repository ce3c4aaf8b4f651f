(* Saving then loading; sizes; cut files. *)
From Coq Require Import String ZArith List Bool Lia Arith.
From Verif Require Import M_Base M_Float M_Text M_Construct M_Structs M_Events M_Parse.
From Verif Require Import S_Canon S_File P_Base P_Codec P_RT P_Cells P_Payload P_Special P_File P_Null P_Err.
Import ListNotations.
Open Scope Z_scope.

(* ---------- length of the prefix ---------- *)
Lemma varint_len n : 0 <= n -> zlen (varint_enc n) = prefix_size n.
Proof.
  unfold prefix_size. revert n. apply (well_founded_ind (Z.lt_wf 0)
    (fun n => 0 <= n -> zlen (varint_enc n) = 1 + Z.log2 n / 7)).
  intros n IH Hn. destruct (Z.ltb_spec n 128).
  - rewrite varint_enc_small by lia. rewrite zlen_cons, zlen_nil.
    assert (Z.log2 n < 7). { destruct (Z.eq_dec n 0) as [->|]; [reflexivity|]. apply Z.log2_lt_pow2; [lia|]. exact H. }
    pose proof (Z.log2_nonneg n). rewrite Z.div_small by lia. lia.
  - rewrite varint_enc_step by lia. rewrite zlen_cons, IH by lia.
    assert (Z.log2 n = Z.log2 (n / 128) + 7) as ->.
    { change 128 with (2 ^ 7). rewrite <- Z.shiftr_div_pow2 by lia. rewrite Z.log2_shiftr by lia.
      assert (7 <= Z.log2 n) by (apply Z.log2_le_pow2; lia). lia. }
    replace (Z.log2 (n / 128) + 7) with (Z.log2 (n / 128) + 1 * 7) by lia.
    rewrite Z.div_add by lia. lia.
Qed.
(* any prefix announcing n is at least that long *)
Lemma prefix_shortest : forall pre n m, is_bytes pre -> lenprefix pre = Some (n, m, []) -> prefix_size n <= zlen pre.
Proof.
  induction pre as [|b pre IH]; intros n m Hb H; [discriminate|]. cbn [lenprefix] in H.
  apply is_bytes_cons in Hb. destruct Hb as [Hb0 Hb]. unfold is_byte in Hb0. rewrite zlen_cons.
  destruct (Z.ltb_spec b 128).
  - injection H as <- <- ->. rewrite <- varint_len by lia. rewrite varint_enc_small by lia. rewrite zlen_cons, zlen_nil. lia.
  - destruct (lenprefix pre) as [[[n0 m0] r0]|] eqn:E; [|discriminate]. injection H as <- <- ->.
    pose proof (lenprefix_dec _ _ _ _ Hb E) as [_ Hn]. specialize (IH _ _ Hb eq_refl).
    rewrite <- varint_len in * by lia.
    destruct (Z.ltb_spec (b - 128 + 128 * n0) 128).
    + rewrite varint_enc_small by lia. rewrite zlen_cons, zlen_nil. pose proof (zlen_nonneg _ pre). lia.
    + rewrite varint_enc_step by lia. rewrite zlen_cons. replace ((b - 128 + 128 * n0) / 128) with n0 by lia. lia.
Qed.

(* ---------- what save writes ---------- *)
Lemma encodes_ids en h es cs : encodes en h es cs -> map e_id es = map fst cs.
Proof. induction 1; [reflexivity|]. cbn [map fst]. congruence. Qed.

Lemma mk_id_range en k id p e : mk_event en k id p = Ok e -> id < 192 -> zlen p = width id.
Proof. intros H Hl. destruct (mk_event_inv _ _ _ _ _ H) as (_ & _ & _ & _ & _ & Hs). apply Hs. exact Hl. Qed.

Lemma encodes_bytes en h es cs : encodes en h es cs -> Forall (fun e => 0 <= e_id e < 256) es ->
  exists body, events_bytes en es = Ok body /\ framed true cs body /\ is_bytes body /\ zlen body = chunks_size cs.
Proof.
  induction 1 as [h|h e es p cs e' HP HB HC HV HM HS HE IH]; intros Hid.
  - exists []. split; [reflexivity|]. split; [constructor|]. split; [constructor|reflexivity].
  - inversion Hid as [|e0 es0 Hi Hid']; subst. destruct (IH Hid') as (body & E1 & E2 & E3 & E4).
    cbn [events_bytes]. rewrite (event_bytes_eq en e Hi), HP. cbn [bind]. rewrite E1. cbn [bind].
    eexists. split; [reflexivity|]. pose proof (zlen_nonneg _ p) as Hp.
    unfold chunks_size in *. cbn [map fold_right]. unfold chunk_size at 1. cbn [fst snd].
    destruct (Z.ltb_spec (e_id e) 192) as [Hl|Hl].
    + pose proof (mk_id_range _ _ _ _ _ HM Hl) as Hw.
      split; [constructor; [apply CFixed; [lia|exact Hw]|exact E2]|].
      split; [apply is_bytes_app; split; [apply is_bytes_cons; split; [exact Hi|exact HB]|exact E3]|].
      rewrite zlen_app, zlen_cons. lia.
    + split; [constructor; [|exact E2]|].
      { apply CVar with true; [lia| |reflexivity]. apply lenprefix_min; [apply varint_enc_bytes; lia|]. split; [lia|reflexivity]. }
      split.
      { apply is_bytes_app; split; [|exact E3]. apply is_bytes_cons. split; [exact Hi|]. apply is_bytes_app. split; [apply varint_enc_bytes; lia|exact HB]. }
      rewrite zlen_app, zlen_cons, zlen_app, varint_len by lia. lia.
Qed.

Lemma encodes_reads en h es cs : encodes en h es cs -> exists es', reads en h cs es' /\ Forall2 same_event es es'.
Proof.
  induction 1 as [h|h e es p cs e' HP HB HC HV HM HS HE (es' & HR & HF)].
  - exists []. split; constructor.
  - exists (e' :: es'). split; [|constructor; assumption]. apply RCons with (e_kind e); assumption.
Qed.

Lemma num_channels_spec es : num_channels es =
  if count_id 64 es =? 0 then Err NoModelsFound else Ok (count_id 64 es).
Proof. reflexivity. Qed.

Lemma file_is_bytes format ch q body : is_bytes body -> is_bytes (file_bytes format ch q body).
Proof.
  intros H. unfold file_bytes. rewrite !le_spec. repeat (apply is_bytes_app; split); try apply le_enc_bytes; try exact H.
  all: repeat constructor; try (unfold is_byte; lia); cbv; congruence.
Qed.

(* saving succeeds, writes the canonical file, and loading it gives the events back *)
Theorem save_load en p cs :
  encodes en [] (pr_events p) cs -> Forall (fun e => 0 <= e_id e < 256) (pr_events p) ->
  In (pr_format p) formats -> In (pr_ppq p) ppqs ->
  1 <= count_chunks 64 cs < 65536 -> chunks_size cs < 2 ^ 32 ->
  exists f es', serialise en p = Ok f /\
    parse en f = Ok (Project es' (count_chunks 64 cs) (pr_format p) (pr_ppq p)) /\
    Forall2 same_event (pr_events p) es'.
Proof.
  intros HE Hid Hf Hq Hc Hs. destruct (encodes_bytes _ _ _ _ HE Hid) as (body & E1 & E2 & E3 & E4).
  destruct (encodes_reads _ _ _ _ HE) as (es' & HR & HS).
  pose proof (count_ids 64 cs _ (encodes_ids _ _ _ _ HE)) as Hn.
  pose proof (formats_range _ Hf). pose proof (ppqs_range _ Hq).
  exists (file_bytes (pr_format p) (count_chunks 64 cs) (pr_ppq p) body), es'.
  assert (HG : good_header (pr_format p) (count_chunks 64 cs) (pr_ppq p) body).
  { split; [exact Hf|]. split; [exact Hq|]. split; [lia|]. split; [|lia].
    destruct cs as [|c cs]; [unfold count_chunks, zlen in Hc; cbn [filter length] in Hc; lia|]. inversion E2 as [|c' cs' b bs Hcb]; subst.
    pose proof (chunk_nonempty _ _ _ Hcb). destruct b; [congruence|]. rewrite zlen_app, zlen_cons.
    pose proof (zlen_nonneg _ b). pose proof (zlen_nonneg _ bs). lia. }
  split; [|split; [|exact HS]].
  - rewrite serialise_eq, num_channels_spec, Hn. replace (count_chunks 64 cs =? 0) with false by lia. cbn [bind].
    replace ((-32768 <=? pr_format p) && (pr_format p <? 32768)) with true by lia.
    replace (count_chunks 64 cs <? 65536) with true by lia.
    replace ((0 <=? pr_ppq p) && (pr_ppq p <? 65536)) with true by lia. cbn [negb].
    rewrite E1. cbn [bind]. replace (zlen body <? 2 ^ 32) with true by lia. reflexivity.
  - rewrite (parse_good _ _ _ _ _ HG). unfold run.
    assert (L : framed false cs body).
    { clear - E2. induction E2 as [|c cs b bs Hc HF IH]; constructor; [|exact IH]. destruct Hc; [constructor; assumption|].
      apply CVar with m; [assumption|assumption|discriminate]. }
    destruct (loop_framed en cs (PState None None) [] body (length body) es' st_ok_init E3) as [_ X];
      [destruct HG as (_ & _ & _ & G); assert (2 ^ 32 < 2 ^ 63) by reflexivity; lia|lia|exact L|].
    rewrite (X HR). reflexivity.
Qed.

(* ---------- framing ---------- *)
Lemma reads_nth en : forall h cs es, reads en h cs es ->
  length es = length cs /\
  forall i id p, nth_error cs i = Some (id, p) -> exists e k,
    nth_error es i = Some e /\ class_of en ((id, p) :: rev (firstn i cs) ++ h) = Some k /\
    mk_event en k id p = Ok e /\ e_id e = id /\ e_kind e = k.
Proof.
  induction 1 as [h|h id p cs k e es H1 H2 H3 H4 [IHl IH]].
  - split; [reflexivity|]. intros [|i] id p E; discriminate E.
  - split; [cbn [length]; congruence|]. intros [|i] id' p' E.
    + cbn [nth_error] in E. injection E as <- <-. exists e, k. cbn [firstn rev app nth_error].
      destruct (mk_event_inv _ _ _ _ _ H3) as (v & r & _ & -> & _). auto.
    + cbn [nth_error] in E. destruct (IH i id' p' E) as (e' & k' & E1 & E2 & E3). exists e', k'.
      cbn [nth_error firstn rev]. rewrite <- app_assoc. cbn [app]. auto.
Qed.
Lemma reads_fun en : forall h cs es es', reads en h cs es -> reads en h cs es' -> es = es'.
Proof.
  intros h cs es es' H. revert es'. induction H as [h|h id p cs k e es H1 H2 H3 H4 IH]; intros es' H'; inversion H'; subst; [reflexivity|].
  f_equal; [congruence|]. apply IH. assumption.
Qed.

Theorem parse_chunks en fmt ch q cs body : good_header fmt ch q body -> is_bytes body -> framed false cs body ->
  forall p, parse en (file_bytes fmt ch q body) = Ok p <->
    exists es, reads en [] cs es /\ p = Project es ch fmt q.
Proof.
  intros HG HB HF p. rewrite (parse_good _ _ _ _ _ HG). unfold run.
  assert (Hl : zlen body < 2 ^ 63) by (destruct HG as (_ & _ & _ & G); assert (2 ^ 32 < 2 ^ 63) by reflexivity; lia).
  pose proof (fun es => loop_framed en cs (PState None None) [] body (length body) es st_ok_init HB Hl (le_n _) HF) as L.
  split.
  - intros H. inv_bind H. injection H as <-. exists x. split; [|reflexivity]. apply L. exact E.
  - intros (es & HR & ->). apply L in HR. rewrite HR. reflexivity.
Qed.

(* ---------- cut last chunk ---------- *)
Lemma loop_cut en : forall cs st h bs c b f es, st_ok st h -> is_bytes bs -> is_bytes b -> zlen (bs ++ b) < 2 ^ 63 ->
  (length (bs ++ b) <= f)%nat -> framed false cs bs -> 0 <= fst c < 256 -> is_bytes (snd c) -> b <> [] ->
  read_chunk b = Ok (fst c, snd c, []) ->
  (parse_loop f en st (bs ++ b) = Ok es <-> reads en h (cs ++ [c]) es).
Proof.
  induction cs as [|[id p] cs IH]; intros st h bs [ci cp] b f es Hst Hb Hbb Hl Hf H Hc Hcp Hbne Hrb; cbn [fst snd] in *.
  - inversion H; subst. cbn [app] in *. destruct f as [|f]; [destruct b; [congruence|cbn [length] in Hf; lia]|].
    rewrite (loop_step en st h b ci cp [] f es Hst Hc Hcp Hbne Hrb).
    assert (Hnil : forall st', parse_loop f en st' [] = Ok []) by (destruct f; reflexivity).
    split.
    + intros (k & e & es' & st' & E1 & E2 & E3 & E4 & E5 & ->). rewrite Hnil in E5. injection E5 as <-.
      apply RCons with k; auto. constructor.
    + intros R. inversion R as [|h' id' p' cs' k e es0 R1 R2 R3 R4]; subst. inversion R4; subst.
      pose proof (classify_spec en st h ci cp Hst Hc Hcp) as HC.
      destruct (classify en st ci cp) as [[k' st']|er].
      * destruct HC as (C1 & C2 & C3). exists k, e, [], st'. repeat split; auto; try apply C2.
      * exfalso. destruct HC as [[-> V]|[V|(-> & k2 & V1 & V2)]].
        -- apply R2; [reflexivity|exact V].
        -- congruence.
        -- replace k2 with k in V2 by congruence. eapply V2. eassumption.
  - inversion H as [E0|c' cs' b0 bs0 H3 H5 E0 E1]; subst. cbn [app].
    apply is_bytes_app in Hb. destruct Hb as [Hb1 Hb2]. rewrite <- app_assoc in *. rewrite zlen_app in Hl. rewrite app_length in Hf.
    assert (Hpl := chunk_payload_len _ _ _ H3). cbn [snd] in Hpl. pose proof (zlen_nonneg _ (bs0 ++ b)).
    pose proof (chunk_nonempty _ _ _ H3). destruct f as [|f]; [destruct b0; [congruence|cbn [length] in Hf; lia]|].
    assert (Hrd := read_framed (id, p) b0 (bs0 ++ b) Hb1 ltac:(cbn [snd]; lia) H3). cbn [fst snd] in Hrd.
    assert (Hid : 0 <= id < 256) by apply (chunk_id _ _ _ H3).
    assert (Hp : is_bytes p) by apply (chunk_payload_bytes _ _ _ Hb1 H3).
    rewrite (loop_step en st h (b0 ++ bs0 ++ b) id p (bs0 ++ b) f es Hst Hid Hp);
      [|destruct b0; [congruence|discriminate]|exact Hrd].
    assert (Hfl : (length (bs0 ++ b) <= f)%nat) by (destruct b0; [congruence|cbn [length] in Hf; lia]).
    pose proof (zlen_nonneg _ b0). split.
    + intros (k & e & es' & st' & E1 & E2 & E3 & E4 & E5 & ->). apply RCons with k; auto.
      apply (IH st' _ bs0 (ci, cp) b f es' E4 Hb2 Hbb ltac:(lia) Hfl H5 Hc Hcp Hbne Hrb). exact E5.
    + intros R. inversion R as [|h' id' p' cs' k e es0 R1 R2 R3 R4]; subst.
      pose proof (classify_spec en st h id p Hst Hid Hp) as HC.
      destruct (classify en st id p) as [[k' st']|er].
      * destruct HC as (C1 & C2 & C3). exists k, e, es0, st'. repeat split; auto; try apply C2.
        apply (IH st' _ bs0 (ci, cp) b f es0 C2 Hb2 Hbb ltac:(lia) Hfl H5 Hc Hcp Hbne Hrb). assumption.
      * exfalso. destruct HC as [[-> V]|[V|(-> & k2 & V1 & V2)]].
        -- apply R2; [reflexivity|exact V].
        -- congruence.
        -- replace k2 with k in V2 by congruence. eapply V2. eassumption.
Qed.

Theorem parse_cut en fmt ch q cs b1 id pre n m cut :
  let body := b1 ++ id :: pre ++ cut in
  good_header fmt ch q body -> is_bytes body -> framed false cs b1 -> 192 <= id < 256 ->
  lenprefix pre = Some (n, m, []) -> zlen cut < n < 2 ^ 63 ->
  forall p, parse en (file_bytes fmt ch q body) = Ok p <->
    exists es, reads en [] (cs ++ [(id, cut)]) es /\ p = Project es ch fmt q.
Proof.
  intros body HG HB HF Hid Hpre Hn p. rewrite (parse_good _ _ _ _ _ HG). unfold run.
  assert (Hl : zlen body < 2 ^ 63) by (destruct HG as (_ & _ & _ & G); assert (2 ^ 32 < 2 ^ 63) by reflexivity; lia).
  unfold body in *. apply is_bytes_app in HB. destruct HB as [HB1 HB2].
  assert (Hcut : is_bytes cut) by (apply is_bytes_cons in HB2; destruct HB2 as [_ HB2]; apply is_bytes_app in HB2; apply HB2).
  assert (Hrd : read_chunk (id :: pre ++ cut) = Ok (id, cut, [])).
  { cbn [read_chunk]. replace (id <? 64) with false by lia. replace (id <? 128) with false by lia. replace (id <? 192) with false by lia.
    apply is_bytes_cons in HB2. destruct HB2 as [_ HB2]. apply is_bytes_app in HB2. destruct HB2 as [HB2 _].
    apply lenprefix_dec in Hpre; [|exact HB2]. destruct Hpre as [V Hn'].
    rewrite <- (app_nil_r pre) in V. rewrite (varint_dec_app _ _ _ cut V). cbn [bind].
    rewrite read_upto_short by lia. reflexivity. }
  pose proof (fun es => loop_cut en cs (PState None None) [] b1 (id, cut) (id :: pre ++ cut) _ es st_ok_init HB1 HB2 Hl (le_n _) HF
    ltac:(cbn [fst]; lia) Hcut ltac:(discriminate) Hrd) as L.
  split.
  - intros H. inv_bind H. injection H as <-. exists x. split; [|reflexivity]. apply L. exact E.
  - intros (es & HR & ->). apply L in HR. rewrite HR. reflexivity.
Qed.

(* ---------- sizes ---------- *)
Lemma mapr_length A B (f : A -> res B) l r : mapr f l = Ok r -> length r = length l.
Proof.
  revert r. induction l as [|x l IH]; intros r H; cbn [mapr] in H; [injection H as <-; reflexivity|].
  inv_bind H. inv_bind H. injection H as <-. cbn [length]. f_equal. auto.
Qed.
Lemma uint_len n cx v b : cbuild (c_uint n) cx v = Ok b -> length b = n.
Proof. cbn [c_uint cbuild]. destruct (as_int v); [|discriminate]. destruct (_ && _); [|discriminate]. intros H. apply Ok_inj in H. subst b. apply le_enc_length. Qed.
Lemma sint_len n cx v b : cbuild (c_sint n) cx v = Ok b -> length b = n.
Proof. cbn [c_sint cbuild]. destruct (as_int v); [|discriminate]. destruct (_ && _); [|discriminate]. intros H. apply Ok_inj in H. subst b. apply le_enc_length. Qed.
Lemma fixed_len en e d : fixed_kind (e_kind e) = true -> payload en e = Ok d -> zlen d = kind_width (e_kind e).
Proof.
  unfold payload, zlen. destruct (e_kind e) eqn:K; intros H; try discriminate H; cbn [kcon kind_width]; intros HP.
  - cbn [Flag cbuild] in HP. injection HP as <-. reflexivity.
  - apply sint_len in HP. rewrite HP. reflexivity.
  - apply uint_len in HP. rewrite HP. reflexivity.
  - apply sint_len in HP. rewrite HP. reflexivity.
  - apply uint_len in HP. rewrite HP. reflexivity.
  - cbn [Float32l cbuild] in HP. destruct (as_float _); [|discriminate]. destruct (f64_to_32 _); [|discriminate].
    apply Ok_inj in HP. subst d. rewrite le_enc_length. reflexivity.
  - apply sint_len in HP. rewrite HP. reflexivity.
  - apply uint_len in HP. rewrite HP. reflexivity.
  - unfold U16Tuple in HP. cbn [Adapter cbuild] in HP. inv_bind HP. inv_bind E. injection E as <-.
    cbn [Array cbuild seq_of bind] in HP.
    destruct (Nat.eqb_spec (length x0) 2) as [L|]; [|discriminate].
    destruct x0 as [|a [|b [|]]]; try discriminate L. cbn [items_build] in HP.
    inv_bind HP. inv_bind HP. inv_bind E1. inv_bind E1. injection E3 as <-. injection E1 as <-. injection HP as <-.
    apply uint_len in E. apply uint_len in E2. rewrite !app_length, E, E2. reflexivity.
  - unfold Color in HP. cbn [Adapter cbuild] in HP. inv_bind HP. cbn [Bytes cbuild] in HP.
    destruct x; try discriminate HP; cbn [as_int] in HP.
    all: try (destruct (_ && _); [|discriminate]; apply Ok_inj in HP; subst d; rewrite rev_length, le_enc_length; reflexivity).
    destruct (Nat.eqb_spec (length b) 4); [|discriminate]. injection HP as <-. rewrite e0. reflexivity.
Qed.

Theorem size_exact en e b : 0 <= e_id e < 256 ->
  (e_id e < 192 -> fixed_kind (e_kind e) = true /\ kind_width (e_kind e) = width (e_id e)) ->
  event_bytes en e = Ok b -> event_size en e = Ok (zlen b).
Proof.
  intros Hid Hk H. unfold event_size. destruct (Z.leb_spec 192 (e_id e)).
  - rewrite H. reflexivity.
  - destruct (Hk ltac:(lia)) as [Hf Hw]. rewrite event_bytes_eq in H by exact Hid. inv_bind H. injection H as <-.
    replace (e_id e <? 192) with true by lia. pose proof (fixed_len _ _ _ Hf E) as L. rewrite zlen_cons, L, Hw.
    unfold width. destruct (Z.leb_spec 128 (e_id e)).
    + replace (e_id e <? 64) with false by lia. replace (e_id e <? 128) with false by lia. reflexivity.
    + destruct (Z.leb_spec 64 (e_id e)).
      * replace (e_id e <? 64) with false by lia. replace (e_id e <? 128) with true by lia. reflexivity.
      * replace (e_id e <? 64) with true by lia. reflexivity.
Qed.
