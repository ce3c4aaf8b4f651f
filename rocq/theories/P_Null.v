(* parse followed by save *)
From Coq Require Import String ZArith List Bool Lia Arith.
From Verif Require Import M_Base M_Float M_Text M_Construct M_Structs M_Events M_Parse.
From Verif Require Import S_Canon S_File P_Base P_Codec P_Float P_Text P_RT P_Cells P_Kinds P_Lists P_Special P_Payload P_File.
Import ListNotations.
Open Scope Z_scope.

(* ---------------- header ---------------- *)
Lemma le_spec n z : le n z = le_enc n z.
Proof.
  unfold le. revert z. induction n as [|n IH]; intros z; [reflexivity|].
  cbn [seq map le_enc]. f_equal; [change (256 ^ Z.of_nat 0) with 1; rewrite Z.div_1_r; reflexivity|].
  rewrite <- seq_shift, map_map, <- IH. apply map_ext. intros i.
  rewrite Nat2Z.inj_succ, Z.pow_succ_r by lia. rewrite Z.div_div by lia. reflexivity.
Qed.

Lemma slices a0 a1 a2 a3 a4 a5 a6 body :
  length a0 = 4%nat -> length a1 = 4%nat -> length a2 = 2%nat -> length a3 = 2%nat ->
  length a4 = 2%nat -> length a5 = 4%nat -> length a6 = 4%nat ->
  let f := a0 ++ a1 ++ a2 ++ a3 ++ a4 ++ a5 ++ a6 ++ body in
  slice 0 4 f = a0 /\ slice 4 4 f = a1 /\ slice 8 2 f = a2 /\ slice 10 2 f = a3 /\
  slice 12 2 f = a4 /\ slice 14 4 f = a5 /\ slice 18 4 f = a6 /\ skipn 22 f = body /\
  zlen f = 22 + zlen body.
Proof.
  intros L0 L1 L2 L3 L4 L5 L6.
  destruct a0 as [|x0 [|x1 [|x2 [|x3 [|]]]]]; try discriminate.
  destruct a1 as [|y0 [|y1 [|y2 [|y3 [|]]]]]; try discriminate.
  destruct a2 as [|z0 [|z1 [|]]]; try discriminate.
  destruct a3 as [|u0 [|u1 [|]]]; try discriminate.
  destruct a4 as [|v0 [|v1 [|]]]; try discriminate.
  destruct a5 as [|w0 [|w1 [|w2 [|w3 [|]]]]]; try discriminate.
  destruct a6 as [|t0 [|t1 [|t2 [|t3 [|]]]]]; try discriminate.
  cbn zeta. repeat split; try reflexivity. cbn [app]. rewrite !zlen_cons. lia.
Qed.
Lemma cut_file (f : bytes) : 22 <= zlen f -> exists a0 a1 a2 a3 a4 a5 a6 body,
  f = a0 ++ a1 ++ a2 ++ a3 ++ a4 ++ a5 ++ a6 ++ body /\
  length a0 = 4%nat /\ length a1 = 4%nat /\ length a2 = 2%nat /\ length a3 = 2%nat /\
  length a4 = 2%nat /\ length a5 = 4%nat /\ length a6 = 4%nat.
Proof.
  intros H. unfold zlen in H.
  assert (S1 : forall n (l : bytes), (n <= length l)%nat -> exists a b, l = a ++ b /\ length a = n).
  { intros n l Hn. exists (firstn n l), (skipn n l). split; [symmetry; apply firstn_skipn|apply firstn_length_le; exact Hn]. }
  destruct (S1 4%nat f ltac:(lia)) as (a0 & f1 & -> & L0). rewrite app_length in H.
  destruct (S1 4%nat f1 ltac:(lia)) as (a1 & f2 & -> & L1). rewrite app_length in H.
  destruct (S1 2%nat f2 ltac:(lia)) as (a2 & f3 & -> & L2). rewrite app_length in H.
  destruct (S1 2%nat f3 ltac:(lia)) as (a3 & f4 & -> & L3). rewrite app_length in H.
  destruct (S1 2%nat f4 ltac:(lia)) as (a4 & f5 & -> & L4). rewrite app_length in H.
  destruct (S1 4%nat f5 ltac:(lia)) as (a5 & f6 & -> & L5). rewrite app_length in H.
  destruct (S1 4%nat f6 ltac:(lia)) as (a6 & body & -> & L6).
  exists a0, a1, a2, a3, a4, a5, a6, body. auto 10.
Qed.

Lemma formats_eq : file_formats = formats. Proof. reflexivity. Qed.
Lemma formats_range z : In z formats -> -32768 <= z < 32768.
Proof. cbn [formats In]. lia. Qed.
Lemma ppqs_range z : In z ppqs -> 0 <= z < 65536.
Proof. cbn [ppqs In]. lia. Qed.

Lemma le_signed2 d : is_bytes d -> length d = 2%nat -> le_enc 2 (to_signed 2 (le_dec d)) = d.
Proof. intros Hb Hl. rewrite <- Hl. apply le_enc_signed. exact Hb. Qed.

Definition run (en : env) (format channels ppq : Z) (body : bytes) : res project :=
  let* es := parse_loop (length body) en (PState None None) body in
  Ok (Project es channels format ppq).

Lemma parse_good en format channels ppq body : good_header format channels ppq body ->
  parse en (file_bytes format channels ppq body) = run en format channels ppq body.
Proof.
  intros (Hf & Hp & Hc & Hb). unfold file_bytes. rewrite !le_spec.
  destruct (slices magic_header (le_enc 4 6) (le_enc 2 format) (le_enc 2 channels) (le_enc 2 ppq)
             magic_data (le_enc 4 (zlen body)) body) as (S0 & S1 & S2 & S3 & S4 & S5 & S6 & S7 & S8);
    try reflexivity; try apply le_enc_length.
  unfold parse. rewrite S0, S1, S2, S3, S4, S5, S6, S7, S8. clear S0 S1 S2 S3 S4 S5 S6 S7 S8.
  pose proof (formats_range _ Hf). pose proof (ppqs_range _ Hp).
  replace (22 + zlen body <? 14) with false by lia.
  rewrite signed_dec_enc by (change (256 ^ Z.of_nat 2) with 65536; lia).
  rewrite (le_dec_enc 2 channels), (le_dec_enc 2 ppq) by (change (256 ^ Z.of_nat 2) with 65536; lia).
  rewrite (le_dec_enc 4 (zlen body)) by (change (256 ^ Z.of_nat 4) with (2 ^ 32); lia).
  change (list_Zeqb magic_header FLhd) with true. change (le_dec (le_enc 4 6) =? 6) with true.
  change (list_Zeqb magic_data FLdt) with true. cbn [negb].
  rewrite (proj2 (mem_Z_In format file_formats) Hf), (proj2 (mem_Z_In ppq valid_ppqs) Hp). cbn [negb].
  replace (zlen body =? 0) with false by lia.
  replace (22 + zlen body =? zlen body + 22) with true by lia. reflexivity.
Qed.

Lemma parse_cases en f : is_bytes f ->
  (exists format channels ppq body, f = file_bytes format channels ppq body /\
     good_header format channels ppq body /\ is_bytes body) \/ parse en f = Err HeaderCorrupted.
Proof.
  intros Hb. unfold parse.
  destruct (Z.ltb_spec (zlen f) 14); [right; reflexivity|].
  destruct (list_Zeqb (slice 0 4 f) FLhd) eqn:E0; [|right; reflexivity]. cbn [negb].
  destruct (Z.eqb_spec (le_dec (slice 4 4 f)) 6) as [E1|]; [|right; reflexivity]. cbn [negb].
  destruct (mem_Z (to_signed 2 (le_dec (slice 8 2 f))) file_formats) eqn:E2; [|right; reflexivity]. cbn [negb].
  destruct (mem_Z (le_dec (slice 12 2 f)) valid_ppqs) eqn:E3; [|right; reflexivity]. cbn [negb].
  destruct (list_Zeqb (slice 14 4 f) FLdt) eqn:E4; [|right; reflexivity]. cbn [negb].
  destruct (Z.eqb_spec (le_dec (slice 18 4 f)) 0) as [|E5]; [right; reflexivity|].
  destruct (Z.eqb_spec (zlen f) (le_dec (slice 18 4 f) + 22)) as [E6|]; [|right; reflexivity]. left.
  assert (B6 : is_bytes (slice 18 4 f)) by (apply is_bytes_firstn, is_bytes_skipn; exact Hb).
  pose proof (le_dec_bound _ B6) as R6.
  destruct (cut_file f ltac:(lia)) as (a0 & a1 & a2 & a3 & a4 & a5 & a6 & body & -> & L0 & L1 & L2 & L3 & L4 & L5 & L6).
  destruct (slices a0 a1 a2 a3 a4 a5 a6 body) as (S0 & S1 & S2 & S3 & S4 & S5 & S6 & S7 & S8); try assumption.
  rewrite S0, S1, S2, S4, S5, S6, S8 in *. clear S0 S1 S2 S3 S4 S5 S6 S7 S8.
  apply list_Zeqb_eq in E0, E4. apply mem_Z_In in E2, E3.
  repeat (apply is_bytes_app in Hb; let X := fresh "B" in destruct Hb as [X Hb]).
  exists (to_signed 2 (le_dec a2)), (le_dec a3), (le_dec a4), body. split.
  - unfold file_bytes. rewrite !le_spec.
    rewrite le_signed2 by assumption.
    replace (le_enc 2 (le_dec a3)) with a3 by (symmetry; rewrite <- L3; apply le_enc_dec; assumption).
    replace (le_enc 2 (le_dec a4)) with a4 by (symmetry; rewrite <- L4; apply le_enc_dec; assumption).
    replace (le_enc 4 6) with a1 by (rewrite <- E1; rewrite <- L1 at 1; symmetry; apply le_enc_dec; assumption).
    replace (zlen body) with (le_dec a6) by lia.
    replace (le_enc 4 (le_dec a6)) with a6 by (symmetry; rewrite <- L6; apply le_enc_dec; assumption).
    rewrite E0, E4. reflexivity.
  - split; [|exact Hb]. split; [exact E2|]. split; [exact E3|].
    pose proof (le_dec_bound a3 ltac:(assumption)) as R3. rewrite L3 in R3. change (256 ^ Z.of_nat 2) with 65536 in R3.
    rewrite L6 in R6. change (256 ^ Z.of_nat 4) with (2 ^ 32) in R6.
    pose proof (zlen_nonneg _ body). split; [exact R3|]. lia.
Qed.


Lemma parse_ok en f p : is_bytes f -> parse en f = Ok p ->
  exists format channels ppq body es, f = file_bytes format channels ppq body /\
     good_header format channels ppq body /\ is_bytes body /\
     parse_loop (length body) en (PState None None) body = Ok es /\
     p = Project es channels format ppq.
Proof.
  intros Hb H. destruct (parse_cases en f Hb) as [(fmt & ch & q & body & -> & HG & HB)|E]; [|congruence].
  rewrite (parse_good en _ _ _ _ HG) in H. unfold run in H. inv_bind H. injection H as <-.
  exists fmt, ch, q, body, x. auto 10.
Qed.

(* ---------------- one event ---------------- *)
Definition always (_ : ctx) := True.
Lemma fixed_cell k : fixed_kind k = true ->
  exists c, cell_rt always (kcon k) c /\ c_fixed c = true /\ Z.of_nat (c_size c) = kind_width k.
Proof.
  destruct k; intros H; try discriminate H; eexists; (split; [cbn [kcon]; cell|split; reflexivity]).
Qed.
Lemma payload_width en k id p e d : fixed_kind k = true -> is_bytes p ->
  mk_event en k id p = Ok e -> payload en e = Ok d -> zlen d = kind_width k.
Proof.
  intros Hk Hb HM HP. destruct (mk_event_inv _ _ _ _ _ HM) as (v & r & Ep & -> & _).
  destruct (fixed_cell k Hk) as (c & Hc & Hf & Hs). unfold payload in HP. cbn [e_kind e_val e_len e_new] in HP.
  destruct (cell_inv always _ _ _ _ _ _ Hc Hf I Hb Ep) as (d0 & _ & _ & _ & HB).
  match type of HP with cbuild _ ?cx _ = _ => destruct (HB cx I) as (out & E & Hl & _) end.
  unfold zlen. rewrite E in HP. injection HP as <-. lia.
Qed.

Lemma class_fixed en h id p k : 0 <= id < 192 -> class_of en ((id, p) :: h) = Some k ->
  fixed_kind k = true /\ kind_width k = width id.
Proof.
  intros Hid H. pose proof (registered_fact en id ltac:(lia)) as HR. unfold class_of in H.
  destruct (registered en id) as [k'|].
  - injection H as ->. unfold reg_fact in HR. replace (id <? 192) with true in HR by lia.
    rewrite !andb_true_iff in HR. split; [tauto|]. lia.
  - unfold width. destruct (id <? 64); [injection H as <-; auto|].
    destruct (id <? 128); [injection H as <-; auto|].
    replace (id <? 192) with true in H by lia. injection H as <-. auto.
Qed.

Lemma event_bytes_eq en e : 0 <= e_id e < 256 -> event_bytes en e =
  let* d := payload en e in
  Ok (if e_id e <? 192 then e_id e :: d else e_id e :: varint_enc (zlen d) ++ d).
Proof.
  intros H. unfold event_bytes. unfold Byte. cbn [c_uint cbuild as_int].
  change (256 ^ Z.of_nat 1) with 256.
  replace ((0 <=? e_id e) && (e_id e <? 256)) with true by lia. cbn [bind le_enc].
  rewrite Z.mod_small by lia.
  destruct (payload en e) as [d|]; cbn [bind]; [|reflexivity].
  destruct (e_id e <? 192); [reflexivity|]. cbn [VarInt cbuild as_int].
  pose proof (zlen_nonneg _ d). replace (0 <=? zlen d) with true by lia. reflexivity.
Qed.

Lemma framed_cut_inv c cs bs : framed_cut (c :: cs) bs ->
  (exists b bs', bs = b ++ bs' /\ chunk_bytes false c b /\ framed_cut cs bs') \/
  (cs = [] /\ cut_chunk c bs).
Proof.
  intros H. inversion H as [cs0 bs0 HF E1 E2|cs0 bs0 c0 b0 HF HC E1 E2]; subst.
  - inversion HF as [|c' cs' b bs' Hc HF' E1 E2]; subst. left. exists b, bs'. split; [reflexivity|].
    split; [exact Hc|]. apply FWhole. exact HF'.
  - destruct cs0 as [|c1 cs0]; cbn [app] in E1; injection E1 as <- <-.
    + right. inversion HF; subst. split; [reflexivity|exact HC].
    + left. inversion HF as [|c' cs' b bs' Hc HF' E1 E2]; subst. exists b, (bs' ++ b0).
      rewrite app_assoc. split; [reflexivity|]. split; [exact Hc|]. apply FCut; assumption.
Qed.

Lemma events_null_r en h cs es : reads en h cs es -> forall bs, is_bytes bs -> framed true cs bs ->
  payloads_canonical en h cs -> events_bytes en es = Ok bs.
Proof.
  induction 1 as [h|h id p cs k e es H1 H2 H3 H4 IH]; intros bs Hb HF HC.
  - inversion HF; reflexivity.
  - inversion HF as [|c' cs' b bs' Hc HF' E1 E2]; subst.
    apply is_bytes_app in Hb. destruct Hb as [Hb1 Hb2].
    destruct HC as [(k' & Hk' & Hcan) HC]. rewrite H1 in Hk'. injection Hk' as <-.
    cbn [events_bytes].
    assert (Hp : is_bytes p) by apply (chunk_payload_bytes _ _ _ Hb1 Hc).
    assert (Hid : 0 <= id < 256) by apply (chunk_id _ _ _ Hc).
    destruct (mk_event_inv _ _ _ _ _ H3) as (v & r & _ & He & _).
    assert (Heid : e_id e = id) by (rewrite He; reflexivity).
    rewrite event_bytes_eq by (rewrite Heid; exact Hid).
    rewrite (proj2 (payload_canonical _ _ _ _ _ Hp H3) Hcan). cbn [bind]. rewrite Heid.
    rewrite (IH bs' Hb2 HF' HC). cbn [bind]. do 2 f_equal.
    inversion Hc as [id0 p0 Hr Hw E1 E2|id0 p0 pre m Hr Hpre Hm E1 E2]; subst id0 p0 b.
    + replace (id <? 192) with true by lia. reflexivity.
    + replace (id <? 192) with false by lia. f_equal. f_equal.
      specialize (Hm eq_refl). subst m. apply is_bytes_cons in Hb1. destruct Hb1 as [_ Hb1].
      apply is_bytes_app in Hb1. destruct Hb1 as [Hb1 _].
      apply lenprefix_min in Hpre; [|exact Hb1]. symmetry. apply Hpre.
Qed.

Lemma events_null_l en h cs es : reads en h cs es -> forall bs, is_bytes bs -> framed_cut cs bs ->
  events_bytes en es = Ok bs -> framed true cs bs /\ payloads_canonical en h cs.
Proof.
  induction 1 as [h|h id p cs k e es H1 H2 H3 H4 IH]; intros bs Hb HF HE.
  - cbn [events_bytes] in HE. injection HE as <-. split; constructor.
  - cbn [events_bytes] in HE. inv_bind HE. inv_bind HE. injection HE as HE.
    destruct (mk_event_inv _ _ _ _ _ H3) as (v & r & _ & He & _).
    assert (Heid : e_id e = id) by (rewrite He; reflexivity).
    destruct (framed_cut_inv _ _ _ HF) as [(b & bs' & -> & Hc & HF')|[-> Hc]].
    + apply is_bytes_app in Hb. destruct Hb as [Hb1 Hb2].
      assert (Hp : is_bytes p) by apply (chunk_payload_bytes _ _ _ Hb1 Hc).
      assert (Hid : 0 <= id < 256) by apply (chunk_id _ _ _ Hc).
      rewrite event_bytes_eq in E by (rewrite Heid; exact Hid). inv_bind E. injection E as <-.
      rewrite Heid in HE.
      cut (x1 = p /\ x0 = bs' /\ chunk_bytes true (id, p) b).
      { intros (-> & -> & Hct). destruct (IH bs' Hb2 HF' E0) as [IH1 IH2].
        split; [constructor; assumption|]. split; [|exact IH2].
        exists k. split; [exact H1|]. apply (payload_canonical _ _ _ _ _ Hp H3). exact E1. }
      inversion Hc as [id0 p0 Hr Hw X1 X2|id0 p0 pre m Hr Hpre Hm X1 X2]; subst id0 p0 b.
      * replace (id <? 192) with true in HE by lia. cbn [app] in HE. injection HE as HE.
        destruct (class_fixed _ _ _ _ _ Hr H1) as [Hk Hkw].
        pose proof (payload_width _ _ _ _ _ _ Hk Hp H3 E1) as Hx.
        apply app_inj_len in HE; [|unfold zlen in *; lia]. destruct HE as [-> ->].
        repeat split. apply CFixed; assumption.
      * replace (id <? 192) with false in HE by lia. cbn [app] in HE. injection HE as HE.
        apply is_bytes_cons in Hb1. destruct Hb1 as [_ Hb1]. apply is_bytes_app in Hb1. destruct Hb1 as [Hb1 _].
        destruct (lenprefix_dec _ _ _ _ Hb1 Hpre) as [V Hn].
        rewrite <- !app_assoc in HE.
        assert (V2 : varint_dec (varint_enc (zlen x1) ++ x1 ++ x0) = Ok (zlen x1, x1 ++ x0))
          by (apply varint_dec_enc, zlen_nonneg).
        rewrite HE in V2. rewrite <- (app_nil_r pre) in V. rewrite (varint_dec_app _ _ _ (p ++ bs') V) in V2.
        injection V2 as Hlen Htl. rewrite <- Hlen, <- Htl in HE.
        symmetry in Htl. apply app_inj_len in Htl; [|unfold zlen in *; lia]. destruct Htl as [-> ->].
        apply app_inv_tail in HE. repeat split. apply CVar with true; [exact Hr| |reflexivity].
        apply lenprefix_min; [exact Hb1|]. split; [exact Hn|]. symmetry. exact HE.
    + exfalso. inversion Hc as [id0 cut pre n m Hr Hpre Hlt X1 X2]; subst id0 cut. rewrite <- X2 in HE, Hb. clear X2.
      rewrite event_bytes_eq in E by (rewrite Heid; lia). inv_bind E. injection E as <-.
      rewrite Heid in HE. replace (id <? 192) with false in HE by lia. cbn [app] in HE. injection HE as HE.
      apply is_bytes_cons in Hb. destruct Hb as [_ Hb]. apply is_bytes_app in Hb. destruct Hb as [Hb _].
      destruct (lenprefix_dec _ _ _ _ Hb Hpre) as [V Hn].
      rewrite <- !app_assoc in HE.
      assert (V2 : varint_dec (varint_enc (zlen x1) ++ x1 ++ x0) = Ok (zlen x1, x1 ++ x0))
        by (apply varint_dec_enc, zlen_nonneg).
      rewrite HE in V2. rewrite <- (app_nil_r pre) in V. rewrite (varint_dec_app _ _ _ p V) in V2.
      injection V2 as Hlen Htl. apply (f_equal (@zlen Z)) in Htl. rewrite zlen_app in Htl.
      pose proof (zlen_nonneg _ x0). lia.
Qed.

Lemma reads_ids en h cs es : reads en h cs es -> map e_id es = map fst cs.
Proof.
  induction 1 as [|h id p cs k e es H1 H2 H3 H4 IH]; [reflexivity|]. cbn [map fst].
  destruct (mk_event_inv _ _ _ _ _ H3) as (v & r & _ & -> & _). rewrite IH. reflexivity.
Qed.
Lemma count_ids id cs es : map e_id es = map fst cs -> count_id id es = count_chunks id cs.
Proof.
  unfold count_id, count_chunks, zlen. intros H. f_equal. revert cs H.
  induction es as [|e es IH]; intros [|[i p] cs] H; try discriminate; [reflexivity|].
  cbn [map fst] in H. injection H as H1 H2. cbn [filter fst]. rewrite H1.
  destruct (i =? id); cbn [length]; rewrite (IH cs H2); reflexivity.
Qed.

Lemma serialise_eq en p : serialise en p =
  let* n := num_channels (pr_events p) in
  if negb ((-32768 <=? pr_format p) && (pr_format p <? 32768)) then Err StructError
  else if negb (n <? 65536) then Err StructError
  else if negb ((0 <=? pr_ppq p) && (pr_ppq p <? 65536)) then Err StructError
  else let* body := events_bytes en (pr_events p) in
       if negb (zlen body <? 2 ^ 32) then Err OverflowError
       else Ok (file_bytes (pr_format p) n (pr_ppq p) body).
Proof.
  unfold serialise, file_bytes. destruct (num_channels _) as [n|]; cbn [bind]; [|reflexivity].
  destruct (negb _); [reflexivity|]. destruct (negb _); [reflexivity|]. destruct (negb _); [reflexivity|].
  destruct (events_bytes _ _) as [body|]; cbn [bind]; [|reflexivity].
  destruct (negb _); [reflexivity|]. rewrite !le_spec. rewrite <- !app_assoc. reflexivity.
Qed.

Lemma file_bytes_inj f c q b f' c' q' b' :
  -32768 <= f < 32768 -> -32768 <= f' < 32768 -> 0 <= c < 65536 -> 0 <= c' < 65536 ->
  0 <= q < 65536 -> 0 <= q' < 65536 ->
  file_bytes f c q b = file_bytes f' c' q' b' -> f = f' /\ c = c' /\ q = q' /\ b = b'.
Proof.
  intros F F' C C' Q Q' H. unfold file_bytes in H. rewrite !le_spec in H.
  apply app_inv_head in H. apply app_inv_head in H.
  apply app_inj_len in H; [|rewrite !le_enc_length; reflexivity]. destruct H as [Hf H].
  apply app_inj_len in H; [|rewrite !le_enc_length; reflexivity]. destruct H as [Hc H].
  apply app_inj_len in H; [|rewrite !le_enc_length; reflexivity]. destruct H as [Hq H].
  apply app_inv_head in H.
  apply app_inj_len in H; [|rewrite !le_enc_length; reflexivity]. destruct H as [_ H].
  apply (f_equal (fun d => to_signed 2 (le_dec d))) in Hf.
  rewrite !signed_dec_enc in Hf by (change (256 ^ Z.of_nat 2) with 65536; lia).
  apply (f_equal le_dec) in Hc, Hq.
  rewrite !le_dec_enc in Hc, Hq by (change (256 ^ Z.of_nat 2) with 65536; lia). auto.
Qed.

Theorem null_test en f p : is_bytes f -> parse en f = Ok p ->
  (serialise en p = Ok f <-> canonical_file en f).
Proof.
  intros Hb H. destruct (parse_ok _ _ _ Hb H) as (fmt & ch & q & body & es & Ef & HG & HB & HL & ->).
  destruct (loop_any _ _ _ _ _ _ st_ok_init HB HL) as (cs & HF & HR).
  pose proof (reads_ids _ _ _ _ HR) as Hids.
  destruct HG as (G1 & G2 & G3 & G4). pose proof (formats_range _ G1). pose proof (ppqs_range _ G2).
  rewrite serialise_eq. cbn [pr_events pr_format pr_ppq]. unfold num_channels. rewrite (count_ids 64 cs es Hids).
  assert (Hcn : 0 <= count_chunks 64 cs) by apply zlen_nonneg. split.
  - intros HS. destruct (Z.eqb_spec (count_chunks 64 cs) 0); [discriminate|]. cbn [bind] in HS.
    replace ((-32768 <=? fmt) && (fmt <? 32768)) with true in HS by lia. cbn [negb] in HS.
    destruct (Z.ltb_spec (count_chunks 64 cs) 65536); [|discriminate]. cbn [negb] in HS.
    replace ((0 <=? q) && (q <? 65536)) with true in HS by lia. cbn [negb] in HS.
    inv_bind HS. destruct (zlen x <? 2 ^ 32); [|discriminate]. cbn [negb] in HS. apply Ok_inj in HS.
    rewrite Ef in HS. apply file_bytes_inj in HS; try lia. destruct HS as (_ & Hc & _ & ->).
    destruct (events_null_l _ _ _ _ HR body HB HF E) as [HT HC].
    exists fmt, ch, q, body, cs. split; [exact Ef|]. split; [repeat split; auto; lia|].
    split; [exact HT|]. split; [exact HC|]. lia.
  - intros (fmt' & ch' & q' & body' & cs' & Ef' & (G1' & G2' & G3' & G4') & HT & HC & Hch & Hnz).
    rewrite Ef' in Ef. pose proof (formats_range _ G1'). pose proof (ppqs_range _ G2').
    apply file_bytes_inj in Ef; try lia. destruct Ef as (-> & -> & -> & ->).
    assert (HT0 : framed false cs' body).
    { clear - HT. induction HT as [|c cs b bs Hc HF IH]; constructor; [|exact IH].
      destruct Hc; [apply CFixed; assumption|apply CVar with m; [assumption|assumption|discriminate]]. }
    assert (HR' : reads en [] cs' es).
    { apply (loop_framed en cs' _ _ _ _ _ st_ok_init HB) in HL; auto. 
      assert (2 ^ 32 < 2 ^ 63) by reflexivity. lia. }
    assert (Hcc : count_chunks 64 cs = count_chunks 64 cs').
    { rewrite <- (count_ids 64 cs es Hids). apply count_ids. apply (reads_ids _ _ _ _ HR'). }
    rewrite Hcc, <- Hch. replace (ch =? 0) with false by lia. cbn [bind].
    replace ((-32768 <=? fmt) && (fmt <? 32768)) with true by lia.
    replace (ch <? 65536) with true by lia. replace ((0 <=? q) && (q <? 65536)) with true by lia. cbn [negb].
    rewrite (events_null_r _ _ _ _ HR' body HB HT HC). cbn [bind].
    replace (zlen body <? 2 ^ 32) with true by lia. cbn [negb]. rewrite Ef'. reflexivity.
Qed.
