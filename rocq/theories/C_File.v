(* Properties of whole files: C01-C05, C11-C14. *)
From Coq Require Import String ZArith List Bool Lia.
From Verif Require Import M_Base M_Text M_Construct M_Structs M_Events M_Parse M_Save.
From Verif Require Import S_Canon S_File S_Domain P_Base P_Codec P_Payload P_File P_Null P_Err P_Save P_Domain P_Class.
From Verif Require Import C_Samples.
Import ListNotations.
Open Scope Z_scope.

(* ---- C01 ---- *)
Theorem C01_null_test en f p : is_bytes f -> parse en f = Ok p ->
  (serialise en p = Ok f <-> canonical_file en f).
Proof. exact (null_test en f p). Qed.
Print Assumptions C01_null_test.

Example C01_canonical : canonical_file en0 f0 /\ exists p, parse en0 f0 = Ok p /\ serialise en0 p = Ok f0.
Proof. split; [exact canonical0|]. eexists. split; [vm_compute; reflexivity|]. vm_compute; reflexivity. Qed.
(* a file that loads but comes back different: a truth value stored as 2 *)
Example C01_not_canonical : exists f p g, parse en0 f = Ok p /\ serialise en0 p = Ok g /\ g <> f.
Proof.
  exists (file_bytes 0 1 96 ([64; 0; 0] ++ [0; 2])). do 2 eexists.
  split; [vm_compute; reflexivity|]. split; [vm_compute; reflexivity|]. vm_compute. discriminate.
Qed.

(* ---- C02 ---- *)
Theorem C02_save_load en p cs :
  encodes en [] (pr_events p) cs -> Forall (fun e => 0 <= e_id e < 256) (pr_events p) ->
  In (pr_format p) formats -> In (pr_ppq p) ppqs ->
  1 <= count_chunks 64 cs < 65536 -> chunks_size cs < 2 ^ 32 ->
  exists f es', serialise en p = Ok f /\
    parse en f = Ok (Project es' (count_chunks 64 cs) (pr_format p) (pr_ppq p)) /\
    Forall2 same_event (pr_events p) es'.
Proof. exact (save_load en p cs). Qed.
Print Assumptions C02_save_load.
(* the values that satisfy the premise of [encodes], for the classes without
   inner structure: exactly those of S_Domain *)
Theorem C02_scalar_values en k id v : scalar_kind k = true -> 0 <= id < 256 -> allowed_id k id = true ->
  (k = KUnknown -> 192 <= id) ->
  ((exists L w p e, payload en (Event id k L w v) = Ok p /\ is_bytes p /\ mk_event en k id p = Ok e /\ e_val e = v)
   <-> domain k v).
Proof. exact (domain_exact en k id v). Qed.
Print Assumptions C02_scalar_values.
(* ... and for every class: whatever a canonical payload is read as *)
Theorem C02_all_values en k id data e : is_bytes data -> mk_event en k id data = Ok e ->
  (payload en e = Ok data <-> canonical_payload en k data = true).
Proof. exact (payload_canonical en k id data e). Qed.
Print Assumptions C02_all_values.

Definition edited : project :=   (* the sample with another title and another unknown payload *)
  match parse en0 f0 with
  | Ok p => Project (map (fun e => if e_id e =? 194 then Event 194 KUnicode 10 false (VStr [76; 111; 128521])
                                   else if e_id e =? 222 then Event 222 KUnknown 3 false (VBytes (repeat 7 300)) else e)
                         (pr_events p)) 0 16 960
  | Err _ => Project [] 0 0 0
  end.
Example C02_case : exists cs, encodes en0 [] (pr_events edited) cs /\
  Forall (fun e => 0 <= e_id e < 256) (pr_events edited) /\ count_chunks 64 cs = 1 /\ chunks_size cs = 376.
Proof.
  let x := eval vm_compute in (pr_events edited) in change (pr_events edited) with x.
  eexists. split; [|split; [|split]].
  - repeat (eapply ECons; [vm_compute; reflexivity|apply bytes_check; vm_compute; reflexivity|vm_compute; reflexivity
      |vm_compute; discriminate|vm_compute; reflexivity|repeat split|]). apply ENil.
  - repeat constructor; cbn [e_id]; lia.
  - vm_compute. reflexivity.
  - vm_compute. reflexivity.
Qed.

(* ---- C03 ---- *)
Theorem C03_framing en fmt ch q cs body : good_header fmt ch q body -> is_bytes body -> framed false cs body ->
  forall p, parse en (file_bytes fmt ch q body) = Ok p <->
    exists es, reads en [] cs es /\ p = Project es ch fmt q.
Proof. exact (parse_chunks en fmt ch q cs body). Qed.
Print Assumptions C03_framing.
(* read event by event *)
Theorem C03_pointwise en fmt ch q cs body p :
  good_header fmt ch q body -> is_bytes body -> framed false cs body ->
  parse en (file_bytes fmt ch q body) = Ok p ->
  length (pr_events p) = length cs /\
  forall i id data, nth_error cs i = Some (id, data) -> exists e k,
    nth_error (pr_events p) i = Some e /\ e_id e = id /\ e_kind e = k /\
    class_of en ((id, data) :: rev (firstn i cs)) = Some k /\
    mk_event en k id data = Ok e.
Proof.
  intros HG HB HF HP. apply (parse_chunks en fmt ch q cs body HG HB HF) in HP. destruct HP as (es & HR & ->).
  cbn [pr_events]. destruct (reads_nth _ _ _ _ HR) as [HL HN]. split; [exact HL|].
  intros i id data Hc. destruct (HN i id data Hc) as (e & k & E1 & E2 & E3 & E4 & E5). exists e, k.
  rewrite app_nil_r in E2. repeat split; assumption.
Qed.
Print Assumptions C03_pointwise.
Example C03_case : good_header 0 1 96 body0 /\ framed true cs0 body0 /\
  exists p, parse en0 f0 = Ok p /\ map e_id (pr_events p) = [199; 64; 21; 194; 201; 213; 209; 180; 222] /\
    map e_kind (pr_events p) = [KAscii; KU16; KU8; KUnicode; KUnicode; KBooBass; KDelay; KU32; KUnknown].
Proof. split; [exact header0|]. split; [exact framed0|]. eexists. split; [vm_compute; reflexivity|]. split; vm_compute; reflexivity. Qed.

(* ---- C04 ---- *)
Theorem C04_header en f : is_bytes f -> (parse en f = Err HeaderCorrupted <-> ~ valid_file f).
Proof. exact (header_exact en f). Qed.
Print Assumptions C04_header.
(* no event is looked at before the header is accepted *)
Theorem C04_no_event_first en en' f : is_bytes f -> ~ valid_file f -> parse en f = parse en' f.
Proof. intros Hb H. rewrite (proj2 (header_exact en f Hb) H), (proj2 (header_exact en' f Hb) H). reflexivity. Qed.
Print Assumptions C04_no_event_first.
Example C04_cases : valid_file f0 /\ ~ valid_file [] /\ ~ valid_file (removelast f0) /\
  ~ valid_file (file_bytes 0 1 97 body0) /\ ~ valid_file (file_bytes 1 1 96 body0).
Proof.
  split; [exists 0, 1, 96, body0; split; [reflexivity|exact header0]|].
  repeat split; apply (C04_header en0); try (apply bytes_check; vm_compute; reflexivity); vm_compute; reflexivity.
Qed.

(* ---- C05 ---- *)
Theorem C05_saved_header en p f : Forall (fun e => 0 <= e_id e < 256) (pr_events p) -> serialise en p = Ok f ->
  exists body, f = file_bytes (pr_format p) (count_id 64 (pr_events p)) (pr_ppq p) body /\
    1 <= count_id 64 (pr_events p) < 65536 /\ 0 < zlen body < 2 ^ 32 /\
    (In (pr_format p) formats -> In (pr_ppq p) ppqs -> valid_file f /\ forall en', parse en' f <> Err HeaderCorrupted).
Proof.
  intros Hid H. rewrite serialise_eq in H. inv_bind H. rewrite num_channels_spec in E.
  destruct (Z.eqb_spec (count_id 64 (pr_events p)) 0) as [|Hn]; [discriminate|]. injection E as <-.
  destruct (_ && _); [|discriminate]. cbn [negb] in H.
  destruct (Z.ltb_spec (count_id 64 (pr_events p)) 65536) as [Hc|]; [|discriminate]. cbn [negb] in H.
  destruct (_ && _); [|discriminate]. cbn [negb] in H. inv_bind H.
  destruct (Z.ltb_spec (zlen x) (2 ^ 32)) as [Hb|]; [|discriminate]. cbn [negb] in H. injection H as <-.
  exists x. split; [reflexivity|]. assert (0 <= count_id 64 (pr_events p)) by apply zlen_nonneg. split; [lia|].
  assert (Hpos : 0 < zlen x).
  { destruct (pr_events p) as [|e es]; [exfalso; apply Hn; reflexivity|]. inversion Hid as [|e0 es0 Hi Hid']; subst.
    clear - E Hi. rename x into body, E into E1. cbn [events_bytes] in E1. inv_bind E1. rewrite event_bytes_eq in E by exact Hi.
    inv_bind E1. injection E1 as <-. rewrite zlen_app. pose proof (zlen_nonneg _ x0) as L0.
    inv_bind E. injection E as <-. destruct (e_id e <? 192); rewrite zlen_cons; pose proof (zlen_nonneg _ x1);
      rewrite ?zlen_app; [|pose proof (zlen_nonneg _ (varint_enc (zlen x1)))]; lia. }
  split; [lia|]. intros Hf Hq.
  assert (HG : good_header (pr_format p) (count_id 64 (pr_events p)) (pr_ppq p) x).
  { split; [exact Hf|]. split; [exact Hq|]. split; [lia|lia]. }
  assert (HV : valid_file (file_bytes (pr_format p) (count_id 64 (pr_events p)) (pr_ppq p) x)) by (do 4 eexists; split; [reflexivity|exact HG]).
  split; [exact HV|]. intros en' X. destruct (parse_good_header en' _ _ _ _ HG X).
Qed.
Print Assumptions C05_saved_header.
Example C05_case : exists f, serialise en0 edited = Ok f /\ firstn 22 f =
  [70; 76; 104; 100; 6; 0; 0; 0; 16; 0; 1; 0; 192; 3; 70; 76; 100; 116; 120; 1; 0; 0].
Proof. eexists. split; [vm_compute; reflexivity|]. vm_compute; reflexivity. Qed.

(* ---- C11 ---- *)
(* ids without registered class that are neither text nor plugin data *)
Definition unknown_id (en : env) (id : Z) : Prop :=
  registered en id = None /\ (id < 192 \/ (text_id id = false /\ id <> 213)).
Theorem C11_unknown_kept en fmt ch q cs body p g :
  good_header fmt ch q body -> is_bytes body -> framed false cs body ->
  parse en (file_bytes fmt ch q body) = Ok p -> serialise en p = Ok g ->
  exists ch' body' cs', g = file_bytes fmt ch' q body' /\ framed true cs' body' /\
    map fst cs' = map fst cs /\
    forall i id data, nth_error cs i = Some (id, data) -> unknown_id en id -> nth_error cs' i = Some (id, data).
Proof.
  intros HG HB HF HP HS. apply (parse_chunks en fmt ch q cs body HG HB HF) in HP. destruct HP as (es & HR & ->).
  rewrite serialise_eq in HS. cbn [pr_events pr_format pr_ppq] in HS. inv_bind HS.
  destruct (_ && _); [|discriminate]. cbn [negb] in HS. destruct (x <? 65536); [|discriminate]. cbn [negb] in HS.
  destruct (_ && _); [|discriminate]. cbn [negb] in HS. inv_bind HS. destruct (_ <? _); [|discriminate]. injection HS as <-.
  assert (HC : Forall (fun c => 0 <= fst c < 256) cs /\ Forall (fun c => is_bytes (snd c)) cs).
  { clear - HF HB. induction HF as [|c cs b bs Hc HF IH]; [split; constructor|]. apply is_bytes_app in HB. destruct HB as [B1 B2].
    destruct (IH B2). split; constructor; auto; [apply (chunk_id _ _ _ Hc)|apply (chunk_payload_bytes _ _ _ B1 Hc)]. }
  destruct (raw_kept en cs es x0 HR (proj1 HC) (proj2 HC) E0) as (cs' & F1 & F2 & F3).
  exists x, x0, cs'. split; [reflexivity|]. split; [exact F1|]. split; [exact F2|].
  intros i id data Hn [U1 U2]. apply F3; [exact Hn|]. cbn [fst]. unfold raw_class. rewrite U1.
  destruct U2 as [U2|[U2 U3]]; [replace (id <? 192) with true by lia; reflexivity|]. rewrite U2.
  replace (id =? 213) with false by lia. apply orb_true_r.
Qed.
Print Assumptions C11_unknown_kept.
(* their value is the payload itself *)
Theorem C11_unknown_value en id data k e h : 0 <= id < 256 -> unknown_id en id -> is_bytes data ->
  class_of en ((id, data) :: h) = Some k -> mk_event en k id data = Ok e ->
  e_val e = (if id <? 192 then VInt (u_le data) else VBytes data) /\ e_id e = id.
Proof.
  intros Hid [U1 U2] Hb Hk HM. pose proof HM as HM'.
  assert (Hr : raw_class en id = true).
  { unfold raw_class. rewrite U1. destruct U2 as [U2|[U2 U3]]; [replace (id <? 192) with true by lia; reflexivity|]. rewrite U2.
    replace (id =? 213) with false by lia. apply orb_true_r. }
  pose proof (raw_kind _ _ _ _ _ Hid Hr Hk) as ->.
  destruct (mk_event_inv _ _ _ _ _ HM) as (v & r & E & -> & _ & Hs). cbn [e_val e_id]. split; [|reflexivity].
  destruct (Z.ltb_spec id 192) as [Hl|Hl].
  - specialize (Hs Hl). rewrite P_Cells.u_le_dec.
    destruct (id <? 64); [|destruct (id <? 128)]; cbn [kcon] in E; unfold Int8ul, Int16ul, Int32ul in E.
    all: destruct (P_Special.plain_inv _ _ _ _ _ _ _ (P_Cells.plain_uint _) Hb E) as (d & -> & Hl1 & _ & ->);
      rewrite zlen_app in Hs; unfold zlen in Hs at 1; rewrite Hl1 in Hs; pose proof (zlen_nonneg _ r);
      assert (Hr0 : r = []) by (destruct r; [reflexivity|rewrite zlen_cons in Hs; pose proof (zlen_nonneg _ r); lia]);
      subst r; rewrite app_nil_r; reflexivity.
  - replace (id <? 64) with false in E by lia. replace (id <? 128) with false in E by lia.
    cbn [kcon GreedyBytes cparse] in E. injection E as <- <-. reflexivity.
Qed.
Print Assumptions C11_unknown_value.
Example C11_case : unknown_id en0 222 /\ unknown_id en0 180 /\ nth_error cs0 8 = Some (222, [9; 8; 7]).
Proof. repeat split; try reflexivity; [right; split; [reflexivity|discriminate]|left; reflexivity]. Qed.

(* ---- C12 (violated) ---- *)
(* a file whose last chunk announces n bytes but holds fewer loads exactly like
   the file in which that chunk is complete with the bytes that are there *)
Theorem C12_cut_accepted en fmt ch q cs b1 id pre n m cut :
  let body := b1 ++ id :: pre ++ cut in
  good_header fmt ch q body -> is_bytes body -> framed false cs b1 -> 192 <= id < 256 ->
  lenprefix pre = Some (n, m, []) -> zlen cut < n < 2 ^ 63 ->
  forall p, parse en (file_bytes fmt ch q body) = Ok p <->
    exists es, reads en [] (cs ++ [(id, cut)]) es /\ p = Project es ch fmt q.
Proof. exact (parse_cut en fmt ch q cs b1 id pre n m cut). Qed.
Print Assumptions C12_cut_accepted.
(* and nothing else than the data of the last chunk may be cut *)
Theorem C12_nothing_else en f p : is_bytes f -> parse en f = Ok p ->
  exists fmt ch q body cs, f = file_bytes fmt ch q body /\ good_header fmt ch q body /\
    framed_cut cs body /\ reads en [] cs (pr_events p).
Proof.
  intros Hb H. destruct (parse_ok _ _ _ Hb H) as (fmt & ch & q & body & es & Ef & HG & HB & HL & ->).
  destruct (loop_any _ _ _ _ _ _ st_ok_init HB HL) as (cs & HF & HR). exists fmt, ch, q, body, cs. auto.
Qed.
Print Assumptions C12_nothing_else.
(* the property fails: such a file loads, and saving it silently changes it *)
Theorem C12_refuted : exists en f cs c b1 b p g, is_bytes f /\ f = file_bytes 0 1 96 (b1 ++ b) /\
  framed true cs b1 /\ cut_chunk c b /\ parse en f = Ok p /\ serialise en p = Ok g /\ g <> f.
Proof.
  exists en0. pose (c1 := [(64, [0; 0])]). exists (file_bytes 0 1 96 ([64; 0; 0] ++ [222; 5; 1; 2])).
  exists c1, (222, [1; 2]), [64; 0; 0], [222; 5; 1; 2]. do 2 eexists.
  split; [apply bytes_check; vm_compute; reflexivity|]. split; [reflexivity|].
  split; [apply (enc_framed c1); reflexivity|].
  split; [apply (Cut 222 [1; 2] [5] 5 true); [lia|reflexivity|reflexivity]|].
  split; [vm_compute; reflexivity|]. split; [vm_compute; reflexivity|]. vm_compute. discriminate.
Qed.
Print Assumptions C12_refuted.

(* ---- C13 ---- *)
Theorem C13_failed_save en p old sizes e : snd (save_states en p old sizes) = Err e ->
  forall s, In s (fst (save_states en p old sizes)) -> s = old.
Proof.
  unfold save_states. destruct (serialise en p); cbn [fst snd]; [discriminate|]. intros _ s [<-|[]]. reflexivity.
Qed.
Print Assumptions C13_failed_save.
(* [i]: number of steps done before the crash; pieces of any size *)
Theorem C13_crash_points en p old sizes : snd (save_states en p old sizes) = Ok tt ->
  exists f, serialise en p = Ok f /\
  (forall i s, nth_error (fst (save_states en p old sizes)) i = Some s ->
     (i = 0%nat /\ s = old) \/ ((0 < i)%nat /\ exists k, s = Some (firstn k f))) /\
  last (fst (save_states en p old sizes)) None = Some f.
Proof.
  unfold save_states. destruct (serialise en p) as [f|]; cbn [fst snd]; [|discriminate]. intros _. exists f. split; [reflexivity|]. split.
  - intros [|[|i]] s H; cbn [nth_error] in H.
    + left. injection H as <-. auto.
    + right. injection H as <-. split; [apply le_n_S, Nat.le_0_l|]. exists 0%nat. reflexivity.
    + right. split; [apply le_n_S, Nat.le_0_l|]. apply nth_error_In in H. destruct (appends_prefix _ _ _ H) as [k ->].
      rewrite pieces_concat. exists k. reflexivity.
  - change (last (Some [] :: appends [] (pieces sizes f)) None = Some f). rewrite appends_last, pieces_concat. reflexivity.
Qed.
Print Assumptions C13_crash_points.
(* the old contents are gone before the new ones are complete *)
Example C13_not_atomic : exists p s, snd (save_states en0 p (Some [1; 2; 3]) [10%nat]) = Ok tt /\
  In s (fst (save_states en0 p (Some [1; 2; 3]) [10%nat])) /\
  s <> Some [1; 2; 3] /\ (forall f, serialise en0 p = Ok f -> s <> Some f).
Proof.
  exists edited, (Some []). split; [vm_compute; reflexivity|]. split; [vm_compute; right; left; reflexivity|].
  split; [discriminate|]. intros f H. vm_compute in H. injection H as <-. discriminate.
Qed.
Example C13_fails : exists p e, snd (save_states en0 p (Some [1; 2; 3]) []) = Err e.
Proof. exists (Project [] 0 0 96), NoModelsFound. reflexivity. Qed.

(* ---- C14 ---- *)
Theorem C14_count_ignored en es n n' fmt q : serialise en (Project es n fmt q) = serialise en (Project es n' fmt q).
Proof. reflexivity. Qed.
Print Assumptions C14_count_ignored.
Theorem C14_no_channels en p : (forall e, In e (pr_events p) -> e_id e <> 64) ->
  serialise en p = Err NoModelsFound.
Proof.
  intros H. unfold serialise. rewrite num_channels_spec.
  assert (count_id 64 (pr_events p) = 0) as ->.
  { unfold count_id. replace (filter _ _) with (@nil event); [reflexivity|]. symmetry.
    induction (pr_events p) as [|e es IH]; [reflexivity|]. cbn [filter].
    replace (e_id e =? 64) with false by (specialize (H e (or_introl eq_refl)); lia). apply IH. intros x Hx. apply H. right. exact Hx. }
  reflexivity.
Qed.
Print Assumptions C14_no_channels.
Theorem C14_count_written en p f : serialise en p = Ok f ->
  slice 10 2 f = le 2 (zlen (filter (fun e => e_id e =? 64) (pr_events p))) /\
  0 < zlen (filter (fun e => e_id e =? 64) (pr_events p)) < 65536.
Proof.
  intros H. rewrite serialise_eq in H. inv_bind H. rewrite num_channels_spec in E.
  destruct (Z.eqb_spec (count_id 64 (pr_events p)) 0) as [|Hn]; [discriminate|]. injection E as <-.
  destruct (_ && _); [|discriminate]. cbn [negb] in H.
  destruct (Z.ltb_spec (count_id 64 (pr_events p)) 65536) as [Hc|]; [|discriminate]. cbn [negb] in H.
  destruct (_ && _); [|discriminate]. cbn [negb] in H. inv_bind H.
  destruct (Z.ltb_spec (zlen x) (2 ^ 32)) as [Hb|]; [|discriminate]. cbn [negb] in H. injection H as <-.
  split.
  - unfold file_bytes. rewrite !le_spec.
    destruct (slices magic_header (le_enc 4 6) (le_enc 2 (pr_format p)) (le_enc 2 (count_id 64 (pr_events p))) (le_enc 2 (pr_ppq p))
             magic_data (le_enc 4 (zlen x)) x) as (_ & _ & _ & S3 & _); try reflexivity; exact S3.
  - assert (0 <= count_id 64 (pr_events p)) by apply zlen_nonneg. unfold count_id in *. lia.
Qed.
Print Assumptions C14_count_written.
Example C14_case : exists f, serialise en0 edited = Ok f /\ slice 10 2 f = [1; 0] /\ pr_channel_count edited = 0.
Proof. eexists. split; [vm_compute; reflexivity|]. split; vm_compute; reflexivity. Qed.
