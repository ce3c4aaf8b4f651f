(* Several changed events, saved and loaded again. *)
From Coq Require Import String ZArith List Bool Lia Arith.
From Verif Require Import M_Base M_Text M_Construct M_Structs M_Events M_Parse M_Tree M_Prop.
From Verif Require Import S_Canon S_File S_Domain S_Tree S_Prop P_Base P_Codec P_Payload P_File P_Null P_Save P_Domain.
From Verif Require Import P_TreeBase P_Tree P_TreeEdit P_Prop P_Edit.
Import ListNotations.
Open Scope Z_scope.

(* [rewrites en h es cs es']: the events [es] are written as the chunks [cs], which are read after [h] as [es'] *)
Inductive rewrites (en : env) : list chunk -> list event -> list chunk -> list event -> Prop :=
| WNil h : rewrites en h [] [] []
| WCons h e es p cs e' es' :
    payload en e = Ok p -> is_bytes p ->
    class_of en ((e_id e, p) :: h) = Some (e_kind e) ->
    (e_id e = 199 -> version_numbers p <> None) ->
    mk_event en (e_kind e) (e_id e) p = Ok e' ->
    rewrites en ((e_id e, p) :: h) es cs es' ->
    rewrites en h (e :: es) ((e_id e, p) :: cs) (e' :: es').

Lemma rewrites_ids en h es cs es' : rewrites en h es cs es' -> map e_id es = map fst cs.
Proof. induction 1; [reflexivity|]. cbn [map fst]. congruence. Qed.

Lemma rewrites_bytes en h es cs es' : rewrites en h es cs es' -> Forall (fun e => 0 <= e_id e < 256) es ->
  exists body, events_bytes en es = Ok body /\ framed true cs body /\ is_bytes body /\ zlen body = chunks_size cs.
Proof.
  induction 1 as [h|h e es p cs e' es' HP HB HC HV HM HE IH]; intros Hid.
  - exists []. split; [reflexivity|]. split; [constructor|]. split; [constructor|reflexivity].
  - inversion Hid as [|e0 es0 Hi Hid']; subst. destruct (IH Hid') as (body & E1 & E2 & E3 & E4).
    cbn [events_bytes]. rewrite (event_bytes_eq en e Hi), HP. cbn [bind]. rewrite E1. cbn [bind].
    eexists. split; [reflexivity|]. pose proof (zlen_nonneg _ p) as Hp.
    unfold chunks_size in *. cbn [map fold_right]. unfold chunk_size at 1. cbn [fst snd].
    destruct (Z.ltb_spec (e_id e) 192) as [Hl|Hl].
    + pose proof (mk_id_range _ _ _ _ _ HM Hl) as Hw.
      split; [constructor; [apply CFixed; [lia|exact Hw]|exact E2]|].
      split; [apply is_bytes_app; split; [apply is_bytes_cons; split; [exact Hi|exact HB]|exact E3]|].
      rewrite zlen_app, zlen_cons. lia.
    + split; [constructor; [|exact E2]|].
      { apply CVar with true; [lia| |reflexivity]. apply lenprefix_min; [apply varint_enc_bytes; lia|]. split; [lia|reflexivity]. }
      split.
      { apply is_bytes_app; split; [|exact E3]. apply is_bytes_cons. split; [exact Hi|]. apply is_bytes_app. split; [apply varint_enc_bytes; lia|exact HB]. }
      rewrite zlen_app, zlen_cons, zlen_app, varint_len by lia. lia.
Qed.

Lemma rewrites_reads en h es cs es' : rewrites en h es cs es' -> reads en h cs es'.
Proof.
  induction 1 as [h|h e es p cs e' es' HP HB HC HV HM HE IH]; [constructor|].
  apply RCons with (e_kind e); assumption.
Qed.

Theorem rewrite_load en p cs es' :
  rewrites en [] (pr_events p) cs es' -> Forall (fun e => 0 <= e_id e < 256) (pr_events p) ->
  In (pr_format p) formats -> In (pr_ppq p) ppqs ->
  1 <= count_chunks 64 cs < 65536 -> chunks_size cs < 2 ^ 32 ->
  exists f, serialise en p = Ok f /\
    parse en f = Ok (Project es' (count_chunks 64 cs) (pr_format p) (pr_ppq p)).
Proof.
  intros HE Hid Hf Hq Hc Hs. destruct (rewrites_bytes _ _ _ _ _ HE Hid) as (body & E1 & E2 & E3 & E4).
  pose proof (rewrites_reads _ _ _ _ _ HE) as HR.
  pose proof (count_ids 64 cs _ (rewrites_ids _ _ _ _ _ HE)) as Hn.
  pose proof (formats_range _ Hf). pose proof (ppqs_range _ Hq).
  exists (file_bytes (pr_format p) (count_chunks 64 cs) (pr_ppq p) body).
  assert (HG : good_header (pr_format p) (count_chunks 64 cs) (pr_ppq p) body).
  { split; [exact Hf|]. split; [exact Hq|]. split; [lia|]. split; [|lia].
    destruct cs as [|c cs]; [unfold count_chunks, zlen in Hc; cbn [filter length] in Hc; lia|]. inversion E2 as [|c' cs' b bs Hcb]; subst.
    pose proof (chunk_nonempty _ _ _ Hcb). destruct b; [congruence|]. rewrite zlen_app, zlen_cons.
    pose proof (zlen_nonneg _ b). pose proof (zlen_nonneg _ bs). lia. }
  split.
  - rewrite serialise_eq, num_channels_spec, Hn. replace (count_chunks 64 cs =? 0) with false by lia. cbn [bind].
    replace ((-32768 <=? pr_format p) && (pr_format p <? 32768)) with true by lia.
    replace (count_chunks 64 cs <? 65536) with true by lia.
    replace ((0 <=? pr_ppq p) && (pr_ppq p <? 65536)) with true by lia. cbn [negb].
    rewrite E1. cbn [bind]. replace (zlen body <? 2 ^ 32) with true by lia. reflexivity.
  - rewrite (parse_good _ _ _ _ _ HG). unfold run.
    assert (L : framed false cs body).
    { clear - E2. induction E2 as [|c cs b bs Hc HF IH]; constructor; [|exact IH]. destruct Hc; [constructor; assumption|].
      apply CVar with m; [assumption|assumption|discriminate]. }
    destruct (loop_framed en cs (PState None None) [] body (length body) es' st_ok_init E3) as [_ X];
      [destruct HG as (_ & _ & _ & G); assert (2 ^ 32 < 2 ^ 63) by reflexivity; lia|lia|exact L|].
    rewrite (X HR). reflexivity.
Qed.

(* [edited en g es es1 es1']: some of the events [es] are given other values, which makes them [es1]; reloaded they are
   [es1'], and the file grows by at most [g] bytes *)
Definition steers_alike (en : env) (e : event) (p1 : bytes) : Prop :=
  e_id e <> 201 /\
  (e_id e = 199 -> version_numbers p1 <> None /\ forall p, payload en e = Ok p -> text_class [(199, p)] = text_class [(199, p1)]).
Lemma steers_other en e p1 : ~ steering (e_id e) -> steers_alike en e p1.
Proof. unfold steering. intros N. split; intros; lia. Qed.
Inductive edited (en : env) : Z -> list event -> list event -> list event -> Prop :=
| EdNil : edited en 0 [] [] []
| EdKeep g e es es1 es1' : edited en g es es1 es1' -> edited en g (e :: es) (e :: es1) (e :: es1')
| EdChange g k e e1 p1 e1' es es1 es1' :
    steers_alike en e p1 -> e_id e1 = e_id e -> e_kind e1 = e_kind e ->
    payload en e1 = Ok p1 -> is_bytes p1 -> mk_event en (e_kind e) (e_id e) p1 = Ok e1' ->
    0 <= k -> (zlen p1 + 6 <= k < 2 ^ 32 \/ exists q, payload en e = Ok q /\ zlen q = zlen p1) ->
    edited en g es es1 es1' -> edited en (k + g) (e :: es) (e1 :: es1) (e1' :: es1').

Lemma edited_pos en g es es1 es1' : edited en g es es1 es1' -> 0 <= g.
Proof. induction 1; lia. Qed.
Lemma edited_ids en g es es1 es1' : edited en g es es1 es1' -> map e_id es1 = map e_id es.
Proof. induction 1; cbn [map]; congruence. Qed.

Lemma edited_rewrites en g es es1 es1' : edited en g es es1 es1' -> forall h h' cs,
  Forall2 like h h' -> encodes en h es cs ->
  exists cs' es'', rewrites en h' es1 cs' es'' /\ Forall2 same_event es1' es'' /\ map fst cs' = map fst cs /\
    chunks_size cs' <= chunks_size cs + g.
Proof.
  induction 1 as [|g e es es1 es1' HD IH|g k e e1 p1 e1' es es1 es1' NS EI EK HP HB HM K0 SZ HD IH]; intros h h' cs F HE.
  - inversion HE; subst. exists [], []. split; [constructor|]. split; [constructor|]. split; [reflexivity|lia].
  - inversion HE as [|h0 e0 es0 p cs0 e' HP HB HC HV HM HS HE']; subst.
    assert (F' : Forall2 like ((e_id e, p) :: h) ((e_id e, p) :: h')) by (constructor; [apply like_refl|exact F]).
    destruct (IH _ _ _ F' HE') as (cs' & es'' & R1 & R2 & R3 & R4).
    exists ((e_id e, p) :: cs'), (e' :: es''). split; [|split; [constructor; assumption|split; [cbn [map fst]; congruence|]]].
    + apply WCons; try assumption. now rewrite <- (like_class en _ _ F').
    + unfold chunks_size in *. cbn [map fold_right]. lia.
  - inversion HE as [|h0 e0 es0 p cs0 e' HP' HB' HC HV HM' HS HE']; subst.
    assert (F' : Forall2 like ((e_id e, p) :: h) ((e_id e1, p1) :: h')).
    { constructor; [|exact F]. destruct NS as [N1 N2]. split; [cbn; congruence|]. cbn [fst snd]. split; [intros X; contradiction|].
      intros X. rewrite EI, X. now apply (N2 X). }
    destruct (IH _ _ _ F' HE') as (cs' & es'' & R1 & R2 & R3 & R4).
    exists ((e_id e1, p1) :: cs'), (e1' :: es''). split; [|split; [constructor; [repeat split|assumption]|split; [cbn [map fst]; congruence|]]].
    + apply WCons; try assumption.
      * rewrite <- (like_class en _ _ F'). congruence.
      * intros X. destruct NS as [_ N2]. apply N2. congruence.
      * congruence.
    + rewrite EI. unfold chunks_size in *. cbn [map fold_right].
      enough (chunk_size (e_id e, p1) <= chunk_size (e_id e, p) + k) by lia.
      destruct SZ as [SZ|(q & Q1 & Q2)].
      * pose proof (chunk_size_pos (e_id e, p)). pose proof (zlen_nonneg _ p1).
        enough (chunk_size (e_id e, p1) <= zlen p1 + 6) by lia.
        unfold chunk_size. cbn [fst snd]. pose proof (prefix_size_small (zlen p1) ltac:(lia)).
        assert (width (e_id e) <= 4) by (unfold width; destruct (e_id e <? 64); destruct (e_id e <? 128); lia).
        destruct (e_id e <? 192); lia.
      * assert (q = p) by congruence. subst q. unfold chunk_size. cbn [fst snd]. rewrite Q2. lia.
Qed.

Lemma count_fst i (a b : list chunk) : map fst a = map fst b -> count_chunks i a = count_chunks i b.
Proof.
  unfold count_chunks. revert b. induction a as [|x a IH]; intros [|y b] E; cbn [map] in E; try discriminate; [reflexivity|].
  injection E as E1 E2. cbn [filter]. rewrite E1. destruct (fst y =? i); rewrite ?zlen_cons, (IH b E2); reflexivity.
Qed.

Theorem edits_saved en f p g es1 es1' : is_bytes f -> parse en f = Ok p -> canonical_file en f ->
  edited en g (pr_events p) es1 es1' -> g = 0 \/ zlen f + g < 2 ^ 32 ->
  exists f' p', serialise en (Project es1 (pr_channel_count p) (pr_format p) (pr_ppq p)) = Ok f' /\
    parse en f' = Ok p' /\ Forall2 same_event es1' (pr_events p') /\
    pr_channel_count p' = pr_channel_count p /\ pr_format p' = pr_format p /\ pr_ppq p' = pr_ppq p.
Proof.
  intros Hb H HC ED SZ.
  destruct (canonical_encodes en f p Hb H HC) as (cs & HE & HI & Hf & Hq & Hch & Hc & (Hz & Hz') & NE).
  destruct (edited_rewrites en g _ _ _ ED [] [] cs ltac:(constructor) HE) as (cs' & es'' & R1 & R2 & R3 & R4).
  pose proof (edited_ids _ _ _ _ _ ED) as IDS.
  assert (HI' : Forall (fun e => 0 <= e_id e < 256) es1).
  { rewrite Forall_forall in *. intros x I. apply (in_map e_id) in I. rewrite IDS in I.
    apply in_map_iff in I as (y & <- & I). now apply HI. }
  pose proof (count_fst 64 _ _ R3) as CC.
  destruct (rewrite_load en (Project es1 (pr_channel_count p) (pr_format p) (pr_ppq p)) cs' es'' R1 HI' Hf Hq
     ltac:(rewrite CC; exact Hc) ltac:(lia)) as (f' & S1 & S2).
  exists f', (Project es'' (count_chunks 64 cs') (pr_format p) (pr_ppq p)). cbn [pr_events pr_channel_count pr_format pr_ppq] in *.
  split; [exact S1|]. split; [exact S2|]. split; [exact R2|]. split; [congruence|auto].
Qed.

Lemma edited_refl en es : edited en 0 es es es.
Proof. induction es; constructor; assumption. Qed.

(* one event *)
Lemma edited_one en es k e e1 p1 e1' g : nth_error es k = Some e ->
  ~ steering (e_id e) -> e_id e1 = e_id e -> e_kind e1 = e_kind e ->
  payload en e1 = Ok p1 -> is_bytes p1 -> mk_event en (e_kind e) (e_id e) p1 = Ok e1' ->
  0 <= g -> (zlen p1 + 6 <= g < 2 ^ 32 \/ exists q, payload en e = Ok q /\ zlen q = zlen p1) ->
  edited en g es (lset es k e1) (lset es k e1').
Proof.
  intros N NS EI EK HP HB HM G SZ. revert k N. induction es as [|x es IH]; intros [|k] N; try discriminate; cbn [lset].
  - injection N as ->. replace g with (g + 0) by lia. eapply EdChange; eauto using edited_refl, steers_other.
  - constructor. now apply IH.
Qed.
