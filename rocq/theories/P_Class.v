(* Event classes within a file. *)
From Coq Require Import String ZArith List Bool Lia Arith.
From Verif Require Import M_Base M_Float M_Text M_Construct M_Structs M_Events M_Parse M_Save.
From Verif Require Import S_Canon S_File P_Base P_Codec P_RT P_Cells P_Payload P_Special P_File P_Null P_Err P_Save.
Import ListNotations.
Open Scope Z_scope.

Lemma last_payload_skip id h1 h2 : ~ In id (map fst h1) -> last_payload id (h1 ++ h2) = last_payload id h2.
Proof.
  induction h1 as [|[i p] h1 IH]; intros H; [reflexivity|]. cbn [app last_payload map fst In] in *.
  destruct (Z.eqb_spec i id); [exfalso; apply H; left; assumption|]. apply IH. intros X; apply H; right; exact X.
Qed.
Lemma last_payload_none id h : ~ In id (map fst h) -> last_payload id h = None.
Proof. intros H. rewrite <- (app_nil_r h). rewrite last_payload_skip by exact H. reflexivity. Qed.

(* the events parse builds before any given chunk *)
Lemma loop_prefix en : forall cs1 st h b1 b2 f es1, st_ok st h -> is_bytes b1 -> zlen (b1 ++ b2) < 2 ^ 63 ->
  (length (b1 ++ b2) <= f)%nat -> framed false cs1 b1 -> reads en h cs1 es1 ->
  exists st' f', st_ok st' (rev cs1 ++ h) /\ (length b2 <= f')%nat /\
    parse_loop f en st (b1 ++ b2) = let* es2 := parse_loop f' en st' b2 in Ok (es1 ++ es2).
Proof.
  induction cs1 as [|[id p] cs IH]; intros st h b1 b2 f es1 Hst Hb Hl Hf HF HR.
  - inversion HF; subst. inversion HR; subst. exists st, f. split; [exact Hst|]. split; [exact Hf|]. cbn [app].
    destruct (parse_loop f en st b2); reflexivity.
  - inversion HF as [E0|c' cs' b0 bs0 H3 H5 E0 E1]; subst. inversion HR as [|h' id' p' cs' k e es0 R1 R2 R3 R4]; subst.
    apply is_bytes_app in Hb. destruct Hb as [Hb1 Hb2]. rewrite <- app_assoc in *. rewrite zlen_app in Hl. rewrite app_length in Hf.
    assert (Hpl := chunk_payload_len _ _ _ H3). cbn [snd] in Hpl. pose proof (zlen_nonneg _ (bs0 ++ b2)). pose proof (zlen_nonneg _ b0).
    pose proof (chunk_nonempty _ _ _ H3). destruct f as [|f]; [destruct b0; [congruence|cbn [length] in Hf; lia]|].
    assert (Hrd := read_framed (id, p) b0 (bs0 ++ b2) Hb1 ltac:(cbn [snd]; lia) H3). cbn [fst snd] in Hrd.
    assert (Hid : 0 <= id < 256) by apply (chunk_id _ _ _ H3).
    assert (Hp : is_bytes p) by apply (chunk_payload_bytes _ _ _ Hb1 H3).
    assert (Hfl : (length (bs0 ++ b2) <= f)%nat) by (destruct b0; [congruence|cbn [length] in Hf; lia]).
    pose proof (classify_spec en st h id p Hst Hid Hp) as HC.
    destruct (classify en st id p) as [[k' st']|er] eqn:Ecl.
    2: { exfalso. destruct HC as [[-> V]|[V|(-> & k2 & V1 & V2)]].
         - apply R2; [reflexivity|exact V].
         - congruence.
         - replace k2 with k in V2 by congruence. eapply V2. eassumption. }
    destruct HC as (C1 & C2 & C3). assert (k' = k) as -> by congruence.
    destruct (IH st' ((id, p) :: h) bs0 b2 f es0 C2 Hb2 ltac:(lia) Hfl H5 R4) as (st2 & f2 & S1 & S2 & S3).
    exists st2, f2. cbn [rev]. rewrite <- app_assoc. split; [exact S1|]. split; [exact S2|].
    destruct (b0 ++ bs0 ++ b2) as [|x xs] eqn:EB; [destruct b0; [congruence|discriminate]|].
    cbn [parse_loop]. rewrite Hrd. cbn [bind]. rewrite Ecl. cbn [bind]. rewrite R3. cbn [bind]. rewrite S3.
    destruct (parse_loop f2 en st2 b2); reflexivity.
Qed.

Theorem version_first en fmt ch q cs1 id p b1 b b2 es1 :
  let body := b1 ++ b ++ b2 in
  good_header fmt ch q body -> is_bytes body -> framed false cs1 b1 -> reads en [] cs1 es1 ->
  chunk_bytes false (id, p) b -> text_id id = true -> registered en id = None -> ~ In 199 (map fst cs1) ->
  parse en (file_bytes fmt ch q body) = Err VersionNotDetected.
Proof.
  intros body HG HB HF HR Hc Ht Hreg Hno. rewrite (parse_good _ _ _ _ _ HG). unfold run.
  assert (Hl : zlen body < 2 ^ 63) by (destruct HG as (_ & _ & _ & G); assert (2 ^ 32 < 2 ^ 63) by reflexivity; lia).
  unfold body in *. pose proof HB as HB'. apply is_bytes_app in HB'. destruct HB' as [HB1 HB2].
  apply is_bytes_app in HB2. destruct HB2 as [HB2 HB3].
  destruct (loop_prefix en cs1 _ [] b1 (b ++ b2) (length (b1 ++ b ++ b2)) es1 st_ok_init HB1 Hl (le_n _) HF HR) as (st & f & S1 & S2 & S3).
  rewrite S3. rewrite app_nil_r in S1.
  pose proof (chunk_nonempty _ _ _ Hc) as Hne. rewrite app_length in S2.
  destruct f as [|f]; [destruct b; [congruence|cbn [length] in S2; lia]|].
  assert (Hpl := chunk_payload_len _ _ _ Hc). cbn [snd] in Hpl. rewrite !zlen_app in Hl.
  pose proof (zlen_nonneg _ b1). pose proof (zlen_nonneg _ b2).
  assert (Hrd := read_framed (id, p) b b2 HB2 ltac:(cbn [snd]; lia) Hc). cbn [fst snd] in Hrd.
  assert (Hid : 0 <= id < 256) by apply (chunk_id _ _ _ Hc).
  assert (E : parse_loop (S f) en st (b ++ b2) = Err VersionNotDetected).
  { destruct (b ++ b2) as [|x xs] eqn:EB; [destruct b; [congruence|discriminate]|]. cbn [parse_loop]. rewrite Hrd. cbn [bind].
    unfold classify. assert (id <> 199).
    { intros ->. unfold registered in Hreg. destruct (en_ctrl en); discriminate Hreg. }
    replace (id =? 199) with false by lia. cbn [bind]. rewrite (lookup_registered en id Hid), Hreg.
    assert (192 <= id) by (unfold text_id, mem_Z in Ht; cbn [existsb] in Ht; lia).
    replace (id <? 64) with false by lia. replace (id <? 128) with false by lia. replace (id <? 192) with false by lia.
    rewrite text_id_spec by assumption. rewrite Ht. destruct S1 as [S1 _].
    assert (ET : text_class (rev cs1) = None).
    { unfold text_class. rewrite last_payload_none; [reflexivity|]. rewrite map_rev. intros X. apply in_rev in X. contradiction. }
    rewrite ET in S1. rewrite S1. reflexivity. }
  rewrite E. reflexivity.
Qed.

(* unknown events *)
Definition raw_class (en : env) (id : Z) : bool :=
  match registered en id with
  | Some _ => false
  | None => (id <? 192) || (negb (text_id id) && negb (id =? 213))
  end.
Lemma raw_kind en h id p k : 0 <= id < 256 -> raw_class en id = true -> class_of en ((id, p) :: h) = Some k ->
  k = if id <? 64 then KU8 else if id <? 128 then KU16 else if id <? 192 then KU32 else KUnknown.
Proof.
  intros Hid Hr Hc. unfold raw_class in Hr. unfold class_of in Hc. destruct (registered en id); [discriminate|].
  destruct (id <? 64); [congruence|]. destruct (id <? 128); [congruence|]. destruct (id <? 192); [congruence|].
  cbn [orb] in Hr. apply andb_true_iff in Hr. destruct Hr as [H1 H2]. destruct (text_id id); [discriminate|].
  destruct (id =? 213); [discriminate|]. congruence.
Qed.
Lemma raw_payload en h id p k e : 0 <= id < 256 -> is_bytes p -> raw_class en id = true ->
  class_of en ((id, p) :: h) = Some k -> mk_event en k id p = Ok e -> payload en e = Ok p.
Proof.
  intros Hid Hb Hr Hc HM. apply (payload_canonical en k id p e Hb HM).
  destruct (mk_event_inv _ _ _ _ _ HM) as (_ & _ & _ & _ & _ & Hs).
  pose proof (raw_kind _ _ _ _ _ Hid Hr Hc) as ->.
  destruct (Z.ltb_spec id 192) as [Hl|Hl].
  - specialize (Hs Hl). destruct (id <? 64); [cbn; lia|]. destruct (id <? 128); cbn [canonical_payload]; lia.
  - replace (id <? 64) with false by lia. replace (id <? 128) with false by lia. reflexivity.
Qed.

(* what save writes is a list of chunks again, with the same ids *)
Lemma saved_chunks en : forall h cs es, reads en h cs es -> Forall (fun c => 0 <= fst c < 256) cs ->
  Forall (fun c => is_bytes (snd c)) cs ->
  forall out, events_bytes en es = Ok out ->
  exists cs', framed true cs' out /\ Forall2 (fun e c' => payload en e = Ok (snd c') /\ fst c' = e_id e) es cs'.
Proof.
  induction 1 as [h|h id p cs k e es H1 H2 H3 H4 IH]; intros Hi Hb out HO.
  - cbn [events_bytes] in HO. injection HO as <-. exists []. split; constructor.
  - inversion Hi; subst. inversion Hb; subst. cbn [fst snd] in *. cbn [events_bytes] in HO. inv_bind HO. inv_bind HO. injection HO as <-.
    destruct (IH ltac:(assumption) ltac:(assumption) _ E0) as (cs' & F1 & F2).
    destruct (mk_event_inv _ _ _ _ _ H3) as (v & r & _ & He & _). assert (Eid : e_id e = id) by (subst e; reflexivity).
    assert (Ekind : e_kind e = k) by (subst e; reflexivity).
    rewrite event_bytes_eq in E by lia. inv_bind E. injection E as <-. rewrite Eid in *.
    exists ((id, x1) :: cs'). split; [|constructor; [split; [exact E1|cbn [fst]; congruence]|exact F2]].
    constructor; [|exact F1]. destruct (Z.ltb_spec id 192) as [Hl|Hl].
    + apply CFixed; [lia|]. destruct (class_fixed en h id p k) as [Hf Hw]; [lia|exact H1|].
      rewrite <- Hw, <- Ekind. apply (fixed_len en); [congruence|exact E1].
    + apply CVar with true; [lia| |reflexivity]. apply lenprefix_min; [apply varint_enc_bytes; apply zlen_nonneg|]. split; [apply zlen_nonneg|reflexivity].
Qed.

Lemma Forall2_nth A B (R : A -> B -> Prop) l l' : Forall2 R l l' -> forall i x y,
  nth_error l i = Some x -> nth_error l' i = Some y -> R x y.
Proof.
  induction 1; intros [|i] a b E1 E2; cbn [nth_error] in *; try discriminate; [congruence|]. eauto.
Qed.
Lemma Forall2_nth_l A B (R : A -> B -> Prop) l l' : Forall2 R l l' -> forall i x,
  nth_error l i = Some x -> exists y, nth_error l' i = Some y /\ R x y.
Proof.
  induction 1; intros [|i] a E1; cbn [nth_error] in *; try discriminate; [injection E1 as <-; eauto|]. eauto.
Qed.

Theorem raw_kept en cs es out : reads en [] cs es -> Forall (fun c => 0 <= fst c < 256) cs ->
  Forall (fun c => is_bytes (snd c)) cs -> events_bytes en es = Ok out ->
  exists cs', framed true cs' out /\ map fst cs' = map fst cs /\
    forall i c, nth_error cs i = Some c -> raw_class en (fst c) = true -> nth_error cs' i = Some c.
Proof.
  intros HR Hi Hb HO. destruct (saved_chunks _ _ _ _ HR Hi Hb _ HO) as (cs' & F1 & F2). exists cs'.
  split; [exact F1|]. split.
  - rewrite <- (reads_ids _ _ _ _ HR). clear - F2. induction F2 as [|e c es cs [_ E] H IH]; [reflexivity|]. cbn [map]. congruence.
  - intros i [id p] Hc Hr. cbn [fst] in Hr. destruct (reads_nth _ _ _ _ HR) as [_ HN].
    destruct (HN i id p Hc) as (e & k & E1 & E2 & E3 & E4 & E5).
    destruct (Forall2_nth_l _ _ _ _ _ F2 i e E1) as ([id' p'] & E6 & E7 & E8). cbn [fst snd] in *.
    assert (Hin := nth_error_In _ _ Hc).
    pose proof (proj1 (Forall_forall _ _) Hi _ Hin) as Hid. pose proof (proj1 (Forall_forall _ _) Hb _ Hin) as Hpb. cbn [fst snd] in *.
    rewrite (raw_payload _ _ _ _ _ _ Hid Hpb Hr E2 E3) in E7. injection E7 as <-. refine (eq_trans E6 _). rewrite E8, E4. reflexivity.
Qed.

(* ---------- the destination file ---------- *)
Lemma appends_prefix : forall ps acc s, In s (appends acc ps) -> exists k, s = Some (acc ++ firstn k (concat ps)).
Proof.
  induction ps as [|p ps IH]; intros acc s H; [destruct H|]. cbn [appends concat] in *. destruct H as [<-|H].
  - exists (length p). rewrite firstn_app_exact. reflexivity.
  - destruct (IH _ _ H) as [k ->]. exists (length p + k)%nat. rewrite firstn_app_2, app_assoc. reflexivity.
Qed.
Lemma pieces_concat sizes : forall buf, concat (pieces sizes buf) = buf.
Proof. induction sizes as [|n r IH]; intros buf; cbn [pieces concat]; [apply app_nil_r|]. rewrite IH. apply firstn_skipn. Qed.
Lemma appends_last : forall ps acc, last (Some acc :: appends acc ps) None = Some (acc ++ concat ps).
Proof.
  induction ps as [|p ps IH]; intros acc; cbn [appends concat].
  - cbn [last]. rewrite app_nil_r. reflexivity.
  - rewrite app_assoc. rewrite <- IH. reflexivity.
Qed.
