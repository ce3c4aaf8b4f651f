(* A changed event value, saved and loaded again. *)
From Coq Require Import String ZArith List Bool Lia Arith.
From Verif Require Import M_Base M_Text M_Construct M_Structs M_Events M_Parse M_Tree M_Prop.
From Verif Require Import S_Canon S_File S_Domain S_Tree S_Prop P_Base P_Codec P_Payload P_File P_Null P_Save P_Domain.
From Verif Require Import P_TreeBase P_Tree P_TreeEdit P_Prop.
Import ListNotations.
Open Scope Z_scope.

(* ids whose payload decides the class of later events *)
Definition steering (id : Z) : Prop := id = 199 \/ id = 201.

(* histories that agree on everything that decides classes *)
Definition like (a b : chunk) : Prop :=
  fst a = fst b /\ (fst a = 201 -> snd a = snd b) /\ (fst a = 199 -> text_class [a] = text_class [b]).
Lemma like_refl a : like a a. Proof. repeat split; auto. Qed.
Lemma like_other i p q : ~ steering i -> like (i, p) (i, q).
Proof. intros N. unfold steering in N. repeat split; cbn [fst snd]; intros; lia. Qed.

Lemma like_text h h' : Forall2 like h h' -> text_class h = text_class h'.
Proof.
  induction 1 as [|[i p] [j q] h h' (E & _ & P) F IH]; [reflexivity|]. cbn [fst snd] in *. subst j.
  unfold text_class in *. cbn [last_payload] in *. destruct (Z.eqb_spec i 199) as [->|]; [|exact IH]. exact (P eq_refl).
Qed.
Lemma like_plugin h h' : Forall2 like h h' -> plugin_name h = plugin_name h'.
Proof.
  induction 1 as [|[i p] [j q] h h' (E & P & _) F IH]; [reflexivity|]. cbn [fst snd] in *. subst j.
  cbn [plugin_name]. destruct (Z.eqb_spec i 201) as [->|]; [|exact IH].
  rewrite <- (P eq_refl). pose proof (like_text ((201, p) :: h) ((201, p) :: h')
    ltac:(constructor; [apply like_refl|exact F])) as T.
  exact (f_equal (fun o => match o with Some k => text_of k p | None => None end) T).
Qed.
Lemma like_class en h h' : Forall2 like h h' -> class_of en h = class_of en h'.
Proof.
  intros F. pose proof (like_text _ _ F) as T. destruct F as [|[i p] [j q] h h' [E P] F]; [reflexivity|].
  cbn [fst snd] in *. subst j. unfold class_of. rewrite T, (like_plugin _ _ F). reflexivity.
Qed.

Lemma encodes_like en : forall es h h' cs, Forall2 like h h' -> encodes en h es cs -> encodes en h' es cs.
Proof.
  induction es as [|e es IH]; intros h h' cs F H; inversion H; subst; [constructor|].
  assert (F' : Forall2 like ((e_id e, p) :: h) ((e_id e, p) :: h')) by (constructor; [apply like_refl|exact F]).
  econstructor; eauto. rewrite <- (like_class en _ _ F'). assumption.
Qed.

(* one event replaced by another of the same id and class *)
Lemma encodes_replace en e e1 p1 e1' es2 : e_id e1 = e_id e -> e_kind e1 = e_kind e -> ~ steering (e_id e) ->
  payload en e1 = Ok p1 -> is_bytes p1 -> mk_event en (e_kind e) (e_id e) p1 = Ok e1' -> same_event e1 e1' ->
  forall es1 h cs, encodes en h (es1 ++ e :: es2) cs ->
  exists cs1 p cs2, cs = cs1 ++ (e_id e, p) :: cs2 /\ length cs1 = length es1 /\ payload en e = Ok p /\
    encodes en h (es1 ++ e1 :: es2) (cs1 ++ (e_id e, p1) :: cs2).
Proof.
  intros EI EK NS P B M S. induction es1 as [|x es1 IH]; intros h cs H; cbn [app] in *.
  - inversion H as [|h0 e0 es0 p cs0 e' HP HB HC HV HM HS HE]; subst. exists [], p, cs0.
    split; [reflexivity|]. split; [reflexivity|]. split; [exact HP|]. cbn [app].
    assert (F : Forall2 like ((e_id e, p) :: h) ((e_id e1, p1) :: h)).
    { constructor.
      - rewrite EI. now apply like_other.
      - clear. induction h; constructor; [apply like_refl|exact IHh]. }
    rewrite <- EI. apply ECons with e1'; try assumption.
    + rewrite <- (like_class en _ _ F). congruence.
    + intros X. exfalso. apply NS. left. congruence.
    + congruence.
    + apply (encodes_like en es2 _ _ _ F). exact HE.
  - inversion H as [|h0 e0 es0 p cs0 e' HP HB HC HV HM HS HE]; subst.
    destruct (IH _ _ HE) as (cs1 & q & cs2 & -> & L & PQ & E).
    exists ((e_id x, p) :: cs1), q, cs2. split; [reflexivity|]. split; [cbn; congruence|]. split; [exact PQ|].
    cbn [app]. apply ECons with e'; assumption.
Qed.

(* a canonical file is read as events that encode its chunks *)
Lemma reads_encodes en : forall cs h es, reads en h cs es -> Forall (fun c => is_bytes (snd c)) cs ->
  payloads_canonical en h cs -> encodes en h es cs.
Proof.
  induction cs as [|[id p] cs IH]; intros h es HR HB HC; inversion HR as [|h0 id0 p0 cs0 k e es0 K V M R]; subst; [constructor|].
  inversion HB; subst. cbn [snd] in *. destruct HC as [(k' & K' & C) HC].
  assert (k' = k) by congruence. subst k'.
  pose proof (proj2 (payload_canonical en k id p e H1 M) C) as P.
  destruct (mk_event_inv _ _ _ _ _ M) as (v & r & _ & -> & _).
  set (e := Event id k (zlen p) (new_of p) v) in *.
  change id with (e_id e). apply ECons with e; try assumption.
  - repeat split; reflexivity.
  - apply IH; assumption.
Qed.

(* ---------------------------------------------------------------- a whole project *)

Lemma canonical_encodes en f p : is_bytes f -> parse en f = Ok p -> canonical_file en f ->
  exists cs, encodes en [] (pr_events p) cs /\ Forall (fun e => 0 <= e_id e < 256) (pr_events p) /\
    In (pr_format p) formats /\ In (pr_ppq p) ppqs /\ pr_channel_count p = count_chunks 64 cs /\
    1 <= count_chunks 64 cs < 65536 /\ (zlen f = 22 + chunks_size cs /\ chunks_size cs < 2 ^ 32) /\ pr_events p <> [].
Proof.
  intros Hb H (fmt & ch & q & body & cs & -> & HG & HF & HC & -> & NZ).
  assert (HB : is_bytes body).
  { unfold file_bytes in Hb. rewrite !is_bytes_app in Hb. tauto. }
  assert (HF0 : framed false cs body).
  { clear - HF. induction HF as [|c cs b bs Hc HF IH]; constructor; [|exact IH].
    destruct Hc; [apply CFixed; assumption|apply CVar with m; [assumption|assumption|discriminate]]. }
  destruct (proj1 (parse_chunks en fmt _ q cs body HG HB HF0 p) H) as (es & HR & ->). cbn [pr_events pr_format pr_ppq pr_channel_count].
  assert (HBs : Forall (fun c => is_bytes (snd c) /\ 0 <= fst c < 256) cs).
  { clear - HF HB. induction HF as [|c cs b bs Hc HF IH]; constructor.
    - apply is_bytes_app in HB as [HB _]. destruct Hc; cbn [fst snd]; apply is_bytes_cons in HB as [_ HB].
      + split; [exact HB|lia].
      + apply is_bytes_app in HB as [_ HB]. split; [exact HB|lia].
    - apply IH. now apply is_bytes_app in HB. }
  assert (HE : encodes en [] es cs).
  { apply reads_encodes; [exact HR| |exact HC]. eapply Forall_impl; [|exact HBs]. cbn. tauto. }
  assert (HI : Forall (fun e => 0 <= e_id e < 256) es).
  { pose proof (reads_ids _ _ _ _ HR) as E. rewrite Forall_forall in *. intros e I.
    apply (in_map e_id) in I. rewrite E in I. apply in_map_iff in I as (c & <- & I). now apply HBs. }
  destruct HG as (G1 & G2 & G3 & G4). exists cs.
  split; [exact HE|]. split; [exact HI|]. split; [exact G1|]. split; [exact G2|]. split; [reflexivity|].
  assert (0 <= count_chunks 64 cs) by apply zlen_nonneg.
  split; [lia|]. split.
  - destruct (encodes_bytes _ _ _ _ HE HI) as (body' & HB' & _ & _ & HZ).
    pose proof (events_null_r _ _ _ _ HR body HB HF HC) as X.
    assert (body' = body) as -> by congruence.
    rewrite <- HZ. split; [|lia]. unfold file_bytes. rewrite !zlen_app, !le_spec. unfold zlen at 1 2 3 4 5 6 7. rewrite !le_enc_length. cbn [length magic_header magic_data]. lia.
  - intros ->. inversion HR; subst. now apply NZ.
Qed.

(* every event of it was made from the payload it is written as *)
Lemma reads_read en : forall cs h es, reads en h cs es -> Forall (fun c => is_bytes (snd c)) cs ->
  payloads_canonical en h cs ->
  Forall (fun e => exists b, is_bytes b /\ mk_event en (e_kind e) (e_id e) b = Ok e /\ payload en e = Ok b /\
                    canonical_payload en (e_kind e) b = true) es.
Proof.
  induction cs as [|[id p] cs IH]; intros h es HR HB HC; inversion HR as [|h0 id0 p0 cs0 k e es0 K V M R]; subst; constructor.
  - inversion HB; subst. cbn [snd] in *. destruct HC as [(k' & K' & C) HC].
    assert (k' = k) by congruence. subst k'.
    pose proof (proj2 (payload_canonical en k id p e H1 M) C) as P.
    destruct (mk_event_inv _ _ _ _ _ M) as (v & r & _ & EE & _). exists p. rewrite EE in *. cbn [e_kind e_id]. auto.
  - inversion HB; subst. destruct HC as [_ HC]. eapply IH; eauto.
Qed.
Lemma canonical_read en f p : is_bytes f -> parse en f = Ok p -> canonical_file en f ->
  Forall (fun e => exists b, is_bytes b /\ mk_event en (e_kind e) (e_id e) b = Ok e /\ payload en e = Ok b /\
                    canonical_payload en (e_kind e) b = true) (pr_events p).
Proof.
  intros Hb H (fmt & ch & q & body & cs & -> & HG & HF & HC & -> & NZ).
  assert (HB : is_bytes body).
  { unfold file_bytes in Hb. rewrite !is_bytes_app in Hb. tauto. }
  assert (HF0 : framed false cs body).
  { clear - HF. induction HF as [|c cs b bs Hc HF IH]; constructor; [|exact IH].
    destruct Hc; [apply CFixed; assumption|apply CVar with m; [assumption|assumption|discriminate]]. }
  destruct (proj1 (parse_chunks en fmt _ q cs body HG HB HF0 p) H) as (es & HR & ->). cbn [pr_events].
  apply (reads_read en cs [] es HR); [|exact HC].
  clear - HF HB. induction HF as [|c cs b bs Hc HF IH]; constructor.
  - apply is_bytes_app in HB as [HB _]. destruct Hc; cbn [fst snd]; apply is_bytes_cons in HB as [_ HB].
    + exact HB.
    + now apply is_bytes_app in HB as [_ HB].
  - apply IH. now apply is_bytes_app in HB.
Qed.

Lemma lset_split A (l1 : list A) x l2 y : lset (l1 ++ x :: l2) (length l1) y = l1 ++ y :: l2.
Proof. induction l1 as [|a l1 IH]; cbn [app length lset]; [reflexivity|now rewrite IH]. Qed.
Lemma chunks_size_app a b : chunks_size (a ++ b) = chunks_size a + chunks_size b.
Proof. unfold chunks_size. rewrite map_app. induction (map chunk_size a) as [|x l IH]; cbn [app fold_right]; lia. Qed.
Lemma chunk_size_pos c : 0 < chunk_size c.
Proof.
  unfold chunk_size, width, prefix_size. pose proof (zlen_nonneg _ (snd c)). pose proof (Z.log2_nonneg (zlen (snd c))).
  assert (0 <= Z.log2 (zlen (snd c)) / 7) by (apply Z.div_pos; lia).
  destruct (fst c <? 192); destruct (fst c <? 64); destruct (fst c <? 128); lia.
Qed.
Lemma prefix_size_small n : 0 <= n < 2 ^ 32 -> prefix_size n <= 5.
Proof.
  intros H. unfold prefix_size. destruct (Z.eq_dec n 0) as [->|]; [cbn; lia|].
  assert (Z.log2 n < 32) by (apply Z.log2_lt_pow2; lia). assert (Z.log2 n / 7 < 5) by (apply Z.div_lt_upper_bound; lia). lia.
Qed.

Lemma events_bytes_payload en a b : e_id a = e_id b -> payload en a = payload en b ->
  forall l1 l2, events_bytes en (l1 ++ a :: l2) = events_bytes en (l1 ++ b :: l2).
Proof.
  intros EI EP. induction l1 as [|x l1 IH]; intros l2; cbn [app events_bytes].
  - unfold event_bytes. now rewrite EI, EP.
  - now rewrite IH.
Qed.
Lemma serialise_payload en a b l1 l2 ch fmt q : e_id a = e_id b -> payload en a = payload en b ->
  serialise en (Project (l1 ++ a :: l2) ch fmt q) = serialise en (Project (l1 ++ b :: l2) ch fmt q).
Proof.
  intros EI EP. unfold serialise, num_channels. cbn [pr_events pr_format pr_ppq].
  rewrite (events_bytes_payload en a b EI EP).
  assert (C : count_id 64 (l1 ++ a :: l2) = count_id 64 (l1 ++ b :: l2)).
  { unfold count_id. rewrite !filter_app, !zlen_app. cbn [filter]. rewrite EI. destruct (e_id b =? 64); now rewrite ?zlen_cons. }
  now rewrite C.
Qed.

(* The k-th event [e] of a project loaded from a canonical file gets another
   value, so that the event object is [e1]; [p1] is what [e1] is written as and
   [e1'] what these bytes mean. *)
Theorem edit_saved en f p k e e1 p1 e1' : is_bytes f -> parse en f = Ok p -> canonical_file en f ->
  nth_error (pr_events p) k = Some e -> ~ steering (e_id e) ->
  e_id e1 = e_id e -> e_kind e1 = e_kind e ->
  payload en e1 = Ok p1 -> is_bytes p1 -> mk_event en (e_kind e) (e_id e) p1 = Ok e1' -> payload en e1' = Ok p1 ->
  (zlen f + zlen p1 + 6 < 2 ^ 32 \/ exists q, payload en e = Ok q /\ zlen q = zlen p1) ->
  exists f' p', serialise en (Project (lset (pr_events p) k e1) (pr_channel_count p) (pr_format p) (pr_ppq p)) = Ok f' /\
    parse en f' = Ok p' /\
    Forall2 same_event (lset (pr_events p) k e1') (pr_events p') /\
    pr_channel_count p' = pr_channel_count p /\ pr_format p' = pr_format p /\ pr_ppq p' = pr_ppq p.
Proof.
  intros Hb H HC K NS EI EK HP HB HM HP' SZ.
  destruct (canonical_encodes en f p Hb H HC) as (cs & HE & HI & Hf & Hq & Hch & Hc & (Hz & Hz') & NE).
  destruct (nth_error_split _ _ K) as (l1 & l2 & EL & LL).
  destruct (mk_event_inv _ _ _ _ _ HM) as (v' & r & _ & Ee & _).
  assert (EI' : e_id e1' = e_id e) by (rewrite Ee; reflexivity).
  assert (EK' : e_kind e1' = e_kind e) by (rewrite Ee; reflexivity).
  rewrite EL in HE.
  destruct (encodes_replace en e e1' p1 e1' l2 EI' EK' NS HP' HB HM ltac:(repeat split) l1 [] cs HE)
    as (cs1 & q & cs2 & -> & LC & PQ & HE').
  rewrite EL, <- LL, !lset_split.
  rewrite (serialise_payload en e1 e1') by congruence.
  set (P := Project (l1 ++ e1' :: l2) (pr_channel_count p) (pr_format p) (pr_ppq p)).
  assert (CC : count_chunks 64 (cs1 ++ (e_id e, p1) :: cs2) = count_chunks 64 (cs1 ++ (e_id e, q) :: cs2)).
  { unfold count_chunks. rewrite !filter_app, !zlen_app. cbn [filter fst]. destruct (e_id e =? 64); now rewrite ?zlen_cons. }
  assert (HI' : Forall (fun e => 0 <= e_id e < 256) (pr_events P)).
  { cbn [P pr_events]. rewrite EL in HI. apply Forall_app in HI as [H1 H2]. inversion H2; subst.
    apply Forall_app. split; [assumption|]. constructor; [rewrite EI'; assumption|assumption]. }
  assert (SZ' : chunks_size (cs1 ++ (e_id e, p1) :: cs2) < 2 ^ 32).
  { rewrite chunks_size_app in *. change (chunks_size ((e_id e, p1) :: cs2)) with (chunk_size (e_id e, p1) + chunks_size cs2).
    change (chunks_size ((e_id e, q) :: cs2)) with (chunk_size (e_id e, q) + chunks_size cs2) in Hz, Hz'.
    destruct SZ as [SZ|(q' & Q1 & Q2)].
    2:{ assert (q' = q) by congruence. subst q'.
        assert (CS : chunk_size (e_id e, p1) = chunk_size (e_id e, q)) by (unfold chunk_size; cbn [fst snd]; now rewrite Q2). lia. }
    pose proof (chunk_size_pos (e_id e, q)). pose proof (zlen_nonneg _ f). pose proof (zlen_nonneg _ p1).
    assert (chunk_size (e_id e, p1) <= zlen p1 + 6); [|lia].
    unfold chunk_size. cbn [fst snd]. pose proof (prefix_size_small (zlen p1) ltac:(lia)).
    assert (width (e_id e) <= 4) by (unfold width; destruct (e_id e <? 64); destruct (e_id e <? 128); lia).
    destruct (e_id e <? 192); lia. }
  destruct (save_load en P (cs1 ++ (e_id e, p1) :: cs2) HE' HI' Hf Hq ltac:(rewrite CC; exact Hc) SZ') as (f' & es' & S1 & S2 & S3).
  exists f', (Project es' (count_chunks 64 (cs1 ++ (e_id e, p1) :: cs2)) (pr_format P) (pr_ppq P)).
  split; [exact S1|]. split; [exact S2|]. split; [exact S3|]. cbn [pr_channel_count pr_format pr_ppq P].
  split; [rewrite CC, Hch; reflexivity|auto].
Qed.

(* views of a loaded project: event references are positions in the file *)
Lemma views_refs evs h : evs <> [] -> views (parsed evs) h ->
  refs h 0 = seq 0 (length evs) /\ h_evs h = evs /\
  forall t, (t < nt h)%nat -> subseq (refs h t) (seq 0 (length evs)).
Proof.
  intros NE V. destruct (views_synced _ _ NE V) as (A & B & C & D).
  assert (R : forall c, (c < length evs)%nat -> ref_of h c = c).
  { intros c L. unfold ref_of, cell_of. rewrite D. fold (cell_of (parsed evs) c). rewrite parsed_cells by exact L. reflexivity. }
  assert (R0 : refs h 0 = seq 0 (length evs)).
  { unfold refs. rewrite B, parsed_lst. rewrite <- (map_id (seq 0 (length evs))) at 2. apply map_ext_in.
    intros c I. apply in_seq in I. apply R. lia. }
  split; [exact R0|]. split.
  - rewrite C. unfold parsed, new_tree. reflexivity.
  - intros t L. rewrite <- R0. unfold refs. apply subseq_map. apply synced_sub. now apply A.
Qed.

Lemma subseq_in A (a b : list A) : subseq a b -> forall x, In x a -> In x b.
Proof. induction 1; intros y I; [destruct I|destruct I as [->|I]; [now left|right; auto]|right; auto]. Qed.
Lemma subseq_nodup A (a b : list A) : subseq a b -> NoDup b -> NoDup a.
Proof.
  induction 1; intros N; [constructor| |]; inversion N; subst; [|auto]. constructor; auto.
  intros I. apply H2. eapply subseq_in; eauto.
Qed.

Lemma views_tree evs h t : evs <> [] -> views (parsed evs) h -> (t < nt h)%nat ->
  in_heap h t /\ NoDup (refs h t) /\ Forall (fun r => nth_error evs r = Some (ev_of h r)) (refs h t).
Proof.
  intros NE V L. destruct (views_refs _ _ NE V) as (R0 & E & S). specialize (S t L).
  assert (F : Forall (fun r => (r < length evs)%nat) (refs h t)).
  { apply Forall_forall. intros r I. apply (subseq_in _ _ _ S) in I. apply in_seq in I. lia. }
  split; [unfold in_heap; now rewrite E|]. split; [eapply subseq_nodup; [exact S|apply seq_NoDup]|].
  eapply Forall_impl; [|exact F]. intros r Hr. unfold ev_of. rewrite E. now apply nth_error_nth'.
Qed.

(* a changed value, seen from the project's tree *)
Lemma only_value_root evs h r v h' : evs <> [] -> views (parsed evs) h -> (r < length evs)%nat ->
  only_value h r v h' -> root_events h' = lset evs r (with_val (ev_of h r) v).
Proof.
  intros NE V L O. destruct (views_refs _ _ NE V) as (R0 & E & _).
  assert (EV : map (ev_of h) (seq 0 (length evs)) = evs).
  { apply nth_ext with no_event no_event; [now rewrite map_length, seq_length|]. intros i Hi.
    rewrite map_length, seq_length in Hi. rewrite (nth_indep _ no_event (ev_of h 0%nat)) by (rewrite map_length, seq_length; lia).
    rewrite map_nth, seq_nth by lia. unfold ev_of. now rewrite E. }
  unfold root_events. rewrite events_refs, (only_value_refs _ _ _ _ O), R0.
  destruct O as (_ & _ & _ & O1 & O2).
  apply nth_ext with no_event no_event; [now rewrite map_length, seq_length, lset_length|].
  intros i Hi. rewrite map_length, seq_length in Hi.
  rewrite (nth_indep _ no_event (ev_of h' 0%nat)) by (rewrite map_length, seq_length; lia).
  rewrite map_nth, seq_nth by lia. cbn [Nat.add]. rewrite nth_lset.
  replace (r <? length evs)%nat with true by (symmetry; now apply Nat.ltb_lt). rewrite andb_true_r.
  destruct (Nat.eqb_spec i r) as [->|N]; [exact O2|]. rewrite O1 by exact N. unfold ev_of. now rewrite E.
Qed.

(* ---------------------------------------------------------------- values of simple classes *)

(* an upper bound for the size of a written value *)
Definition room (v : val) : Z :=
  match v with VStr s => 4 * zlen s + 4 | VBytes b => zlen b | _ => 4 end.

Lemma utf16_enc_room s : forall b, utf16_enc s = Some b -> zlen b <= 4 * zlen s.
Proof.
  induction s as [|c s IH]; intros b H; cbn [utf16_enc] in H; [injection H as <-; vm_compute; discriminate|].
  destruct (utf16_enc1 c) as [x|] eqn:E; [|discriminate]. destruct (utf16_enc s) as [y|]; [|discriminate].
  injection H as <-. specialize (IH _ eq_refl). rewrite zlen_app, zlen_cons.
  assert (zlen x <= 4); [|lia]. unfold utf16_enc1 in E.
  destruct (_ || _); [discriminate|]. destruct (c <? 65536); assert (X : length x = 2%nat \/ length x = 4%nat) by (revert E; intros [= <-]; auto); unfold zlen; lia.
Qed.
Lemma ascii_enc_room s b : ascii_enc s = Some b -> zlen b = zlen s.
Proof. unfold ascii_enc. destruct (forallb _ s); [|discriminate]. now intros [= <-]. Qed.

Lemma stored_room en k id v L w p e : scalar_kind k = true -> domain k v -> (k = KUnknown -> 192 <= id) -> 0 <= id ->
  payload en (Event id k L w v) = Ok p -> mk_event en k id p = Ok e -> zlen p <= room v.
Proof.
  intros Hk HD HU Hid HP HM. destruct (mk_event_inv _ _ _ _ _ HM) as (v' & r & E & _ & HA & HW).
  destruct (fixed_kind k) eqn:FK.
  - destruct (allowed_fits _ _ Hid HA FK) as [_ Hl].
    specialize (HW Hl). assert (zlen p <= 4) by (rewrite HW; destruct (id <? 64); destruct (id <? 128); lia).
    assert (4 <= room v); [|lia]. destruct k; try discriminate FK; cbn [domain] in HD;
    repeat match goal with X : exists _, _ |- _ => destruct X | X : int_between _ _ _ |- _ => destruct X | X : _ /\ _ |- _ => destruct X end;
    subst; cbn [room]; lia.
  - destruct k; try discriminate Hk; try discriminate FK; cbn [domain] in HD.
    + destruct HD as (s & -> & NT & F). cbn in HP. destruct (ascii_enc (s ++ [0])) as [b|] eqn:B; [|discriminate].
      injection HP as <-. cbn [room]. rewrite (ascii_enc_room _ _ B), zlen_app, zlen_cons, zlen_nil. pose proof (zlen_nonneg _ s). lia.
    + destruct HD as (s & -> & NT & F). cbn in HP. destruct (utf16_enc (s ++ [0])) as [b|] eqn:B; [|discriminate].
      injection HP as <-. cbn [room]. pose proof (utf16_enc_room _ _ B) as R. rewrite zlen_app, zlen_cons, zlen_nil in R. lia.
    + destruct HD as (b & -> & _). cbn in HP. injection HP as <-. cbn [room]. lia.
Qed.

Lemma encodes_classes en : forall es h cs, encodes en h es cs -> Forall (fun e => 0 <= e_id e < 256) es ->
  Forall (fun e => allowed_id (e_kind e) (e_id e) = true /\ (e_kind e = KUnknown -> 192 <= e_id e)) es.
Proof.
  induction es as [|e es IH]; intros h cs H HI; constructor; inversion H as [|h0 e0 es0 p cs0 e' HP HB HC HV HM HS HE]; inversion HI; subst; [|eauto].
  destruct (mk_event_inv _ _ _ _ _ HM) as (v' & r & E & _ & HA & _). split; [exact HA|]. intros K.
  destruct (Z.ltb_spec (e_id e) 192) as [L|L]; [exfalso|lia].
  destruct (class_fixed en h (e_id e) p (e_kind e) ltac:(lia) HC) as [F _]. now rewrite K in F.
Qed.

Lemma reloaded_lset a k e1 b v x : nth_error a k = Some x -> e_id e1 = e_id x -> e_kind e1 = e_kind x -> e_val e1 = v ->
  Forall2 same_event (lset a k e1) b -> reloaded a k v b.
Proof.
  intros K EI EK EV F.
  assert (LEN : length b = length a) by (rewrite <- (lset_length _ a k e1); clear - F; induction F; cbn [length]; congruence).
  assert (N : forall j y, nth_error (lset a k e1) j = Some y -> exists z, nth_error b j = Some z /\ same_event y z).
  { clear - F. induction F as [|y z l l' S F IH]; intros [|j] w H; cbn in *; try discriminate; [|eauto].
    injection H as <-. eauto. }
  assert (LT : (k < length a)%nat) by (apply nth_error_Some; congruence).
  split; [exact LEN|]. split.
  - intros j y NE H. apply N. rewrite nth_error_lset. apply Nat.eqb_neq in NE. now rewrite NE.
  - destruct (N k e1) as (z & Z1 & S1 & S2 & S3).
    { rewrite nth_error_lset, Nat.eqb_refl. apply Nat.ltb_lt in LT. now rewrite LT. }
    exists x, z. repeat split; congruence.
Qed.

(* any change of one event's value to [v], read back as [v'] *)
Lemma edit_reloaded en f p h t r e k v v' h' : is_bytes f -> parse en f = Ok p -> canonical_file en f ->
  views (parsed (pr_events p)) h -> (t < nt h)%nat ->
  nth_error (refs h t) k = Some r -> nth_error (events h t) k = Some e -> ~ steering (e_id e) ->
  scalar_kind (e_kind e) = true -> domain (e_kind e) v' ->
  (forall L w, payload en (Event (e_id e) (e_kind e) L w v) = payload en (Event (e_id e) (e_kind e) L w v')) ->
  zlen f + room v' + 6 < 2 ^ 32 -> only_value h r v h' ->
  exists f' p', nth_error (pr_events p) r = Some e /\
    serialise en (Project (root_events h') (pr_channel_count p) (pr_format p) (pr_ppq p)) = Ok f' /\
    parse en f' = Ok p' /\ reloaded (pr_events p) r v' (pr_events p') /\
    pr_channel_count p' = pr_channel_count p /\ pr_format p' = pr_format p /\ pr_ppq p' = pr_ppq p.
Proof.
  intros Hb H HC V L R E NS Hk HD HP SZ O.
  destruct (canonical_encodes en f p Hb H HC) as (cs & HE & HI & _ & _ & _ & _ & _ & NE).
  destruct (views_tree _ _ t NE V L) as (_ & _ & F). rewrite Forall_forall in F.
  pose proof (F r (nth_error_In _ _ R)) as FR.
  assert (EE : ev_of h r = e). { rewrite events_refs, nth_error_map, R in E. cbn in E. congruence. }
  rewrite EE in FR.
  assert (LT : (r < length (pr_events p))%nat) by (apply nth_error_Some; congruence).
  rewrite (only_value_root _ _ _ _ _ NE V LT O), EE.
  pose proof (encodes_classes _ _ _ _ HE HI) as HCL. rewrite Forall_forall in HCL, HI.
  destruct (HCL e (nth_error_In _ _ FR)) as [HA HU]. pose proof (HI e (nth_error_In _ _ FR)) as HID.
  destruct (proj2 (domain_exact en (e_kind e) (e_id e) v' Hk HID HA HU) HD) as (L0 & w0 & p1 & e1' & P1 & B1 & M1 & V1).
  pose proof (stored_room en _ _ _ _ _ _ _ Hk HD HU (proj1 HID) P1 M1) as RM.
  destruct (mk_event_inv _ _ _ _ _ M1) as (v0 & r0 & _ & EE1 & _).
  destruct (edit_saved en f p r e (with_val e v) p1 e1' Hb H HC FR NS eq_refl eq_refl) as (f' & p' & S1 & S2 & S3 & S4).
  - unfold with_val. rewrite HP, <- P1. apply scalar_payload. exact Hk.
  - exact B1.
  - exact M1.
  - rewrite EE1 in V1 |- *. cbn [e_val] in V1. subst v0. rewrite <- P1. apply scalar_payload. exact Hk.
  - left. lia.
  - exists f', p'. split; [exact FR|]. split; [exact S1|]. split; [exact S2|]. split; [|exact S4].
    eapply reloaded_lset; [exact FR| | |exact V1|exact S3]; now rewrite EE1.
Qed.

Theorem edit_event_prop en f p h t ids d k e v : is_bytes f -> parse en f = Ok p -> canonical_file en f ->
  views (parsed (pr_events p)) h -> (t < nt h)%nat ->
  ids <> [] -> chosen ids (events h t) (Some k) -> nth_error (events h t) k = Some e ->
  ~ steering (e_id e) -> scalar_kind (e_kind e) = true -> domain (e_kind e) v ->
  zlen f + room v + 6 < 2 ^ 32 ->
  exists h' f' p' j, prop_set en h (EvModel t) (MkProp ids d false PEvent) v = (h', Ok tt) /\
    serialise en (Project (root_events h') (pr_channel_count p) (pr_format p) (pr_ppq p)) = Ok f' /\
    parse en f' = Ok p' /\
    nth_error (pr_events p) j = Some e /\ reloaded (pr_events p) j v (pr_events p') /\
    pr_channel_count p' = pr_channel_count p /\ pr_format p' = pr_format p /\ pr_ppq p' = pr_ppq p.
Proof.
  intros Hb H HC V L NI CH E NS Hk HD SZ.
  destruct (canonical_encodes en f p Hb H HC) as (cs & _ & _ & _ & _ & _ & _ & _ & NE).
  destruct (views_tree _ _ t NE V L) as (W & _ & _).
  destruct (event_prop_set en h t ids d v k NI W CH) as (r & h' & R & S & O).
  destruct (edit_reloaded en f p h t r e k v v h' Hb H HC V L R E NS Hk HD ltac:(reflexivity) SZ O) as (f' & p' & A & B & C & D).
  exists h', f', p', r. tauto.
Qed.

Definition unsigned_kind (k : kind) : bool := match k with KU8 | KU16 | KU32 => true | _ => false end.
Definition bit_width (k : kind) : Z := 8 * kind_width k.

Lemma bits_bound n a : 0 <= n -> 0 <= a -> (a < 2 ^ n <-> forall i, n <= i -> Z.testbit a i = false).
Proof.
  intros Hn Ha. split.
  - intros H i Hi. destruct (Z.eq_dec a 0) as [->|]; [apply Z.testbit_0_l|].
    apply Z.bits_above_log2; [lia|]. assert (Z.log2 a < n) by (apply Z.log2_lt_pow2; lia). lia.
  - intros H. destruct (Z.eq_dec a 0) as [->|]; [apply Z.pow_pos_nonneg; lia|].
    apply Z.log2_lt_pow2; [lia|]. destruct (Z.ltb_spec (Z.log2 a) n) as [|G]; [assumption|].
    specialize (H _ G). rewrite Z.bit_log2 in H by lia. discriminate.
Qed.

Lemma number_payload en k id L w v z : unsigned_kind k = true -> number v z ->
  payload en (Event id k L w v) = payload en (Event id k L w (VInt z)).
Proof.
  intros U [->|[->|(b & -> & ->)]]; destruct k; try discriminate U; try reflexivity; destruct b; reflexivity.
Qed.

Theorem edit_flag_prop en f p h t ids d n fl mask inv k e v : is_bytes f -> parse en f = Ok p -> canonical_file en f ->
  views (parsed (pr_events p)) h -> (t < nt h)%nat ->
  ids <> [] -> chosen ids (events h t) (Some k) -> nth_error (events h t) k = Some e ->
  unsigned_kind (e_kind e) = true -> good_flag mask fl -> fl < 2 ^ bit_width (e_kind e) ->
  zlen f + 10 < 2 ^ 32 ->
  exists z y h' f' p' j, e_val e = VInt z /\
    prop_set en h (EvModel t) (MkProp ids d false (PFlag n fl mask inv)) v = (h', Ok tt) /\
    serialise en (Project (root_events h') (pr_channel_count p) (pr_format p) (pr_ppq p)) = Ok f' /\
    parse en f' = Ok p' /\
    nth_error (pr_events p) j = Some e /\ reloaded (pr_events p) j (VInt y) (pr_events p') /\
    (if xorb inv (truthy v) then bits_set z fl true y else cleared (en_py311 en) mask fl z y).
Proof.
  intros Hb H HC V L NI CH E U G FL SZ.
  destruct (canonical_encodes en f p Hb H HC) as (cs & HE & HI & _ & _ & _ & _ & _ & NE).
  destruct (views_tree _ _ t NE V L) as (W & _ & F). rewrite Forall_forall in F.
  destruct (get_event_spec h t ids NI) as [A _]. destruct (A k CH) as (c & K & EV).
  set (r := ref_of h c) in *.
  assert (R : nth_error (refs h t) k = Some r) by (unfold refs; now rewrite nth_error_map, K).
  assert (EE : ev_of h r = e) by (rewrite events_refs, nth_error_map, R in E; cbn in E; congruence).
  pose proof (F r (nth_error_In _ _ R)) as FR. rewrite EE in FR.
  pose proof (encodes_classes _ _ _ _ HE HI) as HCL. rewrite Forall_forall in HCL, HI.
  destruct (HCL e (nth_error_In _ _ FR)) as [HA HU]. pose proof (HI e (nth_error_In _ _ FR)) as HID.
  assert (Hk : scalar_kind (e_kind e) = true) by (destruct (e_kind e); try discriminate U; reflexivity).
  assert (DOM : forall v, domain (e_kind e) v <-> exists z, v = VInt z /\ 0 <= z < 2 ^ bit_width (e_kind e)).
  { intros w. destruct (e_kind e); try discriminate U; reflexivity. }
  assert (ND : ~ is_struct_kind (e_kind e) = true) by (destruct (e_kind e); try discriminate U; discriminate).
  assert (NS : ~ steering (e_id e)).
  { destruct (allowed_fits (e_kind e) (e_id e) (proj1 HID) HA) as [_ X]; [destruct (e_kind e); try discriminate U; reflexivity|].
    intros [Y|Y]; lia. }
  (* the stored value *)
  assert (ST : exists z, e_val e = VInt z /\ 0 <= z < 2 ^ bit_width (e_kind e)).
  { apply DOM. clear - HE FR Hk HID HA HU.
    assert (X : exists L w p e', payload en (Event (e_id e) (e_kind e) L w (e_val e)) = Ok p /\ is_bytes p /\
                mk_event en (e_kind e) (e_id e) p = Ok e' /\ e_val e' = e_val e).
    { clearbody r. clear - HE FR. revert HE r FR. generalize (@nil chunk) as hh. revert cs.
      induction (pr_events p) as [|x es IH]; intros cs hh HE r FR; [destruct r; discriminate|].
      inversion HE as [|h0 e0 es0 q cs0 e' HP HB HC HV HM HS HE']; subst. destruct r as [|r]; cbn in FR; [|exact (IH _ _ HE' r FR)].
      injection FR as ->. exists (e_len e), (e_new e), q, e'. destruct e as [i0 k0 l0 n0 v0]. destruct HS as (_ & _ & HS). cbn [e_val e_kind e_id] in *. split; [exact HP|]. split; [exact HB|]. split; [exact HM|]. congruence. }
    destruct X as (L & w & q & e' & X). apply (domain_exact en _ (e_id e)); auto. exists L, w, q, e'. exact X. }
  destruct ST as (z & EZ & BZ).
  destruct (flag_write_spec (en_py311 en) mask fl (VInt z) z (xorb inv (truthy v)) G ltac:(now left) ltac:(lia))
    as (w & y & WR & NY & BS & _ & Y0).
  exists z, y, (set_val h r w).
  assert (LR : (r < length (h_evs h))%nat).
  { unfold in_heap in W. rewrite Forall_forall in W. apply W. eapply nth_error_In; eauto. }
  assert (BY : 0 <= y < 2 ^ bit_width (e_kind e)).
  { split; [apply Y0; lia|]. apply bits_bound; [destruct (e_kind e); try discriminate U; discriminate|apply Y0; lia|].
    intros i Hi. pose proof (proj1 (bits_bound (bit_width (e_kind e)) z ltac:(destruct (e_kind e); try discriminate U; discriminate) ltac:(lia)) (proj2 BZ) i Hi) as TZ.
    pose proof (proj1 (bits_bound (bit_width (e_kind e)) fl ltac:(destruct (e_kind e); try discriminate U; discriminate) ltac:(destruct G; lia)) FL i Hi) as TF.
    assert (0 <= i) by (destruct (e_kind e); try discriminate U; unfold bit_width in Hi; cbn [kind_width] in Hi; lia).
    destruct (xorb inv (truthy v)).
    - rewrite (BS i) by assumption. now rewrite TF.
    - unfold cleared in BS. destruct (en_py311 en); rewrite (BS i) by assumption; rewrite TF, TZ; [|reflexivity]. now destruct (_ <? _). }
  pose proof (set_val_only h r w LR) as O.
  destruct (edit_reloaded en f p h t r e k w (VInt y) (set_val h r w) Hb H HC V L R E NS Hk) as (f' & p' & A1 & A2 & A3 & A4 & _).
  - apply DOM. eauto.
  - intros L0 w0. now apply number_payload.
  - cbn [room]. lia.
  - exact O.
  - exists f', p', r. split; [exact EZ|]. split.
    + unfold prop_set. cbn [p_readonly p_ids p_kind]. rewrite EV. cbn [target_write].
      assert (HIT : has_items h (TEvent r) = false) by (cbn [has_items]; rewrite EE; destruct (is_struct_kind (e_kind e)); congruence).
      unfold flags_get, flags_set. rewrite HIT, EE, EZ. cbn [bind].
      rewrite WR. reflexivity.
    + tauto.
Qed.
