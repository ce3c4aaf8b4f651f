(* Sessions of fitting edits, saved and loaded again. *)
From Coq Require Import String ZArith List Bool Lia Arith.
From Verif Require Import M_Base M_Float M_Text M_Construct M_Structs M_Events M_Parse M_Tree M_Prop M_Items.
From Verif Require Import S_Canon S_File S_Domain S_Tree S_Prop S_Layout S_Real S_Project S_Items S_Vst S_Edits.
From Verif Require Import P_Base P_Codec P_RT P_Cells P_Kinds P_Lists P_Payload P_File P_Null P_Save P_Domain P_Special.
From Verif Require Import P_TreeBase P_Tree P_TreeEdit P_Prop P_Edit P_Rewrite P_Layout P_Struct P_Records P_EditStruct P_Misfit P_Written P_Round P_Items P_Models P_Notes P_Project P_Session P_Vst.
Import ListNotations.
Open Scope Z_scope.

Definition flexible (k : kind) : bool := scalar_kind k || match k with KVSTPlugin => true | _ => false end.
Definition sound_event (en : env) (e : event) : Prop := exists b e', is_bytes b /\ mk_event en (e_kind e) (e_id e) b = Ok e' /\ payload en e = Ok b /\
  canonical_payload en (e_kind e) b = true /\ alike e e' /\ (e' = e \/ flexible (e_kind e) = true) /\ (e_kind e = KVSTPlugin -> zlen b < 2 ^ 64).

Lemma lset_parts A (l : list A) : forall j x, (j < length l)%nat -> lset l j x = firstn j l ++ x :: skipn (S j) l.
Proof. induction l as [|y l IH]; intros [|j] x H; cbn in *; try lia; [reflexivity|]. f_equal. apply IH. lia. Qed.
Lemma dget_absent (d : list (string * val)) n : ~ In n (map fst d) -> dget d n = None.
Proof. induction d as [|[a b] d IH]; intros H; [reflexivity|]. cbn [map fst In] in H. cbn [dget]. destruct (String.eqb_spec a n); [tauto|]. apply IH. tauto. Qed.
Lemma dget_ext : forall d d' : list (string * val), NoDup (map fst d) -> map fst d' = map fst d -> (forall k, In k (map fst d) -> dget d' k = dget d k) -> d' = d.
Proof.
  induction d as [|[a b] d IH]; intros [|[a' b'] d'] ND E X; try discriminate; [reflexivity|]. cbn [map fst] in E, ND, X. injection E as -> E.
  apply NoDup_cons_iff in ND. destruct ND as [NI ND]. f_equal.
  - specialize (X a (or_introl eq_refl)). cbn [dget] in X. rewrite String.eqb_refl in X. congruence.
  - apply IH; [exact ND|exact E|]. intros k I. specialize (X k (or_intror I)). cbn [dget] in X. destruct (String.eqb_spec a k) as [Q|]; [rewrite Q in NI; contradiction|exact X].
Qed.
Lemma dset_keys (d : list (string * val)) n v : In n (map fst d) -> map fst (dset d n v) = map fst d.
Proof.
  induction d as [|[a b] d IH]; intros I; [destruct I|]. cbn [dset]. destruct (String.eqb_spec a n) as [->|NE]; [reflexivity|]. cbn [map fst]. f_equal. apply IH.
  destruct I as [I|I]; [cbn in I; congruence|exact I].
Qed.
Lemma updated_dset d n v d' : NoDup (map fst d) -> In n (map fst d) -> dict_updated d n v d' -> d' = dset d n v.
Proof.
  intros ND I (E & G & O). assert (U : dict_updated d n v (dset d n v)).
  { destruct (dget d n) as [w|] eqn:W; [eapply dset_updated; eauto|]. exfalso. clear - W I. induction d as [|[a b] d IH]; [destruct I|]. cbn [dget] in W.
    destruct (String.eqb_spec a n); [discriminate|]. destruct I as [I|I]; [cbn in I; congruence|auto]. }
  destruct U as (_ & G' & O'). apply dget_ext.
  - now rewrite dset_keys.
  - now rewrite dset_keys.
  - intros k _. destruct (String.eqb_spec k n) as [->|NE]; [congruence|]. rewrite O, O' by exact NE. reflexivity.
Qed.

Lemma layout_rigid L k fs : layout L k = Some fs -> flexible k = false.
Proof. destruct k; try reflexivity; discriminate. Qed.
Lemma record_rigid w k fs : record w k = Some fs -> flexible k = false.
Proof. destruct k; try reflexivity; discriminate. Qed.
Lemma rigid_vst k : flexible k = false -> k <> KVSTPlugin.
Proof. intros H ->. discriminate. Qed.

Lemma number_same_payload en k id L w v z : scalar_kind k = true -> domain k (VInt z) -> number v z ->
  payload en (Event id k L w v) = payload en (Event id k L w (VInt z)).
Proof.
  intros SK D [->|[->|(b & -> & ->)]]; destruct k; try discriminate SK; try reflexivity; try (destruct b; reflexivity); cbn [domain] in D;
    repeat match goal with H : exists _, _ |- _ => destruct H as [? H] | H : _ /\ _ |- _ => destruct H end; discriminate.
Qed.
Lemma sound_fits en e v : sound_event en e -> 0 <= e_id e < 256 -> allowed_id (e_kind e) (e_id e) = true -> (e_kind e = KUnknown -> 192 <= e_id e) ->
  (e_id e < 192 -> e_kind e <> KVSTPlugin) ->
  suits en e v -> sound_event en (with_val e v).
Proof.
  intros (b & e' & B & M & P & C & SM & X & Z) ID AL UN VI F. destruct F as [v SK D|v z SK NV D|b0 fs i m fd ty d old v c d' PB LA CU RE N T EV DG NN ST BC DC UP|b0 rs l j m fd ty d v c d' PB RC N T EV NJ ST BC DC UP|b0 ty l j id x y EK PB EV NJ FIT].
  - destruct (proj2 (domain_exact en (e_kind e) (e_id e) v SK ID AL UN) D) as (L0 & w0 & p1 & e1 & P1 & B1 & M1 & V1).
    assert (PE : payload en (with_val e v) = Ok p1) by (unfold with_val; rewrite <- P1; apply scalar_payload; exact SK).
    exists p1, e1. destruct (mk_event_inv _ _ _ _ _ M1) as (v0 & r0 & _ & EE & _). cbn [with_val e_kind e_id].
    split; [exact B1|]. split; [exact M1|]. split; [exact PE|].
    split; [|split; [rewrite EE in *; cbn [e_val] in V1; split; [cbn; congruence|split; [cbn; congruence|left; cbn; congruence]]|split; [right; unfold flexible; now rewrite SK|intros K; rewrite K in SK; discriminate]]].
    apply (payload_canonical en _ _ p1 e1 B1 M1). rewrite <- PE. rewrite EE in *. cbn [e_val] in V1. subst v0. unfold with_val. now apply scalar_payload.
  - destruct (proj2 (domain_exact en (e_kind e) (e_id e) (VInt z) SK ID AL UN) D) as (L0 & w0 & p1 & e1 & P1 & B1 & M1 & V1).
    assert (PE : payload en (with_val e v) = Ok p1) by (unfold with_val; rewrite <- P1, (number_same_payload en _ _ _ _ v z SK D NV); apply scalar_payload; exact SK).
    exists p1, e1. destruct (mk_event_inv _ _ _ _ _ M1) as (v0 & r0 & _ & EE & _). cbn [with_val e_kind e_id].
    split; [exact B1|]. split; [exact M1|]. split; [exact PE|].
    split; [|split; [rewrite EE in *; cbn [e_val] in V1; split; [cbn; congruence|split; [cbn; congruence|right; exists z; split; [exact NV|cbn; congruence]]]|split; [right; unfold flexible; now rewrite SK|intros K; rewrite K in SK; discriminate]]].
    apply (payload_canonical en _ _ p1 e1 B1 M1). rewrite <- PE. rewrite EE in *. cbn [e_val] in V1. subst v0. unfold with_val. rewrite (number_same_payload en _ _ _ _ v z SK D NV). now apply scalar_payload.
  - assert (b0 = b) by congruence. subst b0. pose proof (layout_rigid _ _ _ LA) as RG. destruct X as [->|X]; [|congruence].
    destruct (written_saved en _ _ b e fs i m fd ty v d old c v B M C LA CU RE N T EV DG NN ST BC DC) as (b' & B' & ZB & M' & P').
    destruct (struct_event_dec en _ _ b e fs B M LA) as (EE & _ & ND).
    assert (DD : d = dec_fields en fs b) by (rewrite EE in EV; cbn [e_val] in EV; congruence).
    assert (U : d' = dset d (f_name fd) v).
    { apply updated_dset; [| |exact UP].
      - rewrite DD, dec_names. exact ND.
      - rewrite DD, dec_names. apply in_map. eapply nth_error_In; eauto. }
    subst d'. exists b', (with_val e (VDict (dset d (f_name fd) v))). cbn [with_val e_kind e_id]. split; [exact B'|]. split; [exact M'|]. split; [exact P'|].
    split; [apply (payload_canonical en _ _ b' _ B' M'); exact P'|]. split; [split; [reflexivity|split; [reflexivity|now left]]|]. split; [now left|]. intros K. now destruct (rigid_vst _ RG).
  - assert (b0 = b) by congruence. subst b0. pose proof (record_rigid _ _ _ RC) as RG. destruct X as [->|X]; [|congruence].
    pose proof (item_written en _ _ b e rs j m fd ty v l d c v B M C RC N T EV NJ ST BC DC) as (B' & ZB & M' & P').
    assert (LJ : (j < length l)%nat) by (apply nth_error_Some; congruence).
    assert (U : d' = dset d (f_name fd) v).
    { pose proof (list_event_dec en _ _ b e rs B M RC) as EE.
      assert (DD : exists q, d = dec_fields en rs q).
      { rewrite EE in EV. cbn [e_val] in EV. injection EV as <-. rewrite nth_error_map in NJ. destruct (nth_error (seq 0 _) j); [|discriminate]. cbn [option_map] in NJ.
        unfold rec_val in NJ. injection NJ as <-. eauto. }
      destruct DD as (q & ->). destruct (record_ok en (zlen b) (new_of b) _ rs RC) as (cs & _ & F & NM & _). destruct (names_ok_spec _ NM) as [ND _].
      assert (EN : map fst cs = map f_name rs) by (clear - F; induction F as [|x0 y l l' [H _] F IH]; [reflexivity|]; cbn [map]; now rewrite H, IH). rewrite EN in ND.
      apply updated_dset; [rewrite dec_names; exact ND|rewrite dec_names; apply in_map; eapply nth_error_In; eauto|exact UP]. }
    subst d'. rewrite <- lset_parts by exact LJ. eexists _, (with_val e (VList (lset l j (VDict (dset d (f_name fd) v))))). cbn [with_val e_kind e_id]. split; [exact B'|]. split; [exact M'|]. split; [exact P'|].
    split; [apply (payload_canonical en _ _ _ _ B' M'); exact P'|]. split; [split; [reflexivity|split; [reflexivity|now left]]|]. split; [now left|]. intros K. now destruct (rigid_vst _ RG).
  - assert (b0 = b) by congruence. subst b0. rewrite EK in *. specialize (Z eq_refl).
    destruct (vst_canonical en (e_id e) b e' B Z M C) as (ty' & bb & l' & TY & EB & KP & EE).
    assert (EV' : e_val e' = e_val e) by (destruct SM as (_ & _ & [SM|(z & NZ & _)]); [exact SM|rewrite EV in NZ; destruct NZ as [NZ|[NZ|(? & NZ & _)]]; discriminate]). rewrite EE, EV in EV'. cbn [e_val] in EV'. injection EV' as -> ->.
    assert (LJ : (j < length l)%nat) by (apply nth_error_Some; congruence).
    assert (HS : has_sub_id id (VDict [("id"%string, VEnum id); ("data"%string, x)])).
    { exists [("id"%string, VEnum id); ("data"%string, x)], (VEnum id). split; [reflexivity|]. split; [reflexivity|right; left; reflexivity]. }
    assert (Y : exists q, is_bytes q /\ zlen b + zlen q < 2 ^ 64 /\ sub_means id q y /\ forall cx, cbuild (inner_con id) cx y = Ok q).
    { destruct FIT as [[TS (s & -> & SC & SZ)]|[RS (q & -> & BQ & SZ)]].
      - destruct (text_written id s TS SC) as (q & BQ & ZQ & MQ & CQ). exists q. repeat split; try assumption. lia.
      - destruct (raw_written id q RS BQ) as (MQ & CQ). exists q. auto. }
    destruct Y as (q & BQ & ZQ & MQ & CQ). pose proof (zlen_nonneg _ b) as Zb.
    destruct (kept_replace id q y _ BQ ltac:(lia) MQ CQ HS bb l j KP NJ) as (b2 & KP2 & Z2).
    cbn [dset String.eqb Ascii.eqb Bool.eqb] in KP2. fold (sub_dict id y) in KP2. rewrite lset_parts in KP2 by exact LJ.
    exists (le 4 ty ++ b2). eexists. cbn [with_val e_kind e_id]. rewrite EK.
    assert (VM : vst_means (le 4 ty ++ b2) ty (firstn j l ++ sub_dict id y :: skipn (S j) l)) by (constructor; [exact TY|now apply kept_mean]).
    assert (I192 : 192 <= e_id e) by (destruct (Z.lt_ge_cases (e_id e) 192) as [LT|]; [now destruct (VI LT)|assumption]).
    assert (PV : forall a w, payload en (Event (e_id e) KVSTPlugin a w (VDict [("type"%string, VInt ty); ("events"%string, VList (firstn j l ++ sub_dict id y :: skipn (S j) l))])) = Ok (le 4 ty ++ b2)) by (intros; now apply vst_payload_of).
    pose proof (vst_event_means en _ _ _ (e_id e) VM AL I192) as VE.
    assert (B2 : is_bytes (le 4 ty ++ b2)) by apply (vst_bytes _ _ _ VM).
    split; [exact B2|]. split; [exact VE|]. split; [unfold with_val; rewrite EK; apply PV|].
    split; [apply (payload_canonical en _ _ _ _ B2 VE); apply PV|]. split; [split; [reflexivity|split; [cbn; congruence|now left]]|]. split; [right; reflexivity|].
    intros _. rewrite EB, zlen_app in ZQ. rewrite zlen_app. lia.
Qed.

(* the events are the ones loaded, or given other values, and all can be written down *)
Definition kept_event (en : env) (e0 e : event) : Prop := e_id e = e_id e0 /\ e_kind e = e_kind e0 /\ sound_event en e /\ (steering (e_id e0) -> e = e0).

Lemma canonical_sound en f p : is_bytes f -> parse en f = Ok p -> canonical_file en f ->
  Forall (fun e => sound_event en e /\ 0 <= e_id e < 256 /\ allowed_id (e_kind e) (e_id e) = true /\ (e_kind e = KUnknown -> 192 <= e_id e) /\ (e_id e < 192 -> e_kind e <> KVSTPlugin)) (pr_events p).
Proof.
  intros Hb H HC. destruct (canonical_encodes en f p Hb H HC) as (cs & HE & HI & _ & _ & _ & _ & (_ & Z) & _).
  pose proof (encodes_classes en _ _ _ HE HI) as CL. pose proof (canonical_read en f p Hb H HC) as CR.
  rewrite Forall_forall in *. intros e I. destruct (CR e I) as (b & B & M & P & C). destruct (CL e I) as [A U].
  assert (K192 : e_id e < 192 -> e_kind e <> KVSTPlugin).
  { intros LT EK. pose proof (HI e I) as GE. clear - HE I LT EK GE. induction HE as [|h e0 es p0 cs e' HP HB HC HVN HM HS HE IH]; [destruct I|]. destruct I as [->|I]; [|auto].
    destruct (class_fixed en h (e_id e) p0 (e_kind e) ltac:(lia) HC) as [F _]. now rewrite EK in F. }
  split; [|split; [now apply HI|split; [exact A|split; [exact U|exact K192]]]].
  exists b, e. split; [exact B|]. split; [exact M|]. split; [exact P|]. split; [exact C|]. split; [split; [reflexivity|split; [reflexivity|now left]]|]. split; [now left|]. intros _.
  assert (ZB : zlen b <= chunks_size cs).
  { clear - HE I P. induction HE as [|h e0 es p0 cs e' HP HB HC HVN HM HS HE IH]; [destruct I|]. unfold chunks_size in *. cbn [map fold_right].
    assert (NN : forall l, 0 <= fold_right Z.add 0 (map chunk_size l)) by (clear; induction l as [|c l IH]; cbn [map fold_right]; [lia|]; pose proof (chunk_size_pos c); lia).
    destruct I as [->|I].
    - assert (p0 = b) by congruence. subst p0. specialize (NN cs). unfold chunk_size at 1. cbn [fst snd]. destruct (Z.ltb_spec (e_id e) 192) as [L|L].
      + pose proof (mk_id_range _ _ _ _ _ HM L). lia.
      + assert (0 <= prefix_size (zlen b)) by (unfold prefix_size; pose proof (Z.log2_nonneg (zlen b)); lia). lia.
    - specialize (IH I). pose proof (chunk_size_pos (e_id e0, p0)). lia. }
  assert (2 ^ 32 < 2 ^ 64) by reflexivity. lia.
Qed.

Lemma Forall2_nth_l A B (P : A -> B -> Prop) l l' i x : Forall2 P l l' -> nth_error l i = Some x -> exists y, nth_error l' i = Some y /\ P x y.
Proof. intros F. revert i. induction F as [|a b l l' X F IH]; intros [|i] N; try discriminate; cbn [nth_error] in *; [injection N as <-; eauto|auto]. Qed.
Lemma set_val_evs h r v : h_evs (set_val h r v) = lset (h_evs h) r (with_val (ev_of h r) v).
Proof. reflexivity. Qed.
Lemma Forall2_lset A B (P : A -> B -> Prop) l l' r y : Forall2 P l l' -> (forall x, nth_error l r = Some x -> P x y) -> Forall2 P l (lset l' r y).
Proof.
  intros F. revert r. induction F as [|a b l l' X F IH]; intros [|r] H; cbn [lset]; constructor; auto.
Qed.

Lemma edits_kept en evs h : Forall (fun e => sound_event en e /\ 0 <= e_id e < 256 /\ allowed_id (e_kind e) (e_id e) = true /\ (e_kind e = KUnknown -> 192 <= e_id e) /\ (e_id e < 192 -> e_kind e <> KVSTPlugin)) evs ->
  edits en evs h -> session evs h /\ Forall2 (kept_event en) evs (h_evs h).
Proof.
  intros F E. induction E as [|h h' E IH O|h r v E IH NS FI].
  - split; [constructor|]. clear - F. change (h_evs (parsed evs)) with evs. induction F as [|e es (S & _) F IH]; constructor; [|exact IH]. repeat split; auto.
  - destruct IH as [S K]. split; [eapply ses_look; eauto|]. now rewrite (view_op_evs _ _ O).
  - destruct IH as [S K]. split; [apply ses_edit; [exact S|reflexivity]|]. rewrite set_val_evs. apply Forall2_lset; [exact K|].
    intros e0 N. destruct (Forall2_nth_l _ _ _ _ _ _ _ K N) as (e & N' & (EI & EK & SE & ST)).
    assert (EE : ev_of h r = e) by (unfold ev_of; now apply nth_error_nth). rewrite EE in *.
    rewrite Forall_forall in F. destruct (F e0 (nth_error_In _ _ N)) as (_ & R1 & R2 & R3 & R4).
    split; [exact EI|]. split; [exact EK|]. split; [|intros X; rewrite EI in NS; contradiction].
    apply sound_fits; try assumption; rewrite EI, ?EK; assumption.
Qed.

(* what is written is what the events as they will be read are written as *)
Definition written_like (en : env) (a b : event) : Prop := alike a b /\ payload en a = payload en b.
Lemma written_bytes en : forall es es', Forall2 (written_like en) es es' -> events_bytes en es = events_bytes en es' /\ count_id 64 es = count_id 64 es'.
Proof.
  induction 1 as [|a b l l' [(EI & _) EP] F [IH1 IH2]]; [split; reflexivity|]. unfold count_id in *. cbn [events_bytes filter]. unfold event_bytes. rewrite EI, EP, IH1.
  split; [reflexivity|]. destruct (e_id b =? 64); [now rewrite !zlen_cons, IH2|exact IH2].
Qed.
Lemma written_serialise en es es' ch fmt q : Forall2 (written_like en) es es' -> serialise en (Project es ch fmt q) = serialise en (Project es' ch fmt q).
Proof. intros F. destruct (written_bytes en _ _ F) as [E C]. unfold serialise, num_channels. cbn [pr_events pr_format pr_ppq]. now rewrite E, C. Qed.
Lemma written_total en es es' n : Forall2 (written_like en) es es' -> total_size en es' n -> total_size en es n.
Proof.
  intros F. revert n. induction F as [|a b l l' [(EI & _) EP] F IH]; intros n T; inversion T; subst; constructor; [|auto].
  match goal with X : event_size en b = Ok _ |- _ => rewrite <- X end. unfold event_size, event_bytes. now rewrite EI, EP.
Qed.

Lemma kept_encodes en : forall es h cs, encodes en h es cs -> forall es1 h', Forall2 like h h' -> Forall2 (kept_event en) es es1 ->
  exists es2 cs', encodes en h' es2 cs' /\ map fst cs' = map fst cs /\ Forall2 (written_like en) es1 es2.
Proof.
  induction 1 as [h|h e es p cs e' HP HB HC HV HM HS HE IH]; intros es1 h' L K; inversion K as [|e0 e1 es0 es2 (EI & EK & SE & ST) K']; subst.
  - exists [], []. split; [constructor|]. split; [reflexivity|constructor].
  - destruct SE as (b & e2 & B & M & P & C & A & _). pose proof A as (AI & AK & _). pose proof (proj2 (payload_canonical en _ _ _ _ B M) C) as P2.
    assert (LK : like (e_id e, p) (e_id e1, b)).
    { destruct (Z.eq_dec (e_id e) 199) as [X|N9]; [|destruct (Z.eq_dec (e_id e) 201) as [X|N1]].
      - assert (e1 = e) by (apply ST; now left). subst e1. assert (b = p) by congruence. subst. apply like_refl.
      - assert (e1 = e) by (apply ST; now right). subst e1. assert (b = p) by congruence. subst. apply like_refl.
      - rewrite EI. apply like_other. unfold steering. tauto. }
    assert (L' : Forall2 like ((e_id e, p) :: h) ((e_id e1, b) :: h')) by (constructor; assumption).
    destruct (IH es2 _ L' K') as (es3 & cs' & HE' & EF & W). exists (e2 :: es3), ((e_id e2, b) :: cs'). split; [|split; [cbn [map fst]; congruence|constructor; [split; [exact A|congruence]|exact W]]].
    rewrite AI in *. eapply ECons; [exact P2|exact B| | |rewrite <- AK; exact M|repeat split|exact HE'].
    + rewrite <- (like_class en _ _ L'). congruence.
    + intros X. assert (e1 = e) by (apply ST; left; congruence). subst e1. assert (b = p) by congruence. subst. apply HV. congruence.
Qed.

Lemma encodes_size en h es cs : encodes en h es cs -> Forall (fun e => 0 <= e_id e < 256) es -> total_size en es (chunks_size cs).
Proof.
  induction 1 as [h|h e es p cs e' HP HB HC HV HM HS HE IH]; intros F; [constructor|]. inversion F as [|e0 es0 I F']; subst.
  unfold chunks_size in *. cbn [map fold_right]. constructor; [|auto]. unfold event_size, chunk_size. cbn [fst snd].
  destruct (Z.leb_spec 192 (e_id e)) as [L|L].
  - rewrite (event_bytes_eq en e I), HP. cbn [bind]. replace (e_id e <? 192) with false by lia. pose proof (zlen_nonneg _ p).
    rewrite zlen_cons, zlen_app, varint_len by lia. f_equal. lia.
  - replace (e_id e <? 192) with true by lia. unfold width.
    destruct (Z.leb_spec 128 (e_id e)); [replace (e_id e <? 64) with false by lia; replace (e_id e <? 128) with false by lia; reflexivity|].
    destruct (Z.leb_spec 64 (e_id e)); [replace (e_id e <? 64) with false by lia; replace (e_id e <? 128) with true by lia; reflexivity|].
    replace (e_id e <? 64) with true by lia. reflexivity.
Qed.

Theorem edits_saved_all en f p h : is_bytes f -> parse en f = Ok p -> canonical_file en f -> edits en (pr_events p) h ->
  (forall n, total_size en (root_events h) n -> n < 2 ^ 32) ->
  exists f' p', serialise en (Project (root_events h) (pr_channel_count p) (pr_format p) (pr_ppq p)) = Ok f' /\ parse en f' = Ok p' /\
    Forall2 alike (root_events h) (pr_events p') /\
    pr_channel_count p' = pr_channel_count p /\ pr_format p' = pr_format p /\ pr_ppq p' = pr_ppq p /\
    views (parsed (pr_events p')) (with_evs h (pr_events p')) /\
    forall t, (t < nt h)%nat -> Forall2 alike (events h t) (events (with_evs h (pr_events p')) t).
Proof.
  intros Hb H HC E SZ. destruct (canonical_encodes en f p Hb H HC) as (cs & HE & HI & Hf & Hq & Hch & Hc & _ & NE).
  destruct (edits_kept en _ h (canonical_sound en f p Hb H HC) E) as [S K].
  destruct (session_views _ _ S) as [V IDS].
  assert (NE' : h_evs h <> []) by (intros X; rewrite X in K; inversion K; congruence).
  destruct (tidy_views _ _ NE' V) as [_ RE]. rewrite RE in *.
  destruct (kept_encodes en _ _ _ HE (h_evs h) [] ltac:(constructor) K) as (es2 & cs' & HE' & EF & W).
  assert (HI' : Forall (fun e => 0 <= e_id e < 256) es2).
  { assert (HI1 : Forall (fun e => 0 <= e_id e < 256) (h_evs h)) by (clear - HI K; induction K as [|x y l l' (X & _) K IH]; constructor; inversion HI; subst; [rewrite X; assumption|auto]).
    clear - HI1 W. induction W as [|x y l l' [(X & _) _] W IH]; constructor; inversion HI1; subst; [rewrite <- X; assumption|auto]. }
  pose proof (written_total en _ _ _ W (encodes_size en _ _ _ HE' HI')) as TS. pose proof (count_fst 64 _ _ EF) as CC.
  destruct (save_load en (Project es2 (pr_channel_count p) (pr_format p) (pr_ppq p)) cs' HE' HI' Hf Hq ltac:(rewrite CC; exact Hc) (SZ _ TS)) as (f' & es' & S1 & S2 & S3).
  cbn [pr_events pr_format pr_ppq] in *. exists f', (Project es' (count_chunks 64 cs') (pr_format p) (pr_ppq p)). cbn [pr_events pr_channel_count pr_format pr_ppq].
  assert (AL : Forall2 alike (h_evs h) es').
  { clear - W S3. revert es' S3. induction W as [|x y l l' [(A & B & C) _] W IH]; intros es' S3; inversion S3 as [|y' z l0 l1 (A' & B' & C') S4]; subst; constructor; [|auto].
    split; [congruence|]. split; [congruence|]. rewrite <- C'. exact C. }
  split; [rewrite (written_serialise en _ _ _ _ _ W); exact S1|]. split; [exact S2|]. split; [exact AL|]. split; [congruence|]. split; [reflexivity|]. split; [reflexivity|].
  assert (SI : P_Session.same_ids es' (h_evs h)) by (unfold P_Session.same_ids; clear - AL; induction AL as [|x y l l' (X & _) AL IH]; cbn [map]; congruence).
  split; [eapply views_with; [exact SI|exact V]|].
  intros t L. rewrite !events_refs. change (refs (with_evs h es') t) with (refs h t).
  destruct (views_tree _ _ t NE' V L) as (_ & _ & F). clear - F AL. induction F as [|r l X F IH]; cbn [map]; constructor; [|exact IH].
  destruct (Forall2_nth_l _ _ _ _ _ _ _ AL X) as (y & Y & SE). unfold ev_of at 2. cbn [with_evs h_evs]. now rewrite (nth_error_nth _ _ _ Y).
Qed.

(* ------------------------------------------------------------------ steps of a session *)

Lemma give en f p h r v : editing en f p h -> ~ (e_id (ev_of h r) = 199 \/ e_id (ev_of h r) = 201) -> suits en (ev_of h r) v -> editing en f p (set_val h r v).
Proof. intros (A & B & C & E) N S. split; [exact A|]. split; [exact B|]. split; [exact C|]. now apply edits_give. Qed.
Lemma look en f p h h' : editing en f p h -> view_op h h' -> editing en f p h'.
Proof. intros (A & B & C & E) O. split; [exact A|]. split; [exact B|]. split; [exact C|]. eapply edits_look; eauto. Qed.
Lemma editing_session en f p h : editing en f p h -> pr_events p <> [] /\ session (pr_events p) h.
Proof.
  intros (Hb & H & HC & E). destruct (canonical_encodes en f p Hb H HC) as (cs & _ & _ & _ & _ & _ & _ & _ & NE). split; [exact NE|].
  exact (proj1 (edits_kept en _ h (canonical_sound en f p Hb H HC) E)).
Qed.
Lemma editing_event en f p h r : editing en f p h -> (r < length (h_evs h))%nat ->
  sound_event en (ev_of h r) /\ 0 <= e_id (ev_of h r) < 256 /\ allowed_id (e_kind (ev_of h r)) (e_id (ev_of h r)) = true /\
  (e_kind (ev_of h r) = KUnknown -> 192 <= e_id (ev_of h r)) /\ (forall k, registered en (e_id (ev_of h r)) = Some k -> e_kind (ev_of h r) = k).
Proof.
  intros (Hb & H & HC & E) L. pose proof (canonical_sound en f p Hb H HC) as CS. destruct (edits_kept en _ h CS E) as [_ K].
  destruct (canonical_encodes en f p Hb H HC) as (cs & HE & _).
  assert (N : nth_error (h_evs h) r = Some (ev_of h r)) by (apply nth_error_nth'; exact L).
  assert (X : exists e0, nth_error (pr_events p) r = Some e0 /\ kept_event en e0 (ev_of h r)).
  { clear - K N. revert r N. generalize (ev_of h) as g. intros g r. generalize (g r) as e. clear g. revert r. induction K as [|x y l l' X K IH]; intros [|r] e N; try discriminate; cbn [nth_error] in *; [injection N as <-; eauto|eauto]. }
  destruct X as (e0 & N0 & EI & EK & SE & _). rewrite Forall_forall in CS. pose proof (nth_error_In _ _ N0) as I0. destruct (CS e0 I0) as (_ & R & A & U & _). rewrite EI, EK.
  split; [exact SE|]. split; [exact R|]. split; [exact A|]. split; [exact U|]. intros k RG. exact (registered_kind en p e0 cs k HE I0 RG).
Qed.
Lemma editing_in en f p h t r : editing en f p h -> (t < nt h)%nat -> In r (refs h t) -> (r < length (h_evs h))%nat.
Proof.
  intros E L I. destruct (editing_session _ _ _ _ E) as [NE S]. destruct (session_root _ _ NE S) as (NE' & V & _).
  destruct (views_tree _ _ t NE' V L) as (W & _ & _). unfold in_heap in W. rewrite Forall_forall in W. now apply W.
Qed.
Lemma editing_payload en f p h r : editing en f p h -> (r < length (h_evs h))%nat -> exists b, is_bytes b /\ payload en (ev_of h r) = Ok b.
Proof. intros E L. destruct (editing_event _ _ _ _ _ E L) as ((b & e' & B & _ & P & _) & _). eauto. Qed.

(* the event a property of a view refers to *)
Lemma chosen_ref en f p h t ids k e : editing en f p h -> (t < nt h)%nat -> ids <> [] -> chosen ids (events h t) (Some k) -> nth_error (events h t) k = Some e ->
  exists r, get_event h ids (EvModel t) = Ok (Some (TEvent r)) /\ ev_of h r = e /\ (r < length (h_evs h))%nat.
Proof.
  intros ED L NI CH E. destruct (get_event_spec h t ids NI) as [A _]. destruct (A k CH) as (c & K & G). exists (ref_of h c). split; [exact G|].
  assert (R : nth_error (refs h t) k = Some (ref_of h c)) by (unfold refs; now rewrite nth_error_map, K).
  split; [rewrite events_refs, nth_error_map, R in E; cbn in E; congruence|]. eapply editing_in; [exact ED|exact L|]. eapply nth_error_In; eauto.
Qed.
(* the event self.events.first(id) finds *)
Lemma first_ref en f p h t id e m : editing en f p h -> (t < nt h)%nat -> filter (fun e => e_id e =? id) (events h t) = e :: m ->
  exists c l, get_ie h t [id] = c :: l /\ contains h t id = true /\ ev_of h (ref_of h c) = e /\ (ref_of h c < length (h_evs h))%nat /\ e_id e = id.
Proof.
  intros ED L F. destruct (first_event _ _ _ _ _ F) as (c & l & G & E & I & C & _ & _). exists c, l. split; [exact G|]. split; [exact C|].
  split; [exact E|]. split; [eapply editing_in; [exact ED|exact L|]; unfold refs; apply in_map; exact I|]. assert (X : In e (e :: m)) by (left; reflexivity). rewrite <- F in X. apply filter_In in X as [_ X]. now apply Z.eqb_eq.
Qed.

(* one field of a struct *)
Lemma give_field en f p h r b fs i m fd ty d old v c : editing en f p h -> ~ (e_id (ev_of h r) = 199 \/ e_id (ev_of h r) = 201) ->
  payload en (ev_of h r) = Ok b -> layout (zlen b) (e_kind (ev_of h r)) = Some fs -> cut_at fs b i -> readable en fs b i ->
  nth_error fs m = Some fd -> f_type fd = Some ty -> e_val (ev_of h r) = VDict d -> dget d (f_name fd) = Some old -> old <> VNone ->
  stored_as ty v c -> is_bytes c -> ft_dec en ty c = Some v ->
  exists h', tg_set h (TEvent r) (f_name fd) v = (h', Ok tt) /\ editing en f p h' /\ h' = set_val h r (VDict (dset d (f_name fd) v)).
Proof.
  intros ED NS P LY CU RD N T D A NA ST BC DC. exists (set_val h r (VDict (dset d (f_name fd) v))). split; [|split; [|reflexivity]].
  - cbn [tg_set]. unfold struct_set. rewrite (layout_struct _ _ _ LY), D, A. destruct old; try reflexivity. congruence.
  - apply give; [exact ED|exact NS|]. eapply fit_field; try eassumption. eapply dset_updated. exact A.
Qed.
(* one field of an element *)
Lemma list_value en f p h r i d b rs : editing en f p h -> element h r i d -> payload en (ev_of h r) = Ok b -> record (new_of b) (e_kind (ev_of h r)) = Some rs ->
  e_val (ev_of h r) = VList (map (rec_val en rs b) (seq 0 (length b / rec_size rs))) /\ e_val (ev_of h r) = VList (items (ev_of h r)).
Proof.
  intros ED (LR & _ & NI) P RC.
  destruct (editing_event _ _ _ _ _ ED LR) as ((b0 & e' & B0 & M0 & P0 & C0 & _ & X0 & _) & _). assert (b0 = b) by congruence. subst b0.
  pose proof (record_rigid _ _ _ RC) as RG. destruct X0 as [->|X0]; [|congruence]. pose proof (list_event_dec en _ _ b _ rs B0 M0 RC) as EE.
  assert (EV : e_val (ev_of h r) = VList (map (rec_val en rs b) (seq 0 (length b / rec_size rs)))) by (rewrite EE; reflexivity).
  split; [exact EV|]. unfold items in *. rewrite EV in *. destruct (list_usable (ev_of h r)); [reflexivity|destruct i; discriminate].
Qed.
Lemma give_item en f p h r i d b rs m fd ty v c : editing en f p h -> ~ (e_id (ev_of h r) = 199 \/ e_id (ev_of h r) = 201) -> element h r i d ->
  payload en (ev_of h r) = Ok b -> record (new_of b) (e_kind (ev_of h r)) = Some rs -> nth_error rs m = Some fd -> f_type fd = Some ty ->
  stored_as ty v c -> is_bytes c -> ft_dec en ty c = Some v ->
  exists h', tg_set h (TItem r i) (f_name fd) v = (h', Ok tt) /\ editing en f p h' /\ element h' r i (dset d (f_name fd) v) /\ nt h' = nt h /\
    e_id (ev_of h' r) = e_id (ev_of h r) /\ e_kind (ev_of h' r) = e_kind (ev_of h r).
Proof.
  intros ED NS EL P RC N T ST BC DC. destruct (list_value _ _ _ _ _ _ _ _ _ ED EL P RC) as [LE LV]. pose proof EL as (LR & IK & NI).
  assert (LI : (i < length (items (ev_of h r)))%nat) by (apply nth_error_Some; congruence).
  destruct (element_set h r i d (f_name fd) v EL) as (h' & w & E & O & IT & EL'). exists h'. split; [exact E|].
  assert (HH : h' = set_val h r (VList (lset (items (ev_of h r)) i (VDict (dset d (f_name fd) v))))).
  { cbn [tg_set] in E. rewrite NI in E. injection E as <-. unfold set_val, set_items. now rewrite LV. }
  split; [|split; [exact EL'|]].
  - rewrite HH. apply give; [exact ED|exact NS|]. rewrite lset_parts by exact LI.
    assert (DG : exists o, dget d (f_name fd) = Some o).
    { rewrite LE in LV.
      assert (NI' : nth_error (map (rec_val en rs b) (seq 0 (length b / rec_size rs))) i = Some (VDict d)) by (injection LV as ->; exact NI).
      rewrite nth_error_map in NI'. destruct (nth_error (seq 0 _) i) as [j|]; [|discriminate]. cbn [option_map] in NI'. unfold rec_val in NI'. injection NI' as <-.
      destruct (dget (dec_fields en rs (slice b (j * rec_size rs) (rec_size rs))) (f_name fd)) eqn:D; [eauto|]. apply dget_None in D. exfalso. apply D. rewrite dec_names. apply in_map. eapply nth_error_In; eauto. }
    destruct DG as (o & DG). eapply fit_item; try eassumption. eapply dset_updated. exact DG.
  - destruct O as (A & B & C & _ & O2). split; [unfold nt; now rewrite B|]. rewrite O2. split; reflexivity.
Qed.
