(* Text, automation, NoteBook 2 and VST payloads. *)
From Coq Require Import String ZArith List Bool Lia Arith.
From Verif Require Import M_Base M_Float M_Text M_Construct M_Structs M_Events.
From Verif Require Import S_Canon P_Base P_Codec P_Float P_Text P_RT P_Cells P_Kinds P_Lists.
Import ListNotations.
Open Scope Z_scope.

(* ------------------------------------------------------------------ *)
(* Text *)
Lemma ascii_enc_app a b : ascii_enc (a ++ b) =
  match ascii_enc a, ascii_enc b with Some x, Some y => Some (x ++ y) | _, _ => None end.
Proof.
  unfold ascii_enc. rewrite forallb_app.
  destruct (forallb _ a), (forallb _ b); reflexivity.
Qed.
Lemma utf16_enc_app a b : utf16_enc (a ++ b) =
  match utf16_enc a, utf16_enc b with Some x, Some y => Some (x ++ y) | _, _ => None end.
Proof.
  induction a as [|c a IH]; cbn [app utf16_enc].
  - destruct (utf16_enc b); reflexivity.
  - rewrite IH. destruct (utf16_enc1 c) as [x|]; [|reflexivity].
    destruct (utf16_enc a) as [y|]; [|reflexivity].
    destruct (utf16_enc b) as [z|]; [|reflexivity]. rewrite app_assoc. reflexivity.
Qed.

Section Text.
  Variable dec : bytes -> option pystr.
  Variable enc : pystr -> option bytes.
  Hypothesis Hde : forall b s, is_bytes b -> dec b = Some s -> enc s = Some b.
  Hypothesis Hed : forall s b, enc s = Some b -> dec b = Some s /\ is_bytes b.
  Hypothesis Happ : forall a b, enc (a ++ b) =
    match enc a, enc b with Some x, Some y => Some (x ++ y) | _, _ => None end.
  Hypothesis H0 : exists z, enc [0] = Some z.

  Lemma one_nul_spec b s : dec b = Some s -> one_nul dec b = true <-> s = rstrip0 s ++ [0].
  Proof.
    intros E. unfold one_nul. rewrite E.
    destruct (rstrip0_spec s) as [n Hn].
    pose proof (rstrip0_no_trail s) as Ht.
    assert (Hr : rev s = repeat 0 n ++ rev (rstrip0 s)).
    { rewrite Hn at 1. rewrite rev_app_distr. f_equal.
      clear. induction n as [|n IH]; [reflexivity|]. cbn [repeat rev]. rewrite IH.
      clear. induction n; cbn [repeat app]; [reflexivity|congruence]. }
    assert (Hz : forall r, rev (rstrip0 s) <> 0 :: r).
    { intros r Er. apply (f_equal (@rev Z)) in Er. rewrite rev_involutive in Er. cbn [rev] in Er.
      apply (Ht (rev r)). exact Er. }
    rewrite Hr.
    assert (Hn1 : s = rstrip0 s ++ [0] <-> n = 1%nat).
    { split; [|intros ->; exact Hn]. intros X. rewrite X in Hn at 1.
      apply app_inv_head in Hn. destruct n as [|[|n]]; try discriminate. reflexivity. }
    rewrite Hn1.
    destruct n as [|[|n]]; cbn [repeat app].
    - destruct (rev (rstrip0 s)) as [|c r] eqn:Er; [split; discriminate|].
      destruct (Z.eq_dec c 0) as [->|Hc]; [exfalso; apply (Hz r); reflexivity|].
      destruct c; try congruence; split; discriminate.
    - destruct (rev (rstrip0 s)) as [|c r] eqn:Er; [split; reflexivity|].
      destruct (Z.eq_dec c 0) as [->|Hc]; [exfalso; apply (Hz r); reflexivity|].
      destruct c; try congruence; split; reflexivity.
    - split; discriminate.
  Qed.

  Lemma text_rt cx cx' bs v rest : is_bytes bs -> cparse (text_con dec enc) cx bs = Ok (v, rest) ->
    rest = [] /\ exists s, dec bs = Some s /\ v = VStr (rstrip0 s) /\
    exists out, cbuild (text_con dec enc) cx' v = Ok out /\ dec out = Some (rstrip0 s ++ [0]) /\
      (out = bs <-> one_nul dec bs = true).
  Proof.
    intros Hb H. cbn [text_con Adapter GreedyString GreedyBytes cparse bind] in H.
    destruct (dec bs) as [s|] eqn:E; [|discriminate]. cbn [bind] in H. injection H as <- <-.
    split; [reflexivity|]. exists s. split; [reflexivity|]. split; [reflexivity|].
    cbn [text_con Adapter GreedyString GreedyBytes cbuild bind].
    pose proof (Hde _ _ Hb E) as Es.
    destruct (rstrip0_spec s) as [n Hn]. rewrite Hn, Happ in Es.
    destruct (enc (rstrip0 s)) as [x|] eqn:Ex; [|discriminate].
    destruct H0 as [z Ez].
    assert (Eo : enc (rstrip0 s ++ [0]) = Some (x ++ z)) by (rewrite Happ, Ex, Ez; reflexivity).
    rewrite Eo. cbn [bind]. exists (x ++ z). split; [reflexivity|].
    destruct (Hed _ _ Eo) as [Ed _]. split; [exact Ed|].
    rewrite (one_nul_spec _ _ E). split.
    - intros Hx. rewrite Hx, E in Ed. injection Ed as Ed. exact Ed.
    - intros Hs. rewrite <- Hs in Eo. rewrite (Hde _ _ Hb E) in Eo. injection Eo as ->. reflexivity.
  Qed.
End Text.

Lemma ascii_rt cx cx' bs v rest : is_bytes bs -> cparse AsciiText cx bs = Ok (v, rest) ->
    rest = [] /\ exists s, ascii_dec bs = Some s /\ v = VStr (rstrip0 s) /\
    exists out, cbuild AsciiText cx' v = Ok out /\ ascii_dec out = Some (rstrip0 s ++ [0]) /\
      (out = bs <-> one_nul ascii_dec bs = true).
Proof.
  apply text_rt.
  - intros b s. apply ascii_dec_enc.
  - intros s b. apply ascii_enc_dec.
  - apply ascii_enc_app.
  - eexists. reflexivity.
Qed.
Lemma unicode_rt cx cx' bs v rest : is_bytes bs -> cparse UnicodeText cx bs = Ok (v, rest) ->
    rest = [] /\ exists s, utf16_dec bs = Some s /\ v = VStr (rstrip0 s) /\
    exists out, cbuild UnicodeText cx' v = Ok out /\ utf16_dec out = Some (rstrip0 s ++ [0]) /\
      (out = bs <-> one_nul utf16_dec bs = true).
Proof.
  apply text_rt.
  - intros b s. apply utf16_dec_enc.
  - intros s b. apply utf16_enc_dec.
  - apply utf16_enc_app.
  - eexists. reflexivity.
Qed.

(* ------------------------------------------------------------------ *)
Lemma take_inv n bs d r : take n bs = Ok (d, r) -> bs = d ++ r /\ length d = n.
Proof.
  unfold take. destruct (Nat.leb_spec n (length bs)); [|discriminate].
  intros [= <- <-]. split; [symmetry; apply firstn_skipn|apply firstn_length_le; assumption].
Qed.
Lemma plain_inv c n D cx bs v r : plain c n D -> is_bytes bs -> cparse c cx bs = Ok (v, r) ->
  exists d, bs = d ++ r /\ length d = n /\ is_bytes d /\ v = D d.
Proof.
  intros (H1 & H2 & H3) Hb H.
  destruct (Nat.lt_ge_cases (length bs) n) as [Hl|Hl].
  - destruct (H1 cx bs Hb Hl) as (e & E & _). congruence.
  - rewrite <- (firstn_skipn n bs) in H. rewrite H2 in H;
      [|apply is_bytes_firstn; exact Hb|apply firstn_length_le; exact Hl].
    injection H as <- <-. exists (firstn n bs).
    split; [symmetry; apply firstn_skipn|]. split; [apply firstn_length_le; exact Hl|].
    split; [apply is_bytes_firstn; exact Hb|reflexivity].
Qed.

(* ------------------------------------------------------------------ *)
(* Automation *)
Lemma Ok_inj A (x y : A) : Ok x = Ok y -> x = y.
Proof. congruence. Qed.
Definition nostop (c : con) : Prop := forall cx bs, cparse c cx bs <> Err StopFieldError.
Lemma struct_step n c r cx acc bs d rest : nostop c ->
  struct_parse ((n, c) :: r) cx acc bs = Ok (d, rest) ->
  exists v bs', cparse c (cx_with_fields cx acc) bs = Ok (v, bs') /\
    struct_parse r cx (put acc n v) bs' = Ok (d, rest).
Proof.
  intros Hn H. cbn [struct_parse] in H.
  destruct (cparse c (cx_with_fields cx acc) bs) as [[v bs']|e] eqn:E.
  - exists v, bs'. split; [reflexivity|exact H].
  - exfalso. destruct e; try discriminate H. apply (Hn _ _ E).
Qed.
Lemma take_nostop n bs : take n bs <> Err StopFieldError.
Proof. unfold take. destruct (n <=? length bs)%nat; discriminate. Qed.
Lemma ns_f64 : nostop Float64l.
Proof. intros cx bs. cbn [Float64l cparse]. pose proof (take_nostop 8 bs). destruct (take 8 bs) as [[]|]; cbn [bind]; congruence. Qed.
Lemma ns_f32 : nostop Float32l.
Proof. intros cx bs. cbn [Float32l cparse]. pose proof (take_nostop 4 bs). destruct (take 4 bs) as [[]|]; cbn [bind]; congruence. Qed.
Lemma ns_bytes n : nostop (Bytes n).
Proof. intros cx bs. cbn [Bytes cparse]. pose proof (take_nostop n bs). destruct (take n bs) as [[]|]; cbn [bind]; congruence. Qed.
Lemma ns_uint n : nostop (c_uint n).
Proof. intros cx bs. cbn [c_uint cparse]. pose proof (take_nostop n bs). destruct (take n bs) as [[]|]; cbn [bind]; congruence. Qed.
Lemma ns_sint n : nostop (c_sint n).
Proof. intros cx bs. cbn [c_sint cparse]. pose proof (take_nostop n bs). destruct (take n bs) as [[]|]; cbn [bind]; congruence. Qed.

Lemma sum_offsets_nostop k : forall i pos stream, sum_offsets k i pos stream <> Err StopFieldError.
Proof.
  induction k as [|k IH]; intros i pos stream; cbn [sum_offsets]; [discriminate|].
  match goal with |- context [take 8 ?s] => pose proof (take_nostop 8 s); destruct (take 8 s) as [[]|] end;
  cbn [bind]; [apply IH|congruence].
Qed.
Lemma ns_position : nostop (Computed (fun cx =>
      if 0 <? cx_index cx
      then let* p := get_position (cx_stream cx) (cx_index cx) in Ok (VFlt p)
      else match dget (cx_fields cx) "_offset" with Some v => Ok v | None => Err KeyError end)).
Proof.
  intros cx bs. cbn [Computed cparse].
  destruct (0 <? cx_index cx).
  - unfold get_position. 
    match goal with |- context [sum_offsets ?a ?b ?c ?d] => pose proof (sum_offsets_nostop a b c d); destruct (sum_offsets a b c d) end;
    cbn [bind]; congruence.
  - destruct (dget (cx_fields cx) "_offset"); cbn [bind]; congruence.
Qed.
Lemma plain_f64 : plain Float64l 8 (fun b => VFlt (le_dec b)).
Proof.
  repeat split.
  - intros cx bs _ Hl. cbn [Float64l cparse]. rewrite take_short by exact Hl.
    eexists; split; [reflexivity|discriminate].
  - intros cx chunk rest Hb Hl. cbn [Float64l cparse]. rewrite (take_app _ _ 8 Hl). reflexivity.
  - intros cx chunk Hb Hl. cbn [Float64l cbuild as_float]. rewrite <- Hl, (le_enc_dec _ Hb). reflexivity.
Qed.

Lemma cell_inv P c k cx bs v r : cell_rt P c k -> c_fixed k = true -> P cx -> is_bytes bs ->
  cparse c cx bs = Ok (v, r) ->
  exists d, bs = d ++ r /\ length d = c_size k /\ is_bytes d /\
   forall cx', P cx' -> exists out, cbuild c cx' v = Ok out /\ length out = c_size k /\
     (out = d <-> c_ok k d = true).
Proof.
  intros Hc Hf Hcx Hb H. specialize (Hc cx bs Hcx Hb). destruct (fits k bs) eqn:Hfit.
  - destruct Hc as (v' & E & Hbd). rewrite E in H. injection H as -> <-.
    unfold fits in Hfit. apply andb_true_iff in Hfit. destruct Hfit as [Hle _]. apply Nat.leb_le in Hle.
    exists (firstn (c_size k) bs). split; [symmetry; apply firstn_skipn|].
    split; [apply firstn_length_le; exact Hle|]. split; [apply is_bytes_firstn; exact Hb|].
    intros cx' Hcx'. specialize (Hbd cx' Hcx'). unfold built in Hbd.
    destruct (cbuild c cx' v) as [out|]; [|destruct Hbd; congruence]. exists out.
    split; [reflexivity|exact Hbd].
  - destruct Hc as (e & E & _). congruence.
Qed.

Definition T (_ : ctx) := True.
Lemma auto_point_rt cx bs v rest : is_bytes bs -> cparse auto_point cx bs = Ok (v, rest) ->
  exists used, bs = used ++ rest /\ length used = 24%nat /\
  forall cx', exists out, cbuild auto_point cx' v = Ok out /\ length out = 24%nat /\
    (out = used <-> auto_point_ok used = true).
Proof.
  intros Hb H. unfold auto_point in *. cbn [Struct cparse] in H. inv_bind H. destruct x as [d r].
  injection H as <- <-.
  apply struct_step in E; [|apply ns_f64]. destruct E as (v1 & b1 & E1 & E).
  apply struct_step in E; [|apply ns_position]. destruct E as (v2 & b2 & E2 & E).
  apply struct_step in E; [|apply ns_f64]. destruct E as (v3 & b3 & E3 & E).
  apply struct_step in E; [|apply ns_f32]. destruct E as (v4 & b4 & E4 & E).
  apply struct_step in E; [|apply ns_bytes]. destruct E as (v5 & b5 & E5 & E).
  cbn [struct_parse] in E. injection E as <- <-.
  destruct (plain_inv _ _ _ _ _ _ _ plain_f64 Hb E1) as (d1 & -> & L1 & B1 & ->).
  apply is_bytes_app in Hb. destruct Hb as [_ Hb].
  assert (b1 = b2) as <-.
  { cbn [Computed cparse] in E2. inv_bind E2. injection E2 as _ <-. reflexivity. }
  destruct (plain_inv _ _ _ _ _ _ _ plain_f64 Hb E3) as (d3 & -> & L3 & B3 & ->).
  apply is_bytes_app in Hb. destruct Hb as [_ Hb].
  destruct (cell_inv T _ _ _ _ _ _ (cell_f32 T) eq_refl I Hb E4) as (d4 & -> & L4 & B4 & H4).
  apply is_bytes_app in Hb. destruct Hb as [_ Hb].
  destruct (plain_inv _ _ _ _ _ _ _ (plain_bytes 4) Hb E5) as (d5 & -> & L5 & B5 & ->).
  change (length d4 = 4)%nat in L4.
  exists (d1 ++ d3 ++ d4 ++ d5). rewrite <- !app_assoc. split; [reflexivity|].
  rewrite !app_length. split; [lia|]. intros cx'.
  cbn [put String.eqb Ascii.eqb Bool.eqb dset Struct cbuild].
  cbn [struct_build dget String.eqb Ascii.eqb Bool.eqb bind].
  rewrite (proj2 (proj2 plain_f64)) by assumption.
  cbn [Computed cbuild].
  rewrite (proj2 (proj2 plain_f64)) by assumption.
  match goal with |- context [cbuild Float32l ?c v4] => destruct (H4 c I) as (o4 & -> & Lo & Ho) end.
  rewrite (proj2 (proj2 (plain_bytes 4))) by assumption. cbn [bind app].
  rewrite app_nil_r. eexists. split; [reflexivity|]. change (length o4 = 4)%nat in Lo.
  rewrite !app_length. split; [lia|].
  assert (Hsl : firstn 4 (skipn 16 (d1 ++ d3 ++ d4 ++ d5)) = d4).
  { rewrite app_assoc. replace 16%nat with (length (d1 ++ d3)) by (rewrite app_length; lia).
    rewrite skipn_app_exact. rewrite <- L4. apply firstn_app_exact. }
  unfold auto_point_ok. rewrite Hsl, <- Ho. split.
  - intros X. apply app_inv_head in X. apply app_inv_head in X.
    apply app_inj_len in X; [apply X|]. congruence.
  - intros ->. reflexivity.
Qed.

Lemma points_rt n fuel : forall cx i bs vs rest, 0 <= i <= n -> is_bytes bs ->
  parray_parse fuel n auto_point cx i bs = Ok (vs, rest) ->
  zlen vs = n - i /\ exists used, bs = used ++ rest /\
  forall cx' j, exists out, items_build auto_point cx' j vs = Ok out /\ length out = length used /\
    forall f2, (length bs <= f2)%nat -> (out = used <-> points f2 (n - i) bs = true).
Proof.
  induction fuel as [|fuel IH]; intros cx i bs vs rest Hi Hb H.
  - cbn [parray_parse] in H. destruct (Z.leb_spec n i); [|discriminate].
    injection H as <- <-. replace (n - i) with 0 by lia. split; [reflexivity|].
    exists []. split; [reflexivity|]. intros cx' j. exists []. split; [reflexivity|]. split; [reflexivity|].
    intros f2 _. destruct f2; cbn [points]; split; reflexivity.
  - cbn [parray_parse] in H. destruct (Z.leb_spec n i).
    { injection H as <- <-. replace (n - i) with 0 by lia. split; [reflexivity|].
      exists []. split; [reflexivity|]. intros cx' j. exists []. split; [reflexivity|]. split; [reflexivity|].
      intros f2 _. destruct f2; cbn [points]; split; reflexivity. }
    inv_bind H. destruct x as [v bs']. inv_bind H. destruct x as [vs' r']. injection H as <- <-.
    destruct (auto_point_rt _ _ _ _ Hb E) as (u & -> & Lu & Hv).
    apply is_bytes_app in Hb. destruct Hb as [Bu Hb].
    destruct (IH cx (i + 1) _ _ _ ltac:(lia) Hb E0) as (Hz & u' & -> & Hout).
    split; [rewrite zlen_cons; lia|]. exists (u ++ u'). rewrite app_assoc. split; [reflexivity|].
    intros cx' j. cbn [items_build].
    destruct (Hv (cx_with_index cx' j)) as (o & -> & Lo & Ho). cbn [bind].
    destruct (Hout cx' (j + 1)) as (o' & -> & Lo' & Ho'). cbn [bind].
    exists (o ++ o'). split; [reflexivity|]. split; [rewrite !app_length; lia|].
    intros f2 Hf2. rewrite !app_length in Hf2. destruct f2 as [|f2]; [lia|]. cbn [points].
    replace (n - i =? 0) with false by lia.
    rewrite <- app_assoc. rewrite app_length.
    replace (24 <=? length u + length (u' ++ r'))%nat with true by (symmetry; apply Nat.leb_le; lia).
    rewrite <- Lu, firstn_app_exact, skipn_app_exact. cbn [andb].
    rewrite andb_true_iff, <- Ho. replace (n - i - 1) with (n - (i + 1)) by lia.
    rewrite <- (Ho' f2) by (rewrite app_length; lia). split.
    + intros X. apply app_inj_len in X; [exact X|congruence].
    + intros [-> ->]. reflexivity.
Qed.

Lemma ns_parray : nostop (PrefixedArray Int32ul auto_point).
Proof.
  assert (N : nostop auto_point).
  { intros cx bs. cbn [auto_point Struct cparse]. 
    assert (S : forall fs acc b, struct_parse fs cx acc b <> Err StopFieldError).
    { induction fs as [|[n c] fs IH]; intros acc b; cbn [struct_parse]; [discriminate|].
      destruct (cparse c _ b) as [[]|e]; [apply IH|]. destruct e; discriminate. }
    match goal with |- context [struct_parse ?f ?c ?a ?b] => pose proof (S f a b); destruct (struct_parse f c a b) as [[]|] end;
    cbn [bind]; congruence. }
  assert (L : forall fuel n cx i bs, parray_parse fuel n auto_point cx i bs <> Err StopFieldError).
  { induction fuel as [|f IH]; intros n cx i bs; cbn [parray_parse]; destruct (n <=? i); try discriminate.
    pose proof (N (cx_with_index cx i) bs). destruct (cparse auto_point (cx_with_index cx i) bs) as [[v b']|e]; cbn [bind]; [|congruence].
    pose proof (IH n cx (i + 1) b'). destruct (parray_parse f n auto_point cx (i + 1) b') as [[]|]; cbn [bind]; congruence. }
  intros cx bs. cbn [PrefixedArray cparse]. pose proof (ns_uint 4 cx bs).
  unfold Int32ul. destruct (cparse (c_uint 4) cx bs) as [[v b]|e]; cbn [bind]; [|congruence].
  destruct (as_int v); [|discriminate].
  match goal with |- context [parray_parse ?a ?b ?c ?d ?e ?f] => pose proof (L a b d e f); destruct (parray_parse a b c d e f) as [[]|] end;
  cbn [bind]; congruence.
Qed.
Lemma ns_greedy : nostop GreedyBytes.
Proof. intros cx bs. discriminate. Qed.

Lemma automation_rt cx cx' bs v rest : is_bytes bs -> cparse AutomationS cx bs = Ok (v, rest) ->
  rest = [] /\ exists out, cbuild AutomationS cx' v = Ok out /\ length out = length bs /\
    (out = bs <-> automation bs = true).
Proof.
  intros Hb H. unfold AutomationS in *. cbn [Struct cparse] in H. inv_bind H. destruct x as [d r].
  injection H as <- <-.
  apply struct_step in E; [|apply ns_bytes]. destruct E as (v1 & b1 & E1 & E).
  apply struct_step in E; [|apply ns_sint]. destruct E as (v2 & b2 & E2 & E).
  apply struct_step in E; [|apply ns_bytes]. destruct E as (v3 & b3 & E3 & E).
  apply struct_step in E; [|apply ns_bytes]. destruct E as (v4 & b4 & E4 & E).
  apply struct_step in E; [|apply ns_bytes]. destruct E as (v5 & b5 & E5 & E).
  apply struct_step in E; [|apply ns_bytes]. destruct E as (v6 & b6 & E6 & E).
  apply struct_step in E; [|apply ns_parray]. destruct E as (v7 & b7 & E7 & E).
  apply struct_step in E; [|apply ns_greedy]. destruct E as (v8 & b8 & E8 & E).
  cbn [struct_parse] in E. injection E as <- <-.
  destruct (plain_inv _ _ _ _ _ _ _ (plain_bytes 4) Hb E1) as (d1 & -> & L1 & B1 & ->).
  apply is_bytes_app in Hb. destruct Hb as [_ Hb].
  destruct (plain_inv _ _ _ _ _ _ _ (plain_sint 4 ltac:(lia)) Hb E2) as (d2 & -> & L2 & B2 & ->).
  apply is_bytes_app in Hb. destruct Hb as [_ Hb].
  destruct (plain_inv _ _ _ _ _ _ _ (plain_bytes 1) Hb E3) as (d3 & -> & L3 & B3 & ->).
  apply is_bytes_app in Hb. destruct Hb as [_ Hb].
  destruct (plain_inv _ _ _ _ _ _ _ (plain_bytes 2) Hb E4) as (d4 & -> & L4 & B4 & ->).
  apply is_bytes_app in Hb. destruct Hb as [_ Hb].
  destruct (plain_inv _ _ _ _ _ _ _ (plain_bytes 2) Hb E5) as (d5 & -> & L5 & B5 & ->).
  apply is_bytes_app in Hb. destruct Hb as [_ Hb].
  destruct (plain_inv _ _ _ _ _ _ _ (plain_bytes 4) Hb E6) as (d6 & -> & L6 & B6 & ->).
  apply is_bytes_app in Hb. destruct Hb as [_ Hb].
  cbn [PrefixedArray cparse] in E7. inv_bind E7. destruct x as [vn bn].
  destruct (plain_inv _ _ _ _ _ _ _ (plain_uint 4) Hb E) as (d7 & -> & L7 & B7 & ->).
  apply is_bytes_app in Hb. destruct Hb as [_ Hb].
  cbn [as_int] in E7. inv_bind E7. destruct x as [vs rp]. injection E7 as <- <-.
  cbn [GreedyBytes cparse] in E8. injection E8 as <- <-.
  pose proof (le_dec_bound _ B7) as R7. rewrite L7 in R7.
  destruct (points_rt (le_dec d7) _ _ 0 _ _ _ ltac:(lia) Hb E0) as (Hz & u & -> & Hout).
  split; [reflexivity|].
  cbn [put String.eqb Ascii.eqb Bool.eqb dset Struct cbuild].
  cbn [struct_build dget String.eqb Ascii.eqb Bool.eqb bind].
  rewrite (proj2 (proj2 (plain_bytes 4))) by assumption.
  unfold Int32sl. rewrite (proj2 (proj2 (plain_sint 4 ltac:(lia)))) by assumption.
  rewrite (proj2 (proj2 (plain_bytes 1))) by assumption.
  rewrite !(proj2 (proj2 (plain_bytes 2))) by assumption.
  rewrite (proj2 (proj2 (plain_bytes 4))) by assumption.
  cbn [PrefixedArray cbuild seq_of bind].
  replace (zlen vs) with (le_dec d7) by lia. unfold Int32ul.
  rewrite (proj2 (proj2 (plain_uint 4))) by assumption. cbn [bind].
  match goal with |- context [items_build auto_point ?c 0 vs] => destruct (Hout c 0) as (o & -> & Lo & Ho) end.
  cbn [bind GreedyBytes cbuild]. rewrite app_nil_r.
  eexists. split; [reflexivity|]. split; [rewrite !app_length; lia|].
  specialize (Ho (length (d1 ++ d2 ++ d3 ++ d4 ++ d5 ++ d6 ++ d7 ++ u ++ rp)) ltac:(rewrite !app_length; lia)).
  unfold automation.
  assert (Hs17 : firstn 4 (skipn 17 (d1 ++ d2 ++ d3 ++ d4 ++ d5 ++ d6 ++ d7 ++ u ++ rp)) = d7).
  { replace (d1 ++ d2 ++ d3 ++ d4 ++ d5 ++ d6 ++ d7 ++ u ++ rp)
      with ((d1 ++ d2 ++ d3 ++ d4 ++ d5 ++ d6) ++ d7 ++ u ++ rp) by (rewrite <- !app_assoc; reflexivity).
    replace 17%nat with (length (d1 ++ d2 ++ d3 ++ d4 ++ d5 ++ d6)) by (rewrite !app_length; lia).
    rewrite skipn_app_exact. rewrite <- L7. apply firstn_app_exact. }
  assert (Hs21 : skipn 21 (d1 ++ d2 ++ d3 ++ d4 ++ d5 ++ d6 ++ d7 ++ u ++ rp) = u ++ rp).
  { replace (d1 ++ d2 ++ d3 ++ d4 ++ d5 ++ d6 ++ d7 ++ u ++ rp)
      with ((d1 ++ d2 ++ d3 ++ d4 ++ d5 ++ d6 ++ d7) ++ u ++ rp) by (rewrite <- !app_assoc; reflexivity).
    replace 21%nat with (length (d1 ++ d2 ++ d3 ++ d4 ++ d5 ++ d6 ++ d7)) by (rewrite !app_length; lia).
    apply skipn_app_exact. }
  rewrite Hs17, Hs21, (u_le_dec d7).
  replace (21 <=? length (d1 ++ d2 ++ d3 ++ d4 ++ d5 ++ d6 ++ d7 ++ u ++ rp))%nat with true
    by (symmetry; apply Nat.leb_le; rewrite !app_length; lia).
  cbn [andb]. replace (le_dec d7) with (le_dec d7 - 0) by lia. rewrite <- Ho.
  rewrite <- !app_assoc. split.
  - intros X. do 7 apply app_inv_head in X. apply app_inj_len in X; [apply X|exact Lo].
  - intros ->. reflexivity.
Qed.

(* ---------------- Fruity NoteBook 2 ---------------- *)
Lemma lenprefix_spec bs : is_bytes bs ->
  match lenprefix bs with
  | Some (n, m, r) => varint_dec bs = Ok (n, r) /\ 0 <= n /\
      (exists used, bs = used ++ r /\ used <> [] /\ (length (varint_enc n) <= length used)%nat /\
        (varint_enc n = used <-> m = true))
  | None => exists e, varint_dec bs = Err e
  end.
Proof.
  induction bs as [|b bs IH]; intros Hb; cbn [lenprefix varint_dec].
  - eexists; reflexivity.
  - apply is_bytes_cons in Hb. destruct Hb as [Hb Hbs]. unfold is_byte in Hb.
    destruct (Z.ltb_spec b 128).
    + split; [reflexivity|]. split; [lia|]. exists [b]. rewrite varint_enc_small by lia.
      repeat split; try discriminate; cbn [length]; lia.
    + specialize (IH Hbs). destruct (lenprefix bs) as [[[n m] r]|].
      * destruct IH as (E & Hn & u & Eu & Hu & Hl & Hiff). rewrite E. cbn [bind].
        replace (b mod 128) with (b - 128) by lia.
        split; [reflexivity|]. split; [lia|]. exists (b :: u). split; [rewrite Eu; reflexivity|].
        split; [discriminate|]. cbn [length].
        destruct (Z.eqb_spec n 0) as [->|Hnz].
        { rewrite varint_enc_small by lia. cbn [length]. split; [lia|].
          rewrite andb_false_r. split; [|discriminate]. intros X. injection X as X1 X2. lia. }
        rewrite varint_enc_step by lia.
        replace ((b - 128 + 128 * n) / 128) with n by lia.
        replace ((b - 128 + 128 * n) mod 128) with (b - 128) by lia.
        replace (128 + (b - 128)) with b by lia. cbn [length]. split; [lia|].
        rewrite andb_true_r, <- Hiff. split; [intros X; injection X; auto|intros ->; reflexivity].
      * destruct IH as (e & ->). eexists; reflexivity.
Qed.

Lemma strip_spec f : forall b, (length b <= f)%nat ->
  strip_units f b = rev (drop_zero_pairs (rev b)).
Proof.
  induction f as [|f IH]; intros b Hl.
  - destruct b; [reflexivity|cbn [length] in Hl; lia].
  - cbn [strip_units].
    rewrite <- (rev_involutive b). set (rb := rev b) in *.
    assert (Hlr : length rb = length b) by apply rev_length. clearbody rb.
    rewrite rev_involutive.
    destruct rb as [|x [|y r]]; [reflexivity| |].
    + cbn [rev app length Nat.leb]. destruct x; reflexivity.
    + cbn [rev]. rewrite <- app_assoc. cbn [app].
      assert (Hn : length (rev r ++ [y; x]) = (length (rev r) + 2)%nat) by (rewrite app_length; reflexivity).
      rewrite Hn. replace (length (rev r) + 2 - 2)%nat with (length (rev r)) by lia.
      replace (2 <=? length (rev r) + 2)%nat with true by (symmetry; apply Nat.leb_le; lia).
      rewrite skipn_app_exact, firstn_app_exact.
      destruct (list_Zeqb [y; x] [0; 0]) eqn:E.
      * apply list_Zeqb_eq in E. injection E as -> ->. cbn [drop_zero_pairs].
        rewrite IH by (rewrite rev_length; cbn [length] in Hlr; lia). rewrite rev_involutive. reflexivity.
      * assert (Hd : drop_zero_pairs (x :: y :: r) = x :: y :: r).
        { destruct x as [|p|p]; try reflexivity. destruct y as [|p|p]; try reflexivity.
          discriminate E. }
        rewrite Hd. cbn [rev]. rewrite <- app_assoc. reflexivity.
Qed.
Lemma drop_spec rb : exists n, rb = repeat 0 n ++ drop_zero_pairs rb.
Proof.
  pattern rb. apply list_ind2. clear rb. intros rb IH.
  destruct rb as [|x [|y r]].
  - exists 0%nat. reflexivity.
  - exists 0%nat. destruct x; reflexivity.
  - destruct x as [|p|p]; try (exists 0%nat; reflexivity).
    destruct y as [|p|p]; try (exists 0%nat; reflexivity).
    cbn [drop_zero_pairs]. destruct (IH r) as [n E]; [cbn [length]; lia|].
    exists (S (S n)). cbn [repeat app]. rewrite <- E. reflexivity.
Qed.
Lemma repeat_rev A (x : A) n : rev (repeat x n) = repeat x n.
Proof.
  induction n as [|n IH]; [reflexivity|]. cbn [repeat rev]. rewrite IH.
  clear. induction n as [|n IH]; [reflexivity|]. cbn [repeat app]. rewrite IH. reflexivity.
Qed.
Lemma strip_pad d : let s := strip_units (length d) d in
  (length s <= length d)%nat /\ s ++ repeat 0 (length d - length s) = d.
Proof.
  cbn zeta. rewrite strip_spec by lia. destruct (drop_spec (rev d)) as [n E].
  apply (f_equal (@rev Z)) in E. rewrite rev_involutive, rev_app_distr, repeat_rev in E.
  set (s := rev (drop_zero_pairs (rev d))) in *.
  assert (Hl : (length d = length s + n)%nat).
  { rewrite E, app_length, repeat_length. reflexivity. }
  split; [lia|]. replace (length d - length s)%nat with n by lia. symmetry. exact E.
Qed.

Lemma ns_varint : nostop VarInt.
Proof.
  assert (V : forall bs, varint_dec bs <> Err StopFieldError).
  { induction bs as [|b bs IH]; cbn [varint_dec]; [discriminate|].
    destruct (b <? 128); [discriminate|]. destruct (varint_dec bs) as [[]|]; cbn [bind]; congruence. }
  intros cx bs. cbn [VarInt cparse]. pose proof (V bs).
  destruct (varint_dec bs) as [[]|]; cbn [bind]; congruence.
Qed.
Lemma ns_padded : nostop (PaddedString16 notebook_len).
Proof.
  intros cx bs. cbn [PaddedString16 cparse]. unfold notebook_len.
  destruct (dget (cx_fields cx) "length") as [v|]; cbn [bind]; [|discriminate].
  destruct (as_int v); cbn [bind]; [|discriminate].
  destruct (_ <? 0); [discriminate|]. destruct (_ <? _); [discriminate|].
  destruct (utf16_dec _); discriminate.
Qed.
Lemma signed_m1 d : is_bytes d -> length d = 4%nat ->
  (to_signed 4 (le_dec d) =? -1) = (u_le d =? 2 ^ 32 - 1).
Proof.
  intros Hb Hl. rewrite (u_le_dec d). pose proof (le_dec_bound _ Hb) as H. rewrite Hl in H.
  change (256 ^ Z.of_nat 4) with 4294967296 in H. change (2 ^ 32 - 1) with 4294967295.
  unfold to_signed. change (256 ^ Z.of_nat 4) with 4294967296.
  destruct (Z.ltb_spec (2 * le_dec d) 4294967296), (Z.eqb_spec (le_dec d) 4294967295).
  all: match goal with |- (?x =? _) = _ => destruct (Z.eqb_spec x (-1)) end; try lia; reflexivity.
Qed.

Lemma page_err cx bs f : is_bytes bs -> (exists e, cparse notebook_page cx bs = Err e) ->
  notebook (S f) bs = true -> exists b, bs = [b] /\ b < 2.
Proof.
  intros Hb (e & E) H. cbn [notebook] in H.
  destruct bs as [|b0 [|b1 [|b2 [|b3 r]]]]; try discriminate H.
  { exists b0. split; [reflexivity|lia]. }
  exfalso.
  assert (Hd : is_bytes [b0; b1; b2; b3]).
  { change (b0 :: b1 :: b2 :: b3 :: r) with ([b0; b1; b2; b3] ++ r) in Hb.
    apply is_bytes_app in Hb. apply Hb. }
  assert (Hr : is_bytes r).
  { change (b0 :: b1 :: b2 :: b3 :: r) with ([b0; b1; b2; b3] ++ r) in Hb.
    apply is_bytes_app in Hb. apply Hb. }
  change (b0 :: b1 :: b2 :: b3 :: r) with ([b0; b1; b2; b3] ++ r) in E.
  pose proof (signed_m1 _ Hd eq_refl) as Hm.
  set (d := [b0; b1; b2; b3]) in *. assert (Ld : length d = 4%nat) by reflexivity. clearbody d.
  unfold notebook_page in E. cbn [Struct cparse struct_parse] in E.
  unfold Int32sl in E. rewrite (proj1 (proj2 (plain_sint 4 ltac:(lia)))) in E by assumption.
  cbn [put String.eqb Ascii.eqb dset StopIf cparse] in E. unfold ctx_field_is in E at 1.
  cbn [cx_fields cx_with_fields dget String.eqb Ascii.eqb Bool.eqb as_int] in E. rewrite Hm in E.
  destruct (u_le d =? 2 ^ 32 - 1); [discriminate E|].
  pose proof (lenprefix_spec r Hr) as HL. destruct (lenprefix r) as [[[n m] r']|]; [|discriminate H].
  destruct HL as (Ev & Hn & _). rewrite !andb_true_iff in H. destruct H as [[[_ Hz] Ht] _].
  cbn [VarInt cparse] in E. rewrite Ev in E. cbn [bind] in E.
  cbn [PaddedString16 cparse] in E. unfold notebook_len in E.
  cbn [cx_fields cx_with_fields put String.eqb Ascii.eqb Bool.eqb dset dget as_int bind] in E.
  replace (n * 2 <? 0) with false in E by lia. replace (zlen r' <? n * 2) with false in E by lia.
  unfold utf16_text in Ht. rewrite strip_spec in E by lia. replace (2 * n) with (n * 2) in Ht by lia.
  destruct (utf16_dec _); discriminate.
Qed.

Lemma page_rt cx bs v rest : is_bytes bs -> cparse notebook_page cx bs = Ok (v, rest) ->
  exists used ok, bs = used ++ rest /\ (4 <= length used)%nat /\
    (forall f, notebook (S f) bs = ok && notebook f rest) /\
    forall cx', exists out, cbuild notebook_page cx' v = Ok out /\
      (length out <= length used)%nat /\ (out = used <-> ok = true).
Proof.
  intros Hb H. unfold notebook_page in *. cbn [Struct cparse] in H. inv_bind H. destruct x as [d rr].
  injection H as <- <-.
  apply struct_step in E; [|apply ns_sint]. destruct E as (v1 & r & E1 & E).
  destruct (plain_inv _ _ _ _ _ _ _ (plain_sint 4 ltac:(lia)) Hb E1) as (d1 & -> & L1 & B1 & ->).
  assert (Hsplit : exists b0 b1 b2 b3, d1 = [b0; b1; b2; b3]).
  { destruct d1 as [|b0 [|b1 [|b2 [|b3 [|]]]]]; try discriminate L1. repeat eexists. }
  apply is_bytes_app in Hb. destruct Hb as [_ Hr].
  pose proof (signed_m1 _ B1 L1) as Hm.
  cbn [struct_parse put String.eqb Ascii.eqb dset StopIf cparse] in E. unfold ctx_field_is in E at 1.
  cbn [cx_fields cx_with_fields dget String.eqb Ascii.eqb Bool.eqb as_int] in E. rewrite Hm in E.
  destruct (u_le d1 =? 2 ^ 32 - 1) eqn:Eu.
  - injection E as <- <-. exists d1, true. split; [reflexivity|]. split; [lia|]. split.
    { intros f. destruct Hsplit as (b0 & b1 & b2 & b3 & ->). cbn [app notebook]. rewrite Eu. reflexivity. }
    intros cx'. cbn [Struct cbuild struct_build dget String.eqb Ascii.eqb Bool.eqb bind].
    unfold Int32sl. rewrite (proj2 (proj2 (plain_sint 4 ltac:(lia)))) by assumption.
    cbn [StopIf cbuild cnone bind]. unfold ctx_field_is.
    cbn [cx_fields cx_with_fields dget String.eqb Ascii.eqb Bool.eqb as_int]. rewrite Hm.
    cbn [bind]. rewrite app_nil_r. eexists. split; [reflexivity|]. split; [lia|tauto].
  - change (struct_parse ["length" // VarInt; "value" // PaddedString16 notebook_len]%string cx
             [("index"%string, VInt (to_signed 4 (le_dec d1)))] r = Ok (d, rr)) in E.
    apply struct_step in E; [|apply ns_varint]. destruct E as (v2 & r2 & E2 & E).
    apply struct_step in E; [|apply ns_padded]. destruct E as (v3 & r3 & E3 & E).
    cbn [struct_parse] in E. injection E as <- <-.
    pose proof (lenprefix_spec r Hr) as HL. cbn [VarInt cparse] in E2.
    destruct (lenprefix r) as [[[n m] r']|] eqn:EL.
    2: { destruct HL as (e & He). rewrite He in E2. discriminate E2. }
    destruct HL as (Ev & Hn & u & -> & Hu & Hlu & Hiff). rewrite Ev in E2. injection E2 as <- <-.
    apply is_bytes_app in Hr. destruct Hr as [_ Hr'].
    cbn [PaddedString16 cparse] in E3. unfold notebook_len in E3.
    cbn [cx_fields cx_with_fields put String.eqb Ascii.eqb Bool.eqb dset dget as_int bind] in E3.
    destruct (Z.ltb_spec (n * 2) 0); [discriminate|].
    destruct (Z.ltb_spec (zlen r') (n * 2)) as [|Hz]; [discriminate|].
    set (t := firstn (Z.to_nat (n * 2)) r') in *.
    assert (Lt : zlen t = n * 2).
    { unfold t, zlen. rewrite firstn_length_le; [lia|]. unfold zlen in Hz. lia. }
    destruct (utf16_dec (strip_units (length t) t)) as [s|] eqn:Es; [|discriminate].
    injection E3 as <- <-.
    assert (Bt : is_bytes t) by (apply is_bytes_firstn; exact Hr').
    destruct (strip_pad t) as [Hsl Hpad].
    assert (Bs : is_bytes (strip_units (length t) t)).
    { rewrite <- Hpad in Bt. apply is_bytes_app in Bt. apply Bt. }
    exists (d1 ++ u ++ t), m. split.
    { rewrite <- !app_assoc. do 2 f_equal. symmetry. apply firstn_skipn. }
    split; [rewrite app_length; lia|]. split.
    { intros f. destruct Hsplit as (b0 & b1 & b2 & b3 & ->). cbn [app notebook]. rewrite Eu, EL.
      replace (2 * n) with (n * 2) by lia. replace (n * 2 <=? zlen r') with true by lia.
      fold t. unfold utf16_text. rewrite <- (strip_spec (length t) t) by lia. rewrite Es, !andb_true_r. reflexivity. }
    intros cx'. cbn [put dset Struct cbuild struct_build dget String.eqb Ascii.eqb Bool.eqb bind].
    unfold Int32sl. rewrite (proj2 (proj2 (plain_sint 4 ltac:(lia)))) by assumption.
    cbn [StopIf cbuild cnone bind]. unfold ctx_field_is.
    cbn [cx_fields cx_with_fields dget String.eqb Ascii.eqb Bool.eqb as_int]. rewrite Hm.
    cbn [bind VarInt cbuild as_int]. replace (0 <=? n) with true by lia.
    cbn [PaddedString16 cbuild]. rewrite (utf16_dec_enc _ _ Bs Es). unfold notebook_len.
    cbn [cx_fields cx_with_fields dget String.eqb Ascii.eqb Bool.eqb as_int bind].
    replace (n * 2 <? 0) with false by lia.
    assert (zlen (strip_units (length t) t) <= n * 2) by (unfold zlen in *; lia).
    replace (n * 2 <? zlen (strip_units (length t) t)) with false by lia. cbn [orb bind].
    replace (Z.to_nat (n * 2 - zlen (strip_units (length t) t))) with
      (length t - length (strip_units (length t) t))%nat by (unfold zlen in *; lia).
    rewrite Hpad. cbn [app]. rewrite app_nil_r. eexists. split; [reflexivity|].
    rewrite !app_length. split; [lia|]. rewrite <- Hiff. split.
    + intros X. apply app_inv_head in X. apply app_inv_tail in X. exact X.
    + intros ->. reflexivity.
Qed.

Lemma pages_rt fuel : forall cx i bs vs rest, is_bytes bs -> (length bs < fuel)%nat ->
  greedy_parse fuel notebook_page cx i bs = Ok (vs, rest) ->
  exists used ok, bs = used ++ rest /\
    (forall f, (length bs <= f)%nat -> notebook f bs = true -> ok = true /\ exists b, rest = [b] /\ b < 2) /\
    (forall f, (length bs <= f)%nat -> ok = true -> (exists b, rest = [b] /\ b < 2) -> notebook f bs = true) /\
    forall cx' j, exists out, items_build notebook_page cx' j vs = Ok out /\
      (length out <= length used)%nat /\ (out = used <-> ok = true).
Proof.
  induction fuel as [|fuel IH]; intros cx i bs vs rest Hb Hl H; [lia|].
  cbn [greedy_parse] in H.
  destruct (cparse notebook_page (cx_with_index cx i) bs) as [[v b']|e] eqn:E.
  - inv_bind H. destruct x as [vs' r']. injection H as <- <-.
    destruct (page_rt _ _ _ _ Hb E) as (u & ok & -> & Lu & Hnb & Hbd).
    apply is_bytes_app in Hb. destruct Hb as [_ Hb]. rewrite app_length in Hl.
    destruct (IH cx (i + 1) b' vs' r' Hb ltac:(lia) E0) as (u' & ok' & -> & H1 & H2 & H3).
    exists (u ++ u'), (ok && ok'). split; [apply app_assoc|].
    split; [|split].
    + intros f Hf Hn. destruct f as [|f]; [discriminate|]. rewrite Hnb in Hn.
      apply andb_true_iff in Hn. destruct Hn as [-> Hn].
      rewrite !app_length in *. apply (H1 f ltac:(rewrite ?app_length; lia)) in Hn. exact Hn.
    + intros f Hf Ho He. destruct f as [|f]; [rewrite !app_length in Hf; lia|]. rewrite Hnb.
      apply andb_true_iff in Ho. destruct Ho as [-> Ho]. cbn [andb].
      apply H2; auto. rewrite !app_length in *. lia.
    + intros cx' j. cbn [items_build]. destruct (Hbd (cx_with_index cx' j)) as (o & -> & Lo & Ho).
      destruct (H3 cx' (j + 1)) as (o' & -> & Lo' & Ho'). cbn [bind].
      exists (o ++ o'). split; [reflexivity|]. rewrite !app_length. split; [lia|].
      rewrite andb_true_iff, <- Ho, <- Ho'. split.
      * intros X. assert (length o = length u).
        { apply (f_equal (@length Z)) in X. rewrite !app_length in X. lia. }
        apply app_inj_len in X; [exact X|assumption].
      * intros [-> ->]. reflexivity.
  - injection H as <- <-. exists [], true. split; [reflexivity|]. split; [|split].
    + intros f Hf Hn. destruct f as [|f]; [discriminate|]. split; [reflexivity|].
      apply (page_err (cx_with_index cx i) bs f Hb); [eexists; exact E|exact Hn].
    + intros f Hf _ (b & -> & Hlt). destruct f as [|f]; [cbn [length] in Hf; lia|].
      cbn [notebook]. apply Z.ltb_lt. exact Hlt.
    + intros cx' j. exists []. split; [reflexivity|]. split; [reflexivity|tauto].
Qed.

Lemma ns_range c : nostop (GreedyRange c).
Proof.
  assert (G : forall fuel cx i bs, greedy_parse fuel c cx i bs <> Err StopFieldError).
  { induction fuel as [|f IH]; intros cx i bs; cbn [greedy_parse]; [discriminate|].
    destruct (cparse c (cx_with_index cx i) bs) as [[v b']|]; [|discriminate].
    pose proof (IH cx (i + 1) b'). destruct (greedy_parse f c cx (i + 1) b') as [[]|]; cbn [bind]; congruence. }
  intros cx bs. cbn [GreedyRange cparse]. 
  pose proof (G (S (length bs)) cx 0 bs). destruct (greedy_parse (S (length bs)) c cx 0 bs) as [[]|]; cbn [bind]; congruence.
Qed.
Lemma ns_flag : nostop Flag.
Proof. intros cx bs. cbn [Flag cparse]. pose proof (take_nostop 1 bs). destruct (take 1 bs) as [[]|]; cbn [bind]; congruence. Qed.

Lemma notebook_rt cx cx' bs v rest : is_bytes bs -> cparse FruityNotebook2S cx bs = Ok (v, rest) ->
  exists out, cbuild FruityNotebook2S cx' v = Ok out /\ (length out + length rest <= length bs)%nat /\
    (out = bs <-> ((8 <=? length bs)%nat && notebook (length bs) (skipn 8 bs)) = true).
Proof.
  intros Hb H. unfold FruityNotebook2S in *. cbn [Struct cparse] in H. inv_bind H. destruct x as [d r].
  injection H as <- <-.
  apply struct_step in E; [|apply ns_bytes]. destruct E as (v1 & b1 & E1 & E).
  apply struct_step in E; [|apply ns_uint]. destruct E as (v2 & b2 & E2 & E).
  apply struct_step in E; [|apply ns_range]. destruct E as (v3 & b3 & E3 & E).
  apply struct_step in E; [|apply ns_flag]. destruct E as (v4 & b4 & E4 & E).
  cbn [struct_parse] in E. injection E as <- <-.
  destruct (plain_inv _ _ _ _ _ _ _ (plain_bytes 4) Hb E1) as (d1 & -> & L1 & B1 & ->).
  apply is_bytes_app in Hb. destruct Hb as [_ Hb].
  destruct (plain_inv _ _ _ _ _ _ _ (plain_uint 4) Hb E2) as (d2 & -> & L2 & B2 & ->).
  apply is_bytes_app in Hb. destruct Hb as [_ Hb].
  cbn [GreedyRange cparse] in E3. inv_bind E3. destruct x as [vs r]. injection E3 as <- <-.
  destruct (pages_rt _ _ _ _ _ _ Hb (Nat.lt_succ_diag_r _) E) as (u & ok & -> & H1 & H2 & H3).
  apply is_bytes_app in Hb. destruct Hb as [_ Hb].
  destruct (cell_inv T _ _ _ _ _ _ (cell_flag T) eq_refl I Hb E4) as (d4 & -> & L4 & B4 & H4).
  change (length d4 = 1%nat) in L4.
  cbn [put dset String.eqb Ascii.eqb Bool.eqb Struct cbuild].
  cbn [struct_build dget String.eqb Ascii.eqb Bool.eqb bind].
  rewrite (proj2 (proj2 (plain_bytes 4))) by assumption.
  unfold Int32ul. rewrite (proj2 (proj2 (plain_uint 4))) by assumption.
  cbn [GreedyRange cbuild seq_of bind].
  match goal with |- context [items_build notebook_page ?c 0 vs] => destruct (H3 c 0) as (o & -> & Lo & Ho) end.
  match goal with |- context [cbuild Flag ?c v4] => destruct (H4 c I) as (o4 & -> & Lo4 & Ho4) end.
  change (length o4 = 1%nat) in Lo4. cbn [bind]. rewrite app_nil_r.
  eexists. split; [reflexivity|]. rewrite !app_length. split; [lia|].
  replace (8 <=? length d1 + (length d2 + (length u + (length d4 + length b4))))%nat with true
    by (symmetry; apply Nat.leb_le; lia).
  assert (Hs : skipn 8 (d1 ++ d2 ++ u ++ d4 ++ b4) = u ++ d4 ++ b4).
  { rewrite app_assoc. replace 8%nat with (length (d1 ++ d2)) by (rewrite app_length; lia). apply skipn_app_exact. }
  cbn [andb]. rewrite Hs.
  set (F := (length d1 + (length d2 + (length u + (length d4 + length b4))))%nat).
  assert (HF : (length (u ++ d4 ++ b4) <= F)%nat) by (unfold F; rewrite !app_length; lia).
  destruct d4 as [|x [|]]; try discriminate L4.
  assert (Hx : c_ok c_flag [x] = true <-> x < 2).
  { change (c_ok c_flag [x]) with (x + 256 * 0 <? 2). rewrite Z.ltb_lt. lia. }
  split.
  - intros X. do 2 apply app_inv_head in X.
    assert (length b4 = 0%nat /\ length o = length u) as [Hb4 Hou].
    { apply (f_equal (@length Z)) in X. rewrite !app_length in X. cbn [length] in X. lia. }
    destruct b4; [|discriminate]. apply app_inj_len in X; [|exact Hou]. destruct X as [X1 X2].
    cbn [app] in X2. apply H2; [exact HF|apply Ho; exact X1|].
    exists x. split; [reflexivity|]. apply Hx, Ho4. exact X2.
  - intros X. apply (H1 F HF) in X. destruct X as [Hok (b & Eb & Hlt)].
    cbn [app] in Eb. injection Eb as <- ->. cbn [app].
    apply Ho in Hok. subst o. f_equal. f_equal. f_equal. apply Ho4, Hx. exact Hlt.
Qed.

(* ---------------- VST plugin data ---------------- *)
Lemma midi_rt : whole_rt T vst_midi vst_midi_items.
Proof. apply whole_struct; [intros; exact I|fields|vm_compute; reflexivity|reflexivity]. Qed.
Lemma flags_rt : whole_rt T vst_flags vst_flag_items.
Proof. apply whole_struct; [intros; exact I|fields|vm_compute; reflexivity|reflexivity]. Qed.

Definition inner_con (id : Z) : con :=
  match id with
  | 1 => vst_midi
  | 2 => vst_flags
  | 51 | 54 | 55 | 56 => GreedyString utf8_dec utf8_enc
  | _ => GreedyBytes
  end.
Inductive id_case (id : Z) : Prop :=
| IdMidi : id = 1 -> id_case id
| IdFlags : id = 2 -> id_case id
| IdText : ((id =? 51) || (id =? 54) || (id =? 55) || (id =? 56)) = true ->
    id <> 1 -> id <> 2 -> inner_con id = GreedyString utf8_dec utf8_enc -> id_case id
| IdRaw : ((id =? 51) || (id =? 54) || (id =? 55) || (id =? 56)) = false ->
    id <> 1 -> id <> 2 -> inner_con id = GreedyBytes -> id_case id.
Lemma id_cases id : id_case id.
Proof.
  destruct (Z.eqb_spec id 1); [apply IdMidi; assumption|].
  destruct (Z.eqb_spec id 2); [apply IdFlags; assumption|].
  destruct ((id =? 51) || (id =? 54) || (id =? 55) || (id =? 56)) eqn:E.
  - apply IdText; try assumption. rewrite !orb_true_iff, !Z.eqb_eq in E.
    destruct E as [[[->| ->]| ->]| ->]; reflexivity.
  - apply IdRaw; try assumption. rewrite !orb_false_iff, !Z.eqb_neq in E.
    destruct E as [[[H1 H2] H3] H4]. unfold inner_con.
    destruct id as [|p|p]; [reflexivity| |reflexivity].
    do 6 (destruct p as [p|p|]; try reflexivity; try (exfalso; congruence)).
Qed.

Lemma inner_rt id cx d : is_bytes d ->
  match cparse (inner_con id) cx d with
  | Ok (v, _) => forall cx', exists o, cbuild (inner_con id) cx' v = Ok o /\ (o = d <-> vst_data id d = true)
  | Err _ => vst_data id d = false
  end.
Proof.
  intros Hb. unfold vst_data. destruct (id_cases id) as [-> | -> |E N1 N2 -> |E N1 N2 ->].
  - change (inner_con 1) with vst_midi. change (1 =? 1) with true. cbn iota.
    pose proof (midi_rt cx d I Hb) as H.
    assert (Hl : leftover vst_midi_items d = Some []).
    { cbn [vst_midi_items leftover]. repeat match goal with |- context [fits ?k ?b] => destruct (fits k b) end; reflexivity. }
    rewrite Hl in H. destruct H as (v & -> & H). intros cx'. destruct (H cx' I) as (o & -> & _ & Ho).
    exists o. split; [reflexivity|exact Ho].
  - change (inner_con 2) with vst_flags. change (2 =? 1) with false. change (2 =? 2) with true. cbn iota.
    pose proof (flags_rt cx d I Hb) as H.
    assert (Hl : leftover vst_flag_items d = Some []).
    { cbn [vst_flag_items leftover]. repeat match goal with |- context [fits ?k ?b] => destruct (fits k b) end; reflexivity. }
    rewrite Hl in H. destruct H as (v & -> & H). intros cx'. destruct (H cx' I) as (o & -> & _ & Ho).
    exists o. split; [reflexivity|exact Ho].
  - replace (id =? 1) with false by lia. replace (id =? 2) with false by lia. rewrite E.
    cbn [GreedyString Adapter cparse GreedyBytes bind cbuild].
    destruct (utf8_dec d) as [s|] eqn:Es; cbn [bind]; [|reflexivity].
    intros cx'. rewrite (utf8_dec_enc _ _ Hb Es). cbn [bind]. eexists. split; [reflexivity|]. tauto.
  - replace (id =? 1) with false by lia. replace (id =? 2) with false by lia. rewrite E.
    cbn [GreedyBytes cparse cbuild]. intros cx'. eexists. split; [reflexivity|tauto].
Qed.

Lemma vst_switch_id cx z r : cx_fields cx = ("id"%string, VEnum z) :: r -> vst_switch cx = inner_con z.
Proof. intros H. unfold vst_switch. rewrite H. reflexivity. Qed.

Lemma ns_stdenum n : nostop (StdEnum (c_uint n)).
Proof.
  intros cx bs. cbn [StdEnum Adapter cparse c_uint]. pose proof (take_nostop n bs).
  destruct (take n bs) as [[]|]; cbn [bind as_int]; congruence.
Qed.
Lemma inner_nostop id : nostop (inner_con id).
Proof.
  assert (S : forall fs, nostop (Struct fs)).
  { intros fs cx bs. cbn [Struct cparse].
    assert (S : forall fs acc b, struct_parse fs cx acc b <> Err StopFieldError).
    { clear. induction fs as [|[n c] fs IH]; intros acc b; cbn [struct_parse]; [discriminate|].
      destruct (cparse c _ b) as [[]|e]; [apply IH|]. destruct e; discriminate. }
    pose proof (S fs [] bs). destruct (struct_parse fs cx [] bs) as [[]|]; cbn [bind]; congruence. }
  destruct (id_cases id) as [-> | -> |E N1 N2 -> |E N1 N2 ->].
  - apply S.
  - apply S.
  - intros cx bs. cbn [GreedyString Adapter cparse GreedyBytes bind]. destruct (utf8_dec bs); cbn [bind]; congruence.
  - apply ns_greedy.
Qed.
Lemma switch_nostop cx bs : cparse (Switch vst_switch) cx bs <> Err StopFieldError.
Proof.
  cbn [Switch cparse]. unfold vst_switch.
  destruct (dget (cx_fields cx) "id") as [v|]; [|apply ns_greedy].
  destruct (as_int v) as [z|]; [|apply ns_greedy]. apply inner_nostop.
Qed.
Lemma ns_vdata : nostop (Prefixed Int64ul (Switch vst_switch)).
Proof.
  intros cx bs. cbn [Prefixed cparse]. pose proof (ns_uint 8 cx bs). unfold Int64ul.
  destruct (cparse (c_uint 8) cx bs) as [[v b]|]; cbn [bind]; [|congruence].
  destruct (as_int v); [|discriminate]. destruct (_ <? _); [discriminate|].
  match goal with |- context [cparse (Switch vst_switch) cx ?d] => pose proof (switch_nostop cx d);
    destruct (cparse (Switch vst_switch) cx d) as [[]|] end; cbn [bind]; congruence.
Qed.

Lemma stdenum_inv n cx bs v r : is_bytes bs -> cparse (StdEnum (c_uint n)) cx bs = Ok (v, r) ->
  exists d, bs = d ++ r /\ length d = n /\ is_bytes d /\ v = VEnum (le_dec d).
Proof.
  intros Hb H. unfold StdEnum in H. cbn [Adapter cparse] in H. inv_bind H. destruct x as [w b'].
  destruct (plain_inv _ _ _ _ _ _ _ (plain_uint n) Hb E) as (d & -> & L & B & ->).
  cbn [as_int bind] in H. injection H as <- <-. exists d. auto.
Qed.

Lemma vevent_rt cx bs v rest : is_bytes bs -> cparse vst_event cx bs = Ok (v, rest) ->
  exists used, bs = used ++ rest /\ (12 <= length used)%nat /\
   (forall f, vst_events (S f) bs = vst_data (u_le (firstn 4 used)) (skipn 12 used) && vst_events f rest) /\
   (forall cx' out x y, cbuild vst_event cx' v = Ok out -> out ++ x = used ++ y ->
      out = used /\ vst_data (u_le (firstn 4 used)) (skipn 12 used) = true) /\
   (forall cx', vst_data (u_le (firstn 4 used)) (skipn 12 used) = true -> cbuild vst_event cx' v = Ok used).
Proof.
  intros Hb H. unfold vst_event in *. cbn [Struct cparse] in H. inv_bind H. destruct x as [d r].
  injection H as <- <-.
  apply struct_step in E; [|apply ns_stdenum]. destruct E as (v1 & b1 & E1 & E).
  apply struct_step in E; [|apply ns_vdata]. destruct E as (v2 & b2 & E2 & E).
  cbn [struct_parse] in E. injection E as <- <-.
  destruct (stdenum_inv _ _ _ _ _ Hb E1) as (d1 & -> & L1 & B1 & ->).
  apply is_bytes_app in Hb. destruct Hb as [_ Hb].
  cbn [Prefixed cparse] in E2. inv_bind E2. destruct x as [vn b3].
  destruct (plain_inv _ _ _ _ _ _ _ (plain_uint 8) Hb E) as (d2 & -> & L2 & B2 & ->).
  apply is_bytes_app in Hb. destruct Hb as [_ Hb].
  cbn [as_int] in E2. destruct (Z.ltb_spec (zlen b3) (le_dec d2)) as [|Hz]; [discriminate|].
  inv_bind E2. destruct x as [vi rr]. injection E2 as <- <-.
  pose proof (le_dec_bound _ B2) as R2. rewrite L2 in R2.
  set (n := le_dec d2) in *. set (inner := firstn (Z.to_nat n) b3) in *.
  assert (Li : zlen inner = n).
  { unfold inner, zlen. rewrite firstn_length_le; unfold zlen in Hz; lia. }
  assert (Bi : is_bytes inner) by (apply is_bytes_firstn; exact Hb).
  cbn [Switch cparse] in E0. cbn [put String.eqb Ascii.eqb dset] in E0.
  erewrite vst_switch_id in E0 by reflexivity.
  pose proof (inner_rt (le_dec d1) (cx_with_fields cx [("id"%string, VEnum (le_dec d1))]) inner Bi) as HI.
  rewrite E0 in HI. clear E0.
  exists (d1 ++ d2 ++ inner). split.
  { rewrite <- !app_assoc. do 2 f_equal. symmetry. apply firstn_skipn. }
  split; [rewrite !app_length; lia|].
  assert (F4 : firstn 4 (d1 ++ d2 ++ inner) = d1) by (rewrite <- L1; apply firstn_app_exact).
  assert (S12 : skipn 12 (d1 ++ d2 ++ inner) = inner).
  { rewrite app_assoc. replace 12%nat with (length (d1 ++ d2)) by (rewrite app_length; lia). apply skipn_app_exact. }
  rewrite F4, S12, (u_le_dec d1).
  assert (Hbuild : forall cx', cbuild vst_event cx'
            (VDict (put (put [] "id" (VEnum (le_dec d1))) "data" vi)) =
            let* o := cbuild (inner_con (le_dec d1)) (cx_with_fields cx'
                 (put (put [] "id" (VEnum (le_dec d1))) "data" vi)) vi in
            let* h := cbuild Int64ul (cx_with_fields cx'
                 (put (put [] "id" (VEnum (le_dec d1))) "data" vi)) (VInt (zlen o)) in
            Ok (d1 ++ h ++ o)).
  { intros cx'. unfold vst_event. cbn [put String.eqb Ascii.eqb Bool.eqb dset Struct cbuild].
    cbn [struct_build dget String.eqb Ascii.eqb Bool.eqb bind].
    cbn [StdEnum Adapter cbuild bind]. unfold Int32ul.
    rewrite (proj2 (proj2 (plain_uint 4))) by assumption.
    cbn [Prefixed cbuild Switch]. erewrite vst_switch_id by reflexivity.
    match goal with |- context [cbuild (inner_con ?i) ?c ?v] => destruct (HI c) as (o & Eo & _);
      destruct (cbuild (inner_con i) c v) end; cbn [bind]; [|discriminate Eo].
    match goal with |- context [cbuild Int64ul ?c ?v] => 
      assert (HS : cbuild Int64ul c v <> Err StopFieldError); [|destruct (cbuild Int64ul c v) as [|er]] end; cbn [bind].
    - unfold Int64ul. cbn [c_uint cbuild as_int]. destruct (_ && _); discriminate.
    - rewrite app_nil_r. reflexivity.
    - destruct er; try reflexivity. congruence. }
  split; [|split].
  - intros f. cbn [vst_events].
    destruct (d1 ++ d2 ++ b3) as [|x l] eqn:El; [destruct d1; discriminate|]. rewrite <- El.
    assert (X1 : firstn 4 (d1 ++ d2 ++ b3) = d1) by (rewrite <- L1; apply firstn_app_exact).
    assert (X2 : firstn 8 (skipn 4 (d1 ++ d2 ++ b3)) = d2).
    { replace (skipn 4 (d1 ++ d2 ++ b3)) with (d2 ++ b3) by (symmetry; rewrite <- L1; apply skipn_app_exact).
      rewrite <- L2. apply firstn_app_exact. }
    assert (X3 : skipn 12 (d1 ++ d2 ++ b3) = b3).
    { rewrite app_assoc. replace 12%nat with (length (d1 ++ d2)) by (rewrite app_length; lia). apply skipn_app_exact. }
    rewrite X1, X2, X3, (u_le_dec d2). fold n.
    replace (12 <=? length (d1 ++ d2 ++ b3))%nat with true by (symmetry; apply Nat.leb_le; rewrite !app_length; lia).
    replace (n <=? zlen b3) with true by lia. cbn [andb]. rewrite (u_le_dec d1). reflexivity.
  - intros cx' out x y HB HE. change (Struct _) with vst_event in HB. rewrite Hbuild in HB.
    match type of HB with context [cbuild (inner_con ?i) ?c ?v] => destruct (HI c) as (o & Eo & Ho) end.
    rewrite Eo in HB. cbn [bind] in HB. inv_bind HB. injection HB as <-.
    unfold Int64ul in E0. cbn [c_uint cbuild as_int] in E0.
    match type of E0 with (if ?c then _ else _) = _ => destruct c eqn:Er end; [|discriminate].
    apply Ok_inj in E0. subst x0. rewrite <- !app_assoc in HE. apply app_inv_head in HE.
    apply app_inj_len in HE; [|rewrite le_enc_length; congruence]. destruct HE as [He1 He2].
    assert (Hlen : zlen o = n).
    { apply (f_equal le_dec) in He1. rewrite le_dec_enc in He1; [exact He1|]. apply andb_true_iff in Er. lia. }
    apply app_inj_len in He2; [|unfold zlen in *; lia]. destruct He2 as [-> _].
    rewrite He1. split; [reflexivity|]. apply Ho. reflexivity.
  - intros cx' HV. change (Struct _) with vst_event. rewrite Hbuild.
    match goal with |- context [cbuild (inner_con ?i) ?c ?v] => destruct (HI c) as (o & -> & Ho) end.
    apply Ho in HV. subst o. cbn [bind]. rewrite Li. unfold Int64ul, n.
    rewrite (proj2 (proj2 (plain_uint 8))) by assumption. reflexivity.
Qed.

Lemma vevent_err cx bs f : is_bytes bs -> (exists e, cparse vst_event cx bs = Err e) ->
  vst_events (S f) bs = true -> bs = [].
Proof.
  intros Hb (e & E) H. destruct bs as [|b0 bs0]; [reflexivity|]. exfalso. cbn [vst_events] in H.
  set (bs := b0 :: bs0) in *. clearbody bs.
  rewrite !andb_true_iff in H. destruct H as [[[H12 Hn] Hv] _]. apply Nat.leb_le in H12.
  assert (Hsp : exists d1 d2 b3, bs = d1 ++ d2 ++ b3 /\ length d1 = 4%nat /\ length d2 = 8%nat).
  { exists (firstn 4 bs), (firstn 8 (skipn 4 bs)), (skipn 12 bs). split; [|split].
    - change 12%nat with (8 + 4)%nat. rewrite <- skipn_skipn, !firstn_skipn. reflexivity.
    - apply firstn_length_le. lia.
    - apply firstn_length_le. rewrite skipn_length. lia. }
  destruct Hsp as (d1 & d2 & b3 & -> & L1 & L2).
  assert (X1 : firstn 4 (d1 ++ d2 ++ b3) = d1) by (rewrite <- L1; apply firstn_app_exact).
  assert (X2 : firstn 8 (skipn 4 (d1 ++ d2 ++ b3)) = d2).
  { replace (skipn 4 (d1 ++ d2 ++ b3)) with (d2 ++ b3) by (symmetry; rewrite <- L1; apply skipn_app_exact).
      rewrite <- L2. apply firstn_app_exact. }
  assert (X3 : skipn 12 (d1 ++ d2 ++ b3) = b3).
  { rewrite app_assoc. replace 12%nat with (length (d1 ++ d2)) by (rewrite app_length; lia). apply skipn_app_exact. }
  rewrite X1, X2, X3 in *. rewrite (u_le_dec d1), (u_le_dec d2) in *.
  apply is_bytes_app in Hb. destruct Hb as [B1 Hb]. apply is_bytes_app in Hb. destruct Hb as [B2 B3].
  unfold vst_event in E. cbn [Struct cparse struct_parse] in E.
  cbn [StdEnum Adapter cparse] in E. unfold Int32ul in E.
  rewrite (proj1 (proj2 (plain_uint 4))) in E by assumption. cbn [bind as_int] in E.
  cbn [Prefixed cparse] in E. unfold Int64ul in E.
  rewrite (proj1 (proj2 (plain_uint 8))) in E by assumption. cbn [bind as_int] in E.
  replace (zlen b3 <? le_dec d2) with false in E by lia.
  cbn [Switch cparse put String.eqb Ascii.eqb dset] in E. erewrite vst_switch_id in E by reflexivity.
  pose proof (inner_rt (le_dec d1) (cx_with_fields cx [("id"%string, VEnum (le_dec d1))])
                (firstn (Z.to_nat (le_dec d2)) b3) (is_bytes_firstn _ _ B3)) as HI.
  rewrite Hv in HI.
  match type of E with context [cparse (inner_con ?i) ?c ?b] => destruct (cparse (inner_con i) c b) as [[]|] end;
   [discriminate E|discriminate HI].
Qed.

Lemma vevents_rt fuel : forall cx i bs vs rest, is_bytes bs -> (length bs < fuel)%nat ->
  greedy_parse fuel vst_event cx i bs = Ok (vs, rest) ->
  forall f cx' j, (length bs <= f)%nat ->
   (vst_events f bs = true -> items_build vst_event cx' j vs = Ok bs) /\
   (items_build vst_event cx' j vs = Ok bs -> vst_events f bs = true).
Proof.
  induction fuel as [|fuel IH]; intros cx i bs vs rest Hb Hl H f cx' j Hf; [lia|].
  cbn [greedy_parse] in H.
  destruct (cparse vst_event (cx_with_index cx i) bs) as [[v b']|e] eqn:E.
  - inv_bind H. destruct x as [vs' r']. injection H as <- <-.
    destruct (vevent_rt _ _ _ _ Hb E) as (u & -> & Lu & Hnb & Hb1 & Hb2).
    apply is_bytes_app in Hb. destruct Hb as [_ Hb]. rewrite app_length in Hl, Hf.
    destruct f as [|f]; [lia|].
    destruct (IH cx (i + 1) b' vs' r' Hb ltac:(lia) E0 f cx' (j + 1) ltac:(lia)) as [H1 H2].
    rewrite Hnb, andb_true_iff. cbn [items_build]. split.
    + intros [V1 V2]. rewrite (Hb2 _ V1). cbn [bind]. rewrite (H1 V2). reflexivity.
    + intros HB. inv_bind HB. inv_bind HB. injection HB as HB.
      destruct (Hb1 _ _ _ _ E1 HB) as [-> V]. apply app_inv_head in HB. subst.
      split; [exact V|apply H2; exact E2].
  - injection H as <- <-. cbn [items_build]. split.
    + intros V. destruct f as [|f].
      * destruct bs; [reflexivity|discriminate].
      * rewrite (vevent_err _ _ _ Hb (ex_intro _ e E) V). reflexivity.
    + intros X. injection X as <-. destruct f; reflexivity.
Qed.

Lemma vst_rt cx cx' bs v rest : is_bytes bs -> cparse VSTPluginS cx bs = Ok (v, rest) ->
  (cbuild VSTPluginS cx' v = Ok bs <-> ((4 <=? length bs)%nat && vst_events (length bs) (skipn 4 bs)) = true).
Proof.
  intros Hb H. unfold VSTPluginS in *. cbn [Struct cparse] in H. inv_bind H. destruct x as [d r].
  injection H as <- <-.
  apply struct_step in E; [|apply ns_uint]. destruct E as (v1 & b1 & E1 & E).
  apply struct_step in E; [|apply ns_range]. destruct E as (v2 & b2 & E2 & E).
  cbn [struct_parse] in E. injection E as <- <-.
  destruct (plain_inv _ _ _ _ _ _ _ (plain_uint 4) Hb E1) as (d1 & -> & L1 & B1 & ->).
  apply is_bytes_app in Hb. destruct Hb as [_ Hb].
  cbn [GreedyRange cparse] in E2. inv_bind E2. destruct x as [vs r]. injection E2 as <- <-.
  cbn [put String.eqb Ascii.eqb Bool.eqb dset Struct cbuild].
  cbn [struct_build dget String.eqb Ascii.eqb Bool.eqb bind].
  unfold Int32ul. rewrite (proj2 (proj2 (plain_uint 4))) by assumption.
  cbn [GreedyRange cbuild seq_of bind].
  rewrite app_length, L1. cbn [Nat.add Nat.leb andb]. rewrite <- L1 at 1. rewrite skipn_app_exact.
  match goal with |- context [items_build vst_event ?c 0 vs] =>
    destruct (vevents_rt _ _ _ _ _ _ Hb (Nat.lt_succ_diag_r _) E (S (S (S (S (length b1))))) c 0 ltac:(lia)) as [H1 H2];
    set (ib := items_build vst_event c 0 vs) in * end.
  clearbody ib. split.
  - destruct ib as [o|er]; cbn [bind].
    + rewrite app_nil_r. intros X. injection X as X. apply app_inv_head in X. subst o. apply H2. reflexivity.
    + destruct er; cbn [bind]; try discriminate. intros X. injection X as X. rewrite app_nil_r in X.
      rewrite <- app_nil_r in X at 1. apply app_inv_head in X. subst b1. reflexivity.
  - intros V. rewrite (H1 V). cbn [bind]. rewrite app_nil_r. reflexivity.
Qed.
