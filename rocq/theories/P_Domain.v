(* The values of scalar events that survive writing and reading are exactly
   those of S_Domain. *)
From Coq Require Import String ZArith List Bool Lia Arith.
From Verif Require Import M_Base M_Float M_Text M_Construct M_Structs M_Events M_Parse.
From Verif Require Import S_Canon S_File S_Domain P_Base P_Codec P_Float P_RT P_Cells P_Lists P_Payload P_Special P_File P_Null P_Save.
Import ListNotations.
Open Scope Z_scope.

(* A construct of n bytes whose values are those satisfying Q *)
Definition reads_as (c : con) (n : nat) (Q : val -> Prop) : Prop :=
  (forall cx bs v r, is_bytes bs -> cparse c cx bs = Ok (v, r) -> Q v) /\
  (forall cx v, Q v -> exists p, is_bytes p /\ length p = n /\ cparse c cx p = Ok (v, [])).

Lemma plain_reads c n D (Q : val -> Prop) : plain c n D ->
  (forall d, is_bytes d -> length d = n -> Q (D d)) ->
  (forall v, Q v -> exists d, is_bytes d /\ length d = n /\ v = D d) -> reads_as c n Q.
Proof.
  intros HP H1 H2. split.
  - intros cx bs v r Hb H. destruct (plain_inv _ _ _ _ _ _ _ HP Hb H) as (d & _ & Hl & Hd & ->). auto.
  - intros cx v Hv. destruct (H2 v Hv) as (d & Hd & Hl & ->). exists d. split; [exact Hd|]. split; [exact Hl|].
    destruct HP as (_ & HP & _). rewrite <- (app_nil_r d) at 1. apply HP; assumption.
Qed.
Lemma reads_uint n hi : hi = 256 ^ Z.of_nat n -> reads_as (c_uint n) n (int_between 0 hi).
Proof.
  intros ->. apply (plain_reads _ _ _ _ (plain_uint n)).
  - intros d Hd Hl. exists (le_dec d). split; [reflexivity|]. rewrite <- Hl. apply le_dec_bound. exact Hd.
  - intros v (z & -> & Hz). exists (le_enc n z). split; [apply le_enc_bytes|]. split; [apply le_enc_length|].
    rewrite le_dec_enc by exact Hz. reflexivity.
Qed.
Lemma reads_sint n hi : (0 < n)%nat -> 2 * hi = 256 ^ Z.of_nat n -> reads_as (c_sint n) n (int_between (- hi) hi).
Proof.
  intros Hn Hh. apply (plain_reads _ _ _ _ (plain_sint n Hn)).
  - intros d Hd Hl. eexists. split; [reflexivity|]. pose proof (le_dec_bound d Hd) as B. rewrite Hl in B.
    pose proof (to_signed_range n _ B). lia.
  - intros v (z & -> & Hz). exists (le_enc n z). split; [apply le_enc_bytes|]. split; [apply le_enc_length|].
    rewrite signed_dec_enc by lia. reflexivity.
Qed.

Lemma ascii_enc_iff s : (exists b, ascii_enc s = Some b) <-> Forall (fun c => 0 <= c < 128) s.
Proof.
  unfold ascii_enc. split.
  - intros [b H]. destruct (forallb _ s) eqn:E; [|discriminate]. rewrite forallb_forall in E. apply Forall_forall.
    intros c Hc. specialize (E c Hc). lia.
  - intros H. rewrite Forall_forall in H. replace (forallb _ s) with true; [eauto|]. symmetry. apply forallb_forall.
    intros c Hc. specialize (H c Hc). lia.
Qed.
Lemma utf16_enc1_iff c : (exists b, utf16_enc1 c = Some b) <-> scalar c.
Proof.
  unfold utf16_enc1, scalar, is_hi, is_lo. split.
  - intros [b H]. destruct (_ || _) eqn:E; [discriminate|]. lia.
  - intros H. replace (_ || _) with false by lia. destruct (c <? 65536); eauto.
Qed.
Lemma utf16_enc_iff s : (exists b, utf16_enc s = Some b) <-> Forall scalar s.
Proof.
  induction s as [|c s IH].
  - split; [constructor|]. intros _. exists []. reflexivity.
  - cbn [utf16_enc]. split.
    + intros [b H]. destruct (utf16_enc1 c) as [x|] eqn:E1; [|discriminate]. destruct (utf16_enc s) as [y|] eqn:E2; [|discriminate].
      constructor; [apply utf16_enc1_iff; eauto|]. apply IH. eauto.
    + intros H. inversion H; subst. destruct (proj2 (utf16_enc1_iff c)) as [x ->]; [assumption|].
      destruct (proj2 IH) as [y ->]; [assumption|]. eauto.
Qed.

Section Text.
  Variables (dec : bytes -> option pystr) (enc : pystr -> option bytes) (Q : pystr -> Prop) (z : bytes).
  Hypothesis Hde : forall b s, is_bytes b -> dec b = Some s -> enc s = Some b.
  Hypothesis Hed : forall s b, enc s = Some b -> dec b = Some s /\ is_bytes b.
  Hypothesis Happ : forall a b, enc (a ++ b) = match enc a, enc b with Some x, Some y => Some (x ++ y) | _, _ => None end.
  Hypothesis Hz : enc [0] = Some z.
  Hypothesis HQ : forall s, (exists b, enc s = Some b) <-> Q s.

  Lemma text_dom cx (v : val) :
    (exists p, is_bytes p /\ one_nul dec p = true /\ exists r, cparse (text_con dec enc) cx p = Ok (v, r)) <->
    (exists s, v = VStr s /\ no_trailing_nul s /\ Q s).
  Proof.
    cbn [text_con Adapter GreedyString GreedyBytes cparse bind]. split.
    - intros (p & Hp & _ & r & H). destruct (dec p) as [s|] eqn:E; [|discriminate]. cbn [bind] in H. injection H as <- <-.
      exists (rstrip0 s). split; [reflexivity|]. split; [intros t; apply rstrip0_no_trail|].
      apply HQ. pose proof (Hde _ _ Hp E) as Es. destruct (rstrip0_spec s) as [n Hn]. rewrite Hn, Happ in Es.
      destruct (enc (rstrip0 s)); [eauto|discriminate].
    - intros (s & -> & Ht & Hs). apply HQ in Hs. destruct Hs as [b Hb].
      assert (E : enc (s ++ [0]) = Some (b ++ z)) by (rewrite Happ, Hb, Hz; reflexivity).
      destruct (Hed _ _ E) as [Ed Hbz]. exists (b ++ z). split; [exact Hbz|].
      split.
      + unfold one_nul. rewrite Ed, rev_app_distr. cbn [rev app]. destruct (rev s) as [|c t] eqn:Er; [reflexivity|].
        destruct (Z.eq_dec c 0) as [->|Hc].
        * exfalso. apply (Ht (rev t)). rewrite <- (rev_involutive s), Er. reflexivity.
        * destruct c; [congruence|reflexivity|reflexivity].
      + rewrite Ed. cbn [bind]. eexists. do 3 f_equal.
        change (s ++ [0]) with (s ++ repeat 0 1). rewrite rstrip0_app0. apply rstrip0_id. exact Ht.
  Qed.
End Text.

Lemma ascii_dom cx (v : val) :
  (exists p, is_bytes p /\ one_nul ascii_dec p = true /\ exists r, cparse AsciiText cx p = Ok (v, r)) <-> domain KAscii v.
Proof.
  unfold AsciiText. refine (text_dom ascii_dec ascii_enc (Forall (fun c => 0 <= c < 128)) [0] _ _ _ _ _ cx v).
  - intros b s. apply ascii_dec_enc.
  - intros s b. apply ascii_enc_dec.
  - apply ascii_enc_app.
  - reflexivity.
  - apply ascii_enc_iff.
Qed.
Lemma unicode_dom cx (v : val) :
  (exists p, is_bytes p /\ one_nul utf16_dec p = true /\ exists r, cparse UnicodeText cx p = Ok (v, r)) <-> domain KUnicode v.
Proof.
  unfold UnicodeText. refine (text_dom utf16_dec utf16_enc (Forall scalar) [0; 0] _ _ _ _ _ cx v).
  - intros b s. apply utf16_dec_enc.
  - intros s b. apply utf16_enc_dec.
  - apply utf16_enc_app.
  - reflexivity.
  - apply utf16_enc_iff.
Qed.

(* payloads of a scalar class ignore the keyword arguments *)
Lemma scalar_payload en k id id' L L' w w' v : scalar_kind k = true ->
  payload en (Event id k L w v) = payload en (Event id' k L' w' v).
Proof.
  intros H. destruct k; try discriminate H; try reflexivity.
  unfold payload. cbn [e_kind e_len e_new e_val kcon U16Tuple Adapter cbuild]. destruct (seq_of v) as [l|]; [|reflexivity].
  cbn [bind Array cbuild seq_of]. destruct l as [|a [|b [|]]]; reflexivity.
Qed.
Lemma allowed_fits k id : 0 <= id -> allowed_id k id = true -> fixed_kind k = true -> kind_width k = width id /\ id < 192.
Proof.
  intros H0 H Hf. unfold width. destruct k; try discriminate Hf; cbn [allowed_id kind_width] in *;
  destruct (Z.ltb_spec id 64); destruct (Z.ltb_spec id 128); lia.
Qed.

Lemma mk_scalar en k id p v r : scalar_kind k = true -> allowed_id k id = true ->
  (id < 192 -> zlen p = width id) ->
  cparse (kcon k) (mkctx en (zlen p) (new_of p) p) p = Ok (v, r) ->
  mk_event en k id p = Ok (Event id k (zlen p) (new_of p) v).
Proof.
  intros Hk Ha Hs Hp. unfold mk_event. replace (match k, p with KVSTPlugin, [] => Err IndexError | _, _ => Ok tt end) with (@Ok unit tt)
    by (destruct k; try discriminate Hk; reflexivity). cbn [bind]. rewrite Ha. cbn [negb].
  destruct (Z.ltb_spec id 192) as [Hl|Hl].
  - specialize (Hs Hl). unfold width in Hs. replace (zlen p =? _) with true by lia. cbn [negb]. rewrite Hp. reflexivity.
  - cbn [negb]. rewrite Hp. reflexivity.
Qed.

Definition stored (en : env) (k : kind) (id : Z) (v : val) : Prop :=
  exists L w p e, payload en (Event id k L w v) = Ok p /\ is_bytes p /\ mk_event en k id p = Ok e /\ e_val e = v.

Lemma stored_canon en k id v : scalar_kind k = true ->
  stored en k id v <-> exists p e, is_bytes p /\ canonical_payload en k p = true /\ mk_event en k id p = Ok e /\ e_val e = v.
Proof.
  intros Hk. split.
  - intros (L & w & p & e & HP & Hb & HM & Hv). exists p, e. split; [exact Hb|]. split; [|auto].
    apply (payload_canonical en k id p e Hb HM). destruct (mk_event_inv _ _ _ _ _ HM) as (v' & r & _ & -> & _).
    cbn [e_val] in Hv. subst v'. rewrite <- HP. apply scalar_payload. exact Hk.
  - intros (p & e & Hb & HC & HM & Hv). pose proof (proj2 (payload_canonical en k id p e Hb HM) HC) as HP.
    destruct (mk_event_inv _ _ _ _ _ HM) as (v' & r & _ & -> & _). cbn [e_val] in Hv. subst v'.
    exists (zlen p), (new_of p), p. eexists. split; [exact HP|]. split; [exact Hb|]. split; [exact HM|reflexivity].
Qed.

(* kinds of a fixed width that keep every payload *)
Lemma fixed_dom en k id v n (Q : val -> Prop) : scalar_kind k = true -> fixed_kind k = true -> 0 <= id -> allowed_id k id = true ->
  Z.of_nat n = kind_width k -> (forall p, canonical_payload en k p = (zlen p =? Z.of_nat n)) ->
  reads_as (kcon k) n Q -> stored en k id v <-> Q v.
Proof.
  intros Hk Hf Hid Ha Hn HC [R1 R2]. rewrite (stored_canon en k id v Hk). destruct (allowed_fits _ _ Hid Ha Hf) as [Hw Hl]. split.
  - intros (p & e & Hb & _ & HM & Hv). destruct (mk_event_inv _ _ _ _ _ HM) as (v' & r & E & -> & _).
    cbn [e_val] in Hv. subst v'. eapply R1; eassumption.
  - intros HQ. destruct (R2 (mkctx en (kind_width k) false []) v HQ) as (p & Hb & Hlen & E).
    assert (Hz : zlen p = kind_width k) by (unfold zlen; rewrite Hlen; exact Hn).
    exists p, (Event id k (zlen p) (new_of p) v). split; [exact Hb|]. split; [rewrite HC; lia|]. split; [|reflexivity].
    apply (mk_scalar en k id p v []); [exact Hk|exact Ha|intros _; lia|]. refine (eq_trans _ E). destruct k; try discriminate Hf; reflexivity.
Qed.

Theorem domain_exact en k id v : scalar_kind k = true -> 0 <= id < 256 -> allowed_id k id = true ->
  (k = KUnknown -> 192 <= id) -> (stored en k id v <-> domain k v).
Proof.
  intros Hk Hid Ha Hu. destruct k; try discriminate Hk; cbn [domain].
  - (* bool *)
    rewrite (stored_canon en KBool id v Hk). split.
    + intros (p & e & Hb & _ & HM & Hv). destruct (mk_event_inv _ _ _ _ _ HM) as (v' & r & E & -> & _).
      cbn [e_val] in Hv. subst v'. cbn [kcon Flag cparse] in E. inv_bind E. destruct x as [d r']. injection E as <- <-. eauto.
    + intros [b ->]. exists [if b then 1 else 0], (Event id KBool 1 false (VBool b)). split; [destruct b; repeat constructor; discriminate|].
      split; [destruct b; reflexivity|]. split; [|reflexivity].
      apply (mk_scalar en KBool id [if b then 1 else 0] (VBool b) []); [reflexivity|exact Ha| |destruct b; reflexivity].
      destruct (allowed_fits _ _ (proj1 Hid) Ha eq_refl) as [<- _]. reflexivity.
  - apply (fixed_dom en KI8 id v 1); auto; try apply Hid; try reflexivity. apply (reads_sint 1 128); [lia|reflexivity].
  - apply (fixed_dom en KU8 id v 1); auto; try apply Hid; try reflexivity. apply (reads_uint 1 256). reflexivity.
  - apply (fixed_dom en KI16 id v 2); auto; try apply Hid; try reflexivity. apply (reads_sint 2 32768); [lia|reflexivity].
  - apply (fixed_dom en KU16 id v 2); auto; try apply Hid; try reflexivity. apply (reads_uint 2 65536). reflexivity.
  - (* float *)
    rewrite (stored_canon en KF32 id v Hk). split.
    + intros (p & e & Hb & HC & HM & Hv). destruct (mk_event_inv _ _ _ _ _ HM) as (v' & r & E & -> & _).
      cbn [e_val] in Hv. subst v'. cbn [kcon Float32l cparse] in E. inv_bind E. destruct x as [d r']. injection E as <- <-.
      destruct (take_inv _ _ _ _ E0) as [-> Hl]. apply is_bytes_app in Hb. destruct Hb as [Hd _].
      exists d. split; [exact Hd|]. split; [exact Hl|].
      cbn [canonical_payload canon c_f32 c_size c_reads c_ok] in HC.
      replace (firstn 4 (d ++ r')) with d in HC by (rewrite <- Hl; symmetry; apply firstn_app_exact).
      split; [|rewrite (u_le_dec d); reflexivity]. destruct (is_snan32 d); [|reflexivity].
      rewrite !andb_false_r in HC. discriminate.
    + intros (b & Hb & Hl & Hs & ->). exists b, (Event id KF32 (zlen b) (new_of b) (VFlt (f32_to_64 (u_le b)))). split; [exact Hb|]. split; [|split; [|reflexivity]].
      * cbn [canonical_payload canon c_f32 c_size c_reads c_ok]. rewrite Hl. rewrite firstn_all2 by lia. rewrite skipn_all2 by lia.
        rewrite Hs. reflexivity.
      * eapply mk_scalar; [reflexivity|exact Ha| |].
        -- destruct (allowed_fits _ _ (proj1 Hid) Ha eq_refl) as [<- _]. unfold zlen. rewrite Hl. reflexivity.
        -- cbn [kcon Float32l cparse].
           assert (ET : take 4 b = Ok (b, [])) by (rewrite <- (app_nil_r b) at 1; apply (take_app b [] 4 Hl)).
           rewrite ET. cbn [bind]. rewrite (u_le_dec b). reflexivity.
  - apply (fixed_dom en KI32 id v 4); auto; try apply Hid; try reflexivity. apply (reads_sint 4 2147483648); [lia|reflexivity].
  - apply (fixed_dom en KU32 id v 4); auto; try apply Hid; try reflexivity. apply (reads_uint 4 4294967296). reflexivity.
  - apply (fixed_dom en KU16Tuple id v 4 (domain KU16Tuple)); auto; try apply Hid; try reflexivity. split.
    + intros cx bs v' r Hb H. unfold kcon, U16Tuple in H. cbn [Adapter cparse] in H. inv_bind H. destruct x as [x r'].
      destruct (plain_inv _ _ _ _ _ _ _ (plain_array2 _ _ _ (plain_uint 2)) Hb E) as (d & _ & Hl & Hd & ->).
      cbn [bind] in H. injection H as <- <-. unfold domain. exists (le_dec (firstn 2 d)), (le_dec (skipn 2 d)). split; [reflexivity|].
      pose proof (le_dec_bound (firstn 2 d) (is_bytes_firstn 2 d Hd)) as B1. pose proof (le_dec_bound (skipn 2 d) (is_bytes_skipn 2 d Hd)) as B2.
      rewrite firstn_length_le in B1 by lia. rewrite skipn_length, Hl in B2.
      change (256 ^ Z.of_nat (4 - 2)) with 65536 in B2. change (256 ^ Z.of_nat 2) with 65536 in B1. split; assumption.
    + intros cx v' (a & b & -> & HA & HB). exists (le_enc 2 a ++ le_enc 2 b).
      split; [apply is_bytes_app; split; apply le_enc_bytes|]. split; [rewrite app_length, !le_enc_length; reflexivity|].
      cbn [kcon U16Tuple Adapter cparse Array array_parse].
      destruct (plain_uint 2) as (_ & PU & _). unfold Int16ul.
      rewrite PU by (apply le_enc_bytes || apply le_enc_length). cbn [bind].
      rewrite <- (app_nil_r (le_enc 2 b)). rewrite PU by (apply le_enc_bytes || apply le_enc_length). cbn [bind].
      rewrite !le_dec_enc by (change (256 ^ Z.of_nat 2) with 65536; lia). reflexivity.
  - apply (fixed_dom en KColor id v 4 (domain KColor)); auto; try apply Hid; try reflexivity. split.
    + intros cx bs v' r Hb H. unfold kcon, Color in H. cbn [Adapter cparse] in H. inv_bind H. destruct x as [x r'].
      destruct (plain_inv _ _ _ _ _ _ _ (plain_bytes 4) Hb E) as (d & _ & Hl & Hd & ->). rewrite Hl in H. cbn [Nat.eqb bind] in H.
      injection H as <- <-. destruct d as [|a [|b [|c [|d [|]]]]]; try discriminate Hl. unfold domain. exists a, b, c, d. split; [reflexivity|exact Hd].
    + intros cx v' (a & b & c & d & -> & Hd). exists [a; b; c; d]. split; [exact Hd|]. split; reflexivity.
  - rewrite (stored_canon en KAscii id v Hk), <- (ascii_dom (mkctx en 0 false []) v). cbn [canonical_payload]. split.
    + intros (p & e & Hb & HC & HM & Hv). destruct (mk_event_inv _ _ _ _ _ HM) as (v' & r & E & -> & _).
      cbn [e_val] in Hv. subst v'. exists p. split; [exact Hb|]. split; [exact HC|]. exists r. exact E.
    + intros (p & Hb & HC & r & E). exists p, (Event id KAscii (zlen p) (new_of p) v). split; [exact Hb|]. split; [exact HC|]. split; [|reflexivity].
      eapply mk_scalar; [reflexivity|exact Ha| |exact E]. intros Hl. exfalso. cbn [allowed_id] in Ha. unfold mem_Z, new_text_ids in Ha. cbn [existsb] in Ha. lia.
  - rewrite (stored_canon en KUnicode id v Hk), <- (unicode_dom (mkctx en 0 false []) v). cbn [canonical_payload]. split.
    + intros (p & e & Hb & HC & HM & Hv). destruct (mk_event_inv _ _ _ _ _ HM) as (v' & r & E & -> & _).
      cbn [e_val] in Hv. subst v'. exists p. split; [exact Hb|]. split; [exact HC|]. exists r. exact E.
    + intros (p & Hb & HC & r & E). exists p, (Event id KUnicode (zlen p) (new_of p) v). split; [exact Hb|]. split; [exact HC|]. split; [|reflexivity].
      eapply mk_scalar; [reflexivity|exact Ha| |exact E]. intros Hl. exfalso. cbn [allowed_id] in Ha. unfold mem_Z, new_text_ids in Ha. cbn [existsb] in Ha. lia.
  - rewrite (stored_canon en KUnknown id v Hk). split.
    + intros (p & e & Hb & HC & HM & Hv). destruct (mk_event_inv _ _ _ _ _ HM) as (v' & r & E & -> & _).
      cbn [e_val] in Hv. subst v'. cbn [kcon GreedyBytes cparse] in E. injection E as <- <-. eauto.
    + intros (b & -> & Hb). exists b, (Event id KUnknown (zlen b) (new_of b) (VBytes b)). split; [exact Hb|]. split; [reflexivity|]. split; [|reflexivity].
      eapply mk_scalar; [reflexivity|reflexivity| |reflexivity]. specialize (Hu eq_refl). lia.
Qed.
