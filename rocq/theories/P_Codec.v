(* Integers, length prefix and text codecs. *)
From Coq Require Import String ZArith List Bool Lia Wf_nat.
From Coq Require Import ZifyBool ZifyNat.
From Verif Require Import M_Base M_Text M_Construct P_Base.
Import ListNotations.
Open Scope Z_scope.

(* ---------------- little-endian integers ---------------- *)
Lemma le_dec_bound d : is_bytes d -> 0 <= le_dec d < 256 ^ Z.of_nat (length d).
Proof.
  induction d as [|b d IH]; cbn [le_dec length].
  - cbn; lia.
  - intro H; apply is_bytes_cons in H as [Hb H]; apply IH in H.
    rewrite Nat2Z.inj_succ, Z.pow_succ_r by lia. unfold is_byte in Hb. nia.
Qed.
Lemma le_enc_length n z : length (le_enc n z) = n.
Proof. revert z; induction n; cbn; auto. Qed.
Lemma le_enc_bytes n z : is_bytes (le_enc n z).
Proof.
  revert z; induction n; cbn; intros; [constructor | constructor; [unfold is_byte; lia | apply IHn]].
Qed.
Lemma le_enc_dec d : is_bytes d -> le_enc (length d) (le_dec d) = d.
Proof.
  induction d as [|b d IH]; cbn [le_dec length le_enc]; [reflexivity|].
  intro H; apply is_bytes_cons in H as [Hb H]. unfold is_byte in Hb.
  f_equal; [lia|].
  transitivity (le_enc (length d) (le_dec d)); [f_equal; lia | auto].
Qed.
Lemma le_dec_enc n z : 0 <= z < 256 ^ Z.of_nat n -> le_dec (le_enc n z) = z.
Proof.
  revert z; induction n; intros z H.
  - cbn in *; lia.
  - rewrite Nat2Z.inj_succ, Z.pow_succ_r in H by lia.
    cbn [le_enc le_dec]. rewrite IHn by lia. lia.
Qed.
Lemma le_enc_shift n z k : le_enc n (z + k * 256 ^ Z.of_nat n) = le_enc n z.
Proof.
  revert z k; induction n; intros; [reflexivity|].
  rewrite Nat2Z.inj_succ, Z.pow_succ_r by lia. cbn [le_enc]. f_equal.
  - replace (z + k * (256 * 256 ^ Z.of_nat n)) with (z + (k * 256 ^ Z.of_nat n) * 256) by ring.
    apply Z.mod_add; lia.
  - replace (z + k * (256 * 256 ^ Z.of_nat n)) with (z + (k * 256 ^ Z.of_nat n) * 256) by ring.
    rewrite Z.div_add by lia. apply IHn.
Qed.
Lemma pow256_even n : (0 < n)%nat -> exists h, 256 ^ Z.of_nat n = 2 * h /\ 0 < h.
Proof.
  intro H. destruct n; [lia|]. exists (128 * 256 ^ Z.of_nat n).
  rewrite Nat2Z.inj_succ, Z.pow_succ_r by lia. split; [ring|].
  assert (0 < 256 ^ Z.of_nat n) by (apply Z.pow_pos_nonneg; lia). lia.
Qed.
Lemma le_enc_signed d : is_bytes d -> le_enc (length d) (to_signed (length d) (le_dec d)) = d.
Proof.
  intro H. unfold to_signed. destruct (_ <? _); [now apply le_enc_dec|].
  transitivity (le_enc (length d) (le_dec d)); [|now apply le_enc_dec].
  rewrite <- (le_enc_shift (length d) _ 1). f_equal; lia.
Qed.
Lemma to_signed_range n z : 0 <= z < 256 ^ Z.of_nat n ->
  - 256 ^ Z.of_nat n <= 2 * to_signed n z < 256 ^ Z.of_nat n.
Proof. unfold to_signed; intros; destruct (2 * z <? 256 ^ Z.of_nat n) eqn:E; lia. Qed.
Lemma signed_dec_enc n z :
  - 256 ^ Z.of_nat n <= 2 * z < 256 ^ Z.of_nat n ->
  to_signed n (le_dec (le_enc n z)) = z.
Proof.
  intro H. assert (P : 0 < 256 ^ Z.of_nat n) by (apply Z.pow_pos_nonneg; lia).
  destruct (Z_lt_le_dec z 0).
  - rewrite <- (le_enc_shift n z 1), le_dec_enc by lia.
    unfold to_signed. destruct (2 * (z + 1 * 256 ^ Z.of_nat n) <? 256 ^ Z.of_nat n) eqn:E; lia.
  - rewrite le_dec_enc by lia. unfold to_signed.
    destruct (2 * z <? 256 ^ Z.of_nat n) eqn:E; lia.
Qed.

(* ---------------- length prefix ---------------- *)
Lemma varint_enc_aux_spec f n r :
  0 <= n -> (Z.to_nat (Z.log2 n) < f)%nat ->
  varint_dec (varint_enc_aux f n ++ r) = Ok (n, r) /\ is_bytes (varint_enc_aux f n).
Proof.
  revert n; induction f; intros n Hn Hf; [lia|].
  cbn [varint_enc_aux]. destruct (n <? 128) eqn:E.
  - cbn. rewrite E. split; [reflexivity|]. constructor; [unfold is_byte; lia | constructor].
  - assert (L : 0 <= n / 128) by lia.
    assert (Hl : Z.log2 (n / 128) = Z.log2 n - 7).
    { change 128 with (2 ^ 7). rewrite <- Z.shiftr_div_pow2 by lia.
      rewrite Z.log2_shiftr by lia.
      assert (7 <= Z.log2 n) by (change 7 with (Z.log2 128); apply Z.log2_le_mono; lia). lia. }
    assert (7 <= Z.log2 n) by (change 7 with (Z.log2 128); apply Z.log2_le_mono; lia).
    destruct (IHf (n / 128)) as [D B]; [lia|lia|].
    split.
    + cbn [app varint_dec]. destruct (128 + n mod 128 <? 128) eqn:E2; [lia|].
      rewrite D. cbn [bind]. f_equal. f_equal. lia.
    + constructor; [unfold is_byte; lia | assumption].
Qed.
Lemma varint_dec_enc n r : 0 <= n -> varint_dec (varint_enc n ++ r) = Ok (n, r).
Proof. intro H; apply varint_enc_aux_spec; [assumption | lia]. Qed.
Lemma varint_enc_bytes n : 0 <= n -> is_bytes (varint_enc n).
Proof. intro H. apply (varint_enc_aux_spec _ _ []); [assumption | lia]. Qed.

Lemma varint_enc_step n : 128 <= n -> varint_enc n = (128 + n mod 128) :: varint_enc (n / 128).
Proof.
  intro H. unfold varint_enc at 1.
  assert (Hl : Z.log2 (n / 128) = Z.log2 n - 7).
  { change 128 with (2 ^ 7). rewrite <- Z.shiftr_div_pow2 by lia.
    rewrite Z.log2_shiftr by lia.
    assert (7 <= Z.log2 n) by (change 7 with (Z.log2 128); apply Z.log2_le_mono; lia). lia. }
  assert (7 <= Z.log2 n) by (change 7 with (Z.log2 128); apply Z.log2_le_mono; lia).
  cbn [varint_enc_aux]. destruct (n <? 128) eqn:E; [lia|]. f_equal.
  unfold varint_enc.
  (* fuel independence *)
  assert (F : forall f g m, 0 <= m -> (Z.to_nat (Z.log2 m) < f)%nat -> (Z.to_nat (Z.log2 m) < g)%nat ->
              varint_enc_aux f m = varint_enc_aux g m).
  { clear. induction f; intros g m Hm Hf Hg; [lia|]. destruct g; [lia|].
    cbn [varint_enc_aux]. destruct (m <? 128) eqn:E; [reflexivity|]. f_equal.
    assert (Hl : Z.log2 (m / 128) = Z.log2 m - 7).
    { change 128 with (2 ^ 7). rewrite <- Z.shiftr_div_pow2 by lia.
      rewrite Z.log2_shiftr by lia.
      assert (7 <= Z.log2 m) by (change 7 with (Z.log2 128); apply Z.log2_le_mono; lia). lia. }
    assert (7 <= Z.log2 m) by (change 7 with (Z.log2 128); apply Z.log2_le_mono; lia).
    apply IHf; lia. }
  apply F; lia.
Qed.
Lemma varint_enc_small n : 0 <= n < 128 -> varint_enc n = [n].
Proof. intro H. unfold varint_enc. cbn. destruct (n <? 128) eqn:E; [reflexivity | lia]. Qed.
Lemma varint_enc_nonempty n : varint_enc n <> [].
Proof. unfold varint_enc. cbn. destruct (n <? 128); discriminate. Qed.

Lemma varint_dec_split bs n r : is_bytes bs -> varint_dec bs = Ok (n, r) ->
  exists used, bs = used ++ r /\ 0 <= n /\ used <> [] /\
    (length (varint_enc n) <= length used)%nat.
Proof.
  revert n r; induction bs as [|b bs IH]; intros n r B H; cbn [varint_dec] in H; [discriminate|].
  apply is_bytes_cons in B as [Hb B]. unfold is_byte in Hb.
  destruct (b <? 128) eqn:E.
  - injection H as <- <-. exists [b]. rewrite varint_enc_small by lia.
    repeat split; try lia; try discriminate.
  - inv_bind H. destruct x as [m r']. injection H as <- <-.
    destruct (IH _ _ B E0) as (u & -> & Hm & Hu & L).
    exists (b :: u). split; [reflexivity|]. split; [lia|]. split; [discriminate|].
    destruct (Z_lt_le_dec (b mod 128 + 128 * m) 128).
    + rewrite varint_enc_small by lia. cbn [length]. lia.
    + rewrite varint_enc_step by lia. cbn [length].
      replace ((b mod 128 + 128 * m) / 128) with m by lia. lia.
Qed.

(* the decoder only depends on what it consumes *)
Lemma varint_dec_app used n r r' : varint_dec (used ++ r) = Ok (n, r) ->
  varint_dec (used ++ r') = Ok (n, r').
Proof.
  revert n; induction used as [|b u IH]; intros n H.
  - cbn in H. exfalso. revert n H. 
    assert (X : forall bs n r, varint_dec bs = Ok (n, r) -> (length r < length bs)%nat).
    { clear. induction bs as [|b bs IH]; cbn; intros n r H; [discriminate|].
      destruct (b <? 128); [injection H as <- <-; lia|].
      inv_bind H. destruct x. injection H as <- <-. apply IH in E. lia. }
    intros n H; apply X in H; lia.
  - cbn in *. destruct (b <? 128).
    { injection H as -> H. apply (f_equal (@length Z)) in H. rewrite app_length in H.
      destruct u; [reflexivity | cbn in H; lia]. }
    inv_bind H. destruct x as [m r2]. injection H as <- <-.
    now rewrite (IH _ E).
Qed.

(* ---------------- ascii ---------------- *)
Lemma ascii_dec_enc b s : is_bytes b -> ascii_dec b = Some s -> ascii_enc s = Some b.
Proof.
  unfold ascii_dec, ascii_enc. intros B H.
  destruct (forallb _ b) eqn:E; [|discriminate]. injection H as <-.
  replace (forallb (fun c => (0 <=? c) && (c <? 128)) b) with true; [reflexivity|].
  symmetry. rewrite forallb_forall in *. intros c Hc.
  specialize (E c Hc). unfold is_bytes in B. rewrite Forall_forall in B. specialize (B c Hc). unfold is_byte in B. lia.
Qed.
Lemma ascii_enc_dec s b : ascii_enc s = Some b -> ascii_dec b = Some s /\ is_bytes b.
Proof.
  unfold ascii_dec, ascii_enc. intro H.
  destruct (forallb _ s) eqn:E; [|discriminate]. injection H as <-.
  rewrite forallb_forall in E. split.
  - replace (forallb (fun c => c <? 128) s) with true; [reflexivity|].
    symmetry. rewrite forallb_forall. intros c Hc. specialize (E c Hc). lia.
  - unfold is_bytes; rewrite Forall_forall. intros c Hc. specialize (E c Hc). unfold is_byte. lia.
Qed.

(* ---------------- utf-16-le ---------------- *)
Lemma list_ind2 (P : bytes -> Prop) :
  (forall b, (forall b', (length b' < length b)%nat -> P b') -> P b) -> forall b, P b.
Proof. intros H b. apply (well_founded_ind (well_founded_ltof _ (@length Z))). exact H. Qed.

Lemma utf16_dec_enc b : forall s, is_bytes b -> utf16_dec b = Some s -> utf16_enc s = Some b.
Proof.
  pattern b; apply list_ind2; clear b; intros b IH s B H.
  destruct b as [|b0 [|b1 r]]; cbn in H; [injection H as <-; reflexivity | discriminate |].
  apply is_bytes_cons in B as [B0 B]; apply is_bytes_cons in B as [B1 B]. unfold is_byte in *.
  set (u := b0 + 256 * b1) in *.
  destruct (is_lo u) eqn:EL; [discriminate|].
  destruct (is_hi u) eqn:EH.
  - destruct r as [|b2 [|b3 r]]; try discriminate.
    apply is_bytes_cons in B as [B2 B]; apply is_bytes_cons in B as [B3 B]. unfold is_byte in *.
    set (w := b2 + 256 * b3) in *.
    destruct (is_lo w) eqn:ELw; [|discriminate].
    unfold ocons in H. destruct (utf16_dec r) as [t|] eqn:ER; [|discriminate].
    injection H as <-. cbn [utf16_enc].
    rewrite (IH r) with (s := t); [|cbn; lia|assumption|assumption].
    unfold utf16_enc1. subst u w. unfold is_hi, is_lo in *.
    set (c := 65536 + (b0 + 256 * b1 - 55296) * 1024 + (b2 + 256 * b3 - 56320)) in *.
    assert (HC : 65536 <= c <= 1114111) by lia.
    replace ((c <? 0) || (1114111 <? c) || ((55296 <=? c) && (c <? 56320)) ||
      ((56320 <=? c) && (c <? 57344))) with false by lia.
    replace (c <? 65536) with false by lia.
    f_equal. unfold le16. cbn [app].
    assert (E1 : (c - 65536) / 1024 = b0 + 256 * b1 - 55296) by lia.
    assert (E2 : (c - 65536) mod 1024 = b2 + 256 * b3 - 56320) by lia.
    rewrite E1, E2. repeat (f_equal; try lia).
  - unfold ocons in H. destruct (utf16_dec r) as [t|] eqn:ER; [|discriminate].
    injection H as <-. cbn [utf16_enc].
    rewrite (IH r) with (s := t); [|cbn; lia|assumption|assumption].
    unfold utf16_enc1. rewrite EH, EL. subst u.
    replace ((b0 + 256 * b1 <? 0) || (1114111 <? b0 + 256 * b1)) with false by lia. cbn [orb].
    replace (b0 + 256 * b1 <? 65536) with true by lia.
    f_equal. unfold le16. cbn [app]. repeat (f_equal; try lia).
Qed.

Lemma utf16_enc_dec s : forall b, utf16_enc s = Some b -> utf16_dec b = Some s /\ is_bytes b.
Proof.
  induction s as [|c s IH]; cbn; intros b H.
  - injection H as <-. split; [reflexivity | constructor].
  - destruct (utf16_enc1 c) as [a|] eqn:E1; [|discriminate].
    destruct (utf16_enc s) as [t|] eqn:E2; [|discriminate].
    injection H as <-. destruct (IH t eq_refl) as [D B].
    unfold utf16_enc1 in E1.
    destruct ((c <? 0) || (1114111 <? c) || is_hi c || is_lo c) eqn:EC; [discriminate|].
    destruct (c <? 65536) eqn:EL; injection E1 as <-.
    + unfold le16. cbn [app utf16_dec].
      replace (c mod 256 + 256 * (c / 256)) with c by lia.
      destruct (is_lo c) eqn:Elo; [lia|]. destruct (is_hi c) eqn:Ehi; [lia|].
      rewrite D. split; [reflexivity|].
      constructor; [unfold is_byte; lia|]. constructor; [unfold is_byte; lia | assumption].
    + set (h := (c - 65536) / 1024). set (l := (c - 65536) mod 1024).
      assert (Hh : 0 <= h < 1024) by (subst h; lia).
      assert (Hl : 0 <= l < 1024) by (subst l; lia).
      assert (Hc : c = 65536 + h * 1024 + l) by (subst h l; lia).
      clearbody h l.
      unfold le16. cbn [app utf16_dec].
      replace ((55296 + h) mod 256 + 256 * ((55296 + h) / 256)) with (55296 + h) by lia.
      replace ((56320 + l) mod 256 + 256 * ((56320 + l) / 256)) with (56320 + l) by lia.
      unfold is_lo, is_hi.
      replace ((56320 <=? 55296 + h) && (55296 + h <? 57344)) with false by lia.
      replace ((55296 <=? 55296 + h) && (55296 + h <? 56320)) with true by lia.
      replace ((56320 <=? 56320 + l) && (56320 + l <? 57344)) with true by lia.
      rewrite D. split; [cbn; f_equal; f_equal; lia|].
      repeat (constructor; [unfold is_byte; lia|]). assumption.
Qed.

Lemma Some_inj A (x y : A) : Some x = Some y -> x = y.
Proof. congruence. Qed.

(* ---------------- utf8 ---------------- *)
Lemma utf8_dec_enc b : forall s, is_bytes b -> utf8_dec b = Some s -> utf8_enc s = Some b.
Proof.
  pattern b; apply list_ind2; clear b; intros b IH s B H.
  destruct b as [|b0 r]; cbn in H; [injection H as <-; reflexivity|].
  apply is_bytes_cons in B as [B0 B]. unfold is_byte in B0.
  destruct (b0 <? 128) eqn:E1.
  { unfold ocons in H. destruct (utf8_dec r) as [t|] eqn:ER; [|discriminate].
    injection H as <-. cbn [utf8_enc]. rewrite (IH r) with (s := t); [|cbn; lia|assumption|assumption].
    unfold utf8_enc1, is_hi, is_lo. 
    replace ((b0 <? 0) || (1114111 <? b0) || ((55296 <=? b0) && (b0 <? 56320)) ||
      ((56320 <=? b0) && (b0 <? 57344))) with false by lia.
    rewrite E1. reflexivity. }
  destruct ((194 <=? b0) && (b0 <? 224)) eqn:E2.
  { destruct r as [|b1 r]; [discriminate|].
    apply is_bytes_cons in B as [B1 B]. unfold is_byte in B1.
    destruct (is_cont b1) eqn:C1; [|discriminate]. unfold is_cont in C1.
    unfold ocons in H. destruct (utf8_dec r) as [t|] eqn:ER; [|discriminate].
    injection H as <-. cbn [utf8_enc]. rewrite (IH r) with (s := t); [|cbn; lia|assumption|assumption].
    set (c := (b0 - 192) * 64 + (b1 - 128)).
    assert (HC : 128 <= c < 2048) by lia.
    unfold utf8_enc1, is_hi, is_lo.
    replace ((c <? 0) || (1114111 <? c) || ((55296 <=? c) && (c <? 56320)) ||
      ((56320 <=? c) && (c <? 57344))) with false by lia.
    replace (c <? 128) with false by lia. replace (c <? 2048) with true by lia.
    f_equal. cbn [app]. subst c. repeat (f_equal; try lia). }
  destruct ((224 <=? b0) && (b0 <? 240)) eqn:E3.
  { destruct r as [|b1 [|b2 r]]; try discriminate.
    apply is_bytes_cons in B as [B1 B]. apply is_bytes_cons in B as [B2 B]. unfold is_byte in B1, B2.
    set (c := (b0 - 224) * 4096 + (b1 - 128) * 64 + (b2 - 128)) in *.
    destruct (is_cont b1 && is_cont b2 && (2048 <=? c) && negb (is_hi c) && negb (is_lo c)) eqn:C1;
      [|discriminate]. 
    unfold ocons in H. destruct (utf8_dec r) as [t|] eqn:ER; [|discriminate].
    injection H as <-. cbn [utf8_enc]. rewrite (IH r) with (s := t); [|cbn; lia|assumption|assumption].
    unfold is_cont, is_hi, is_lo in C1.
    assert (HC : 2048 <= c < 65536) by (subst c; lia).
    unfold utf8_enc1, is_hi, is_lo.
    replace ((c <? 0) || (1114111 <? c) || ((55296 <=? c) && (c <? 56320)) ||
      ((56320 <=? c) && (c <? 57344))) with false by (clearbody c; lia).
    replace (c <? 128) with false by lia. replace (c <? 2048) with false by lia.
    replace (c <? 65536) with true by lia.
    f_equal. cbn [app].
    assert (c / 4096 = b0 - 224) by (subst c; lia).
    assert ((c / 64) mod 64 = b1 - 128) by (subst c; lia).
    assert (c mod 64 = b2 - 128) by (subst c; lia).
    repeat (f_equal; try lia). }
  destruct ((240 <=? b0) && (b0 <? 245)) eqn:E4; [|discriminate].
  destruct r as [|b1 [|b2 [|b3 r]]]; try discriminate.
  apply is_bytes_cons in B as [B1 B]. apply is_bytes_cons in B as [B2 B].
  apply is_bytes_cons in B as [B3 B]. unfold is_byte in B1, B2, B3.
  set (c := (b0 - 240) * 262144 + (b1 - 128) * 4096 + (b2 - 128) * 64 + (b3 - 128)) in *.
  destruct (is_cont b1 && is_cont b2 && is_cont b3 && (65536 <=? c) && (c <=? 1114111)) eqn:C1;
    [|discriminate].
  unfold ocons in H. destruct (utf8_dec r) as [t|] eqn:ER; [|discriminate].
  injection H as <-. cbn [utf8_enc]. rewrite (IH r) with (s := t); [|cbn; lia|assumption|assumption].
  unfold is_cont in C1.
  unfold utf8_enc1, is_hi, is_lo.
  replace ((c <? 0) || (1114111 <? c) || ((55296 <=? c) && (c <? 56320)) ||
      ((56320 <=? c) && (c <? 57344))) with false by lia.
  replace (c <? 128) with false by lia. replace (c <? 2048) with false by lia.
  replace (c <? 65536) with false by lia.
  f_equal. cbn [app].
  assert (c / 262144 = b0 - 240) by (subst c; lia).
  assert ((c / 4096) mod 64 = b1 - 128) by (subst c; lia).
  assert ((c / 64) mod 64 = b2 - 128) by (subst c; lia).
  assert (c mod 64 = b3 - 128) by (subst c; lia).
  repeat (f_equal; try lia).
Qed.

Lemma utf8_enc_dec s : forall b, utf8_enc s = Some b -> utf8_dec b = Some s /\ is_bytes b.
Proof.
  induction s as [|c s IH]; cbn; intros b H.
  - injection H as <-. split; [reflexivity | constructor].
  - destruct (utf8_enc1 c) as [a|] eqn:E1; [|discriminate].
    destruct (utf8_enc s) as [t|] eqn:E2; [|discriminate].
    injection H as <-. destruct (IH t eq_refl) as [D B]. clear IH E2.
    unfold utf8_enc1 in E1.
    destruct ((c <? 0) || (1114111 <? c) || is_hi c || is_lo c) eqn:EC; [discriminate|].
    destruct (c <? 128) eqn:L1; [|destruct (c <? 2048) eqn:L2; [|destruct (c <? 65536) eqn:L3]].
    all: apply Some_inj in E1; subst a; cbn [app utf8_dec].
    + rewrite L1, D. split; [reflexivity|]. constructor; [unfold is_byte; lia|assumption].
    + set (h := c / 64) in *. set (l := c mod 64) in *.
      assert (2 <= h < 32 /\ 0 <= l < 64 /\ c = h * 64 + l) as (? & ? & ?) by (subst h l; lia).
      clearbody h l.
      replace (192 + h <? 128) with false by lia.
      replace ((194 <=? 192 + h) && (192 + h <? 224)) with true by lia.
      unfold is_cont. replace ((128 <=? 128 + l) && (128 + l <? 192)) with true by lia.
      rewrite D. split; [cbn; f_equal; f_equal; lia|].
      repeat (constructor; [unfold is_byte; lia|]). assumption.
    + set (h := c / 4096) in *. set (m := (c / 64) mod 64) in *. set (l := c mod 64) in *.
      assert (0 <= h < 16 /\ 0 <= m < 64 /\ 0 <= l < 64 /\ c = h * 4096 + m * 64 + l)
        as (? & ? & ? & ?) by (subst h l m; lia).
      clearbody h l m.
      replace (224 + h <? 128) with false by lia.
      replace ((194 <=? 224 + h) && (224 + h <? 224)) with false by lia.
      replace ((224 <=? 224 + h) && (224 + h <? 240)) with true by lia.
      replace ((224 + h - 224) * 4096 + (128 + m - 128) * 64 + (128 + l - 128)) with c by lia.
      replace (is_cont (128 + m) && is_cont (128 + l) && (2048 <=? c) && negb (is_hi c) && negb (is_lo c))
        with true by (unfold is_cont, is_hi, is_lo in *; lia).
      rewrite D. split; [reflexivity|].
      repeat (constructor; [unfold is_byte; lia|]). assumption.
    + set (h := c / 262144) in *. set (n := (c / 4096) mod 64) in *.
      set (m := (c / 64) mod 64) in *. set (l := c mod 64) in *.
      assert (0 <= h < 5 /\ 0 <= n < 64 /\ 0 <= m < 64 /\ 0 <= l < 64 /\
              c = h * 262144 + n * 4096 + m * 64 + l)
        as (? & ? & ? & ? & ?) by (subst h l m n; lia).
      clearbody h l m n.
      replace (240 + h <? 128) with false by lia.
      replace ((194 <=? 240 + h) && (240 + h <? 224)) with false by lia.
      replace ((224 <=? 240 + h) && (240 + h <? 240)) with false by lia.
      replace ((240 <=? 240 + h) && (240 + h <? 245)) with true by lia.
      replace ((240 + h - 240) * 262144 + (128 + n - 128) * 4096 + (128 + m - 128) * 64 + (128 + l - 128)) with c by lia.
      replace (is_cont (128 + n) && is_cont (128 + m) && is_cont (128 + l) && (65536 <=? c) && (c <=? 1114111))
        with true by (unfold is_cont; lia).
      rewrite D. split; [reflexivity|].
      repeat (constructor; [unfold is_byte; lia|]). assumption.
Qed.
