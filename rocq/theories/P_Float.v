(* Facts about the binary32 / binary64 model. *)
From Coq Require Import ZArith List Bool Lia.
From Coq Require Import ZifyBool ZifyNat.
From Verif Require Import M_Base M_Float P_Base.
Import ListNotations.
Open Scope Z_scope.

(* fields of an assembled pattern *)
Lemma fields s e m : (s = 0 \/ s = 1) -> 0 <= e < 2048 -> 0 <= m < 2 ^ 52 ->
  let x := s * 2 ^ 63 + e * 2 ^ 52 + m in
  f_sign x = (s =? 1) /\ f_exp x = e /\ f_man x = m.
Proof.
  intros Hs He Hm x. unfold f_sign, f_exp, f_man, x.
  change (2 ^ 63) with (2048 * 2 ^ 52). set (p := 2 ^ 52) in *.
  assert (0 < p) by (subst p; lia).
  repeat split.
  - destruct Hs as [-> | ->]; nia.
  - replace (s * (2048 * p) + e * p + m) with ((s * 2048 + e) * p + m) by ring.
    rewrite Z.div_add_l by lia. rewrite (Z.div_small m p) by lia.
    rewrite Z.add_0_r, Z.add_comm, Z.mod_add by lia. apply Z.mod_small; lia.
  - replace (s * (2048 * p) + e * p + m) with (m + (s * 2048 + e) * p) by ring.
    rewrite Z.mod_add by lia. apply Z.mod_small; lia.
Qed.

Lemma div_rne_exact q d : 0 < d -> div_rne (q * d) d = q.
Proof.
  intro H. unfold div_rne. rewrite Z.div_mul, Z.mod_mul by lia.
  destruct (d <? 2 * 0) eqn:E1; [lia|]. destruct (2 * 0 =? d) eqn:E2; [lia|]. reflexivity.
Qed.

(* a binary32 pattern that is a signalling NaN *)
Definition f32_snan (b : Z) : bool :=
  ((b / 2 ^ 23) mod 256 =? 255) && negb (b mod 2 ^ 23 =? 0) && (b mod 2 ^ 23 <? 2 ^ 22).

Lemma lor_22 m : 0 <= m < 2 ^ 23 ->
  Z.lor m (2 ^ 22) = if m <? 2 ^ 22 then m + 2 ^ 22 else m.
Proof.
  intro H. destruct (m <? 2 ^ 22) eqn:E.
  - rewrite <- Z.lxor_lor, <- Z.add_nocarry_lxor; [reflexivity| |].
    all: apply Z.bits_inj'; intros n Hn; rewrite Z.land_spec, Z.bits_0;
      rewrite Z.pow2_bits_eqb by lia; destruct (Z.eqb_spec 22 n); [|apply andb_false_r];
      subst; rewrite andb_true_r.
    all: rewrite <- (Z.mod_small m (2 ^ 22)) by lia; apply Z.mod_pow2_bits_high; lia.
  - replace m with (2 ^ 22 + (m - 2 ^ 22)) at 1 by ring.
    set (k := m - 2 ^ 22). assert (Hk : 0 <= k < 2 ^ 22) by (subst k; lia).
    assert (D : Z.land (2 ^ 22) k = 0).
    { apply Z.bits_inj'; intros n Hn; rewrite Z.land_spec, Z.bits_0.
      rewrite Z.pow2_bits_eqb by lia; destruct (Z.eqb_spec 22 n); [|reflexivity].
      subst n. cbn [andb]. rewrite <- (Z.mod_small k (2 ^ 22)) by lia. apply Z.mod_pow2_bits_high; lia. }
    rewrite Z.add_nocarry_lxor by assumption. rewrite Z.lxor_lor by assumption.
    rewrite (Z.lor_comm (2 ^ 22) k), <- Z.lor_assoc, Z.lor_diag.
    rewrite Z.lor_comm, <- Z.lxor_lor by assumption.
    rewrite <- Z.add_nocarry_lxor by assumption. subst k; lia.
Qed.

(* What comes back after unpack('<f') and pack('<f'): the same pattern, except
   that a signalling NaN has become quiet. *)
Theorem f32_roundtrip b : 0 <= b < 2 ^ 32 ->
  f64_to_32 (f32_to_64 b) = Some (if f32_snan b then b + 2 ^ 22 else b).
Proof.
  intro Hb. unfold f32_to_64, f32_snan.
  set (s := b / 2 ^ 31). set (e := (b / 2 ^ 23) mod 256). set (m := b mod 2 ^ 23).
  assert (Hs : s = 0 \/ s = 1) by (subst s; lia).
  assert (He : 0 <= e < 256) by (subst e; lia).
  assert (Hm : 0 <= m < 2 ^ 23) by (subst m; lia).
  assert (B : b = s * 2 ^ 31 + e * 2 ^ 23 + m) by (subst s e m; lia).
  clearbody s e m.
  assert (SS : b2z (s =? 1) = s) by (destruct Hs as [-> | ->]; reflexivity).
  destruct (e =? 255) eqn:E255.
  - (* inf / nan *)
    destruct (m =? 0) eqn:M0; cbn [andb negb].
    + rewrite Z.add_0_r. 
      destruct (fields s 2047 0) as (F1 & F2 & F3); [assumption|lia|lia|].
      rewrite Z.add_0_r in F1, F2, F3.
      unfold f64_to_32. unfold f_is_nan, f_is_inf. rewrite F1, F2, F3, SS. zlit. cbn [andb negb].
      f_equal. lia.
    + rewrite lor_22 by assumption.
      set (q := if m <? 2 ^ 22 then m + 2 ^ 22 else m).
      assert (Hq : 2 ^ 22 <= q < 2 ^ 23) by (subst q; destruct (m <? 2 ^ 22) eqn:E; lia).
      destruct (fields s 2047 (q * 2 ^ 29)) as (F1 & F2 & F3); [assumption|lia|lia|].
      unfold f64_to_32. unfold f_is_nan, f_is_inf. rewrite F1, F2, F3, SS.
      replace (2047 =? 2047) with true by reflexivity.
      replace (q * 2 ^ 29 =? 0) with false by lia. cbn [andb negb].
      rewrite Z.div_mul by lia. rewrite lor_22 by lia.
      replace (q <? 2 ^ 22) with false by lia.
      subst q. f_equal. destruct (m <? 2 ^ 22) eqn:E; lia.
  - cbn [andb].
    destruct (e =? 0) eqn:E0.
    + destruct (m =? 0) eqn:M0.
      * destruct (fields s 0 0) as (F1 & F2 & F3); [assumption|lia|lia|].
        rewrite Z.mul_0_l, !Z.add_0_r in F1, F2, F3.
        unfold f64_to_32. unfold f_is_nan, f_is_inf. rewrite F1, F2, F3, SS. zlit. cbn [andb negb]. f_equal. lia.
      * set (k := Z.log2 m).
        assert (Hk : 0 <= k < 23 /\ 2 ^ k <= m < 2 ^ (k + 1)).
        { destruct (Z.log2_spec m) as [L1 L2]; [lia|]. fold k in L1, L2.
          assert (0 <= k) by apply Z.log2_nonneg.
          assert (k < 23) by (apply (Z.pow_lt_mono_r_iff 2); lia).
          replace (k + 1) with (Z.succ k) by lia. lia. }
        destruct Hk as (Hk & Hk1 & Hk2). rewrite Z.pow_add_r in Hk2 by lia.
        clearbody k.
        assert (P : 2 ^ 52 = 2 ^ k * 2 ^ (52 - k)) by (rewrite <- Z.pow_add_r by lia; f_equal; lia).
        assert (0 < 2 ^ (52 - k)) by (apply Z.pow_pos_nonneg; lia).
        assert (0 < 2 ^ k) by (apply Z.pow_pos_nonneg; lia).
        destruct (fields s (k + 874) ((m - 2 ^ k) * 2 ^ (52 - k))) as (F1 & F2 & F3);
          [assumption|lia|rewrite P; nia|].
        unfold f64_to_32, f_is_nan, f_is_inf, f_e, f_mag. rewrite F1, F2, F3, SS.
        replace (k + 874 =? 2047) with false by lia. cbn [andb].
        replace (k + 874 =? 0) with false by lia.
        replace (Z.max (k + 874 - 1075 + 29) (-149)) with (-149) by lia.
        replace (-149 - (k + 874 - 1075)) with (52 - k) by lia.
        replace (2 ^ 52 + (m - 2 ^ k) * 2 ^ (52 - k)) with (m * 2 ^ (52 - k)) by (rewrite P; ring).
        rewrite div_rne_exact by assumption.
        replace (255 * 2 ^ 23 <=? (-149 + 149) * 2 ^ 23 + m) with false by lia.
        f_equal. lia.
    + destruct (fields s (e + 896) (m * 2 ^ 29)) as (F1 & F2 & F3); [assumption|lia|lia|].
      unfold f64_to_32, f_is_nan, f_is_inf, f_e, f_mag. rewrite F1, F2, F3, SS.
      replace (e + 896 =? 2047) with false by lia. cbn [andb].
      replace (e + 896 =? 0) with false by lia.
      replace (Z.max (e + 896 - 1075 + 29) (-149)) with (e - 150) by lia.
      replace (e - 150 - (e + 896 - 1075)) with 29 by lia.
      replace (2 ^ 52 + m * 2 ^ 29) with ((2 ^ 23 + m) * 2 ^ 29) by ring.
      rewrite div_rne_exact by lia.
      replace (255 * 2 ^ 23 <=? (e - 150 + 149) * 2 ^ 23 + (2 ^ 23 + m)) with false by lia.
      f_equal. lia.
Qed.
