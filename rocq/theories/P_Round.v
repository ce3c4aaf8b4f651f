(* Rounding to nearest, as done by the arithmetic of M_Float. *)
From Coq Require Import ZArith List Bool Lia.
From Coq Require Import ZifyBool ZifyNat.
From Verif Require Import M_Base M_Float S_Real P_Base P_Float P_Cells.
Open Scope Z_scope.

Lemma pow_pos k : 0 <= k -> 0 < 2 ^ k.
Proof. intros. apply Z.pow_pos_nonneg; lia. Qed.

(* nearest integer *)
Lemma div_rne_near n d : 0 < d -> 2 * Z.abs (div_rne n d * d - n) <= d.
Proof.
  intros H. unfold div_rne. pose proof (Z.div_mod n d ltac:(lia)) as E. pose proof (Z.mod_pos_bound n d H) as B.
  set (q := n / d) in *. set (r := n mod d) in *. clearbody q r. subst n.
  destruct (Z.ltb_spec d (2 * r)) as [L|L]; cbn [orb].
  - replace ((q + 1) * d - (d * q + r)) with (d - r) by ring. lia.
  - destruct (Z.eqb_spec (2 * r) d) as [L2|L2]; cbn [andb]; [destruct (Z.odd q)|].
    + replace ((q + 1) * d - (d * q + r)) with (d - r) by ring. lia.
    + replace (q * d - (d * q + r)) with (- r) by ring. lia.
    + replace (q * d - (d * q + r)) with (- r) by ring. lia.
Qed.

(* qlog2 n d is the integer e with 2^e <= n/d < 2^(e+1) *)
Definition scale (e : Z) (a : Z) : Z := if 0 <=? e then a * 2 ^ e else a.
Lemma qlog2_spec n d : 0 < n -> 0 < d ->
  let e := qlog2 n d in
  scale e d <= scale (- e) n /\ scale (- (e + 1)) n < scale (e + 1) d.
Proof.
  intros Hn Hd. unfold qlog2.
  pose proof (Z.log2_spec n Hn) as [N1 N2]. pose proof (Z.log2_spec d Hd) as [D1 D2].
  pose proof (Z.log2_nonneg n) as N0. pose proof (Z.log2_nonneg d) as D0.
  set (a := Z.log2 n) in *. set (b := Z.log2 d) in *. clearbody a b.
  rewrite Z.pow_succ_r in N2, D2 by lia.
  (* n/d < 2^(a-b+1) and 2^(a-b-1) < n/d *)
  set (e0 := a - b).
  assert (UP : scale (- (e0 + 1)) n < scale (e0 + 1) d).
  { unfold scale, e0. destruct (Z.leb_spec 0 (- (a - b + 1))); destruct (Z.leb_spec 0 (a - b + 1)); try lia.
    - replace (- (a - b + 1)) with 0 by lia. replace (a - b + 1) with 0 by lia. rewrite Z.pow_0_r.
      assert (b = a + 1) by lia. subst b. replace (a + 1) with (Z.succ a) in * by lia.
      rewrite Z.pow_succ_r in * by lia. lia.
    - assert (P : 2 ^ b = 2 ^ a * 2 ^ (- (a - b))) by (rewrite <- Z.pow_add_r by lia; f_equal; lia).
      replace (- (a - b)) with (- (a - b + 1) + 1) in P by lia. rewrite Z.pow_add_r in P by lia.
      pose proof (pow_pos (- (a - b + 1)) ltac:(lia)). rewrite Z.pow_1_r in P. nia.
    - assert (P : 2 ^ a * 2 = 2 ^ b * 2 ^ (a - b + 1)).
      { rewrite <- (Z.pow_add_r 2 b) by lia. replace (b + (a - b + 1)) with (a + 1) by lia. rewrite Z.pow_add_r by lia. reflexivity. }
      pose proof (pow_pos (a - b + 1) ltac:(lia)). nia. }
  assert (LO : scale (e0 - 1) d <= scale (- (e0 - 1)) n).
  { unfold scale, e0. destruct (Z.leb_spec 0 (a - b - 1)); destruct (Z.leb_spec 0 (- (a - b - 1))); try lia.
    - replace (- (a - b - 1)) with 0 by lia. replace (a - b - 1) with 0 by lia. rewrite Z.pow_0_r.
      assert (a = b + 1) by lia. subst a. rewrite Z.pow_add_r in * by lia. lia.
    - assert (P : 2 ^ a = 2 ^ (b + 1) * 2 ^ (a - b - 1)) by (rewrite <- Z.pow_add_r by lia; f_equal; lia).
      rewrite Z.pow_add_r in P by lia. pose proof (pow_pos (a - b - 1) ltac:(lia)). nia.
    - assert (P : 2 ^ (b + 1) = 2 ^ a * 2 ^ (- (a - b - 1))) by (rewrite <- Z.pow_add_r by lia; f_equal; lia).
      rewrite Z.pow_add_r in P by lia. pose proof (pow_pos (- (a - b - 1)) ltac:(lia)). nia. }
  destruct (if 0 <=? e0 then d * 2 ^ e0 <=? n else d <=? n * 2 ^ (- e0)) eqn:C; cbn zeta.
  - split; [|exact UP]. unfold scale. destruct (Z.leb_spec 0 e0).
    + destruct (Z.leb_spec 0 (- e0)); [|lia]. replace (- e0) with 0 by lia. rewrite Z.pow_0_r. lia.
    + destruct (Z.leb_spec 0 (- e0)); lia.
  - split; [exact LO|]. replace (e0 - 1 + 1) with e0 by lia. unfold scale. destruct (Z.leb_spec 0 e0).
    + destruct (Z.leb_spec 0 (- e0)); [|lia]. replace (- e0) with 0 by lia. rewrite Z.pow_0_r. lia.
    + destruct (Z.leb_spec 0 (- e0)); lia.
Qed.

Lemma scale_le n d e K : 0 <= K -> 0 <= K + e ->
  scale e d <= scale (- e) n -> d * 2 ^ (K + e) <= n * 2 ^ K.
Proof.
  intros K0 KE. unfold scale. destruct (Z.leb_spec 0 e).
  - destruct (Z.leb_spec 0 (- e)); [assert (e = 0) by lia; subst e; rewrite Z.add_0_r; cbn [Z.opp]; rewrite Z.pow_0_r; intros;
      pose proof (pow_pos K K0); nia|].
    intros. rewrite Z.pow_add_r by lia. pose proof (pow_pos K K0). nia.
  - destruct (Z.leb_spec 0 (- e)); [|lia]. intros.
    replace (2 ^ K) with (2 ^ (- e) * 2 ^ (K + e)) by (rewrite <- Z.pow_add_r by lia; f_equal; lia).
    pose proof (pow_pos (K + e) KE). nia.
Qed.
Lemma scale_lt n d e K : 0 <= K -> 0 <= K + e ->
  scale (- e) n < scale e d -> n * 2 ^ K < d * 2 ^ (K + e).
Proof.
  intros K0 KE. unfold scale. destruct (Z.leb_spec 0 e).
  - destruct (Z.leb_spec 0 (- e)); [assert (e = 0) by lia; subst e; rewrite Z.add_0_r; cbn [Z.opp]; rewrite Z.pow_0_r; intros;
      pose proof (pow_pos K K0); nia|].
    intros. rewrite Z.pow_add_r by lia. pose proof (pow_pos K K0). nia.
  - destruct (Z.leb_spec 0 (- e)); [|lia]. intros.
    replace (2 ^ K) with (2 ^ (- e) * 2 ^ (K + e)) by (rewrite <- Z.pow_add_r by lia; f_equal; lia).
    pose proof (pow_pos (K + e) KE). nia.
Qed.

(* the number an assembled pattern stands for *)
Lemma units_pattern s t q : 0 <= t <= 2044 -> 0 <= q <= 2 ^ 53 -> (t = 0 \/ 2 ^ 52 <= q) ->
  let x := b2z s * 2 ^ 63 + (t * 2 ^ 52 + q) in
  finite x /\ f_sign x = s /\ f_is_nan x = false /\ f_is_inf x = false /\ units x = (if s then -1 else 1) * (q * 2 ^ t).
Proof.
  intros Ht Hq Hn x.
  assert (Hs : b2z s = 0 \/ b2z s = 1) by (destruct s; [right|left]; reflexivity).
  assert (EX : exists e m, 0 <= e <= 2046 /\ 0 <= m < 2 ^ 52 /\ t * 2 ^ 52 + q = e * 2 ^ 52 + m /\
           (if e =? 0 then m else (2 ^ 52 + m) * 2 ^ (e - 1)) = q * 2 ^ t).
  { destruct (Z.ltb_spec q (2 ^ 52)) as [L|L].
    - destruct Hn as [->|Hn]; [|lia]. exists 0, q. repeat split; try lia. change (0 =? 0) with true. cbv iota. rewrite Z.pow_0_r. lia.
    - destruct (Z.eqb_spec q (2 ^ 53)) as [->|N].
      + exists (t + 2), 0. repeat split; try lia. replace (t + 2 =? 0) with false by lia.
        replace (t + 2 - 1) with (t + 1) by lia. rewrite Z.pow_add_r by lia. change (2 ^ 53) with (2 ^ 52 * 2 ^ 1). ring.
      + exists (t + 1), (q - 2 ^ 52). repeat split; try lia. replace (t + 1 =? 0) with false by lia.
        replace (t + 1 - 1) with t by lia. f_equal. ring. }
  destruct EX as (e & m & He & Hm & E & U).
  destruct (fields (b2z s) e m Hs ltac:(lia) Hm) as (F1 & F2 & F3).
  unfold x. rewrite E, Z.add_assoc.
  assert (R : 0 <= b2z s * 2 ^ 63 + e * 2 ^ 52 + m < 2 ^ 64) by (destruct Hs as [-> | ->]; lia).
  set (y := b2z s * 2 ^ 63 + e * 2 ^ 52 + m) in *.
  unfold f_exp in F2. unfold f_man in F3.
  split; [split; [exact R|rewrite F2; lia]|]. split; [rewrite F1; destruct s; reflexivity|].
  unfold f_is_nan, f_is_inf, f_exp, f_man. rewrite F2, F3. replace (e =? 2047) with false by lia.
  split; [reflexivity|]. split; [reflexivity|].
  unfold units. rewrite F2, F3, U.
  unfold f_sign in F1.
  replace (y / 2 ^ 63 =? 1) with s; [destruct s; ring|].
  destruct s; cbn [b2z] in F1; change (0 =? 1) with false in F1; change (1 =? 1) with true in F1; lia.
Qed.

(* what rounding does: q * 2^(t-1074) is the nearest multiple of 2^(t-1074), and
   it has 53 significant bits unless t = 0 *)
Lemma f_round_spec s n d : 0 < n -> 0 < d -> n < d * 2 ^ 1023 ->
  exists t q, 0 <= t <= 2044 /\ 0 <= q <= 2 ^ 53 /\
    finite (f_round s n d) /\ f_sign (f_round s n d) = s /\
    f_is_nan (f_round s n d) = false /\ f_is_inf (f_round s n d) = false /\
    units (f_round s n d) = (if s then -1 else 1) * (q * 2 ^ t) /\
    2 * Z.abs (q * 2 ^ t * d - n * one) <= d * 2 ^ t /\
    (t = 0 \/ d * 2 ^ (t + 52) <= n * one) /\ n * one < d * 2 ^ (t + 53).
Proof.
  intros Hn Hd Hb. unfold f_round. replace (n =? 0) with false by lia.
  destruct (qlog2_spec n d Hn Hd) as [L U]. cbn zeta in L, U.
  set (e := qlog2 n d) in *. clearbody e.
  assert (E1 : e <= 1022).
  { destruct (Z.leb_spec e 1022) as [|G]; [assumption|exfalso].
    pose proof (scale_le n d e 0 ltac:(lia) ltac:(lia) L) as X. rewrite Z.pow_0_r, Z.mul_1_r, Z.add_0_l in X.
    assert (2 ^ 1023 <= 2 ^ e) by (apply Z.pow_le_mono_r; lia). nia. }
  set (te := Z.max (e - 52) (-1074)). set (t := te + 1074).
  set (q := if 0 <=? te then div_rne n (d * 2 ^ te) else div_rne (n * 2 ^ (- te)) d).
  assert (Ht : 0 <= t <= 2044) by (subst t te; lia).
  assert (NE : 2 * Z.abs (q * 2 ^ t * d - n * one) <= d * 2 ^ t).
  { unfold q, one. destruct (Z.leb_spec 0 te) as [T|T].
    - pose proof (pow_pos te T) as PT.
      pose proof (div_rne_near n (d * 2 ^ te) ltac:(nia)) as X. set (w := div_rne n (d * 2 ^ te)) in *. clearbody w.
      unfold t. rewrite Z.pow_add_r by lia. pose proof (pow_pos 1074 ltac:(lia)) as PO. generalize dependent (2 ^ 1074). intros o PO.
      replace (w * (2 ^ te * o) * d - n * o) with ((w * (d * 2 ^ te) - n) * o) by ring.
      rewrite Z.abs_mul, (Z.abs_eq o) by lia. nia.
    - pose proof (div_rne_near (n * 2 ^ (- te)) d Hd) as X. set (w := div_rne (n * 2 ^ (- te)) d) in *. clearbody w.
      replace (2 ^ 1074) with (2 ^ (- te) * 2 ^ t) by (rewrite <- Z.pow_add_r by lia; f_equal; lia).
      pose proof (pow_pos t ltac:(lia)) as PO. generalize dependent (2 ^ t). intros o PO.
      replace (w * o * d - n * (2 ^ (- te) * o)) with ((w * d - n * 2 ^ (- te)) * o) by ring.
      rewrite Z.abs_mul, (Z.abs_eq o) by lia. nia. }
  assert (LB : t = 0 \/ d * 2 ^ (t + 52) <= n * one).
  { destruct (Z.eqb_spec t 0) as [|N]; [left; assumption|right].
    replace (t + 52) with (1074 + e) by (subst t te; lia). apply (scale_le n d e 1074); [lia|subst t te; lia|exact L]. }
  assert (UB : n * one < d * 2 ^ (t + 53)).
  { pose proof (scale_lt n d (e + 1)) as X.
    destruct (Z.leb_spec 0 (1074 + (e + 1))) as [G|G].
    - specialize (X 1074 ltac:(lia) G U). unfold one. eapply Z.lt_le_trans; [exact X|].
      apply Z.mul_le_mono_nonneg_l; [lia|]. apply Z.pow_le_mono_r; subst t te; lia.
    - specialize (X (- (e + 1)) ltac:(lia) ltac:(lia) U). replace (- (e + 1) + (e + 1)) with 0 in X by lia.
      rewrite Z.pow_0_r, Z.mul_1_r in X.
      assert (2 ^ 1074 <= 2 ^ (- (e + 1))) by (apply Z.pow_le_mono_r; lia).
      assert (n * one < d) by (unfold one; nia). pose proof (pow_pos (t + 53) ltac:(lia)). nia. }
  assert (PT : 0 < 2 ^ t) by (apply pow_pos; lia).
  assert (Hq : 0 <= q <= 2 ^ 53 /\ (t = 0 \/ 2 ^ 52 <= q)).
  { assert (NN : 0 <= n * one) by (unfold one; pose proof (pow_pos 1074); nia).
    rewrite Z.pow_add_r in UB by lia.
    assert (Q1 : -1 < 2 * q) by nia. assert (Q2 : 2 * q < 2 * 2 ^ 53 + 2) by nia.
    split; [lia|]. destruct LB as [|LB]; [left; assumption|right].
    rewrite Z.pow_add_r in LB by lia. assert (2 * 2 ^ 52 - 2 < 2 * q) by nia. lia. }
  destruct Hq as [Hq Hq2].
  fold t. replace (Z.min (t * 2 ^ 52 + q) (2047 * 2 ^ 52)) with (t * 2 ^ 52 + q)
    by (destruct Hq as [_ Hq]; clear - Hq Ht; change (2 ^ 53) with (2 * 2 ^ 52) in Hq;
        pose proof (pow_pos 52 ltac:(lia)); rewrite Z.min_l; nia).
  destruct (units_pattern s t q Ht Hq Hq2) as (F & S & N & I & V). cbn zeta in *.
  exists t, q. repeat (split; [assumption|]). exact UB.
Qed.

Lemma one_pos : 0 < one.
Proof. apply pow_pos. lia. Qed.

Lemma finite_flags x : finite x -> f_is_nan x = false /\ f_is_inf x = false.
Proof. intros [_ F]. unfold f_is_nan, f_is_inf, f_exp. replace (_ =? 2047) with false by lia. split; reflexivity. Qed.
(* a finite pattern as magnitude and exponent *)
Lemma units_mag x : finite x ->
  units x = f_signed_mag x * 2 ^ (f_e x + 1074) /\ 0 <= f_e x + 1074 <= 2045 /\
  (f_sign x = true -> units x = - (f_mag x * 2 ^ (f_e x + 1074))) /\ (f_sign x = false -> units x = f_mag x * 2 ^ (f_e x + 1074)).
Proof.
  intros [R F]. unfold units, f_signed_mag, f_sign, f_mag, f_e, f_exp, f_man in *.
  pose proof (Z.mod_pos_bound (x / 2 ^ 52) 2048 ltac:(lia)) as B.
  set (e := (x / 2 ^ 52) mod 2048) in *. set (m := x mod 2 ^ 52) in *.
  replace (x / 2 ^ 63 =? 1) with (2 ^ 63 <=? x) by lia.
  clearbody e m. clear R.
  destruct (Z.eqb_spec e 0) as [->|N].
  - replace (-1074 + 1074) with 0 by lia. rewrite Z.pow_0_r, !Z.mul_1_r. destruct (2 ^ 63 <=? x); repeat split; try lia; discriminate.
  - replace (e - 1075 + 1074) with (e - 1) by lia. destruct (2 ^ 63 <=? x); repeat split; try ring; try lia; discriminate.
Qed.

Lemma dy_units m e : dy_n m e * one = m * 2 ^ (e + 1074) * dy_d e \/ e + 1074 < 0.
Proof.
  destruct (Z.ltb_spec (e + 1074) 0) as [|G]; [right; assumption|left].
  unfold dy_n, dy_d, one. destruct (Z.leb_spec 0 e).
  - rewrite Z.mul_1_r, Z.pow_add_r by lia. ring.
  - replace (2 ^ 1074) with (2 ^ (e + 1074) * 2 ^ (- e)) by (rewrite <- Z.pow_add_r by lia; f_equal; lia). ring.
Qed.
Lemma dy_d_pos e : 0 < dy_d e.
Proof. unfold dy_d. destruct (Z.leb_spec 0 e); [lia|]. apply pow_pos. lia. Qed.
Lemma dy_n_nonneg m e : 0 <= m -> 0 <= dy_n m e.
Proof. intros. unfold dy_n. destruct (Z.leb_spec 0 e); [|assumption]. pose proof (pow_pos e ltac:(lia)). nia. Qed.

Lemma div_cross a b c d : 0 < b -> 0 < d -> a * d = c * b -> a / b = c / d.
Proof.
  intros B D E. rewrite <- (Z.div_mul_cancel_r a b d) by lia. rewrite E, (Z.mul_comm b d).
  apply Z.div_mul_cancel_r; lia.
Qed.

(* int() truncates *)
Lemma f_trunc_units x : finite x -> f_trunc x = Ok (Z.quot (units x) one).
Proof.
  intros F. destruct (finite_flags x F) as [N I]. unfold f_trunc. rewrite N, I. f_equal.
  destruct (units_mag x F) as (_ & E & S1 & S2). pose proof (f_mag_range x) as M. pose proof one_pos as O.
  destruct (dy_units (f_mag x) (f_e x)) as [D|D]; [|lia].
  rewrite (div_cross _ _ _ _ (dy_d_pos _) O D).
  assert (P : 0 <= f_mag x * 2 ^ (f_e x + 1074)) by (pose proof (pow_pos (f_e x + 1074)); nia).
  destruct (f_sign x).
  - rewrite (S1 eq_refl), Z.quot_opp_l, Z.quot_div_nonneg by lia. reflexivity.
  - rewrite (S2 eq_refl), Z.quot_div_nonneg by lia. reflexivity.
Qed.
Lemma f_floor_units x : finite x -> f_floor x = Ok (units x / one).
Proof.
  intros F. destruct (finite_flags x F) as [N I]. unfold f_floor. rewrite N, I. f_equal.
  destruct (units_mag x F) as (U & E & _). destruct (dy_units (f_signed_mag x) (f_e x)) as [D|D]; [|lia].
  rewrite U. apply div_cross; [apply dy_d_pos|apply one_pos|exact D].
Qed.
(* round() is the nearest integer *)
Lemma f_rint_units x : finite x -> exists n, f_rint x = Ok n /\ 2 * Z.abs (n * one - units x) <= one.
Proof.
  intros F. destruct (finite_flags x F) as [N I]. unfold f_rint. rewrite N, I. eexists. split; [reflexivity|].
  destruct (units_mag x F) as (_ & E & S1 & S2). pose proof one_pos as O.
  destruct (dy_units (f_mag x) (f_e x)) as [D|D]; [|lia].
  pose proof (div_rne_near (dy_n (f_mag x) (f_e x)) (dy_d (f_e x)) (dy_d_pos _)) as X.
  set (w := div_rne _ _) in *. clearbody w. pose proof (dy_d_pos (f_e x)) as DP.
  set (u := f_mag x * 2 ^ (f_e x + 1074)) in *. set (dd := dy_d (f_e x)) in *. set (nn := dy_n (f_mag x) (f_e x)) in *. clearbody u dd nn.
  assert (K : 2 * Z.abs (w * one - u) <= one).
  { assert (Z : Z.abs ((w * dd - nn) * one) = Z.abs ((w * one - u) * dd)) by (f_equal; lia).
    rewrite !Z.abs_mul, (Z.abs_eq one), (Z.abs_eq dd) in Z by lia. nia. }
  destruct (f_sign x); [rewrite (S1 eq_refl)|rewrite (S2 eq_refl)]; lia.
Qed.

(* products of finite numbers, rounded *)
Lemma f_mul_round x y : finite x -> finite y -> exists n d, 0 <= n /\ 0 < d /\
  n * (one * one) = Z.abs (units x * units y) * d /\ f_mul x y = f_round (xorb (f_sign x) (f_sign y)) n d.
Proof.
  intros X Y. destruct (finite_flags x X) as [N1 I1]. destruct (finite_flags y Y) as [N2 I2].
  unfold f_mul. rewrite N1, I1, N2, I2. cbn [orb].
  destruct (units_mag x X) as (U1 & E1 & S1 & S1'). destruct (units_mag y Y) as (U2 & E2 & S2 & S2').
  exists (dy_n (f_mag x * f_mag y) (f_e x + f_e y)), (dy_d (f_e x + f_e y)).
  pose proof (f_mag_range x). pose proof (f_mag_range y).
  split; [apply dy_n_nonneg; nia|]. split; [apply dy_d_pos|]. split; [|reflexivity].
  assert (A1 : Z.abs (units x) = f_mag x * 2 ^ (f_e x + 1074)).
  { pose proof (pow_pos (f_e x + 1074)). destruct (f_sign x); [rewrite (S1 eq_refl)|rewrite (S1' eq_refl)]; nia. }
  assert (A2 : Z.abs (units y) = f_mag y * 2 ^ (f_e y + 1074)).
  { pose proof (pow_pos (f_e y + 1074)). destruct (f_sign y); [rewrite (S2 eq_refl)|rewrite (S2' eq_refl)]; nia. }
  rewrite Z.abs_mul, A1, A2. unfold one, dy_n, dy_d.
  destruct (Z.leb_spec 0 (f_e x + f_e y)).
  - rewrite <- (Z.pow_add_r 2 1074) by lia.
    transitivity (f_mag x * f_mag y * (2 ^ (f_e x + f_e y) * 2 ^ (1074 + 1074))); [ring|].
    rewrite <- Z.pow_add_r by lia. replace (f_e x + f_e y + (1074 + 1074)) with ((f_e x + 1074) + (f_e y + 1074)) by lia.
    rewrite Z.pow_add_r by lia. ring.
  - rewrite <- (Z.pow_add_r 2 1074) by lia.
    transitivity (f_mag x * f_mag y * (2 ^ (f_e x + 1074) * 2 ^ (f_e y + 1074) * 2 ^ (- (f_e x + f_e y)))); [|ring].
    rewrite <- (Z.pow_add_r 2 (f_e x + 1074)), <- Z.pow_add_r by lia. f_equal. f_equal. lia.
Qed.

(* n/d close enough to the integer k rounds to k: closer than 1/2 of the last bit *)
Lemma f_round_integer s n d k : 0 < n -> 0 < d -> 0 < k -> n < d * 2 ^ 53 -> Z.abs (n - k * d) * 2 ^ 54 <= n ->
  is_integer (f_round s n d) ((if s then -1 else 1) * k).
Proof.
  intros Hn Hd Hk Hb Hc.
  destruct (f_round_spec s n d Hn Hd) as (t & q & Ht & Hq & F & _ & _ & _ & U & NE & LB & UB).
  { change (2 ^ 1023) with (2 ^ 53 * 2 ^ 970). pose proof (pow_pos 970). pose proof (pow_pos 53). nia. }
  split; [exact F|]. rewrite U.
  assert (T : t <= 1074).
  { destruct LB as [|LB]; [lia|]. destruct (Z.leb_spec t 1074) as [|G]; [assumption|exfalso].
    assert (2 ^ (1075 + 52) <= 2 ^ (t + 52)) by (apply Z.pow_le_mono_r; lia).
    replace (2 ^ (1075 + 52)) with (2 ^ 53 * one) in * by reflexivity. pose proof one_pos. nia. }
  assert (O : one = 2 ^ (1074 - t) * 2 ^ t) by (unfold one; rewrite <- Z.pow_add_r by lia; f_equal; lia).
  pose proof (pow_pos (1074 - t) ltac:(lia)) as P1. pose proof (pow_pos t ltac:(lia)) as P2.
  rewrite Z.pow_add_r in UB by lia.
  assert (Q : q = k * 2 ^ (1074 - t)).
  { rewrite O in *. set (g := 2 ^ (1074 - t)) in *. set (p := 2 ^ t) in *. clearbody g p.
    assert (N1 : 2 * Z.abs (q * d - n * g) <= d).
    { replace (q * p * d - n * (g * p)) with ((q * d - n * g) * p) in NE by ring.
      rewrite Z.abs_mul, (Z.abs_eq p) in NE by lia. nia. }
    assert (N2 : n * g < d * 2 ^ 53) by nia.
    assert (N3 : Z.abs ((n - k * d) * g) * 2 ^ 54 < d * 2 ^ 53).
    { rewrite Z.abs_mul, (Z.abs_eq g) by lia. nia. }
    assert (N4 : 2 * Z.abs ((n - k * d) * g) < d) by (change (2 ^ 54) with (2 * 2 ^ 53) in N3; pose proof (pow_pos 53); nia).
    assert (N5 : Z.abs ((q - k * g) * d) < d) by (replace ((q - k * g) * d) with ((q * d - n * g) + (n - k * d) * g) by ring; lia).
    rewrite Z.abs_mul, (Z.abs_eq d) in N5 by lia. nia. }
  rewrite Q, O. ring.
Qed.
(* rounding does not pass an integer below 2^53 *)
Lemma f_round_floor s n d k : 0 < n -> 0 < d -> 0 <= k -> k * d <= n -> n < d * 2 ^ 53 ->
  exists u, finite (f_round s n d) /\ units (f_round s n d) = (if s then -1 else 1) * u /\ k * one <= u /\
            Z.abs (u * d - n * one) * 2 ^ 53 <= n * one + d * 2 ^ 52.
Proof.
  intros Hn Hd Hk Hl Hb.
  destruct (f_round_spec s n d Hn Hd) as (t & q & Ht & Hq & F & _ & _ & _ & U & NE & LB & UB).
  { change (2 ^ 1023) with (2 ^ 53 * 2 ^ 970). pose proof (pow_pos 970). pose proof (pow_pos 53). nia. }
  exists (q * 2 ^ t). split; [exact F|]. split; [exact U|].
  assert (T : t <= 1074).
  { destruct LB as [|LB]; [lia|]. destruct (Z.leb_spec t 1074) as [|G]; [assumption|exfalso].
    assert (2 ^ (1075 + 52) <= 2 ^ (t + 52)) by (apply Z.pow_le_mono_r; lia).
    replace (2 ^ (1075 + 52)) with (2 ^ 53 * one) in * by reflexivity. pose proof one_pos. nia. }
  assert (O : one = 2 ^ (1074 - t) * 2 ^ t) by (unfold one; rewrite <- Z.pow_add_r by lia; f_equal; lia).
  pose proof (pow_pos (1074 - t) ltac:(lia)) as P1. pose proof (pow_pos t ltac:(lia)) as P2.
  split.
  - rewrite O in *. set (g := 2 ^ (1074 - t)) in *. set (p := 2 ^ t) in *. clearbody g p.
    assert (N1 : 2 * Z.abs (q * d - n * g) <= d).
    { replace (q * p * d - n * (g * p)) with ((q * d - n * g) * p) in NE by ring.
      rewrite Z.abs_mul, (Z.abs_eq p) in NE by lia. nia. }
    assert (k * g <= q) by nia. nia.
  - destruct LB as [->|LB].
    + rewrite Z.pow_0_r in *. pose proof one_pos. change (2 ^ 53) with (2 * 2 ^ 52). pose proof (pow_pos 52). nia.
    + rewrite Z.pow_add_r in LB by lia. pose proof one_pos. change (2 ^ 53) with (2 * 2 ^ 52). pose proof (pow_pos 52). nia.
Qed.

(* ---------------------------------------------------------------- whole numbers *)

Lemma f_of_int_exact n : Z.abs n < 2 ^ 53 -> exists x, f_of_int n = Some x /\ is_integer x n /\ f_sign x = (n <? 0).
Proof.
  intros H. unfold f_of_int. destruct (Z.eqb_spec n 0) as [->|N].
  - exists 0. repeat split; try reflexivity.
  - destruct (f_round_spec (n <? 0) (Z.abs n) 1 ltac:(lia) ltac:(lia)) as (t & q & _ & _ & F & S & _ & I & _).
    { change (2 ^ 1023) with (2 ^ 53 * 2 ^ 970). pose proof (pow_pos 970). lia. }
    rewrite I. eexists. split; [reflexivity|]. split; [|exact S].
    assert (X : is_integer (f_round (n <? 0) (Z.abs n) 1) ((if n <? 0 then -1 else 1) * Z.abs n)).
    { apply f_round_integer; lia. }
    replace ((if n <? 0 then -1 else 1) * Z.abs n) with n in X by (destruct (Z.ltb_spec n 0); lia). exact X.
Qed.

(* Products with a constant: the exact value is |n| * c / 2^54 *)
Lemma f_mul_int x n y c : is_integer x n -> finite y -> 0 < c -> units y * 2 ^ 54 = c * one -> f_sign y = false ->
  exists a d, 0 <= a /\ 0 < d /\ a * 2 ^ 54 = Z.abs n * c * d /\ f_mul x y = f_round (f_sign x) a d.
Proof.
  intros [Fx Ux] Fy Hc Uy Sy. destruct (f_mul_round x y Fx Fy) as (a & d & A & D & E & M).
  exists a, d. rewrite Sy, xorb_false_r in M. split; [exact A|]. split; [exact D|]. split; [|exact M].
  pose proof one_pos as O. pose proof (pow_pos 54 ltac:(lia)) as P.
  rewrite Ux in E. apply (Z.mul_reg_r _ _ (one * one)); [nia|].
  transitivity (Z.abs (n * one * units y) * d * 2 ^ 54); [rewrite <- E; ring|].
  rewrite !Z.abs_mul, (Z.abs_eq one), (Z.abs_eq (units y)) by nia.
  transitivity (Z.abs n * one * d * (units y * 2 ^ 54)); [ring|]. rewrite Uy. ring.
Qed.

Lemma ticks_fifth t : Z.abs t < 2 ^ 50 ->
  match f_of_int t with Some x => f_trunc (f_mul x 4596373779694328218) | None => Err OverflowError end = Ok (Z.quot t 5).
Proof.
  intros H. destruct (Z.eqb_spec t 0) as [->|N]; [vm_compute; reflexivity|].
  destruct (f_of_int_exact t ltac:(lia)) as (x & -> & I & S).
  destruct (f_mul_int x t 4596373779694328218 3602879701896397 I) as (a & d & A & D & E & M);
    [vm_compute; split; [split; [discriminate|reflexivity]|reflexivity]|lia|vm_compute; reflexivity|reflexivity|].
  rewrite M, S. set (m := Z.abs t) in *. set (k := m / 5).
  assert (K : m = 5 * k + m mod 5) by (subst k; lia). pose proof (Z.mod_pos_bound m 5 ltac:(lia)) as R.
  assert (C : 5 * (a * 2 ^ 54) = m * (2 ^ 54 + 1) * d) by (rewrite E; change (2 ^ 54 + 1) with (5 * 3602879701896397); ring).
  assert (AP : 0 < a) by nia.
  destruct (f_round_floor (t <? 0) a d k AP D) as (u & F & U & L & ER); [nia|nia|nia|].
  assert (UB : u < (k + 1) * one).
  { destruct (Z.ltb_spec u ((k + 1) * one)) as [|G]; [assumption|exfalso].
    pose proof one_pos as O. assert (O2 : 2 ^ 107 < one) by reflexivity.
    assert (X : u * d * 2 ^ 53 <= a * one * (2 ^ 53 + 1) + d * 2 ^ 52) by lia.
    assert (X2 : (k + 1) * one * d * 2 ^ 53 <= a * one * (2 ^ 53 + 1) + d * 2 ^ 52).
    { assert ((k + 1) * one * d <= u * d) by (apply Z.mul_le_mono_nonneg_r; lia). lia. }
    assert (X3 : 5 * 2 ^ 54 * ((k + 1) * one * d * 2 ^ 53) <= m * (2 ^ 54 + 1) * d * one * (2 ^ 53 + 1) + 5 * 2 ^ 54 * (d * 2 ^ 52)).
    { replace (m * (2 ^ 54 + 1) * d * one * (2 ^ 53 + 1)) with (5 * (a * 2 ^ 54) * (one * (2 ^ 53 + 1))) by (rewrite C; ring). lia. }
    assert (X4 : 5 * 2 ^ 54 * ((k + 1) * 2 ^ 53) * one <= m * (2 ^ 54 + 1) * (2 ^ 53 + 1) * one + 5 * 2 ^ 106).
    { apply (Z.mul_le_mono_pos_r _ _ d D). change (5 * 2 ^ 106) with (5 * 2 ^ 54 * 2 ^ 52). lia. }
    assert (X5 : (5 * 2 ^ 54 * ((k + 1) * 2 ^ 53) - m * (2 ^ 54 + 1) * (2 ^ 53 + 1)) * one <= 5 * 2 ^ 106) by lia.
    assert (X6 : 5 <= 5 * 2 ^ 54 * ((k + 1) * 2 ^ 53) - m * (2 ^ 54 + 1) * (2 ^ 53 + 1)) by lia.
    set (w := 5 * 2 ^ 54 * ((k + 1) * 2 ^ 53) - m * (2 ^ 54 + 1) * (2 ^ 53 + 1)) in *. clearbody w.
    assert (5 * one <= w * one) by (apply Z.mul_le_mono_nonneg_r; lia). lia. }
  rewrite (f_trunc_units _ F), U. f_equal. pose proof one_pos as O.
  assert (Q : u / one = k) by (symmetry; apply (Z.div_unique u one k (u - k * one)); lia).
  assert (UN : 0 <= u) by nia.
  destruct (Z.ltb_spec t 0) as [G|G].
  - replace (-1 * u) with (- u) by ring. rewrite Z.quot_opp_l, Z.quot_div_nonneg, Q by lia.
    replace t with (- m) by lia. rewrite Z.quot_opp_l, Z.quot_div_nonneg by lia. reflexivity.
  - rewrite Z.mul_1_l, Z.quot_div_nonneg, Q by lia. replace t with m by lia. rewrite Z.quot_div_nonneg by lia. reflexivity.
Qed.
