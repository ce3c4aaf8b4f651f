(* datetime.timedelta(days=x) for a float x. *)
From Coq Require Import String ZArith List Bool Lia.
From Verif Require Import M_Base M_Float M_Tree M_Models.
From Verif Require Import S_Real S_Models.
From Verif Require Import P_Base P_Cells P_Round P_Tempo.
Open Scope Z_scope.

Lemma units_zero s : finite (b2z s * 2 ^ 63 + 0) /\ units (b2z s * 2 ^ 63 + 0) = 0.
Proof. destruct s; (split; [split; [cbn [b2z]; lia|vm_compute; reflexivity]|vm_compute; reflexivity]). Qed.
Lemma round_zero s d : f_round s 0 d = b2z s * 2 ^ 63 + 0.
Proof. reflexivity. Qed.

(* the fraction is exact *)
Lemma f_frac_units x : finite x -> finite (f_frac x) /\ units (f_frac x) = Z.rem (units x) one.
Proof.
  intros F. destruct (units_mag x F) as (_ & E & S1 & S2). pose proof (f_mag_range x) as M. pose proof one_pos as O.
  assert (FR : forall s, finite (f_round s (dy_n (f_mag x) (f_e x) mod dy_d (f_e x)) (dy_d (f_e x))) /\
    units (f_round s (dy_n (f_mag x) (f_e x) mod dy_d (f_e x)) (dy_d (f_e x))) = (if s then -1 else 1) * ((f_mag x * 2 ^ (f_e x + 1074)) mod one)).
  { intros s. unfold dy_n, dy_d. destruct (Z.leb_spec 0 (f_e x)) as [P|P].
    - rewrite Z.mod_1_r, round_zero. destruct (units_zero s) as [A B]. split; [exact A|]. rewrite B.
      rewrite Z.pow_add_r by lia. fold one. rewrite Z.mul_assoc, Z.mod_mul by lia. destruct s; reflexivity.
    - assert (PO : one = 2 ^ (- f_e x) * 2 ^ (f_e x + 1074)) by (unfold one; rewrite <- Z.pow_add_r by lia; f_equal; lia).
      pose proof (pow_pos (- f_e x) ltac:(lia)) as P1. pose proof (pow_pos (f_e x + 1074) ltac:(lia)) as P2.
      assert (MM : (f_mag x * 2 ^ (f_e x + 1074)) mod one = (f_mag x mod 2 ^ (- f_e x)) * 2 ^ (f_e x + 1074)) by (rewrite PO; apply Z.mul_mod_distr_r; lia).
      rewrite MM. pose proof (Z.mod_pos_bound (f_mag x) (2 ^ (- f_e x)) P1) as B. assert (LE : f_mag x mod 2 ^ (- f_e x) <= f_mag x) by (apply Z.mod_le; lia).
      destruct (Z.eq_dec (f_mag x mod 2 ^ (- f_e x)) 0) as [Z0|NZ].
      + rewrite Z0, round_zero. destruct (units_zero s) as [A C]. split; [exact A|]. rewrite C. destruct s; reflexivity.
      + set (c := f_mag x mod 2 ^ (- f_e x)) in *.
        apply f_round_exact; [lia|exact P1|lia|lia| |].
        * apply Z.lt_trans with (1 * one); [|apply below_2097; reflexivity]. rewrite Z.mul_1_l, PO. apply Z.mul_lt_mono_pos_r; lia.
        * rewrite PO. ring. }
  unfold f_frac. destruct (FR (f_sign x)) as [A B]. split; [exact A|]. rewrite B.
  assert (P : 0 <= f_mag x * 2 ^ (f_e x + 1074)) by (pose proof (pow_pos (f_e x + 1074) ltac:(lia)); nia).
  destruct (f_sign x).
  - rewrite (S1 eq_refl), Z.rem_opp_l, Z.rem_mod_nonneg by lia. lia.
  - rewrite (S2 eq_refl), Z.rem_mod_nonneg by lia. lia.
Qed.

(* the microseconds of the last, partial day *)
Lemma day_part x : finite x -> exists d f, f_of_int us_per_day = Some d /\ f_rint (f_mul d (f_frac x)) = Ok f /\
  2 ^ 16 * Z.abs (f * one - us_per_day * Z.rem (units x) one) <= (2 ^ 15 + 1) * one.
Proof.
  intros F. destruct (f_frac_units x F) as [FF UF]. pose proof one_pos as O.
  destruct (f_of_int_exact us_per_day ltac:(vm_compute; reflexivity)) as (d & D & [FD UD] & SD). change (us_per_day <? 0) with false in SD.
  assert (K : finite (f_mul d (f_frac x)) /\ 2 ^ 17 * Z.abs (units (f_mul d (f_frac x)) - us_per_day * Z.rem (units x) one) <= 2 * one).
  { destruct (f_mul_round d (f_frac x) FD FF) as (n & q & N & Q & E & M). rewrite SD, xorb_false_l in M. rewrite UD, UF in E.
    assert (SG : (f_sign (f_frac x) = true -> Z.rem (units x) one <= 0) /\ (f_sign (f_frac x) = false -> 0 <= Z.rem (units x) one)).
    { rewrite <- UF. destruct (units_mag _ FF) as (_ & EE & S1 & S2). pose proof (f_mag_range (f_frac x)) as MR. pose proof (pow_pos (f_e (f_frac x) + 1074) ltac:(lia)).
      split; intros Z; [rewrite (S1 Z)|rewrite (S2 Z)]; nia. }
    assert (RB : Z.abs (Z.rem (units x) one) < one) by (rewrite <- Z.rem_abs by lia; rewrite (Z.abs_eq one) by lia; apply Z.rem_bound_pos; lia).
    assert (E' : n * one = us_per_day * Z.abs (Z.rem (units x) one) * q).
    { apply (Z.mul_reg_r _ _ one); [lia|]. rewrite Z.abs_mul, Z.abs_mul, (Z.abs_eq one), (Z.abs_eq us_per_day) in E by (unfold us_per_day; lia). 
      rewrite <- Z.mul_assoc, E. ring. }
    clear E UF UD D. rewrite M. destruct (Z.eq_dec n 0) as [->|NZ].
    - rewrite round_zero. destruct (units_zero (f_sign (f_frac x))) as [A B]. split; [exact A|]. rewrite B.
      assert (Z.abs (Z.rem (units x) one) = 0). { set (r := Z.abs (Z.rem (units x) one)) in *. clearbody r. unfold us_per_day in E'. assert (0 <= r \/ r < 0) by lia. nia. }
      assert (R0 : Z.rem (units x) one = 0) by lia. rewrite R0. rewrite Z.mul_0_r. change (Z.abs (0 - 0)) with 0. lia.
    - assert (PO : 2 ^ 53 <= one) by (apply (pow_one 53); lia).
      set (r := Z.rem (units x) one) in *. clearbody r. 
      destruct (f_round_floor (f_sign (f_frac x)) n q 0 ltac:(lia) Q ltac:(lia) ltac:(lia)) as (u & FU & UU & _ & EB).
      { clear - E' RB O Q. set (o := one) in *. clearbody o. assert (n < us_per_day * q); [|unfold us_per_day in *; lia].
        apply (Z.mul_lt_mono_pos_r o); [exact O|]. rewrite E'. replace (us_per_day * q * o) with (us_per_day * o * q) by ring. apply Z.mul_lt_mono_pos_r; [exact Q|]. unfold us_per_day. lia. }
      split; [exact FU|]. rewrite UU. set (o := one) in *. clearbody o.
      assert (UB : Z.abs (u - us_per_day * Z.abs r) * 2 ^ 53 <= us_per_day * Z.abs r + 2 ^ 52).
      { rewrite E' in EB. replace (u * q - us_per_day * Z.abs r * q) with ((u - us_per_day * Z.abs r) * q) in EB by ring. rewrite Z.abs_mul, (Z.abs_eq q) in EB by lia.
        apply (Z.mul_le_mono_pos_r _ _ q); [exact Q|]. lia. }
      clear EB E'. assert (Z.abs (u - us_per_day * Z.abs r) = Z.abs ((if f_sign (f_frac x) then -1 else 1) * u - us_per_day * r)) as <-.
      { destruct SG as [G1 G2]. destruct (f_sign (f_frac x)); [specialize (G1 eq_refl)|specialize (G2 eq_refl)]; unfold us_per_day; lia. }
      unfold us_per_day in *. lia. }
  destruct K as [FM KM]. destruct (f_rint_units _ FM) as (f & FR & FE). exists d, f. split; [exact D|]. split; [exact FR|].
  set (o := one) in *. set (r := Z.rem (units x) o) in *. set (u := units (f_mul d (f_frac x))) in *. clearbody o r u. unfold us_per_day in *. lia.
Qed.

Lemma delta_finite x : finite x -> exists us, micros x us /\
  delta_us (VFlt x) = (let d := us / us_per_day in if (-999999999 <=? d) && (d <=? 999999999) then Ok us else Err OverflowError).
Proof.
  intros F. destruct (day_part x F) as (d & f & D & R & B). exists (Z.quot (units x) one * us_per_day + f). split.
  - unfold micros. fold us_per_day. pose proof (Z.quot_rem' (units x) one) as QR. set (r := Z.rem (units x) one) in *. set (q := Z.quot (units x) one) in *.
    set (o := one) in *. set (u := units x) in *. clearbody o r q u. 
    replace ((q * us_per_day + f) * o - us_per_day * u) with (f * o - us_per_day * r) by (rewrite QR; unfold us_per_day; ring). exact B.
  - unfold delta_us. rewrite (f_trunc_units x F). cbn [bind]. rewrite D, R. reflexivity.
Qed.
Lemma micros_exact x us k : micros x us -> 86400000000 * units x = k * one -> us = k.
Proof.
  unfold micros. intros M E. rewrite E in M. pose proof one_pos as O. set (o := one) in *. clearbody o. replace (us * o - k * o) with ((us - k) * o) in M by ring.
  rewrite Z.abs_mul, (Z.abs_eq o) in M by lia. assert (2 ^ 16 * Z.abs (us - k) <= 2 ^ 15 + 1); [|lia].
  apply (Z.mul_le_mono_pos_r _ _ o); [exact O|]. lia.
Qed.
Lemma micros_le x us a : micros x us -> units x <= a * one -> us <= a * 86400000000.
Proof.
  unfold micros. intros M E. pose proof one_pos as O. set (o := one) in *. set (u := units x) in *. clearbody o u.
  assert (2 ^ 16 * ((us - a * 86400000000) * o) <= (2 ^ 15 + 1) * o) by lia. assert (2 ^ 16 * (us - a * 86400000000) <= 2 ^ 15 + 1); [|lia].
  apply (Z.mul_le_mono_pos_r _ _ o); [exact O|]. lia.
Qed.
Lemma micros_ge x us a : micros x us -> a * one <= units x -> a * 86400000000 <= us.
Proof.
  unfold micros. intros M E. pose proof one_pos as O. set (o := one) in *. set (u := units x) in *. clearbody o u.
  assert (2 ^ 16 * ((a * 86400000000 - us) * o) <= (2 ^ 15 + 1) * o) by lia. assert (2 ^ 16 * (a * 86400000000 - us) <= 2 ^ 15 + 1); [|lia].
  apply (Z.mul_le_mono_pos_r _ _ o); [exact O|]. lia.
Qed.
