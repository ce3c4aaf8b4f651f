(* Proofs about tempos: comparison, sums and products of binary64 numbers. *)
From Coq Require Import String ZArith List Bool Lia Arith.
From Verif Require Import M_Base M_Float M_Text M_Events M_Tree M_Project S_Real S_Project P_Base P_Float P_Cells P_Round P_Project.
Import ListNotations.
Open Scope Z_scope.

(* ------------------------------------------------------------------ comparison *)

Definition mag_units (x : Z) : Z :=
  let e := (x / 2 ^ 52) mod 2048 in
  let m := x mod 2 ^ 52 in
  if e =? 0 then m else (2 ^ 52 + m) * 2 ^ (e - 1).
Lemma mag_units_mono x y : 0 <= x < y -> y < 2 ^ 63 -> mag_units x < mag_units y.
Proof.
  intros H Hy. unfold mag_units.
  assert (EX : (x / 2 ^ 52) mod 2048 = x / 2 ^ 52) by (apply Z.mod_small; lia).
  assert (EY : (y / 2 ^ 52) mod 2048 = y / 2 ^ 52) by (apply Z.mod_small; lia).
  rewrite EX, EY. clear EX EY.
  pose proof (Z.div_mod x (2 ^ 52) ltac:(lia)) as DX. pose proof (Z.div_mod y (2 ^ 52) ltac:(lia)) as DY.
  pose proof (Z.mod_pos_bound x (2 ^ 52) ltac:(lia)) as MX. pose proof (Z.mod_pos_bound y (2 ^ 52) ltac:(lia)) as MY.
  assert (E0 : 0 <= x / 2 ^ 52 <= y / 2 ^ 52) by (split; [apply Z.div_pos; lia|apply Z.div_le_mono; lia]).
  set (e := x / 2 ^ 52) in *. set (e' := y / 2 ^ 52) in *. set (m := x mod 2 ^ 52) in *. set (m' := y mod 2 ^ 52) in *.
  clearbody e e' m m'. clear Hy.
  destruct (Z.eq_dec e e') as [->|NE].
  - assert (m < m') by lia. destruct (Z.eqb_spec e' 0); [lia|]. assert (0 < 2 ^ (e' - 1)) by (apply pow_pos; lia). nia.
  - assert (L : e < e') by lia. clear NE. destruct (Z.eqb_spec e' 0); [lia|].
    assert (P' : 2 ^ 52 * 2 ^ (e' - 1) <= (2 ^ 52 + m') * 2 ^ (e' - 1)) by (assert (0 < 2 ^ (e' - 1)) by (apply pow_pos; lia); nia).
    destruct (Z.eqb_spec e 0) as [->|].
    + assert (1 <= 2 ^ (e' - 1)) by (pose proof (pow_pos (e' - 1)); lia). nia.
    + assert (B : 2 ^ e <= 2 ^ (e' - 1)) by (apply Z.pow_le_mono_r; lia).
      assert (A : (2 ^ 52 + m) * 2 ^ (e - 1) < 2 ^ 53 * 2 ^ (e - 1)) by (assert (0 < 2 ^ (e - 1)) by (apply pow_pos; lia); nia).
      assert (C : 2 ^ 53 * 2 ^ (e - 1) = 2 ^ 52 * 2 ^ e).
      { replace e with (Z.succ (e - 1)) at 2 by lia. rewrite Z.pow_succ_r by lia. change (2 ^ 53) with (2 ^ 52 * 2). ring. }
      nia.
Qed.
Lemma mag_units_0 : mag_units 0 = 0. Proof. reflexivity. Qed.
Lemma units_key x : 0 <= x < 2 ^ 64 ->
  units x = (if f_sign x then - mag_units (x - 2 ^ 63) else mag_units x) /\
  f_key x = (if f_sign x then - (x - 2 ^ 63) else x) /\ (f_sign x = true -> 2 ^ 63 <= x) /\ (f_sign x = false -> x < 2 ^ 63).
Proof.
  intros H. unfold units, f_key, f_sign, mag_units. cbv zeta.
  assert (E1 : f_sign x = true -> ((x - 2 ^ 63) / 2 ^ 52) mod 2048 = (x / 2 ^ 52) mod 2048 /\ (x - 2 ^ 63) mod 2 ^ 52 = x mod 2 ^ 52).
  { intros _. replace (x - 2 ^ 63) with (x + (-2048) * 2 ^ 52) by lia. rewrite Z.div_add, Z.mod_add by lia.
    split; [|reflexivity]. replace (x / 2 ^ 52 + -2048) with (x / 2 ^ 52 + (-1) * 2048) by lia. apply Z.mod_add. lia. }
  unfold f_sign in E1. destruct (Z.leb_spec (2 ^ 63) x) as [S|S].
  - destruct (E1 eq_refl) as [-> ->]. replace (x / 2 ^ 63) with 1 by (apply Z.div_unique with (x - 2 ^ 63); lia).
    change (1 =? 1) with true. cbn iota. repeat split; intros; lia.
  - replace (x / 2 ^ 63) with 0 by (symmetry; apply Z.div_small; lia). change (0 =? 1) with false. cbn iota. repeat split; intros; lia.
Qed.
Lemma f_lt_units x y : finite x -> finite y -> f_lt x y = (units x <? units y).
Proof.
  intros X Y. destruct (finite_flags x X) as [N1 _]. destruct (finite_flags y Y) as [N2 _]. unfold f_lt. rewrite N1, N2. cbn [negb andb].
  destruct X as [X _]. destruct Y as [Y _].
  destruct (units_key x X) as (U1 & K1 & S1 & T1). destruct (units_key y Y) as (U2 & K2 & S2 & T2). rewrite U1, K1, U2, K2.
  assert (M : forall a b, 0 <= a < 2 ^ 63 -> 0 <= b < 2 ^ 63 -> (mag_units a < mag_units b <-> a < b)).
  { intros a b A B. split; [|intros; apply mag_units_mono; lia]. intros L. destruct (Z.lt_trichotomy a b) as [|[->|G]]; [assumption|lia|].
    pose proof (mag_units_mono b a ltac:(lia) ltac:(lia)). lia. }
  assert (P : forall a, 0 <= a < 2 ^ 63 -> 0 <= mag_units a /\ (mag_units a = 0 <-> a = 0)).
  { intros a A. destruct (Z.eq_dec a 0) as [->|]; [rewrite mag_units_0; lia|]. pose proof (mag_units_mono 0 a ltac:(lia) ltac:(lia)) as L. rewrite mag_units_0 in L. lia. }
  destruct (f_sign x), (f_sign y).
  - specialize (S1 eq_refl). specialize (S2 eq_refl). specialize (M (y - 2 ^ 63) (x - 2 ^ 63) ltac:(lia) ltac:(lia)).
    destruct (Z.ltb_spec (- mag_units (x - 2 ^ 63)) (- mag_units (y - 2 ^ 63))); lia.
  - specialize (S1 eq_refl). specialize (T2 eq_refl). pose proof (P (x - 2 ^ 63) ltac:(lia)). pose proof (P y ltac:(lia)).
    destruct (Z.ltb_spec (- mag_units (x - 2 ^ 63)) (mag_units y)); lia.
  - specialize (S2 eq_refl). specialize (T1 eq_refl). pose proof (P x ltac:(lia)). pose proof (P (y - 2 ^ 63) ltac:(lia)).
    destruct (Z.ltb_spec (mag_units x) (- mag_units (y - 2 ^ 63))); lia.
  - specialize (T1 eq_refl). specialize (T2 eq_refl). specialize (M x y ltac:(lia) ltac:(lia)).
    destruct (Z.ltb_spec (mag_units x) (mag_units y)); lia.
Qed.

(* ------------------------------------------------------------------------ sums *)

Lemma pow_2097 : 2 ^ 2097 = one * 2 ^ 1023.
Proof. unfold one. rewrite <- Z.pow_add_r by lia. reflexivity. Qed.
Lemma pow_1023 k : 0 <= k <= 1023 -> 2 ^ k <= 2 ^ 1023.
Proof. intros H. apply Z.pow_le_mono_r; lia. Qed.
Lemma pow_one k : 0 <= k <= 1074 -> 2 ^ k <= one.
Proof. intros H. apply Z.pow_le_mono_r; lia. Qed.
Lemma below_2097 k : k < 2 ^ 63 -> k * one < 2 ^ 2097.
Proof.
  intros H. rewrite pow_2097, Z.mul_comm. apply Z.mul_lt_mono_pos_l; [apply one_pos|]. pose proof (pow_1023 63 ltac:(lia)). eapply Z.lt_le_trans; eassumption.
Qed.
Lemma f_round_exact s n d c t : 0 < n -> 0 < d -> 0 <= t -> 0 < c < 2 ^ 53 -> c * 2 ^ t < 2 ^ 2097 -> n * one = c * 2 ^ t * d ->
  finite (f_round s n d) /\ units (f_round s n d) = (if s then -1 else 1) * (c * 2 ^ t).
Proof.
  intros Hn Hd Ht Hc Hb E. pose proof one_pos as O.
  destruct (f_round_spec s n d Hn Hd) as (t' & q & Ht' & Hq & F & _ & _ & _ & U & NE & LB & UB).
  { rewrite pow_2097 in Hb. set (P := 2 ^ 1023) in *. set (A := c * 2 ^ t) in *. set (o := one) in *. clearbody P A o. clear - Hb E O Hd.
    apply Z.mul_lt_mono_pos_r with o; [exact O|]. rewrite E. replace (d * P * o) with (o * P * d) by ring. apply Z.mul_lt_mono_pos_r; assumption. }
  clear Hb. split; [exact F|]. rewrite U. f_equal. rewrite E in *. set (o := one) in *. clearbody o.
  assert (LE : t' <= t).
  { destruct LB as [->|LB]; [lia|]. destruct (Z.leb_spec t' t) as [|G]; [assumption|exfalso].
    assert (2 ^ (t + 53) <= 2 ^ (t' + 52)) by (apply Z.pow_le_mono_r; lia).
    rewrite (Z.pow_add_r 2 t 53) in H by lia. pose proof (pow_pos t Ht) as P.
    set (A := 2 ^ t) in *. set (B := 2 ^ (t' + 52)) in *. set (K := 2 ^ 53) in *. clearbody A B K. clear - Hd Hc P H LB.
    assert (c * A < B) by nia. assert (c * A * d < B * d) by (apply Z.mul_lt_mono_pos_r; lia). lia. }
  replace (2 ^ t) with (2 ^ (t - t') * 2 ^ t') in * by (rewrite <- Z.pow_add_r by lia; f_equal; lia).
  set (A := 2 ^ (t - t')) in *. pose proof (pow_pos t' ltac:(lia)) as P. set (B := 2 ^ t') in *. clearbody A B.
  replace (q * B * d - c * (A * B) * d) with ((q - c * A) * (B * d)) in NE by ring.
  assert (BD : 0 < B * d) by nia. rewrite Z.abs_mul, (Z.abs_eq (B * d)) in NE by lia.
  assert (q - c * A = 0); [|nia]. destruct (Z.eq_dec (q - c * A) 0) as [|NZ]; [assumption|exfalso].
  assert (1 <= Z.abs (q - c * A)) by lia. nia.
Qed.

Lemma f_neg_finite y : finite y -> finite (f_neg y) /\ units (f_neg y) = - units y /\ f_sign (f_neg y) = negb (f_sign y).
Proof.
  intros [R F]. unfold f_neg. destruct (units_key y R) as (U & _ & S & T). destruct (f_sign y) eqn:E.
  - specialize (S eq_refl). assert (R' : 0 <= y - 2 ^ 63 < 2 ^ 64) by lia. destruct (units_key _ R') as (U' & _ & S' & T').
    assert (E' : f_sign (y - 2 ^ 63) = false) by (unfold f_sign; lia). rewrite E' in U'. split; [|split; [lia|exact E']].
    split; [exact R'|]. replace (y - 2 ^ 63) with (y + (-2048) * 2 ^ 52) by lia. rewrite Z.div_add by lia.
    replace (y / 2 ^ 52 + -2048) with (y / 2 ^ 52 + (-1) * 2048) by lia. rewrite Z.mod_add by lia. exact F.
  - specialize (T eq_refl). assert (R' : 0 <= y + 2 ^ 63 < 2 ^ 64) by lia. destruct (units_key _ R') as (U' & _ & S' & T').
    assert (E' : f_sign (y + 2 ^ 63) = true) by (unfold f_sign; lia). rewrite E' in U'. replace (y + 2 ^ 63 - 2 ^ 63) with y in U' by lia.
    split; [|split; [lia|exact E']].
    split; [exact R'|]. replace (y + 2 ^ 63) with (y + 2048 * 2 ^ 52) by lia. rewrite Z.div_add by lia.
    replace (y / 2 ^ 52 + 2048) with (y / 2 ^ 52 + 1 * 2048) by lia. rewrite Z.mod_add by lia. exact F.
Qed.

Lemma f_add_round x y : finite x -> finite y -> exists n d s, 0 <= n /\ 0 < d /\
  n * one = Z.abs (units x + units y) * d /\ f_add x y = f_round s n d /\
  s = (if units x + units y =? 0 then f_sign x && f_sign y else units x + units y <? 0).
Proof.
  intros X Y. destruct (finite_flags x X) as [N1 I1]. destruct (finite_flags y Y) as [N2 I2].
  unfold f_add. rewrite N1, I1, N2, I2. cbn [orb]. cbv zeta.
  destruct (units_mag x X) as (U1 & E1 & _). destruct (units_mag y Y) as (U2 & E2 & _).
  set (e := Z.min (f_e x) (f_e y)). set (m := f_signed_mag x * 2 ^ (f_e x - e) + f_signed_mag y * 2 ^ (f_e y - e)).
  assert (M : units x + units y = m * 2 ^ (e + 1074)).
  { rewrite U1, U2. unfold m. rewrite Z.mul_add_distr_r, <- !Z.mul_assoc, <- !Z.pow_add_r by lia.
    f_equal; f_equal; f_equal; lia. }
  assert (P : 0 < 2 ^ (e + 1074)) by (apply pow_pos; lia).
  assert (Z0 : (units x + units y =? 0) = (m =? 0)) by (rewrite M; destruct (Z.eqb_spec m 0) as [->|]; [reflexivity|]; nia).
  assert (Z1 : (units x + units y <? 0) = (m <? 0)) by (rewrite M; destruct (Z.ltb_spec m 0); nia).
  exists (dy_n (Z.abs m) e), (dy_d e), (if m =? 0 then f_sign x && f_sign y else m <? 0).
  split; [apply dy_n_nonneg; lia|]. split; [apply dy_d_pos|]. split; [|split; [reflexivity|now rewrite Z0, Z1]].
  destruct (dy_units (Z.abs m) e) as [D|D]; [|lia]. rewrite D, M, Z.abs_mul, (Z.abs_eq (2 ^ (e + 1074))) by lia. reflexivity.
Qed.
Lemma f_round_zero s d : f_round s 0 d = b2z s * 2 ^ 63.
Proof. unfold f_round. change (0 =? 0) with true. cbn iota. lia. Qed.

(* ------------------------------------------------------- rounding to 53 bits *)

Lemma f_round_near s n d : 0 < n -> 0 < d -> n < d * 2 ^ 1023 -> d * 2 ^ 52 <= n * one ->
  exists w, 0 <= w /\ finite (f_round s n d) /\ f_sign (f_round s n d) = s /\
    units (f_round s n d) = (if s then -1 else 1) * w /\ 2 ^ 53 * Z.abs (w * d - n * one) <= n * one.
Proof.
  intros Hn Hd Hb Hl. destruct (f_round_spec s n d Hn Hd Hb) as (t & q & Ht & Hq & F & S & _ & _ & U & NE & LB & _).
  exists (q * 2 ^ t). pose proof (pow_pos t ltac:(lia)) as P. split; [nia|]. split; [exact F|]. split; [exact S|]. split; [exact U|].
  assert (L : 2 ^ 52 * (d * 2 ^ t) <= n * one).
  { destruct LB as [->|LB]; [rewrite Z.mul_1_r; lia|]. rewrite Z.pow_add_r in LB by lia. lia. }
  set (A := Z.abs (q * 2 ^ t * d - n * one)) in *. set (B := d * 2 ^ t) in *. set (C := n * one) in *. clearbody A B C. lia.
Qed.

Definition f_of_int_near n : 0 < Z.abs n < 2 ^ 1023 -> exists x, f_of_int n = Some x /\ finite x /\
  2 ^ 53 * Z.abs (units x - n * one) <= Z.abs n * one.
Proof.
  intros H. unfold f_of_int. pose proof one_pos as O.
  destruct (f_round_near (n <? 0) (Z.abs n) 1) as (w & Hw & F & _ & U & N); [lia|lia|lia| |].
  { assert (2 ^ 52 <= one) by (vm_compute; discriminate). nia. }
  destruct (finite_flags _ F) as [_ I]. cbv zeta. rewrite I. eexists. split; [reflexivity|]. split; [exact F|].
  rewrite U. set (o := one) in *. clearbody o. destruct (Z.ltb_spec n 0).
  - rewrite (Z.abs_neq n) in * by lia. replace (-1 * w - n * o) with (- (w * 1 - - n * o)) by ring. rewrite Z.abs_opp. exact N.
  - rewrite (Z.abs_eq n) in * by lia. replace (1 * w - n * o) with (w * 1 - n * o) by ring. exact N.
Qed.
Lemma f_of_int_lt n k : 0 <= k < 2 ^ 52 -> Z.abs n < 2 ^ 1023 -> exists x, f_of_int n = Some x /\ finite x /\
  (units x < k * one <-> n < k) /\ (k * one < units x <-> k < n).
Proof.
  intros Hk Hn. pose proof one_pos as O. destruct (Z.ltb_spec (Z.abs n) (2 ^ 53)) as [S|S].
  - destruct (f_of_int_exact n S) as (x & E & [F U] & _). exists x. split; [exact E|]. split; [exact F|]. rewrite U. split; split; intros; nia.
  - destruct (f_of_int_near n) as (x & E & F & N); [lia|]. exists x. split; [exact E|]. split; [exact F|].
    set (o := one) in *. clearbody o. set (u := units x) in *. clearbody u.
    assert (2 ^ 53 * o <= Z.abs n * o) by nia. assert (k * o <= (2 ^ 52 - 1) * o) by (apply Z.mul_le_mono_nonneg_r; lia).
    destruct (Z.ltb_spec n 0).
    + assert (E' : Z.abs n * o = - (n * o)) by (rewrite Z.abs_neq by lia; ring).
      rewrite E' in *. assert (0 <= k * o) by nia. set (a := n * o) in *. set (b := k * o) in *. assert (0 < o) by lia. assert (u < 0) by lia. split; split; intros; lia.
    + assert (E' : Z.abs n * o = n * o) by (rewrite Z.abs_eq by lia; ring). rewrite E' in *.
      set (a := n * o) in *. set (b := k * o) in *. assert (b < u) by lia. split; split; intros; lia.
Qed.

Lemma f1000_int : is_integer f1000 1000. Proof. split; [split; [split; [vm_compute; discriminate|reflexivity]|reflexivity]|vm_compute; reflexivity]. Qed.
Lemma f999_int : is_integer f999 999. Proof. split; [split; [split; [vm_compute; discriminate|reflexivity]|reflexivity]|vm_compute; reflexivity]. Qed.
Lemma f522_int : is_integer f522 522. Proof. split; [split; [split; [vm_compute; discriminate|reflexivity]|reflexivity]|vm_compute; reflexivity]. Qed.
Lemma f10_int : is_integer f10 10. Proof. split; [split; [split; [vm_compute; discriminate|reflexivity]|reflexivity]|vm_compute; reflexivity]. Qed.

(* int(x * 1000) *)
Lemma mul_1000 x : finite x -> one <= 2 ^ 60 * units x -> units x <= 2 ^ 60 * one ->
  exists u, finite (f_mul x f1000) /\ units (f_mul x f1000) = u /\ 0 <= u /\ 2 ^ 53 * Z.abs (u - 1000 * units x) <= 1000 * units x.
Proof.
  intros X L B. pose proof one_pos as O. destruct f1000_int as [F1 U1].
  destruct (f_mul_round x f1000 X F1) as (n & d & Hn & Hd & E & M). rewrite U1 in E.
  assert (Px : 0 < units x) by lia.
  assert (SX : f_sign x = false).
  { destruct (units_mag x X) as (_ & E1 & S1 & _). destruct (f_sign x); [|reflexivity]. specialize (S1 eq_refl).
    pose proof (f_mag_range x). pose proof (pow_pos (f_e x + 1074) ltac:(lia)). nia. }
  rewrite SX in M. change (xorb false (f_sign f1000)) with false in M.
  rewrite Z.abs_eq in E by nia.
  assert (E2 : n * one = 1000 * units x * d) by (apply Z.mul_reg_r with one; [lia|]; rewrite <- Z.mul_assoc, E; ring).
  destruct (f_round_near false n d) as (w & Hw & F & _ & U & N); [nia|exact Hd| | |].
  - apply Z.mul_lt_mono_pos_r with one; [lia|]. rewrite E2.
    assert (1000 * units x < one * 2 ^ 1023) by (pose proof (pow_1023 70 ltac:(lia)); set (P := 2 ^ 1023) in *; clearbody P; nia).
    set (P := 2 ^ 1023) in *. clearbody P. nia.
  - rewrite E2. assert (2 ^ 52 <= 1000 * units x).
    { pose proof (pow_one 112 ltac:(lia)) as H. change (2 ^ 112) with (2 ^ 52 * 2 ^ 60) in H. lia. }
    nia.
  - rewrite <- M in F, U. exists w. split; [exact F|]. split; [lia|]. split; [exact Hw|].
    rewrite E2 in N. replace (w * d - 1000 * units x * d) with ((w - 1000 * units x) * d) in N by ring.
    rewrite Z.abs_mul, (Z.abs_eq d), Z.mul_assoc in N by lia. apply Z.mul_le_mono_pos_r in N; [exact N|lia].
Qed.
Lemma trunc_between u v : 0 <= v -> (v - 1) * one < u < (v + 1) * one -> Z.quot u one = v \/ Z.quot u one = v - 1.
Proof.
  intros Hv H. pose proof one_pos as O. set (o := one) in *. clearbody o.
  destruct (Z.ltb_spec u 0) as [N|P].
  - assert (v = 0) by nia. subst. left. pose proof (Z.quot_small (- u) o ltac:(lia)) as Q. rewrite Z.quot_opp_l in Q by lia. lia.
  - rewrite Z.quot_div_nonneg by lia. pose proof (Z.div_mod u o ltac:(lia)) as D. pose proof (Z.mod_pos_bound u o O) as M.
    set (q := u / o) in *. clearbody q. assert (v - 1 < q + 1) by nia. assert (q < v + 1) by nia. lia.
Qed.

(* int(x * 1000) for a tempo x *)
Lemma mille_float x : finite x -> 10 * one <= units x <= 999 * one ->
  exists m, num_mille (NFlt x) = Ok m /\ 0 <= m <= 999000 /\
    1000 * units x - one - 2 ^ 1041 < m * one <= 1000 * units x + 2 ^ 1041.
Proof.
  intros X B. pose proof one_pos as O.
  destruct (mul_1000 x X) as (u & F & U & Pu & N); [lia|lia|].
  cbn [num_mille]. rewrite (f_trunc_units _ F), U. exists (Z.quot u one). split; [reflexivity|].
  rewrite Z.quot_div_nonneg by lia.
  assert (K : one = 2 ^ 33 * 2 ^ 1041) by reflexivity.
  assert (N2 : 2 ^ 53 * Z.abs (u - 1000 * units x) <= 999000 * (2 ^ 33 * 2 ^ 1041)) by lia.
  assert (P41 : 0 < 2 ^ 1041) by (apply pow_pos; lia). set (e := 2 ^ 1041) in *.
  assert (N3 : Z.abs (u - 1000 * units x) < e) by (clearbody e; lia).
  pose proof (Z.div_mod u one ltac:(lia)) as D. pose proof (Z.mod_pos_bound u one O) as M.
  assert (Q : 0 <= u / one) by (apply Z.div_pos; lia).
  split; [|clearbody e; lia]. split; [exact Q|].
  assert (u / one < 999001); [|lia]. apply Z.div_lt_upper_bound; [lia|]. assert (e < one) by (rewrite K; lia). clearbody e. lia.
Qed.
(* floor(x) *)
Lemma floor_float x : finite x -> 10 * one <= units x <= 999 * one ->
  exists z, num_floor (NFlt x) = Ok z /\ 10 <= z <= 999 /\ z * one <= units x < (z + 1) * one.
Proof.
  intros X B. pose proof one_pos as O. cbn [num_floor]. rewrite (f_floor_units _ X). eexists. split; [reflexivity|].
  pose proof (Z.div_mod (units x) one ltac:(lia)) as D. pose proof (Z.mod_pos_bound (units x) one O) as M.
  split; [|lia]. split; [apply Z.div_le_lower_bound; lia|]. apply Z.lt_succ_r. apply Z.div_lt_upper_bound; lia.
Qed.
(* x - floor(x), exact *)
Lemma frac_float x z y : finite x -> 10 * one <= units x <= 999 * one -> z = units x / one -> is_integer y z -> f_sign y = false ->
  finite (f_sub x y) /\ units (f_sub x y) = units x mod one /\
  (units x mod one = 0 \/ 2 ^ 1025 <= units x mod one <= one - 2 ^ 1025).
Proof.
  intros X B -> [Y UY] SY. pose proof one_pos as O.
  assert (KT : forall t, 1025 <= t -> 2 ^ 1025 <= 2 ^ t) by (intros; apply Z.pow_le_mono_r; lia). set (K := 2 ^ 1025) in *. clearbody K.
  destruct (f_neg_finite y Y) as (NY & UN & SN). rewrite SY in SN. cbn [negb] in SN.
  destruct (f_add_round x (f_neg y) X NY) as (n & d & s & Hn & Hd & E & A & S). unfold f_sub. rewrite A.
  assert (V : units x + units (f_neg y) = units x mod one) by (rewrite UN, UY, Z.mod_eq by lia; ring).
  rewrite V in *. pose proof (Z.mod_pos_bound (units x) one O) as M. rewrite Z.abs_eq in E by lia.
  assert (SX : f_sign x = false).
  { destruct (units_mag x X) as (_ & E1 & S1 & _). destruct (f_sign x); [|reflexivity]. specialize (S1 eq_refl).
    pose proof (f_mag_range x). pose proof (pow_pos (f_e x + 1074) ltac:(lia)). nia. }
  destruct (units_mag x X) as (_ & E1 & _ & S2). specialize (S2 SX). set (t := f_e x + 1074) in *.
  pose proof (f_mag_range x) as MR. set (g := f_mag x) in *.
  destruct (Z.eqb_spec (units x mod one) 0) as [Z0|NZ].
  - rewrite Z0 in E. assert (n = 0) by nia. subst n. rewrite f_round_zero. rewrite S, SX. cbn [andb b2z]. split; [|split; [rewrite Z0; reflexivity|left; exact Z0]].
    split; [lia|reflexivity].
  - assert (T : t < 1074).
    { destruct (Z.ltb_spec t 1074) as [|G]; [assumption|exfalso]. apply NZ. rewrite S2. replace t with ((t - 1074) + 1074) by lia.
      rewrite Z.pow_add_r by lia. rewrite Z.mul_assoc. change (2 ^ 1074) with one. apply Z.mod_mul. lia. }
    assert (T2 : 1025 <= t).
    { destruct (Z.leb_spec 1025 t) as [|G]; [assumption|exfalso]. assert (L : 2 ^ t <= 2 ^ 1024) by (apply Z.pow_le_mono_r; lia).
      assert (2 ^ 53 * 2 ^ 1024 <= 10 * one) by (unfold one; change 1074 with (50 + 1024); rewrite (Z.pow_add_r 2 50 1024) by lia; pose proof (pow_pos 1024 ltac:(lia)); set (P := 2 ^ 1024) in *; clearbody P; lia). set (P := 2 ^ 1024) in *. clearbody P.
      assert (g * 2 ^ t < 2 ^ 53 * P) by (pose proof (pow_pos t ltac:(lia)); nia). lia. }
    assert (OO : one = 2 ^ (1074 - t) * 2 ^ t) by (rewrite <- Z.pow_add_r by lia; unfold one; f_equal; lia).
    assert (C : units x mod one = (g mod 2 ^ (1074 - t)) * 2 ^ t).
    { rewrite OO, S2. rewrite Z.mul_mod_distr_r; [reflexivity| |]; pose proof (pow_pos t ltac:(lia)); pose proof (pow_pos (1074 - t) ltac:(lia)); lia. }
    set (c := g mod 2 ^ (1074 - t)) in *.
    assert (HC : 0 <= c < 2 ^ (1074 - t)) by (apply Z.mod_pos_bound, pow_pos; lia).
    assert (HC2 : 2 ^ (1074 - t) <= 2 ^ 49) by (apply Z.pow_le_mono_r; lia).
    pose proof (pow_pos t ltac:(lia)) as Pt.
    assert (c <> 0) by (intros ->; rewrite C in NZ; lia).
    assert (n <> 0) by (intros ->; nia).
    assert (HB : c * 2 ^ t < 2 ^ 2097). { pose proof (below_2097 1 ltac:(lia)). set (P := 2 ^ 2097) in *. clearbody P. lia. }
    rewrite C in E. destruct (f_round_exact s n d c t ltac:(clear - Hn H0; lia) Hd ltac:(clear - T2; lia) ltac:(clear - HC HC2 H; lia) HB E) as (F & U). clear HB.
    assert (s = false) by (rewrite S; lia). subst s. rewrite H1 in *. split; [exact F|]. split; [rewrite U, C; lia|right].
    rewrite C. pose proof (KT t T2). split; [nia|]. rewrite OO.
    assert (c * 2 ^ t <= (2 ^ (1074 - t) - 1) * 2 ^ t) by (apply Z.mul_le_mono_nonneg_r; lia). lia.
Qed.
Lemma mul_zero_trunc x y : finite x -> finite y -> units x = 0 -> f_trunc (f_mul x y) = Ok 0.
Proof.
  intros X Y E. destruct (f_mul_round x y X Y) as (n & d & Hn & Hd & K & ->). rewrite E in K. change (Z.abs (0 * units y)) with 0 in K.
  pose proof one_pos. assert (n = 0) by nia. subst n. rewrite f_round_zero. destruct (xorb _ _); reflexivity.
Qed.
(* int((x - floor(x)) * 1000) *)
Lemma fine_float x : finite x -> 10 * one <= units x <= 999 * one ->
  exists m, num_fine (NFlt x) = Ok m /\ 0 <= m <= 999 /\
    1000 * (units x mod one) - one - 2 ^ 1041 < m * one <= 1000 * (units x mod one) + 2 ^ 1041 /\ (units x mod one = 0 -> m = 0).
Proof.
  intros X B. pose proof one_pos as O. destruct (floor_float x X B) as (z & E & HZ & _). cbn [num_fine num_floor] in *.
  rewrite E. cbn [bind]. assert (EZ : z = units x / one) by (rewrite (f_floor_units _ X) in E; congruence).
  destruct (f_of_int_exact z) as (y & EY & IY & SY); [lia|]. rewrite EY. replace (z <? 0) with false in SY by lia.
  destruct (frac_float x z y X B EZ IY SY) as (F & U & [Z0|R]).
  - rewrite Z0 in *. exists 0. rewrite (mul_zero_trunc _ _ F (proj1 f1000_int) U). split; [reflexivity|]. pose proof (pow_pos 1041). lia.
  - assert (K : one = 2 ^ 49 * 2 ^ 1025) by reflexivity. set (fr := units x mod one) in *.
    destruct (mul_1000 (f_sub x y) F) as (u & F2 & U2 & Pu & N); [rewrite U; lia|rewrite U; lia|].
    rewrite (f_trunc_units _ F2), U2, Z.quot_div_nonneg by lia. exists (u / one). split; [reflexivity|]. rewrite U in N.
    assert (K2 : 2 ^ 1041 = 2 ^ 16 * 2 ^ 1025) by reflexivity. rewrite K2.
    assert (P25 : 0 < 2 ^ 1025) by (apply pow_pos; lia).
    pose proof (Z.div_mod u one ltac:(lia)) as D. pose proof (Z.mod_pos_bound u one O) as M.
    assert (Q : 0 <= u / one) by (apply Z.div_pos; lia).
    rewrite K in *. set (e := 2 ^ 1025) in *. clearbody e fr.
    assert (Z.abs (u - 1000 * fr) < 1000 * e) by lia.
    split; [|split; [lia|intros; lia]].
    split; [exact Q|]. assert (u / (2 ^ 49 * e) < 1000); [|lia]. apply Z.div_lt_upper_bound; lia.
Qed.

(* ------------------------------------------------------------ integral tempos *)

Lemma mille_int x z : is_integer x z -> 1 <= z < 2 ^ 40 -> num_mille (NFlt x) = Ok (z * 1000).
Proof.
  intros [X U] B. pose proof one_pos as O. destruct f1000_int as [F1 U1].
  destruct (f_mul_round x f1000 X F1) as (n & d & Hn & Hd & E & M). rewrite U, U1 in E.
  assert (E2 : n * one = (1000 * z) * one * d).
  { apply Z.mul_reg_r with one; [lia|]. rewrite <- Z.mul_assoc, E, Z.abs_eq by nia. ring. }
  assert (n <> 0) by (intros ->; nia).
  assert (KB : 1000 * z * 2 ^ 1074 < 2 ^ 2097). { apply below_2097. lia. }
  cbn [num_mille]. rewrite M. set (s := xorb _ _) in *.
  destruct (f_round_exact s n d (1000 * z) 1074) as (F & V); try lia; [exact E2|]. rewrite (f_trunc_units _ F), V.
  assert (s = false).
  { unfold s. change (f_sign f1000) with false. rewrite xorb_false_r. destruct (units_mag x X) as (_ & E1 & S1 & _).
    destruct (f_sign x); [|reflexivity]. specialize (S1 eq_refl). pose proof (f_mag_range x). pose proof (pow_pos (f_e x + 1074) ltac:(lia)). nia. }
  rewrite H0. f_equal. change (2 ^ 1074) with one. replace (1 * (1000 * z * one)) with (z * 1000 * one) by ring. apply Z.quot_mul. lia.
Qed.
Lemma floor_int x z : is_integer x z -> num_floor (NFlt x) = Ok z.
Proof. intros [X U]. pose proof one_pos. cbn [num_floor]. rewrite (f_floor_units _ X), U, Z.div_mul by lia. reflexivity. Qed.
Lemma fine_int x z : is_integer x z -> 10 <= z <= 999 -> num_fine (NFlt x) = Ok 0.
Proof.
  intros [X U] B. pose proof one_pos. destruct (fine_float x X) as (m & E & _ & _ & Z0); [rewrite U; nia|].
  rewrite E, Z0; [reflexivity|]. rewrite U. apply Z.mod_mul. lia.
Qed.
Lemma per_mille_int z : 0 < z < 2 ^ 53 -> exists x, per_mille (VInt (z * 1000)) = Ok x /\ is_integer x z /\ f_sign x = false.
Proof.
  intros B. pose proof one_pos as O. unfold per_mille. cbn [as_int]. unfold int_div. replace (z * 1000 <? 0) with false by lia. rewrite Z.abs_eq by lia.
  destruct (f_round_near false (z * 1000) 1000) as (w & _ & F & S & _); [lia|lia| | |].
  - pose proof (pow_1023 53 ltac:(lia)) as Q. set (P := 2 ^ 1023) in *. clearbody P. lia.
  - pose proof (pow_one 63 ltac:(lia)). nia.
  - destruct (f_round_exact false (z * 1000) 1000 z 1074) as (_ & U); [lia|lia|lia|lia| |unfold one; ring|].
    { apply below_2097. lia. }
    destruct (finite_flags _ F) as [_ I]. cbv zeta. rewrite I. eexists. split; [reflexivity|]. split; [|exact S]. split; [exact F|]. rewrite U. unfold one. ring.
Qed.
Lemma per_mille_ok z : Z.abs z < 2 ^ 53 -> exists x, per_mille (VInt z) = Ok x /\ finite x.
Proof.
  intros B. unfold per_mille. cbn [as_int]. unfold int_div. destruct (Z.eq_dec z 0) as [->|NZ].
  - exists 0. split; [reflexivity|]. split; [lia|reflexivity].
  - destruct (f_round_spec (z <? 0) (Z.abs z) 1000) as (t & q & _ & _ & F & _); [lia|lia| |].
    + pose proof (pow_1023 53 ltac:(lia)) as Q. set (P := 2 ^ 1023) in *. clearbody P. lia.
    + destruct (finite_flags _ F) as [_ I]. cbv zeta. rewrite I. eauto.
Qed.
Lemma add_zero y z : is_integer y z -> 0 < z < 2 ^ 53 -> is_integer (f_add y 0) z.
Proof.
  intros [Y U] B. pose proof one_pos as O. assert (F0 : finite 0) by (split; [lia|reflexivity]).
  destruct (f_add_round y 0 Y F0) as (n & d & s & Hn & Hd & E & -> & S). change (units 0) with 0 in *. rewrite Z.add_0_r, U in *.
  rewrite Z.abs_eq in E by nia. assert (s = false) by (rewrite S; replace (z * one =? 0) with false by nia; nia). subst s.
  destruct (f_round_exact false n d z 1074) as (F & V); [nia|lia|lia|lia| |exact E|].
  { apply below_2097. lia. }
  rewrite H in *. split; [exact F|]. rewrite V. unfold one. ring.
Qed.

(* ------------------------------------------------------------------ the setter *)

Lemma set_if_spec h id z : tidy h -> exists h', set_if h id (Ok z) = (h', Ok tt) /\
  root_events h' = put id (VInt z) (root_events h) /\ same_shape h h'.
Proof.
  intros T. unfold set_if. rewrite contains_root. destruct (value_of id (root_events h)) as [o|] eqn:V.
  - cbn [with_res]. apply set_first_spec; [exact T|congruence].
  - exists h. split; [reflexivity|]. split; [symmetry; apply put_none; exact V|apply same_shape_refl].
Qed.
Lemma tempo_set_spec h n m f z : tidy h -> tempo_check h n = Ok tt ->
  num_mille n = Ok m -> num_fine n = Ok f -> num_floor n = Ok z ->
  exists h', tempo_set h n = (h', Ok tt) /\ same_shape h h' /\ root_events h' = with_tempo m f z (root_events h).
Proof.
  intros T C N1 N2 N3. unfold tempo_set. rewrite N1, N2, N3, C. cbn [with_res].
  destruct (set_if_spec h 156 m T) as (h1 & E1 & R1 & S1). rewrite E1. cbn [and_then fst snd].
  destruct (set_if_spec h1 93 f (shape_tidy _ _ S1 T)) as (h2 & E2 & R2 & S2). rewrite E2. cbn [and_then fst snd].
  destruct (set_if_spec h2 66 z (shape_tidy _ _ S2 (shape_tidy _ _ S1 T))) as (h3 & E3 & R3 & S3). rewrite E3.
  exists h3. split; [reflexivity|]. split; [eauto using same_shape_trans|]. unfold with_tempo. now rewrite R3, R2, R1.
Qed.
Lemma tempo_get_some h : has_tempo (root_events h) -> exists t, tempo_get h = Ok t /\ t <> VNone.
Proof.
  unfold has_tempo, tempo_get. rewrite !contains_root, !first_root. intros [(a & -> & A)|(-> & (c & -> & C) & [->|(f & -> & F)])]; cbn [bind].
  - destruct (per_mille_ok a A) as (x & -> & _). cbn [bind]. eexists. split; [reflexivity|discriminate].
  - eexists. split; [reflexivity|discriminate].
  - destruct (per_mille_ok f F) as (x & -> & _). cbn [bind as_int]. destruct (f_of_int_exact c C) as (y & -> & _). eexists. split; [reflexivity|discriminate].
Qed.
(* reading back *)
Lemma tempo_get_int h es z : has_tempo es -> 10 <= z <= 999 -> root_events h = with_tempo (z * 1000) 0 z es ->
  exists t, tempo_get h = Ok t /\ bpm t z.
Proof.
  intros H B R. unfold tempo_get. rewrite !contains_root, !first_root, R. unfold with_tempo.
  rewrite (value_put_other 156 66), (value_put_other 156 93), (value_put 156) by lia.
  rewrite (value_put 66), (value_put_other 66 93), (value_put_other 66 156) by lia.
  rewrite (value_put_other 93 66), (value_put 93), (value_put_other 93 156) by lia.
  destruct H as [(a & -> & A)|(-> & (c & -> & C) & F)]; cbn [bind].
  - destruct (per_mille_int z) as (x & -> & I & _); [lia|]. cbn [bind]. eexists. split; [reflexivity|]. right. eauto.
  - destruct F as [->|(f & -> & F)]; cbn [bind].
    + eexists. split; [reflexivity|now left].
    + change (per_mille (VInt 0)) with (Ok 0). cbn [bind as_int]. destruct (f_of_int_exact z) as (y & -> & I & _); [lia|].
      eexists. split; [reflexivity|]. right. eexists. split; [reflexivity|]. apply add_zero; [exact I|lia].
Qed.

(* the limits *)
Lemma tempo_max_spec h v : version_get h = Ok v -> ~ clash v [1; 4; 2] -> ~ clash v [11; 0; 0] ->
  exists m, tempo_max h = Ok m /\ is_integer m (max_bpm [v_major v; v_minor v; v_patch v]).
Proof.
  intros V C1 C2. unfold tempo_max. rewrite V. cbn [bind]. rewrite (ver_ge_spec v 1 4 2 C1). cbn [bind].
  rewrite (ver_lt_spec v 11 0 0 C2). unfold max_bpm. destruct (lex_lt _ [1; 4; 2]); cbn [negb andb bind].
  - exists f522. split; [reflexivity|exact f522_int].
  - destruct (lex_lt _ _); cbn [bind]; [exists f999; split; [reflexivity|exact f999_int]|exists f522; split; [reflexivity|exact f522_int]].
Qed.
Lemma max_bpm_range ns : 522 <= max_bpm ns <= 999. Proof. unfold max_bpm. destruct (_ && _); lia. Qed.
Lemma tempo_check_int h v z : has_tempo (root_events h) -> version_get h = Ok v -> ~ clash v [1; 4; 2] -> ~ clash v [11; 0; 0] ->
  Z.abs z < 2 ^ 1023 ->
  tempo_check h (NInt z) = if (10 <=? z) && (z <=? max_bpm [v_major v; v_minor v; v_patch v]) then Ok tt else Err ValueError.
Proof.
  intros H V C1 C2 B. unfold tempo_check. destruct (tempo_get_some h H) as (t & -> & NT). cbn [bind].
  destruct (tempo_max_spec h v V C1 C2) as (m & -> & FM & UM). cbn [bind tempo_float_ok num_float].
  set (k := max_bpm _) in *. pose proof (max_bpm_range [v_major v; v_minor v; v_patch v]) as KR. fold k in KR. clearbody k.
  destruct (f_of_int_lt z k) as (x & E & FX & _ & Hk); [lia|exact B|]. destruct (f_of_int_lt z 10) as (x' & E' & _ & H10 & _); [lia|exact B|].
  rewrite E in *. assert (x' = x) by congruence. subst x'. cbn [bind].
  rewrite (f_lt_units m x FM FX), (f_lt_units x f10 FX (proj1 f10_int)), UM, (proj2 f10_int).
  assert (G : (k * one <? units x) || (units x <? 10 * one) = negb ((10 <=? z) && (z <=? k))).
  { destruct (Z.ltb_spec (k * one) (units x)); destruct (Z.ltb_spec (units x) (10 * one)); destruct (Z.leb_spec 10 z); destruct (Z.leb_spec z k); cbn; try reflexivity; exfalso; tauto || lia. }
  rewrite G. destruct t; try congruence; destruct ((10 <=? z) && (z <=? k)); reflexivity.
Qed.
Lemma tempo_check_flt h v x : has_tempo (root_events h) -> version_get h = Ok v -> ~ clash v [1; 4; 2] -> ~ clash v [11; 0; 0] ->
  ~ clash v [3; 4; 0] -> finite x ->
  tempo_check h (NFlt x) = if lex_lt [v_major v; v_minor v; v_patch v] [3; 4; 0] then Err TypeError
    else if (10 * one <=? units x) && (units x <=? max_bpm [v_major v; v_minor v; v_patch v] * one) then Ok tt else Err ValueError.
Proof.
  intros H V C1 C2 C3 FX. unfold tempo_check. destruct (tempo_get_some h H) as (t & -> & NT). cbn [bind].
  destruct (tempo_max_spec h v V C1 C2) as (m & -> & FM & UM). cbn [bind tempo_float_ok num_float]. rewrite V. cbn [bind].
  rewrite (ver_lt_spec v 3 4 0 C3). cbn [bind]. set (k := max_bpm _) in *. clearbody k.
  rewrite (f_lt_units m x FM FX), (f_lt_units x f10 FX (proj1 f10_int)), UM, (proj2 f10_int).
  assert (G : (k * one <? units x) || (units x <? 10 * one) = negb ((10 * one <=? units x) && (units x <=? k * one))).
  { rewrite negb_andb, <- !Z.ltb_antisym. apply orb_comm. }
  rewrite G. destruct t; try congruence; destruct (lex_lt _ _); cbn [bind]; destruct ((10 * one <=? units x) && (units x <=? k * one)); reflexivity.
Qed.

(* numbers that are not finite *)
Lemma nonfinite_cases x : 0 <= x < 2 ^ 64 -> ~ finite x -> f_is_nan x = true \/ (f_is_nan x = false /\ (x = f_inf true \/ x = f_inf false)).
Proof.
  intros R NF. assert (E : f_exp x = 2047).
  { unfold finite in NF. unfold f_exp. pose proof (Z.mod_pos_bound (x / 2 ^ 52) 2048 ltac:(lia)). lia. }
  unfold f_is_nan. rewrite E. change (2047 =? 2047) with true. cbn [andb].
  destruct (Z.eqb_spec (f_man x) 0) as [M|M]; cbn [negb]; [right|left; reflexivity]. split; [reflexivity|].
  unfold f_exp, f_man in *. pose proof (Z.div_mod x (2 ^ 52) ltac:(lia)) as D. pose proof (Z.div_mod (x / 2 ^ 52) 2048 ltac:(lia)) as D2.
  assert (x / 2 ^ 52 / 2048 = 0 \/ x / 2 ^ 52 / 2048 = 1).
  { assert (0 <= x / 2 ^ 52 < 4096) by (split; [apply Z.div_pos; lia|apply Z.div_lt_upper_bound; lia]). lia. }
  change (f_inf true) with (2 ^ 63 + 2047 * 2 ^ 52). change (f_inf false) with (2047 * 2 ^ 52). lia.
Qed.
Lemma tempo_nonfinite h v x : has_tempo (root_events h) -> version_get h = Ok v -> ~ clash v [1; 4; 2] -> ~ clash v [11; 0; 0] ->
  ~ clash v [3; 4; 0] -> lex_lt [v_major v; v_minor v; v_patch v] [3; 4; 0] = false -> 0 <= x < 2 ^ 64 -> ~ finite x ->
  tempo_set h (NFlt x) = (h, Err ValueError).
Proof.
  intros H V C1 C2 C3 L R NF. unfold tempo_set, tempo_check. destruct (tempo_get_some h H) as (t & -> & NT). cbn [bind].
  assert (M : exists m, tempo_max h = Ok m /\ (m = f999 \/ m = f522)).
  { unfold tempo_max. rewrite V. cbn [bind]. rewrite (ver_ge_spec v 1 4 2 C1). cbn [bind]. rewrite (ver_lt_spec v 11 0 0 C2).
    destruct (negb _); cbn [bind]; [destruct (lex_lt _ [11; 0; 0]); cbn [bind]|]; (eexists; split; [reflexivity|auto]). }
  destruct M as (m & -> & HM). cbn [bind tempo_float_ok num_float]. rewrite V. cbn [bind]. rewrite (ver_lt_spec v 3 4 0 C3), L. cbn [bind].
  destruct (nonfinite_cases x R NF) as [N|(N & I)].
  - assert (B : f_lt m x || f_lt x f10 = false) by (unfold f_lt; rewrite N; cbn [negb andb]; rewrite andb_false_r; reflexivity). rewrite B.
    assert (E1 : num_mille (NFlt x) = Err ValueError).
    { cbn [num_mille]. unfold f_mul. rewrite N. reflexivity. }
    assert (E2 : num_floor (NFlt x) = Err ValueError) by (cbn [num_floor]; unfold f_floor; rewrite N; reflexivity).
    assert (E3 : num_fine (NFlt x) = Err ValueError) by (cbn [num_fine num_floor] in *; rewrite E2; reflexivity).
    assert (G : and_then (set_if h 156 (num_mille (NFlt x))) (fun h0 => and_then (set_if h0 93 (num_fine (NFlt x))) (fun h1 => set_if h1 66 (num_floor (NFlt x)))) = (h, Err ValueError)).
    { rewrite E1, E2, E3. unfold set_if. rewrite !contains_root.
      destruct H as [(a & -> & A)|(-> & (c & EC & C) & F)]; cbn [with_res and_then fst snd]; [reflexivity|]. rewrite contains_root.
      destruct F as [->|(f & -> & F)]; cbn [with_res and_then fst snd]; [|reflexivity]. rewrite contains_root, EC. reflexivity. }
    destruct t; try congruence; exact G.
  - destruct I as [-> | ->]; destruct HM as [-> | ->]; destruct t; try congruence; reflexivity.
Qed.

(* a stored tempo assigned to itself *)
Lemma stored_tempo v : 10000 <= v <= 999000 -> exists x, per_mille (VInt v) = Ok x /\ finite x /\
  10 * one <= units x <= 999 * one /\ 2 ^ 53 * Z.abs (1000 * units x - v * one) <= v * one /\
  (forall k, v <= 1000 * k -> k <= 999 -> units x <= k * one).
Proof.
  intros B. pose proof one_pos as O. unfold per_mille. cbn [as_int]. unfold int_div. replace (v <? 0) with false by lia. rewrite Z.abs_eq by lia.
  destruct (f_round_near false v 1000) as (w & Hw & F & S & U & N); [lia|lia| | |].
  - pose proof (pow_1023 53 ltac:(lia)) as Q. set (P := 2 ^ 1023) in *. clearbody P. lia.
  - pose proof (pow_one 63 ltac:(lia)). nia.
  - destruct (finite_flags _ F) as [_ I]. cbv zeta. rewrite I. eexists. split; [reflexivity|]. split; [exact F|].
    assert (EX : forall k, v = 1000 * k -> 0 < k < 2 ^ 53 -> units (f_round false v 1000) = k * one).
    { intros k -> K. destruct (per_mille_int k K) as (x & E & [_ UX] & _). unfold per_mille in E. cbn [as_int] in E. unfold int_div in E.
      replace (k * 1000 <? 0) with false in E by lia. rewrite Z.abs_eq, (Z.mul_comm k) in E by lia. cbv zeta in E. rewrite I in E. congruence. }
    assert (UP : forall k, v <= 1000 * k -> k <= 999 -> units (f_round false v 1000) <= k * one).
    { intros k L K. destruct (Z.eq_dec v (1000 * k)) as [E|NE]; [rewrite (EX k E) by lia; lia|].
      rewrite U. set (o := one) in *. clearbody o. assert (v * o <= (1000 * k - 1) * o) by (apply Z.mul_le_mono_nonneg_r; lia).
      assert (0 <= k * o) by nia. assert (v * o <= 999000 * o) by nia. set (a := v * o) in *. clearbody a. lia. }
    split; [|split; [|exact UP]].
    + split; [|apply UP; lia]. destruct (Z.eq_dec v 10000) as [->|NE]; [rewrite (EX 10) by lia; lia|].
      rewrite U. set (o := one) in *. clearbody o. assert (10001 * o <= v * o <= 999000 * o) by nia. set (a := v * o) in *. clearbody a. lia.
    + rewrite U. replace (1000 * (1 * w) - v * one) with (w * 1000 - v * one) by ring. exact N.
Qed.
Lemma self_mille v x : 10000 <= v <= 999000 -> per_mille (VInt v) = Ok x ->
  exists m, num_mille (NFlt x) = Ok m /\ (m = v \/ m = v - 1).
Proof.
  intros B E. pose proof one_pos as O. destruct (stored_tempo v B) as (x' & E' & F & R & N & _). assert (x' = x) by congruence. subst x'.
  destruct (mul_1000 x F) as (u & F2 & U2 & Pu & N2); [lia|lia|]. cbn [num_mille]. rewrite (f_trunc_units _ F2), U2. eexists. split; [reflexivity|].
  apply trunc_between; [lia|]. set (o := one) in *. clearbody o. set (w := units x) in *. clearbody w.
  assert (v * o <= 999000 * o) by nia. set (a := v * o) in *. assert ((v - 1) * o = a - o) by (unfold a; ring). assert ((v + 1) * o = a + o) by (unfold a; ring).
  clearbody a. lia.
Qed.
Lemma tempo_self h vs v : tidy h -> value_of 156 (root_events h) = Some (VInt v) ->
  value_of 66 (root_events h) = None -> value_of 93 (root_events h) = None ->
  version_get h = Ok vs -> ~ clash vs [1; 4; 2] -> ~ clash vs [11; 0; 0] -> ~ clash vs [3; 4; 0] ->
  lex_lt [v_major vs; v_minor vs; v_patch vs] [3; 4; 0] = false ->
  10000 <= v <= 1000 * max_bpm [v_major vs; v_minor vs; v_patch vs] ->
  exists x h' m, tempo_get h = Ok (VFlt x) /\ tempo_set h (NFlt x) = (h', Ok tt) /\
    root_events h' = put 156 (VInt m) (root_events h) /\ (m = v \/ m = v - 1).
Proof.
  intros T V N66 N93 VV C1 C2 C3 L B. pose proof (max_bpm_range [v_major vs; v_minor vs; v_patch vs]) as MR.
  destruct (stored_tempo v ltac:(lia)) as (x & E & F & R & _ & UP). exists x.
  destruct (self_mille v x ltac:(lia) E) as (m & EM & HM).
  assert (HT : has_tempo (root_events h)) by (left; exists v; split; [exact V|lia]).
  destruct (floor_float x F R) as (z & EZ & _). destruct (fine_float x F R) as (f & EF & _).
  destruct (tempo_set_spec h (NFlt x) m f z T) as (h' & ES & _ & RE); [|exact EM|exact EF|exact EZ|].
  { rewrite (tempo_check_flt h vs x HT VV C1 C2 C3 F), L. replace (10 * one <=? units x) with true by lia.
    specialize (UP (max_bpm [v_major vs; v_minor vs; v_patch vs]) ltac:(lia) ltac:(lia)).
    set (k := max_bpm _ * one) in *. clearbody k. replace (units x <=? k) with true by lia. reflexivity. }
  exists h', m. split; [|split; [exact ES|split; [|exact HM]]].
  - unfold tempo_get. rewrite contains_root, first_root, V. cbn [bind]. rewrite E. reflexivity.
  - rewrite RE. unfold with_tempo. rewrite put_none, put_none; [reflexivity| |].
    + rewrite value_put_other by lia. exact N93.
    + rewrite value_put_other, value_put_other by lia. exact N66.
Qed.
