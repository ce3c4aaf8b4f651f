(* Decimal numbers: printing and reading. *)
From Coq Require Import String ZArith List Bool Lia Arith.
From Verif Require Import M_Base P_Base.
Import ListNotations.
Open Scope Z_scope.

Definition all_digits (s : pystr) : Prop := Forall (fun c => 48 <= c <= 57) s.

Lemma digits_val_app a b acc p :
  all_digits a -> a <> [] -> digits_val acc p (a ++ b) =
  match digits_val acc p a with Some x => digits_val x true b | None => None end.
Proof.
  intros Ha Hne. revert acc p. induction Ha as [|c a Hc Ha IH]; intros acc p; [congruence|].
  cbn [app digits_val]. replace (is_digit c) with true by (unfold is_digit; lia).
  destruct a as [|c' a].
  - cbn [app digits_val]. reflexivity.
  - apply IH. discriminate.
Qed.

Lemma digits_val_some a acc p : all_digits a -> a <> [] -> exists x, digits_val acc p a = Some x.
Proof.
  intros Ha Hne. revert acc p. induction Ha as [|c a Hc Ha IH]; intros acc p; [congruence|].
  cbn [digits_val]. replace (is_digit c) with true by (unfold is_digit; lia).
  destruct a as [|c' a]; [eexists; reflexivity|]. apply IH. discriminate.
Qed.

Lemma dec_digits_spec f n acc :
  0 <= n < 2 ^ Z.of_nat f -> all_digits acc ->
  exists d, dec_digits f n acc = d ++ acc /\ all_digits d /\ ((0 < f)%nat -> d <> []) /\
    ((0 < f)%nat -> forall b, digits_val b false d = Some (n + b * 10 ^ zlen d)).
Proof.
  revert n acc. induction f as [|f IH]; intros n acc Hn Hacc.
  - exists []. cbn [dec_digits app]. split; [reflexivity|]. split; [constructor|]. split; lia.
  - cbn [dec_digits].
    assert (Hd : 48 <= 48 + n mod 10 <= 57) by (pose proof (Z.mod_pos_bound n 10 ltac:(lia)); lia).
    destruct (Z.ltb_spec n 10) as [H10|H10].
    + exists [48 + n mod 10]. cbn [app]. split; [reflexivity|].
      split; [repeat constructor; lia|]. split; [discriminate|]. intros _ b.
      cbn [digits_val]. replace (is_digit (48 + n mod 10)) with true by (unfold is_digit; lia).
      f_equal. change (zlen [48 + n mod 10]) with 1. rewrite Z.pow_1_r, Z.mod_small by lia. lia.
    + assert (Hf : n / 10 < 2 ^ Z.of_nat f).
      { rewrite Nat2Z.inj_succ, Z.pow_succ_r in Hn by lia.
        apply Z.div_lt_upper_bound; [lia|]. nia. }
      destruct (IH (n / 10) ((48 + n mod 10) :: acc)) as (d & -> & Hda & Hne & Hv).
      { split; [apply Z.div_pos; lia|exact Hf]. }
      { constructor; [lia|exact Hacc]. }
      assert (Hfp : (0 < f)%nat).
      { destruct f; [|lia]. exfalso. rewrite Nat2Z.inj_0 in Hf. cbn in Hf.
        assert (1 <= n / 10) by (apply Z.div_le_lower_bound; lia). lia. }
      exists (d ++ [48 + n mod 10]). rewrite <- app_assoc. cbn [app].
      split; [reflexivity|]. split; [apply Forall_app; split; [exact Hda|repeat constructor; lia]|].
      split; [intros _ E; apply app_eq_nil in E; destruct E; discriminate|].
      intros _ b. rewrite digits_val_app by (try exact Hda; apply Hne; exact Hfp).
      rewrite (Hv Hfp b). cbn [digits_val].
      replace (is_digit (48 + n mod 10)) with true by (unfold is_digit; lia).
      f_equal. rewrite zlen_app. change (zlen [48 + n mod 10]) with 1.
      rewrite Z.pow_add_r by (try apply zlen_nonneg; lia).
      pose proof (Z.div_mod n 10 ltac:(lia)). lia.
Qed.

Lemma log2_bound n : 0 <= n -> n < 2 ^ Z.of_nat (S (Z.to_nat (Z.log2 n))).
Proof.
  intros H. rewrite Nat2Z.inj_succ, Z2Nat.id by apply Z.log2_nonneg.
  destruct (Z.eq_dec n 0) as [->|H0]; [reflexivity|].
  apply Z.log2_spec. lia.
Qed.

(* digits of a non-negative number *)
Lemma py_str_nat n : 0 <= n -> all_digits (py_str_int n) /\ py_str_int n <> [] /\
  digits_val 0 false (py_str_int n) = Some n.
Proof.
  intros H. unfold py_str_int. rewrite Z.abs_eq by exact H.
  replace (n <? 0) with false by lia.
  destruct (dec_digits_spec (S (Z.to_nat (Z.log2 n))) n []) as (d & -> & Hd & Hne & Hv).
  { split; [exact H|]. apply log2_bound. exact H. }
  { constructor. }
  rewrite app_nil_r. split; [exact Hd|]. split; [apply Hne; lia|].
  rewrite Hv by lia. f_equal. lia.
Qed.

Lemma drop_blanks_id s c r : s = c :: r -> is_blank c = false -> drop_blanks s = s.
Proof. intros -> H. cbn [drop_blanks]. rewrite H. reflexivity. Qed.

Lemma no_blanks s : Forall (fun c => is_blank c = false) s -> rev (drop_blanks (rev (drop_blanks s))) = s.
Proof.
  intros H.
  assert (D : forall t, Forall (fun c => is_blank c = false) t -> drop_blanks t = t).
  { intros t Ht. destruct Ht; [reflexivity|]. cbn [drop_blanks]. rewrite H0. reflexivity. }
  rewrite (D s H), D, rev_involutive; [reflexivity|].
  apply Forall_rev. exact H.
Qed.

Lemma digit_not_blank c : 48 <= c <= 57 -> is_blank c = false.
Proof. unfold is_blank. lia. Qed.

Lemma py_int_str n : py_int (py_str_int n) = Some n.
Proof.
  destruct (Z.ltb_spec n 0) as [H|H].
  - destruct (py_str_nat (- n)) as (Hd & Hne & Hv); [lia|].
    assert (E : py_str_int n = 45 :: py_str_int (- n)).
    { unfold py_str_int. rewrite Z.abs_opp. replace (n <? 0) with true by lia.
      replace (- n <? 0) with false by lia. reflexivity. }
    rewrite E. unfold py_int. rewrite no_blanks.
    + replace (45 =? 43) with false by reflexivity.
      replace (45 =? 45) with true by reflexivity.
      rewrite Hv. cbn [option_map]. f_equal. lia.
    + constructor; [reflexivity|]. eapply Forall_impl; [|exact Hd]. intros c. apply digit_not_blank.
  - destruct (py_str_nat n H) as (Hd & Hne & Hv).
    unfold py_int. rewrite no_blanks.
    + destruct (py_str_int n) as [|c r] eqn:E; [congruence|].
      inversion Hd; subst.
      replace (c =? 43) with false by lia. replace (c =? 45) with false by lia. exact Hv.
    + eapply Forall_impl; [|exact Hd]. intros c. apply digit_not_blank.
Qed.
