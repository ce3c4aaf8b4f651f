(* The primitive constructs and adapters of PyFLP against the cells of S_Canon. *)
From Coq Require Import String ZArith List Bool Lia Arith.
From Verif Require Import M_Base M_Float M_Text M_Construct M_Structs M_Events.
From Verif Require Import S_Canon P_Base P_Codec P_Float P_Text P_RT.
Import ListNotations.
Open Scope Z_scope.

Lemma u_le_dec b : u_le b = le_dec b.
Proof. induction b as [|x b IH]; [reflexivity|]. cbn [u_le fold_right le_dec]. rewrite <- IH. reflexivity. Qed.

Lemma take_app chunk rest n : length chunk = n -> take n (chunk ++ rest) = Ok (chunk, rest).
Proof.
  intros <-. unfold take. rewrite app_length.
  replace (length chunk <=? length chunk + length rest)%nat with true by (symmetry; apply Nat.leb_le; lia).
  rewrite firstn_app_exact, skipn_app_exact. reflexivity.
Qed.
Lemma take_short n bs : (length bs < n)%nat -> take n bs = Err StreamError.
Proof. intros H. unfold take. replace (n <=? length bs)%nat with false; [reflexivity|]. symmetry. apply Nat.leb_gt. exact H. Qed.

Definition ok_err {A} (r : res A) : Prop := exists e, r = Err e /\ e <> StopFieldError.
Definition an_err {A} (k : cell) (r : res A) : Prop :=
  exists e, r = Err e /\ (c_fixed k = true -> e <> StopFieldError).
Lemma ok_an A k (r : res A) : ok_err r -> an_err k r.
Proof. intros (e & -> & H). exists e. split; [reflexivity|]. intros _. exact H. Qed.

Lemma cell_prim (P : ctx -> Prop) c k :
  (forall cx bs, P cx -> is_bytes bs -> (length bs < c_size k)%nat -> ok_err (cparse c cx bs)) ->
  (forall cx chunk rest, P cx -> is_bytes chunk -> length chunk = c_size k ->
     if c_reads k chunk
     then exists v, cparse c cx (chunk ++ rest) = Ok (v, rest) /\
            forall cx', P cx' -> built k chunk (cbuild c cx' v)
     else an_err k (cparse c cx (chunk ++ rest))) ->
  cell_rt P c k.
Proof.
  intros H1 H2 cx bs Hcx Hbs. unfold fits.
  destruct (Nat.leb_spec (c_size k) (length bs)) as [Hl|Hl]; cbn [andb].
  - specialize (H2 cx (firstn (c_size k) bs) (skipn (c_size k) bs) Hcx (is_bytes_firstn _ _ Hbs)).
    rewrite firstn_skipn in H2. apply H2. apply firstn_length_le. exact Hl.
  - apply ok_an, H1; assumption.
Qed.

(* an adapter on top of a cell that reads any bytes *)
Section Adapter.
  Variable P : ctx -> Prop.

  Lemma cell_uint n : cell_rt P (c_uint n) (any n).
  Proof.
    apply cell_prim; cbn [any c_size c_reads c_ok c_fixed].
    - intros cx bs _ _ Hl. cbn [c_uint cparse]. rewrite take_short by exact Hl.
      eexists; split; [reflexivity|discriminate].
    - intros cx chunk rest _ Hb Hl. cbn [c_uint cparse]. rewrite (take_app _ _ n Hl). cbn [bind].
      eexists. split; [reflexivity|]. intros cx' _. cbn [built c_uint cbuild as_int].
      pose proof (le_dec_bound _ Hb) as B. rewrite Hl in B.
      replace ((0 <=? le_dec chunk) && (le_dec chunk <? 256 ^ Z.of_nat n)) with true by lia.
      rewrite <- Hl, (le_enc_dec _ Hb). cbn [any c_size c_ok]. split; [reflexivity|]. split; reflexivity.
  Qed.

  Lemma cell_sint n : (0 < n)%nat -> cell_rt P (c_sint n) (any n).
  Proof.
    intros Hn. apply cell_prim; cbn [any c_size c_reads c_ok c_fixed].
    - intros cx bs _ _ Hl. cbn [c_sint cparse]. rewrite take_short by exact Hl.
      eexists; split; [reflexivity|discriminate].
    - intros cx chunk rest _ Hb Hl. cbn [c_sint cparse]. rewrite (take_app _ _ n Hl). cbn [bind].
      eexists. split; [reflexivity|]. intros cx' _. cbn [built c_sint cbuild as_int].
      pose proof (le_dec_bound _ Hb) as B. rewrite Hl in B.
      pose proof (to_signed_range n _ B) as R.
      replace ((- 256 ^ Z.of_nat n <=? 2 * to_signed n (le_dec chunk))
               && (2 * to_signed n (le_dec chunk) <? 256 ^ Z.of_nat n)) with true by lia.
      rewrite <- Hl, (le_enc_signed _ Hb). cbn [any c_size c_ok]. split; [reflexivity|]. split; reflexivity.
  Qed.

  Lemma cell_bytes n : cell_rt P (Bytes n) (any n).
  Proof.
    apply cell_prim; cbn [any c_size c_reads c_ok c_fixed].
    - intros cx bs _ _ Hl. cbn [Bytes cparse]. rewrite take_short by exact Hl.
      eexists; split; [reflexivity|discriminate].
    - intros cx chunk rest _ Hb Hl. cbn [Bytes cparse]. rewrite (take_app _ _ n Hl). cbn [bind].
      eexists. split; [reflexivity|]. intros cx' _. cbn [built Bytes cbuild].
      replace (length chunk =? n)%nat with true by (symmetry; apply Nat.eqb_eq; exact Hl).
      cbn [any c_size c_ok]. split; [exact Hl|]. split; reflexivity.
  Qed.

  Lemma cell_f64 : cell_rt P Float64l (any 8).
  Proof.
    apply cell_prim; cbn [any c_size c_reads c_ok c_fixed].
    - intros cx bs _ _ Hl. cbn [Float64l cparse]. rewrite take_short by exact Hl.
      eexists; split; [reflexivity|discriminate].
    - intros cx chunk rest _ Hb Hl. cbn [Float64l cparse]. rewrite (take_app _ _ 8 Hl). cbn [bind].
      eexists. split; [reflexivity|]. intros cx' _. cbn [built Float64l cbuild as_float].
      assert (E : le_enc 8 (le_dec chunk) = chunk) by (rewrite <- Hl; apply le_enc_dec; exact Hb).
      rewrite E. cbn [any c_size c_ok]. split; [exact Hl|]. split; reflexivity.
  Qed.

  Lemma is_snan32_spec b : is_snan32 b = f32_snan (u_le b).
  Proof. unfold is_snan32, f32_snan. set (x := u_le b). clearbody x. lia. Qed.

  Lemma cell_f32 : cell_rt P Float32l c_f32.
  Proof.
    apply cell_prim; cbn [c_f32 c_size c_reads c_ok c_fixed].
    - intros cx bs _ _ Hl. cbn [Float32l cparse]. rewrite take_short by exact Hl.
      eexists; split; [reflexivity|discriminate].
    - intros cx chunk rest _ Hb Hl. cbn [Float32l cparse]. rewrite (take_app _ _ 4 Hl). cbn [bind].
      eexists. split; [reflexivity|]. intros cx' _. cbn [built Float32l cbuild as_float].
      pose proof (le_dec_bound _ Hb) as B. rewrite Hl in B.
      change (256 ^ Z.of_nat 4) with (2 ^ 32) in B.
      rewrite (f32_roundtrip _ B). cbn [c_size c_f32 c_ok].
      split; [apply le_enc_length|].
change (c_ok c_f32 chunk) with (negb (is_snan32 chunk)).       rewrite (is_snan32_spec chunk). rewrite (u_le_dec chunk).
      destruct (f32_snan (le_dec chunk)) eqn:E; cbn [negb].
      + split; [|discriminate]. intros H. exfalso.
        apply (f_equal le_dec) in H. rewrite le_dec_enc in H; [lia|].
        change (256 ^ Z.of_nat 4) with (2 ^ 32).
        unfold f32_snan in E. lia.
      + rewrite <- Hl, (le_enc_dec _ Hb). split; reflexivity.
  Qed.

  Lemma cell_flag : cell_rt P Flag c_flag.
  Proof.
    apply cell_prim; cbn [c_flag c_size c_reads c_ok c_fixed].
    - intros cx bs _ _ Hl. cbn [Flag cparse]. rewrite take_short by exact Hl.
      eexists; split; [reflexivity|discriminate].
    - intros cx chunk rest _ Hb Hl. cbn [Flag cparse]. rewrite (take_app _ _ 1 Hl). cbn [bind].
      eexists. split; [reflexivity|]. intros cx' _. cbn [built Flag cbuild truthy].
      destruct chunk as [|b [|]]; try discriminate. apply is_bytes_cons in Hb. destruct Hb as [Hb _].
      unfold is_byte in Hb. cbn [c_size c_flag c_ok length le_dec u_le fold_right].
      split; [reflexivity|].
      destruct (Z.eqb_spec (b + 256 * 0) 0); cbn [negb].
      + split; [intros [= <-]; reflexivity|]. intros _. f_equal. lia.
      + split; [intros [= <-]; reflexivity|]. intros H. f_equal. lia.
  Qed.

  Lemma ok_bool4 b : c_ok c_bool4 b = (le_dec b <? 2).
  Proof. rewrite <- u_le_dec. reflexivity. Qed.

  Lemma cell_bool4 : cell_rt P FourByteBool c_bool4.
  Proof.
    apply cell_prim.
    - intros cx bs _ _ Hl. cbn [FourByteBool Adapter Int32ul c_uint cparse]. rewrite take_short by exact Hl.
      eexists; split; [reflexivity|discriminate].
    - intros cx chunk rest _ Hb Hl. cbn [c_bool4 c_reads]. cbn [FourByteBool Adapter Int32ul c_uint cparse].
      rewrite (take_app _ _ 4 Hl). cbn [bind].
      eexists. split; [reflexivity|]. intros cx' _. unfold built. rewrite ok_bool4.
      cbn [FourByteBool Adapter Int32ul c_uint cbuild truthy py_int_of as_int bind].
      pose proof (le_dec_bound _ Hb) as B. change (length chunk = 4)%nat in Hl. rewrite Hl in B.
      change (256 ^ Z.of_nat 4) with (2 ^ 32) in *.
      assert (E4 : le_enc 4 (le_dec chunk) = chunk) by (rewrite <- Hl; apply le_enc_dec; exact Hb).
      destruct (Z.eqb_spec (le_dec chunk) 0) as [E|E]; cbn [negb]; zlit; cbn [andb].
      + split; [reflexivity|]. split; [intros _; lia|]. intros _. rewrite <- E. exact E4.
      + split; [reflexivity|]. split.
        * intros <-. reflexivity.
        * intros H. replace 1 with (le_dec chunk) by lia. exact E4.
  Qed.
End Adapter.

(* constructs of a fixed size that read any bytes *)
Definition plain (c : con) (n : nat) (D : bytes -> val) : Prop :=
  (forall cx bs, is_bytes bs -> (length bs < n)%nat -> ok_err (cparse c cx bs)) /\
  (forall cx chunk rest, is_bytes chunk -> length chunk = n ->
     cparse c cx (chunk ++ rest) = Ok (D chunk, rest)) /\
  (forall cx chunk, is_bytes chunk -> length chunk = n -> cbuild c cx (D chunk) = Ok chunk).

Lemma plain_uint n : plain (c_uint n) n (fun b => VInt (le_dec b)).
Proof.
  repeat split.
  - intros cx bs _ Hl. cbn [c_uint cparse]. rewrite take_short by exact Hl.
    eexists; split; [reflexivity|discriminate].
  - intros cx chunk rest Hb Hl. cbn [c_uint cparse]. rewrite (take_app _ _ n Hl). reflexivity.
  - intros cx chunk Hb Hl. cbn [c_uint cbuild as_int].
    pose proof (le_dec_bound _ Hb) as B. rewrite Hl in B.
    replace ((0 <=? le_dec chunk) && (le_dec chunk <? 256 ^ Z.of_nat n)) with true by lia.
    rewrite <- Hl, (le_enc_dec _ Hb). reflexivity.
Qed.
Lemma plain_sint n : (0 < n)%nat -> plain (c_sint n) n (fun b => VInt (to_signed n (le_dec b))).
Proof.
  intros Hn. repeat split.
  - intros cx bs _ Hl. cbn [c_sint cparse]. rewrite take_short by exact Hl.
    eexists; split; [reflexivity|discriminate].
  - intros cx chunk rest Hb Hl. cbn [c_sint cparse]. rewrite (take_app _ _ n Hl). reflexivity.
  - intros cx chunk Hb Hl. cbn [c_sint cbuild as_int].
    pose proof (le_dec_bound _ Hb) as B. rewrite Hl in B.
    pose proof (to_signed_range n _ B) as R.
    replace ((- 256 ^ Z.of_nat n <=? 2 * to_signed n (le_dec chunk))
             && (2 * to_signed n (le_dec chunk) <? 256 ^ Z.of_nat n)) with true by lia.
    rewrite <- Hl, (le_enc_signed _ Hb). reflexivity.
Qed.
Lemma plain_bytes n : plain (Bytes n) n (fun b => VBytes b).
Proof.
  repeat split.
  - intros cx bs _ Hl. cbn [Bytes cparse]. rewrite take_short by exact Hl.
    eexists; split; [reflexivity|discriminate].
  - intros cx chunk rest Hb Hl. cbn [Bytes cparse]. rewrite (take_app _ _ n Hl). reflexivity.
  - intros cx chunk Hb Hl. cbn [Bytes cbuild].
    replace (length chunk =? n)%nat with true by (symmetry; apply Nat.eqb_eq; exact Hl). reflexivity.
Qed.
Lemma plain_array2 n c D : plain c n D ->
  plain (Array 2 c) (n + n) (fun b => VList [D (firstn n b); D (skipn n b)]).
Proof.
  intros (H1 & H2 & H3). repeat split.
  - intros cx bs Hb Hl. cbn [Array cparse array_parse bind].
    destruct (Nat.lt_ge_cases (length bs) n) as [Hs|Hs].
    + destruct (H1 (cx_with_index cx 0) bs Hb Hs) as (e & -> & He). cbn [bind].
      eexists; split; [reflexivity|exact He].
    + rewrite <- (firstn_skipn n bs).
      rewrite H2; [|apply is_bytes_firstn; exact Hb|apply firstn_length_le; lia]. cbn [bind].
      destruct (H1 (cx_with_index cx (0 + 1)) (skipn n bs)) as (e & -> & He);
        [apply is_bytes_skipn; exact Hb|rewrite skipn_length; lia|].
      cbn [bind]. eexists; split; [reflexivity|exact He].
  - intros cx chunk rest Hb Hl. cbn [Array cparse array_parse].
    rewrite <- (firstn_skipn n chunk) at 1. rewrite <- app_assoc.
    rewrite H2; [|apply is_bytes_firstn; exact Hb|apply firstn_length_le; lia]. cbn [bind].
    rewrite H2; [|apply is_bytes_skipn; exact Hb|rewrite skipn_length; lia]. reflexivity.
  - intros cx chunk Hb Hl. cbn [Array cbuild seq_of bind length Nat.eqb items_build].
    rewrite H3; [|apply is_bytes_firstn; exact Hb|apply firstn_length_le; lia]. cbn [bind].
    rewrite H3; [|apply is_bytes_skipn; exact Hb|rewrite skipn_length; lia]. cbn [bind].
    rewrite app_nil_r, firstn_skipn. reflexivity.
Qed.

(* an adapter that gives back what it was given *)
Lemma cell_adapter (P : ctx -> Prop) c n D dec enc :
  plain c n D ->
  (forall cx chunk, P cx -> is_bytes chunk -> length chunk = n ->
     exists w, dec cx (D chunk) = Ok w /\ forall cx', P cx' -> enc cx' w = Ok (D chunk)) ->
  cell_rt P (Adapter dec enc c) (any n).
Proof.
  intros (H1 & H2 & H3) HA. apply cell_prim; cbn [any c_size c_reads].
  - intros cx bs _ Hb Hl. cbn [Adapter cparse].
    destruct (H1 cx bs Hb Hl) as (e & -> & He). cbn [bind]. eexists; split; [reflexivity|exact He].
  - intros cx chunk rest Hcx Hb Hl. cbn [Adapter cparse]. rewrite H2 by assumption. cbn [bind].
    destruct (HA cx chunk Hcx Hb Hl) as (w & -> & Hw). cbn [bind].
    exists w. split; [reflexivity|]. intros cx' Hcx'. unfold built. cbn [Adapter cbuild].
    rewrite Hw by exact Hcx'. cbn [bind]. rewrite H3 by assumption.
    cbn [any c_size c_ok]. split; [exact Hl|]. split; reflexivity.
Qed.

Lemma cell_stdenum P n : cell_rt P (StdEnum (c_uint n)) (any n).
Proof.
  apply (cell_adapter P _ _ _ _ _ (plain_uint n)). intros cx chunk _ _ _.
  cbn [as_int]. eexists. split; [reflexivity|]. reflexivity.
Qed.
Lemma cell_stdenum_s P n : (0 < n)%nat -> cell_rt P (StdEnum (c_sint n)) (any n).
Proof.
  intros Hn. apply (cell_adapter P _ _ _ _ _ (plain_sint n Hn)). intros cx chunk _ _ _.
  cbn [as_int]. eexists. split; [reflexivity|]. reflexivity.
Qed.

Lemma intflag_norm_nonneg py m v : 0 <= v -> intflag_norm py m v = v.
Proof.
  intros H. unfold intflag_norm. destruct py; [|reflexivity].
  replace (v <? 0) with false by lia.
  match goal with |- context [if ?c then v else v] => destruct c end;
  replace (v <? 0) with false by lia; reflexivity.
Qed.

Lemma cell_stdflag P m n : cell_rt P (StdFlag m (c_uint n)) (any n).
Proof.
  apply (cell_adapter P _ _ _ _ _ (plain_uint n)). intros cx chunk _ Hb _.
  cbn [as_int]. eexists. split; [reflexivity|].
  rewrite intflag_norm_nonneg by apply (le_dec_bound _ Hb). reflexivity.
Qed.

Lemma cell_list2tuple P n : cell_rt P (List2Tuple (Array 2 (c_uint n))) (any (n + n)).
Proof.
  apply (cell_adapter P _ _ _ _ _ (plain_array2 _ _ _ (plain_uint n))).
  intros cx chunk _ _ _. eexists. split; [reflexivity|]. reflexivity.
Qed.
Lemma cell_u16tuple P : cell_rt P U16Tuple (any 4).
Proof.
  apply (cell_adapter P _ _ _ _ _ (plain_array2 _ _ _ (plain_uint 2))).
  intros cx chunk _ _ _. eexists. split; [reflexivity|]. reflexivity.
Qed.

Definition enum_sane (m : list (pystr * Z)) : bool :=
  forallb (fun p => match enum_value m (fst p) with Some z => z =? snd p | None => false end) m.
Lemma enum_sane_spec m z s : enum_sane m = true -> enum_name m z = Some s -> enum_value m s = Some z.
Proof.
  intros H E. unfold enum_sane in H. rewrite forallb_forall in H.
  assert (Hin : In (s, z) m).
  { clear H. induction m as [|[n v] m IH]; [discriminate|]. cbn [enum_name] in E.
    destruct (Z.eqb_spec v z) as [->|]; [injection E as ->; left; reflexivity|right; apply IH; exact E]. }
  specialize (H _ Hin). cbn [fst snd] in H. destruct (enum_value m s); [|discriminate]. f_equal. lia.
Qed.
Lemma cell_enum P m n : enum_sane m = true -> cell_rt P (Enum m (c_uint n)) (any n).
Proof.
  intros Hm. apply (cell_adapter P _ _ _ _ _ (plain_uint n)). intros cx chunk _ _ _.
  cbn [as_int]. eexists. split; [reflexivity|]. intros cx' _.
  destruct (enum_name m (le_dec chunk)) as [s|] eqn:E; cbn [as_int]; [|reflexivity].
  rewrite (enum_sane_spec _ _ _ Hm E). reflexivity.
Qed.

(* colours: every channel byte survives c / 255 and round(x * 255) *)
Lemma chan_roundtrip c : 0 <= c < 256 -> chan_enc (VFlt (int_div c 255)) = Ok c.
Proof.
  intros H.
  assert (F : forallb (fun n => match chan_enc (VFlt (int_div (Z.of_nat n) 255)) with
                                | Ok z => z =? Z.of_nat n | Err _ => false end) (seq 0 256) = true)
    by (vm_compute; reflexivity).
  rewrite forallb_forall in F. specialize (F (Z.to_nat c)).
  rewrite Z2Nat.id in F by lia.
  assert (I : In (Z.to_nat c) (seq 0 256)) by (apply in_seq; lia).
  specialize (F I). destruct (chan_enc (VFlt (int_div c 255))); [|discriminate]. f_equal. lia.
Qed.
Lemma cell_color P : cell_rt P Color (any 4).
Proof.
  apply (cell_adapter P _ _ _ _ _ (plain_bytes 4)). intros cx chunk _ Hb Hl.
  replace (length chunk =? 4)%nat with true by (symmetry; apply Nat.eqb_eq; exact Hl).
  eexists. split; [reflexivity|]. intros cx' _. cbn [rgba_dec].
  assert (E : mapr chan_enc (map (fun c => VFlt (int_div c 255)) chunk) = Ok chunk).
  { clear Hl. induction Hb as [|c b Hc Hb IH]; [reflexivity|].
    cbn [map mapr]. rewrite (chan_roundtrip c Hc). cbn [bind]. rewrite IH. reflexivity. }
  rewrite E. reflexivity.
Qed.

(* musical times *)
Lemma musical_ticks k : 0 <= k < 48 ->
  match f_of_int (k * 5) with Some t => f_trunc (f_mul t f_0_2) | None => Err OverflowError end = Ok k.
Proof.
  intros H.
  assert (F : forallb (fun n =>
     match match f_of_int (Z.of_nat n * 5) with
           | Some t => f_trunc (f_mul t f_0_2) | None => Err OverflowError end with
     | Ok z => z =? Z.of_nat n | Err _ => false end) (seq 0 48) = true) by (vm_compute; reflexivity).
  rewrite forallb_forall in F. specialize (F (Z.to_nat k)).
  rewrite Z2Nat.id in F by lia.
  assert (I : In (Z.to_nat k) (seq 0 48)) by (apply in_seq; lia).
  specialize (F I).
  match goal with |- ?x = _ => destruct x; [|discriminate] end. f_equal. lia.
Qed.
Lemma musical_roundtrip z : 
  musical_enc (z / 768) (z mod 768 / 48) (z mod 768 mod 48 * 5) = Ok z.
Proof.
  unfold musical_enc.
  assert (H : 0 <= z mod 768 mod 48 < 48) by (apply Z.mod_pos_bound; lia).
  pose proof (musical_ticks _ H) as T.
  destruct (f_of_int (z mod 768 mod 48 * 5)); [|discriminate]. rewrite T. cbn [bind]. f_equal. lia.
Qed.
Lemma cell_musical P n : cell_rt P (LinearMusical (c_uint n)) (any n).
Proof.
  apply (cell_adapter P _ _ _ _ _ (plain_uint n)). intros cx chunk _ _ _.
  cbn [as_int musical_dec]. eexists. split; [reflexivity|]. intros cx' _. cbn [musical_dec as_int].
  rewrite musical_roundtrip. reflexivity.
Qed.

(* If: a field that is there or not depending on the payload size *)
Lemma cell_if_true (P : ctx -> Prop) cond c k : (forall cx, P cx -> cond cx = true) -> cell_rt P c k -> cell_rt P (If_ cond c) k.
Proof.
  intros HP Hc cx bs Hcx Hbs. specialize (Hc cx bs Hcx Hbs). cbn [If_ cparse].
  rewrite HP by exact Hcx. destruct (fits k bs); [|exact Hc].
  destruct Hc as (v & Ev & Hb). exists v. split; [exact Ev|]. intros cx' Hcx'.
  cbn [If_ cbuild]. rewrite HP by exact Hcx'. apply Hb. exact Hcx'.
Qed.
Lemma cell_if_false (P : ctx -> Prop) cond c : (forall cx, P cx -> cond cx = false) -> cell_rt P (If_ cond c) (any 0).
Proof.
  intros HP cx bs Hcx Hbs. unfold fits. cbn [any c_size c_reads Nat.leb andb If_ cparse].
  rewrite HP by exact Hcx. eexists. split; [reflexivity|]. intros cx' Hcx'.
  cbn [If_ cbuild]. rewrite HP by exact Hcx'. split; [reflexivity|]. split; reflexivity.
Qed.

(* cells whose encoding may fail *)
Lemma cell_adapter_gen (P : ctx -> Prop) c k D dec enc :
  plain c (c_size k) D -> c_fixed k = false ->
  (forall cx chunk, P cx -> is_bytes chunk -> length chunk = c_size k ->
     if c_reads k chunk
     then exists w, dec cx (D chunk) = Ok w /\
            forall cx', P cx' -> built k chunk (cbuild (Adapter dec enc c) cx' w)
     else an_err k (dec cx (D chunk))) ->
  cell_rt P (Adapter dec enc c) k.
Proof.
  intros (H1 & H2 & H3) Hf HA. apply cell_prim.
  - intros cx bs _ Hb Hl. cbn [Adapter cparse].
    destruct (H1 cx bs Hb Hl) as (e & -> & He). cbn [bind]. eexists; split; [reflexivity|exact He].
  - intros cx chunk rest Hcx Hb Hl. specialize (HA cx chunk Hcx Hb Hl).
    destruct (c_reads k chunk).
    + destruct HA as (w & Ew & Hw). exists w. split; [|exact Hw].
      cbn [Adapter cparse]. rewrite H2 by assumption. cbn [bind]. rewrite Ew. reflexivity.
    + destruct HA as (e & Ee & He). exists e. split; [|exact He].
      cbn [Adapter cparse]. rewrite H2 by assumption. cbn [bind]. rewrite Ee. reflexivity.
Qed.

(* what a signed / unsigned integer construct writes *)
Lemma built_uint n k chunk z cx :
  is_bytes chunk -> length chunk = n -> c_size k = n -> c_fixed k = false ->
  c_ok k chunk = (z =? le_dec chunk) -> built k chunk (cbuild (c_uint n) cx (VInt z)).
Proof.
  intros Hb Hl Hs Hf Hok. unfold built. cbn [c_uint cbuild as_int].
  pose proof (le_dec_bound _ Hb) as B. rewrite Hl in B.
  destruct ((0 <=? z) && (z <? 256 ^ Z.of_nat n)) eqn:E.
  - split; [rewrite le_enc_length; congruence|]. rewrite Hok. split.
    + intros H. apply (f_equal le_dec) in H. rewrite le_dec_enc in H; lia.
    + intros H. replace z with (le_dec chunk) by lia. rewrite <- Hl. apply le_enc_dec. exact Hb.
  - split; [exact Hf|]. rewrite Hok. lia.
Qed.
Lemma built_sint n k chunk z cx : (0 < n)%nat ->
  is_bytes chunk -> length chunk = n -> c_size k = n -> c_fixed k = false ->
  c_ok k chunk = (z =? to_signed n (le_dec chunk)) -> built k chunk (cbuild (c_sint n) cx (VInt z)).
Proof.
  intros Hn Hb Hl Hs Hf Hok. unfold built. cbn [c_sint cbuild as_int].
  pose proof (le_dec_bound _ Hb) as B. rewrite Hl in B.
  pose proof (to_signed_range n _ B) as R.
  destruct ((- 256 ^ Z.of_nat n <=? 2 * z) && (2 * z <? 256 ^ Z.of_nat n)) eqn:E.
  - split; [rewrite le_enc_length; congruence|]. rewrite Hok. split.
    + intros H. apply (f_equal (fun b => to_signed n (le_dec b))) in H.
      rewrite signed_dec_enc in H; lia.
    + intros H. replace z with (to_signed n (le_dec chunk)) by lia. rewrite <- Hl. apply le_enc_signed. exact Hb.
  - split; [exact Hf|]. rewrite Hok. lia.
Qed.

Lemma s_le4_spec b : s_le4 b = to_signed 4 (le_dec b).
Proof.
  unfold s_le4, to_signed. rewrite <- (u_le_dec b). change (256 ^ Z.of_nat 4) with (2 ^ 32).
  destruct (Z.ltb_spec (u_le b) (2 ^ 31)), (Z.ltb_spec (2 * u_le b) (2 ^ 32)); lia.
Qed.

Lemma intflag_norm_neg m v : 0 < m -> v < 0 -> 0 <= intflag_norm true m v.
Proof.
  intros Hm Hv. unfold intflag_norm.
  replace (v <? 0) with true by lia.
  replace (Z.abs v =? 0) with false by lia.
  assert (Hl : - v < 2 ^ (Z.log2 (Z.abs v) + 1)).
  { replace (Z.log2 (Z.abs v) + 1) with (Z.succ (Z.log2 (Z.abs v))) by lia.
    pose proof (Z.log2_spec (Z.abs v) ltac:(lia)). lia. }
  set (p := 2 ^ (Z.log2 (Z.abs v) + 1)) in *. clearbody p.
  assert (Ha : 1 <= 2 ^ (Z.log2 m + 1)) by (pose proof (Z.pow_pos_nonneg 2 (Z.log2 m + 1)); pose proof (Z.log2_nonneg m); lia).
  set (a := 2 ^ (Z.log2 m + 1) - 1) in *. clearbody a.
  destruct (negb ((- a - 1 <=? v) && (v <=? a))) eqn:E1; cbn [orb].
  - replace (Z.max (a + 1) p + v <? 0) with false by lia. lia.
  - destruct (negb (Z.land v (Z.lxor a m) =? 0)).
    + replace (Z.max (a + 1) p + v <? 0) with false by lia. lia.
    + replace (v <? 0) with true by lia. lia.
Qed.

Lemma cell_envflags en L w m : 0 < m -> cell_rt (cxp en L w) (StdFlag m Int32sl) (c_envflags en).
Proof.
  intros Hm. apply (cell_adapter_gen _ _ (c_envflags en) _ _ _ (plain_sint 4 ltac:(lia)) eq_refl).
  intros cx chunk Hcx Hb Hl. cbn [c_envflags c_reads]. cbn [as_int].
  eexists. split; [reflexivity|]. intros cx' Hcx'. cbn [Adapter cbuild bind].
  apply built_sint; try assumption; try reflexivity; [lia|].
  destruct Hcx as [Hpy _].
  cbn [c_envflags c_ok]. rewrite u_le_dec. rewrite <- Hpy.
  change (c_size (c_envflags en)) with 4%nat in Hl.
  pose proof (le_dec_bound _ Hb) as B. rewrite Hl in B. unfold to_signed.
  change (256 ^ Z.of_nat 4) with (2 ^ 32) in *. 
  destruct (Z.ltb_spec (2 * le_dec chunk) (2 ^ 32)) as [H|H].
  - rewrite intflag_norm_nonneg by lia. lia.
  - destruct (cx_py311 cx).
    + pose proof (intflag_norm_neg m (le_dec chunk - 2 ^ 32) Hm ltac:(lia)). cbn [negb orb]. lia.
    + cbn [negb orb]. unfold intflag_norm. lia.
Qed.

Lemma cell_log2 en L w : cell_rt (cxp en L w) (Log2 10000 Int32sl) (c_log2 en).
Proof.
  apply (cell_adapter_gen _ _ (c_log2 en) _ _ _ (plain_sint 4 ltac:(lia)) eq_refl).
  intros cx chunk (Hpy & Hlog & Hexp & _) Hb Hl. cbn [c_log2 c_reads as_int].
  rewrite (s_le4_spec chunk), Hexp.
  destruct (en_exp2 en (int_div (to_signed 4 (le_dec chunk)) 10000)) as [x|e] eqn:E; cbn [is_ok bind].
  2:{ exists e. split; [reflexivity|]. discriminate. }
  eexists. split; [reflexivity|]. intros cx' (Hpy' & Hlog' & Hexp' & _).
  cbn [Adapter cbuild bind as_float]. rewrite Hlog'.
  assert (Hok : c_ok (c_log2 en) chunk =
    match en_log2 en x with
    | Ok l => match f_trunc (f_mul 4666723172467343360 l) with
              | Ok z => z =? to_signed 4 (le_dec chunk) | Err _ => false end
    | Err _ => false end).
  { cbn [c_log2 c_ok]. rewrite (s_le4_spec chunk), E. reflexivity. }
  replace (f_of_int 10000) with (Some 4666723172467343360) by (vm_compute; reflexivity).
  destruct (en_log2 en x) as [l|e]; cbn [bind]; [|split; [reflexivity|exact Hok]].
  destruct (f_trunc (f_mul 4666723172467343360 l)) as [z|e]; cbn [bind]; [|split; [reflexivity|exact Hok]].
  apply built_sint; try assumption; try reflexivity. lia.
Qed.

Lemma le_enc_pair a b a' b' :
  is_bytes a -> is_bytes b -> length a = 2%nat -> length b = 2%nat ->
  0 <= a' < 65536 -> 0 <= b' < 65536 ->
  (le_enc 2 a' ++ le_enc 2 b' = a ++ b <-> a' = le_dec a /\ b' = le_dec b).
Proof.
  intros Ha Hb La Lb Ra Rb. split.
  - intros E. apply app_inj_len in E; [|rewrite le_enc_length; congruence]. destruct E as [E1 E2].
    apply (f_equal le_dec) in E1, E2. rewrite le_dec_enc in E1, E2 by (change (256 ^ Z.of_nat 2) with 65536; lia).
    split; assumption.
  - intros [-> ->]. f_equal; [rewrite <- La|rewrite <- Lb]; apply le_enc_dec; assumption.
Qed.

Lemma build_pair16 cx a b : 0 <= a < 65536 -> 0 <= b < 65536 ->
  cbuild (Array 2 Int16ul) cx (VList [VInt a; VInt b]) = Ok (le_enc 2 a ++ le_enc 2 b).
Proof.
  intros Ha Hb. cbn [Array cbuild seq_of bind length Nat.eqb items_build Int16ul c_uint as_int].
  change (256 ^ Z.of_nat 2) with 65536.
  replace ((0 <=? a) && (a <? 65536)) with true by lia.
  replace ((0 <=? b) && (b <? 65536)) with true by lia.
  cbn [bind]. rewrite app_nil_r. reflexivity.
Qed.

Lemma cell_lognormal en L w :
  cell_rt (cxp en L w) (LogNormal 0 61440 (Array 2 Int16ul)) (c_lognormal en).
Proof.
  apply (cell_adapter_gen _ _ (c_lognormal en) _ _ _ (plain_array2 2 _ _ (plain_uint 2)) eq_refl).
  intros cx chunk (Hpy & Hlog & Hexp & _) Hb Hl. cbn [c_lognormal c_reads as_int].
  change (c_size (c_lognormal en)) with 4%nat in Hl.
  assert (Hb1 := is_bytes_firstn 2 chunk Hb). assert (Hb2 := is_bytes_skipn 2 chunk Hb).
  assert (Hl1 : length (firstn 2 chunk) = 2%nat) by (apply firstn_length_le; lia).
  assert (Hl2 : length (skipn 2 chunk) = 2%nat) by (rewrite skipn_length; lia).
  pose proof (le_dec_bound _ Hb1) as B1. rewrite Hl1 in B1.
  pose proof (le_dec_bound _ Hb2) as B2. rewrite Hl2 in B2.
  change (256 ^ Z.of_nat 2) with 65536 in *.
  rewrite (u_le_dec (firstn 2 chunk)), (u_le_dec (skipn 2 chunk)).
  assert (Hok : c_ok (c_lognormal en) chunk =
     if le_dec (firstn 2 chunk) =? 0 then le_dec (skipn 2 chunk) =? 0
     else match lognormal_value en (le_dec (firstn 2 chunk)) with
          | Ok x => if negb (f_le 0 x && f_le x 4607182418800017408) then false
                    else if f_is_zero x then false
                    else match lognormal_index en x with
                         | Ok k => k =? le_dec (firstn 2 chunk) | Err _ => false end
          | Err _ => false end).
  { cbn [c_lognormal c_ok]. rewrite (u_le_dec (firstn 2 chunk)), (u_le_dec (skipn 2 chunk)). reflexivity. }
  set (n := le_dec (firstn 2 chunk)) in *. set (m := le_dec (skipn 2 chunk)) in *.
  assert (Hpair : forall a b, 0 <= a < 65536 -> 0 <= b < 65536 ->
            (le_enc 2 a ++ le_enc 2 b = chunk <-> a = n /\ b = m)).
  { intros a b Ha Hb'. rewrite <- (firstn_skipn 2 chunk) at 1.
    apply le_enc_pair; assumption. }
  destruct (Z.eqb_spec n 0) as [E0|E0]; cbn [orb].
  - eexists. split; [reflexivity|]. intros cx' _. cbn [Adapter cbuild as_float].
    change (f_le f_0 f_0 && f_le f_0 f_1) with true. change (f_is_zero f_0) with true. cbn [negb bind].
    rewrite build_pair16 by lia. split; [reflexivity|].
    rewrite Hpair by lia. rewrite Hok. lia.
  - unfold lognormal_value in *. rewrite Hexp.
    destruct (Z.eqb_spec m 63) as [E63|E63]; cbn [negb andb].
    2:{ eexists. split; [reflexivity|]. discriminate. }
    destruct (en_exp2 en (int_div n 4096)) as [p|e]; cbn [bind is_ok].
    2:{ eexists. split; [reflexivity|]. discriminate. }
    unfold f_0, f_1, f_2m15 in *.
    match goal with |- exists w, Ok (VFlt ?x) = Ok w /\ _ => set (x0 := x) in *; exists (VFlt x0) end.
    split; [reflexivity|]. intros cx' (Hpy' & Hlog' & Hexp' & _). cbn [Adapter cbuild as_float].
    destruct (negb (f_le 0 x0 && f_le x0 4607182418800017408)) eqn:Er; cbn [bind].
    { split; [reflexivity|exact Hok]. }
    destruct (f_is_zero x0) eqn:Ez; cbn [bind].
    { rewrite build_pair16 by lia. split; [reflexivity|].
      rewrite Hpair by lia. rewrite Hok. split; [lia|discriminate]. }
    unfold lognormal_index in Hok. rewrite Hlog'.
    destruct (en_log2 en x0) as [l|e]; cbn [bind]; [|split; [reflexivity|exact Hok]].
    unfold f_4096, f_15.
    destruct (f_trunc (f_mul 4661225614328463360 (f_add l 4624633867356078080))) as [k|e];
      cbn [bind]; [|split; [reflexivity|exact Hok]].
    rewrite build_pair16 by lia. split; [reflexivity|].
    rewrite Hpair by lia. rewrite Hok. lia.
Qed.

Lemma div_rne_nonneg a b : 0 <= a -> 0 < b -> 0 <= div_rne a b.
Proof.
  intros Ha Hb. unfold div_rne. pose proof (Z.div_pos a b Ha Hb).
  match goal with |- context [if ?c then _ else _] => destruct c end; lia.
Qed.
Lemma f_man_range x : 0 <= f_man x < 2 ^ 52.
Proof. unfold f_man. apply Z.mod_pos_bound. reflexivity. Qed.
Lemma f_mag_range x : 0 <= f_mag x < 2 ^ 53.
Proof. unfold f_mag. pose proof (f_man_range x). destruct (f_exp x =? 0); lia. Qed.

Lemma f64_to_32_range x w : f64_to_32 x = Some w -> 0 <= w < 2 ^ 32.
Proof.
  unfold f64_to_32.
  assert (Hs : b2z (f_sign x) * 2 ^ 31 = 0 \/ b2z (f_sign x) * 2 ^ 31 = 2 ^ 31)
    by (destruct (f_sign x); [right|left]; reflexivity).
  set (s := b2z (f_sign x) * 2 ^ 31) in *. clearbody s.
  destruct (f_is_nan x).
  { intros H. apply Some_inj in H. subst w.
    pose proof (f_man_range x) as Hm.
    assert (H22 : 0 <= f_man x / 2 ^ 29 < 2 ^ 23) by lia.
    rewrite (lor_22 _ H22). destruct (f_man x / 2 ^ 29 <? 2 ^ 22) eqn:E; lia. }
  destruct (f_is_inf x); [intros H; apply Some_inj in H; lia|].
  destruct (f_exp x =? 0); [intros H; apply Some_inj in H; lia|].
  set (te := Z.max (f_e x + 29) (-149)).
  assert (Hq : 0 <= div_rne (f_mag x) (2 ^ (te - f_e x))).
  { apply div_rne_nonneg; [apply f_mag_range|]. apply Z.pow_pos_nonneg; lia. }
  set (q := div_rne (f_mag x) (2 ^ (te - f_e x))) in *. clearbody q.
  destruct (Z.leb_spec (255 * 2 ^ 23) ((te + 149) * 2 ^ 23 + q)) as [H|H]; [discriminate|].
  intros E. apply Some_inj in E. lia.
Qed.

Lemma removelast_app1 A (l : list A) x : removelast (l ++ [x]) = l.
Proof. rewrite removelast_app by discriminate. cbn [removelast]. apply app_nil_r. Qed.

(* the height of an infinity is unreadable *)
Lemma height_inf b w n : f_is_inf (int_div n 100) = true ->
  f64_to_32 (int_div n 100) = Some w -> height_pct b = Ok n -> is_bytes b -> length b = 4%nat ->
  w <> u_le b.
Proof.
  intros Hi Hw Hp Hb Hl Hwb.
  unfold f64_to_32 in Hw.
  replace (f_is_nan (int_div n 100)) with false in Hw
    by (unfold f_is_nan, f_is_inf in *; lia).
  rewrite Hi in Hw. apply Some_inj in Hw.
  unfold height_pct in Hp. rewrite <- Hwb, <- Hw in Hp.
  destruct (f_sign (int_div n 100)); cbn [b2z] in Hp;
    match type of Hp with ?x = _ =>
      let y := eval vm_compute in x in
      assert (Hx : x = y) by (vm_compute; reflexivity); rewrite Hx in Hp; discriminate end.
Qed.

Lemma cell_height P : cell_rt P (HeightAdapter Float32l) c_height.
Proof.
  apply cell_prim.
  - intros cx bs _ Hb Hl. cbn [HeightAdapter Adapter Float32l cparse].
    rewrite take_short by exact Hl. eexists; split; [reflexivity|discriminate].
  - intros cx chunk rest _ Hb Hl. change (c_size c_height) with 4%nat in Hl.
    cbn [HeightAdapter Adapter Float32l cparse]. rewrite (take_app _ _ 4 Hl). cbn [bind as_float].
    assert (Er : c_reads c_height chunk = is_ok (height_pct chunk)) by reflexivity.
    rewrite Er. unfold height_dec.
    assert (Eh : height_pct chunk = f_trunc (f_mul (f32_to_64 (le_dec chunk)) f_100))
      by (rewrite <- (u_le_dec chunk); reflexivity).
    rewrite <- Eh.
    destruct (height_pct chunk) as [n|e] eqn:Ep; cbn [bind is_ok].
    2:{ exists e. split; [reflexivity|discriminate]. }
    eexists. split; [reflexivity|]. intros cx' _. cbn [HeightAdapter Adapter Float32l cbuild].
    unfold height_enc. rewrite removelast_app1, py_int_str.
    assert (Hok : c_ok c_height chunk =
       match f64_to_32 (int_div n 100) with Some w => w =? le_dec chunk | None => false end).
    { cbn [c_ok c_height]. rewrite Ep, (u_le_dec chunk). reflexivity. }
    destruct (f_is_inf (int_div n 100)) eqn:Ei; cbn [bind].
    { split; [reflexivity|]. rewrite Hok.
      destruct (f64_to_32 (int_div n 100)) as [w|] eqn:Ew; [|reflexivity].
      pose proof (height_inf _ _ _ Ei Ew Ep Hb Hl) as H. rewrite (u_le_dec chunk) in H. lia. }
    cbn [as_float].
    destruct (f64_to_32 (int_div n 100)) as [w|] eqn:Ew; [|split; [reflexivity|exact Hok]].
    pose proof (f64_to_32_range _ _ Ew) as Rw.
    split; [apply le_enc_length|]. rewrite Hok. split.
    + intros H. apply (f_equal le_dec) in H. rewrite le_dec_enc in H; [lia|].
      change (256 ^ Z.of_nat 4) with (2 ^ 32). exact Rw.
    + intros H. replace w with (le_dec chunk) by lia. rewrite <- Hl. apply le_enc_dec. exact Hb.
Qed.

(* none_fails *)
Lemma nf_uint n : none_fails (c_uint n). Proof. intros cx. eexists. reflexivity. Qed.
Lemma nf_sint n : none_fails (c_sint n). Proof. intros cx. eexists. reflexivity. Qed.
Lemma nf_bytes n : none_fails (Bytes n). Proof. intros cx. eexists. reflexivity. Qed.
Lemma nf_f32 : none_fails Float32l. Proof. intros cx. eexists. reflexivity. Qed.
Lemma nf_f64 : none_fails Float64l. Proof. intros cx. eexists. reflexivity. Qed.
Lemma nf_adapter dec enc c : (forall cx, exists e, enc cx VNone = Err e) -> none_fails (Adapter dec enc c).
Proof. intros H cx. cbn [Adapter cbuild]. destruct (H cx) as (e & ->). eexists. reflexivity. Qed.
