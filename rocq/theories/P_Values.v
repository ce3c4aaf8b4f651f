(* Colours, musical times, track heights. *)
From Coq Require Import String ZArith List Bool Lia Arith.
From Verif Require Import M_Base M_Float M_Text M_Construct M_Structs M_Events M_Parse M_Tree M_Prop M_Custom.
From Verif Require Import S_Canon S_File S_Domain S_Tree S_Prop S_Layout S_Real.
From Verif Require Import P_Base P_Codec P_Float P_Text P_RT P_Cells P_Round P_Kinds P_Lists P_Payload P_File P_Null P_Save P_Domain.
From Verif Require Import P_TreeBase P_Tree P_TreeEdit P_Prop P_Edit P_Rewrite P_Layout P_Struct P_Records P_EditStruct P_Misfit P_Written.
Import ListNotations.
Open Scope Z_scope.

(* ---------------------------------------------------------------- colours *)

Lemma f_255_int : is_integer f_255 255.
Proof. split; [split; [split|]|]; vm_compute; congruence. Qed.

Lemma chan_near x : finite x -> 0 <= units x <= one -> exists c, chan_enc (VFlt x) = Ok c /\ channel_byte x c.
Proof.
  intros F U. unfold chan_enc. pose proof one_pos as O. destruct f_255_int as [F2 U2].
  assert (BIG : 2 ^ 52 <= one) by (apply Z.pow_le_mono_r; lia).
  assert (Y : exists y, f_mul x f_255 = y /\ finite y /\ 2 ^ 53 * Z.abs (units y - 255 * units x) <= 255 * one).
  { destruct (f_mul_round x f_255 F F2) as (n & d & N0 & D0 & E & ->). eexists. split; [reflexivity|].
    rewrite U2 in E. replace (Z.abs (units x * (255 * one)) * d) with (255 * units x * d * one) in E by nia.
    replace (n * (one * one)) with (n * one * one) in E by ring. apply Z.mul_reg_r in E; [|lia].
    destruct (Z.eq_dec n 0) as [->|NN].
    - assert (ux : units x = 0) by nia. rewrite ux.
      unfold f_round. rewrite Z.eqb_refl. destruct (xorb _ _).
      + split; [split; [split|]; vm_compute; congruence|]. change (units _) with 0. cbn. lia.
      + split; [split; [split|]; vm_compute; congruence|]. change (units _) with 0. cbn. lia.
    - assert (SX : f_sign x = false).
      { destruct (f_sign x) eqn:S; [|reflexivity]. destruct (units_mag x F) as (_ & E0 & S1 & _). specialize (S1 S).
        pose proof (f_mag_range x). pose proof (pow_pos (f_e x + 1074) ltac:(lia)). assert (units x <> 0) by (intros Z0; rewrite Z0 in E; lia). nia. }
      rewrite SX. change (xorb false (f_sign f_255)) with false.
      assert (LT : n < d * 2 ^ 1023).
      { assert (n * one <= 255 * d * one) by nia. assert (n <= 255 * d) by nia.
        assert (255 < 2 ^ 1023) by (change (2 ^ 1023) with (2 ^ 8 * 2 ^ 1015); pose proof (pow_pos 1015 ltac:(lia)); lia). nia. }
      destruct (f_round_spec false n d ltac:(lia) D0 LT) as (t & q & Ht & _ & FR & _ & _ & _ & V & ER & LB & _).
      split; [exact FR|]. rewrite V. replace (1 * (q * 2 ^ t)) with (q * 2 ^ t) by ring.
      set (w := q * 2 ^ t) in *. clearbody w. rewrite E in ER.
      replace (w * d - 255 * units x * d) with ((w - 255 * units x) * d) in ER by ring.
      rewrite Z.abs_mul, (Z.abs_eq d) in ER by lia.
      pose proof (pow_pos t ltac:(lia)) as PT.
      assert (ER' : 2 * Z.abs (w - 255 * units x) <= 2 ^ t) by nia.
      assert (T52 : 2 ^ t * 2 ^ 52 <= 255 * one).
      { destruct LB as [->|LB]; [lia|]. rewrite Z.pow_add_r in LB by lia. rewrite E in LB.
        assert (2 ^ t * 2 ^ 52 <= 255 * units x) by nia. lia. }
      set (a := Z.abs _) in *. clearbody a. lia. }
  destruct Y as (y & -> & FY & EY). destruct (f_rint_units y FY) as (c & -> & EC). cbn [bind].
  assert (CB : 2 ^ 45 * Z.abs (c * one - 255 * units x) <= (2 ^ 44 + 1) * one)
    by (set (u := units x) in *; set (v := units y) in *; clearbody u v; lia).
  assert (0 <= c <= 255) by (clear - CB U O; nia).
  replace ((0 <=? c) && (c <=? 255)) with true by lia. exists c. split; [reflexivity|]. split; assumption.
Qed.

Lemma chans_near xs : Forall (fun x => finite x /\ 0 <= units x <= one) xs ->
  exists b, mapr chan_enc (map VFlt xs) = Ok b /\ is_bytes b /\ Forall2 channel_byte xs b.
Proof.
  induction 1 as [|x xs [F U] H (b & E & B & N)]; [exists []; repeat split; constructor|].
  destruct (chan_near x F U) as (c & EC & NC). exists (c :: b). cbn [map mapr]. rewrite EC. cbn [bind]. rewrite E.
  split; [reflexivity|]. split; [|constructor; assumption]. apply is_bytes_cons. split; [destruct NC; unfold is_byte; lia|exact B].
Qed.

(* what a byte reads as *)
Lemma channel_value c : 0 <= c < 256 -> within (int_div c 255) c 255 1 (2 ^ 53) /\ chan_enc (VFlt (int_div c 255)) = Ok c.
Proof.
  intros H. split; [|now apply chan_roundtrip].
  assert (F : forallb (fun n => let x := int_div (Z.of_nat n) 255 in
     ((0 <=? x) && (x <? 2 ^ 64) && ((x / 2 ^ 52) mod 2048 <? 2047) && (Z.abs (units x * 255 - Z.of_nat n * one) * 2 ^ 53 <=? 1 * one * 255))%bool) (seq 0 256) = true)
    by (vm_compute; reflexivity).
  rewrite forallb_forall in F. specialize (F (Z.to_nat c)). rewrite Z2Nat.id in F by lia.
  specialize (F ltac:(apply in_seq; lia)). cbn zeta in F. rewrite !andb_true_iff in F. destruct F as [[[F1 F2] F3] F4].
  unfold within, finite. lia.
Qed.
Lemma channels_value b : is_bytes b -> exists xs, map (fun c => VFlt (int_div c 255)) b = map VFlt xs /\
  Forall2 (fun c x => within x c 255 1 (2 ^ 53)) b xs /\ mapr chan_enc (map VFlt xs) = Ok b.
Proof.
  induction 1 as [|c b H HB (xs & E & N & R)]; [exists []; repeat split; constructor|].
  destruct (channel_value c H) as [W RT]. exists (int_div c 255 :: xs). cbn [map mapr]. rewrite E, RT. cbn [bind]. rewrite R.
  split; [reflexivity|]. split; [constructor; assumption|reflexivity].
Qed.

Lemma color_event en id b : 128 <= id < 192 -> is_bytes b -> length b = 4%nat ->
  exists e xs, mk_event en KColor id b = Ok e /\ e_val e = VTup (map VFlt xs) /\
    Forall2 (fun c x => within x c 255 1 (2 ^ 53)) b xs /\ payload en e = Ok b.
Proof.
  intros Hi Hb Hl. destruct (channels_value b Hb) as (xs & E & N & R).
  unfold mk_event. cbn [allowed_id]. replace ((128 <=? id) && (id <? 192)) with true by lia. cbn [negb bind].
  replace (id <? 192) with true by lia. replace (id <? 64) with false by lia. replace (id <? 128) with false by lia.
  assert (ZL : zlen b = 4) by (unfold zlen; now rewrite Hl). rewrite ZL. change (4 =? 4) with true. cbn [negb].
  assert (PB : forall cx, cparse (kcon KColor) cx b = Ok (rgba_dec b, [])).
  { intros cx. cbn [kcon Color Adapter cparse Bytes]. assert (T : take 4 b = Ok (b, [])) by (rewrite <- (app_nil_r b) at 1; now apply take_app).
    change (Z.of_nat 4) with 4 in *. rewrite T. cbn [bind]. rewrite Hl. reflexivity. }
  rewrite PB. cbn [bind]. unfold rgba_dec. rewrite E.
  eexists _, xs. split; [reflexivity|]. split; [reflexivity|]. split; [exact N|].
  unfold payload. cbn [e_kind e_val kcon Color Adapter cbuild Bytes as_int]. rewrite R. cbn [bind as_int cbuild Bytes]. now rewrite Hl.
Qed.

Lemma color_assigned en e xs : e_kind e = KColor -> length xs = 4%nat ->
  Forall (fun x => finite x /\ 0 <= units x <= one) xs ->
  exists b, payload en (with_val e (VTup (map VFlt xs))) = Ok b /\ is_bytes b /\ Forall2 channel_byte xs b.
Proof.
  intros HK L F. destruct (chans_near xs F) as (b & E & B & N). exists b. split; [|auto].
  assert (LB : length b = 4%nat) by (rewrite <- L; clear - N; induction N; cbn [length]; congruence).
  unfold payload, with_val. cbn [e_kind e_val]. rewrite HK. cbn [kcon Color Adapter cbuild Bytes as_int]. rewrite E. cbn [bind cbuild Bytes as_int].
  now rewrite LB.
Qed.

(* ---------------------------------------------------------------- track colours *)

Lemma chosen_in ids evs k e : chosen ids evs (Some k) -> nth_error evs k = Some e -> In (e_id e) ids.
Proof.
  intros CH E. remember (Some k) as o eqn:O. destruct CH as [ids1 id ids2 k0 e0 EQ _ K0 I0 _|]; [|discriminate].
  injection O as ->. rewrite EQ. apply in_or_app. right. left. congruence.
Qed.

Lemma track_color_as_prop en h t v b : bytes_of v = Ok b ->
  track_color_set h t v = prop_set en h (EvModel t) (MkProp [238] VNone false (PStruct "color")) (VInt (u_le b)).
Proof.
  intros E. unfold track_color_set, custom_set, prop_set, color_set. cbn [p_readonly p_ids p_kind]. rewrite E, (u_le_dec b).
  destruct (get_event h [238] (EvModel t)) as [[g|]|x]; reflexivity.
Qed.

Lemma track_color_read h t k e d z : chosen [238] (events h t) (Some k) -> nth_error (events h t) k = Some e ->
  e_kind e = KTrack -> e_val e = VDict d -> dget d "color" = Some (VInt z) -> 0 <= z < 2 ^ 32 ->
  exists b xs, u_le b = z /\ length b = 4%nat /\ is_bytes b /\ track_color_get h t = Ok (VTup (map VFlt xs)) /\
    Forall2 (fun c x => within x c 255 1 (2 ^ 53)) b xs /\ bytes_of (VTup (map VFlt xs)) = Ok b.
Proof.
  intros CH E HK EV DG HZ.
  assert (B : is_bytes (le_enc 4 z)) by apply le_enc_bytes.
  destruct (channels_value _ B) as (xs & EX & N & R).
  exists (le_enc 4 z), xs. split; [now apply u_le_enc|]. split; [apply le_enc_length|]. split; [exact B|].
  split; [|split; [exact N|exact R]].
  destruct (get_event_spec h t [238] ltac:(discriminate)) as [A _]. destruct (A k CH) as (c0 & K & GE).
  assert (EE : ev_of h (ref_of h c0) = e).
  { rewrite events_refs, nth_error_map in E. unfold refs in E. rewrite nth_error_map, K in E. cbn in E. congruence. }
  unfold track_color_get, custom_get. rewrite GE. cbn [bind]. unfold color_get. cbn [tg_get]. unfold struct_get.
  rewrite EE, HK, EV. unfold dindex. rewrite DG. cbn [is_struct_kind is_list_kind negb bind as_int].
  replace ((0 <=? z) && (z <? 2 ^ 32)) with true by lia. unfold rgba_dec. now rewrite EX.
Qed.

(* ---------------------------------------------------------------- musical times *)

Lemma musical_stored en c v : is_bytes c -> length c = 4%nat -> ft_dec en TMusical c = Some v -> stored_as TMusical v c.
Proof.
  intros B L E. cbn [ft_dec] in E. injection E as <-. cbn [stored_as].
  pose proof (u_le_bound c B) as U. rewrite L in U. change (256 ^ Z.of_nat 4) with (2 ^ 32) in U. set (q := u_le c) in *.
  exists (q / 768), (q mod 768 / 48), (q mod 48 * 5). split; [reflexivity|]. split; [lia|]. cbn zeta.
  replace (Z.quot (q mod 48 * 5) 5) with (q mod 48) by (rewrite Z.quot_mul by lia; reflexivity).
  replace (q / 768 * 768 + q mod 768 / 48 * 48 + q mod 48) with q by lia.
  split; [exact U|]. unfold q. rewrite le_spec, u_le_dec. rewrite <- L. symmetry. now apply le_enc_dec.
Qed.

Lemma musical_written en bars beats n : let q := bars * 768 + beats * 48 + n in 0 <= q < 2 ^ 32 -> Z.abs n < 2 ^ 47 ->
  exists c bars' beats' n', stored_as TMusical (VTup [VInt bars; VInt beats; VInt (5 * n)]) c /\ is_bytes c /\
    ft_dec en TMusical c = Some (VTup [VInt bars'; VInt beats'; VInt (5 * n')]) /\
    bars' * 768 + beats' * 48 + n' = q /\ 0 <= bars' /\ 0 <= beats' < 16 /\ 0 <= n' < 48.
Proof.
  intros q R T. exists (le_enc 4 q), (q / 768), (q mod 768 / 48), (q mod 48).
  split; [|split; [apply le_enc_bytes|split; [|lia]]].
  - cbn [stored_as]. exists bars, beats, (5 * n). split; [reflexivity|]. split; [lia|]. cbn zeta.
    replace (Z.quot (5 * n) 5) with n by (rewrite Z.mul_comm, Z.quot_mul; lia). fold q. split; [exact R|]. now rewrite le_spec.
  - cbn [ft_dec]. rewrite u_le_enc by exact R. now rewrite (Z.mul_comm 5).
Qed.

(* ---------------------------------------------------------------- track heights *)

(* what n percent comes back as *)
Definition height_result (n : Z) : option Z :=
  match f64_to_32 (int_div n 100) with
  | Some w => match height_pct (le_enc 4 w) with Ok m => Some m | Err _ => None end
  | None => None
  end.
Definition percents : list Z := map Z.of_nat (seq 0 1001).
Lemma percents_In n : 0 <= n <= 1000 -> In n percents.
Proof. intros H. unfold percents. apply in_map_iff. exists (Z.to_nat n). split; [lia|]. apply in_seq. lia. Qed.

Lemma height_results : forallb (fun n => match height_result n with Some m => (m =? n) || (m =? n - 1) | None => false end) percents = true.
Proof. vm_compute. reflexivity. Qed.

Lemma height_written en n : 0 <= n <= 1000 -> exists c m,
  stored_as THeight (VStr (py_str_int n ++ str "%")) c /\ is_bytes c /\
  ft_dec en THeight c = Some (VStr (py_str_int m ++ str "%")) /\ (m = n \/ m = n - 1) /\ height_result n = Some m.
Proof.
  intros H. pose proof height_results as F. rewrite forallb_forall in F. specialize (F n (percents_In n H)).
  unfold height_result in *. destruct (f64_to_32 (int_div n 100)) as [w|] eqn:W; [|discriminate].
  destruct (height_pct (le_enc 4 w)) as [m|] eqn:P; [|discriminate].
  exists (le_enc 4 w), m. split; [|split; [apply le_enc_bytes|split; [|split; [lia|reflexivity]]]].
  - cbn [stored_as]. exists n, w. split; [reflexivity|]. split; [lia|]. split; [exact W|]. now rewrite le_spec.
  - cbn [ft_dec]. now rewrite P.
Qed.
