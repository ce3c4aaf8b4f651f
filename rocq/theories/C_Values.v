(* C33 colours, C34 musical times, C35 track heights. *)
From Coq Require Import String ZArith List Bool Lia Arith.
From Verif Require Import M_Base M_Float M_Text M_Construct M_Structs M_Events M_Parse M_Tree M_Prop M_Custom.
From Verif Require Import S_Canon S_File S_Domain S_Tree S_Prop S_Layout S_Real.
From Verif Require Import P_Base P_Codec P_Null P_Save P_TreeBase P_Tree P_TreeEdit P_Prop P_Edit P_Layout P_Struct P_Records P_EditStruct P_Written P_Values.
From Verif Require Import C_Samples.
Import ListNotations.
Open Scope Z_scope.

(* ------------------------------------------------------------------------- C25 *)

(* A struct property given a value in any accepted form: after saving and loading it
   reads as what the written bytes stand for. *)
Theorem C25_written : forall en f p h t ids df k e b fs i m fd ty d old v c v',
  is_bytes f -> parse en f = Ok p -> canonical_file en f ->
  views (parsed (pr_events p)) h -> (t < nt h)%nat ->
  ids <> [] -> chosen ids (events h t) (Some k) -> nth_error (events h t) k = Some e ->
  ~ (e_id e = 199 \/ e_id e = 201) ->
  payload en e = Ok b -> layout (zlen b) (e_kind e) = Some fs -> cut_at fs b i -> readable en fs b i ->
  nth_error fs m = Some fd -> f_type fd = Some ty -> stored_as ty v c -> is_bytes c -> ft_dec en ty c = Some v' ->
  e_val e = VDict d -> dget d (f_name fd) = Some old -> old <> VNone ->
  exists h' f' p' j d', prop_set en h (EvModel t) (MkProp ids df false (PStruct (f_name fd))) v = (h', Ok tt) /\
    serialise en (Project (root_events h') (pr_channel_count p) (pr_format p) (pr_ppq p)) = Ok f' /\
    parse en f' = Ok p' /\
    nth_error (pr_events p) j = Some e /\ dict_updated d (f_name fd) v' d' /\ reloaded (pr_events p) j (VDict d') (pr_events p') /\
    pr_channel_count p' = pr_channel_count p /\ pr_format p' = pr_format p /\ pr_ppq p' = pr_ppq p.
Proof. exact write_struct_prop. Qed.
Print Assumptions C25_written.

(* ------------------------------------------------------------------------- C33 *)

(* every 4-byte colour: each channel reads as the double nearest to c/255, and the event
   is written as the same bytes *)
Theorem C33_reproduced : forall en id b, 128 <= id < 192 -> is_bytes b -> length b = 4%nat ->
  exists e xs, mk_event en KColor id b = Ok e /\ e_val e = VTup (map VFlt xs) /\
    Forall2 (fun c x => within x c 255 1 (2 ^ 53)) b xs /\ payload en e = Ok b.
Proof. exact color_event. Qed.
Print Assumptions C33_reproduced.

(* a colour with any channels between 0 and 1 is written as the nearest bytes *)
Theorem C33_assigned : forall en e xs, e_kind e = KColor -> length xs = 4%nat ->
  Forall (fun x => finite x /\ 0 <= units x <= one) xs ->
  exists b, payload en (with_val e (VTup (map VFlt xs))) = Ok b /\ is_bytes b /\ Forall2 channel_byte xs b.
Proof. exact color_assigned. Qed.
Print Assumptions C33_assigned.

(* the colour of a track, kept as a number: reading it and assigning what was read *)
Theorem C33_track_read : forall h t k e d z,
  chosen [238] (events h t) (Some k) -> nth_error (events h t) k = Some e ->
  e_kind e = KTrack -> e_val e = VDict d -> dget d "color" = Some (VInt z) -> 0 <= z < 2 ^ 32 ->
  exists b xs, u_le b = z /\ length b = 4%nat /\ is_bytes b /\ track_color_get h t = Ok (VTup (map VFlt xs)) /\
    Forall2 (fun c x => within x c 255 1 (2 ^ 53)) b xs /\
    track_color_set h t (VTup (map VFlt xs)) =
      prop_set en0 h (EvModel t) (MkProp [238] VNone false (PStruct "color")) (VInt z).
Proof.
  intros h t k e d z CH E HK EV DG HZ.
  destruct (track_color_read h t k e d z CH E HK EV DG HZ) as (b & xs & B1 & B2 & B3 & B4 & B5 & B6).
  exists b, xs. repeat (split; [assumption|]). rewrite (track_color_as_prop en0 h t _ b B6). now rewrite B1.
Qed.
Print Assumptions C33_track_read.

(* assigned, saved and loaded *)
Theorem C33_track_saved : forall en f p h t k e b fs i d old xs,
  is_bytes f -> parse en f = Ok p -> canonical_file en f ->
  views (parsed (pr_events p)) h -> (t < nt h)%nat ->
  chosen [238] (events h t) (Some k) -> nth_error (events h t) k = Some e ->
  e_kind e = KTrack -> payload en e = Ok b -> layout (zlen b) KTrack = Some fs -> cut_at fs b i -> readable en fs b i ->
  e_val e = VDict d -> dget d "color" = Some old -> old <> VNone ->
  length xs = 4%nat -> Forall (fun x => finite x /\ 0 <= units x <= one) xs ->
  exists h' f' p' j d' c, track_color_set h t (VTup (map VFlt xs)) = (h', Ok tt) /\
    serialise en (Project (root_events h') (pr_channel_count p) (pr_format p) (pr_ppq p)) = Ok f' /\
    parse en f' = Ok p' /\ nth_error (pr_events p) j = Some e /\
    is_bytes c /\ Forall2 channel_byte xs c /\
    dict_updated d "color" (VInt (u_le c)) d' /\ reloaded (pr_events p) j (VDict d') (pr_events p').
Proof.
  intros en f p h t k e b fs i d old xs Hb H HC V L CH E HK HP HL C R EV DG NN LX FX.
  destruct (chans_near xs FX) as (c & EC & BC & NC).
  assert (LC : length c = 4%nat) by (rewrite <- LX; clear - NC; induction NC; cbn [length]; congruence).
  assert (EI : e_id e = 238).
  { destruct (chosen_in _ _ _ _ CH E) as [X|[]]; congruence. }
  assert (X := edit_struct_prop en f p h t [238] VNone k e b fs i 1 (Opt "color" (TU 4)) (TU 4) d old (VInt (u_le c))
    Hb H HC V L ltac:(discriminate) CH E ltac:(unfold steering; lia) HP ltac:(rewrite HK; exact HL) C R).
  destruct X as (h' & f' & p' & j & d' & S1 & S2 & S3 & S4 & S5 & S6 & _); try assumption; try reflexivity.
  - cbn [layout] in HL. injection HL as <-. reflexivity.
  - apply storable_TU. exists (u_le c). split; [reflexivity|]. rewrite <- LC. now apply u_le_bound.
  - exists h', f', p', j, d', c. split; [|repeat (split; [assumption|]); assumption].
    rewrite (track_color_as_prop en h t (VTup (map VFlt xs)) c EC). exact S1.
Qed.
Print Assumptions C33_track_saved.

(* ------------------------------------------------------------------------- C34 *)

(* what a stored time reads as is written as the same bytes *)
Theorem C34_stored : forall en c v, is_bytes c -> length c = 4%nat -> ft_dec en TMusical c = Some v -> stored_as TMusical v c.
Proof. exact musical_stored. Qed.
Print Assumptions C34_stored.
Theorem C34_codec : forall z, exists bars beats ticks,
  musical_dec z = VTup [VInt bars; VInt beats; VInt ticks] /\ musical_enc bars beats ticks = Ok z.
Proof. intros z. eexists _, _, _. split; [reflexivity|]. apply P_Cells.musical_roundtrip. Qed.
Print Assumptions C34_codec.

(* the stretching time of a channel set to bars:beats:ticks with ticks a multiple of 5 *)
Theorem C34_saved : forall en f p h t ids df k e b fs i m n0 d old bars beats n,
  is_bytes f -> parse en f = Ok p -> canonical_file en f ->
  views (parsed (pr_events p)) h -> (t < nt h)%nat ->
  ids <> [] -> chosen ids (events h t) (Some k) -> nth_error (events h t) k = Some e ->
  ~ (e_id e = 199 \/ e_id e = 201) ->
  payload en e = Ok b -> layout (zlen b) (e_kind e) = Some fs -> cut_at fs b i -> readable en fs b i ->
  nth_error fs m = Some (Opt n0 TMusical) -> e_val e = VDict d -> dget d n0 = Some old -> old <> VNone ->
  0 <= bars * 768 + beats * 48 + n < 2 ^ 32 -> Z.abs n < 2 ^ 47 ->
  exists h' f' p' j d' bars' beats' n',
    prop_set en h (EvModel t) (MkProp ids df false (PStruct n0)) (VTup [VInt bars; VInt beats; VInt (5 * n)]) = (h', Ok tt) /\
    serialise en (Project (root_events h') (pr_channel_count p) (pr_format p) (pr_ppq p)) = Ok f' /\
    parse en f' = Ok p' /\ nth_error (pr_events p) j = Some e /\
    dict_updated d n0 (VTup [VInt bars'; VInt beats'; VInt (5 * n')]) d' /\ reloaded (pr_events p) j (VDict d') (pr_events p') /\
    bars' * 768 + beats' * 48 + n' = bars * 768 + beats * 48 + n /\ 0 <= bars' /\ 0 <= beats' < 16 /\ 0 <= n' < 48.
Proof.
  intros en f p h t ids df k e b fs i m n0 d old bars beats n Hb H HC V L NI CH E NS HP HL C R N EV DG NN RQ RT.
  destruct (musical_written en bars beats n RQ RT) as (c & bars' & beats' & n' & W1 & W2 & W3 & W4).
  destruct (write_struct_prop en f p h t ids df k e b fs i m (Opt n0 TMusical) TMusical d old _ c _ Hb H HC V L NI CH E NS HP HL C R N eq_refl W1 W2 W3 EV DG NN)
    as (h' & f' & p' & j & d' & S1 & S2 & S3 & S4 & S5 & S6 & _).
  exists h', f', p', j, d', bars', beats', n'. repeat (split; [assumption|]). exact W4.
Qed.
Print Assumptions C34_saved.

(* ------------------------------------------------------------------------- C35 *)

Theorem C35_saved : forall en f p h t ids df k e b fs i d old n,
  is_bytes f -> parse en f = Ok p -> canonical_file en f ->
  views (parsed (pr_events p)) h -> (t < nt h)%nat ->
  ids <> [] -> chosen ids (events h t) (Some k) -> nth_error (events h t) k = Some e ->
  ~ (e_id e = 199 \/ e_id e = 201) -> e_kind e = KTrack ->
  payload en e = Ok b -> layout (zlen b) KTrack = Some fs -> cut_at fs b i -> readable en fs b i ->
  e_val e = VDict d -> dget d "height" = Some old -> old <> VNone -> 0 <= n <= 1000 ->
  exists h' f' p' j d' n',
    prop_set en h (EvModel t) (MkProp ids df false (PStruct "height")) (VStr (py_str_int n ++ str "%")) = (h', Ok tt) /\
    serialise en (Project (root_events h') (pr_channel_count p) (pr_format p) (pr_ppq p)) = Ok f' /\
    parse en f' = Ok p' /\ nth_error (pr_events p) j = Some e /\
    dict_updated d "height" (VStr (py_str_int n' ++ str "%")) d' /\ reloaded (pr_events p) j (VDict d') (pr_events p') /\
    (n' = n \/ n' = n - 1) /\ height_result n = Some n'.
Proof.
  intros en f p h t ids df k e b fs i d old n Hb H HC V L NI CH E NS HK HP HL C R EV DG NN RN.
  destruct (height_written en n RN) as (c & n' & W1 & W2 & W3 & W4).
  destruct (write_struct_prop en f p h t ids df k e b fs i 4 (Opt "height" THeight) THeight d old _ c _ Hb H HC V L NI CH E NS HP ltac:(rewrite HK; exact HL) C R
     ltac:(cbn [layout] in HL; injection HL as <-; reflexivity) eq_refl W1 W2 W3 EV DG NN)
    as (h' & f' & p' & j & d' & S1 & S2 & S3 & S4 & S5 & S6 & _).
  exists h', f', p', j, d', n'. repeat (split; [assumption|]). exact W4.
Qed.
Print Assumptions C35_saved.

(* [height_result] is a different percentage for 482 of them *)
Theorem C35_wrong : length (filter (fun n => negb (match height_result n with Some m => m =? n | None => false end)) percents) = 482%nat /\
  forall n, In n percents <-> 0 <= n <= 1000.
Proof.
  split; [vm_compute; reflexivity|]. intros n. split; [|apply percents_In].
  unfold percents. intros H. apply in_map_iff in H as (x & <- & H). apply in_seq in H. lia.
Qed.
Print Assumptions C35_wrong.

(* a project with a track of 100% and a channel with stretching time 0:0:0 *)
Definition track_bytes : bytes :=
  [1; 0; 0; 0; 72; 81; 86; 0; 0; 0; 0; 0; 1; 0; 0; 128; 63; 255; 255; 255; 255; 1] ++ repeat 0 26.
Definition parameter_bytes : bytes := repeat 0 158.
Definition values_chunks : list chunk := [(199, ver20); (64, [1; 0]); (215, parameter_bytes); (238, track_bytes)].
Definition values_file : bytes := sample values_chunks.
Definition values_heap : heap := parsed (pr_events (load values_file)).
Definition saved_again (h : heap) : res project :=
  let* f := serialise en0 (Project (root_events h) 1 0 96) in parse en0 f.
Definition height_prop : prop := MkProp [238] VNone false (PStruct "height").
Definition time_prop : prop := MkProp [215] VNone false (PStruct "stretching.time").

Theorem C35_refuted : exists f p h h' p', is_bytes f /\ canonical_file en0 f /\ parse en0 f = Ok p /\ h = parsed (pr_events p) /\
  prop_set en0 h (EvModel 0) height_prop (VStr (str "29%")) = (h', Ok tt) /\
  saved_again h' = Ok p' /\
  prop_get en0 (parsed (pr_events p')) (EvModel 0) height_prop = Ok (VStr (str "28%")).
Proof.
  destruct (sample_ok values_chunks ltac:(vm_compute; reflexivity)) as [B C].
  exists values_file, (load values_file), values_heap. eexists _, _.
  split; [exact B|]. split; [exact C|]. split; [vm_compute; reflexivity|]. split; [reflexivity|].
  split; [vm_compute; reflexivity|]. split; [vm_compute; reflexivity|]. vm_compute. reflexivity.
Qed.
Print Assumptions C35_refuted.

Example C34_case : exists h' p',
  prop_set en0 values_heap (EvModel 0) time_prop (VTup [VInt 1; VInt 17; VInt 245]) = (h', Ok tt) /\
  saved_again h' = Ok p' /\
  prop_get en0 (parsed (pr_events p')) (EvModel 0) time_prop = Ok (VTup [VInt 2; VInt 2; VInt 5]).
Proof. eexists _, _. split; [vm_compute; reflexivity|]. split; [vm_compute; reflexivity|]. vm_compute. reflexivity. Qed.

(* half red, full alpha on the track *)
Example C33_case : exists h' p' xs, xs = [4602678819172646912; 0; 0; 4607182418800017408] /\
  Forall (fun x => finite x /\ 0 <= units x <= one) xs /\
  track_color_set values_heap 0 (VTup (map VFlt xs)) = (h', Ok tt) /\ saved_again h' = Ok p' /\
  (exists e d, nth_error (pr_events p') 3 = Some e /\ e_val e = VDict d /\ dget d "color" = Some (VInt (128 + 255 * 2 ^ 24))).
Proof.
  eexists _, _, _. split; [reflexivity|]. split; [repeat constructor; vm_compute; congruence|].
  split; [vm_compute; reflexivity|]. split; [vm_compute; reflexivity|].
  eexists _, _. split; [vm_compute; reflexivity|]. split; [reflexivity|]. vm_compute. reflexivity.
Qed.
