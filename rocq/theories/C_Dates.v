(* C69 dates of a project. *)
From Coq Require Import String ZArith List Bool Lia Arith.
From Verif Require Import M_Base M_Float M_Text M_Construct M_Structs M_Events M_Parse M_Tree M_Prop M_Project M_Items M_Collections M_Models.
From Verif Require Import S_Real S_Canon S_File S_Domain S_Tree S_Prop S_Project S_Items S_Collections S_Models.
From Verif Require Import P_Base P_TreeBase P_Tree P_TreeEdit P_Prop P_Edit P_Project P_Items P_Patterns P_Session P_Models P_Round P_Tempo P_Dates.
From Verif Require Import C_Samples.
Import ListNotations.
Open Scope Z_scope.

Lemma contains_237 h t e m : filter (fun e => e_id e =? 237) (events h t) = e :: m -> contains h t 237 = true.
Proof.
  intros F. destruct (first_event _ _ _ _ _ F) as (c & l & _ & _ & _ & C & _). exact C.
Qed.

(* The time spent is the stored number of days, as a whole number of microseconds: the nearest
   one up to 2^-16 of a microsecond; exactly if the days are a whole number of microseconds. *)
Theorem C69_spent : forall h t e m d x, filter (fun e => e_id e =? 237) (events h t) = e :: m -> struct_event 237 d e -> dget d "time_spent" = Some (VFlt x) ->
  (finite x -> - 999999999 * one <= units x <= 999999999 * one -> exists us, time_spent h t = Ok (Some us) /\ micros x us) /\
  (finite x -> - 999999999 * one <= units x <= 999999999 * one -> forall k, 86400000000 * units x = k * one -> time_spent h t = Ok (Some k)) /\
  (finite x -> units x <= - 1000000000 * one \/ 1000000000 * one <= units x -> time_spent h t = Err OverflowError) /\
  (f_is_nan x = true -> time_spent h t = Err ValueError) /\ (f_is_inf x = true -> time_spent h t = Err OverflowError).
Proof.
  intros h t e m d x F S D. unfold time_spent. rewrite (contains_237 h t e m F), (first_item_get _ _ _ _ _ _ _ F S), D. cbn [bind].
  assert (K : finite x -> - 999999999 * one <= units x <= 999999999 * one -> exists us, bind (delta_us (VFlt x)) (fun us => Ok (Some us)) = Ok (Some us) /\ micros x us).
  { intros FX [A B]. destruct (delta_finite x FX) as (us & M & ->). exists us. split; [|exact M]. cbv zeta.
    pose proof (micros_le _ _ _ M B). pose proof (micros_ge _ _ _ M A). unfold us_per_day. replace ((-999999999 <=? us / 86400000000) && (us / 86400000000 <=? 999999999)) with true by lia. reflexivity. }
  split; [exact K|]. split; [|split; [|split]].
  - intros FX R k E. destruct (K FX R) as (us & -> & M). now rewrite (micros_exact _ _ _ M E).
  - intros FX R. destruct (delta_finite x FX) as (us & M & ->). cbv zeta.
    assert (us <= -1000000000 * 86400000000 \/ 1000000000 * 86400000000 <= us) by (destruct R as [R|R]; [left; eapply micros_le; eassumption|right; eapply micros_ge; eassumption]).
    unfold us_per_day. replace ((-999999999 <=? us / 86400000000) && (us / 86400000000 <=? 999999999)) with false by lia. reflexivity.
  - intros N. unfold delta_us, f_trunc. now rewrite N.
  - intros I. unfold delta_us, f_trunc. replace (f_is_nan x) with false; [now rewrite I|]. unfold f_is_inf, f_is_nan in *. destruct (f_exp x =? 2047), (f_man x =? 0); cbn in *; congruence.
Qed.
Print Assumptions C69_spent.

(* The creation date is that number of days after 30 December 1899, in the same way; an
   OverflowError outside the years 1 to 9999. *)
Theorem C69_created : forall h t e m d x, filter (fun e => e_id e =? 237) (events h t) = e :: m -> struct_event 237 d e -> dget d "created_on" = Some (VFlt x) ->
  (finite x -> - 693593 * one <= units x <= 2958465 * one -> exists us, created_on h t = Ok (Some us) /\ micros x us) /\
  (finite x -> - 693593 * one <= units x <= 2958465 * one -> forall k, 86400000000 * units x = k * one -> created_on h t = Ok (Some k)) /\
  (finite x -> units x <= - 693594 * one \/ 2958466 * one <= units x -> created_on h t = Err OverflowError) /\
  (f_is_nan x = true -> created_on h t = Err ValueError) /\ (f_is_inf x = true -> created_on h t = Err OverflowError).
Proof.
  intros h t e m d x F S D. unfold created_on. rewrite (contains_237 h t e m F), (first_item_get _ _ _ _ _ _ _ F S), D. cbn [bind]. cbv zeta.
  assert (K : finite x -> - 693593 * one <= units x <= 2958465 * one -> exists us, bind (delta_us (VFlt x)) (fun us => if (-693593 <=? us / 86400000000) && (us / 86400000000 <=? 2958465) then Ok (Some us) else Err OverflowError) = Ok (Some us) /\ micros x us).
  { intros FX [A B]. destruct (delta_finite x FX) as (us & M & ->). exists us. split; [|exact M]. cbv zeta.
    pose proof (micros_le _ _ _ M B). pose proof (micros_ge _ _ _ M A). unfold us_per_day. replace ((-999999999 <=? us / 86400000000) && (us / 86400000000 <=? 999999999)) with true by lia. cbn [bind].
    replace ((-693593 <=? us / 86400000000) && (us / 86400000000 <=? 2958465)) with true by lia. reflexivity. }
  unfold us_per_day in *. split; [exact K|]. split; [|split; [|split]].
  - intros FX R k E. destruct (K FX R) as (us & -> & M). now rewrite (micros_exact _ _ _ M E).
  - intros FX R. destruct (delta_finite x FX) as (us & M & ->). cbv zeta.
    assert (us <= -693594 * 86400000000 \/ 2958466 * 86400000000 <= us) by (destruct R as [R|R]; [left; eapply micros_le; eassumption|right; eapply micros_ge; eassumption]).
    destruct ((-999999999 <=? us / us_per_day) && _); [|reflexivity]. cbn [bind]. replace ((-693593 <=? us / 86400000000) && (us / 86400000000 <=? 2958465)) with false by lia. reflexivity.
  - intros N. unfold delta_us, f_trunc. now rewrite N.
  - intros I. unfold delta_us, f_trunc. replace (f_is_nan x) with false; [now rewrite I|]. unfold f_is_inf, f_is_nan in *. destruct (f_exp x =? 2047), (f_man x =? 0); cbn in *; congruence.
Qed.
Print Assumptions C69_created.

Theorem C69_none : forall h t, value_of 237 (events h t) = None -> time_spent h t = Ok None /\ created_on h t = Ok None.
Proof. intros h t N. unfold time_spent, created_on. destruct (no_first _ _ _ N) as [_ ->]. split; reflexivity. Qed.
Print Assumptions C69_none.


(* --------------------------------------------------------------------- examples *)

(* 45000.25 days: 15 March 2023, 6:00; 1.5 days spent; then 1/3 of a day; 10^9 days; infinity *)
Definition date_file (created spent : Z) : bytes := sample [(199, ver20); (64, [0; 0]); (237, le_enc 8 created ++ le_enc 8 spent)].
Definition date_heap (created spent : Z) : heap := parsed (pr_events (load (date_file created spent))).
Definition d_45000_25 : Z := 4676417600849182720.
Definition d_1_5 : Z := 4609434218613702656.
Definition d_third : Z := 4599676419421066581.
Definition d_1e9 : Z := 4741671816366391296.
Definition date_dict (h : heap) : list (string * val) := match e_val (ev_of h 2) with VDict d => d | _ => [] end.
Example C69_case : is_bytes (date_file d_45000_25 d_1_5) /\ parse en0 (date_file d_45000_25 d_1_5) = Ok (load (date_file d_45000_25 d_1_5)) /\
  let h := date_heap d_45000_25 d_1_5 in
  filter (fun e => e_id e =? 237) (events h 0) = [ev_of h 2] /\ struct_event 237 (date_dict h) (ev_of h 2) /\
  dget (date_dict h) "created_on" = Some (VFlt d_45000_25) /\ dget (date_dict h) "time_spent" = Some (VFlt d_1_5) /\
  finite d_45000_25 /\ 4 * units d_45000_25 = 180001 * one /\ finite d_1_5 /\ 2 * units d_1_5 = 3 * one /\
  created_on h 0 = Ok (Some 3888021600000000) /\ time_spent h 0 = Ok (Some 129600000000).
Proof.
  destruct (sample_ok [(199, ver20); (64, [0; 0]); (237, le_enc 8 d_45000_25 ++ le_enc 8 d_1_5)] ltac:(vm_compute; reflexivity)) as [B _]. split; [exact B|]. split; [vm_compute; reflexivity|].
  cbv zeta. split; [vm_compute; reflexivity|]. split; [split; [vm_compute; reflexivity|split; vm_compute; reflexivity]|]. split; [vm_compute; reflexivity|]. split; [vm_compute; reflexivity|].
  split; [split; [unfold d_45000_25; lia|vm_compute; reflexivity]|]. split; [vm_compute; reflexivity|]. split; [split; [unfold d_1_5; lia|vm_compute; reflexivity]|]. split; [vm_compute; reflexivity|].
  split; vm_compute; reflexivity.
Qed.
Example C69_third : time_spent (date_heap d_45000_25 d_third) 0 = Ok (Some 28800000000) /\ time_spent (date_heap d_45000_25 d_1e9) 0 = Err OverflowError /\
  units d_1e9 = 1000000000 * one /\ created_on (date_heap (2047 * 2 ^ 52) 0) 0 = Err OverflowError /\ created_on (date_heap (2047 * 2 ^ 52 + 1) 0) 0 = Err ValueError.
Proof. split; [vm_compute; reflexivity|]. split; [vm_compute; reflexivity|]. split; [vm_compute; reflexivity|]. split; vm_compute; reflexivity. Qed.
