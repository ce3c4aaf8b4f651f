(* C81 printing the equaliser of an insert. *)
From Coq Require Import String ZArith List Bool Lia Arith.
From Verif Require Import M_Base M_Float M_Text M_Construct M_Structs M_Events M_Parse M_Tree M_Prop M_Project M_Items M_Collections M_Models M_ReprEq.
From Verif Require Import S_Canon S_File S_Domain S_Tree S_Prop S_Project S_Items S_Collections S_Models.
From Verif Require Import P_Base P_TreeBase P_Tree P_TreeEdit P_Prop P_Edit P_Project P_Items P_Patterns P_Session P_Models.
From Verif Require Import C_Samples C_Items C_Inserts.
Import ListNotations.
Open Scope Z_scope.

(* the insert has a record of the value, or none *)
Definition recorded (h : heap) (r : nat) (n : Z) (b : eq_band) (f : eq_field) : Prop :=
  exists j d m, last_at (own_param n (eq_id b f)) (items (ev_of h r)) j /\ element h r j d /\ dget d "msg" = Some m.
Definition unrecorded (h : heap) (r : nat) (n : Z) (b : eq_band) (f : eq_field) : Prop :=
  forall x, In x (items (ev_of h r)) -> ~ own_param n (eq_id b f) x.

Lemma recorded_read h r n b f : recorded h r n b f -> exists j m, assoc_Z (own_of (items (ev_of h r)) n) (eq_id b f) = Some j /\ eq_read h r n b f = Ok m.
Proof.
  intros (j & d & m & LA & EL & D). pose proof (own_last _ _ _ _ LA) as AS. exists j, m. split; [exact AS|].
  unfold eq_read, eq_get, eq_record. cbn [kw_params bind own_items]. rewrite eq_id_of, AS. cbn [bind]. eapply element_get; eauto.
Qed.
Lemma unrecorded_read h r n b f : unrecorded h r n b f -> eq_read h r n b f = Err KeyError.
Proof. intros H. apply (C67_missing h r n b f VNone H). Qed.

(* A band of the equaliser can be printed exactly if all its three values have records, and shows
   them; the equaliser itself never can: its size raises KeyError. *)
Theorem C81_band : forall h r n b, (forall f, recorded h r n b f \/ unrecorded h r n b f) ->
  ((forall f, recorded h r n b f) -> exists g q s, band_repr h (Some (PItems r n)) (eq_band_of b) = Ok [("size", VInt 36); ("gain", g); ("freq", q); ("reso", s)]%string /\
     eq_read h r n b EqGain = Ok g /\ eq_read h r n b EqFreq = Ok q /\ eq_read h r n b EqReso = Ok s) /\
  ((exists f, unrecorded h r n b f) -> band_repr h (Some (PItems r n)) (eq_band_of b) = Err KeyError).
Proof.
  intros h r n b A. unfold band_repr, band_size. cbn [kw_params bind own_items].
  fold (eq_read h r n b EqGain) (eq_read h r n b EqFreq) (eq_read h r n b EqReso).
  change Gain with (eq_field_of EqGain). change Freq with (eq_field_of EqFreq). change Reso with (eq_field_of EqReso).
  fold (eq_read h r n b EqGain) (eq_read h r n b EqFreq) (eq_read h r n b EqReso). cbn [filter]. rewrite !eq_id_of. split.
  - intros R. destruct (recorded_read _ _ _ _ _ (R EqGain)) as (j1 & g & A1 & R1). destruct (recorded_read _ _ _ _ _ (R EqFreq)) as (j2 & q & A2 & R2). destruct (recorded_read _ _ _ _ _ (R EqReso)) as (j3 & s & A3 & R3).
    rewrite A1, A2, A3, R1, R2, R3. exists g, q, s. cbn [bind]. repeat split.
  - intros (f & U).
    assert (K : forall f, eq_read h r n b f = Err KeyError \/ exists m, eq_read h r n b f = Ok m).
    { intros f'. destruct (A f') as [R|R]; [right; destruct (recorded_read _ _ _ _ _ R) as (_ & m & _ & M); eauto|left; now apply unrecorded_read]. }
    pose proof (unrecorded_read _ _ _ _ _ U) as F.
    destruct (K EqGain) as [E1|(m1 & E1)]; rewrite E1; cbn [bind]; [reflexivity|]. destruct (K EqFreq) as [E2|(m2 & E2)]; rewrite E2; cbn [bind]; [reflexivity|].
    destruct (K EqReso) as [E3|(m3 & E3)]; rewrite E3; cbn [bind]; [reflexivity|]. destruct f; congruence.
Qed.
Print Assumptions C81_band.
Theorem C81_equaliser_refuted : forall h p, eq_repr h p = Err KeyError.
Proof. intros h [p|]; reflexivity. Qed.
Print Assumptions C81_equaliser_refuted.

(* an insert with all records of the middle band and one of the low band *)
Definition eqr_recs : bytes := (mp_rec 1 209 20 ++ mp_rec 1 217 30 ++ mp_rec 1 225 40 ++ mp_rec 1 208 10)%list.
Definition eqr_h : heap := in_heap_of eqr_recs.
Example C81_band_case : is_bytes (in_file eqr_recs) /\ parse en0 (in_file eqr_recs) = Ok (load (in_file eqr_recs)) /\
  band_repr eqr_h (Some (PItems 4 1)) eq_mid = Ok [("size", VInt 36); ("gain", VInt 20); ("freq", VInt 30); ("reso", VInt 40)]%string /\
  band_size eqr_h (Some (PItems 4 1)) eq_low = Ok 12 /\ band_repr eqr_h (Some (PItems 4 1)) eq_low = Err KeyError /\
  recorded eqr_h 4 1 LowBand EqGain /\ unrecorded eqr_h 4 1 LowBand EqReso.
Proof.
  split; [apply bytes_check; vm_compute; reflexivity|]. split; [vm_compute; reflexivity|]. split; [vm_compute; reflexivity|]. split; [vm_compute; reflexivity|]. split; [vm_compute; reflexivity|].
  split.
  - exists 3%nat. do 2 eexists. split; [|split].
    + split; [exists (nth 3 (items (ev_of eqr_h 4)) VNone); split; [vm_compute; reflexivity|]; apply filed_own; vm_compute; reflexivity|].
      intros j x J X. assert (L : (j < 4)%nat). { change 4%nat with (length (items (ev_of eqr_h 4))). apply nth_error_Some. congruence. } lia.
    + split; [apply Nat.ltb_lt; vm_compute; reflexivity|split; vm_compute; reflexivity].
    + vm_compute. reflexivity.
  - intros x I. vm_compute in I. repeat (destruct I as [<-|I]; [intros P; apply filed_own in P; vm_compute in P; discriminate P|]). destruct I.
Qed.
