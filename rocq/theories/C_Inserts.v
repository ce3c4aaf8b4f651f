(* C67 dock and equaliser of an insert, C68 its routes. *)
From Coq Require Import String ZArith List Bool Lia Arith.
From Verif Require Import M_Base M_Float M_Text M_Construct M_Structs M_Events M_Parse M_Tree M_Prop M_Project M_Items M_Collections M_Models.
From Verif Require Import S_Canon S_File S_Domain S_Tree S_Prop S_Project S_Items S_Collections S_Models.
From Verif Require Import P_Base P_TreeBase P_Tree P_TreeEdit P_Prop P_Edit P_Project P_Items P_Patterns P_Session P_Models.
From Verif Require Import C_Samples C_Items.
Import ListNotations.
Open Scope Z_scope.

(* ------------------------------------------------------------------------ C67 *)

(* The dock follows two bits of the flags: 64 middle, otherwise 128 right, otherwise left. *)
Theorem C67_dock : forall en h t,
  (value_of 236 (events h t) = None -> dock_get en h t = Ok None) /\
  forall e m d v, filter (fun e => e_id e =? 236) (events h t) = e :: m -> struct_event 236 d e -> dget d "flags" = Some v ->
    (forall z, number v z -> 0 <= z ->
       (Z.testbit z 6 = true -> dock_get en h t = Ok (Some DockMiddle)) /\
       (Z.testbit z 6 = false -> Z.testbit z 7 = true -> dock_get en h t = Ok (Some DockRight)) /\
       (Z.testbit z 6 = false -> Z.testbit z 7 = false -> dock_get en h t = Ok (Some DockLeft))) /\
    (v = VNone -> dock_get en h t = Err ValueError).
Proof.
  intros en h t. split.
  - intros N. unfold dock_get. destruct (no_first _ _ _ N) as [G _]. now rewrite G.
  - intros e m d v F (I & K & D) A. destruct (first_event _ _ _ _ _ F) as (c & l & G & E & _). unfold dock_get. rewrite G.
    change (e_of h c) with (ev_of h (ref_of h c)). rewrite E. unfold struct_get. rewrite K, D. unfold dindex. rewrite A. cbn [bind]. split.
    + intros z N Z0. apply number_as in N. unfold flag_in. rewrite N. cbn [bind]. rewrite !norm_nonneg by (unfold InsertFlags_mask; lia).
      assert (B : forall k, 0 <= k -> (Z.land z (2 ^ k) =? 2 ^ k) = Z.testbit z k).
      { intros k K0. apply eq_true_iff_eq. rewrite Z.eqb_eq, land_flag. split.
        - intros H. apply H; [exact K0|]. rewrite Z.pow2_bits_true by lia. reflexivity.
        - intros H i I0 T. rewrite Z.pow2_bits_eqb in T by lia. apply Z.eqb_eq in T. now subst. }
      change 64 with (2 ^ 6). change 128 with (2 ^ 7). rewrite !B by lia. destruct (Z.testbit z 6), (Z.testbit z 7); repeat split; intros; congruence.
    + intros ->. reflexivity.
Qed.
Print Assumptions C67_dock.

Definition eq_band_of (b : eq_band) : band := match b with LowBand => eq_low | MidBand => eq_mid | HighBand => eq_high end.
Definition eq_field_of (f : eq_field) : band_prop := match f with EqGain => Gain | EqFreq => Freq | EqReso => Reso end.
Definition eq_read (h : heap) (r : nat) (n : Z) (b : eq_band) (f : eq_field) := eq_get h (Some (PItems r n)) (eq_band_of b) (eq_field_of f).
Definition eq_write (h : heap) (r : nat) (n : Z) (b : eq_band) (f : eq_field) (v : val) := eq_set h (Some (PItems r n)) (eq_band_of b) (eq_field_of f) v.
Lemma eq_id_of b f : band_id (eq_band_of b) (eq_field_of f) = eq_id b f.
Proof. destruct b, f; reflexivity. Qed.
Lemma eq_id_inj b f b' f' : eq_id b f = eq_id b' f' -> b = b' /\ f = f'.
Proof. destruct b, f, b', f'; intros H; try discriminate H; split; reflexivity. Qed.
Lemma own_set h r j d v : element h r j d -> forall h' w, only_value h r w h' -> items (ev_of h' r) = lset (items (ev_of h r)) j (VDict (dset d "msg" v)) ->
  forall n, own_of (items (ev_of h' r)) n = own_of (items (ev_of h r)) n.
Proof. intros EL h' w O I n. unfold own_of. apply own_from_filed. rewrite I. eapply map_lset_same; [apply EL|]. apply filed_dset. Qed.

(* Gain, frequency and resonance of the three bands are nine parameters of the insert.  The last
   record of one is shown; assigning changes that record's message and nothing else in the
   project, and is shown afterwards; the other eight, and every other parameter of any insert,
   read as before. *)
Theorem C67_band : forall evs h r n b f j d m v, evs <> [] -> session evs h ->
  last_at (own_param n (eq_id b f)) (items (ev_of h r)) j -> element h r j d -> dget d "msg" = Some m ->
  eq_read h r n b f = Ok m /\
  exists h', eq_write h r n b f v = (h', Ok tt) /\ session evs h' /\ eq_read h' r n b f = Ok v /\
    item_edited (root_events h) (root_events h') r j (dset d "msg" v) /\
    (forall n' b' f', n' <> n \/ b' <> b \/ f' <> f -> eq_read h' r n' b' f' = eq_read h r n' b' f') /\
    (forall n' id', n' <> n \/ id' <> eq_id b f -> param_get h' (Some (PItems r n')) id' = param_get h (Some (PItems r n')) id').
Proof.
  intros evs h r n b f j d m v NE S LA EL D. pose proof (own_last _ _ _ _ LA) as AS.
  unfold eq_read, eq_write, eq_get, eq_set, eq_record, with_res. cbn [kw_params bind own_items]. rewrite !eq_id_of, AS. cbn [bind]. split; [eapply element_get; eauto|].
  destruct (element_set h r j d "msg" v EL) as (h' & w & E & O & I & EL'). destruct (session_item_set evs h r j d "msg" v NE S EL) as (h'' & E' & S' & _ & _ & IE).
  assert (h'' = h') by congruence. subst h''. exists h'. split; [exact E|]. split; [exact S'|]. pose proof (own_set h r j d v EL h' w O I) as FS.
  rewrite FS, AS. split; [eapply element_get; [exact EL'|apply dget_dset]|]. split; [exact IE|].
  assert (OTH : forall n' id', n' <> n \/ id' <> eq_id b f -> forall j', assoc_Z (own_of (items (ev_of h r)) n') id' = Some j' -> tg_get h' (TItem r j') "msg" = tg_get h (TItem r j') "msg").
  { intros n' id' NN j' A'. cbn [tg_get]. rewrite I, nth_error_lset. destruct (Nat.eqb_spec j' j) as [->|]; [exfalso|reflexivity].
    destruct (last_dec (own_param n' id') (own_dec n' id') (items (ev_of h r))) as [[j' LA']|NO]; [|rewrite (own_none _ _ _ NO) in A'; discriminate].
    rewrite (own_last _ _ _ _ LA') in A'. injection A' as ->. destruct LA as ((x & X & P) & _), LA' as ((x' & X' & P') & _).
    assert (x' = x) by congruence. subst x'. apply filed_own in P, P'. rewrite P in P'. assert (n' = n /\ id' = eq_id b f) as [? ?] by (split; congruence). destruct NN; contradiction. }
  split.
  - intros n' b' f' NN. rewrite !eq_id_of, FS. destruct (assoc_Z (own_of (items (ev_of h r)) n') (eq_id b' f')) as [j'|] eqn:A'; [|reflexivity]. cbn [bind].
    apply (OTH n' (eq_id b' f')); [|exact A']. destruct NN as [NN|NN]; [now left|]. right. intros Q. apply eq_id_inj in Q. destruct Q as [-> ->]. destruct NN; congruence.
  - intros n' id' NN. unfold param_get. cbn [kw_params bind own_items]. rewrite FS. destruct (assoc_Z (own_of (items (ev_of h r)) n') id') as [j'|] eqn:A'; [|reflexivity].
    now apply (OTH n' id').
Qed.
Print Assumptions C67_band.
(* Without a record for it: KeyError, unlike the insert's own parameters (C47_none) *)
Theorem C67_missing : forall h r n b f v, (forall x, In x (items (ev_of h r)) -> ~ own_param n (eq_id b f) x) ->
  eq_read h r n b f = Err KeyError /\ eq_write h r n b f v = (h, Err KeyError).
Proof.
  intros h r n b f v H. unfold eq_read, eq_write, eq_get, eq_set, eq_record, with_res. cbn [kw_params bind own_items]. rewrite !eq_id_of, (own_none _ _ _ H). split; reflexivity.
Qed.
Print Assumptions C67_missing.

(* ------------------------------------------------------------------------ C68 *)

Lemma own_put_keys d id i : map fst (own_put d id i) = if mem_Z id (map fst d) then map fst d else map fst d ++ [id].
Proof.
  induction d as [|[k j] d IH]; [reflexivity|]. cbn [own_put map fst]. change (mem_Z id (k :: map fst d)) with ((id =? k) || mem_Z id (map fst d)).
  rewrite (Z.eqb_sym id k). destruct (k =? id) eqn:E; cbn [orb map fst]; [reflexivity|]. rewrite IH. destruct (mem_Z id (map fst d)); reflexivity.
Qed.
Lemma mem_firsts z l : mem_Z z (firsts l) = mem_Z z l.
Proof. apply eq_true_iff_eq. rewrite !mem_Z_in. apply firsts_in. Qed.
Lemma own_from_keys n : forall l ids i d pre, own_ids n l ids -> map fst d = firsts pre -> map fst (own_from l n i d) = firsts (pre ++ ids).
Proof.
  intros l ids i d pre O. revert i d pre. induction O as [|v id l ids P O IH|v l ids NP O IH]; intros i d pre K; cbn [own_from].
  - now rewrite app_nil_r.
  - apply filed_own in P. rewrite P, Z.eqb_refl. rewrite (IH _ _ (pre ++ [id])); [now rewrite <- app_assoc|]. rewrite own_put_keys, K, firsts_snoc, mem_firsts. reflexivity.
  - apply IH. destruct (filed_of v) as [[m [q|] k]|] eqn:F; try exact K. destruct (Z.eqb_spec m n) as [->|]; [|exact K]. exfalso. apply (NP k). now apply filed_own.
Qed.
Lemma nodup_snoc (l : list Z) x : NoDup l -> ~ In x l -> NoDup (l ++ [x]).
Proof.
  induction l as [|y l IH]; intros N NI; cbn [app]; [constructor; [intros []|constructor]|]. inversion N as [|? ? N1 N2]; subst. constructor.
  - intros I. apply in_app_or in I. destruct I as [I|[<-|[]]]; [contradiction|]. apply NI. now left.
  - apply IH; [exact N2|]. intros I. apply NI. now right.
Qed.
Lemma own_keys_nodup n : forall l i d, NoDup (map fst d) -> NoDup (map fst (own_from l n i d)).
Proof.
  induction l as [|v l IH]; intros i d N; cbn [own_from]; [exact N|]. apply IH. destruct (filed_of v) as [[m [q|] k]|]; try exact N. destruct (m =? n); [|exact N].
  rewrite own_put_keys. destruct (mem_Z k (map fst d)) eqn:M; [exact N|]. apply mem_Z_false in M. now apply nodup_snoc.
Qed.
Lemma assoc_in d k i : NoDup (map fst d) -> In (k, i) d -> assoc_Z d k = Some i.
Proof.
  induction d as [|[a b] d IH]; intros N I; [destruct I|]. cbn [map fst] in N. inversion N as [|? ? N1 N2]; subst. cbn [assoc_Z]. destruct I as [[= -> ->]|I]; [now rewrite Z.eqb_refl|].
  destruct (Z.eqb_spec a k) as [->|]; [|now apply IH]. exfalso. apply N1. apply in_map_iff. exists (k, i). auto.
Qed.
Lemma routes_flagged h r (value : Z -> res val) : forall d bs vs, (forall k i, In (k, i) d -> value k = tg_get h (TItem r i) "msg") ->
  flagged value (filter (fun k => 64 <=? k) (map fst d)) bs vs -> routes_from h r d (map VBool bs) = Ok vs.
Proof.
  induction d as [|[k i] d IH]; intros bs vs V F; cbn [map fst filter routes_from] in *; [inversion F; subst; reflexivity|].
  assert (V' : forall k i, In (k, i) d -> value k = tg_get h (TItem r i) "msg") by (intros; apply V; now right).
  destruct (64 <=? k); [|now apply IH]. inversion F as [ids|bs0|id ids bs0 v vs0 E F0|id ids bs0 vs0 F0]; subst; cbn [map truthy].
  - clear. induction d as [|[k0 i0] d IH]; cbn [routes_from]; [reflexivity|]. destruct (64 <=? k0); exact IH.
  - rewrite <- (V k i) by now left. rewrite E. cbn [bind]. rewrite (IH bs0 vs0 V' F0). reflexivity.
  - now apply IH.
Qed.

(* In any file: the routes are the messages of the insert's parameters with ids from 64 on, in
   the order in which the ids first occur, whose flag at the same position is set. *)
Theorem C68_paired : forall h t r n e bs ids vs, first h t 235 = Ok e -> event_items e = Ok (map VBool bs) -> own_ids n (items (ev_of h r)) ids ->
  flagged (param_get h (Some (PItems r n))) (filter (fun k => 64 <=? k) (firsts ids)) bs vs -> routes h t (Some (PItems r n)) = Ok vs.
Proof.
  intros h t r n e bs ids vs E B O F. unfold routes. rewrite E. cbn [bind]. rewrite B. cbn [bind kw_params own_items].
  apply (routes_flagged h r (param_get h (Some (PItems r n)))); [|unfold own_of; now rewrite (own_from_keys n _ ids 0%nat [] [] O eq_refl)].
  intros k i I. unfold param_get. cbn [kw_params bind own_items]. rewrite (assoc_in _ k i); [reflexivity| |exact I]. unfold own_of. apply own_keys_nodup. constructor.
Qed.
Print Assumptions C68_paired.

(* The send level to insert k is the parameter 64 + k.  If the parameters with ids from 64 on
   start with 64, 65, 66 ... up to as many as there are flags, the routes are exactly the send
   levels to the inserts whose flag is set, in order. *)
Lemma flagged_prefix value : forall bs ids ids' vs, (forall j, (j < length bs)%nat -> nth_error ids j = nth_error ids' j) -> flagged value ids' bs vs -> flagged value ids bs vs.
Proof.
  induction bs as [|b bs IH]; intros ids ids' vs P F; [inversion F; subst; constructor|].
  pose proof (P 0%nat ltac:(cbn [length]; lia)) as P0. cbn [nth_error] in P0. destruct ids as [|i ids], ids' as [|i' ids']; try discriminate P0; [exact F|]. injection P0 as ->.
  assert (P' : forall j, (j < length bs)%nat -> nth_error ids j = nth_error ids' j) by (intros j J; apply (P (S j)); cbn [length]; lia).
  inversion F; subst; constructor; eauto.
Qed.
Theorem C68_routes : forall h t r n e bs ids vs, first h t 235 = Ok e -> event_items e = Ok (map VBool bs) -> own_ids n (items (ev_of h r)) ids ->
  (forall j, (j < length bs)%nat -> nth_error (filter (fun k => 64 <=? k) (firsts ids)) j = Some (64 + Z.of_nat j)) ->
  flagged (param_get h (Some (PItems r n))) (map (fun j => 64 + Z.of_nat j) (seq 0 (length bs))) bs vs -> routes h t (Some (PItems r n)) = Ok vs.
Proof.
  intros h t r n e bs ids vs E B O P F. eapply C68_paired; [exact E|exact B|exact O|]. eapply flagged_prefix; [|exact F].
  intros j J. rewrite (P j J), nth_error_map, (nth_error_nth' _ 0%nat) by (now rewrite seq_length). rewrite seq_nth by exact J. reflexivity.
Qed.
Print Assumptions C68_routes.
(* Without a routing event, or without parameters: KeyError. *)
Theorem C68_none : forall h t p, (value_of 235 (events h t) = None -> routes h t p = Err KeyError) /\
  (forall e l, first h t 235 = Ok e -> event_items e = Ok l -> routes h t None = Err KeyError).
Proof.
  intros h t p. split.
  - intros N. unfold routes. assert (F : first h t 235 = Err KeyError).
    { pose proof (first_val_spec h t 235) as FV. rewrite N in FV. unfold first_val in FV. destruct (first h t 235); cbn [bind] in FV; congruence. }
    now rewrite F.
  - intros e l E L. unfold routes. rewrite E. cbn [bind]. rewrite L. reflexivity.
Qed.
Print Assumptions C68_none.

(* --------------------------------------------------------------------- examples *)

Definition mp_rec (insert id msg : Z) : bytes := [0; 0; 0; 0; id; 31] ++ le_enc 2 (64 * insert) ++ le_enc 4 msg.
(* Insert 1: docked right (and enabled), flags of two routes; its records: sends to 0, 1 and 2, then volume and
   two gains; those of insert 2 in between. *)
Definition in_chunks (recs : bytes) : list chunk :=
  [(199, ver20); (64, [0; 0]); (236, [0; 0; 0; 0] ++ le_enc 4 136 ++ [0; 0; 0; 0]); (235, [1; 0; 1]); (225, recs)].
Definition in_file (recs : bytes) : bytes := sample (in_chunks recs).
Definition in_heap_of (recs : bytes) : heap := parsed (pr_events (load (in_file recs))).
Definition in_recs : bytes := mp_rec 1 64 100 ++ mp_rec 2 64 7 ++ mp_rec 1 65 200 ++ mp_rec 1 66 300 ++ mp_rec 1 192 12800 ++ mp_rec 1 208 10 ++ mp_rec 1 209 20 ++ mp_rec 2 208 30.
Definition in_h : heap := in_heap_of in_recs.
Lemma own_ids_filed n : forall l ids, ids = flat_map (fun v => match filed_of v with Some (Filed m None id) => if m =? n then [id] else [] | _ => [] end) l -> own_ids n l ids.
Proof.
  induction l as [|v l IH]; intros ids ->; cbn [flat_map]; [constructor|].
  assert (NO : (forall id, filed_of v <> Some (Filed n None id)) -> forall ids, own_ids n l ids -> own_ids n (v :: l) ids).
  { intros N ids O. apply own_skip; [|exact O]. intros id P. apply filed_own in P. exact (N id P). }
  destruct (filed_of v) as [[m [q|] k]|] eqn:F; cbn [app]; try (apply NO; [intros; congruence|now apply IH]).
  destruct (Z.eqb_spec m n) as [->|NM]; cbn [app]; [|apply NO; [intros; congruence|now apply IH]]. apply own_cons; [now apply filed_own|now apply IH].
Qed.
Definition in_dict (j : nat) : list (string * val) := match nth_error (items (ev_of in_h 4)) j with Some (VDict d) => d | _ => [] end.
Example C67_case : is_bytes (in_file in_recs) /\ parse en0 (in_file in_recs) = Ok (load (in_file in_recs)) /\
  dock_get en0 in_h 0 = Ok (Some DockRight) /\
  last_at (own_param 1 (eq_id LowBand EqGain)) (items (ev_of in_h 4)) 5 /\ element in_h 4 5 (in_dict 5) /\ dget (in_dict 5) "msg" = Some (VInt 10) /\
  eq_read in_h 4 1 LowBand EqGain = Ok (VInt 10) /\ eq_read in_h 4 1 MidBand EqGain = Ok (VInt 20) /\ eq_read in_h 4 2 LowBand EqGain = Ok (VInt 30) /\
  eq_read in_h 4 1 LowBand EqFreq = Err KeyError /\
  exists h', eq_write in_h 4 1 LowBand EqGain (VInt 99) = (h', Ok tt) /\ eq_read h' 4 1 LowBand EqGain = Ok (VInt 99) /\
    eq_read h' 4 1 MidBand EqGain = Ok (VInt 20) /\ eq_read h' 4 2 LowBand EqGain = Ok (VInt 30).
Proof.
  destruct (sample_ok (in_chunks in_recs) ltac:(vm_compute; reflexivity)) as [B _]. split; [exact B|]. split; [vm_compute; reflexivity|]. split; [vm_compute; reflexivity|].
  split. { split; [eexists; split; [vm_compute; reflexivity|]; apply filed_own; vm_compute; reflexivity|].
    intros j x J X. assert (j = 6 \/ j = 7)%nat as [-> | ->]; [|vm_compute in X; injection X as <-; intros P; apply filed_own in P; vm_compute in P; discriminate P|vm_compute in X; injection X as <-; intros P; apply filed_own in P; vm_compute in P; discriminate P].
    assert (L : (j < 8)%nat). { change 8%nat with (length (items (ev_of in_h 4))). apply nth_error_Some. congruence. } lia. }
  split; [split; [apply Nat.ltb_lt; vm_compute; reflexivity|split; vm_compute; reflexivity]|]. split; [vm_compute; reflexivity|]. split; [vm_compute; reflexivity|]. split; [vm_compute; reflexivity|]. split; [vm_compute; reflexivity|]. split; [vm_compute; reflexivity|].
  eexists. split; [vm_compute; reflexivity|]. split; [vm_compute; reflexivity|]. split; vm_compute; reflexivity.
Qed.
(* flags 1, 0, 1: the sends to inserts 0 and 2 *)
Example C68_case : exists e ids, first in_h 0 235 = Ok e /\ event_items e = Ok (map VBool [true; false; true]) /\ own_ids 1 (items (ev_of in_h 4)) ids /\
  (forall j, (j < 3)%nat -> nth_error (filter (fun k => 64 <=? k) (firsts ids)) j = Some (64 + Z.of_nat j)) /\
  flagged (param_get in_h (Some (PItems 4 1))) [64; 65; 66] [true; false; true] [VInt 100; VInt 300] /\ routes in_h 0 (Some (PItems 4 1)) = Ok [VInt 100; VInt 300].
Proof.
  eexists _, [64; 65; 66; 192; 208; 209]. split; [vm_compute; reflexivity|]. split; [vm_compute; reflexivity|].
  split; [apply own_ids_filed; vm_compute; reflexivity|]. split; [intros [|[|[|j]]] J; [reflexivity|reflexivity|reflexivity|lia]|].
  split; [|vm_compute; reflexivity]. apply fl_on; [vm_compute; reflexivity|]. apply fl_off. apply fl_on; [vm_compute; reflexivity|]. apply fl_flags.
Qed.
(* If the volume's record comes before the sends, or if a send has no record, the flags are
   paired with the wrong parameters: the volume of the insert is shown as a send level, a send
   that is switched off is shown, and one that is on is not. *)
Definition in_recs2 : bytes := mp_rec 1 192 12800 ++ mp_rec 1 64 100 ++ mp_rec 1 65 200 ++ mp_rec 1 66 300.
Theorem C68_refuted : is_bytes (in_file in_recs2) /\ parse en0 (in_file in_recs2) = Ok (load (in_file in_recs2)) /\
  (forall e, first (in_heap_of in_recs2) 0 235 = Ok e -> event_items e = Ok (map VBool [true; false; true])) /\
  flagged (param_get (in_heap_of in_recs2) (Some (PItems 4 1))) [64; 65; 66] [true; false; true] [VInt 100; VInt 300] /\
  routes (in_heap_of in_recs2) 0 (Some (PItems 4 1)) = Ok [VInt 12800; VInt 200].
Proof.
  destruct (sample_ok (in_chunks in_recs2) ltac:(vm_compute; reflexivity)) as [B _]. split; [exact B|]. split; [vm_compute; reflexivity|].
  split; [vm_compute; intros e [= <-]; reflexivity|]. split; [|vm_compute; reflexivity].
  apply fl_on; [vm_compute; reflexivity|]. apply fl_off. apply fl_on; [vm_compute; reflexivity|]. apply fl_flags.
Qed.
Print Assumptions C68_refuted.
