(* C41 time markers, C42 note keys, C47 mixer parameters, C48 reverb, C49 delay modulation,
   C50 VST options, C51 remote controllers, C54 version tables of the mixer. *)
From Coq Require Import String ZArith List Bool Lia Arith.
From Verif Require Import M_Base M_Float M_Text M_Construct M_Structs M_Events M_Parse M_Tree M_Prop M_Project M_Items.
From Verif Require Import S_Canon S_File S_Domain S_Tree S_Prop S_Project S_Items.
From Verif Require Import P_Base P_Null P_TreeBase P_Tree P_TreeEdit P_Prop P_Edit P_Project P_Items.
From Verif Require Import C_Samples.
Import ListNotations.
Open Scope Z_scope.

(* ------------------------------------------------------------------------- C41 *)

Theorem C41_split : forall h t z, value_of 148 (events h t) = Some (VInt z) ->
  exists p o, marker_position h t = Ok (VInt p) /\ marker_type h t = Ok (VEnum o) /\
    p + o = z /\ (o = 0 \/ o = 2 ^ 27) /\ (o = 2 ^ 27 <-> 2 ^ 27 <= z) /\ (0 <= z -> 0 <= p).
Proof.
  intros h t z H. unfold marker_position, marker_type. rewrite contains_value, first_val_spec, H. cbn [bind as_int].
  unfold Signature, Marker. change (2 ^ 27) with 134217728. destruct (Z.ltb_spec z 134217728).
  - exists z, 0. replace (134217728 <=? z) with false by lia. repeat split; lia.
  - exists (z - 134217728), 134217728. replace (134217728 <=? z) with true by lia. repeat split; lia.
Qed.
Print Assumptions C41_split.

Theorem C41_absent : forall h t, value_of 148 (events h t) = None ->
  marker_position h t = Ok VNone /\ marker_type h t = Ok VNone.
Proof. intros h t H. unfold marker_position, marker_type. now rewrite contains_value, H. Qed.
Print Assumptions C41_absent.

(* no sequence of assignments to the attributes of a marker changes where or what it is;
   assigning position or type itself is refused *)
Definition assigned (en : env) (t : nat) (l : list (marker_attr * val)) (h : heap) : heap :=
  fold_left (fun h x => fst (marker_assign en h t (fst x) (snd x))) l h.
Theorem C41_fixed : forall en evs h t l, evs <> [] -> views (parsed evs) h -> (t < nt h)%nat ->
  marker_position (assigned en t l h) t = marker_position h t /\
  marker_type (assigned en t l h) t = marker_type h t /\
  (forall u, filter (fun e => e_id e =? 148) (events (assigned en t l h) u) = filter (fun e => e_id e =? 148) (events h u)) /\
  forall v, marker_assign en h t MPosition v = (h, Err AttributeError) /\ marker_assign en h t MType v = (h, Err AttributeError).
Proof.
  intros en evs h t l NE V L. destruct (views_tree _ _ t NE V L) as (W & _).
  pose proof (marker_assigns en t l h W) as M. cbv zeta in M.
  assert (VO : value_of 148 (events (assigned en t l h) t) = value_of 148 (events h t)).
  { rewrite !value_of_filter. unfold assigned. now rewrite M. }
  split; [|split; [|split; [exact M|split; reflexivity]]]; unfold marker_position, marker_type; now rewrite !contains_value, !first_val_spec, VO.
Qed.
Print Assumptions C41_fixed.

Definition item_chunks : list chunk :=
  [(199, ver20); (148, [192; 0; 0; 8]); (33, [3]); (34, [4]); (205, title16); (64, [1; 0]);
   (138, [5; 0; 7; 0]); (139, [7; 0; 1; 0])].
Definition item_file : bytes := sample item_chunks.
Definition item_evs : list event := pr_events (load item_file).
Definition item_heap : heap := parsed item_evs.
Lemma item_read : is_bytes item_file /\ canonical_file en0 item_file /\ parse en0 item_file = Ok (load item_file).
Proof.
  destruct (sample_ok item_chunks ltac:(vm_compute; reflexivity)) as [B C]. split; [exact B|]. split; [exact C|]. vm_compute. reflexivity.
Qed.
Example C41_case : item_evs <> [] /\ views (parsed item_evs) item_heap /\ (0 < nt item_heap)%nat /\
  value_of 148 (events item_heap 0) = Some (VInt (2 ^ 27 + 192)) /\
  marker_position item_heap 0 = Ok (VInt 192) /\ marker_type item_heap 0 = Ok (VEnum (2 ^ 27)) /\
  value_of 33 (events (assigned en0 0 [(MNumerator, VInt 5); (MType, VInt 0)] item_heap) 0) = Some (VInt 5) /\
  marker_position (assigned en0 0 [(MNumerator, VInt 5); (MType, VInt 0)] item_heap) 0 = Ok (VInt 192).
Proof. split; [vm_compute; discriminate|]. split; [apply views_none|]. vm_compute. repeat split; try lia. Qed.

(* ------------------------------------------------------------------------- C42 *)

Theorem C42_name : forall h g k, tg_get h g "key" = Ok (VInt k) -> 0 <= k < 132 -> key_get h g = Ok (VStr (str (key_name k))).
Proof.
  intros h g k H R. unfold key_get. rewrite H. cbn [bind as_int].
  assert (X : forallb (fun k => match nth_error note_names (Z.to_nat (k mod 12)) with
      | Some n => if list_eq_dec Z.eq_dec (n ++ py_str_int (k / 12)) (str (key_name k)) then true else false | None => false end)
    (map Z.of_nat (seq 0 132)) = true) by (vm_compute; reflexivity).
  rewrite forallb_forall in X. specialize (X k). cbv beta in X.
  destruct (nth_error note_names (Z.to_nat (k mod 12))) as [n|].
  - destruct (list_eq_dec _ _ _) as [->|]; [reflexivity|]. discriminate X. apply in_map_iff. exists (Z.to_nat k). rewrite in_seq. lia.
  - discriminate X. apply in_map_iff. exists (Z.to_nat k). rewrite in_seq. lia.
Qed.
Print Assumptions C42_name.

(* different keys have different names - for all keys from 0 on, not only up to 131 *)
Theorem C42_injective : forall h g k h2 g2 k2 s,
  tg_get h g "key" = Ok (VInt k) -> tg_get h2 g2 "key" = Ok (VInt k2) -> 0 <= k -> 0 <= k2 ->
  key_get h g = Ok (VStr s) -> key_get h2 g2 = Ok (VStr s) -> k = k2.
Proof. exact key_get_inj. Qed.
Print Assumptions C42_injective.

(* a number in range is stored in that note and nowhere else *)
Theorem C42_set_number : forall h r i d k, element h r i d -> 0 <= k < 132 ->
  exists h' w, key_set h (TItem r i) (VInt k) = (h', Ok tt) /\ only_value h r w h' /\
    items (ev_of h' r) = lset (items (ev_of h r)) i (VDict (dset d "key" (VInt k))) /\
    key_get h' (TItem r i) = Ok (VStr (str (key_name k))).
Proof.
  intros h r i d k E R. destruct (element_set h r i d "key" (VInt k) E) as (h' & w & S & O & I & E'). exists h', w.
  cbn [key_set as_int]. replace ((0 <=? k) && (k <? 132)) with true by lia. split; [exact S|]. split; [exact O|]. split; [exact I|].
  apply C42_name; [|exact R]. eapply element_get; [exact E'|]. apply dget_dset.
Qed.
Print Assumptions C42_set_number.
Theorem C42_set_range : forall h g k, k < 0 \/ 131 < k -> key_set h g (VInt k) = (h, Err ValueError).
Proof. intros h g k H. cbn [key_set as_int]. replace ((0 <=? k) && (k <? 132)) with false by lia. reflexivity. Qed.
Print Assumptions C42_set_range.

(* any text: ValueError; the letter of a natural note followed by something int() reads has
   been stored before, everything else changes nothing *)
Theorem C42_set_text : forall h r i d s, element h r i d ->
  exists h', key_set h (TItem r i) (VStr s) = (h', Err ValueError) /\
    ((exists c o n k, s = c :: o /\ natural c = Some n /\ py_int o = Some k /\
        items (ev_of h' r) = lset (items (ev_of h r)) i (VDict (dset d "key" (VInt (12 * k + n)))) /\ exists w, only_value h r w h')
     \/ ((forall c o n k, s = c :: o -> natural c = Some n -> py_int o <> Some k) /\ h' = h)).
Proof.
  intros h r i d s E. rewrite key_set_text.
  2:{ intros v. destruct (element_set h r i d "key" v E) as (h' & w & S & _). now rewrite S. }
  eexists. split; [reflexivity|]. unfold named. destruct s as [|c o]; [right; split; [congruence|reflexivity]|].
  destruct (natural c) as [n|] eqn:N.
  - destruct (py_int o) as [k|] eqn:P.
    + left. exists c, o, n, k. split; [reflexivity|]. split; [exact N|]. split; [exact P|]. destruct (element_set h r i d "key" (VInt (12 * k + n)) E) as (h' & w & S & O & I & _).
      cbn [fst]. rewrite S. cbn [fst]. split; [exact I|exists w; exact O].
    + right. split; [|reflexivity]. intros c' o' n' k' [= <- <-] _. congruence.
  - right. split; [|reflexivity]. intros c' o' n' k' [= <- <-] X. congruence.
Qed.
Print Assumptions C42_set_text.

(* what is read cannot be assigned: the name of the very same key is refused *)
Theorem C42_own_name_refuted : forall h r i d k, element h r i d -> dget d "key" = Some (VInt k) -> 0 <= k < 132 ->
  exists v, key_get h (TItem r i) = Ok v /\ snd (key_set h (TItem r i) v) = Err ValueError.
Proof.
  intros h r i d k E D R. exists (VStr (str (key_name k))). split; [apply C42_name; [eapply element_get; eauto|exact R]|].
  destruct (C42_set_text h r i d (str (key_name k)) E) as (h' & -> & _). reflexivity.
Qed.
Print Assumptions C42_own_name_refuted.

Definition note_heap : heap := parsed [Event 224 KNotes 24 false (VList [VDict [("position"%string, VInt 0); ("key"%string, VInt 61)]])].
Example C42_case : element note_heap 0 0 [("position"%string, VInt 0); ("key"%string, VInt 61)] /\
  key_get note_heap (TItem 0 0) = Ok (VStr (str "C#5")) /\
  key_get (fst (key_set note_heap (TItem 0 0) (VStr (str "D4")))) (TItem 0 0) = Ok (VStr (str "D4")) /\
  key_get (fst (key_set note_heap (TItem 0 0) (VStr (str "D#4")))) (TItem 0 0) = Ok (VStr (str "C#5")).
Proof. split; [split; [vm_compute; lia|split; vm_compute; reflexivity]|]. vm_compute. repeat split. Qed.

(* ------------------------------------------------------------------------- C48 *)

(* what is shown of a stored value: type B from 65536 on, the rest is the mix *)
Lemma reverb_read h t z : value_of 139 (events h t) = Some (VInt z) ->
  reverb_type_get h t = Ok (VEnum (if reverb_b z then 65536 else 0)) /\
  reverb_mix_get h t = Ok (VInt (z - if reverb_b z then 65536 else 0)).
Proof.
  intros H. unfold reverb_type_get, reverb_mix_get, reverb_id, reverb_kind. rewrite contains_value, first_val_spec, H. split; reflexivity.
Qed.
Theorem C48_read : forall h t z, value_of 139 (events h t) = Some (VInt z) -> 0 <= z ->
  exists ty m, reverb_type_get h t = Ok (VEnum ty) /\ reverb_mix_get h t = Ok (VInt m) /\
    ty + m = z /\ 0 <= m /\ (ty = 0 \/ ty = 65536) /\ (ty = 0 -> m < 65536).
Proof.
  intros h t z H R. destruct (reverb_read h t z H) as [-> ->]. eexists _, _. split; [reflexivity|]. split; [reflexivity|].
  unfold reverb_b. destruct (Z.leb_spec 65536 z); lia.
Qed.
Print Assumptions C48_read.

(* Assigning the type changes that one event, keeps the mix whenever the type reads back,
   and it does so unless A is assigned over a mix of 65536 or more *)
Theorem C48_type : forall evs h t z ty, evs <> [] -> views (parsed evs) h -> (t < nt h)%nat ->
  value_of 139 (events h t) = Some (VInt z) -> 0 <= z -> ty = 0 \/ ty = 65536 ->
  exists h' j m, reverb_mix_get h t = Ok (VInt m) /\ reverb_type_set h t ty = (h', Ok tt) /\
    changed 139 (VInt (ty + m)) evs (root_events h') j /\ same_shape h h' /\
    (reverb_type_get h' t = Ok (VEnum ty) <-> ty = 65536 \/ m < 65536) /\
    (reverb_mix_get h' t = reverb_mix_get h t <-> ty = 65536 \/ m < 65536).
Proof.
  intros evs h t z ty NE V L H R HT. destruct (reverb_read h t z H) as [_ HM]. set (m := z - _) in HM.
  destruct (set_first_view evs h t 139 (VInt (ty + m)) NE V L ltac:(congruence)) as (h' & j & S & SH & C & E & _).
  assert (H' : value_of 139 (events h' t) = Some (VInt (ty + m))) by (rewrite E, value_put, H; reflexivity).
  destruct (reverb_read h' t _ H') as [T' M']. exists h', j, m. split; [exact HM|].
  split; [unfold reverb_type_set; rewrite HM; exact S|]. split; [exact C|]. split; [exact SH|].
  rewrite T', M', HM. assert (0 <= m) by (unfold m, reverb_b; destruct (Z.leb_spec 65536 z); lia). clearbody m. unfold reverb_b. clear - HT H0.
  destruct (Z.leb_spec 65536 (ty + m)); split; split; intros X; try lia; try (f_equal; f_equal; lia); try (injection X as X; lia).
Qed.
Print Assumptions C48_type.

(* Assigning the mix adds it to what is stored: it reads back only if it was zero *)
Theorem C48_mix : forall evs h t z m, evs <> [] -> views (parsed evs) h -> (t < nt h)%nat ->
  value_of 139 (events h t) = Some (VInt z) -> 0 <= z -> 0 <= m < 65536 ->
  exists h' j, reverb_mix_set h t m = (h', Ok tt) /\
    changed 139 (VInt (z + m)) evs (root_events h') j /\ same_shape h h' /\
    (reverb_mix_get h' t = Ok (VInt m) <-> reverb_mix_get h t = Ok (VInt 0)) /\
    (reverb_mix_get h t = Ok (VInt 0) -> reverb_type_get h' t = reverb_type_get h t).
Proof.
  intros evs h t z m NE V L H R HM. destruct (reverb_read h t z H) as [T0 M0].
  destruct (set_first_view evs h t 139 (VInt (z + m)) NE V L ltac:(congruence)) as (h' & j & S & SH & C & E & _).
  assert (H' : value_of 139 (events h' t) = Some (VInt (z + m))) by (rewrite E, value_put, H; reflexivity).
  destruct (reverb_read h' t _ H') as [T' M']. exists h', j.
  split; [unfold reverb_mix_set, reverb_id; rewrite contains_value, first_val_spec, H; exact S|]. split; [exact C|]. split; [exact SH|].
  rewrite T', M', T0, M0. unfold reverb_b. clear - R HM.
  destruct (Z.leb_spec 65536 (z + m)), (Z.leb_spec 65536 z); (split; [split|]); intros X; try (injection X as X); try reflexivity; try lia; try (f_equal; f_equal; lia).
Qed.
Print Assumptions C48_mix.
Theorem C48_mix_refuted : exists evs h t z m h', evs <> [] /\ views (parsed evs) h /\ (t < nt h)%nat /\
  value_of 139 (events h t) = Some (VInt z) /\ 0 <= m < 65536 /\ reverb_mix_set h t m = (h', Ok tt) /\
  reverb_mix_get h' t <> Ok (VInt m).
Proof.
  exists item_evs, item_heap, 0%nat, 65543, 10. eexists. split; [vm_compute; discriminate|]. split; [apply views_none|].
  split; [vm_compute; lia|]. split; [vm_compute; reflexivity|]. split; [lia|]. split; [vm_compute; reflexivity|]. vm_compute. discriminate.
Qed.
Print Assumptions C48_mix_refuted.

Theorem C48_absent : forall h t ty m, value_of 139 (events h t) = None ->
  reverb_type_get h t = Ok VNone /\ reverb_mix_get h t = Ok VNone /\
  reverb_type_set h t ty = (h, Err PropertyCannotBeSet) /\ reverb_mix_set h t m = (h, Err PropertyCannotBeSet).
Proof.
  intros h t ty m H. unfold reverb_type_set, reverb_mix_set, reverb_type_get, reverb_mix_get, reverb_id. rewrite contains_value, H. repeat split.
Qed.
Print Assumptions C48_absent.

(* the type is in the saved file *)
Theorem C48_saved : forall en f p h t z ty, is_bytes f -> parse en f = Ok p -> canonical_file en f ->
  views (parsed (pr_events p)) h -> (t < nt h)%nat -> value_of 139 (events h t) = Some (VInt z) -> 0 <= z < 2 ^ 32 - 65536 ->
  ty = 0 \/ ty = 65536 -> zlen f + 16 < 2 ^ 32 ->
  exists h' f' p' j m, reverb_mix_get h t = Ok (VInt m) /\ reverb_type_set h t ty = (h', Ok tt) /\
    serialise en (Project (root_events h') (pr_channel_count p) (pr_format p) (pr_ppq p)) = Ok f' /\ parse en f' = Ok p' /\
    (exists e, nth_error (pr_events p) j = Some e /\ e_id e = 139) /\ reloaded (pr_events p) j (VInt (ty + m)) (pr_events p').
Proof.
  intros en f p h t z ty B P C V L H R T SZ. destruct (reverb_read h t z H) as [_ HM]. set (m := z - _) in HM.
  assert (HD : 0 <= ty + m < 2 ^ 32) by (unfold m, reverb_b; destruct (Z.leb_spec 65536 z); lia).
  destruct (set_first_saved en f p h t 139 KU32 (VInt (ty + m)) B P C V L) as (h' & f' & p' & j & S1 & S2 & S3 & S4 & S5).
  - rewrite H. discriminate.
  - lia.
  - lia.
  - unfold registered. destruct (en_ctrl en); vm_compute; reflexivity.
  - reflexivity.
  - exists (ty + m). split; [reflexivity|exact HD].
  - cbn [room]. lia.
  - exists h', f', p', j, m. split; [exact HM|]. split; [unfold reverb_type_set; rewrite HM; exact S1|]. eauto.
Qed.
Print Assumptions C48_saved.

Example C48_case : is_bytes item_file /\ canonical_file en0 item_file /\ parse en0 item_file = Ok (load item_file) /\
  value_of 139 (events item_heap 0) = Some (VInt 65543) /\ reverb_type_get item_heap 0 = Ok (VEnum 65536) /\
  reverb_mix_get item_heap 0 = Ok (VInt 7) /\
  reverb_type_get (fst (reverb_type_set item_heap 0 0)) 0 = Ok (VEnum 0) /\
  reverb_mix_get (fst (reverb_type_set item_heap 0 0)) 0 = Ok (VInt 7) /\
  reverb_mix_get (fst (reverb_mix_set item_heap 0 10)) 0 = Ok (VInt 17).
Proof. destruct item_read as (A & B & C). repeat (split; [assumption|]). vm_compute. repeat split. Qed.

(* ------------------------------------------------------------------------- C49 *)

Lemma mods_read h t x y : value_of 138 (events h t) = Some (VTup [x; y]) -> mod_x_get h t = Ok x /\ mod_y_get h t = Ok y.
Proof. intros H. unfold mod_x_get, mod_y_get, delay_mod_id. rewrite first_val_spec, H. split; reflexivity. Qed.

Theorem C49_mod_x : forall evs h t x y v, evs <> [] -> views (parsed evs) h -> (t < nt h)%nat ->
  value_of 138 (events h t) = Some (VTup [x; y]) ->
  exists h' j, mod_x_set h t v = (h', Ok tt) /\ changed 138 (VTup [v; y]) evs (root_events h') j /\ same_shape h h' /\
    mod_x_get h' t = Ok v /\ mod_y_get h' t = mod_y_get h t.
Proof.
  intros evs h t x y v NE V L H. destruct (mods_read h t x y H) as [_ Y].
  destruct (set_first_view evs h t 138 (VTup [v; y]) NE V L ltac:(congruence)) as (h' & j & S & SH & C & E & _).
  assert (H' : value_of 138 (events h' t) = Some (VTup [v; y])) by (rewrite E, value_put, H; reflexivity).
  destruct (mods_read h' t _ _ H') as [X' Y']. exists h', j. unfold mod_x_set. rewrite Y. split; [exact S|]. rewrite Y'. auto.
Qed.
Print Assumptions C49_mod_x.
Theorem C49_mod_y : forall evs h t x y v, evs <> [] -> views (parsed evs) h -> (t < nt h)%nat ->
  value_of 138 (events h t) = Some (VTup [x; y]) ->
  exists h' j, mod_y_set h t v = (h', Ok tt) /\ changed 138 (VTup [x; v]) evs (root_events h') j /\ same_shape h h' /\
    mod_y_get h' t = Ok v /\ mod_x_get h' t = mod_x_get h t.
Proof.
  intros evs h t x y v NE V L H. destruct (mods_read h t x y H) as [X _].
  destruct (set_first_view evs h t 138 (VTup [x; v]) NE V L ltac:(congruence)) as (h' & j & S & SH & C & E & _).
  assert (H' : value_of 138 (events h' t) = Some (VTup [x; v])) by (rewrite E, value_put, H; reflexivity).
  destruct (mods_read h' t _ _ H') as [X' Y']. exists h', j. unfold mod_y_set. rewrite X. split; [exact S|]. rewrite X'. auto.
Qed.
Print Assumptions C49_mod_y.
Theorem C49_absent : forall h t v, value_of 138 (events h t) = None ->
  mod_x_get h t = Err KeyError /\ mod_y_get h t = Err KeyError /\
  mod_x_set h t v = (h, Err KeyError) /\ mod_y_set h t v = (h, Err KeyError).
Proof. intros h t v H. unfold mod_x_set, mod_y_set, mod_x_get, mod_y_get, delay_mod_id. rewrite first_val_spec, H. repeat split. Qed.
Print Assumptions C49_absent.

(* in a file the event always holds two numbers, and both settings are saved *)
Theorem C49_saved : forall en f p h t o v, is_bytes f -> parse en f = Ok p -> canonical_file en f ->
  views (parsed (pr_events p)) h -> (t < nt h)%nat -> value_of 138 (events h t) = Some o -> 0 <= v < 2 ^ 16 -> zlen f + 16 < 2 ^ 32 ->
  exists x y, o = VTup [VInt x; VInt y] /\ 0 <= x < 2 ^ 16 /\ 0 <= y < 2 ^ 16 /\
    (exists h' f' p' j, mod_x_set h t (VInt v) = (h', Ok tt) /\
      serialise en (Project (root_events h') (pr_channel_count p) (pr_format p) (pr_ppq p)) = Ok f' /\ parse en f' = Ok p' /\
      (exists e, nth_error (pr_events p) j = Some e /\ e_id e = 138) /\ reloaded (pr_events p) j (VTup [VInt v; VInt y]) (pr_events p')) /\
    (exists h' f' p' j, mod_y_set h t (VInt v) = (h', Ok tt) /\
      serialise en (Project (root_events h') (pr_channel_count p) (pr_format p) (pr_ppq p)) = Ok f' /\ parse en f' = Ok p' /\
      (exists e, nth_error (pr_events p) j = Some e /\ e_id e = 138) /\ reloaded (pr_events p) j (VTup [VInt x; VInt v]) (pr_events p')).
Proof.
  intros en f p h t o v B P C V L H R SZ.
  assert (RG : registered en 138 = Some KU16Tuple) by (unfold registered; destruct (en_ctrl en); vm_compute; reflexivity).
  destruct (canonical_encodes en f p B P C) as (cs & HE & _ & _ & _ & _ & _ & _ & NE).
  destruct (value_in _ _ _ H) as (e & I & EI & EV). apply (in_view _ _ _ _ NE V L) in I.
  assert (X : exists x y, o = VTup [VInt x; VInt y] /\ 0 <= x < 2 ^ 16 /\ 0 <= y < 2 ^ 16).
  { pose proof (value_domain en _ _ _ e KU16Tuple HE I ltac:(rewrite EI; exact RG) eq_refl ltac:(discriminate) ltac:(lia)) as D.
    rewrite EV in D. destruct D as (x & y & -> & RX & RY). exists x, y. auto. }
  destruct X as (x & y & -> & RX & RY). exists x, y. split; [reflexivity|]. split; [exact RX|]. split; [exact RY|].
  destruct (mods_read h t _ _ H) as [X Y]. unfold mod_x_set, mod_y_set. rewrite X, Y.
  split; (eapply set_first_saved; [eassumption|eassumption|eassumption|eassumption|eassumption|rewrite H; discriminate|lia|lia|exact RG|reflexivity| |cbn [room]; lia]).
  - exists v, y. auto.
  - exists x, v. auto.
Qed.
Print Assumptions C49_saved.
Example C49_case : value_of 138 (events item_heap 0) = Some (VTup [VInt 5; VInt 7]) /\
  mod_x_get (fst (mod_x_set item_heap 0 (VInt 9))) 0 = Ok (VInt 9) /\ mod_y_get (fst (mod_x_set item_heap 0 (VInt 9))) 0 = Ok (VInt 7).
Proof. vm_compute. repeat split. Qed.

(* ------------------------------------------------------------------------- C50 *)

(* What assigning a VST flag really does: true (false for an inverted flag) sets bit 0 of
   the flags, the other one changes nothing.  Nothing else in the plugin data changes. *)
Theorem C50_result : forall en evs h t k e d l i s fd name mask inv value z, evs <> [] -> views (parsed evs) h -> (t < nt h)%nat ->
  vst_at h t k e d l -> sub l 2 i s (VDict fd) -> dget fd name = Some (VEnum z) -> 0 <= z -> 0 < mask ->
  exists h' r, vst_flag_set en h t name mask inv value = (h', Ok tt) /\
    changed 213 (with_sub d l i s (VDict (dset fd name (VEnum (if xorb inv value then Z.lor z 1 else z))))) evs (root_events h') r.
Proof.
  intros en evs h t k e d l i s fd name mask inv value z NE V L A S F Z0 M. unfold vst_flag_set.
  set (w := if xorb inv value then Z.lor z 1 else z).
  assert (W : intflag_norm (en_py311 en) mask (if if inv then negb value else value then Z.lor z (Z.b2z (if inv then negb value else value)) else Z.land z (Z.lnot (Z.b2z (if inv then negb value else value)))) = w).
  { unfold w. destruct inv, value; cbn [xorb negb Z.b2z]; rewrite ?Z.land_m1_r, norm_nonneg; try reflexivity; try exact M; try exact Z0; try (apply Z.lor_nonneg; lia). }
  match goal with |- context [vst_set h t 2 ?f] => destruct (vst_set_spec evs h t k e d l 2 i s (VDict fd) (VDict (dset fd name (VEnum w))) f NE V L A S) as (h' & r & X & _ & _ & C & _) end.
  - cbv zeta. unfold dindex. rewrite F. cbn [bind]. rewrite W. reflexivity.
  - eauto.
Qed.
Print Assumptions C50_result.

(* so a flag (bit n) reads back as assigned only if it is bit 0 being set, or if it was so
   before; and exactly that bit has changed only under the conditions given here *)
Theorem C50_readback : forall en evs h t k e d l i s fd name mask inv value z n, evs <> [] -> views (parsed evs) h -> (t < nt h)%nat ->
  vst_at h t k e d l -> sub l 2 i s (VDict fd) -> dget fd name = Some (VEnum z) -> 0 <= z -> 0 < mask -> 0 <= n ->
  exists h', vst_flag_set en h t name mask inv value = (h', Ok tt) /\
    (vst_flag_get en h' t name mask (2 ^ n) inv = Ok (VBool value) <->
       vst_flag_get en h t name mask (2 ^ n) inv = Ok (VBool value) \/ (n = 0 /\ xorb inv value = true)).
Proof.
  intros en evs h t k e d l i s fd name mask inv value z n NE V L A S F Z0 M N0. unfold vst_flag_set.
  set (w := if xorb inv value then Z.lor z 1 else z).
  assert (W : intflag_norm (en_py311 en) mask (if if inv then negb value else value then Z.lor z (Z.b2z (if inv then negb value else value)) else Z.land z (Z.lnot (Z.b2z (if inv then negb value else value)))) = w).
  { unfold w. destruct inv, value; cbn [xorb negb Z.b2z]; rewrite ?Z.land_m1_r, norm_nonneg; try reflexivity; try exact M; try exact Z0; try (apply Z.lor_nonneg; lia). }
  match goal with |- context [vst_set h t 2 ?f] => destruct (vst_set_spec evs h t k e d l 2 i s (VDict fd) (VDict (dset fd name (VEnum w))) f NE V L A S) as (h' & r & X & _ & _ & _ & A') end.
  { cbv zeta. unfold dindex. rewrite F. cbn [bind]. rewrite W. reflexivity. }
  exists h'. split; [exact X|]. unfold vst_flag_get. rewrite (vst_get_spec _ _ _ _ _ _ _ _ _ _ _ A' (sub_after _ _ _ _ _ _ S)), (vst_get_spec _ _ _ _ _ _ _ _ _ _ _ A S).
  unfold dindex. rewrite dget_dset, F. cbn [bind].
  assert (B : forall y, (Z.land y (2 ^ n) =? 2 ^ n) = Z.testbit y n).
  { intros y. destruct (Z.testbit y n) eqn:T.
    - apply Z.eqb_eq. apply Z.bits_inj'. intros b Hb. rewrite Z.land_spec, Z.pow2_bits_eqb by lia. destruct (Z.eqb_spec n b) as [<-|]; [now rewrite T|apply andb_false_r].
    - apply Z.eqb_neq. intros E. assert (Z.testbit (Z.land y (2 ^ n)) n = false) by (rewrite Z.land_spec, T; reflexivity).
      rewrite E, Z.pow2_bits_true in H by lia. discriminate. }
  rewrite !B. assert (T1 : Z.testbit 1 n = (n =? 0)) by (change 1 with (2 ^ 0); rewrite Z.pow2_bits_eqb by lia; apply Z.eqb_sym).
  unfold w. destruct (Z.eqb_spec n 0) as [->|NN]; destruct inv, value; cbn [xorb]; rewrite ?Z.lor_spec, ?T1; destruct (Z.testbit z _); cbn; (split; [intros [= ]; auto|intros [X1|[X1 X2]]; congruence]).
Qed.
Print Assumptions C50_readback.
Theorem C50_exact : forall z n b, 0 <= z -> 0 <= n ->
  (bits_set z (2 ^ n) b (if b then Z.lor z 1 else z) <-> if b then n = 0 \/ (Z.testbit z n = true /\ Z.testbit z 0 = true) else Z.testbit z n = false).
Proof.
  intros z n b Z0 N0. unfold bits_set. assert (T1 : forall j, 0 <= j -> Z.testbit 1 j = (j =? 0)) by (intros j J; change 1 with (2 ^ 0); rewrite Z.pow2_bits_eqb by lia; apply Z.eqb_sym).
  destruct b.
  - split.
    + intros H. pose proof (H n N0) as Hn. pose proof (H 0 ltac:(lia)) as H0. rewrite Z.pow2_bits_eqb, Z.lor_spec, T1 in Hn, H0 by lia.
      rewrite Z.eqb_refl in Hn. destruct (Z.eqb_spec n 0); [now left|]. right. change (0 =? 0) with true in H0. rewrite orb_false_r in Hn. rewrite orb_true_r in H0. auto.
    + intros [->|[A B]] i I; rewrite Z.pow2_bits_eqb, Z.lor_spec, T1 by lia.
      * rewrite (Z.eqb_sym i). destruct (0 =? i); [apply orb_true_r|apply orb_false_r].
      * destruct (Z.eqb_spec n i) as [<-|]; [now rewrite A|]. destruct (Z.eqb_spec i 0) as [->|]; [now rewrite B|apply orb_false_r].
  - split.
    + intros H. specialize (H n N0). rewrite Z.pow2_bits_true in H by lia. exact H.
    + intros H i I. rewrite Z.pow2_bits_eqb by lia. destruct (Z.eqb_spec n i) as [<-|]; [exact H|reflexivity].
Qed.
Print Assumptions C50_exact.

(* the plugin data of a VST with flags 4 (bit 2), in a file *)
Definition wrapper16 : bytes := concat (map (fun c => [c; 0]) (str "Fruity Wrapper" ++ [0])).
Definition vst_payload : bytes :=
  [10; 0; 0; 0] ++ [54; 0; 0; 0; 3; 0; 0; 0; 0; 0; 0; 0; 65; 66; 67] ++
  [2; 0; 0; 0; 23; 0; 0; 0; 0; 0; 0; 0] ++ [1; 2; 3; 4; 5; 6; 7; 8; 9; 4; 0; 0; 0; 0; 0; 0; 0; 1; 2; 3; 4; 5; 1].
Definition vst_chunks : list chunk := [(199, ver20); (64, [1; 0]); (201, wrapper16); (213, vst_payload)].
Definition vst_evs : list event := pr_events (load (sample vst_chunks)).
Definition vst_heap : heap := parsed vst_evs.
Definition vst_event0 : event := nth 3 vst_evs (Event 0 KUnknown 0 false VNone).
Definition vst_dict : list (string * val) := match e_val vst_event0 with VDict d => d | _ => [] end.
Definition vst_list : list val := match dget vst_dict "events" with Some (VList l) => l | _ => [] end.
Definition vst_sub : list (string * val) := match nth_error vst_list 1 with Some (VDict d) => d | _ => [] end.
Definition vst_fd : list (string * val) := match dget vst_sub "data" with Some (VDict d) => d | _ => [] end.
Example C50_case : vst_evs <> [] /\ views (parsed vst_evs) vst_heap /\ (0 < nt vst_heap)%nat /\
  vst_at vst_heap 0 3 vst_event0 vst_dict vst_list /\ sub vst_list 2 1 vst_sub (VDict vst_fd) /\
  dget vst_fd "flags" = Some (VEnum 4) /\ vst_prop_get vst_heap 0 54 "name" = Ok (VStr (str "ABC")) /\
  vst_flag_get en0 vst_heap 0 "flags" VSTFlags_mask 4 false = Ok (VBool true) /\
  vst_flag_get en0 (fst (vst_flag_set en0 vst_heap 0 "flags" VSTFlags_mask false false)) 0 "flags" VSTFlags_mask 4 false = Ok (VBool true).
Proof.
  split; [vm_compute; discriminate|]. split; [apply views_none|]. split; [vm_compute; lia|]. split.
  { split; [|split; [vm_compute; reflexivity|split; [vm_compute; reflexivity|split; vm_compute; reflexivity]]].
    eapply (ch_some _ _ [] 213 [] 3%nat); [reflexivity|intros e _ []|vm_compute; reflexivity|vm_compute; reflexivity|].
    intros [|[|[|j]]] e' J X; try lia; vm_compute in X; injection X as <-; vm_compute; discriminate. }
  split.
  { split; [vm_compute; reflexivity|]. split.
    { exists vst_sub, (VEnum 2). split; [vm_compute; reflexivity|]. split; [vm_compute; reflexivity|right; left; reflexivity]. }
    split; [vm_compute; reflexivity|]. intros [|j] v J X; [|lia]. vm_compute in X. injection X as <-.
    intros (s & m & E & D & N). injection E as <-. vm_compute in D. injection D as <-. destruct N as [N|[N|(b & N & _)]]; congruence. }
  vm_compute. repeat split.
Qed.
(* assigning False to a set flag leaves it set, assigning True to another one does not set it *)
Theorem C50_refuted : exists en evs h t n n',
  evs <> [] /\ views (parsed evs) h /\ (t < nt h)%nat /\
  vst_flag_get en h t "flags" VSTFlags_mask (2 ^ n) false = Ok (VBool true) /\
  vst_flag_get en (fst (vst_flag_set en h t "flags" VSTFlags_mask false false)) t "flags" VSTFlags_mask (2 ^ n) false = Ok (VBool true) /\
  vst_flag_get en (fst (vst_flag_set en h t "flags" VSTFlags_mask false true)) t "flags" VSTFlags_mask (2 ^ n') false = Ok (VBool false).
Proof.
  exists en0, vst_evs, vst_heap, 0%nat, 2, 3. split; [vm_compute; discriminate|]. split; [apply views_none|]. split; [vm_compute; lia|].
  vm_compute. repeat split.
Qed.
Print Assumptions C50_refuted.

(* ------------------------------------------------------------------------- C51 *)

(* Whatever the stored target, the parameter is 1 and the controlled thing no VST: right
   exactly if the low 15 bits are 1, or bit 15 is clear *)
Theorem C51_always : forall h t k e d z, chosen [227] (events h t) (Some k) -> nth_error (events h t) k = Some e ->
  is_struct_kind (e_kind e) = true -> e_val e = VDict d -> dget d "parameter_data" = Some (VInt z) ->
  (remote_parameter h t = Ok (VInt (z mod 2 ^ 15)) <-> z mod 2 ^ 15 = 1) /\
  (remote_controls_vst h t = Ok (VBool (Z.testbit z 15)) <-> Z.testbit z 15 = false) /\
  remote_parameter h t = Ok (VInt 1) /\ remote_controls_vst h t = Ok (VBool false).
Proof.
  intros h t k e d z CH K SK EV D.
  assert (R : remote_data h t = Ok (VInt z)).
  { unfold remote_data. rewrite (first_chosen _ _ _ _ _ CH K). cbn [bind]. unfold struct_get. rewrite SK, EV. unfold dindex. now rewrite D. }
  unfold remote_parameter, remote_controls_vst. rewrite R. cbn [bind is_none negb Z.b2z].
  change (Z.land 1 32767) with 1. change (0 <? Z.land 1 32768) with false. split; [split; [intros X; injection X as X; lia|now intros ->]|].
  split; [|split; reflexivity]. destruct (Z.testbit z 15); split; congruence.
Qed.
Print Assumptions C51_always.
Theorem C51_absent : forall h t k e d, chosen [227] (events h t) (Some k) -> nth_error (events h t) k = Some e ->
  is_struct_kind (e_kind e) = true -> e_val e = VDict d -> dget d "parameter_data" = Some VNone ->
  remote_parameter h t = Ok VNone /\ remote_controls_vst h t = Ok VNone.
Proof.
  intros h t k e d CH K SK EV D.
  assert (R : remote_data h t = Ok VNone).
  { unfold remote_data. rewrite (first_chosen _ _ _ _ _ CH K). cbn [bind]. unfold struct_get. rewrite SK, EV. unfold dindex. now rewrite D. }
  unfold remote_parameter, remote_controls_vst. now rewrite R.
Qed.
Print Assumptions C51_absent.

(* a controller with target 0x8005, and one whose event is too short to name a target *)
Definition en_c : env := Env true (fun x => Ok x) (fun x => Ok x) true.
Definition remote_heap : heap :=
  match mk_event en_c KRemoteController 227 [0; 0; 1; 2; 5; 128; 7; 0; 1; 2; 3; 4; 5; 6; 7; 8; 1; 2; 3; 4] with Ok e => parsed [e] | Err _ => parsed [] end.
Definition remote_short : heap :=
  match mk_event en_c KRemoteController 227 [0; 0; 1; 2; 5] with Ok e => parsed [e] | Err _ => parsed [] end.
Theorem C51_refuted : exists h t z, remote_data h t = Ok (VInt z) /\
  remote_parameter h t <> Ok (VInt (z mod 2 ^ 15)) /\ remote_controls_vst h t <> Ok (VBool (Z.testbit z 15)).
Proof. exists remote_heap, 0%nat, 32773. vm_compute. repeat split; discriminate. Qed.
Print Assumptions C51_refuted.
Example C51_case : exists e d, chosen [227] (events remote_heap 0) (Some 0%nat) /\ nth_error (events remote_heap 0) 0 = Some e /\
  is_struct_kind (e_kind e) = true /\ e_val e = VDict d /\ dget d "parameter_data" = Some (VInt 32773).
Proof.
  eexists _, _. split; [|split; [vm_compute; reflexivity|split; [vm_compute; reflexivity|split; [vm_compute; reflexivity|vm_compute; reflexivity]]]].
  eapply (ch_some _ _ [] 227 [] 0%nat); [reflexivity|intros e _ []|vm_compute; reflexivity|vm_compute; reflexivity|lia].
Qed.
Example C51_absent_case : exists e d, chosen [227] (events remote_short 0) (Some 0%nat) /\ nth_error (events remote_short 0) 0 = Some e /\
  is_struct_kind (e_kind e) = true /\ e_val e = VDict d /\ dget d "parameter_data" = Some VNone.
Proof.
  eexists _, _. split; [|split; [vm_compute; reflexivity|split; [vm_compute; reflexivity|split; [vm_compute; reflexivity|vm_compute; reflexivity]]]].
  eapply (ch_some _ _ [] 227 [] 0%nat); [reflexivity|intros e _ []|vm_compute; reflexivity|vm_compute; reflexivity|lia].
Qed.

(* ------------------------------------------------------------------------- C47 *)

(* decoding an address is inverse to 64 * insert + slot; the upper three of 16 bits are
   ignored *)
Theorem C47_address : forall a i s, 0 <= a ->
  (insert_of a = i /\ slot_of a = s <-> exists top, 0 <= top /\ a = 8192 * top + 64 * i + s /\ 0 <= i < 128 /\ 0 <= s < 64).
Proof.
  intros a i s A. rewrite address. split; intros (top & H); exists top; lia.
Qed.
Print Assumptions C47_address.

(* Of the records of an insert for an id the last one counts: it is read, and assigning
   changes its message and nothing else; every other parameter reads as before *)
Theorem C47_own : forall h r n id j d m v, last_at (own_param n id) (items (ev_of h r)) j -> element h r j d -> dget d "msg" = Some m ->
  param_get h (Some (PItems r n)) id = Ok m /\
  exists h' w, param_set h (Some (PItems r n)) id v = (h', Ok tt) /\ only_value h r w h' /\
    items (ev_of h' r) = lset (items (ev_of h r)) j (VDict (dset d "msg" v)) /\
    param_get h' (Some (PItems r n)) id = Ok v /\
    (forall n' id', n' <> n \/ id' <> id -> param_get h' (Some (PItems r n')) id' = param_get h (Some (PItems r n')) id').
Proof.
  intros h r n id j d m v LA EL D. pose proof (own_last _ _ _ _ LA) as AS.
  unfold param_get, param_set. cbn [kw_params bind own_items]. rewrite AS. split; [eapply element_get; eauto|].
  destruct (element_set h r j d "msg" v EL) as (h' & w & S & O & I & EL'). exists h', w. split; [exact S|]. split; [exact O|]. split; [exact I|].
  assert (FS : forall n', own_of (items (ev_of h' r)) n' = own_of (items (ev_of h r)) n').
  { intros n'. unfold own_of. apply own_from_filed. rewrite I. eapply map_lset_same; [apply EL|]. apply filed_dset. }
  rewrite FS, AS. split; [eapply element_get; [exact EL'|apply dget_dset]|].
  intros n' id' NE. rewrite FS. destruct (last_dec (own_param n' id') (own_dec n' id') (items (ev_of h r))) as [[j' LA']|NN]; [|now rewrite (own_none _ _ _ NN)].
  rewrite (own_last _ _ _ _ LA'). cbn [tg_get]. rewrite I, nth_error_lset. destruct (Nat.eqb_spec j' j) as [->|]; [exfalso|reflexivity].
  destruct LA as ((x & X & _ & _ & s1 & P1) & _), LA' as ((x' & X' & _ & _ & s2 & P2) & _). rewrite X in X'. injection X' as <-.
  destruct (addressed_fun _ _ _ _ _ _ _ P1 P2) as (-> & _ & ->). destruct NE; congruence.
Qed.
Print Assumptions C47_own.
Theorem C47_none : forall h r n id v, (forall x, In x (items (ev_of h r)) -> ~ own_param n id x) ->
  param_get h (Some (PItems r n)) id = Ok VNone /\ param_set h (Some (PItems r n)) id v = (h, Err PropertyCannotBeSet).
Proof. intros h r n id v H. unfold param_get, param_set. cbn [kw_params bind own_items]. now rewrite (own_none _ _ _ H). Qed.
Print Assumptions C47_none.

(* the same for the parameters of a slot *)
Theorem C47_slot : forall l n s id, (forall j, last_at (slot_param n s id) l j -> assoc_Z (slots_of l n s) id = Some j) /\
  ((forall x, In x l -> ~ slot_param n s id x) -> assoc_Z (slots_of l n s) id = None).
Proof. intros l n s id. exact (slot_from_spec n s id l 0 []). Qed.
Print Assumptions C47_slot.
(* which nobody can read: a slot's enabled and mix raise AttributeError, always *)
Theorem C47_slot_refuted : forall h r d id v,
  param_get h (Some (slot_params r d)) id = Err AttributeError /\ param_set h (Some (slot_params r d)) id v = (h, Err AttributeError).
Proof. intros h r [|x d] id v; split; reflexivity. Qed.
Print Assumptions C47_slot_refuted.
(* an insert that was made without parameters *)
Theorem C47_missing : forall h id v, param_get h None id = Err KeyError /\ param_set h None id v = (h, Err KeyError).
Proof. intros. split; reflexivity. Qed.
Print Assumptions C47_missing.

Definition params_payload : bytes :=
  [0; 0; 0; 0; 192; 31; 64; 0; 1; 0; 0; 0] ++ [0; 0; 0; 0; 1; 31; 67; 0; 9; 0; 0; 0] ++
  [0; 0; 0; 0; 192; 31; 64; 64; 5; 0; 0; 0] ++ [0; 0; 0; 0; 193; 31; 64; 0; 255; 255; 255; 255].
Definition params_heap : heap :=
  match mk_event en0 KMixerParams 225 params_payload with Ok e => parsed [e] | Err _ => parsed [] end.
Example C47_case : exists d x, last_at (own_param 1 192) (items (ev_of params_heap 0)) 2 /\ element params_heap 0 2 d /\ dget d "msg" = Some (VInt 5) /\
  last_at (slot_param 1 3 1) (items (ev_of params_heap 0)) 1 /\ assoc_Z (slots_of (items (ev_of params_heap 0)) 1 3) 1 = Some 1%nat /\
  nth_error (items (ev_of params_heap 0)) 0 = Some x /\ own_param 1 192 x /\
  param_get params_heap (Some (PItems 0 1)) 192 = Ok (VInt 5) /\ param_get params_heap (Some (PItems 0 1)) 193 = Ok (VInt (-1)).
Proof.
  assert (A : forall v n s id, filed_of v = Some (Filed n (if (id =? 0) || (id =? 1) then Some s else None) id) -> exists s', addressed v n s' id /\ ((id =? 0) || (id =? 1) = true -> s' = s)).
  { intros v n s id H. apply filed_spec in H. destruct H as (s' & P & E). exists s'. split; [exact P|]. intros B. rewrite B in E. congruence. }
  eexists _, _. split.
  { split; [eexists; split; [vm_compute; reflexivity|]; apply filed_own; vm_compute; reflexivity|].
    intros [|[|[|[|j]]]] x J X; try lia; [|destruct j; discriminate]. vm_compute in X. injection X as <-. intros P. apply filed_own in P. vm_compute in P. discriminate. }
  split; [split; [vm_compute; lia|split; vm_compute; reflexivity]|]. split; [vm_compute; reflexivity|]. split.
  { split; [eexists; split; [vm_compute; reflexivity|]; apply filed_slot; vm_compute; reflexivity|].
    intros [|[|[|[|j]]]] x J X; try lia; [| |destruct j; discriminate]; vm_compute in X; injection X as <-; intros P; apply filed_slot in P; vm_compute in P; discriminate. }
  split; [vm_compute; reflexivity|]. split; [vm_compute; reflexivity|]. split; [apply filed_own; vm_compute; reflexivity|]. vm_compute. repeat split.
Qed.

(* ------------------------------------------------------------------------- C54 *)

Lemma inserts_lex a b c d : max_inserts (FLV a b c d) =
  if lex_lt [a; b; c] [1; 6; 5] then 5 else if lex_lt [a; b; c] [2; 0; 1] then 8 else if lex_lt [a; b; c] [3; 0; 0] then 18
  else if lex_lt [a; b; c] [3; 3; 0] then 20 else if lex_lt [a; b; c] [4; 0; 0] then 64 else if lex_lt [a; b; c] [9; 0; 0] then 105 else 127.
Proof.
  unfold max_inserts, astuple, MAX_INSERTS. cbn [first_row v_major v_minor v_patch v_build]. rewrite !tuple_le_lex.
  repeat match goal with |- (if ?x then _ else _) = _ => destruct x; [reflexivity|] end. reflexivity.
Qed.
Lemma slots_lex a b c d : max_slots (FLV a b c d) = if lex_lt [a; b; c] [1; 6; 5] then 4 else if lex_lt [a; b; c] [3; 0; 0] then 8 else 10.
Proof. unfold max_slots, astuple, MAX_SLOTS. cbn [first_row v_major v_minor v_patch v_build]. now rewrite !tuple_le_lex. Qed.

(* only the first three numbers count *)
Theorem C54_build : forall a b c d d', max_inserts (FLV a b c d) = max_inserts (FLV a b c d') /\ max_slots (FLV a b c d) = max_slots (FLV a b c d').
Proof. intros. now rewrite !inserts_lex, !slots_lex. Qed.
Print Assumptions C54_build.
Lemma lex_trans a b c x y z x' y' z' : lex_lt [a; b; c] [x; y; z] = true -> lex_lt [x; y; z] [x'; y'; z'] = true -> lex_lt [a; b; c] [x'; y'; z'] = true.
Proof. cbn [lex_lt]. lia. Qed.
Theorem C54_monotone : forall a b c d a' b' c' d', lex_lt [a; b; c] [a'; b'; c'] = true ->
  max_inserts (FLV a b c d) <= max_inserts (FLV a' b' c' d') /\ max_slots (FLV a b c d) <= max_slots (FLV a' b' c' d').
Proof.
  intros a b c d a' b' c' d' L. rewrite !inserts_lex, !slots_lex.
  assert (T : forall x y z, lex_lt [a'; b'; c'] [x; y; z] = true -> lex_lt [a; b; c] [x; y; z] = true) by (intros; eapply lex_trans; eauto).
  pose proof (T 1 6 5). pose proof (T 2 0 1). pose proof (T 3 0 0). pose proof (T 3 3 0). pose proof (T 4 0 0). pose proof (T 9 0 0). clear T L.
  repeat match goal with |- context [lex_lt ?v ?k] => destruct (lex_lt v k) end; split; first [lia | exfalso; intuition discriminate].
Qed.
Print Assumptions C54_monotone.

Definition change_point (rows : list (list Z * Z)) (v : list Z) : Prop := exists n, In (v, n) rows.
Lemma lex_not_le a b c x y z : negb (lex_lt [x; y; z] [a; b; c]) = lex_lt [a; b; c] [x; y; z] || ((a =? x) && (b =? y) && (c =? z)).
Proof. cbn [lex_lt]. lia. Qed.
(* read as "up to this version", the table is followed except at its own versions, which
   get the next row *)
Theorem C54_up_to : forall a b c d,
  (max_inserts (FLV a b c d) = up_to doc_inserts [a; b; c] 127 <-> ~ change_point doc_inserts [a; b; c] \/ [a; b; c] = [12; 9; 0]) /\
  (max_slots (FLV a b c d) = up_to doc_slots [a; b; c] 10 <-> ~ change_point doc_slots [a; b; c]).
Proof.
  intros a b c d.
  assert (OFF : forall x y z, [a; b; c] <> [x; y; z] -> (a =? x) && (b =? y) && (c =? z) = false).
  { intros x y z N. destruct (Z.eqb_spec a x), (Z.eqb_spec b y), (Z.eqb_spec c z); try reflexivity. congruence. }
  assert (DEC : forall rows, change_point rows [a; b; c] \/ ~ change_point rows [a; b; c]).
  { intros rows. destruct (in_dec (list_eq_dec Z.eq_dec) [a; b; c] (map fst rows)) as [I|I].
    - left. apply in_map_iff in I as ([k n] & E & I). cbn [fst] in E. subst k. exists n. exact I.
    - right. intros (n & H). apply I. apply in_map_iff. exists ([a; b; c], n). auto. }
  split.
  - destruct (DEC doc_inserts) as [CP|CP].
    + assert (X : max_inserts (FLV a b c d) = up_to doc_inserts [a; b; c] 127 <-> [a; b; c] = [12; 9; 0]).
      { destruct CP as (n & I). cbn [doc_inserts In] in I.
        repeat (destruct I as [I|I]; [injection I as <- <- <- _; split; intros X; try discriminate X; vm_compute in X; try discriminate X; reflexivity|]). contradiction. }
      rewrite X. tauto.
    + split; [auto|intros _]. rewrite inserts_lex. unfold doc_inserts. cbn [up_to]. rewrite !lex_not_le.
      rewrite !OFF by (intros E; apply CP; rewrite E; eexists; cbn; eauto 10). rewrite !orb_false_r.
      repeat match goal with |- (if ?x then _ else _) = _ => destruct x; [reflexivity|] end. destruct (lex_lt [a; b; c] [12; 9; 0]); reflexivity.
  - destruct (DEC doc_slots) as [CP|CP].
    + split; [|tauto]. intros X. exfalso. destruct CP as (n & I). cbn [doc_slots In] in I.
      repeat (destruct I as [I|I]; [injection I as <- <- <- _; vm_compute in X; discriminate X|]). contradiction.
    + split; [auto|intros _]. rewrite slots_lex. unfold doc_slots. cbn [up_to]. rewrite !lex_not_le.
      rewrite !OFF by (intros E; apply CP; rewrite E; eexists; cbn; eauto 10). rewrite !orb_false_r. reflexivity.
Qed.
Print Assumptions C54_up_to.
(* read as "from this version on" it is followed nowhere before 12.9.0 *)
Theorem C54_since_refuted : forall a b c d, lex_lt [a; b; c] [1; 6; 5] = false ->
  exists n, since doc_inserts [a; b; c] None = Some n /\
    (max_inserts (FLV a b c d) = n <-> lex_lt [a; b; c] [9; 0; 0] = false /\ lex_lt [a; b; c] [12; 9; 0] = false) /\ n <= max_inserts (FLV a b c d).
Proof.
  intros a b c d H. rewrite inserts_lex. unfold doc_inserts. cbn [since]. rewrite H.
  assert (T : forall x y z x' y' z', lex_lt [x; y; z] [x'; y'; z'] = true -> lex_lt [a; b; c] [x; y; z] = true -> lex_lt [a; b; c] [x'; y'; z'] = true) by (intros; eapply lex_trans; eauto).
  pose proof (T 2 0 1 3 0 0 eq_refl). pose proof (T 3 0 0 3 3 0 eq_refl). pose proof (T 3 3 0 4 0 0 eq_refl). pose proof (T 4 0 0 9 0 0 eq_refl). pose proof (T 9 0 0 12 9 0 eq_refl). clear T.
  repeat match goal with |- context [lex_lt ?v ?k] => destruct (lex_lt v k) end;
    try (exfalso; intuition discriminate); eexists; (split; [reflexivity|]); (split; [split; [intros X; try discriminate X; split; reflexivity|intros [X1 X2]; try discriminate; reflexivity]|lia]).
Qed.
Print Assumptions C54_since_refuted.
Example C54_case : max_inserts (FLV 20 8 3 (Some 2304)) = 127 /\ max_inserts (FLV 9 0 0 None) = 127 /\ max_inserts (FLV 8 0 0 None) = 105 /\
  since doc_inserts [8; 0; 0] None = Some 64 /\ change_point doc_inserts [9; 0; 0] /\ up_to doc_inserts [9; 0; 0] 127 = 105 /\ max_slots (FLV 3 0 0 None) = 10.
Proof. repeat split; try reflexivity. eexists. cbn. eauto 10. Qed.
