(* C25 (fields of structs and list elements), C28-C32: events made of fields and events
   made of records. *)
From Coq Require Import String ZArith List Bool Lia Arith.
From Verif Require Import M_Base M_Float M_Text M_Construct M_Structs M_Events M_Parse M_Tree M_Prop.
From Verif Require Import S_Canon S_File S_Domain S_Tree S_Prop S_Layout.
From Verif Require Import P_Base P_Codec P_Null P_Save P_TreeBase P_Tree P_TreeEdit P_Prop P_Edit P_Layout P_Struct P_Records P_EditStruct P_Misfit P_Payload.
From Verif Require Import C_Samples.
Import ListNotations.
Open Scope Z_scope.

(* ------------------------------------------------------------------------- C25 *)

(* A property bound to a struct field that is there, set to any value the field can hold *)
Theorem C25_struct_property : forall en f p h t ids df k e b fs i m fd ty d old v,
  is_bytes f -> parse en f = Ok p -> canonical_file en f ->
  views (parsed (pr_events p)) h -> (t < nt h)%nat ->
  ids <> [] -> chosen ids (events h t) (Some k) -> nth_error (events h t) k = Some e ->
  ~ (e_id e = 199 \/ e_id e = 201) ->
  payload en e = Ok b -> layout (zlen b) (e_kind e) = Some fs -> cut_at fs b i -> readable en fs b i ->
  nth_error fs m = Some fd -> f_type fd = Some ty -> storable en ty v ->
  e_val e = VDict d -> dget d (f_name fd) = Some old -> old <> VNone ->
  exists h' f' p' j d', prop_set en h (EvModel t) (MkProp ids df false (PStruct (f_name fd))) v = (h', Ok tt) /\
    serialise en (Project (root_events h') (pr_channel_count p) (pr_format p) (pr_ppq p)) = Ok f' /\
    parse en f' = Ok p' /\
    nth_error (pr_events p) j = Some e /\ dict_updated d (f_name fd) v d' /\ reloaded (pr_events p) j (VDict d') (pr_events p') /\
    pr_channel_count p' = pr_channel_count p /\ pr_format p' = pr_format p /\ pr_ppq p' = pr_ppq p.
Proof. exact edit_struct_prop. Qed.
Print Assumptions C25_struct_property.

(* A property of one element (note, playlist item, mixer parameter, ...) *)
Theorem C25_item_property : forall en f p h t r ids df e b rs i m fd ty d v,
  is_bytes f -> parse en f = Ok p -> canonical_file en f ->
  views (parsed (pr_events p)) h -> (t < nt h)%nat -> In r (refs h t) -> ev_of h r = e ->
  ~ (e_id e = 199 \/ e_id e = 201) ->
  payload en e = Ok b -> record (new_of b) (e_kind e) = Some rs ->
  nth_error rs m = Some fd -> f_type fd = Some ty -> storable en ty v ->
  nth_error (items e) i = Some (VDict d) ->
  exists h' f' p' d', prop_set en h (ItModel r i) (MkProp ids df false (PStruct (f_name fd))) v = (h', Ok tt) /\
    serialise en (Project (root_events h') (pr_channel_count p) (pr_format p) (pr_ppq p)) = Ok f' /\
    parse en f' = Ok p' /\
    nth_error (pr_events p) r = Some e /\ dict_updated d (f_name fd) v d' /\
    reloaded (pr_events p) r (VList (lset (items e) i (VDict d'))) (pr_events p') /\
    pr_channel_count p' = pr_channel_count p /\ pr_format p' = pr_format p /\ pr_ppq p' = pr_ppq p.
Proof. exact edit_item_prop. Qed.
Print Assumptions C25_item_property.

(* One flag of a struct field or element *)
Theorem C25_struct_flag : forall en f p h t ids df k e b fs i m fd ty w d z fl mask inv v,
  is_bytes f -> parse en f = Ok p -> canonical_file en f ->
  views (parsed (pr_events p)) h -> (t < nt h)%nat ->
  ids <> [] -> chosen ids (events h t) (Some k) -> nth_error (events h t) k = Some e ->
  ~ (e_id e = 199 \/ e_id e = 201) ->
  payload en e = Ok b -> layout (zlen b) (e_kind e) = Some fs -> cut_at fs b i -> readable en fs b i ->
  nth_error fs m = Some fd -> f_type fd = Some ty -> flag_room ty w -> good_flag mask fl -> fl < 2 ^ w ->
  e_val e = VDict d -> dget d (f_name fd) = Some (VEnum z) -> 0 <= z < 2 ^ w ->
  exists y h' f' p' j d', prop_set en h (EvModel t) (MkProp ids df false (PFlag (f_name fd) fl mask inv)) v = (h', Ok tt) /\
    serialise en (Project (root_events h') (pr_channel_count p) (pr_format p) (pr_ppq p)) = Ok f' /\
    parse en f' = Ok p' /\
    nth_error (pr_events p) j = Some e /\ dict_updated d (f_name fd) (VEnum y) d' /\ reloaded (pr_events p) j (VDict d') (pr_events p') /\
    (if xorb inv (truthy v) then bits_set z fl true y
     else if en_py311 en then bits_set_below (Z.log2 mask) z fl false y else bits_set z fl false y).
Proof. exact edit_struct_flag. Qed.
Print Assumptions C25_struct_flag.

Theorem C25_item_flag : forall en f p h t r ids df e b rs i m fd ty w d z fl mask inv v,
  is_bytes f -> parse en f = Ok p -> canonical_file en f ->
  views (parsed (pr_events p)) h -> (t < nt h)%nat -> In r (refs h t) -> ev_of h r = e ->
  ~ (e_id e = 199 \/ e_id e = 201) ->
  payload en e = Ok b -> record (new_of b) (e_kind e) = Some rs ->
  nth_error rs m = Some fd -> f_type fd = Some ty -> flag_room ty w -> good_flag mask fl -> fl < 2 ^ w ->
  nth_error (items e) i = Some (VDict d) -> dget d (f_name fd) = Some (VEnum z) -> 0 <= z < 2 ^ w ->
  exists y h' f' p' d', prop_set en h (ItModel r i) (MkProp ids df false (PFlag (f_name fd) fl mask inv)) v = (h', Ok tt) /\
    serialise en (Project (root_events h') (pr_channel_count p) (pr_format p) (pr_ppq p)) = Ok f' /\
    parse en f' = Ok p' /\
    nth_error (pr_events p) r = Some e /\ dict_updated d (f_name fd) (VEnum y) d' /\
    reloaded (pr_events p) r (VList (lset (items e) i (VDict d'))) (pr_events p') /\
    (if xorb inv (truthy v) then bits_set z fl true y
     else if en_py311 en then bits_set_below (Z.log2 mask) z fl false y else bits_set z fl false y).
Proof. exact edit_item_flag. Qed.
Print Assumptions C25_item_flag.

(* what a field can hold, for the types whose values are numbers, flags and bytes *)
Theorem C25_storable : forall en n v,
  (storable en (TU n) v <-> exists z, v = VInt z /\ 0 <= z < 256 ^ Z.of_nat n) /\
  ((0 < n)%nat -> (storable en (TS n) v <-> exists z, v = VInt z /\ - 256 ^ Z.of_nat n <= 2 * z < 256 ^ Z.of_nat n)) /\
  (storable en (TEnum n) v <-> exists z, v = VEnum z /\ 0 <= z < 256 ^ Z.of_nat n) /\
  (storable en (TFlags n) v <-> exists z, v = VEnum z /\ 0 <= z < 256 ^ Z.of_nat n) /\
  (storable en (TRaw n) v <-> exists b, v = VBytes b /\ is_bytes b /\ length b = n) /\
  (storable en TFlag v <-> exists x, v = VBool x) /\ (storable en TBool4 v <-> exists x, v = VBool x).
Proof.
  intros en n v. repeat split; try apply storable_TU; try apply storable_TEnum; try apply storable_TFlags; try apply storable_TRaw;
    try (apply storable_TS; assumption); try (apply storable_truth; auto).
Qed.
Print Assumptions C25_storable.

(* the delay event of the sample file *)
Definition p1 : project := match parse en0 f0 with Ok p => p | Err _ => Project [] 0 0 0 end.
Definition delay_fields : list field := match layout 8 KDelay with Some fs => fs | None => [] end.
Definition delay_event : event := nth 6 (pr_events p1) (Event 0 KU8 0 false VNone).
Example C25_struct_case :
  parse en0 f0 = Ok p1 /\ e_kind delay_event = KDelay /\ chosen [209] (events (parsed (pr_events p1)) 0) (Some 6%nat) /\
  nth_error (events (parsed (pr_events p1)) 0) 6 = Some delay_event /\
  payload en0 delay_event = Ok [1; 0; 0; 0; 255; 255; 255; 255] /\
  cut_at delay_fields [1; 0; 0; 0; 255; 255; 255; 255] 2 /\ readable en0 delay_fields [1; 0; 0; 0; 255; 255; 255; 255] 2 /\
  nth_error delay_fields 1 = Some (Opt "pan" (TS 4)) /\ storable en0 (TS 4) (VInt (-6400)) /\
  (match e_val delay_event with VDict d => dget d "pan" | _ => None end) = Some (VInt (-1)).
Proof.
  split; [vm_compute; reflexivity|]. split; [vm_compute; reflexivity|]. split.
  { eapply (ch_some _ _ [] 209 [] 6%nat); [reflexivity|intros e _ []|vm_compute; reflexivity|reflexivity|].
    intros j e' J X. do 6 (destruct j as [|j]; [vm_compute in X; injection X as <-; discriminate|]). lia. }
  split; [vm_compute; reflexivity|]. split; [vm_compute; reflexivity|]. split.
  { split; [cbn; lia|]. split; [cbn; lia|]. intros m f t L N T. do 5 (destruct m as [|m]; [try lia; injection N as <-; injection T as <-; cbn; lia|]).
    destruct m; discriminate. }
  split.
  { intros m f t L N T. do 2 (destruct m as [|m]; [injection N as <-; injection T as <-; discriminate|]). lia. }
  split; [reflexivity|]. split; [apply storable_TS; [lia|]; exists (-6400); split; [reflexivity|vm_compute; split; [intros H; discriminate H|reflexivity]]|].
  vm_compute. reflexivity.
Qed.

(* a note of a pattern: its flag field *)
Definition note0 : bytes := [1; 0; 0; 0; 8; 0; 2; 0; 4; 0; 0; 0; 60; 0; 0; 0; 120; 0; 64; 0; 64; 100; 128; 127].
Example C25_item_case : exists e rs d, mk_event en0 KNotes 224 (note0 ++ note0) = Ok e /\ payload en0 e = Ok (note0 ++ note0) /\
  record (new_of (note0 ++ note0)) KNotes = Some rs /\ nth_error rs 1 = Some (Req "flags" (TFlags 2)) /\ flag_room (TFlags 2) 16 /\
  good_flag 8 8 /\ nth_error (items e) 1 = Some (VDict d) /\ dget d "flags" = Some (VEnum 8).
Proof.
  eexists _, _, _. split; [vm_compute; reflexivity|]. split; [vm_compute; reflexivity|]. split; [vm_compute; reflexivity|].
  split; [reflexivity|]. split; [left; exists 2%nat; split; reflexivity|]. split; [vm_compute; repeat split|]. split; [vm_compute; reflexivity|reflexivity].
Qed.

(* ------------------------------------------------------------------------- C28 *)

Definition optional_fields (fs : list field) : Prop :=
  Forall (fun f => match f with Opt _ _ | Tail _ => True | _ => False end) fs.

Lemma boundary_cut k L fs b i : layout L k = Some fs -> (i <= length fs)%nat -> length b = offset fs i -> cut_at fs b i.
Proof.
  intros HL Li Lb. split; [exact Li|]. split; [lia|]. intros m f t _ N T.
  destruct (layout_ok en0 L false k fs HL) as (cs & _ & _ & _ & W & _).
  rewrite forallb_forall in W. specialize (W f (nth_error_In _ _ N)). unfold f_wf in W. rewrite T in W.
  pose proof (ft_size_pos _ W). lia.
Qed.

(* reading a payload that ends after any field *)
Theorem C28_read : forall en k id b fs i,
  is_bytes b -> layout (zlen b) k = Some fs -> optional_fields fs -> 192 <= id ->
  (i <= length fs)%nat -> length b = offset fs i -> readable en fs b i ->
  exists e d, mk_event en k id b = Ok e /\ e_val e = VDict d /\ map fst d = map f_name fs /\
    forall m f, nth_error fs m = Some f ->
      (forall t, f_type f = Some t -> (m < i)%nat ->
         exists v, ft_dec en t (slice b (offset fs m) (ft_size t)) = Some v /\ dget d (f_name f) = Some v) /\
      (forall t, f_type f = Some t -> (i <= m)%nat -> dget d (f_name f) = Some VNone) /\
      (f_type f = None -> dget d (f_name f) = Some (VBytes [])).
Proof.
  intros en k id b fs i Hb HL OF HI Li Lb R. pose proof (boundary_cut k _ fs b i HL Li Lb) as C.
  destruct (struct_event_parses en k id b fs i Hb HL (layout_allowed _ _ _ _ HL) HI C R) as [e HM].
  { intros m n t N. exfalso. unfold optional_fields in OF. rewrite Forall_forall in OF. exact (OF _ (nth_error_In _ _ N)). }
  destruct (struct_event_field en k id b e fs Hb HM HL i C R) as (d & EV & NM & X).
  exists e, d. split; [exact HM|]. split; [exact EV|]. split; [exact NM|]. intros m f N.
  destruct (X m f N) as (v & _ & FV & DG).
  unfold optional_fields in OF. rewrite Forall_forall in OF. specialize (OF _ (nth_error_In _ _ N)).
  destruct f as [n u|n u|n|n]; try contradiction; cbn [f_type field_value f_name] in *.
  - split; [|split; [|discriminate]].
    + intros t [= <-] L. apply Nat.ltb_lt in L. rewrite L in FV. eauto.
    + intros t _ L. apply Nat.ltb_ge in L. rewrite L in FV. congruence.
  - split; [discriminate|]. split; [discriminate|]. intros _. rewrite skipn_all2 in FV by lia. congruence.
Qed.
Print Assumptions C28_read.

(* which classes: all optional; everything of the right length can be read *)
Definition optional_kinds : list kind :=
  [KDelay; KEnvelopeLFO; KLevelAdjusts; KLevels; KParameters; KPolyphony; KTracking; KWrapper; KPLSelection; KTrack;
   KInsertFlags; KMIDIController; KRemoteController].
Theorem C28_classes : forall L k, In k optional_kinds <-> exists fs, layout L k = Some fs /\ optional_fields fs.
Proof.
  intros L k. split.
  - unfold optional_kinds, optional_fields. intros H.
    repeat (destruct H as [<-|H]; [eexists; split; [reflexivity|]; repeat constructor|]). destruct H.
  - intros (fs & H & O). destruct k; try discriminate H; injection H as <-; unfold optional_fields in O;
      try (inversion O as [|? ? O1 O2]; exfalso; clear - O1 O2; unfold marker in *;
           repeat match goal with H : context [if ?c then _ else _] |- _ => destruct c end; exact O1);
      unfold optional_kinds; cbn [In]; tauto.
Qed.
Print Assumptions C28_classes.
Theorem C28_readable : forall en L k fs b i, layout L k = Some fs -> k <> KParameters -> k <> KTrack -> readable en fs b i.
Proof.
  intros en L k fs b i HL N1 N2 m f t _ N T.
  assert (X : Forall (fun f => match f_type f with Some (TMult | TLevel | THeight) => False | _ => True end) fs).
  { destruct k; try discriminate HL; try congruence; apply Some_inj in HL; subst fs; unfold marker; 
      repeat match goal with |- context [if ?c then _ else _] => destruct c end; repeat constructor. }
  rewrite Forall_forall in X. specialize (X f (nth_error_In _ _ N)). rewrite T in X.
  destruct t; try contradiction; discriminate.
Qed.
Print Assumptions C28_readable.

(* saving it: the same bytes, plus a zero for every one-byte truth value that is not
   there.  [kept] only concerns non-normalised truth values, signalling NaNs and the
   like. *)
Theorem C28_saved : forall en k id b fs i e,
  is_bytes b -> layout (zlen b) k = Some fs -> mk_event en k id b = Ok e ->
  (i <= length fs)%nat -> length b = offset fs i -> readable en fs b i -> kept en fs b i ->
  payload en e = Ok (b ++ repeat 0 (missing_flags fs i)).
Proof.
  intros en k id b fs i e Hb HL HM Li Lb R K.
  rewrite (struct_event_saved en k id b e fs Hb HM HL i (boundary_cut k _ fs b i HL Li Lb) R K).
  rewrite <- Lb, firstn_all. now destruct (catch_all fs).
Qed.
Print Assumptions C28_saved.
Theorem C28_same_bytes : forall en k id b fs i e,
  is_bytes b -> layout (zlen b) k = Some fs -> mk_event en k id b = Ok e ->
  k <> KParameters -> k <> KTrack ->
  (i <= length fs)%nat -> length b = offset fs i -> kept en fs b i ->
  payload en e = Ok b.
Proof.
  intros en k id b fs i e Hb HL HM N1 N2 Li Lb K.
  rewrite (C28_saved en k id b fs i e Hb HL HM Li Lb (C28_readable en _ k fs b i HL N1 N2) K).
  replace (missing_flags fs i) with O; [cbn [repeat]; now rewrite app_nil_r|].
  assert (X : filter is_flag fs = []).
  { destruct k; try discriminate HL; try congruence; apply Some_inj in HL; subst fs; unfold marker; 
      repeat match goal with |- context [if ?c then _ else _] => destruct c end; reflexivity. }
  unfold missing_flags. rewrite <- (firstn_skipn i fs), filter_app in X. apply app_eq_nil in X as [_ ->]. reflexivity.
Qed.
Print Assumptions C28_same_bytes.
(* a track of an older version - number, colour, icon - grows by four bytes *)
Theorem C28_refuted : exists b e b', is_bytes b /\ mk_event en0 KTrack 238 b = Ok e /\ payload en0 e = Ok b' /\
  length b = 12%nat /\ length b' = 16%nat.
Proof.
  exists [1; 0; 0; 0; 72; 81; 86; 0; 0; 0; 0; 0]. eexists _, _. split; [apply bytes_check; reflexivity|].
  split; [vm_compute; reflexivity|]. split; [vm_compute; reflexivity|split; reflexivity].
Qed.
Print Assumptions C28_refuted.
Example C28_case : exists e, mk_event en0 KDelay 209 [1; 0; 0; 0; 255; 255; 255; 255; 0; 1; 0; 0] = Ok e /\
  length [1; 0; 0; 0; 255; 255; 255; 255; 0; 1; 0; 0] = offset delay_fields 3 /\ kept en0 delay_fields [1; 0; 0; 0; 255; 255; 255; 255; 0; 1; 0; 0] 3 /\
  missing_flags delay_fields 3 = 0%nat /\ optional_fields delay_fields /\
  e_val e = VDict [("feedback"%string, VInt 1); ("pan"%string, VInt (-1)); ("pitch_shift"%string, VInt 256); ("echoes"%string, VNone); ("time"%string, VNone)].
Proof.
  eexists. split; [vm_compute; reflexivity|]. split; [reflexivity|]. split.
  { intros m f t L N T. do 3 (destruct m as [|m]; [injection N as <-; injection T as <-; reflexivity|]). lia. }
  split; [reflexivity|]. split; [repeat constructor|reflexivity].
Qed.

(* ------------------------------------------------------------------------- C29 *)

(* [b]: [i] whole fields, then bytes that make up no field *)
Theorem C29_kept : forall en k id b fs i e,
  is_bytes b -> layout (zlen b) k = Some fs -> mk_event en k id b = Ok e ->
  cut_at fs b i -> readable en fs b i -> kept en fs b i -> catch_all fs = true ->
  payload en e = Ok (b ++ repeat 0 (missing_flags fs i)).
Proof.
  intros en k id b fs i e Hb HL HM C R K CA.
  now rewrite (struct_event_saved en k id b e fs Hb HM HL i C R K), CA.
Qed.
Print Assumptions C29_kept.
(* all bytes of payloads that have every field *)
Theorem C29_all_kept : forall en k id b fs e,
  is_bytes b -> layout (zlen b) k = Some fs -> mk_event en k id b = Ok e ->
  (offset fs (length fs) <= length b)%nat -> readable en fs b (length fs) -> kept en fs b (length fs) -> catch_all fs = true ->
  payload en e = Ok b.
Proof.
  intros en k id b fs e Hb HL HM L R K CA.
  rewrite (C29_kept en k id b fs (length fs) e Hb HL HM) by
    first [assumption | split; [lia|split; [exact L|intros m f t Lm N; apply nth_error_None in Lm; congruence]]].
  unfold missing_flags. rewrite skipn_all. cbn [filter length repeat]. now rewrite app_nil_r.
Qed.
Print Assumptions C29_all_kept.
Theorem C29_dropped : forall en k id b fs i e,
  is_bytes b -> layout (zlen b) k = Some fs -> mk_event en k id b = Ok e ->
  cut_at fs b i -> readable en fs b i -> kept en fs b i -> catch_all fs = false ->
  payload en e = Ok (firstn (offset fs i) b).
Proof.
  intros en k id b fs i e Hb HL HM C R K CA.
  rewrite (struct_event_saved en k id b e fs Hb HM HL i C R K), CA.
  assert (X : filter is_flag fs = []).
  { destruct k; try discriminate HL; apply Some_inj in HL; subst fs; unfold marker;
      repeat match goal with |- context [if ?c then _ else _] => destruct c end; first [reflexivity | discriminate CA]. }
  unfold missing_flags. rewrite <- (firstn_skipn i fs), filter_app in X. apply app_eq_nil in X as [_ ->]. cbn [length repeat].
  now rewrite app_nil_r.
Qed.
Print Assumptions C29_dropped.
(* the structs with a catch-all field *)
Theorem C29_classes : forall L k fs, layout L k = Some fs ->
  (catch_all fs = true <-> In k [KParameters; KWrapper; KTrack; KMIDIController]).
Proof.
  intros L k fs H. destruct k; try discriminate H; apply Some_inj in H; subst fs; cbn [In]; unfold marker;
    repeat match goal with |- context [if ?c then _ else _] => destruct c end;
    (split; [intros X; try discriminate X; tauto|intros X; try reflexivity; exfalso; intuition discriminate]).
Qed.
Print Assumptions C29_classes.
(* where all fields are of one size, every payload is of the form above *)
Theorem C29_every_payload : forall L k fs n b, layout L k = Some fs -> (0 < n)%nat ->
  (forall f, In f fs -> exists t, f_type f = Some t /\ ft_size t = n) ->
  cut_at fs b (Nat.min (length fs) (length b / n)).
Proof.
  intros L k fs n b _ Hn U.
  assert (O : forall fs i, (forall f, In f fs -> exists t, f_type f = Some t /\ ft_size t = n) -> (i <= length fs)%nat -> offset fs i = (i * n)%nat).
  { clear. induction fs as [|f fs IH]; intros [|i] U L; try reflexivity; [cbn in L; lia|].
    rewrite offset_S, IH; [|intros g G; apply U; now right|cbn in L; lia].
    destruct (U f (or_introl eq_refl)) as (t & T & S0). rewrite (f_size_type _ _ T), S0. cbn [Nat.mul]. lia. }
  pose proof (Nat.div_mod (length b) n ltac:(lia)) as D. pose proof (Nat.mod_upper_bound (length b) n ltac:(lia)) as M.
  set (q := (length b / n)%nat) in *.
  split; [lia|]. rewrite (O fs _ U) by lia. split.
  - destruct (Nat.min_spec (length fs) q) as [[A ->]|[A ->]]; [|nia]. nia.
  - intros m f t Lm N T. destruct (U f (nth_error_In _ _ N)) as (t' & T' & S'). assert (t' = t) by congruence. subst t'. rewrite S'.
    assert (m < length fs)%nat by (apply nth_error_Some; congruence).
    destruct (Nat.min_spec (length fs) q) as [[A E]|[A E]]; rewrite E in *; [lia|]. nia.
Qed.
Print Assumptions C29_every_payload.
(* two bytes after the last field of a delay are lost *)
Theorem C29_refuted : exists b e, is_bytes b /\ mk_event en0 KDelay 209 b = Ok e /\ payload en0 e = Ok (firstn 20 b) /\ length b = 22%nat.
Proof.
  exists [1;0;0;0; 2;0;0;0; 3;0;0;0; 4;0;0;0; 5;0;0;0; 6;7]. eexists. split; [apply bytes_check; reflexivity|].
  split; [vm_compute; reflexivity|]. split; vm_compute; reflexivity.
Qed.
Print Assumptions C29_refuted.
(* a payload that ends inside a field that is followed by a smaller one is even read
   wrongly: the first byte of "max" as the flags *)
Theorem C29_misread : exists b e, is_bytes b /\ mk_event en0 KPolyphony 221 b = Ok e /\ length b = 2%nat /\
  e_val e = VDict [("max"%string, VNone); ("slide"%string, VNone); ("flags"%string, VEnum 3)] /\
  payload en0 e = Ok [3].
Proof.
  exists [3; 1]. eexists. split; [apply bytes_check; reflexivity|]. split; [vm_compute; reflexivity|]. split; [reflexivity|].
  split; vm_compute; reflexivity.
Qed.
Print Assumptions C29_misread.
Example C29_case : cut_at delay_fields [1;0;0;0; 2;0;0;0; 3;0;0;0; 4;0;0;0; 5;0;0;0; 6;7] 5 /\
  cut_at delay_fields [1;0;0;0; 2;0;0;0; 3] 2 /\ catch_all delay_fields = false /\
  (exists fs e, layout 5 KMIDIController = Some fs /\ mk_event en0 KMIDIController 226 [1; 2; 3; 4; 5] = Ok e /\ catch_all fs = true /\
    payload en0 e = Ok [1; 2; 3; 4; 5]).
Proof.
  assert (U : forall f, In f delay_fields -> exists t, f_type f = Some t /\ ft_size t = 4%nat).
  { intros f F. cbn in F. repeat (destruct F as [<-|F]; [eexists; split; reflexivity|]). destruct F. }
  split; [exact (C29_every_payload 0 KDelay delay_fields 4 _ eq_refl ltac:(lia) U)|].
  split; [exact (C29_every_payload 0 KDelay delay_fields 4 _ eq_refl ltac:(lia) U)|]. split; [reflexivity|].
  eexists _, _. split; [reflexivity|]. split; [vm_compute; reflexivity|]. split; [reflexivity|vm_compute; reflexivity].
Qed.

(* ------------------------------------------------------------------------- C30 *)

(* Assigning a value that does not fit is accepted for every field that is there ... *)
Theorem C30_accepted : forall en evs h t ids df k e kd id b fs i m f ty v,
  evs <> [] -> views (parsed evs) h -> (t < nt h)%nat ->
  ids <> [] -> chosen ids (events h t) (Some k) -> nth_error (events h t) k = Some e ->
  is_bytes b -> mk_event en kd id b = Ok e -> layout (zlen b) kd = Some fs ->
  cut_at fs b i -> readable en fs b i -> kept en fs b i ->
  nth_error fs m = Some f -> f_type f = Some ty -> (m < i)%nat -> misfit ty v ->
  exists h' d d' e', prop_set en h (EvModel t) (MkProp ids df false (PStruct (f_name f))) v = (h', Ok tt) /\
    nth_error (events h' t) k = Some e' /\ e_val e = VDict d /\ e_val e' = VDict d' /\ dict_updated d (f_name f) v d' /\
    match f with
    (* ... the bytes of the field are left out when it is optional *)
    | Opt _ _ => exists p, payload en e = Ok p /\ payload en e' = Ok (without p (offset fs m) (ft_size ty))
    (* and the event cannot be saved when it is not *)
    | _ => exists x, payload en e' = Err x
    end.
Proof.
  intros en evs h t ids df k e kd id b fs i m f ty v NE V L NI CH E Hb HM HL C R K N T Lm M.
  destruct (views_tree _ _ t NE V L) as (W & ND & _).
  destruct (get_event_spec h t ids NI) as [A _]. destruct (A k CH) as (c & KC & GE). set (r := ref_of h c) in *.
  assert (RR : nth_error (refs h t) k = Some r) by (unfold refs; now rewrite nth_error_map, KC).
  assert (EE : ev_of h r = e) by (rewrite events_refs, nth_error_map, RR in E; cbn in E; congruence).
  assert (LH : (r < length (h_evs h))%nat) by (unfold in_heap in W; rewrite Forall_forall in W; apply W; eapply nth_error_In; eauto).
  destruct (struct_event_field en kd id b e fs Hb HM HL i C R) as (d & EV & _ & X).
  destruct (X m f N) as (old & _ & FV & DG).
  assert (OLD : old <> VNone).
  { intros ->. apply Nat.ltb_lt in Lm.
    assert (D : ft_dec en ty (slice b (offset fs m) (ft_size ty)) = Some VNone).
    { destruct f; cbn [f_type] in T; try discriminate T; injection T as ->; cbn [field_value] in FV; rewrite Lm in FV; exact FV. }
    destruct ty; cbn [ft_dec] in D; try discriminate D;
      repeat match type of D with
             | context [match ?x with _ => _ end] => destruct x; try discriminate D
             end. }
  destruct (struct_event_dec en kd id b e fs Hb HM HL) as (E0 & _).
  set (d' := dset d (f_name f) v).
  pose proof (set_val_only h r (VDict d') LH) as OV.
  exists (set_val h r (VDict d')), d, d', (with_val e (VDict d')). split.
  { unfold prop_set. cbn [p_readonly p_ids p_kind]. rewrite GE. cbn [target_write tg_set].
    unfold struct_set. rewrite EE. rewrite EV, DG.
    assert (KD : e_kind e = kd) by now rewrite E0. rewrite KD, (layout_struct _ _ _ HL). destruct old; try reflexivity. congruence. }
  split.
  { rewrite events_refs, (only_value_refs _ _ _ _ OV), nth_error_map, RR. cbn [option_map].
    destruct OV as (_ & _ & _ & _ & ->). now rewrite EE. }
  split; [exact EV|]. split; [reflexivity|]. split; [eapply dset_updated; exact DG|].
  pose proof (misfit_saved en kd id b e fs i m f ty v d Hb HM HL C R K N T Lm M EV) as MS.
  assert (EV' : with_val e (VDict d') = Event id kd (e_len e) (e_new e) (VDict d')) by (rewrite E0; reflexivity).
  rewrite EV'. exact MS.
Qed.
Print Assumptions C30_accepted.

(* ... so that afterwards every field from there on is read from bytes of its
   successors: [j]-th field, displaced by the size of the one left out.  ([layout]: of a
   class whose fields do not depend on the payload size.) *)
Theorem C30_misread : forall en kd id p fs m f ty i' e' j g u,
  is_bytes p -> nth_error fs m = Some f -> f_type f = Some ty -> (offset fs m + ft_size ty <= length p)%nat ->
  mk_event en kd id (without p (offset fs m) (ft_size ty)) = Ok e' ->
  layout (zlen (without p (offset fs m) (ft_size ty))) kd = Some fs ->
  cut_at fs (without p (offset fs m) (ft_size ty)) i' -> readable en fs (without p (offset fs m) (ft_size ty)) i' ->
  nth_error fs j = Some g -> f_type g = Some u -> (j < i')%nat ->
  exists d' v, e_val e' = VDict d' /\ dget d' (f_name g) = Some v /\
    ft_dec en u (slice p (offset fs j + (if (m <=? j)%nat then ft_size ty else 0)) (ft_size u)) = Some v.
Proof.
  intros en kd id p fs m f ty i' e' j g u Hp N T L HM HL C R NJ TJ Lj.
  exact (misread en kd id p fs m f ty j g u i' e' Hp N T L HM HL C R NJ TJ Lj).
Qed.
Print Assumptions C30_misread.

(* Setting the pan of a channel to 2^31 makes its volume be read as pan, its pitch
   shift as volume, ... *)
Definition levels0 : bytes := [0;25;0;0; 16;39;0;0; 156;255;255;255; 0;1;0;0; 0;0;0;0; 2;0;0;0].
Definition levels_file : bytes := file_bytes 0 1 96 (concat (map chunk_enc [(199, ver20); (64, [0; 0]); (219, levels0)])).
Theorem C30_refuted : exists p h' f' p' d d', parse en0 levels_file = Ok p /\ serialise en0 p = Ok levels_file /\
  prop_set en0 (parsed (pr_events p)) (EvModel 0) (MkProp [219] VNone false (PStruct "pan")) (VInt (2 ^ 31)) = (h', Ok tt) /\
  serialise en0 (Project (root_events h') 1 0 96) = Ok f' /\ parse en0 f' = Ok p' /\
  map e_val (skipn 2 (pr_events p)) = [VDict d] /\ map e_val (skipn 2 (pr_events p')) = [VDict d'] /\
  d = [("pan"%string, VInt 6400); ("volume"%string, VInt 10000); ("pitch_shift"%string, VInt (-100)); ("filter.mod_x"%string, VInt 256); ("filter.mod_y"%string, VInt 0); ("filter.type"%string, VEnum 2)] /\
  d' = [("pan"%string, VInt 10000); ("volume"%string, VInt 4294967196); ("pitch_shift"%string, VInt 256); ("filter.mod_x"%string, VInt 0); ("filter.mod_y"%string, VInt 2); ("filter.type"%string, VNone)].
Proof. do 6 eexists. do 8 (split; [vm_compute; reflexivity|]). vm_compute; reflexivity. Qed.
Print Assumptions C30_refuted.
Example C30_case : misfit (TS 4) (VInt (2 ^ 31)) /\ misfit (TU 4) (VInt (-1)) /\ misfit (TU 4) (VStr [97]) /\ misfit (TEnum 4) (VInt 2) /\
  without levels0 0 4 = [16;39;0;0; 156;255;255;255; 0;1;0;0; 0;0;0;0; 2;0;0;0].
Proof.
  split; [intros z [H|[H|(b & H & _)]]; try discriminate; injection H as <-; vm_compute; right; discriminate|].
  split; [intros z [H|[H|(b & H & _)]]; try discriminate; injection H as <-; left; reflexivity|].
  split; [intros z [H|[H|(b & H & _)]]; discriminate|]. split; [intros z H; discriminate|reflexivity].
Qed.

(* ------------------------------------------------------------------------- C31 *)

(* The number of elements, and the fields of each *)
Theorem C31_read : forall en k id b rs,
  is_bytes b -> record (new_of b) k = Some rs -> 192 <= id ->
  exists e vs, mk_event en k id b = Ok e /\ e_val e = VList vs /\ length vs = (length b / rec_size rs)%nat /\
    forall j, (j < length b / rec_size rs)%nat ->
      exists d, nth_error vs j = Some (VDict d) /\ map fst d = map f_name rs /\
        forall m f t, nth_error rs m = Some f -> f_type f = Some t ->
          exists v, dget d (f_name f) = Some v /\ ft_dec en t (slice b (j * rec_size rs + offset rs m) (ft_size t)) = Some v.
Proof.
  intros en k id b rs Hb HR HI. destruct (list_event_parses en k id b _ rs Hb HR HI) as [e HM].
  pose proof (list_event_dec en k id b e rs Hb HM HR) as EE.
  eexists e, _. split; [exact HM|]. split; [rewrite EE; reflexivity|]. split; [now rewrite map_length, seq_length|].
  intros j Lj. destruct (list_event_item en k id b e rs Hb HM HR j Lj) as (vs & d & EV & _ & X & Y).
  rewrite EE in EV. cbn [e_val] in EV. injection EV as <-. exists d. split; [exact X|exact Y].
Qed.
Print Assumptions C31_read.
(* sizes of elements *)
Theorem C31_sizes : forall w k rs, record w k = Some rs -> rec_size rs =
  match k with KPlaylist => if w then 60 else 32 | KNotes => 24 | _ => 12 end%nat.
Proof. exact rec_sizes. Qed.
Print Assumptions C31_sizes.
(* saving: everything but a partial element at the end *)
Theorem C31_saved : forall en k id b rs e,
  is_bytes b -> record (new_of b) k = Some rs -> mk_event en k id b = Ok e ->
  (forall j, (j < length b / rec_size rs)%nat -> kept en rs (slice b (j * rec_size rs) (rec_size rs)) (length rs)) ->
  payload en e = Ok (firstn (length b / rec_size rs * rec_size rs) b).
Proof. intros en k id b rs e Hb HR HM. exact (list_event_saved en k id b e rs Hb HM HR). Qed.
Print Assumptions C31_saved.
Theorem C31_whole : forall en k id b rs e n,
  is_bytes b -> record (new_of b) k = Some rs -> mk_event en k id b = Ok e -> length b = (n * rec_size rs)%nat ->
  (forall j, (j < n)%nat -> kept en rs (slice b (j * rec_size rs) (rec_size rs)) (length rs)) ->
  payload en e = Ok b.
Proof.
  intros en k id b rs e n Hb HR HM L K. destruct (record_ok en (zlen b) (new_of b) k rs HR) as (_ & _ & _ & _ & _ & _ & _ & SP).
  assert (D : (length b / rec_size rs)%nat = n) by (rewrite L; apply Nat.div_mul; lia).
  rewrite (C31_saved en k id b rs e Hb HR HM) by (rewrite D; exact K). rewrite D, <- L. now rewrite firstn_all.
Qed.
Print Assumptions C31_whole.
(* writing a field of element [j] through its model changes exactly the bytes of that
   field on save *)
Theorem C31_write : forall en h r j ids df k id b rs e n m f t c v,
  (r < length (h_evs h))%nat -> ev_of h r = e ->
  is_bytes b -> record (new_of b) k = Some rs -> mk_event en k id b = Ok e ->
  length b = (n * rec_size rs)%nat ->
  (forall i, (i < n)%nat -> kept en rs (slice b (i * rec_size rs) (rec_size rs)) (length rs)) ->
  (j < n)%nat -> nth_error rs m = Some f -> f_type f = Some t ->
  is_bytes c -> length c = ft_size t -> ft_dec en t c = Some v -> c_ok (ft_cell en t) c = true ->
  exists h', prop_set en h (ItModel r j) (MkProp ids df false (PStruct (f_name f))) v = (h', Ok tt) /\
    payload en (ev_of h' r) = Ok (splice b (j * rec_size rs + offset rs m) c).
Proof.
  intros en h r j ids df k id b rs e n m f t c v LR EE Hb HR HM L K Lj N T Bc Lc Dc Kc.
  destruct (record_ok en (zlen b) (new_of b) k rs HR) as (cs & KC & F & NM & W & WI & TT & SP).
  assert (D : (length b / rec_size rs)%nat = n) by (rewrite L; apply Nat.div_mul; lia).
  assert (Lj' : (j < length b / rec_size rs)%nat) by (rewrite D; exact Lj).
  destruct (list_event_item en k id b e rs Hb HM HR j Lj') as (vs & d & EV & LV & NV & _ & _).
  pose proof (list_event_edit en k id b e rs j m f t c v vs d Hb HM HR Lj' N T Bc Lc Dc EV NV) as ED.
  assert (RM : (offset rs m + length c <= rec_size rs)%nat).
  { rewrite Lc, <- (f_size_type _ _ T). apply (offset_le rs m (length rs) f N). apply nth_error_Some. congruence. }
  assert (J1 : ((j + 1) * rec_size rs <= length b)%nat) by (rewrite L; apply Nat.mul_le_mono_r; lia).
  set (b' := splice b (j * rec_size rs + offset rs m) c) in *.
  assert (LB : length b' = length b) by (apply splice_length; lia).
  assert (ZB : zlen b' = zlen b) by (unfold zlen; now rewrite LB).
  assert (NB : new_of b' = new_of b) by (unfold new_of; now rewrite ZB).
  assert (Hb' : is_bytes b') by now apply is_bytes_splice.
  assert (PL : payload en (Event id k (e_len e) (e_new e) (VList (lset vs j (VDict (dset d (f_name f) v))))) = Ok b').
  { apply (C31_whole en k id b' rs _ n Hb' ltac:(rewrite NB; exact HR) ED ltac:(rewrite LB; exact L)).
    intros i Li m0 g u _ N0 T0. destruct (Nat.eq_dec i j) as [->|NE].
    - unfold b'. rewrite slice_of_splice by lia. 
      assert (SL : length (slice b (j * rec_size rs) (rec_size rs)) = rec_size rs)
        by (unfold slice; rewrite firstn_length, skipn_length; lia).
      pose proof (record_cut rs _ TT SL) as CUT.
      eapply (replace_kept en rs (slice b (j * rec_size rs) (rec_size rs)) (length rs) m f t c); try eassumption.
      + apply nth_error_Some. congruence.
      + apply K. exact Lj.
      + apply nth_error_Some. congruence.
    - assert (S0 : slice b' (i * rec_size rs) (rec_size rs) = slice b (i * rec_size rs) (rec_size rs)).
      { unfold b'. apply slice_splice; [lia|]. destruct (Nat.lt_ge_cases i j) as [G|G].
        - left. assert ((i + 1) * rec_size rs <= j * rec_size rs)%nat by (apply Nat.mul_le_mono_r; lia). lia.
        - right. assert ((j + 1) * rec_size rs <= i * rec_size rs)%nat by (apply Nat.mul_le_mono_r; lia). lia. }
      rewrite S0. eapply (K i Li); try eassumption. apply nth_error_Some. congruence. }
  destruct (mk_event_inv _ _ _ _ _ HM) as (v0 & r0 & _ & E1 & _).
  assert (IT : items e = vs).
  { assert (U : list_usable e = true).
    { rewrite E1. unfold list_usable. cbn [e_kind e_len]. destruct k; try reflexivity.
      pose proof (rec_sizes _ _ _ HR) as RS. cbv iota in RS. unfold zlen. rewrite L, RS.
      destruct (new_of b); rewrite Nat2Z.inj_mul; [change (Z.of_nat 60) with 60|change (Z.of_nat 32) with 32]; rewrite Z_mod_mult; [apply orb_true_r|reflexivity]. }
    unfold items. now rewrite EV, U. }
  assert (KD : e_kind e = k) by now rewrite E1.
  exists (set_event h r (set_items e (lset vs j (VDict (dset d (f_name f) v))))). split.
  - unfold prop_set. cbn [p_readonly p_ids p_kind get_event target_write tg_set]. rewrite EE, IT, NV. reflexivity.
  - assert (EV' : ev_of (set_event h r (set_items e (lset vs j (VDict (dset d (f_name f) v))))) r = set_items e (lset vs j (VDict (dset d (f_name f) v)))).
    { unfold ev_of, set_event. cbn [h_evs]. rewrite nth_lset, Nat.eqb_refl. apply Nat.ltb_lt in LR. now rewrite LR. }
    rewrite EV'. unfold set_items. rewrite EV. unfold with_val. rewrite E1 in PL |- *. cbn [e_kind e_id e_len e_new e_val] in *. exact PL.
Qed.
Print Assumptions C31_write.
(* routing: a truth value per byte *)
Theorem C31_routing : forall en id b, is_bytes b -> 192 <= id ->
  exists e, mk_event en KInsertRouting id b = Ok e /\
    e_val e = VList (map (fun x => VBool (negb (x =? 0))) b) /\
    payload en e = Ok (map (fun x => if x =? 0 then 0 else 1) b).
Proof. exact routing_read. Qed.
Print Assumptions C31_routing.
Example C31_case : exists rs e, record (new_of (note0 ++ note0 ++ [1; 2])) KNotes = Some rs /\ mk_event en0 KNotes 224 (note0 ++ note0 ++ [1; 2]) = Ok e /\
  length (items e) = 2%nat /\ payload en0 e = Ok (note0 ++ note0) /\ kept en0 rs note0 (length rs) /\
  ft_dec en0 (TU 2) [61; 0] = Some (VInt 61).
Proof.
  eexists _, _. split; [vm_compute; reflexivity|]. split; [vm_compute; reflexivity|]. split; [reflexivity|].
  split; [vm_compute; reflexivity|]. split; [|reflexivity].
  intros m f t L N T. do 14 (destruct m as [|m]; [injection N as <-; injection T as <-; reflexivity|]). cbn in L. lia.
Qed.

(* ------------------------------------------------------------------------- C32 *)

(* the event shows the items [recs], each of the fields [rs] *)
Definition shows (en : env) (e : event) (rs : list field) (recs : list bytes) : Prop :=
  exists vs, e_val e = VList vs /\ length vs = length recs /\
    forall j c, nth_error recs j = Some c -> exists d, nth_error vs j = Some (VDict d) /\ map fst d = map f_name rs /\
      forall m f t, nth_error rs m = Some f -> f_type f = Some t ->
        exists v, dget d (f_name f) = Some v /\ ft_dec en t (slice c (offset rs m) (ft_size t)) = Some v.

Lemma concat_slice s : forall (recs : list bytes) j c, (forall x, In x recs -> length x = s) -> nth_error recs j = Some c ->
  slice (concat recs) (j * s) s = c.
Proof.
  induction recs as [|x recs IH]; intros j c H N; [destruct j; discriminate|]. cbn [concat].
  pose proof (H x (or_introl eq_refl)) as Lx. unfold slice. destruct j as [|j].
  - injection N as ->. cbn [Nat.mul skipn]. rewrite firstn_app, Lx, Nat.sub_diag, <- Lx, firstn_all. cbn [firstn]. apply app_nil_r.
  - cbn [Nat.mul]. rewrite skipn_app, skipn_all2 by lia. rewrite Lx. replace (s + j * s - s)%nat with (j * s)%nat by lia. cbn [app].
    apply IH; [intros y I; apply H; now right|exact N].
Qed.
Lemma concat_len s : forall (recs : list bytes), (forall x, In x recs -> length x = s) -> length (concat recs) = (length recs * s)%nat.
Proof.
  induction recs as [|x recs IH]; intros H; [reflexivity|]. cbn [concat length Nat.mul]. rewrite app_length, IH by (intros y I; apply H; now right).
  rewrite (H x (or_introl eq_refl)). reflexivity.
Qed.
Lemma slice_slice b a s o n : (o + n <= s)%nat -> slice (slice b a s) o n = slice b (a + o) n.
Proof.
  intros L. unfold slice. rewrite skipn_firstn_comm, firstn_firstn, skipn_skipn. f_equal; [lia|]. f_equal. lia.
Qed.

Lemma list_shows en k id rs (recs : list bytes) s e : is_bytes (concat recs) -> record (new_of (concat recs)) k = Some rs -> rec_size rs = s ->
  (forall x, In x recs -> length x = s) -> mk_event en k id (concat recs) = Ok e -> shows en e rs recs.
Proof.
  intros Hb HR HS HX HM. set (b := concat recs) in *.
  destruct (record_ok en (zlen b) (new_of b) k rs HR) as (_ & _ & _ & _ & _ & _ & _ & SP).
  assert (D : (length b / rec_size rs)%nat = length recs).
  { unfold b. rewrite (concat_len s recs HX), HS. apply Nat.div_mul. lia. }
  pose proof (list_event_dec en k id b e rs Hb HM HR) as EE.
  eexists. split; [rewrite EE; reflexivity|]. split; [now rewrite map_length, seq_length|].
  intros j c N. assert (Lj : (j < length b / rec_size rs)%nat) .
  { rewrite D. assert (NN : nth_error recs j <> None) by (rewrite N; discriminate). exact (proj1 (nth_error_Some recs j) NN). }
  destruct (list_event_item en k id b e rs Hb HM HR j Lj) as (vs & d & EV & _ & X & Y & Z).
  rewrite EE in EV. cbn [e_val] in EV. injection EV as <-. exists d. split; [exact X|]. split; [exact Y|].
  intros m f t NF T. destruct (Z m f t NF T) as (v & V1 & V2). exists v. split; [exact V1|].
  rewrite <- V2. f_equal. rewrite <- (concat_slice s recs j c HX N), HS. apply slice_slice.
  rewrite <- HS, <- (f_size_type _ _ T). apply (offset_le rs m (length rs) f NF). apply nth_error_Some. congruence.
Qed.

Definition items32 : list field := match record false KPlaylist with Some rs => rs | None => [] end.
Definition items60 : list field := match record true KPlaylist with Some rs => rs | None => [] end.

(* a playlist of 60-byte items is always read as such *)
Theorem C32_60 : forall en id recs, Forall is_bytes recs -> (forall x, In x recs -> length x = 60%nat) -> 192 <= id ->
  exists e, mk_event en KPlaylist id (concat recs) = Ok e /\ shows en e items60 recs /\ list_usable e = true.
Proof.
  intros en id recs Hb HX HI. assert (Hc : is_bytes (concat recs)).
  { clear - Hb. induction Hb; [constructor|]. cbn [concat]. apply is_bytes_app. auto. }
  assert (ZL : zlen (concat recs) = Z.of_nat (length recs) * 60) by (unfold zlen; rewrite (concat_len 60 recs HX); lia).
  assert (NW : new_of (concat recs) = true) by (unfold new_of; rewrite ZL, Z_mod_mult; reflexivity).
  assert (HR : record (new_of (concat recs)) KPlaylist = Some items60) by (rewrite NW; reflexivity).
  destruct (list_event_parses en KPlaylist id _ _ _ Hc HR HI) as [e HM]. exists e. split; [exact HM|].
  split; [exact (list_shows en KPlaylist id items60 recs 60 e Hc HR eq_refl HX HM)|].
  rewrite (list_event_dec en KPlaylist id _ e _ Hc HM HR). unfold list_usable. cbn [e_kind e_len]. rewrite ZL, Z_mod_mult. apply orb_true_r.
Qed.
Print Assumptions C32_60.
(* a playlist of 32-byte items is, exactly when their number is no multiple of 15 or 0 *)
Theorem C32_32 : forall en id recs, Forall is_bytes recs -> (forall x, In x recs -> length x = 32%nat) -> 192 <= id ->
  exists e, mk_event en KPlaylist id (concat recs) = Ok e /\ list_usable e = true /\
    (shows en e items32 recs <-> ~ exists q, (0 < q)%nat /\ length recs = (15 * q)%nat) /\
    (* otherwise, other items *)
    (forall q, length recs = (15 * q)%nat -> exists vs, e_val e = VList vs /\ length vs = (8 * q)%nat).
Proof.
  intros en id recs Hb HX HI. assert (Hc : is_bytes (concat recs)).
  { clear - Hb. induction Hb; [constructor|]. cbn [concat]. apply is_bytes_app. auto. }
  assert (LC : length (concat recs) = (length recs * 32)%nat) by (apply (concat_len 32 recs HX)).
  assert (ZL : zlen (concat recs) = Z.of_nat (length recs) * 32) by (unfold zlen; rewrite LC; lia).
  assert (NW : new_of (concat recs) = true <-> exists q, length recs = (15 * q)%nat).
  { unfold new_of. rewrite ZL, Z.eqb_eq. split; intros H.
    - exists (Z.to_nat (Z.of_nat (length recs) / 15)).
      assert (X : Z.of_nat (length recs) mod 15 = 0) by (clear - H; lia). clear - X. lia.
    - destruct H as [q ->]. replace (Z.of_nat (15 * q) * 32) with (Z.of_nat q * 8 * 60) by lia. apply Z_mod_mult. }
  assert (HR : record (new_of (concat recs)) KPlaylist = Some (if new_of (concat recs) then items60 else items32)) by (destruct (new_of (concat recs)); reflexivity).
  destruct (list_event_parses en KPlaylist id _ _ _ Hc HR HI) as [e HM]. exists e. split; [exact HM|].
  assert (EE := list_event_dec en KPlaylist id _ e _ Hc HM HR).
  split; [rewrite EE; unfold list_usable; cbn [e_kind e_len]; rewrite ZL, Z_mod_mult; reflexivity|].
  assert (Q : forall q, length recs = (15 * q)%nat -> exists vs, e_val e = VList vs /\ length vs = (8 * q)%nat).
  { intros q HQ. assert (NT : new_of (concat recs) = true) by (apply NW; eauto). rewrite NT in EE.
    eexists. split; [rewrite EE; reflexivity|]. rewrite map_length, seq_length, LC, HQ. change (rec_size items60) with 60%nat.
    replace (15 * q * 32)%nat with (8 * q * 60)%nat by lia. apply Nat.div_mul. lia. }
  split; [|exact Q]. split.
  - intros (vs & EV & LV & _) (q & Q0 & Q1). destruct (Q q Q1) as (vs' & EV' & LV'). assert (vs' = vs) by congruence. subst vs'. lia.
  - intros NQ. destruct (new_of (concat recs)) eqn:NT.
    + destruct (proj1 NW eq_refl) as [q Q1]. destruct q as [|q]; [|exfalso; apply NQ; exists (Datatypes.S q); split; [lia|exact Q1]].
      destruct recs; [|discriminate Q1]. rewrite EE. eexists. split; [reflexivity|]. split; [reflexivity|]. intros [|j] c N; discriminate.
    + assert (HR' : record (new_of (concat recs)) KPlaylist = Some items32) by (rewrite NT; reflexivity).
      exact (list_shows en KPlaylist id items32 recs 32 e Hc HR' eq_refl HX HM).
Qed.
Print Assumptions C32_32.
(* fifteen 32-byte items come out as eight *)
Theorem C32_refuted : exists recs e vs, (forall x, In x recs -> length x = 32%nat) /\ Forall is_bytes recs /\ length recs = 15%nat /\
  mk_event en0 KPlaylist 233 (concat recs) = Ok e /\ e_val e = VList vs /\ length vs = 8%nat.
Proof.
  exists (repeat (repeat 1 32) 15). eexists _, _. split; [intros x H; apply repeat_spec in H; now subst x|].
  split; [apply Forall_forall; intros x H; apply repeat_spec in H; subst x; apply bytes_check; reflexivity|].
  split; [reflexivity|]. split; [vm_compute; reflexivity|]. split; reflexivity.
Qed.
Print Assumptions C32_refuted.
(* a length that is a multiple of neither has items that cannot be accessed *)
Theorem C32_unusable : forall en id b e, is_bytes b -> mk_event en KPlaylist id b = Ok e ->
  (list_usable e = false <-> (length b mod 32 <> 0 /\ length b mod 60 <> 0)%nat).
Proof.
  intros en id b e Hb HM. destruct (mk_event_inv _ _ _ _ _ HM) as (v0 & r0 & _ & E1 & _). rewrite E1.
  unfold list_usable. cbn [e_kind e_len]. rewrite orb_false_iff, !Z.eqb_neq. unfold zlen. lia.
Qed.
Print Assumptions C32_unusable.
Example C32_case : (forall x, In x [repeat 1 32; repeat 2 32] -> length x = 32%nat) /\
  exists e, mk_event en0 KPlaylist 233 (concat [repeat 1 32; repeat 2 32]) = Ok e /\ length (items e) = 2%nat.
Proof. split; [intros x [<-|[<-|[]]]; reflexivity|]. eexists. split; vm_compute; reflexivity. Qed.
