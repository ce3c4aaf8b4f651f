(* C36 tempo, C37 version, C38 comparing versions, C39 licensee, C40 values of the header. *)
From Coq Require Import String ZArith List Bool Lia Arith.
From Verif Require Import M_Base M_Float M_Text M_Construct M_Structs M_Events M_Parse M_Tree M_Prop M_Project.
From Verif Require Import S_Canon S_File S_Domain S_Tree S_Prop S_Real S_Project.
From Verif Require Import P_Base P_Null P_TreeBase P_Tree P_TreeEdit P_Prop P_Round P_Edit P_Project P_Puts P_Tempo P_Header.
From Verif Require Import C_Samples.
Import ListNotations.
Open Scope Z_scope.

(* version 20.8.3 with a build number, tempo 120, licensee; version 2.0.1 with a tempo in
   two events *)
Definition proj_chunks : list chunk :=
  [(199, ver20); (159, [1; 9; 0; 0]); (156, [192; 212; 1; 0]); (200, [65; 0; 66; 0; 0; 0]); (194, title16); (64, [1; 0])].
Definition old_chunks : list chunk :=
  [(199, [51; 46; 52; 46; 49; 0]); (66, [120; 0]); (93, [244; 1]); (64, [1; 0])].
Definition proj_file : bytes := sample proj_chunks.
Definition proj_heap : heap := parsed (pr_events (load proj_file)).
Definition old_heap : heap := parsed (pr_events (load (sample old_chunks))).

(* ------------------------------------------------------------------------- C36 *)

(* any int or finite float within the limits of the version: the tempo is stored rounded
   down to thousandths, up to 2^-33; whole tempos exactly *)
Theorem C36_set : forall evs h v n, evs <> [] -> views (parsed evs) h -> has_tempo evs -> version_get h = Ok v -> settable v n ->
  exists h' m f z, tempo_set h n = (h', Ok tt) /\ root_events h' = with_tempo m f z evs /\ same_shape h h' /\
    0 <= m <= 999000 /\ 0 <= f <= 999 /\ 10 <= z <= 999 /\
    1000 * bpm_units n - one - 2 ^ 1041 < m * one <= 1000 * bpm_units n + 2 ^ 1041 /\
    z * one <= bpm_units n < (z + 1) * one /\
    1000 * (bpm_units n - z * one) - one - 2 ^ 1041 < f * one <= 1000 * (bpm_units n - z * one) + 2 ^ 1041 /\
    (forall k, bpm_units n = k * one -> m = 1000 * k /\ f = 0 /\ z = k).
Proof. exact tempo_set_ok. Qed.
Print Assumptions C36_set.

(* a whole number of BPM, given as int or float, reads back equal *)
Theorem C36_integral : forall evs h v n z, evs <> [] -> views (parsed evs) h -> has_tempo evs -> version_get h = Ok v -> settable v n ->
  bpm_units n = z * one ->
  exists h' t, tempo_set h n = (h', Ok tt) /\ tempo_get h' = Ok t /\ bpm t z.
Proof.
  intros evs h v n z NE V HT VG HS EZ. destruct (tempo_set_ok evs h v n NE V HT VG HS) as (h' & m & f & k & S1 & S2 & _ & _ & _ & B & _ & _ & _ & X).
  destruct (X z EZ) as (-> & -> & ->). rewrite (Z.mul_comm 1000) in S2. destruct (tempo_get_int h' evs z HT B S2) as (t & T1 & T2). eauto 6.
Qed.
Print Assumptions C36_integral.

(* outside the limits: ValueError and nothing changes *)
Theorem C36_range_int : forall evs h v z, evs <> [] -> views (parsed evs) h -> has_tempo evs -> version_get h = Ok v ->
  ~ clash v [1; 4; 2] -> ~ clash v [11; 0; 0] -> Z.abs z < 2 ^ 1023 ->
  z < 10 \/ max_bpm [v_major v; v_minor v; v_patch v] < z ->
  tempo_set h (NInt z) = (h, Err ValueError).
Proof.
  intros evs h v z NE V HT VG C1 C2 B HZ. destruct (tidy_views evs h NE V) as [_ R]. unfold tempo_set.
  rewrite (tempo_check_int h v z) by (rewrite ?R; assumption).
  replace ((10 <=? z) && (z <=? max_bpm [v_major v; v_minor v; v_patch v])) with false by lia. reflexivity.
Qed.
Print Assumptions C36_range_int.
Theorem C36_range_float : forall evs h v x, evs <> [] -> views (parsed evs) h -> has_tempo evs -> version_get h = Ok v ->
  ~ clash v [1; 4; 2] -> ~ clash v [11; 0; 0] -> ~ clash v [3; 4; 0] ->
  lex_lt [v_major v; v_minor v; v_patch v] [3; 4; 0] = false -> 0 <= x < 2 ^ 64 ->
  ~ finite x \/ units x < 10 * one \/ max_bpm [v_major v; v_minor v; v_patch v] * one < units x ->
  tempo_set h (NFlt x) = (h, Err ValueError).
Proof.
  intros evs h v x NE V HT VG C1 C2 C3 L B HX. destruct (tidy_views evs h NE V) as [_ R]. rewrite <- R in HT.
  assert (D : finite x \/ ~ finite x) by (unfold finite; lia). destruct D as [F|NF].
  - unfold tempo_set. rewrite (tempo_check_flt h v x), L by assumption. set (k := max_bpm _ * one) in *. clearbody k.
    replace ((10 * one <=? units x) && (units x <=? k)) with false; [reflexivity|]. destruct HX as [HX|HX]; [contradiction|]. lia.
  - eapply tempo_nonfinite; eauto.
Qed.
Print Assumptions C36_range_float.
(* floats are refused before 3.4.0 *)
Theorem C36_old_float : forall evs h v x, evs <> [] -> views (parsed evs) h -> has_tempo evs -> version_get h = Ok v ->
  ~ clash v [1; 4; 2] -> ~ clash v [11; 0; 0] -> ~ clash v [3; 4; 0] ->
  lex_lt [v_major v; v_minor v; v_patch v] [3; 4; 0] = true -> finite x ->
  tempo_set h (NFlt x) = (h, Err TypeError).
Proof.
  intros evs h v x NE V HT VG C1 C2 C3 L F. destruct (tidy_views evs h NE V) as [_ R]. rewrite <- R in HT.
  unfold tempo_set. rewrite (tempo_check_flt h v x), L by assumption. reflexivity.
Qed.
Print Assumptions C36_old_float.

(* saved and loaded the tempo is the same *)
Theorem C36_saved : forall en f p h v n,
  is_bytes f -> parse en f = Ok p -> canonical_file en f -> zlen f + 30 < 2 ^ 32 ->
  views (parsed (pr_events p)) h -> has_tempo (pr_events p) -> version_get h = Ok v -> settable v n ->
  exists h' f' p', tempo_set h n = (h', Ok tt) /\
    serialise en (Project (root_events h') (pr_channel_count p) (pr_format p) (pr_ppq p)) = Ok f' /\ parse en f' = Ok p' /\
    Forall2 same_event (root_events h') (pr_events p') /\ tempo_get (parsed (pr_events p')) = tempo_get h'.
Proof. exact tempo_saved. Qed.
Print Assumptions C36_saved.

(* assigning the tempo to itself: the stored thousandths stay or decrease by one *)
Theorem C36_self : forall evs h vs v, evs <> [] -> views (parsed evs) h ->
  value_of 156 evs = Some (VInt v) -> value_of 66 evs = None -> value_of 93 evs = None ->
  version_get h = Ok vs -> ~ clash vs [1; 4; 2] -> ~ clash vs [11; 0; 0] -> ~ clash vs [3; 4; 0] ->
  lex_lt [v_major vs; v_minor vs; v_patch vs] [3; 4; 0] = false ->
  10000 <= v <= 1000 * max_bpm [v_major vs; v_minor vs; v_patch vs] ->
  exists x h' m, tempo_get h = Ok (VFlt x) /\ tempo_set h (NFlt x) = (h', Ok tt) /\
    root_events h' = put 156 (VInt m) evs /\ (m = v \/ m = v - 1).
Proof.
  intros evs h vs v NE V. destruct (tidy_views evs h NE V) as [T <-]. now apply tempo_self.
Qed.
Print Assumptions C36_self.
(* ... and they do decrease: 16.002 becomes 16.001 *)
Theorem C36_self_refuted : exists f p x h', is_bytes f /\ canonical_file en0 f /\ parse en0 f = Ok p /\
  value_of 156 (pr_events p) = Some (VInt 16002) /\
  tempo_get (parsed (pr_events p)) = Ok (VFlt x) /\ tempo_set (parsed (pr_events p)) (NFlt x) = (h', Ok tt) /\
  value_of 156 (root_events h') = Some (VInt 16001).
Proof.
  pose (cs := [(199, ver20); (156, [130; 62; 0; 0]); (64, [1; 0])] : list chunk).
  destruct (sample_ok cs ltac:(vm_compute; reflexivity)) as [B C].
  exists (sample cs), (load (sample cs)). eexists _, _. split; [exact B|]. split; [exact C|].
  repeat (split; [vm_compute; reflexivity|]). vm_compute. reflexivity.
Qed.
Print Assumptions C36_self_refuted.

Lemma views_self evs : views (parsed evs) (parsed evs). Proof. constructor. Qed.
Example C36_modern : exists v h' t, version_get proj_heap = Ok v /\ has_tempo (pr_events (load proj_file)) /\
  settable v (NInt 133) /\ tempo_set proj_heap (NInt 133) = (h', Ok tt) /\ tempo_get h' = Ok t /\ bpm t 133 /\
  tempo_get proj_heap = Ok (VFlt 4638144666238189568).
Proof.
  assert (VG : version_get proj_heap = Ok (FLV 20 8 3 None)) by (vm_compute; reflexivity).
  assert (HT : has_tempo (pr_events (load proj_file))) by (left; exists 120000; split; [vm_compute; reflexivity|reflexivity]).
  assert (ST : settable (FLV 20 8 3 None) (NInt 133)).
  { split; [intros [E _]; discriminate|]. split; [intros [E _]; discriminate|]. vm_compute. split; discriminate. }
  destruct (C36_integral (pr_events (load proj_file)) proj_heap _ (NInt 133) 133 ltac:(vm_compute; discriminate) (views_self _) HT VG ST eq_refl)
    as (h' & t & E1 & E2 & E3).
  exists (FLV 20 8 3 None), h', t. repeat (split; [assumption|]). vm_compute. reflexivity.
Qed.
(* 140.25 in the old form: 140 and 250 *)
Example C36_old : exists h', tempo_set old_heap (NFlt 4639138624749699072) = (h', Ok tt) /\
  value_of 66 (root_events h') = Some (VInt 140) /\ value_of 93 (root_events h') = Some (VInt 250) /\
  tempo_get h' = Ok (VFlt 4639138624749699072) /\ tempo_get old_heap = Ok (VFlt 4638179850610278400).
Proof. eexists. split; [vm_compute; reflexivity|]. vm_compute. repeat split; reflexivity. Qed.

(* ------------------------------------------------------------------------- C37 *)

Theorem C37_set : forall evs h a l, evs <> [] -> views (parsed evs) h -> value_of 199 evs <> None ->
  version_list a = Ok l -> (length l = 3 \/ length l = 4)%nat -> Forall (fun n => 0 <= n) l ->
  exists h' s v, version_set h a = (h', Ok tt) /\ numbers s = Some l /\
    root_events h' = match l with
                     | [_; _; _; b] => put 159 (VInt b) (put 199 (VStr s) evs)
                     | _ => put 199 (VStr s) evs
                     end /\
    version_get h' = Ok v /\ parts_of v = l.
Proof.
  intros evs h a l NE V N A L F. destruct (tidy_views evs h NE V) as [T R].
  destruct (version_set_spec h l a T ltac:(rewrite R; exact N) A L F) as (h' & v & S1 & _ & S3 & S4 & S5). rewrite R in S3.
  exists h', (ver_text l), v. split; [exact S1|]. split; [apply numbers_ver_text; [destruct l; [cbn in L; lia|discriminate]|exact F]|]. auto.
Qed.
Print Assumptions C37_set.
(* reading: the numbers of the text, missing minor and patch numbers are 0, a missing build
   number None; more than four numbers, a text of something else, no event: exceptions *)
Theorem C37_get : forall evs h, evs <> [] -> views (parsed evs) h ->
  (value_of 199 evs = None -> version_get h = Err KeyError) /\
  forall s, value_of 199 evs = Some (VStr s) ->
    match numbers s with
    | Some ns =>
        if (length ns <=? 4)%nat
        then exists v, version_get h = Ok v /\ nth_error ns 0 = Some (v_major v) /\ v_minor v = nth 1 ns 0 /\ v_patch v = nth 2 ns 0 /\ v_build v = nth_error ns 3
        else version_get h = Err TypeError
    | None => version_get h = Err ValueError
    end.
Proof.
  intros evs h NE V. destruct (tidy_views evs h NE V) as [_ R]. unfold version_get. rewrite first_val_spec. fold (root_events h). rewrite R. split.
  - intros ->. reflexivity.
  - intros s ->. cbn [bind]. rewrite numbers_int_parts. destruct (int_parts s) as [l|x] eqn:E; cbn [bind].
    + assert (L : l <> []).
      { intros ->. unfold int_parts in E. destruct (split_on 46 s) as [|p ps] eqn:S.
        - destruct s as [|c s]; cbn [split_on] in S; [discriminate|]. destruct (c =? 46); [discriminate|]. destruct (split_on 46 s); discriminate.
        - cbn [mapr] in E. inv_bind E. inv_bind E. discriminate. }
      destruct l as [|a [|b [|c [|d [|e l]]]]]; [congruence|..]; cbn [length Nat.leb flversion_of]; eexists; repeat split; reflexivity.
    + unfold int_parts in E. clear - E. revert x E. induction (split_on 46 s) as [|p ps IH]; intros x E; [discriminate|]. cbn [mapr] in E. destruct (py_int p); cbn [bind] in E; [|congruence].
      match type of E with context [mapr ?g ps] => destruct (mapr g ps) eqn:Q end; cbn [bind] in E; [discriminate|]. injection E as <-. exact (IH e eq_refl).
Qed.
Print Assumptions C37_get.
Example C37_get_case : numbers [50; 48] = Some [20] /\ numbers [50; 48; 46; 57; 46; 50; 46; 49] = Some [20; 9; 2; 1] /\ numbers [49; 46; 120] = None.
Proof. vm_compute. auto. Qed.
(* an FLVersion, a tuple and a text of the same numbers are the same assignment *)
Theorem C37_forms : forall h v, Forall (fun n => 0 <= n) (parts_of v) ->
  version_set h (AVersion v) = version_set h (AParts (parts_of v)) /\
  forall s, numbers s = Some (parts_of v) -> version_set h (AText s) = version_set h (AVersion v).
Proof.
  intros h v F. assert (E : version_list (AVersion v) = Ok (parts_of v)) by reflexivity.
  split; [unfold version_set; rewrite E; reflexivity|]. intros s N. unfold version_set. rewrite E.
  assert (X : version_list (AText s) = Ok (parts_of v)).
  { cbn [version_list]. rewrite numbers_int_parts in N. destruct (int_parts s); congruence. }
  now rewrite X.
Qed.
Print Assumptions C37_forms.
(* too few or too many numbers: ValueError; no version event: PropertyCannotBeSet; nothing changes *)
Theorem C37_refused : forall evs h a, evs <> [] -> views (parsed evs) h ->
  (value_of 199 evs = None -> version_set h a = (h, Err PropertyCannotBeSet)) /\
  (forall l, value_of 199 evs <> None -> version_list a = Ok l -> (length l < 3 \/ 4 < length l)%nat ->
     version_set h a = (h, Err ValueError)).
Proof.
  intros evs h a NE V. destruct (tidy_views evs h NE V) as [T R].
  destruct (version_set_refused h a) as [[A B]|(A & B & C)]; rewrite R in A; split; intros; try congruence. eauto.
Qed.
Print Assumptions C37_refused.
(* saved and loaded, as long as 11.5, where the text encoding changes, is not crossed *)
Theorem C37_saved : forall en f p h a l,
  is_bytes f -> parse en f = Ok p -> canonical_file en f -> zlen f + 600 < 2 ^ 32 ->
  views (parsed (pr_events p)) h -> value_of 199 (pr_events p) <> None ->
  (forall e s, In e (pr_events p) -> e_id e = 199 -> e_val e = VStr s -> exists ns, numbers s = Some ns /\ wide_text ns = wide_text l) ->
  version_list a = Ok l -> (length l = 3 \/ length l = 4)%nat -> Forall (fun n => 0 <= n < 2 ^ 32) l ->
  exists h' f' p' v, version_set h a = (h', Ok tt) /\
    serialise en (Project (root_events h') (pr_channel_count p) (pr_format p) (pr_ppq p)) = Ok f' /\ parse en f' = Ok p' /\
    Forall2 same_event (root_events h') (pr_events p') /\ version_get (parsed (pr_events p')) = Ok v /\ parts_of v = l.
Proof. exact version_saved. Qed.
Print Assumptions C37_saved.
(* crossing it the texts of the project are damaged: the title of this project reads otherwise *)
Theorem C37_crossing_refuted : exists f p h' f' p', is_bytes f /\ canonical_file en0 f /\ parse en0 f = Ok p /\
  version_set (parsed (pr_events p)) (AParts [11; 1; 1]) = (h', Ok tt) /\
  serialise en0 (Project (root_events h') (pr_channel_count p) (pr_format p) (pr_ppq p)) = Ok f' /\ parse en0 f' = Ok p' /\
  value_of 194 (pr_events p) = Some (VStr [72; 105]) /\ value_of 194 (root_events h') = Some (VStr [72; 105]) /\
  value_of 194 (pr_events p') = Some (VStr [72; 0; 105]).
Proof.
  pose (cs := [(199, ver20); (194, [72; 0; 105; 0; 0; 0]); (64, [1; 0])] : list chunk).
  destruct (sample_ok cs ltac:(vm_compute; reflexivity)) as [B C].
  exists (sample cs), (load (sample cs)). eexists _, _, _. split; [exact B|]. split; [exact C|].
  repeat (split; [vm_compute; reflexivity|]). vm_compute. reflexivity.
Qed.
Print Assumptions C37_crossing_refuted.

Example C37_example : exists h' v, version_set proj_heap (AText [50; 49; 46; 48; 46; 51; 46; 51; 53; 49; 55]) = (h', Ok tt) /\
  version_get h' = Ok v /\ parts_of v = [21; 0; 3; 3517] /\ value_of 159 (root_events h') = Some (VInt 3517) /\
  version_set proj_heap (AParts [21; 0]) = (proj_heap, Err ValueError) /\
  version_set proj_heap (AText [50; 49; 46; 97; 46; 49]) = (proj_heap, Err ValueError).
Proof. eexists _, _. split; [vm_compute; reflexivity|]. vm_compute. repeat split; reflexivity. Qed.

(* ------------------------------------------------------------------------- C38 *)

(* comparing is lexicographic unless just one of two otherwise equal versions has a build number *)
Theorem C38_order : forall a b,
  ([v_major a; v_minor a; v_patch a] = [v_major b; v_minor b; v_patch b] -> (v_build a = None <-> v_build b = None)) ->
  ver_lt a b = Ok (lex_lt (parts_of a) (parts_of b)) /\
  ver_le a b = Ok (negb (lex_lt (parts_of b) (parts_of a))).
Proof.
  intros [a1 a2 a3 a4] [b1 b2 b3 b4]. unfold ver_lt, ver_le, ver_cmp, parts_of. cbn [v_major v_minor v_patch v_build app].
  destruct (Z.compare_spec a1 b1) as [->|L|L]; cycle 1.
  { intros _. cbn [bind lex_lt]. split; f_equal; lia. } { intros _. cbn [bind lex_lt]. split; f_equal; lia. }
  destruct (Z.compare_spec a2 b2) as [->|L|L]; cycle 1.
  { intros _. cbn [bind lex_lt]. split; f_equal; lia. } { intros _. cbn [bind lex_lt]. split; f_equal; lia. }
  destruct (Z.compare_spec a3 b3) as [->|L|L]; cycle 1.
  { intros _. cbn [bind lex_lt]. split; f_equal; lia. } { intros _. cbn [bind lex_lt]. split; f_equal; lia. }
  intros H. specialize (H eq_refl). destruct a4 as [a4|], b4 as [b4|].
  - destruct (Z.compare_spec a4 b4) as [->|L|L]; cbn [bind lex_lt]; split; f_equal; lia.
  - destruct H as [_ H]. discriminate (H eq_refl).
  - destruct H as [H _]. discriminate (H eq_refl).
  - cbn [bind lex_lt]. split; f_equal; lia.
Qed.
Print Assumptions C38_order.
Theorem C38_max_tracks : forall v, ~ clash v [12; 9; 1] ->
  max_tracks v = Ok (if lex_lt (parts_of v) [12; 9; 1] then 199 else 500).
Proof.
  intros v C. unfold max_tracks. rewrite (ver_ge_spec v 12 9 1 C). cbn [bind]. f_equal.
  replace (lex_lt (parts_of v) [12; 9; 1]) with (lex_lt [v_major v; v_minor v; v_patch v] [12; 9; 1])
    by (unfold parts_of; destruct (v_build v); reflexivity).
  destruct (lex_lt _ _); reflexivity.
Qed.
Print Assumptions C38_max_tracks.
(* the versions that cannot be compared *)
Theorem C38_max_tracks_fails : forall v, clash v [12; 9; 1] -> max_tracks v = Err TypeError.
Proof. intros v C. unfold max_tracks. now rewrite (ver_ge_clash v 12 9 1 C). Qed.
Print Assumptions C38_max_tracks_fails.
Theorem C38_tempo_fails : forall evs h v n, evs <> [] -> views (parsed evs) h -> has_tempo evs -> version_get h = Ok v ->
  clash v [1; 4; 2] \/ clash v [11; 0; 0] \/ (clash v [3; 4; 0] /\ exists x, n = NFlt x) ->
  tempo_set h n = (h, Err TypeError).
Proof.
  intros evs h v n NE V HT VG HC. destruct (tidy_views evs h NE V) as [_ R]. rewrite <- R in HT.
  destruct (tempo_get_some h HT) as (t & TG & NT). unfold tempo_set, tempo_check. rewrite TG. cbn [bind].
  assert (G : (let* m := tempo_max h in let* _ := tempo_float_ok h n in let* x := num_float n in
               if f_lt m x || f_lt x f10 then Err ValueError else Ok tt) = Err TypeError).
  { unfold tempo_max. rewrite VG. cbn [bind]. destruct HC as [C|[C|[C (x & ->)]]].
    - now rewrite (ver_ge_clash v 1 4 2 C).
    - assert (X : ver_le (FLV 1 4 2 None) v = Ok true).
      { rewrite ver_ge_spec; [|intros [E _]; destruct C as [E' _]; congruence]. destruct C as [E _]. injection E as -> -> ->. reflexivity. }
      rewrite X. cbn [bind]. now rewrite (ver_lt_clash v 11 0 0 C).
    - rewrite (ver_ge_spec v 1 4 2) by (intros [E _]; destruct C as [E' _]; congruence). cbn [bind].
      rewrite (ver_lt_spec v 11 0 0) by (intros [E _]; destruct C as [E' _]; congruence).
      destruct (negb _); cbn [bind tempo_float_ok]; rewrite VG; cbn [bind]; now rewrite (ver_lt_clash v 3 4 0 C). }
  rewrite G. destruct t; congruence || reflexivity.
Qed.
Print Assumptions C38_tempo_fails.
Theorem C38_licensee_fails : forall h v s, version_get h = Ok v -> clash v [1; 3; 9] -> licensee_set h s = (h, Err TypeError).
Proof. intros h v s VG C. unfold licensee_set. rewrite VG. cbn [bind]. now rewrite (ver_lt_clash v 1 3 9 C). Qed.
Print Assumptions C38_licensee_fails.
(* projects of such versions exist *)
Theorem C38_refuted : exists f p v, is_bytes f /\ canonical_file en0 f /\ parse en0 f = Ok p /\
  version_get (parsed (pr_events p)) = Ok v /\ parts_of v = [11; 0; 0; 7] /\ has_tempo (pr_events p) /\
  tempo_set (parsed (pr_events p)) (NInt 120) = (parsed (pr_events p), Err TypeError).
Proof.
  pose (cs := [(199, [49; 49; 46; 48; 46; 48; 46; 55; 0]); (156, [192; 212; 1; 0]); (64, [1; 0])] : list chunk).
  destruct (sample_ok cs ltac:(vm_compute; reflexivity)) as [B C].
  exists (sample cs), (load (sample cs)). eexists. split; [exact B|]. split; [exact C|].
  split; [vm_compute; reflexivity|]. split; [vm_compute; reflexivity|]. split; [reflexivity|].
  split; [left; exists 120000; split; [vm_compute; reflexivity|reflexivity]|]. vm_compute. reflexivity.
Qed.
Print Assumptions C38_refuted.
Example C38_examples : max_tracks (FLV 12 9 1 (Some 3)) = Err TypeError /\ max_tracks (FLV 12 9 1 None) = Ok 500 /\
  max_tracks (FLV 12 9 0 (Some 3)) = Ok 199 /\ max_tracks (FLV 20 8 3 (Some 2304)) = Ok 500 /\
  ver_lt (FLV 9 10 0 None) (FLV 10 0 0 (Some 1)) = Ok true.
Proof. repeat split; reflexivity. Qed.

(* ------------------------------------------------------------------------- C39 *)

(* [al]: str.isalnum on single characters, fixed on ASCII only *)
Definition ascii_alnum (al : Z -> bool) : Prop := forall n, 0 <= n < 128 -> (al n = true <-> letter_or_digit n).

(* letters and digits, the i-th of which has a code above i - 26 (all, if there are no more
   than 74): read back, and read back from the saved file *)
Theorem C39_kept : forall en al f p h v s, ascii_alnum al ->
  is_bytes f -> parse en f = Ok p -> canonical_file en f -> zlen f + 4 * zlen s + 10 < 2 ^ 32 ->
  views (parsed (pr_events p)) h -> value_of 200 (pr_events p) <> None -> version_get h = Ok v -> ~ clash v [1; 3; 9] ->
  Forall letter_or_digit s -> zlen s <= 74 \/ (forall i c, nth_error s i = Some c -> Z.of_nat i < c + 26) ->
  exists h' f' p', licensee_set h s = (h', Ok tt) /\ licensee_get al h' = Ok (VStr s) /\
    serialise en (Project (root_events h') (pr_channel_count p) (pr_format p) (pr_ppq p)) = Ok f' /\ parse en f' = Ok p' /\
    Forall2 same_event (root_events h') (pr_events p') /\ licensee_get al (parsed (pr_events p')) = Ok (VStr s).
Proof.
  intros en al f p h v s HA Hb H HC SZ V N VG C FS HK. eapply licensee_saved; eauto.
  destruct HK as [HK|HK]; [apply all_kept_short; [exact FS|lia]|].
  assert (X : forall s i, (forall j c, nth_error s j = Some c -> Z.of_nat j + i < c + 26) -> all_kept i s).
  { clear. induction s as [|c s IH]; intros i K; cbn [all_kept]; [exact I|]. split; [specialize (K 0%nat c eq_refl); lia|].
    apply IH. intros j c' J. specialize (K (S j) c' J). lia. }
  apply X. intros j c J. specialize (HK j c J). lia.
Qed.
Print Assumptions C39_kept.
(* what is stored: one character for each that can be kept, none for the others *)
Definition kept_count (s : pystr) : Z :=
  zlen (filter (fun x => fst x <? snd x + 26) (combine (map Z.of_nat (seq 0 (length s))) s)).
Theorem C39_stored : forall evs h v s, evs <> [] -> views (parsed evs) h -> value_of 200 evs <> None ->
  version_get h = Ok v -> ~ clash v [1; 3; 9] -> Forall letter_or_digit s ->
  exists h' st, licensee_set h s = (h', Ok tt) /\ root_events h' = put 200 (VStr st) evs /\
    Forall (fun c => 0 < c < 128) st /\ zlen st = kept_count s.
Proof.
  intros evs h v s NE V N VG C FS. destruct (tidy_views evs h NE V) as [T R].
  destruct (set_first_spec h 200 (VStr (jumble_all 0 s)) T ltac:(rewrite R; exact N)) as (h' & S1 & S2 & _).
  exists h', (jumble_all 0 s). split; [|split; [congruence|split; [apply jumble_all_range|]]].
  - unfold licensee_set. rewrite VG. cbn [bind]. rewrite (ver_lt_spec v 1 3 9 C). cbn [with_res]. rewrite contains_root, R.
    destruct (value_of 200 evs); [exact S1|congruence].
  - unfold kept_count. change 0 with (Z.of_nat 0). generalize 0%nat. clear - FS. induction FS as [|c s HC FS IH]; intros i; [reflexivity|].
    cbn [jumble_all length seq map combine filter fst snd]. rewrite zlen_app.
    replace (Z.of_nat i + 1) with (Z.of_nat (S i)) by lia. rewrite IH.
    pose proof (jumble_dropped (Z.of_nat i) c HC ltac:(lia)) as D.
    assert (L : zlen (jumble (Z.of_nat i) c) <= 1) by (unfold jumble; cbv zeta; destruct (_ && _); [|destruct (_ && _)]; vm_compute; discriminate).
    destruct (Z.ltb_spec (Z.of_nat i) (c + 26)) as [G|G].
    + rewrite zlen_cons. destruct (jumble (Z.of_nat i) c) as [|k l]; [destruct D as [D _]; specialize (D eq_refl); lia|].
      rewrite zlen_cons in *. pose proof (zlen_nonneg _ l). lia.
    + rewrite (proj2 D G). reflexivity.
Qed.
Print Assumptions C39_stored.
(* 75 times the digit 0: one is lost *)
Definition asc_alnum (n : Z) : bool := ((48 <=? n) && (n <=? 57)) || ((65 <=? n) && (n <=? 90)) || ((97 <=? n) && (n <=? 122)).
Theorem C39_refuted : exists f p s h', is_bytes f /\ canonical_file en0 f /\ parse en0 f = Ok p /\ ascii_alnum asc_alnum /\
  Forall letter_or_digit s /\ zlen s = 75 /\ licensee_set (parsed (pr_events p)) s = (h', Ok tt) /\
  exists s', licensee_get asc_alnum h' = Ok (VStr s') /\ zlen s' = 74.
Proof.
  destruct (sample_ok proj_chunks ltac:(vm_compute; reflexivity)) as [B C].
  exists proj_file, (load proj_file), (repeat 48 75). eexists. split; [exact B|]. split; [exact C|].
  split; [vm_compute; reflexivity|]. split; [intros n Hn; unfold asc_alnum, letter_or_digit; lia|].
  split; [apply Forall_forall; intros c I; apply repeat_spec in I; subst; left; lia|].
  split; [reflexivity|]. split; [vm_compute; reflexivity|]. eexists. split; vm_compute; reflexivity.
Qed.
Print Assumptions C39_refuted.
Example C39_example : exists h', licensee_set proj_heap (str "demberto42") = (h', Ok tt) /\
  licensee_get asc_alnum h' = Ok (VStr (str "demberto42")) /\ value_of 200 (root_events h') <> Some (VStr (str "demberto42")).
Proof. eexists. split; [vm_compute; reflexivity|]. split; [vm_compute; reflexivity|]. vm_compute. discriminate. Qed.

(* ------------------------------------------------------------------------- C40 *)

(* after any history of assignments and edits of events, whatever their outcome *)
Theorem C40_guard : forall en f p q, is_bytes f -> parse en f = Ok p -> header_steps (opened p) q ->
  In (pj_ppq q) ppqs /\ 0 <= pj_channels q.
Proof. exact header_guard. Qed.
Print Assumptions C40_guard.
Theorem C40_assign : forall p n,
  (In n ppqs -> exists q, ppq_set p n = (q, Ok tt) /\ pj_ppq q = n /\ pj_heap q = pj_heap p /\
     pj_channels q = pj_channels p /\ pj_format q = pj_format p) /\
  (~ In n ppqs -> ppq_set p n = (p, Err ValueError)) /\
  (0 <= n -> exists q, channel_count_set p n = (q, Ok tt) /\ pj_channels q = n /\ pj_heap q = pj_heap p /\
     pj_ppq q = pj_ppq p /\ pj_format q = pj_format p) /\
  (n < 0 -> channel_count_set p n = (p, Err ValueError)).
Proof.
  intros p n. unfold ppq_set, channel_count_set. split; [|split; [|split]].
  - intros I. change ppqs with valid_ppqs in I. rewrite (proj2 (mem_Z_In n valid_ppqs) I). eexists. repeat split.
  - intros I. destruct (mem_Z n valid_ppqs) eqn:M; [|reflexivity]. apply mem_Z_In in M. contradiction.
  - intros G. replace (n <? 0) with false by lia. eexists. repeat split.
  - intros G. replace (n <? 0) with true by lia. reflexivity.
Qed.
Print Assumptions C40_assign.
(* the ppq and the format are saved; the channel count is not: the saved file says how many
   channels there are *)
Theorem C40_saved : forall en f p fmt q n, is_bytes f -> parse en f = Ok p -> canonical_file en f -> In fmt formats -> In q ppqs ->
  exists f' p', serialise en (Project (pr_events p) n fmt q) = Ok f' /\ parse en f' = Ok p' /\
    Forall2 same_event (pr_events p) (pr_events p') /\
    pr_format p' = fmt /\ pr_ppq p' = q /\ pr_channel_count p' = pr_channel_count p.
Proof. exact header_saved. Qed.
Print Assumptions C40_saved.
(* the three assigned one after the other, whatever their outcome, and saved *)
Theorem C40_assigned : forall en f p a b c, is_bytes f -> parse en f = Ok p -> canonical_file en f -> In c formats ->
  let q := fst (format_set (fst (channel_count_set (fst (ppq_set (opened p) a)) b)) c) in
  exists f' p', serialise en (closed q) = Ok f' /\ parse en f' = Ok p' /\ Forall2 same_event (pr_events p) (pr_events p') /\
    pr_format p' = c /\ (In a ppqs -> pr_ppq p' = a) /\ (~ In a ppqs -> pr_ppq p' = pr_ppq p) /\ pr_channel_count p' = pr_channel_count p.
Proof.
  intros en f p a b c B P C I q.
  assert (RE : root_events (parsed (pr_events p)) = pr_events p) by (unfold root_events; apply parsed_events).
  assert (IP : In (pr_ppq p) ppqs) by exact (proj1 (C40_guard en f p (opened p) B P (HNil _))).
  set (x := if mem_Z a valid_ppqs then a else pr_ppq p).
  assert (Q : exists n, closed q = Project (pr_events p) n c x).
  { unfold q, x, ppq_set, channel_count_set, format_set, closed, opened. destruct (mem_Z a valid_ppqs); cbn [fst pj_heap pj_channels pj_format pj_ppq]; destruct (b <? 0); cbn [fst pj_heap pj_channels pj_format pj_ppq]; rewrite RE; eauto. }
  destruct Q as [n Q]. rewrite Q. assert (IX : In x ppqs) by (unfold x; destruct (mem_Z a valid_ppqs) eqn:M; [now apply mem_Z_In in M|exact IP]).
  destruct (C40_saved en f p c x n B P C I IX) as (f' & p' & S & P' & F & EF & EQ & EC). exists f', p'. repeat (split; [assumption|]). repeat split; [..|exact EC]; intros J; rewrite EQ; unfold x.
  - rewrite (proj2 (mem_Z_In a valid_ppqs) J). reflexivity.
  - destruct (mem_Z a valid_ppqs) eqn:M; [|reflexivity]. apply mem_Z_In in M. contradiction.
Qed.
Print Assumptions C40_assigned.
Example C40_example : exists p1 p2 f' p', parse en0 proj_file = Ok (load proj_file) /\
  ppq_set (opened (load proj_file)) 97 = (opened (load proj_file), Err ValueError) /\
  ppq_set (opened (load proj_file)) 192 = (p1, Ok tt) /\ channel_count_set p1 (-1) = (p1, Err ValueError) /\
  channel_count_set p1 500 = (p2, Ok tt) /\ pj_channels p2 = 500 /\
  serialise en0 (closed p2) = Ok f' /\ parse en0 f' = Ok p' /\ pr_ppq p' = 192 /\ pr_channel_count p' = 1.
Proof. eexists _, _, _, _. do 8 (split; [vm_compute; reflexivity|]). vm_compute. split; reflexivity. Qed.
