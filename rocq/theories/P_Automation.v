(* Lemmas for C72: the points of an automation clip. *)
From Coq Require Import String ZArith List Bool Lia Arith.
From Verif Require Import M_Base M_Float M_Text M_Construct M_Structs M_Events M_Project.
From Verif Require Import S_Real S_Canon S_File S_Layout S_Automation.
From Verif Require Import P_Base P_Codec P_RT P_Cells P_Special P_Payload P_Round P_Tempo P_Struct P_Null P_TreeBase P_Prop.
Import ListNotations.
Open Scope Z_scope.

(* ------------------------------------------------------------------ reading *)

(* the running sums, as the code computes them *)
Definition running (b : bytes) (i : nat) : Z := fold_left f_add (map (step b) (seq 0 (S i))) 0.
Definition position (b : bytes) (i : nat) : Z := match i with O => step b 0 | S _ => running b i end.
Definition point (b : bytes) (i : nat) : list (string * val) :=
  [("_offset"%string, VFlt (step b i)); ("position"%string, VFlt (position b i)); ("value"%string, VFlt (height b i));
   ("tension"%string, VFlt (tension b i)); ("_u1"%string, VBytes (slice b (point_at i + 20) 4))].
Definition auto_fields (b : bytes) : list (string * val) :=
  let n := Z.to_nat (point_count b) in
  [("_u1"%string, VBytes (slice b 0 4)); ("lfo.amount"%string, VInt (s_le (slice b 4 4))); ("_u2"%string, VBytes (slice b 8 1));
   ("_u3"%string, VBytes (slice b 9 2)); ("_u4"%string, VBytes (slice b 11 2)); ("_u5"%string, VBytes (slice b 13 4));
   ("points"%string, VList (map (fun i => VDict (point b i)) (seq 0 n))); ("_u6"%string, VBytes (skipn (point_at n) b))].

Lemma take_slice b o n : (o + n <= length b)%nat -> take n (skipn o b) = Ok (slice b o n, skipn (o + n) b).
Proof.
  intros H. unfold take, slice. rewrite skipn_length. replace (n <=? length b - o)%nat with true by (symmetry; apply Nat.leb_le; lia).
  rewrite skipn_skipn. do 3 f_equal. lia.
Qed.
Lemma slice_length b o n : (o + n <= length b)%nat -> length (slice b o n) = n.
Proof. intros H. unfold slice. rewrite firstn_length, skipn_length. lia. Qed.
Lemma is_bytes_slice b o n : is_bytes b -> is_bytes (slice b o n).
Proof. intros H. apply is_bytes_firstn, is_bytes_skipn, H. Qed.

Lemma sum_offsets_running b : forall k i p, (point_at (i + k) <= length b)%nat ->
  sum_offsets k (Z.of_nat i) p b = Ok (fold_left f_add (map (step b) (seq i k)) p).
Proof.
  induction k as [|k IH]; intros i p L; [reflexivity|]. unfold point_at in L. cbn [sum_offsets].
  replace (Z.to_nat (21 + Z.of_nat i * 24)) with (point_at i) by (unfold point_at; lia).
  rewrite take_slice by (unfold point_at; lia). cbn [bind]. replace (Z.of_nat i + 1) with (Z.of_nat (S i)) by lia.
  rewrite IH by (unfold point_at; lia). reflexivity.
Qed.

Lemma point_parse b i cx : is_bytes b -> cx_stream cx = b -> cx_index cx = Z.of_nat i -> (point_at (S i) <= length b)%nat ->
  cparse auto_point cx (skipn (point_at i) b) = Ok (VDict (point b i), skipn (point_at (S i)) b).
Proof.
  intros Hb S I L. assert (L' : (point_at i + 24 <= length b)%nat) by (unfold point_at in *; lia).
  unfold auto_point. cbn [Struct cparse struct_parse Float64l]. rewrite take_slice by lia. cbn [bind].
  cbn [put String.eqb Ascii.eqb Bool.eqb dset Computed cparse cx_with_fields cx_index cx_stream cx_fields]. rewrite S, I.
  assert (P : (if 0 <? Z.of_nat i then let* p := get_position b (Z.of_nat i) in Ok (VFlt p)
     else match dget [("_offset"%string, VFlt (le_dec (slice b (point_at i) 8)))] "_offset" with Some v => Ok v | None => Err KeyError end)
     = Ok (VFlt (position b i))).
  { destruct i as [|i].
    - cbn [dget String.eqb Ascii.eqb Bool.eqb position]. change (0 <? Z.of_nat 0) with false. reflexivity.
    - replace (0 <? Z.of_nat (Datatypes.S i)) with true by lia. unfold get_position.
      replace (Z.to_nat (Z.of_nat (Datatypes.S i) + 1)) with (Datatypes.S (Datatypes.S i)) by lia. change 0 with (Z.of_nat 0) at 1.
      rewrite sum_offsets_running by (cbn [Nat.add]; exact L). reflexivity. }
  rewrite P. cbn [bind]. unfold put. cbn [String.eqb Ascii.eqb Bool.eqb dset].
  rewrite take_slice by lia. cbn [bind cparse Float32l].
  cbn [String.eqb Ascii.eqb Bool.eqb dset]. replace (point_at i + 8 + 8)%nat with (point_at i + 16)%nat by lia. rewrite take_slice by lia. cbn [bind cparse Bytes].
  replace (point_at i + 16 + 4)%nat with (point_at i + 20)%nat by lia. rewrite take_slice by lia. cbn [bind].
  cbn [String.eqb Ascii.eqb Bool.eqb dset]. replace (point_at (Datatypes.S i)) with (point_at i + 20 + 4)%nat by (unfold point_at; lia). reflexivity.
Qed.

Lemma points_parse b : is_bytes b -> forall k fuel i cx, cx_stream cx = b -> (point_at (i + k) <= length b)%nat -> (k <= fuel)%nat ->
  parray_parse fuel (Z.of_nat (i + k)) auto_point cx (Z.of_nat i) (skipn (point_at i) b) =
    Ok (map (fun j => VDict (point b j)) (seq i k), skipn (point_at (i + k)) b).
Proof.
  intros Hb. induction k as [|k IH]; intros fuel i cx S L F.
  - rewrite Nat.add_0_r. destruct fuel; cbn [parray_parse]; now rewrite Z.leb_refl.
  - destruct fuel as [|fuel]; [lia|]. cbn [parray_parse]. replace (Z.of_nat (i + Datatypes.S k) <=? Z.of_nat i) with false by lia.
    rewrite (point_parse b i) by (try assumption; try reflexivity; unfold point_at in *; lia). cbn [bind].
    replace (Z.of_nat i + 1) with (Z.of_nat (Datatypes.S i)) by lia.
    replace (i + Datatypes.S k)%nat with (Datatypes.S i + k)%nat in * by lia. rewrite IH by (assumption || lia). reflexivity.
Qed.

Lemma points_room n fuel : forall cx i bs vs rest, i <= n -> is_bytes bs ->
  parray_parse fuel n auto_point cx i bs = Ok (vs, rest) -> 24 * (n - i) <= zlen bs.
Proof.
  induction fuel as [|fuel IH]; intros cx i bs vs rest Hi Hb H; cbn [parray_parse] in H; destruct (Z.leb_spec n i); try discriminate.
  1,2: pose proof (zlen_nonneg _ bs); lia.
  inv_bind H. destruct x as [v bs']. inv_bind H. destruct x as [vs' r'].
  destruct (auto_point_rt _ _ _ _ Hb E) as (u & -> & Lu & _). apply is_bytes_app in Hb as [_ Hb].
  specialize (IH _ (i + 1) _ _ _ ltac:(lia) Hb E0). rewrite zlen_app. unfold zlen at 1. rewrite Lu. lia.
Qed.

Lemma s_le_signed n b : length b = n -> s_le b = to_signed n (le_dec b).
Proof. intros <-. reflexivity. Qed.

Lemma automation_parse b cx : is_bytes b -> cx_stream cx = b -> complete b ->
  cparse AutomationS cx b = Ok (VDict (auto_fields b), []).
Proof.
  intros Hb S [L N].
  assert (C0 : 0 <= point_count b) by (apply le_dec_bound; now apply is_bytes_slice).
  set (n := Z.to_nat (point_count b)) in *. assert (LN : (point_at n <= length b)%nat) by (unfold point_at, zlen in *; lia).
  unfold AutomationS. cbn [Struct cparse struct_parse Bytes].
  rewrite <- (skipn_O b) at 1. rewrite take_slice by lia. cbn [bind]. unfold put. cbn [Nat.add String.eqb Ascii.eqb Bool.eqb dset].
  unfold Int32sl. cbn [c_sint cparse]. rewrite take_slice by lia. cbn [bind Nat.add].
  rewrite take_slice by lia. cbn [bind Nat.add]. rewrite take_slice by lia. cbn [bind Nat.add]. rewrite take_slice by lia. cbn [bind Nat.add].
  rewrite take_slice by lia. cbn [bind Nat.add]. unfold Int32ul. cbn [PrefixedArray cparse c_uint]. rewrite take_slice by lia. cbn [bind Nat.add as_int].
  replace (le_dec (slice b 17 4)) with (Z.of_nat (0 + n)) by (cbn [Nat.add]; subst n; rewrite Z2Nat.id by exact C0; reflexivity).
  change 0 with (Z.of_nat 0) at 1. change (skipn 21 b) with (skipn (point_at 0) b).
  rewrite (points_parse b Hb n) by (try exact S; try exact LN; rewrite ?skipn_length; unfold point_at in *; lia). cbn [bind GreedyBytes cparse].
  cbn [dset String.eqb Ascii.eqb Bool.eqb]. rewrite <- s_le_signed by (apply slice_length; lia). reflexivity.
Qed.

Lemma automation_event en id b : is_bytes b -> 192 <= id ->
  mk_event en KAutomation id b =
    if (21 <=? length b)%nat && (21 + 24 * point_count b <=? zlen b) then Ok (Event id KAutomation (zlen b) (new_of b) (VDict (auto_fields b)))
    else mk_event en KAutomation id b.
Proof.
  intros Hb I. destruct (_ && _) eqn:C; [|reflexivity]. apply andb_true_iff in C as [C1 C2]. apply Nat.leb_le in C1. apply Z.leb_le in C2.
  unfold mk_event. cbn [bind allowed_id negb kcon]. replace (id <? 192) with false by lia. cbn [negb].
  rewrite automation_parse by (try assumption; try reflexivity; split; assumption). reflexivity.
Qed.

Lemma automation_complete en id b e : is_bytes b -> mk_event en KAutomation id b = Ok e -> complete b.
Proof.
  intros Hb M. destruct (mk_event_inv _ _ _ _ _ M) as (v & r & E & _). cbn [kcon] in E.
  unfold AutomationS in E. cbn [Struct cparse] in E. inv_bind E. destruct x as [d r0]. clear E. rename E0 into E.
  apply struct_step in E; [|apply ns_bytes]. destruct E as (v1 & b1 & E1 & E).
  apply struct_step in E; [|apply ns_sint]. destruct E as (v2 & b2 & E2 & E).
  apply struct_step in E; [|apply ns_bytes]. destruct E as (v3 & b3 & E3 & E).
  apply struct_step in E; [|apply ns_bytes]. destruct E as (v4 & b4 & E4 & E).
  apply struct_step in E; [|apply ns_bytes]. destruct E as (v5 & b5 & E5 & E).
  apply struct_step in E; [|apply ns_bytes]. destruct E as (v6 & b6 & E6 & E).
  apply struct_step in E; [|apply ns_parray]. destruct E as (v7 & b7 & E7 & E). clear E.
  destruct (plain_inv _ _ _ _ _ _ _ (plain_bytes 4) Hb E1) as (d1 & -> & L1 & B1 & ->). apply is_bytes_app in Hb as [_ Hb].
  destruct (plain_inv _ _ _ _ _ _ _ (plain_sint 4 ltac:(lia)) Hb E2) as (d2 & -> & L2 & B2 & ->). apply is_bytes_app in Hb as [_ Hb].
  destruct (plain_inv _ _ _ _ _ _ _ (plain_bytes 1) Hb E3) as (d3 & -> & L3 & B3 & ->). apply is_bytes_app in Hb as [_ Hb].
  destruct (plain_inv _ _ _ _ _ _ _ (plain_bytes 2) Hb E4) as (d4 & -> & L4 & B4 & ->). apply is_bytes_app in Hb as [_ Hb].
  destruct (plain_inv _ _ _ _ _ _ _ (plain_bytes 2) Hb E5) as (d5 & -> & L5 & B5 & ->). apply is_bytes_app in Hb as [_ Hb].
  destruct (plain_inv _ _ _ _ _ _ _ (plain_bytes 4) Hb E6) as (d6 & -> & L6 & B6 & ->). apply is_bytes_app in Hb as [_ Hb].
  cbn [PrefixedArray cparse] in E7. inv_bind E7. destruct x as [vn bn].
  destruct (plain_inv _ _ _ _ _ _ _ (plain_uint 4) Hb E) as (d7 & -> & L7 & B7 & ->). apply is_bytes_app in Hb as [_ Hb].
  cbn [as_int] in E7. inv_bind E7. destruct x as [vs rp]. clear E7.
  pose proof (le_dec_bound _ B7) as R7. pose proof (points_room (le_dec d7) _ _ 0 _ _ _ ltac:(lia) Hb E0) as RM.
  assert (Hs17 : slice (d1 ++ d2 ++ d3 ++ d4 ++ d5 ++ d6 ++ d7 ++ bn) 17 4 = d7).
  { unfold slice. replace (d1 ++ d2 ++ d3 ++ d4 ++ d5 ++ d6 ++ d7 ++ bn)
      with ((d1 ++ d2 ++ d3 ++ d4 ++ d5 ++ d6) ++ d7 ++ bn) by (rewrite <- !app_assoc; reflexivity).
    replace 17%nat with (length (d1 ++ d2 ++ d3 ++ d4 ++ d5 ++ d6)) by (rewrite !app_length; lia).
    rewrite skipn_app_exact. rewrite <- L7. apply firstn_app_exact. }
  unfold complete, point_count. rewrite Hs17, (u_le_dec d7). split; [rewrite !app_length; lia|]. rewrite !zlen_app. unfold zlen in *. lia.
Qed.

(* -------------------------------------------------------------- other bytes *)

Definition with_point (b : bytes) (i : nat) (k : string) (v : val) : val :=
  VDict (dset (auto_fields b) "points" (VList (lset (map (fun j => VDict (point b j)) (seq 0 (Z.to_nat (point_count b)))) i (VDict (dset (point b i) k v))))).

Lemma map_seq_lset A (f g : nat -> A) n i : (i < n)%nat -> (forall j, j <> i -> g j = f j) -> map g (seq 0 n) = lset (map f (seq 0 n)) i (g i).
Proof.
  intros L H. apply nth_error_ext; [now rewrite lset_length, !map_length|]. intros j x N. rewrite nth_error_lset, map_length, seq_length, nth_error_map.
  rewrite nth_error_map in N. destruct (nth_error (seq 0 n) j) as [m|] eqn:E; [|discriminate]. cbn [option_map] in N. injection N as <-.
  assert (j < n)%nat by (rewrite <- (seq_length n 0); apply nth_error_Some; congruence).
  assert (m = j) by (apply nth_error_nth with (d := O) in E; rewrite seq_nth in E by lia; lia). subst m. cbn [option_map].
  destruct (Nat.eqb_spec j i) as [->|NE]; cbn [andb]; [|now rewrite H]. now replace (i <? n)%nat with true by (symmetry; now apply Nat.ltb_lt).
Qed.

Lemma sp_room b : is_bytes b -> complete b -> (point_at (Z.to_nat (point_count b)) <= length b)%nat.
Proof. intros Hb [C1 C2]. unfold point_at, zlen in *. assert (0 <= point_count b) by (apply le_dec_bound; now apply is_bytes_slice). lia. Qed.
Section Spliced.
  Variables (b : bytes) (i o : nat) (c : bytes).
  Hypothesis (Hb : is_bytes b) (C : complete b) (Li : (i < Z.to_nat (point_count b))%nat) (Lo : (8 <= o)%nat) (Lc : (o + length c <= 24)%nat).
  Let b' := splice b (point_at i + o) c.
  Lemma sp_here : (point_at i + o + length c <= length b)%nat.
  Proof. pose proof (sp_room b Hb C). unfold point_at in *. lia. Qed.
  Lemma sp_length : length b' = length b.
  Proof. apply splice_length, sp_here. Qed.
  Lemma sp_slice p n : (p + n <= point_at i + o \/ point_at i + o + length c <= p)%nat -> slice b' p n = slice b p n.
  Proof. apply slice_splice, sp_here. Qed.
  Lemma sp_count : point_count b' = point_count b.
  Proof. unfold point_count. rewrite sp_slice; [reflexivity|]. unfold point_at. lia. Qed.
  Lemma sp_complete : complete b'.
  Proof. unfold complete, zlen. rewrite sp_count, sp_length. exact C. Qed.
  Lemma sp_step j : step b' j = step b j.
  Proof. unfold step. rewrite sp_slice; [reflexivity|]. unfold point_at. lia. Qed.
  Lemma sp_position j : position b' j = position b j.
  Proof.
    destruct j as [|j]; cbn [position]; [apply sp_step|]. unfold running. f_equal. apply map_ext. exact sp_step.
  Qed.
  Lemma sp_other j : j <> i -> point b' j = point b j.
  Proof.
    intros NE. unfold point. rewrite sp_step, sp_position. unfold height, tension. now rewrite !sp_slice by (unfold point_at; lia).
  Qed.
  Lemma sp_fields k v : point b' i = dset (point b i) k v -> VDict (auto_fields b') = with_point b i k v.
  Proof.
    intros P. unfold with_point, auto_fields. cbv zeta. rewrite sp_count. cbn [dset String.eqb Ascii.eqb Bool.eqb].
    assert (T : skipn (point_at (Z.to_nat (point_count b))) b' = skipn (point_at (Z.to_nat (point_count b))) b).
    { unfold b'. apply skipn_splice; [apply sp_here|]. unfold point_at. lia. }
    rewrite T, !sp_slice by (unfold point_at; lia).
    rewrite (map_seq_lset _ (fun j => VDict (point b j)) (fun j => VDict (point b' j)) _ i Li) by (intros j NE; now rewrite sp_other). now rewrite P.
  Qed.
End Spliced.

Lemma point_ok_slice b j : auto_point_ok (firstn 24 (skipn (point_at j) b)) = c_ok c_f32 (slice b (point_at j + 16) 4).
Proof.
  unfold auto_point_ok, slice. f_equal. rewrite skipn_firstn_comm, firstn_firstn, skipn_skipn. f_equal. f_equal. lia.
Qed.
Lemma points_ok b : forall k fuel i, (point_at (i + k) <= length b)%nat -> (k <= fuel)%nat ->
  (points fuel (Z.of_nat k) (skipn (point_at i) b) = true <-> forall j, (i <= j < i + k)%nat -> c_ok c_f32 (slice b (point_at j + 16) 4) = true).
Proof.
  induction k as [|k IH]; intros fuel i L F.
  - destruct fuel; cbn [points]; split; try reflexivity; intros; lia.
  - destruct fuel as [|fuel]; [lia|]. cbn [points]. replace (Z.of_nat (S k) =? 0) with false by lia.
    replace (24 <=? length (skipn (point_at i) b))%nat with true by (symmetry; apply Nat.leb_le; rewrite skipn_length; unfold point_at in *; lia).
    cbn [andb]. rewrite point_ok_slice, skipn_skipn. replace (24 + point_at i)%nat with (point_at (S i)) by (unfold point_at; lia).
    replace (Z.of_nat (S k) - 1) with (Z.of_nat k) by lia. rewrite andb_true_iff, IH by (try lia; replace (S i + k)%nat with (i + S k)%nat by lia; exact L). split.
    + intros [A B] j J. destruct (Nat.eq_dec j i) as [->|]; [exact A|]. apply B. lia.
    + intros A. split; [apply A; lia|]. intros j J. apply A. lia.
Qed.
Lemma automation_ok b : is_bytes b -> complete b ->
  (automation b = true <-> forall j, (j < Z.to_nat (point_count b))%nat -> c_ok c_f32 (slice b (point_at j + 16) 4) = true).
Proof.
  intros Hb C. pose proof (sp_room b Hb C) as R. destruct C as [L N]. unfold automation.
  replace (21 <=? length b)%nat with true by (symmetry; now apply Nat.leb_le). cbn [andb].
  assert (C0 : 0 <= point_count b) by (apply le_dec_bound; now apply is_bytes_slice).
  change (u_le (firstn 4 (skipn 17 b))) with (point_count b). change (skipn 21 b) with (skipn (point_at 0) b).
  rewrite <- (Z2Nat.id (point_count b)) at 1 by exact C0. rewrite points_ok by (cbn [Nat.add]; unfold point_at in *; lia).
  split; intros H j J; apply H; lia.
Qed.

(* ---------------------------------------------------------------- saving *)

Lemma value_point b i x : is_bytes b -> complete b -> (i < Z.to_nat (point_count b))%nat -> 0 <= x < 2 ^ 64 ->
  point (splice b (point_at i + 8) (le_enc 8 x)) i = dset (point b i) "value" (VFlt x).
Proof.
  intros Hb C L X. assert (LE : length (le_enc 8 x) = 8%nat) by reflexivity. unfold point.
  rewrite (sp_step b i 8 (le_enc 8 x) Hb C L ltac:(lia) ltac:(lia)), (sp_position b i 8 (le_enc 8 x) Hb C L ltac:(lia) ltac:(lia)).
  unfold height, tension. pose proof (sp_here b i 8 (le_enc 8 x) Hb C L ltac:(lia) ltac:(lia)) as H.
  rewrite (slice_splice b (point_at i + 8) (le_enc 8 x) (point_at i + 16) 4), (slice_splice b (point_at i + 8) (le_enc 8 x) (point_at i + 20) 4) by (try exact H; lia).
  replace (slice (splice b (point_at i + 8) (le_enc 8 x)) (point_at i + 8) 8) with (le_enc 8 x)
    by (pose proof (splice_same b (point_at i + 8) (le_enc 8 x) H) as S; rewrite LE in S; now rewrite S).
  rewrite (u_le_dec (le_enc 8 x)), le_dec_enc by exact X. reflexivity.
Qed.
Lemma tension_point b i c : is_bytes b -> complete b -> (i < Z.to_nat (point_count b))%nat -> length c = 4%nat ->
  point (splice b (point_at i + 16) c) i = dset (point b i) "tension" (VFlt (f32_to_64 (u_le c))).
Proof.
  intros Hb C L X. unfold point.
  rewrite (sp_step b i 16 c Hb C L ltac:(lia) ltac:(lia)), (sp_position b i 16 c Hb C L ltac:(lia) ltac:(lia)).
  unfold height, tension. pose proof (sp_here b i 16 c Hb C L ltac:(lia) ltac:(rewrite X; lia)) as H.
  rewrite (slice_splice b (point_at i + 16) c (point_at i + 8) 8), (slice_splice b (point_at i + 16) c (point_at i + 20) 4) by (try exact H; lia).
  replace (slice (splice b (point_at i + 16) c) (point_at i + 16) 4) with c
    by (pose proof (splice_same b (point_at i + 16) c H) as S; rewrite X in S; now rewrite S).
  reflexivity.
Qed.

(* a complete payload and its event *)
Lemma complete_event en id b : is_bytes b -> 192 <= id -> complete b ->
  mk_event en KAutomation id b = Ok (Event id KAutomation (zlen b) (new_of b) (VDict (auto_fields b))).
Proof.
  intros Hb I [C1 C2]. rewrite automation_event by assumption. apply Nat.leb_le in C1. apply Z.leb_le in C2. now rewrite C1, C2.
Qed.
Lemma point_saved en id b i k v c o : is_bytes b -> 192 <= id -> complete b -> automation b = true -> (i < Z.to_nat (point_count b))%nat ->
  is_bytes c -> (k = "value"%string /\ o = 8%nat /\ length c = 8%nat /\ v = VFlt (u_le c) \/
    k = "tension"%string /\ o = 16%nat /\ length c = 4%nat /\ c_ok c_f32 c = true /\ v = VFlt (f32_to_64 (u_le c))) ->
  let b' := splice b (point_at i + o) c in let e := Event id KAutomation (zlen b) (new_of b) (with_point b i k v) in
  is_bytes b' /\ zlen b' = zlen b /\ mk_event en KAutomation id b' = Ok e /\ payload en e = Ok b'.
Proof.
  intros Hb I C A L Hc Q b' e. assert (Lo : (8 <= o)%nat) by (destruct Q as [(_ & -> & _)|(_ & -> & _)]; lia).
  assert (Lc : (o + length c <= 24)%nat) by (destruct Q as [(_ & -> & -> & _)|(_ & -> & -> & _)]; lia).
  assert (B' : is_bytes b') by (now apply is_bytes_splice).
  pose proof (sp_complete b i o c Hb C L Lo Lc) as C'. pose proof (sp_length b i o c Hb C L Lo Lc) as LL. pose proof (sp_count b i o c Hb C L Lo Lc) as CC.
  fold b' in C', LL, CC. assert (ZL : zlen b' = zlen b) by (unfold zlen; now rewrite LL).
  assert (M : mk_event en KAutomation id b' = Ok e).
  { rewrite (complete_event en id b' B' I C'). unfold e, new_of. rewrite ZL. pose proof (sp_fields b i o c Hb C L Lo Lc k v) as SF. fold b' in SF. rewrite SF; [reflexivity|]. unfold b'.
    destruct Q as [(-> & -> & Q & ->)|(-> & -> & Q & _ & ->)].
    - assert (LE : le_enc 8 (u_le c) = c) by (rewrite (u_le_dec c); rewrite <- Q; now apply le_enc_dec).
      rewrite <- LE at 1. apply value_point; try assumption. rewrite (u_le_dec c). pose proof (le_dec_bound c Hc) as R. rewrite Q in R. exact R.
    - now apply tension_point. }
  split; [exact B'|]. split; [exact ZL|]. split; [exact M|].
  apply (payload_canonical en KAutomation id b' e B' M). cbn [canonical_payload].
  apply automation_ok; [exact B'|exact C'|]. rewrite CC. intros j J. pose proof (proj1 (automation_ok b Hb C) A j J) as OK.
  destruct Q as [(-> & -> & Q & ->)|(-> & -> & Q & OKc & ->)].
  - unfold b'. rewrite (sp_slice b i 8 c Hb C L Lo Lc); [exact OK|]. unfold point_at. lia.
  - destruct (Nat.eq_dec j i) as [->|NE].
    + unfold b'. rewrite <- Q. rewrite splice_same; [exact OKc|]. pose proof (sp_here b i 16 c Hb C L Lo Lc). lia.
    + unfold b'. rewrite (sp_slice b i 16 c Hb C L Lo Lc); [exact OK|]. unfold point_at. lia.
Qed.

(* the amount of the LFO *)
Lemma amount_saved en id b c : is_bytes b -> 192 <= id -> complete b -> automation b = true -> is_bytes c -> length c = 4%nat ->
  let b' := splice b 4 c in
  let e := Event id KAutomation (zlen b) (new_of b) (VDict (dset (auto_fields b) "lfo.amount" (VInt (s_le c)))) in
  is_bytes b' /\ zlen b' = zlen b /\ mk_event en KAutomation id b' = Ok e /\ payload en e = Ok b'.
Proof.
  intros Hb I C A Hc Lc b' e. pose proof (proj1 C) as L. assert (H : (4 + length c <= length b)%nat) by lia.
  assert (B' : is_bytes b') by (now apply is_bytes_splice).
  assert (ZL : zlen b' = zlen b) by (unfold zlen, b'; now rewrite splice_length).
  assert (SL : forall p n, (p + n <= 4 \/ 8 <= p)%nat -> slice b' p n = slice b p n) by (intros p n D; apply slice_splice; lia).
  assert (CC : point_count b' = point_count b) by (unfold point_count; rewrite SL by lia; reflexivity).
  assert (C' : complete b') by (unfold complete; rewrite CC, ZL; unfold b'; rewrite splice_length by exact H; exact C).
  assert (ST : forall j, step b' j = step b j) by (intros j; unfold step; rewrite SL by (unfold point_at; lia); reflexivity).
  assert (PT : forall j, point b' j = point b j).
  { intros j. unfold point. rewrite ST. replace (position b' j) with (position b j).
    - unfold height, tension. now rewrite !SL by (unfold point_at; lia).
    - destruct j; cbn [position]; [now rewrite ST|]. unfold running. f_equal. apply map_ext. intros k. now rewrite ST. }
  assert (M : mk_event en KAutomation id b' = Ok e).
  { rewrite (complete_event en id b' B' I C'). unfold e, new_of. rewrite ZL. do 2 f_equal. unfold auto_fields. cbv zeta. rewrite CC.
    cbn [dset String.eqb Ascii.eqb Bool.eqb]. rewrite (SL 0%nat 4%nat), (SL 8%nat 1%nat), (SL 9%nat 2%nat), (SL 11%nat 2%nat), (SL 13%nat 4%nat) by lia.
    replace (slice b' 4 4) with c by (pose proof (splice_same b 4 c H) as S; rewrite Lc in S; symmetry; exact S).
    replace (skipn (point_at (Z.to_nat (point_count b))) b') with (skipn (point_at (Z.to_nat (point_count b))) b)
      by (symmetry; apply skipn_splice; unfold point_at; lia).
    replace (map (fun i => VDict (point b' i)) (seq 0 (Z.to_nat (point_count b)))) with (map (fun i => VDict (point b i)) (seq 0 (Z.to_nat (point_count b))))
      by (apply map_ext; intros j; now rewrite PT). reflexivity. }
  split; [exact B'|]. split; [exact ZL|]. split; [exact M|]. apply (payload_canonical en KAutomation id b' e B' M). cbn [canonical_payload].
  apply automation_ok; [exact B'|exact C'|]. rewrite CC. intros j J. rewrite SL by (unfold point_at; lia). now apply automation_ok.
Qed.

(* ------------------------------------------------------- equal bytes *)

(* the constructs inside do not look at the context *)
Lemma point_ctx cx cx' v : cbuild auto_point cx v = cbuild auto_point cx' v.
Proof.
  unfold auto_point. destruct v; cbn [Struct cbuild]; try reflexivity; cbn [struct_build dget];
  repeat match goal with |- context [dget ?d ?n] => destruct (dget d n) end; reflexivity.
Qed.
Lemma items_build_lset v v' : (forall cx, cbuild auto_point cx v = cbuild auto_point cx v') -> forall vs i cx cx' j,
  items_build auto_point cx j (lset vs i v) = items_build auto_point cx' j (lset vs i v').
Proof.
  intros H. induction vs as [|x vs IH]; intros [|i] cx cx' j; cbn [lset items_build]; try reflexivity.
  - rewrite H, (point_ctx (cx_with_index cx j) (cx_with_index cx' j)). replace (items_build auto_point cx (j + 1) vs) with (items_build auto_point cx' (j + 1) vs); [reflexivity|].
    generalize (j + 1). clear. induction vs as [|x vs IH]; intros j; cbn [items_build]; [reflexivity|]. now rewrite IH, (point_ctx (cx_with_index cx j) (cx_with_index cx' j)).
  - now rewrite (IH i cx cx'), (point_ctx (cx_with_index cx j) (cx_with_index cx' j)).
Qed.
Lemma lset_zlen A (l : list A) i x : zlen (lset l i x) = zlen l.
Proof. unfold zlen. now rewrite lset_length. Qed.
Lemma point_same_bytes en id L w b i k v v' :
  (k = "value"%string /\ as_float v = as_float v' \/
   k = "tension"%string /\ exists x x', as_float v = Some x /\ as_float v' = Some x' /\ f64_to_32 x = f64_to_32 x') ->
  payload en (Event id KAutomation L w (with_point b i k v)) = payload en (Event id KAutomation L w (with_point b i k v')).
Proof.
  intros Q. unfold payload. cbn [e_kind e_len e_new e_val kcon]. set (cx := mkctx en L w []). unfold with_point, AutomationS, auto_fields. cbv zeta.
  cbn [dset String.eqb Ascii.eqb Bool.eqb Struct cbuild struct_build dget bind PrefixedArray seq_of]. rewrite !lset_zlen.
  match goal with |- context [items_build auto_point ?c1 0 (lset ?l i (VDict (dset (point b i) k v)))] =>
  match goal with |- context [items_build auto_point ?c2 0 (lset l i (VDict (dset (point b i) k v')))] =>
    assert (X : items_build auto_point c1 0 (lset l i (VDict (dset (point b i) k v))) = items_build auto_point c2 0 (lset l i (VDict (dset (point b i) k v')))) end end.
  2:{ rewrite X. reflexivity. }
  apply items_build_lset.
  intros cx0. unfold auto_point, point.
  destruct Q as [(-> & E)|(-> & x & x' & E1 & E2 & E3)]; cbn [dset String.eqb Ascii.eqb Bool.eqb Struct cbuild struct_build dget bind Float64l Float32l].
  - now rewrite E.
  - now rewrite E1, E2, E3.
Qed.

(* ------------------------------------------------------------------ sums *)

Lemma running_S b i : running b (S i) = f_add (running b i) (step b (S i)).
Proof. unfold running. rewrite (seq_S (S i)), map_app, fold_left_app. reflexivity. Qed.

Lemma add_exact x y t a c : finite x -> finite y -> 0 <= t <= 2044 -> units x = a * 2 ^ t -> units y = c * 2 ^ t -> Z.abs (a + c) < 2 ^ 53 ->
  finite (f_add x y) /\ units (f_add x y) = units x + units y.
Proof.
  intros X Y T A C B. destruct (f_add_round x y X Y) as (n & d & s & Hn & Hd & E & -> & S).
  assert (U : units x + units y = (a + c) * 2 ^ t) by (rewrite A, C; ring). pose proof (pow_pos t ltac:(lia)) as P. pose proof one_pos as O.
  rewrite U in E, S |- *. clear U A C. set (m := a + c) in *. clearbody m.
  destruct (Z.eq_dec m 0) as [->|NZ].
  - assert (n = 0) by (cbn [Z.mul Z.abs] in E; set (o := one) in *; clearbody o; nia). subst n. rewrite f_round_zero.
    split; destruct s; try reflexivity; split; try (split; [vm_compute; discriminate|reflexivity]); reflexivity.
  - assert (0 < n). { destruct (Z.eq_dec n 0) as [->|]; [|lia]. exfalso. rewrite Z.mul_0_l in E. assert (0 < Z.abs (m * 2 ^ t)) by (set (Q := 2 ^ t) in *; clearbody Q; nia). nia. }
    destruct (f_round_exact s n d (Z.abs m) t H Hd ltac:(lia) ltac:(lia)) as [F UU].
    + assert (2 ^ 53 * 2 ^ t <= 2 ^ 2097) by (rewrite <- Z.pow_add_r by lia; apply Z.pow_le_mono_r; lia).
      set (Q := 2 ^ t) in *. set (R := 2 ^ 2097) in *. set (K := 2 ^ 53) in *. clearbody Q R K. nia.
    + rewrite E, Z.abs_mul, (Z.abs_eq (2 ^ t)) by lia. reflexivity.
    + split; [exact F|]. rewrite UU, S. set (Q := 2 ^ t) in *. clearbody Q. replace (m * Q =? 0) with false by nia.
      destruct (Z.ltb_spec (m * Q) 0).
      * replace (Z.abs m) with (- m) by nia. ring.
      * replace (Z.abs m) with m by nia. ring.
Qed.
Lemma dyadic x : finite x -> exists c t, 0 <= t <= 2045 /\ 0 <= c < 2 ^ 53 /\ Z.abs (units x) = c * 2 ^ t.
Proof.
  intros X. destruct (units_mag x X) as (U & E & _). exists (f_mag x), (f_e x + 1074). split; [exact E|].
  pose proof (pow_pos (f_e x + 1074) ltac:(lia)) as P. assert (M : 0 <= f_mag x < 2 ^ 53).
  { unfold f_mag, f_man. pose proof (Z.mod_pos_bound x (2 ^ 52) ltac:(lia)). destruct (f_exp x =? 0); lia. }
  split; [exact M|]. rewrite U, Z.abs_mul, (Z.abs_eq (2 ^ _)) by lia. f_equal. unfold f_signed_mag. destruct (f_sign x); lia.
Qed.
Lemma zero_plus y : finite y -> Z.abs (units y) < 2 ^ 2097 -> finite (f_add 0 y) /\ units (f_add 0 y) = units y.
Proof.
  intros Y B. assert (X : finite 0) by (split; [split; [lia|reflexivity]|reflexivity]).
  destruct (f_add_round 0 y X Y) as (n & d & s & Hn & Hd & E & -> & S). change (units 0) with 0 in *. rewrite Z.add_0_l in *.
  destruct (dyadic y Y) as (c & t & T & C & U). pose proof (pow_pos t ltac:(lia)) as P. pose proof one_pos as O.
  destruct (Z.eq_dec (units y) 0) as [Z0|NZ].
  - rewrite Z0 in *. assert (n = 0) by (cbn [Z.mul Z.abs] in E; set (o := one) in *; clearbody o; nia). subst n. rewrite f_round_zero.
    split; destruct s; try reflexivity; split; try (split; [vm_compute; discriminate|reflexivity]); reflexivity.
  - assert (0 < c). { destruct (Z.eq_dec c 0) as [->|]; [|lia]. rewrite Z.mul_0_l in U. lia. }
    assert (0 < n). { destruct (Z.eq_dec n 0) as [->|]; [|lia]. exfalso. rewrite Z.mul_0_l in E. assert (0 < Z.abs (units y)) by lia. nia. }
    rewrite U in *. destruct (f_round_exact s n d c t H0 Hd ltac:(lia) ltac:(lia) B E) as [F UU]. split; [exact F|]. rewrite UU, S.
    replace (units y =? 0) with false by lia. rewrite <- U. destruct (Z.ltb_spec (units y) 0); lia.
Qed.
(* rounding does not go below a number that is there *)
Lemma add_ge x y : finite x -> finite y -> 0 <= units x -> 0 <= units y -> units x + units y < 2 ^ 2097 ->
  finite (f_add x y) /\ units x <= units (f_add x y).
Proof.
  intros X Y PX PY B. destruct (f_add_round x y X Y) as (n & d & s & Hn & Hd & E & -> & S). pose proof one_pos as O.
  rewrite (Z.abs_eq (units x + units y)) in E by lia.
  destruct (Z.eq_dec (units x + units y) 0) as [Z0|NZ].
  - rewrite Z0 in *. assert (n = 0) by (set (o := one) in *; clearbody o; nia). subst n. rewrite f_round_zero.
    split; [destruct s; split; try (split; [vm_compute; discriminate|reflexivity]); reflexivity|].
    replace (units x) with 0 by lia. destruct s; vm_compute; discriminate.
  - assert (N0 : 0 < n). { destruct (Z.eq_dec n 0) as [->|]; [|lia]. exfalso. rewrite Z.mul_0_l in E. assert (0 < units x + units y) by lia. nia. }
    replace (units x + units y =? 0) with false in S by lia. replace (units x + units y <? 0) with false in S by lia. subst s.
    destruct (dyadic x X) as (c & tx & Tx & C & U). rewrite Z.abs_eq in U by exact PX.
    destruct (f_round_spec false n d N0 Hd) as (t & q & Ht & Hq & F & _ & _ & _ & UU & NE & LB & UB).
    { rewrite pow_2097 in B. set (P := 2 ^ 1023) in *. set (o := one) in *. clearbody P o.
      apply Z.mul_lt_mono_pos_r with o; [exact O|]. rewrite E. replace (d * P * o) with (o * P * d) by ring. now apply Z.mul_lt_mono_pos_r. }
    split; [exact F|]. rewrite UU, Z.mul_1_l. rewrite E in *. clear UU F E B.
    set (u := units x + units y) in *. assert (UX : units x <= u) by lia. clearbody u. rewrite U in *. clear U X Y PX PY n N0 Hn O UB.
    pose proof (pow_pos t ltac:(lia)) as P. pose proof (pow_pos tx ltac:(lia)) as Px.
    assert (NE' : 2 * Z.abs (q * 2 ^ t - u) <= 2 ^ t).
    { replace (q * 2 ^ t * d - u * d) with ((q * 2 ^ t - u) * d) in NE by ring. rewrite Z.abs_mul, (Z.abs_eq d) in NE by lia.
      apply Z.mul_le_mono_pos_r with d; [exact Hd|]. lia. }
    clear NE. destruct (Z.leb_spec t tx) as [G|G].
    + replace (2 ^ tx) with (2 ^ (tx - t) * 2 ^ t) in * by (rewrite <- Z.pow_add_r by lia; f_equal; lia).
      rewrite Z.mul_assoc in *. set (a := c * 2 ^ (tx - t)) in *. set (Q := 2 ^ t) in *. clearbody a Q. clear - UX NE' P.
      assert (a <= q); [|nia]. destruct (Z.leb_spec a q); [assumption|exfalso]. assert (q * Q <= a * Q - Q) by nia. lia.
    + destruct LB as [->|LB]; [lia|]. assert (LB' : 2 ^ (t + 52) <= u) by (apply Z.mul_le_mono_pos_r with d; [exact Hd|]; lia). clear LB.
      assert (W : c * 2 ^ tx < 2 ^ (t + 52)).
      { assert (2 ^ 53 * 2 ^ tx <= 2 ^ (t + 52)) by (rewrite <- Z.pow_add_r by lia; apply Z.pow_le_mono_r; lia).
        set (A := 2 ^ tx) in *. set (D := 2 ^ (t + 52)) in *. set (K := 2 ^ 53) in *. clearbody A D K. nia. }
      rewrite Z.pow_add_r in W, LB' by lia. set (A := 2 ^ tx) in *. set (Q := 2 ^ t) in *. set (K := 2 ^ 52) in *. clearbody A Q K. clear - W LB' NE' P.
      assert (K <= q); [|nia]. destruct (Z.leb_spec K q); [assumption|exfalso]. assert (q * Q <= K * Q - Q) by nia. lia.
Qed.

Lemma running_0 b : finite (step b 0) -> Z.abs (units (step b 0)) < 2 ^ 2097 -> finite (running b 0) /\ units (running b 0) = units (step b 0).
Proof. intros F B. unfold running. cbn [seq map fold_left]. now apply zero_plus. Qed.
Lemma position_running b i : finite (step b 0) -> Z.abs (units (step b 0)) < 2 ^ 2097 ->
  (finite (running b i) <-> finite (position b i)) /\ units (running b i) = units (position b i).
Proof. intros F B. destruct i; cbn [position]; [|tauto]. destruct (running_0 b F B). tauto. Qed.

Lemma sums_exact b i : sums_fit b i -> finite (position b i) /\ units (position b i) = total b i.
Proof.
  intros (t & T & H). pose proof (pow_pos t ltac:(lia)) as P.
  assert (BT : 2 ^ 53 * 2 ^ t <= 2 ^ 2097) by (rewrite <- Z.pow_add_r by lia; apply Z.pow_le_mono_r; lia).
  assert (F0 : finite (step b 0) /\ Z.abs (units (step b 0)) < 2 ^ 2097).
  { destruct (H 0%nat ltac:(lia)) as (F & c & U & A). split; [exact F|]. cbn [total] in A. set (R := 2 ^ 2097) in *. clearbody R. lia. }
  assert (X : forall j, (j <= i)%nat -> finite (running b j) /\ units (running b j) = total b j /\ exists a, total b j = a * 2 ^ t).
  { induction j as [|j IH]; intros L.
    - destruct (running_0 b (proj1 F0) (proj2 F0)) as [R1 R2]. destruct (H 0%nat L) as (_ & c & U & _). cbn [total]. eauto.
    - destruct IH as (R1 & R2 & a & A); [lia|]. destruct (H (S j) L) as (F & c & U & B). rewrite running_S. cbn [total].
      cbn [total] in B. rewrite A, U in B. destruct (add_exact (running b j) (step b (S j)) t a c R1 F T ltac:(congruence) U) as [G1 G2].
      + rewrite <- Z.mul_add_distr_r, Z.abs_mul, (Z.abs_eq (2 ^ t)) in B by lia. now apply Z.mul_lt_mono_pos_r in B.
      + split; [exact G1|]. split; [congruence|]. exists (a + c). rewrite A, U. ring. }
  destruct (X i ltac:(lia)) as (R1 & R2 & _). destruct (position_running b i (proj1 F0) (proj2 F0)) as [Q1 Q2]. rewrite <- Q2. tauto.
Qed.

Lemma positions_ordered b i : finite (step b 0) -> 0 <= units (step b 0) < 2 ^ 2096 ->
  finite (position b i) -> 0 <= units (position b i) < 2 ^ 2096 -> finite (step b (S i)) -> 0 <= units (step b (S i)) < 2 ^ 2096 ->
  finite (position b (S i)) /\ units (position b i) <= units (position b (S i)).
Proof.
  intros F0 B0 F1 B1 F2 B2. assert (D : 2 ^ 2097 = 2 ^ 2096 + 2 ^ 2096) by (rewrite Z.add_diag; change 2097 with (Z.succ 2096); now rewrite Z.pow_succ_r).
  assert (PP : 0 < 2 ^ 2096) by (apply pow_pos; lia).
  assert (W : Z.abs (units (step b 0)) < 2 ^ 2097) by (rewrite D; set (Q := 2 ^ 2096) in *; clearbody Q; lia).
  destruct (position_running b i F0 W) as [Q1 Q2]. cbn [position]. rewrite running_S, <- Q2 in *. apply Q1 in F1.
  apply add_ge; try assumption; try (apply B1); try (apply B2). rewrite D. set (Q := 2 ^ 2096) in *. clearbody Q. lia.
Qed.
