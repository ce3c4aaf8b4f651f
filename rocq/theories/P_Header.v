(* Saving a project whose tempo, version, licensee or header values were assigned. *)
From Coq Require Import String ZArith List Bool Lia Arith.
From Verif Require Import M_Base M_Float M_Text M_Construct M_Structs M_Events M_Parse M_Tree M_Prop M_Project.
From Verif Require Import S_Canon S_File S_Domain S_Tree S_Prop S_Real S_Project.
From Verif Require Import P_Base P_File P_Null P_Save P_TreeBase P_Tree P_TreeEdit P_Prop P_Domain P_Round P_Edit P_Rewrite P_Project P_Puts P_Tempo.
Import ListNotations.
Open Scope Z_scope.

Lemma encodes_kind en : forall es h cs e, encodes en h es cs -> In e es -> exists p h0, class_of en ((e_id e, p) :: h0) = Some (e_kind e).
Proof.
  induction es as [|x es IH]; intros h cs e HE I; [destruct I|]. inversion HE as [|h0 e0 es0 p cs0 e' HP HB HC HV HM HS HE']; subst.
  destruct I as [->|I]; [eauto|]. eapply IH; eauto.
Qed.
Lemma value_of_same id a b : Forall2 same_event a b -> value_of id b = value_of id a.
Proof. induction 1 as [|x y a b (X1 & X2 & X3) H IH]; [reflexivity|]. cbn [value_of]. rewrite <- X1, <- X3. destruct (e_id x =? id); congruence. Qed.
Lemma tempo_get_values h h' : (forall id, value_of id (root_events h') = value_of id (root_events h)) -> tempo_get h' = tempo_get h.
Proof. intros E. unfold tempo_get. now rewrite !contains_root, !first_root, !E. Qed.
Lemma licensee_get_values al h h' : (forall id, value_of id (root_events h') = value_of id (root_events h)) -> licensee_get al h' = licensee_get al h.
Proof. intros E. unfold licensee_get. now rewrite !contains_root, !first_root, !E. Qed.

(* an assignable tempo *)
Definition settable (v : flversion) (n : num) : Prop :=
  ~ clash v [1; 4; 2] /\ ~ clash v [11; 0; 0] /\
  match n with
  | NInt z => 10 <= z <= max_bpm [v_major v; v_minor v; v_patch v]
  | NFlt x => ~ clash v [3; 4; 0] /\ lex_lt [v_major v; v_minor v; v_patch v] [3; 4; 0] = false /\
              finite x /\ 10 * one <= units x <= max_bpm [v_major v; v_minor v; v_patch v] * one
  end.
Definition bpm_units (n : num) : Z := match n with NInt z => z * one | NFlt x => units x end.

Lemma tempo_set_ok evs h v n : evs <> [] -> views (parsed evs) h -> has_tempo evs -> version_get h = Ok v -> settable v n ->
  exists h' m f z, tempo_set h n = (h', Ok tt) /\ root_events h' = with_tempo m f z evs /\ same_shape h h' /\
    0 <= m <= 999000 /\ 0 <= f <= 999 /\ 10 <= z <= 999 /\
    1000 * bpm_units n - one - 2 ^ 1041 < m * one <= 1000 * bpm_units n + 2 ^ 1041 /\
    z * one <= bpm_units n < (z + 1) * one /\
    1000 * (bpm_units n - z * one) - one - 2 ^ 1041 < f * one <= 1000 * (bpm_units n - z * one) + 2 ^ 1041 /\
    (forall k, bpm_units n = k * one -> m = 1000 * k /\ f = 0 /\ z = k).
Proof.
  intros NE V HT VG (C1 & C2 & HN). destruct (tidy_views evs h NE V) as [T R].
  pose proof (max_bpm_range [v_major v; v_minor v; v_patch v]) as MR. pose proof one_pos as O.
  assert (E41 : 0 < 2 ^ 1041) by (apply pow_pos; lia).
  destruct n as [z|x]; cbn [bpm_units].
  - assert (CH : tempo_check h (NInt z) = Ok tt).
    { rewrite (tempo_check_int h v z); try assumption; [|now rewrite R|].
      - replace ((10 <=? z) && (z <=? max_bpm [v_major v; v_minor v; v_patch v])) with true by lia. reflexivity.
      - assert (1000 < 2 ^ 1023) by (vm_compute; reflexivity). lia. }
    destruct (tempo_set_spec h (NInt z) (z * 1000) 0 z T CH) as (h' & S1 & S2 & S3); [reflexivity|cbn [num_fine]; f_equal; lia|reflexivity|].
    exists h', (z * 1000), 0, z. rewrite S3, R. split; [exact S1|]. split; [reflexivity|]. split; [exact S2|].
    set (o := one) in *. clearbody o. split; [lia|]. split; [lia|]. split; [lia|]. split; [lia|]. split; [lia|]. split; [lia|].
    intros k K. apply Z.mul_reg_r in K; lia.
  - destruct HN as (C3 & L & F & B).
    assert (B' : 10 * one <= units x <= 999 * one).
    { split; [lia|]. transitivity (max_bpm [v_major v; v_minor v; v_patch v] * one); [lia|]. apply Z.mul_le_mono_nonneg_r; lia. }
    assert (CH : tempo_check h (NFlt x) = Ok tt).
    { rewrite (tempo_check_flt h v x); try assumption; [|now rewrite R]. rewrite L.
      set (k := max_bpm _ * one) in *. clearbody k. replace (10 * one <=? units x) with true by lia. replace (units x <=? k) with true by lia. reflexivity. }
    destruct (mille_float x F B') as (m & EM & M1 & M2). destruct (fine_float x F B') as (f & EF & F1 & F2 & F3).
    destruct (floor_float x F B') as (z & EZ & Z1 & Z2).
    destruct (tempo_set_spec h (NFlt x) m f z T CH EM EF EZ) as (h' & S1 & S2 & S3).
    exists h', m, f, z. rewrite S3, R. split; [exact S1|]. split; [reflexivity|]. split; [exact S2|].
    assert (MZ : units x mod one = units x - z * one).
    { symmetry. apply Z.mod_unique with z; [left; set (o := one) in *; clearbody o; lia|ring]. }
    rewrite MZ in *. repeat (split; [assumption|]).
    intros k K. assert (I : is_integer x k) by (split; assumption).
    assert (10 <= k <= 999) by (rewrite K in B'; split; apply Z.mul_le_mono_pos_r with one; lia).
    rewrite (mille_int x k I) in EM by lia. rewrite (fine_int x k I) in EF by lia. rewrite (floor_int x k I) in EZ.
    repeat split; congruence || (assert (k * 1000 = m) by congruence; lia).
Qed.

Lemma with_tempo_puts m f z es : with_tempo m f z es = puts [(66, VInt z); (93, VInt f); (156, VInt m)] es.
Proof. reflexivity. Qed.

Lemma tempo_saved en f p h v n : is_bytes f -> parse en f = Ok p -> canonical_file en f -> zlen f + 30 < 2 ^ 32 ->
  views (parsed (pr_events p)) h -> has_tempo (pr_events p) -> version_get h = Ok v -> settable v n ->
  exists h' f' p', tempo_set h n = (h', Ok tt) /\
    serialise en (Project (root_events h') (pr_channel_count p) (pr_format p) (pr_ppq p)) = Ok f' /\ parse en f' = Ok p' /\
    Forall2 same_event (root_events h') (pr_events p') /\ tempo_get (parsed (pr_events p')) = tempo_get h'.
Proof.
  intros Hb H HC SZ V HT VG HS. destruct (canonical_encodes en f p Hb H HC) as (cs & HE & _ & _ & _ & _ & _ & _ & NE).
  destruct (tempo_set_ok _ h v n NE V HT VG HS) as (h' & m & fi & z & S1 & S2 & _ & B1 & B2 & B3 & _).
  rewrite with_tempo_puts in S2.
  destruct (puts_saved en f p [(66, VInt z); (93, VInt fi); (156, VInt m)] Hb H HC) as (f' & p' & P1 & P2 & P3 & _).
  - repeat constructor; cbn; lia.
  - intros id w e I IE EI. destruct (encodes_kind _ _ _ _ _ HE IE) as (pl & h0 & CL). rewrite EI in CL.
    assert (X : e_kind e = KU16 /\ int_between 0 65536 w \/ e_kind e = KU32 /\ int_between 0 4294967296 w).
    { destruct I as [[= <- <-]|[[= <- <-]|[[= <- <-]|[]]]]; revert CL; generalize (e_kind e); unfold class_of, registered; intros k CL;
        destruct (en_ctrl en); vm_compute in CL; injection CL as <-; [left|left|left|left|right|right]; (split; [reflexivity|]); eexists; (split; [reflexivity|lia]). }
    split; [destruct X as [[-> _]|[-> _]]; reflexivity|]. split; [destruct X as [[-> D]|[-> D]]; exact D|].
    destruct I as [[= <- <-]|[[= <- <-]|[[= <- <-]|[]]]]; rewrite EI; split; intros; lia.
  - change (puts_room [(66, VInt z); (93, VInt fi); (156, VInt m)]) with 30. exact SZ.
  - exists h', f', p'. rewrite S2. split; [exact S1|]. split; [exact P1|]. split; [exact P2|]. split; [exact P3|].
    apply tempo_get_values. intros id. rewrite S2. unfold root_events at 1. rewrite parsed_events. now apply value_of_same.
Qed.

(* -------------------------------------------------------------------- versions *)

Lemma numbers_int_parts s : numbers s = match int_parts s with Ok l => Some l | Err _ => None end.
Proof.
  unfold numbers, int_parts. induction (split_on 46 s) as [|x l IH]; [reflexivity|]. cbn [fold_right mapr]. rewrite IH.
  destruct (py_int x); cbn [bind]; [|reflexivity]. match goal with |- context [mapr ?g l] => destruct (mapr g l) end; reflexivity.
Qed.
Lemma numbers_ver_text l : l <> [] -> Forall (fun n => 0 <= n) l -> numbers (ver_text l) = Some l.
Proof. intros N F. rewrite numbers_int_parts. unfold ver_text. now rewrite int_parts_join. Qed.
Lemma dec_digits_length : forall f n acc, (length (dec_digits f n acc) <= f + length acc)%nat.
Proof.
  induction f as [|f IH]; intros n acc; cbn [dec_digits]; [lia|]. destruct (_ <? _); cbn [length]; [lia|].
  etransitivity; [apply IH|]. cbn [length]. lia.
Qed.
Lemma str_int_length n : 0 <= n < 2 ^ 32 -> zlen (py_str_int n) <= 33.
Proof.
  intros H. unfold py_str_int, zlen. replace (n <? 0) with false by lia. rewrite (Z.abs_eq n) by lia.
  pose proof (dec_digits_length (S (Z.to_nat (Z.log2 n))) n []) as L. cbn [length] in L.
  assert (Z.log2 n <= 31). { destruct (Z.eq_dec n 0) as [->|]; [cbn; lia|]. assert (Z.log2 n < 32); [apply Z.log2_lt_pow2; lia|lia]. }
  pose proof (Z.log2_nonneg n). lia.
Qed.
Lemma ver_text_length l : Forall (fun n => 0 <= n < 2 ^ 32) l -> zlen (ver_text l) <= 34 * zlen l.
Proof.
  unfold ver_text. induction 1 as [|n l H F IH]; [vm_compute; discriminate|]. rewrite zlen_cons.
  pose proof (str_int_length n H). destruct l as [|m l]; [cbn [map join_with]; rewrite zlen_nil || idtac; lia|].
  change (join_with 46 (map py_str_int (n :: m :: l))) with (py_str_int n ++ 46 :: join_with 46 (map py_str_int (m :: l))).
  rewrite zlen_app, zlen_cons. lia.
Qed.
Lemma encodes_version en : forall es h cs e, encodes en h es cs -> In e es -> e_id e = 199 ->
  e_kind e = KAscii /\ exists s, e_val e = VStr s.
Proof.
  induction es as [|x es IH]; intros h cs e HE I EI; [destruct I|]. inversion HE as [|h0 e0 es0 p cs0 e' HP HB HC HV HM HS HE']; subst.
  destruct I as [->|I]; [|eapply IH; eauto]. rewrite EI in HC.
  assert (K : e_kind e = KAscii).
  { revert HC. generalize (e_kind e). unfold class_of, registered. intros k HC. destruct (en_ctrl en); vm_compute in HC; congruence. }
  split; [exact K|]. destruct HS as (_ & _ & EV). rewrite EV. rewrite K in HM. destruct (ascii_mk_value _ _ _ _ HM) as (s & _ & E). eauto.
Qed.

Lemma version_saved en f p h a l : is_bytes f -> parse en f = Ok p -> canonical_file en f -> zlen f + 600 < 2 ^ 32 ->
  views (parsed (pr_events p)) h -> value_of 199 (pr_events p) <> None ->
  (forall e s, In e (pr_events p) -> e_id e = 199 -> e_val e = VStr s -> exists ns, numbers s = Some ns /\ wide_text ns = wide_text l) ->
  version_list a = Ok l -> (length l = 3 \/ length l = 4)%nat -> Forall (fun n => 0 <= n < 2 ^ 32) l ->
  exists h' f' p' v, version_set h a = (h', Ok tt) /\
    serialise en (Project (root_events h') (pr_channel_count p) (pr_format p) (pr_ppq p)) = Ok f' /\ parse en f' = Ok p' /\
    Forall2 same_event (root_events h') (pr_events p') /\ version_get (parsed (pr_events p')) = Ok v /\ parts_of v = l.
Proof.
  intros Hb H HC SZ V N199 HW HA HL F. destruct (canonical_encodes en f p Hb H HC) as (cs & HE & _ & _ & _ & _ & _ & _ & NE).
  destruct (tidy_views _ h NE V) as [T R].
  assert (F0 : Forall (fun n => 0 <= n) l) by (eapply Forall_impl; [|exact F]; cbn beta; lia).
  assert (NL : l <> []) by (destruct l; [cbn in HL; lia|discriminate]).
  destruct (version_set_spec h l a T ltac:(rewrite R; exact N199) HA HL F0) as (h' & v & S1 & S2 & S3 & S4 & S5).
  set (m := match l with [_; _; _; b] => [(159, VInt b); (199, VStr (ver_text l))] | _ => [(199, VStr (ver_text l))] end).
  assert (S3' : root_events h' = puts m (pr_events p)).
  { rewrite S3, R. unfold m. destruct l as [|x1 [|x2 [|x3 [|x4 [|x5 l]]]]]; reflexivity. }
  pose proof (ver_text_length l F) as TL. assert (ZL : zlen l <= 4) by (unfold zlen; lia).
  assert (TV : Forall (fun c => c = 46 \/ 48 <= c <= 57) (ver_text l)) by (apply ver_text_chars; exact F0).
  destruct (puts_saved en f p m Hb H HC) as (f' & p' & P1 & P2 & P3 & _).
  - unfold m. destruct l as [|x1 [|x2 [|x3 [|x4 [|x5 l]]]]]; repeat constructor; cbn; lia.
  - assert (OK1 : forall e, In e (pr_events p) -> e_id e = 199 -> put_ok e (VStr (ver_text l))).
    { intros e IE EI. destruct (encodes_version _ _ _ _ _ HE IE EI) as (K & s0 & EV).
      destruct (HW e s0 IE EI EV) as (ns & NN & WW).
      split; [rewrite K; reflexivity|]. split; [rewrite K|split; [lia|]].
      - exists (ver_text l). split; [reflexivity|]. split.
        + intros s' E. rewrite E in TV. apply Forall_app in TV as [_ TV]. inversion TV; subst. lia.
        + eapply Forall_impl; [|exact TV]. cbn beta. lia.
      - intros _. exists (ver_text l), s0. split; [reflexivity|]. split; [exact EV|].
        unfold text_wide. rewrite (numbers_ver_text l NL F0), NN. split; [discriminate|]. cbn [option_map]. congruence. }
    assert (OK2 : forall e b, In e (pr_events p) -> e_id e = 159 -> 0 <= b < 2 ^ 32 -> put_ok e (VInt b)).
    { intros e b IE EI B. destruct (encodes_kind _ _ _ _ _ HE IE) as (pl & h0 & CL). rewrite EI in CL.
      assert (K : e_kind e = KU32).
      { revert CL. generalize (e_kind e). unfold class_of, registered. intros k CL. destruct (en_ctrl en); vm_compute in CL; congruence. }
      split; [rewrite K; reflexivity|]. split; [rewrite K; exists b; split; [reflexivity|lia]|]. split; [lia|]. intros; lia. }
    intros id w e I IE EI. unfold m in I.
    assert (I' : (id, w) = (199, VStr (ver_text l)) \/ exists b, In b l /\ (id, w) = (159, VInt b)).
    { destruct l as [|x1 [|x2 [|x3 [|x4 [|x5 l]]]]]; cbn [In] in I; destruct I as [I|I]; try destruct I as [I|I]; try contradiction; try (left; congruence);
        right; exists x4; split; [cbn; tauto|congruence]. }
    destruct I' as [[= -> ->]|(b & IB & [= -> ->])]; [apply OK1; assumption|].
    apply OK2; try assumption. rewrite Forall_forall in F. apply F. exact IB.
  - assert (puts_room m <= 4 * zlen (ver_text l) + 20).
    { pose proof (zlen_nonneg _ (ver_text l)). unfold m. destruct l as [|x1 [|x2 [|x3 [|x4 [|x5 l]]]]]; unfold puts_room; cbn [fold_right snd room]; lia. }
    lia.
  - exists h', f', p', v. rewrite S3'. split; [exact S1|]. split; [exact P1|]. split; [exact P2|]. split; [exact P3|]. split; [|exact S5].
    rewrite <- S4. apply version_get_same. rewrite S3'. unfold root_events. rewrite parsed_events. now apply value_of_same.
Qed.

(* -------------------------------------------------------------------- licensee *)

Lemma encodes_text en : forall es h cs e, encodes en h es cs -> In e es -> e_id e = 200 -> e_kind e = KAscii \/ e_kind e = KUnicode.
Proof.
  intros es h cs e HE I EI. destruct (encodes_kind _ _ _ _ _ HE I) as (pl & h0 & CL). rewrite EI in CL.
  assert (X : text_class ((200, pl) :: h0) = Some (e_kind e)).
  { revert CL. generalize (e_kind e). intros k CL. rewrite <- CL. unfold class_of.
    replace (registered en 200) with (@None kind) by (unfold registered; destruct (en_ctrl en); vm_compute; reflexivity). reflexivity. }
  eapply text_class_kind; eauto.
Qed.
Lemma licensee_saved en al f p h v s : (forall n, 0 <= n < 128 -> (al n = true <-> letter_or_digit n)) ->
  is_bytes f -> parse en f = Ok p -> canonical_file en f -> zlen f + 4 * zlen s + 10 < 2 ^ 32 ->
  views (parsed (pr_events p)) h -> value_of 200 (pr_events p) <> None -> version_get h = Ok v -> ~ clash v [1; 3; 9] ->
  Forall letter_or_digit s -> all_kept 0 s ->
  exists h' f' p', licensee_set h s = (h', Ok tt) /\ licensee_get al h' = Ok (VStr s) /\
    serialise en (Project (root_events h') (pr_channel_count p) (pr_format p) (pr_ppq p)) = Ok f' /\ parse en f' = Ok p' /\
    Forall2 same_event (root_events h') (pr_events p') /\ licensee_get al (parsed (pr_events p')) = Ok (VStr s).
Proof.
  intros HAL Hb H HC SZ V N200 VG C1 FS KS. destruct (canonical_encodes en f p Hb H HC) as (cs & HE & _ & _ & _ & _ & _ & _ & NE).
  destruct (tidy_views _ h NE V) as [T R]. rewrite <- R in N200.
  destruct (set_first_spec h 200 (VStr (jumble_all 0 s)) T N200) as (h' & S1 & S2 & _). rewrite R in S2.
  destruct (jumble_all_spec al HAL s 0 FS ltac:(lia) KS) as (JL & JR & _).
  destruct (puts_saved en f p [(200, VStr (jumble_all 0 s))] Hb H HC) as (f' & p' & P1 & P2 & P3 & _).
  - repeat constructor. cbn. tauto.
  - intros id w e [[= <- <-]|[]] IE EI. assert (K := encodes_text _ _ _ _ _ HE IE EI).
    split; [destruct K as [-> | ->]; reflexivity|]. split; [|split; [lia|intros; lia]].
    assert (NT : no_trailing_nul (jumble_all 0 s)).
    { intros s' E. rewrite E in JR. apply Forall_app in JR as [_ JR]. inversion JR; subst. lia. }
    destruct K as [-> | ->]; exists (jumble_all 0 s); (split; [reflexivity|]); (split; [exact NT|]); (eapply Forall_impl; [|exact JR]); cbn beta; intros c; unfold scalar; lia.
  - change (puts_room [(200, VStr (jumble_all 0 s))]) with (4 * zlen (jumble_all 0 s) + 4 + 6 + 0). lia.
  - change (puts [(200, VStr (jumble_all 0 s))] (pr_events p)) with (put 200 (VStr (jumble_all 0 s)) (pr_events p)) in *. rewrite <- S2 in *.
    exists h', f', p'.
    assert (V200 : value_of 200 (root_events h') = Some (VStr (jumble_all 0 s))).
    { rewrite S2, value_put. rewrite R in N200. destruct (value_of 200 (pr_events p)); [reflexivity|congruence]. }
    split; [|split; [eapply licensee_read; eauto|split; [exact P1|split; [exact P2|split; [exact P3|]]]]].
    + unfold licensee_set. rewrite VG. cbn [bind]. rewrite (ver_lt_spec v 1 3 9 C1). cbn [with_res]. rewrite contains_root.
      destruct (value_of 200 (root_events h)); [exact S1|congruence].
    + eapply licensee_read; eauto. unfold root_events. rewrite parsed_events. rewrite (value_of_same 200 _ _ P3). exact V200.
Qed.

(* ---------------------------------------------------------------------- header *)

Lemma header_saved en f p fmt q n : is_bytes f -> parse en f = Ok p -> canonical_file en f -> In fmt formats -> In q ppqs ->
  exists f' p', serialise en (Project (pr_events p) n fmt q) = Ok f' /\ parse en f' = Ok p' /\
    Forall2 same_event (pr_events p) (pr_events p') /\
    pr_format p' = fmt /\ pr_ppq p' = q /\ pr_channel_count p' = pr_channel_count p.
Proof.
  intros Hb H HC Hf Hq. destruct (canonical_encodes en f p Hb H HC) as (cs & HE & HI & _ & _ & Hch & Hc & (Hz & Hz') & NE).
  destruct (edited_rewrites en 0 _ _ _ (edited_refl en (pr_events p)) [] [] cs ltac:(constructor) HE) as (cs' & es'' & R1 & R2 & R3 & R4).
  pose proof (count_fst 64 _ _ R3) as CC.
  destruct (rewrite_load en (Project (pr_events p) n fmt q) cs' es'' R1 HI Hf Hq ltac:(rewrite CC; exact Hc) ltac:(lia)) as (f' & S1 & S2).
  exists f', (Project es'' (count_chunks 64 cs') fmt q). split; [exact S1|]. split; [exact S2|]. cbn [pr_events pr_format pr_ppq pr_channel_count].
  split; [exact R2|]. split; [reflexivity|]. split; [reflexivity|congruence].
Qed.

Inductive header_step : proj -> proj -> Prop :=
| HPpq p n : header_step p (fst (ppq_set p n))
| HChannels p n : header_step p (fst (channel_count_set p n))
| HFormat p n : header_step p (fst (format_set p n))
| HEvents p h : header_step p (Proj h (pj_channels p) (pj_format p) (pj_ppq p)).
Inductive header_steps : proj -> proj -> Prop :=
| HNil p : header_steps p p
| HCons p q r : header_step p q -> header_steps q r -> header_steps p r.

Lemma parse_header en f p : is_bytes f -> parse en f = Ok p -> In (pr_ppq p) ppqs /\ 0 <= pr_channel_count p.
Proof.
  intros Hb H. destruct (parse_ok en f p Hb H) as (fmt & ch & q & body & es & _ & (G1 & G2 & G3 & _) & _ & _ & ->).
  cbn [pr_ppq pr_channel_count]. split; [exact G2|lia].
Qed.
Lemma header_guard en f p q : is_bytes f -> parse en f = Ok p -> header_steps (opened p) q ->
  In (pj_ppq q) ppqs /\ 0 <= pj_channels q.
Proof.
  intros Hb H HS. pose proof (parse_header en f p Hb H) as G.
  assert (X : forall a b, header_steps a b -> In (pj_ppq a) ppqs /\ 0 <= pj_channels a -> In (pj_ppq b) ppqs /\ 0 <= pj_channels b).
  { induction 1 as [|a b c S HS' IH]; [auto|]. intros I. apply IH. clear IH HS'. destruct S as [p0 n|p0 n|p0 n|p0 h].
    - unfold ppq_set. destruct (mem_Z n valid_ppqs) eqn:M; [|exact I]. cbn [fst pj_ppq pj_channels]. apply mem_Z_In in M. split; [exact M|apply I].
    - unfold channel_count_set. destruct (Z.ltb_spec n 0); [exact I|]. cbn [fst pj_ppq pj_channels]. split; [apply I|lia].
    - exact I.
    - exact I. }
  apply (X _ _ HS). exact G.
Qed.
