(* Struct events against the field tables of S_Layout. *)
From Coq Require Import String ZArith List Bool Lia Arith.
From Verif Require Import M_Base M_Float M_Text M_Construct M_Structs M_Events.
From Verif Require Import S_Canon S_File S_Prop S_Layout S_Real P_Base P_Codec P_Float P_Text P_RT P_Cells P_Round P_Kinds P_Lists P_Payload P_Null.
Import ListNotations.
Open Scope Z_scope.

(* ---------------------------------------------------------------- single fields *)

Lemma s_le_spec n b : length b = n -> s_le b = to_signed n (le_dec b).
Proof. intros <-. unfold s_le, to_signed. now rewrite (u_le_dec b). Qed.
Lemma s_le_4 b : length b = 4%nat -> s_le b = s_le4 b.
Proof. intros H. now rewrite (s_le_spec 4 b H), s_le4_spec. Qed.

Lemma ft_cell_size en t : c_size (ft_cell en t) = ft_size t \/ exists n m, t = TFlagsS n m.
Proof. destruct t; try (left; reflexivity). right; eauto. Qed.

(* the types that occur *)
Definition ft_wf (t : ftype) : bool :=
  match t with
  | TFlagsS n m => (n =? 4)%nat && (0 <? m)
  | TS n | TEnumS n => (0 <? n)%nat
  | _ => (0 <? ft_size t)%nat
  end.
Lemma ft_size_cell en t : ft_wf t = true -> c_size (ft_cell en t) = ft_size t.
Proof.
  intros W. destruct (ft_cell_size en t) as [H|(n & m & ->)]; [exact H|].
  cbn [ft_wf] in W. cbn. lia.
Qed.
Lemma ft_size_pos t : ft_wf t = true -> (0 < ft_size t)%nat.
Proof. destruct t; cbn [ft_wf ft_size]; lia. Qed.

Lemma ft_reads en t b : length b = ft_size t ->
  c_reads (ft_cell en t) b = match ft_dec en t b with Some _ => true | None => false end.
Proof.
  intros L. destruct t; cbn [ft_cell ft_dec any c_reads c_f32 c_flag c_bool4 c_envflags c_log2 c_lognormal c_height]; try reflexivity.
  - rewrite <- (s_le_4 b L). destruct (en_exp2 en _); reflexivity.
  - destruct (u_le (firstn 2 b) =? 0); [reflexivity|]. cbn [orb].
    destruct (u_le (skipn 2 b) =? 63); [|reflexivity]. cbn [andb].
    destruct (lognormal_value en _); reflexivity.
  - destruct (height_pct b); reflexivity.
Qed.

(* construct [c] reads a field of type [t] *)
Definition reads_as (P : ctx -> Prop) (en : env) (c : con) (t : ftype) : Prop :=
  forall cx chunk rest v, P cx -> is_bytes chunk -> length chunk = ft_size t ->
    ft_dec en t chunk = Some v -> cparse c cx (chunk ++ rest) = Ok (v, rest).

Section Reads.
  Variables (P : ctx -> Prop) (en : env).

  Lemma ra_uint n : reads_as P en (c_uint n) (TU n).
  Proof.
    intros cx b r v _ B L D. cbn [ft_dec] in D. injection D as <-. cbn [c_uint cparse].
    rewrite (take_app _ _ n L). cbn [bind]. now rewrite (u_le_dec b).
  Qed.
  Lemma ra_sint n : reads_as P en (c_sint n) (TS n).
  Proof.
    intros cx b r v _ B L D. cbn [ft_dec] in D. injection D as <-. cbn [c_sint cparse].
    rewrite (take_app _ _ n L). cbn [bind]. now rewrite (s_le_spec n b L).
  Qed.
  Lemma ra_bytes n : reads_as P en (Bytes n) (TRaw n).
  Proof.
    intros cx b r v _ B L D. cbn [ft_dec] in D. injection D as <-. cbn [Bytes cparse].
    now rewrite (take_app _ _ n L).
  Qed.
  Lemma ra_f32 : reads_as P en Float32l TF32.
  Proof.
    intros cx b r v _ B L D. cbn [ft_dec] in D. injection D as <-. cbn [Float32l cparse].
    rewrite (take_app _ _ 4 L). cbn [bind]. now rewrite (u_le_dec b).
  Qed.
  Lemma ra_f64 : reads_as P en Float64l TF64.
  Proof.
    intros cx b r v _ B L D. cbn [ft_dec] in D. injection D as <-. cbn [Float64l cparse].
    rewrite (take_app _ _ 8 L). cbn [bind]. now rewrite (u_le_dec b).
  Qed.
  Lemma ra_flag : reads_as P en Flag TFlag.
  Proof.
    intros cx b r v _ B L D. cbn [ft_dec] in D. injection D as <-. cbn [Flag cparse].
    rewrite (take_app _ _ 1 L). cbn [bind]. now rewrite (u_le_dec b).
  Qed.

  Lemma ra_adapter c n D t dec enc : plain c n D -> ft_size t = n ->
    (forall cx chunk v, P cx -> is_bytes chunk -> length chunk = n -> ft_dec en t chunk = Some v -> dec cx (D chunk) = Ok v) ->
    reads_as P en (Adapter dec enc c) t.
  Proof.
    intros (_ & H & _) E HD cx b r v Hcx B L Dv. cbn [Adapter cparse]. rewrite H by congruence. cbn [bind].
    rewrite (HD cx b v) by congruence. reflexivity.
  Qed.

  Lemma ra_bool4 : reads_as P en FourByteBool TBool4.
  Proof.
    eapply ra_adapter; [apply (plain_uint 4)|reflexivity|]. intros cx b v _ _ _ D.
    cbn [ft_dec] in D. injection D as <-. cbn [truthy]. now rewrite (u_le_dec b).
  Qed.
  Lemma ra_stdenum n : reads_as P en (StdEnum (c_uint n)) (TEnum n).
  Proof.
    eapply ra_adapter; [apply (plain_uint n)|reflexivity|]. intros cx b v _ _ _ D.
    cbn [ft_dec] in D. injection D as <-. cbn [as_int]. now rewrite (u_le_dec b).
  Qed.
  Lemma ra_stdenum_s n : (0 < n)%nat -> reads_as P en (StdEnum (c_sint n)) (TEnumS n).
  Proof.
    intros Hn. eapply ra_adapter; [apply (plain_sint n Hn)|reflexivity|]. intros cx b v _ _ L D.
    cbn [ft_dec] in D. injection D as <-. cbn [as_int]. now rewrite (s_le_spec n b L).
  Qed.
  Lemma ra_stdflag m n : reads_as P en (StdFlag m (c_uint n)) (TFlags n).
  Proof.
    eapply ra_adapter; [apply (plain_uint n)|reflexivity|]. intros cx b v _ B _ D.
    cbn [ft_dec] in D. injection D as <-. cbn [as_int].
    rewrite intflag_norm_nonneg by apply (le_dec_bound _ B). now rewrite (u_le_dec b).
  Qed.
  Lemma ra_list2tuple n : reads_as P en (List2Tuple (Array 2 (c_uint n))) (TPair n).
  Proof.
    eapply ra_adapter; [apply (plain_array2 _ _ _ (plain_uint n))|reflexivity|]. intros cx b v _ _ _ D.
    cbn [ft_dec] in D. injection D as <-. now rewrite (u_le_dec (firstn n b)), (u_le_dec (skipn n b)).
  Qed.
  Lemma ra_musical : reads_as P en (LinearMusical Int32ul) TMusical.
  Proof.
    eapply ra_adapter; [apply (plain_uint 4)|reflexivity|]. intros cx b v _ _ _ D.
    cbn [ft_dec] in D. injection D as <-. cbn [as_int]. unfold musical_dec. rewrite (u_le_dec b).
    replace (le_dec b mod 768 mod 48) with (le_dec b mod 48); [reflexivity|].
    change 768 with (48 * 16). rewrite Z.rem_mul_r by lia.
    rewrite Z.mul_comm, Z.mod_add by lia. symmetry. apply Z.mod_mod. lia.
  Qed.
  Fixpoint index_from (i : Z) (names : list pystr) : list (pystr * Z) :=
    match names with [] => [] | s :: r => (s, i) :: index_from (i + 1) r end.
  Lemma index_from_name z : forall names i, i <= z -> enum_name (index_from i names) z = nth_error names (Z.to_nat (z - i)).
  Proof.
    induction names as [|s names IH]; intros i Hi; cbn [index_from enum_name].
    - destruct (Z.to_nat (z - i)); reflexivity.
    - destruct (Z.eqb_spec i z) as [->|N].
      + now rewrite Z.sub_diag.
      + rewrite IH by lia. replace (Z.to_nat (z - i)) with (S (Z.to_nat (z - (i + 1)))) by lia. reflexivity.
  Qed.
  Lemma ra_enum m n names : m = index_from 0 names -> reads_as P en (Enum m (c_uint n)) (TNames n names).
  Proof.
    intros ->. eapply ra_adapter; [apply (plain_uint n)|reflexivity|]. intros cx b v _ B _ D.
    cbn [ft_dec] in D. injection D as <-. cbn [as_int]. pose proof (le_dec_bound _ B).
    rewrite index_from_name by lia. rewrite Z.sub_0_r, (u_le_dec b). reflexivity.
  Qed.
End Reads.

Lemma ra_envflags en L w m : reads_as (cxp en L w) en (StdFlag m Int32sl) (TFlagsS 4 m).
Proof.
  eapply ra_adapter; [apply (plain_sint 4 ltac:(lia))|reflexivity|]. intros cx b v (Hp & _) _ Hl D.
  cbn [ft_dec] in D. injection D as <-. cbn [as_int]. now rewrite (s_le_spec 4 b Hl), Hp.
Qed.
Lemma ra_log2 en L w : reads_as (cxp en L w) en (Log2 10000 Int32sl) TMult.
Proof.
  eapply ra_adapter; [apply (plain_sint 4 ltac:(lia))|reflexivity|]. intros cx b v (_ & _ & He & _) _ Hl D.
  cbn [ft_dec] in D. cbn [as_int]. rewrite He, <- (s_le_spec 4 b Hl). destruct (en_exp2 en _); [|discriminate].
  cbn [bind]. congruence.
Qed.
Lemma ra_lognormal en L w lo hi : reads_as (cxp en L w) en (LogNormal lo hi (Array 2 Int16ul)) TLevel.
Proof.
  eapply ra_adapter; [apply (plain_array2 2 _ _ (plain_uint 2))|reflexivity|]. intros cx b v (_ & _ & He & _) _ Hl D.
  cbn [ft_dec] in D. cbn [as_int]. rewrite He. rewrite (u_le_dec (firstn 2 b)), (u_le_dec (skipn 2 b)) in D.
  destruct (le_dec (firstn 2 b) =? 0); [injection D as <-; reflexivity|].
  destruct (le_dec (skipn 2 b) =? 63); [|discriminate]. cbn [negb].
  unfold lognormal_value in D. destruct (en_exp2 en _); [|discriminate]. cbn [bind].
  injection D as <-. reflexivity.
Qed.
Lemma ra_height P en : reads_as P en (HeightAdapter Float32l) THeight.
Proof.
  intros cx b r v _ B Hl D. cbn [ft_dec] in D. cbn [HeightAdapter Adapter Float32l cparse].
  rewrite (take_app _ _ 4 Hl). cbn [bind as_float]. unfold height_dec, height_pct in *.
  rewrite (u_le_dec b) in D. change f_100 with 4636737291354636288. destruct (f_trunc _); [|discriminate].
  cbn [bind]. injection D as <-. reflexivity.
Qed.

(* ---------------------------------------------------------------- tables *)

Definition f_item (en : env) (f : field) : item :=
  match f with
  | Req _ t => Need (ft_cell en t)
  | Opt _ TFlag => MayFlag
  | Opt _ t => May (ft_cell en t)
  | Gone _ => Need (any 0)
  | Tail _ => Rest
  end.
Definition f_wf (f : field) : bool := match f_type f with Some t => ft_wf t | None => true end.

(* what is read, field by field *)
Fixpoint dec_fields (en : env) (fs : list field) (bs : bytes) : list (string * val) :=
  match fs with
  | [] => []
  | f :: r =>
      match f with
      | Tail n => (n, VBytes bs) :: dec_fields en r []
      | Gone n => (n, VNone) :: dec_fields en r bs
      | Req n t | Opt n t =>
          match (if (ft_size t <=? length bs)%nat then ft_dec en t (firstn (ft_size t) bs) else None) with
          | Some v => (n, v) :: dec_fields en r (skipn (ft_size t) bs)
          | None => (n, VNone) :: dec_fields en r bs
          end
      end
  end.

(* [c] does not write values that do not fit *)
Definition rejects (P : ctx -> Prop) (c : con) (t : ftype) : Prop :=
  forall cx v, P cx -> misfit t v -> exists x, cbuild c cx v = Err x /\ x <> StopFieldError.
Section Rejects.
  Variable P : ctx -> Prop.
  Lemma number_as_int v z : number v z <-> as_int v = Some z.
  Proof.
    unfold number. split.
    - intros [->|[->|(b & -> & ->)]]; reflexivity.
    - destruct v; cbn [as_int]; try discriminate; intros [= <-]; eauto.
  Qed.
  Lemma no_number v : (forall z, ~ number v z) -> as_int v = None.
  Proof. intros H. destruct (as_int v) as [z|] eqn:E; [|reflexivity]. exfalso. apply (H z). now apply number_as_int. Qed.
  Lemma rj_uint n : rejects P (c_uint n) (TU n).
  Proof.
    intros cx v _ M. cbn [misfit] in M. cbn [c_uint cbuild]. destruct (as_int v) as [z|] eqn:E; [|eexists; split; [reflexivity|discriminate]].
    specialize (M z (proj2 (number_as_int v z) E)).
    replace ((0 <=? z) && (z <? 256 ^ Z.of_nat n)) with false by lia. eexists; split; [reflexivity|discriminate].
  Qed.
  Lemma rj_sint n : rejects P (c_sint n) (TS n).
  Proof.
    intros cx v _ M. cbn [misfit] in M. cbn [c_sint cbuild]. destruct (as_int v) as [z|] eqn:E; [|eexists; split; [reflexivity|discriminate]].
    specialize (M z (proj2 (number_as_int v z) E)).
    replace ((- 256 ^ Z.of_nat n <=? 2 * z) && (2 * z <? 256 ^ Z.of_nat n)) with false by lia. eexists; split; [reflexivity|discriminate].
  Qed.
  Lemma rj_bytes n : rejects P (Bytes n) (TRaw n).
  Proof.
    intros cx v _ [M1 M2]. apply no_number in M1. cbn [Bytes cbuild]. rewrite M1.
    destruct v; try (eexists; split; [reflexivity|discriminate]).
    specialize (M2 _ eq_refl). apply Nat.eqb_neq in M2. rewrite M2. eexists; split; [reflexivity|discriminate].
  Qed.
  Lemma rj_f32 : rejects P Float32l TF32.
  Proof.
    intros cx v _ [M1 M2]. apply no_number in M1. cbn [Float32l cbuild]. unfold as_float. rewrite M1.
    destruct v; try (eexists; split; [reflexivity|discriminate]).
    rewrite (M2 _ eq_refl). eexists; split; [reflexivity|discriminate].
  Qed.
  Lemma rj_enum n dec c : rejects P c (TU n) -> rejects P (Adapter dec (fun _ v => match v with VEnum z => Ok (VInt z) | _ => Err AttributeError end) c) (TEnum n).
  Proof.
    intros R cx v Hcx M. cbn [Adapter cbuild]. destruct v; try (eexists; split; [reflexivity|discriminate]). cbn [bind].
    apply R; [exact Hcx|]. intros z0 N. apply number_as_int in N. injection N as <-. now apply M.
  Qed.
  Lemma rj_enums n dec c : rejects P c (TS n) -> rejects P (Adapter dec (fun _ v => match v with VEnum z => Ok (VInt z) | _ => Err AttributeError end) c) (TEnumS n).
  Proof.
    intros R cx v Hcx M. cbn [Adapter cbuild]. destruct v; try (eexists; split; [reflexivity|discriminate]). cbn [bind].
    apply R; [exact Hcx|]. intros z0 N. apply number_as_int in N. injection N as <-. now apply M.
  Qed.
  Lemma rj_flags n dec c : rejects P c (TU n) -> rejects P (Adapter dec (fun _ v => match v with VEnum z => Ok (VInt z) | _ => Err AttributeError end) c) (TFlags n).
  Proof. intros R. exact (rj_enum n dec c R). Qed.
  Lemma rj_flagss n m dec c : rejects P c (TS n) -> rejects P (Adapter dec (fun _ v => match v with VEnum z => Ok (VInt z) | _ => Err AttributeError end) c) (TFlagsS n m).
  Proof. intros R. exact (rj_enums n dec c R). Qed.
  Lemma rj_none c t : match t with TU _ | TS _ | TF32 | TRaw _ | TEnum _ | TFlags _ | TEnumS _ | TFlagsS _ _ => False | _ => True end ->
    rejects P c t.
  Proof. intros H cx v _ M. destruct t; contradiction. Qed.
  Lemma rj_if cond c t : (forall cx, P cx -> cond cx = true) -> rejects P c t -> rejects P (If_ cond c) t.
  Proof. intros HC R cx v Hcx M. cbn [If_ cbuild]. rewrite HC by exact Hcx. now apply R. Qed.
End Rejects.

(* [c] writes values the way [stored_as] says *)
Definition writes (P : ctx -> Prop) (c : con) (t : ftype) : Prop :=
  forall cx v b, P cx -> stored_as t v b -> cbuild c cx v = Ok b.
Section Writes.
  Variable P : ctx -> Prop.
  Lemma wr_uint n : writes P (c_uint n) (TU n).
  Proof.
    intros cx v b _ (z & N & R & ->). apply number_as_int in N. cbn [c_uint cbuild]. rewrite N.
    replace ((0 <=? z) && (z <? 256 ^ Z.of_nat n)) with true by lia. now rewrite le_spec.
  Qed.
  Lemma wr_sint n : writes P (c_sint n) (TS n).
  Proof.
    intros cx v b _ (z & N & R & ->). apply number_as_int in N. cbn [c_sint cbuild]. rewrite N.
    replace ((- 256 ^ Z.of_nat n <=? 2 * z) && (2 * z <? 256 ^ Z.of_nat n)) with true by lia. now rewrite le_spec.
  Qed.
  Lemma wr_bytes n : writes P (Bytes n) (TRaw n).
  Proof. intros cx v b _ [-> L]. cbn [Bytes cbuild as_int]. apply Nat.eqb_eq in L. now rewrite L. Qed.
  Lemma wr_f32 : writes P Float32l TF32.
  Proof.
    intros cx v b _ (x & w & V & E & ->). assert (A : as_float v = Some x).
    { destruct V as [->|(z & N & Z)]; [reflexivity|]. apply number_as_int in N. unfold as_float. rewrite N. destruct v; try exact Z. discriminate N. }
    cbn [Float32l cbuild]. rewrite A, E. now rewrite le_spec.
  Qed.
  Lemma wr_flag : writes P Flag TFlag.
  Proof. intros cx v b _ ->. reflexivity. Qed.
  Lemma wr_bool4 : writes P FourByteBool TBool4.
  Proof.
    intros cx v b _ (z & N & R & ->). apply number_as_int in N. cbn [FourByteBool Adapter cbuild].
    assert (E : py_int_of v = Ok z) by (destruct v; cbn [as_int] in N; try discriminate N; cbn [py_int_of as_int]; congruence).
    rewrite E. cbn [bind c_uint Int32ul cbuild as_int]. change (256 ^ Z.of_nat 4) with (2 ^ 32).
    replace ((0 <=? z) && (z <? 2 ^ 32)) with true by lia. now rewrite le_spec.
  Qed.
  Lemma wr_enum n dec c : writes P c (TU n) -> writes P (Adapter dec (fun _ v => match v with VEnum z => Ok (VInt z) | _ => Err AttributeError end) c) (TEnum n).
  Proof.
    intros W cx v b Hcx (z & -> & R & E). cbn [Adapter cbuild bind]. apply W; [exact Hcx|]. exists z. split; [now left|]. tauto.
  Qed.
  Lemma wr_enums n dec c : writes P c (TS n) -> writes P (Adapter dec (fun _ v => match v with VEnum z => Ok (VInt z) | _ => Err AttributeError end) c) (TEnumS n).
  Proof.
    intros W cx v b Hcx (z & -> & R & E). cbn [Adapter cbuild bind]. apply W; [exact Hcx|]. exists z. split; [now left|]. tauto.
  Qed.
  Lemma wr_flags n dec c : writes P c (TU n) -> writes P (Adapter dec (fun _ v => match v with VEnum z => Ok (VInt z) | _ => Err AttributeError end) c) (TFlags n).
  Proof. intros W. exact (wr_enum n dec c W). Qed.
  Lemma wr_flagss n m dec c : writes P c (TS n) -> writes P (Adapter dec (fun _ v => match v with VEnum z => Ok (VInt z) | _ => Err AttributeError end) c) (TFlagsS n m).
  Proof. intros W. exact (wr_enums n dec c W). Qed.
  Lemma wr_musical : writes P (LinearMusical Int32ul) TMusical.
  Proof.
    intros cx v b _ (a & e & t & -> & T & R & ->). cbn [LinearMusical Adapter cbuild as_int]. unfold musical_enc, f_0_2.
    pose proof (ticks_fifth t T) as F. destruct (f_of_int t); [|discriminate]. rewrite F. cbn [bind c_uint Int32ul cbuild as_int].
    change (256 ^ Z.of_nat 4) with (2 ^ 32). set (q := a * 768 + e * 48 + Z.quot t 5) in *.
    replace ((0 <=? q) && (q <? 2 ^ 32)) with true by lia. now rewrite le_spec.
  Qed.
  Lemma wr_height : writes P (HeightAdapter Float32l) THeight.
  Proof.
    intros cx v b _ (n & w & -> & T & E & ->). cbn [HeightAdapter Adapter Float32l cbuild]. unfold height_enc.
    change (str "%") with [37]. rewrite removelast_app1, py_int_str.
    assert (I : f_is_inf (int_div n 100) = false).
    { unfold int_div. destruct (Z.eqb_spec n 0) as [->|N]; [reflexivity|].
      destruct (f_round_spec (n <? 0) (Z.abs n) 100 ltac:(lia) ltac:(lia)) as (t & q & _ & _ & _ & _ & _ & I & _); [|exact I].
      change (2 ^ 1023) with (2 ^ 53 * 2 ^ 970). pose proof (pow_pos 970). lia. }
    rewrite I. cbn [bind as_float]. rewrite E. now rewrite le_spec.
  Qed.
  Lemma wr_none c t : match t with TNames _ _ | TPair _ | TMult | TLevel | TF64 => True | _ => False end -> writes P c t.
  Proof. intros H cx v b _ W. destruct t; contradiction. Qed.
  Lemma wr_if cond c t : (forall cx, P cx -> cond cx = true) -> writes P c t -> writes P (If_ cond c) t.
  Proof. intros HC W cx v b Hcx M. cbn [If_ cbuild]. rewrite HC by exact Hcx. now apply W. Qed.
End Writes.

Definition fld_ok (P : ctx -> Prop) (en : env) (nc : string * con) (f : field) : Prop :=
  fst nc = f_name f /\
  match f with
  | Req _ t => c_fixed (ft_cell en t) = true /\ cell_rt P (snd nc) (ft_cell en t) /\ reads_as P en (snd nc) t /\ rejects P (snd nc) t /\ writes P (snd nc) t
  | Opt _ t => exists c0, snd nc = Optional c0 /\ cell_rt P c0 (ft_cell en t) /\ reads_as P en c0 t /\ (rejects P c0 t /\ writes P c0 t) /\
               match t with TFlag => c0 = Flag | _ => none_fails c0 end
  | Gone _ => (forall cx bs, P cx -> cparse (snd nc) cx bs = Ok (VNone, bs)) /\
              (forall cx v, P cx -> cbuild (snd nc) cx v = Ok []) /\ cnone (snd nc) = true
  | Tail _ => snd nc = GreedyBytes \/ snd nc = Optional GreedyBytes
  end.

Lemma fits_dec en t bs : ft_wf t = true ->
  fits (ft_cell en t) bs = match (if (ft_size t <=? length bs)%nat then ft_dec en t (firstn (ft_size t) bs) else None) with
                           | Some _ => true | None => false end.
Proof.
  intros W. unfold fits. rewrite (ft_size_cell en t W).
  destruct (Nat.leb_spec (ft_size t) (length bs)); [|reflexivity]. cbn [andb].
  apply ft_reads. now apply firstn_length_le.
Qed.

Lemma dset_new d n v : ~ In n (map fst d) -> dset d n v = d ++ [(n, v)].
Proof.
  induction d as [|[m w] d IH]; intros H; [reflexivity|]. cbn [dset app].
  destruct (String.eqb_spec m n) as [->|N]; [exfalso; apply H; left; reflexivity|].
  rewrite IH; [reflexivity|]. intros X. apply H. right. exact X.
Qed.

Section Tables.
  Variables (P : ctx -> Prop) (en : env).
  Hypothesis Pf : forall cx d, P cx -> P (cx_with_fields cx d).

  Lemma struct_dec : forall fs tb, Forall2 (fld_ok P en) fs tb -> forallb f_wf tb = true -> wf_items (map (f_item en) tb) = true ->
    NoDup (map fst fs) -> ~ In ""%string (map fst fs) ->
    forall cx acc bs rest, P cx -> is_bytes bs -> (forall n, In n (map fst acc) -> ~ In n (map fst fs)) ->
    leftover (map (f_item en) tb) bs = Some rest ->
    struct_parse fs cx acc bs = Ok (acc ++ dec_fields en tb bs, rest).
  Proof.
    induction 1 as [|[n c] f fs tb [Hn Hf] HF IH]; intros W WI ND NE cx acc bs rest Hcx Hb HA HL.
    - cbn in HL |- *. injection HL as <-. now rewrite app_nil_r.
    - cbn [forallb] in W. apply andb_true_iff in W. destruct W as [W0 W].
      cbn [map fst] in ND, NE. inversion ND as [|? ? Hn1 ND']; subst.
      cbn [fst snd] in *. subst n. set (n := f_name f) in *.
      assert (Hn0 : n <> ""%string) by (intros E; apply NE; left; exact E).
      assert (NE' : ~ In ""%string (map fst fs)) by (intros X; apply NE; right; exact X).
      assert (PUT : forall v, put acc n v = acc ++ [(n, v)]).
      { intros v. unfold put. destruct (String.eqb_spec n ""); [congruence|]. apply dset_new.
        intros X. apply (HA n X). left. reflexivity. }
      assert (HA' : forall v m, In m (map fst (acc ++ [(n, v)])) -> ~ In m (map fst fs)).
      { intros v m I. rewrite map_app, in_app_iff in I. destruct I as [I|[<-|[]]]; [|exact Hn1].
        intros X. apply (HA m I). right. exact X. }
      assert (WI' : wf_items (map (f_item en) tb) = true).
      { cbn [map wf_items] in WI. destruct (f_item en f); try exact WI.
        - apply andb_true_iff in WI. apply WI.
        - now destruct (map (f_item en) tb). }
      assert (K : forall v bs', is_bytes bs' -> leftover (map (f_item en) tb) bs' = Some rest ->
         struct_parse fs cx (put acc n v) bs' = Ok (acc ++ (n, v) :: dec_fields en tb bs', rest)).
      { intros v bs' B' L'. rewrite PUT, (IH W WI' ND' NE' cx _ bs' rest Hcx B' (HA' v) L'), <- app_assoc. reflexivity. }
      cbn [struct_parse dec_fields map] in *.
      destruct f as [m t|m t|m|m]; cbn [f_name f_item f_wf f_type leftover] in *; subst n.
      + destruct Hf as (FX & HC & HR & _). rewrite (fits_dec en t bs W0), (ft_size_cell en t W0) in HL.
        destruct (Nat.leb_spec (ft_size t) (length bs)) as [Hl|Hl]; [|discriminate].
        destruct (ft_dec en t (firstn (ft_size t) bs)) as [v|] eqn:D; [|discriminate].
        rewrite <- (firstn_skipn (ft_size t) bs) at 1.
        rewrite (HR _ _ _ v (Pf _ _ Hcx) (is_bytes_firstn _ _ Hb) (firstn_length_le _ Hl) D).
        apply K; [now apply is_bytes_skipn|exact HL].
      + destruct Hf as (c0 & -> & HC & HR & _). cbn [Optional cparse].
        specialize (HC (cx_with_fields cx acc) bs (Pf _ _ Hcx) Hb).
        rewrite (fits_dec en t bs W0), (ft_size_cell en t W0) in HC.
        assert (HL' : match (if (ft_size t <=? length bs)%nat then ft_dec en t (firstn (ft_size t) bs) else None) with
                      | Some _ => leftover (map (f_item en) tb) (skipn (ft_size t) bs) = Some rest
                      | None => leftover (map (f_item en) tb) bs = Some rest end).
        { assert (HL1 : leftover (f_item en (Opt m t) :: map (f_item en) tb) bs = Some rest) by exact HL.
          destruct t; cbn [f_item leftover] in HL1;
          try (rewrite (fits_dec en _ bs W0), (ft_size_cell en _ W0) in HL1;
               match type of HL1 with context [match ?x with Some _ => true | None => false end] => destruct x end; exact HL1).
          cbn [ft_size ft_dec]. destruct bs; exact HL1. }
        destruct (Nat.leb_spec (ft_size t) (length bs)) as [Hl|Hl].
        2:{ destruct HC as (e & -> & _). apply K; [exact Hb|exact HL']. }
        destruct (ft_dec en t (firstn (ft_size t) bs)) as [v|] eqn:D.
        2:{ destruct HC as (e & -> & _). apply K; [exact Hb|exact HL']. }
        rewrite <- (firstn_skipn (ft_size t) bs) at 1.
        rewrite (HR _ _ _ v (Pf _ _ Hcx) (is_bytes_firstn _ _ Hb) (firstn_length_le _ Hl) D).
        apply K; [now apply is_bytes_skipn|exact HL'].
      + rewrite (proj1 Hf) by (apply Pf; exact Hcx). apply K; [exact Hb|].
        unfold fits in HL. cbn [any c_size c_reads Nat.leb andb skipn] in HL. exact HL.
      + assert (E : cparse c (cx_with_fields cx acc) bs = Ok (VBytes bs, [])) by (destruct Hf as [-> | ->]; reflexivity).
        rewrite E. injection HL as <-. apply K; [constructor|].
        cbn [wf_items] in WI. destruct tb; [reflexivity|discriminate].
  Qed.
End Tables.

(* ---------------------------------------------------------------- every class *)

Ltac ra :=
  first
  [ apply ra_uint | apply ra_sint | apply ra_bytes | apply ra_f64 | apply ra_f32
  | apply ra_flag | apply ra_bool4 | apply ra_stdenum | apply ra_stdenum_s; lia
  | apply ra_stdflag | apply (ra_list2tuple _ _ 4) | apply ra_enum; reflexivity | apply ra_musical
  | apply ra_envflags | apply ra_log2 | apply ra_lognormal | apply ra_height ].

Lemma ra_if (P : ctx -> Prop) en cond c t : (forall cx, P cx -> cond cx = true) -> reads_as P en c t -> reads_as P en (If_ cond c) t.
Proof. intros HC HR cx b r v Hcx B L D. cbn [If_ cparse]. rewrite HC by exact Hcx. now apply HR. Qed.
Lemma gone_if (P : ctx -> Prop) cond c : (forall cx, P cx -> cond cx = false) ->
  (forall cx bs, P cx -> cparse (If_ cond c) cx bs = Ok (VNone, bs)) /\
  (forall cx v, P cx -> cbuild (If_ cond c) cx v = Ok []) /\ cnone (If_ cond c) = true.
Proof. intros HC. repeat split; intros cx x Hcx; cbn [If_ cparse cbuild]; now rewrite HC. Qed.

Ltac rj :=
  first
  [ apply rj_uint | apply rj_sint | apply rj_bytes | apply rj_f32
  | apply rj_enum; apply rj_uint | apply rj_enums; apply rj_sint | apply rj_flags; apply rj_uint | apply rj_flagss; apply rj_sint
  | apply rj_none; exact I ].
Ltac wr :=
  first
  [ apply wr_uint | apply wr_sint | apply wr_bytes | apply wr_f32 | apply wr_flag | apply wr_bool4
  | apply wr_enum; apply wr_uint | apply wr_enums; apply wr_sint | apply wr_flags; apply wr_uint | apply wr_flagss; apply wr_sint
  | apply wr_musical | apply wr_height | apply wr_none; exact I ].
Ltac fld :=
  split; [reflexivity|]; cbn [snd f_name];
  match goal with
  | |- (forall cx bs, _) /\ _ => apply gone_if; assumption
  | |- _ /\ _ => split; [reflexivity|split; [first [cell | apply cell_if_true; [assumption|cell]]|split; [first [ra | eapply ra_if; [eassumption|ra]]|split; [first [rj | eapply rj_if; [eassumption|rj]]|first [wr | eapply wr_if; [eassumption|wr]]]]]]
  | |- exists c0, _ => eexists; split; [reflexivity|split; [cell|split; [ra|split; [split; [rj|wr]|first [reflexivity|nf]]]]]
  | |- _ \/ _ => first [left; reflexivity | right; reflexivity]
  end.
Ltac flds := repeat first [apply Forall2_nil | apply Forall2_cons; [fld|]].

Lemma layout_ok en L w k tb : layout L k = Some tb ->
  exists fs, kcon k = Struct fs /\ Forall2 (fld_ok (cxp en L w) en) fs tb /\ names_ok fs = true /\
    forallb f_wf tb = true /\ wf_items (map (f_item en) tb) = true /\
    flat_items en L k = Some (map (f_item en) tb).
Proof.
  destruct k; intros H; try discriminate H; apply Some_inj in H; subst tb; cbn [kcon].
  all: match goal with |- context [marker (?l =? ?n)] =>
      pose proof (len_is_true en l w n); pose proof (len_is_false en l w n)
      | _ => idtac end.
  all: cbn [layout flat_items].
  all: repeat match goal with |- context [?l =? ?n] => destruct (l =? n) end.
  all: try (match goal with H : true = true -> _ |- _ => specialize (H eq_refl) end).
  all: try (match goal with H : false = false -> _ |- _ => specialize (H eq_refl) end).
  all: eexists; split; [reflexivity|].
  all: unfold marker, u32, i32, u32O, i32O, flagO, raw, rawO; cbn [map app].
  all: split; [flds|].
  all: repeat split.
Qed.

(* ---------------------------------------------------------------- bytes *)

Lemma offset_S f fs i : offset (f :: fs) (S i) = (f_size f + offset fs i)%nat.
Proof. reflexivity. Qed.
Lemma offset_0 fs : offset fs 0 = O.
Proof. reflexivity. Qed.
Lemma slice_skipn b a o n : slice (skipn a b) o n = slice b (a + o) n.
Proof. unfold slice. rewrite skipn_skipn. do 2 f_equal. lia. Qed.

Lemma f_size_type f t : f_type f = Some t -> f_size f = ft_size t.
Proof. intros H. unfold f_size. now rewrite H. Qed.
Lemma f_size_none f : f_type f = None -> f_size f = O.
Proof. intros H. unfold f_size. now rewrite H. Qed.

Lemma cut_S f fs b i : cut_at (f :: fs) b (S i) -> (f_size f <= length b)%nat /\ cut_at fs (skipn (f_size f) b) i.
Proof.
  intros (A & B & C). rewrite offset_S in B. split; [lia|]. cbn [length] in A. split; [lia|].
  rewrite skipn_length. split; [lia|]. intros m g t Hm N T. specialize (C (S m) g t ltac:(lia) N T).
  rewrite offset_S in C. lia.
Qed.
Lemma cut_0 f fs b : cut_at (f :: fs) b 0 -> (f_size f = O \/ (length b < f_size f)%nat) /\ cut_at fs b 0.
Proof.
  intros (A & B & C). split.
  - destruct (f_type f) as [t|] eqn:T; [right|left; now apply f_size_none].
    specialize (C 0%nat f t ltac:(lia) eq_refl T). rewrite (f_size_type _ _ T). exact C.
  - split; [lia|]. split; [unfold offset; cbn; lia|]. intros m g t Hm N T.
    exact (C (S m) g t ltac:(lia) N T).
Qed.
Lemma readable_S en f fs b i : readable en (f :: fs) b (S i) ->
  (forall t, f_type f = Some t -> ft_dec en t (firstn (ft_size t) b) <> None) /\ readable en fs (skipn (f_size f) b) i.
Proof.
  intros R. split.
  - intros t T. exact (R 0%nat f t ltac:(lia) eq_refl T).
  - intros m g t Hm N T. specialize (R (S m) g t ltac:(lia) N T). rewrite offset_S in R. now rewrite slice_skipn.
Qed.
Lemma kept_S en f fs b i : kept en (f :: fs) b (S i) ->
  (forall t, f_type f = Some t -> c_ok (ft_cell en t) (firstn (ft_size t) b) = true) /\ kept en fs (skipn (f_size f) b) i.
Proof.
  intros R. split.
  - intros t T. exact (R 0%nat f t ltac:(lia) eq_refl T).
  - intros m g t Hm N T. specialize (R (S m) g t ltac:(lia) N T). rewrite offset_S in R. now rewrite slice_skipn.
Qed.


Definition required (fs : list field) (i : nat) : Prop :=
  forall m n t, nth_error fs m = Some (Req n t) -> (m < i)%nat.
Lemma required_S f fs i : required (f :: fs) (S i) -> required fs i.
Proof. intros R m n t H. specialize (R (S m) n t H). lia. Qed.
Lemma required_0 f fs : required (f :: fs) 0 -> (forall n t, f <> Req n t) /\ required fs 0.
Proof.
  intros R. split.
  - intros n t ->. specialize (R 0%nat n t eq_refl). lia.
  - intros m n t H. specialize (R (S m) n t H). lia.
Qed.

Section Cut.
  Variable en : env.

  Lemma wf_tail f fs : wf_items (map (f_item en) (f :: fs)) = true ->
    wf_items (map (f_item en) fs) = true /\ (is_tail f = true -> fs = []).
  Proof.
    cbn [map wf_items]. intros H. destruct f as [n t|n t|n|n]; cbn [f_item is_tail] in *; try (split; [exact H|discriminate]).
    - destruct t; cbn [f_item wf_items] in *; try (apply andb_true_iff in H; destruct H as [_ H]); (split; [exact H|discriminate]).
    - destruct fs; [split; reflexivity|discriminate].
  Qed.

  Lemma fits_cut t b : ft_wf t = true -> (length b < ft_size t)%nat -> fits (ft_cell en t) b = false.
  Proof.
    intros W L. rewrite (fits_dec en t b W). replace (ft_size t <=? length b)%nat with false; [reflexivity|].
    symmetry. now apply Nat.leb_gt.
  Qed.

  Lemma leftover_0 : forall fs b, wf_items (map (f_item en) fs) = true -> forallb f_wf fs = true ->
    cut_at fs b 0 -> (forall m n t, nth_error fs m <> Some (Req n t)) ->
    leftover (map (f_item en) fs) b = Some (if catch_all fs then [] else b).
  Proof.
    induction fs as [|f fs IH]; intros b WI W C R; [reflexivity|].
    destruct (wf_tail f fs WI) as [WI' TL]. cbn [forallb] in W. apply andb_true_iff in W as [W0 W].
    destruct (cut_0 f fs b C) as [Z C']. specialize (IH b WI' W C' (fun m => R (S m))).
    unfold catch_all. cbn [existsb map].
    destruct f as [n t|n t|n|n]; cbn [is_tail orb leftover f_item] in *.
    - exfalso. exact (R 0%nat n t eq_refl).
    - destruct Z as [Z|Z]; [pose proof (ft_size_pos _ W0); unfold f_size in Z; cbn [f_type] in Z; lia|].
      unfold f_size in Z. cbn [f_type] in Z. unfold f_wf in W0. cbn [f_type] in W0.
      destruct t; cbn [leftover]; try (rewrite (fits_cut _ b W0 Z); exact IH).
      cbn [ft_size] in Z. destruct b; [exact IH|cbn [length] in Z; lia].
    - unfold fits. cbn [any c_size c_reads Nat.leb andb skipn]. exact IH.
    - reflexivity.
  Qed.

  Lemma leftover_cut : forall fs b i, wf_items (map (f_item en) fs) = true -> forallb f_wf fs = true ->
    cut_at fs b i -> readable en fs b i -> required fs i ->
    leftover (map (f_item en) fs) b = Some (if catch_all fs then [] else skipn (offset fs i) b).
  Proof.
    induction fs as [|f fs IH]; intros b i WI W C R Q.
    - destruct C as (A & _). cbn [length] in A. replace i with O by lia. reflexivity.
    - destruct i as [|i].
      + rewrite offset_0. cbn [skipn]. apply leftover_0; try assumption. intros m n t X. specialize (Q m n t X). lia.
      + destruct (wf_tail f fs WI) as [WI' TL]. cbn [forallb] in W. apply andb_true_iff in W as [W0 W].
        destruct (cut_S f fs b i C) as [Z C']. destruct (readable_S en f fs b i R) as [R0 R'].
        pose proof (required_S _ _ _ Q) as Q'.
        specialize (IH _ i WI' W C' R' Q'). rewrite skipn_skipn in IH. rewrite offset_S, Nat.add_comm.
        unfold catch_all. cbn [existsb map]. unfold f_wf in W0.
        destruct f as [n t|n t|n|n]; cbn [is_tail orb leftover f_item f_type] in *;
          try specialize (R0 t eq_refl); try change (f_size (Req n t)) with (ft_size t) in *; try change (f_size (Opt n t)) with (ft_size t) in *.
        * rewrite (fits_dec en t b W0), (ft_size_cell en t W0). apply Nat.leb_le in Z. rewrite Z.
          destruct (ft_dec en t (firstn (ft_size t) b)); [exact IH|congruence].
        * assert (F : fits (ft_cell en t) b = true).
          { rewrite (fits_dec en t b W0). apply Nat.leb_le in Z. rewrite Z.
            destruct (ft_dec en t (firstn (ft_size t) b)); [reflexivity|congruence]. }
          pose proof (ft_size_cell en t W0) as SC.
          destruct t; cbn [leftover]; try (rewrite F, SC; exact IH). exact IH.
        * unfold fits. cbn [any c_size c_reads Nat.leb andb skipn]. exact IH.
        * reflexivity.
  Qed.

  Lemma leftover_required : forall fs b i r, wf_items (map (f_item en) fs) = true -> forallb f_wf fs = true ->
    cut_at fs b i -> readable en fs b i -> leftover (map (f_item en) fs) b = Some r -> required fs i.
  Proof.
    induction fs as [|f fs IH]; intros b i r WI W C R HL.
    - intros [|m] n t X; discriminate.
    - destruct (wf_tail f fs WI) as [WI' TL]. cbn [forallb] in W. apply andb_true_iff in W as [W0 W].
      destruct (is_tail f) eqn:ET.
      { rewrite (TL eq_refl). intros [|[|m]] n t X; try discriminate. injection X as ->. discriminate. }
      destruct i as [|i].
      + destruct (cut_0 f fs b C) as [Z C'].
        assert (X : (forall n t, f <> Req n t) /\ leftover (map (f_item en) fs) b = Some r).
        { unfold f_wf in W0. cbn [map leftover] in HL.
          destruct f as [n t|n t|n|n]; cbn [f_item leftover f_type] in *; try discriminate.
          - destruct Z as [Z|Z]; unfold f_size in Z; cbn [f_type] in Z; [pose proof (ft_size_pos _ W0); lia|].
            rewrite (fits_cut t b W0 Z) in HL. discriminate.
          - split; [discriminate|]. destruct Z as [Z|Z]; unfold f_size in Z; cbn [f_type] in Z; [pose proof (ft_size_pos _ W0); lia|].
            destruct t; cbn [leftover] in HL; try (rewrite (fits_cut _ b W0 Z) in HL; exact HL).
            cbn [ft_size] in Z. destruct b; [exact HL|cbn [length] in Z; lia].
          - split; [discriminate|]. unfold fits in HL. cbn [any c_size c_reads Nat.leb andb skipn] in HL. exact HL. }
        destruct X as [X1 X2]. specialize (IH b 0%nat r WI' W C' ltac:(intros m g t Hm; lia) X2).
        intros [|m] n t X; [injection X as ->; exfalso; now apply (X1 n t)|]. specialize (IH m n t X). lia.
      + destruct (cut_S f fs b i C) as [Z C']. destruct (readable_S en f fs b i R) as [R0 R'].
        assert (HL' : leftover (map (f_item en) fs) (skipn (f_size f) b) = Some r).
        { unfold f_wf in W0. cbn [map leftover] in HL.
          destruct f as [n t|n t|n|n]; cbn [f_item leftover f_type] in *; try discriminate ET;
            try specialize (R0 t eq_refl); try change (f_size (Req n t)) with (ft_size t) in *; try change (f_size (Opt n t)) with (ft_size t) in *.
          - destruct (fits (ft_cell en t) b); [|discriminate]. now rewrite (ft_size_cell en t W0) in HL.
          - assert (F : fits (ft_cell en t) b = true).
            { rewrite (fits_dec en t b W0). apply Nat.leb_le in Z. rewrite Z.
              destruct (ft_dec en t (firstn (ft_size t) b)); [reflexivity|congruence]. }
            pose proof (ft_size_cell en t W0) as SC.
            destruct t; cbn [leftover] in HL; try (rewrite F, SC in HL; exact HL). exact HL.
          - unfold fits in HL. cbn [any c_size c_reads Nat.leb andb skipn] in HL. exact HL. }
        specialize (IH _ i r WI' W C' R' HL'). intros [|m] n t X; [lia|]. specialize (IH m n t X). lia.
  Qed.

  Lemma dec_names : forall fs b, map fst (dec_fields en fs b) = map f_name fs.
  Proof.
    induction fs as [|f fs IH]; intros b; [reflexivity|]. cbn [dec_fields map].
    destruct f as [n t|n t|n|n]; cbn [f_name]; try (destruct (if (_ <=? _)%nat then _ else _));
    cbn [map fst]; now rewrite IH.
  Qed.

  Lemma dec_nth : forall fs b i, wf_items (map (f_item en) fs) = true -> forallb f_wf fs = true ->
    cut_at fs b i -> readable en fs b i ->
    forall m f, nth_error fs m = Some f ->
    exists v, nth_error (dec_fields en fs b) m = Some (f_name f, v) /\ field_value en fs b i m f = Some v.
  Proof.
    induction fs as [|g fs IH]; intros b i WI W C R m f N; [destruct m; discriminate|].
    destruct (wf_tail g fs WI) as [WI' TL]. cbn [forallb] in W. apply andb_true_iff in W as [W0 W].
    unfold f_wf in W0.
    destruct i as [|i].
    - destruct (cut_0 g fs b C) as [Z C'].
      assert (E : is_tail g = false -> dec_fields en (g :: fs) b = (f_name g, VNone) :: dec_fields en fs b).
      { intros ET. cbn [dec_fields]. destruct g as [n t|n t|n|n]; try discriminate; cbn [f_type f_name] in *; try reflexivity.
        all: destruct Z as [Z|Z]; unfold f_size in Z; cbn [f_type] in Z; [pose proof (ft_size_pos _ W0); lia|].
        all: apply Nat.leb_gt in Z; now rewrite Z. }
      destruct (is_tail g) eqn:ET.
      + rewrite (TL eq_refl) in N |- *. destruct g; try discriminate. destruct m as [|[|m]]; try discriminate.
        injection N as <-. eexists. split; [reflexivity|]. reflexivity.
      + rewrite (E eq_refl). destruct m as [|m].
        * injection N as <-. eexists. split; [reflexivity|]. destruct g; try discriminate; reflexivity.
        * destruct (IH b 0%nat WI' W C' ltac:(intros ? ? ? ?; lia) m f N) as (v & V1 & V2).
          exists v. split; [exact V1|]. destruct f; exact V2.
    - destruct (cut_S g fs b i C) as [Z C']. destruct (readable_S en g fs b i R) as [R0 R'].
      assert (E : is_tail g = false -> exists v, dec_fields en (g :: fs) b = (f_name g, v) :: dec_fields en fs (skipn (f_size g) b) /\
                 field_value en (g :: fs) b (S i) 0 g = Some v).
      { intros ET. destruct g as [n t|n t|n|n]; try discriminate; cbn [dec_fields f_type f_name field_value] in *;
          try specialize (R0 t eq_refl); try change (f_size (Req n t)) with (ft_size t) in *; try change (f_size (Opt n t)) with (ft_size t) in *.
        1,2: apply Nat.leb_le in Z; rewrite Z; rewrite offset_0; change (slice b 0 (ft_size t)) with (firstn (ft_size t) b);
             destruct (ft_dec en t (firstn (ft_size t) b)) as [v|]; [|congruence]; exists v; split; reflexivity.
        eexists. split; reflexivity. }
      destruct (is_tail g) eqn:ET.
      + rewrite (TL eq_refl) in N |- *. destruct g; try discriminate. destruct m as [|[|m]]; try discriminate.
        injection N as <-. eexists. split; [reflexivity|]. cbn [field_value]. rewrite offset_S.
        replace (f_size (Tail n) + offset [] i)%nat with O; [reflexivity|]. unfold offset. rewrite firstn_nil. reflexivity.
      + destruct (E eq_refl) as (v & V1 & V2). rewrite V1. destruct m as [|m].
        * injection N as <-. exists v. split; [reflexivity|exact V2].
        * destruct (IH _ i WI' W C' R' m f N) as (u & U1 & U2). exists u. split; [exact U1|].
          destruct f; cbn [field_value] in U2 |- *; rewrite ?offset_S; [| |exact U2|].
          1,2: change (S m <? S i)%nat with (m <? i)%nat; rewrite <- slice_skipn; exact U2.
          rewrite skipn_skipn, Nat.add_comm in U2. exact U2.
  Qed.
End Cut.
