(* List events: GreedyRange over records of a fixed size. *)
From Coq Require Import String ZArith List Bool Lia Arith.
From Verif Require Import M_Base M_Float M_Text M_Construct M_Structs M_Events.
From Verif Require Import S_Canon P_Base P_Codec P_Float P_Text P_RT P_Cells P_Kinds.
Import ListNotations.
Open Scope Z_scope.

Section Greedy.
  Variable P : ctx -> Prop.
  Hypothesis Pi : forall cx i, P cx -> P (cx_with_index cx i).
  Variable c : con.
  Variable k : cell.
  Hypothesis Hc : cell_rt P c k.
  Hypothesis Hfix : c_fixed k = true.
  Hypothesis Hpos : (0 < c_size k)%nat.
  Hypothesis Hrd : forall b, length b = c_size k -> c_reads k b = true.

  Lemma greedy_rt fuel : forall cx i bs, P cx -> is_bytes bs -> (length bs < fuel)%nat ->
    exists vs rest, greedy_parse fuel c cx i bs = Ok (vs, rest) /\
      length vs = (length bs / c_size k)%nat /\
      (length rest < c_size k)%nat /\
      (exists used, bs = used ++ rest) /\
      forall cx' j, P cx' -> exists out, items_build c cx' j vs = Ok out /\
        (length out + length rest = length bs)%nat /\
        forall f2, (length bs <= f2)%nat ->
        (out = bs <-> records f2 (c_size k) (c_ok k) bs = true).
  Proof.
    induction fuel as [|fuel IH]; intros cx i bs Hcx Hbs Hl; [lia|].
    cbn [greedy_parse].
    pose proof (Hc (cx_with_index cx i) bs (Pi _ _ Hcx) Hbs) as H.
    destruct (Nat.leb_spec (c_size k) (length bs)) as [Hle|Hlt].
    - assert (Hfit : fits k bs = true).
      { unfold fits. rewrite Hrd by (apply firstn_length_le; exact Hle).
        rewrite andb_true_r. apply Nat.leb_le. exact Hle. }
      rewrite Hfit in H. destruct H as (v & -> & Hb).
      assert (Hbs' := is_bytes_skipn (c_size k) bs Hbs).
      assert (Hsl : length (skipn (c_size k) bs) = (length bs - c_size k)%nat) by apply skipn_length.
      destruct (IH cx (i + 1) (skipn (c_size k) bs) Hcx Hbs') as (vs & rest & E & Hn & Hr & (used & Hu) & Hbd); [lia|].
      rewrite E. cbn [bind]. exists (v :: vs), rest. split; [reflexivity|].
      split. { cbn [length]. rewrite Hn, Hsl.
               rewrite <- (Nat.sub_add (c_size k) (length bs) Hle) at 2.
               replace (length bs - c_size k + c_size k)%nat with ((length bs - c_size k) + 1 * c_size k)%nat by lia.
               rewrite Nat.div_add by lia. lia. }
      split; [exact Hr|]. split.
      { exists (firstn (c_size k) bs ++ used). rewrite <- app_assoc, <- Hu. symmetry. apply firstn_skipn. }
      intros cx' j Hcx'. cbn [items_build].
      specialize (Hb (cx_with_index cx' j) (Pi _ _ Hcx')). unfold built in Hb.
      destruct (cbuild c (cx_with_index cx' j) v) as [o|e]; [|destruct Hb; congruence].
      destruct Hb as [Ho1 Ho2]. cbn [bind].
      destruct (Hbd cx' (j + 1) Hcx') as (out & Eo & Hlo & Hiff).
      rewrite Eo. cbn [bind]. exists (o ++ out). split; [reflexivity|].
      split; [rewrite app_length; lia|].
      intros f2 Hf2. destruct f2 as [|f2]; [lia|]. cbn [records].
      destruct bs as [|b0 bs0] eqn:Ebs; [cbn [length] in *; lia|]. rewrite <- Ebs in *.
      replace (c_size k <=? length bs)%nat with true by (symmetry; apply Nat.leb_le; exact Hle).
      cbn [andb]. rewrite andb_true_iff, <- Ho2, <- (Hiff f2) by lia.
      rewrite <- (firstn_skipn (c_size k) bs) at 1. split.
      + intros E'. apply app_inj_len in E'; [exact E'|]. rewrite firstn_length_le by exact Hle. exact Ho1.
      + intros [-> ->]. reflexivity.
    - assert (Hfit : fits k bs = false).
      { unfold fits. replace (c_size k <=? length bs)%nat with false; [reflexivity|].
        symmetry. apply Nat.leb_gt. exact Hlt. }
      rewrite Hfit in H. destruct H as (e & -> & _).
      exists [], bs. split; [reflexivity|]. split; [rewrite Nat.div_small by exact Hlt; reflexivity|].
      split; [exact Hlt|]. split; [exists []; reflexivity|].
      intros cx' j Hcx'. exists []. split; [reflexivity|]. split; [reflexivity|].
      intros f2 Hf2. destruct bs as [|b0 bs0]; [destruct f2; cbn; split; reflexivity|].
      destruct f2 as [|f2]; cbn [records]; [split; discriminate|].
      replace (c_size k <=? length (b0 :: bs0))%nat with false by (symmetry; apply Nat.leb_gt; exact Hlt).
      cbn [andb]. split; discriminate.
  Qed.
End Greedy.

(* merging neighbouring uninterpreted fields *)
Lemma canon_any_merge a b r bs :
  canon (Need (any a) :: Need (any b) :: r) bs = canon (Need (any (a + b)) :: r) bs.
Proof.
  cbn [canon any c_size c_reads c_ok]. rewrite !andb_true_r.
  rewrite skipn_length, skipn_skipn.
  replace (b + a)%nat with (a + b)%nat by lia.
  destruct (Nat.leb_spec (a + b) (length bs)), (Nat.leb_spec a (length bs)),
    (Nat.leb_spec b (length bs - a)); try lia; cbn [andb]; reflexivity.
Qed.
Lemma canon_any_zero r bs : canon (Need (any 0) :: r) bs = canon r bs.
Proof. reflexivity. Qed.
Lemma canon_any_end n bs : canon [Need (any n)] bs = (length bs =? n)%nat.
Proof.
  cbn [canon any c_size c_reads c_ok]. rewrite !andb_true_r.
  destruct (skipn n bs) eqn:E; apply (f_equal (@length Z)) in E; rewrite skipn_length in E; cbn [length] in E.
  - rewrite andb_true_r. destruct (Nat.leb_spec n (length bs)), (Nat.eqb_spec (length bs) n); try lia; reflexivity.
  - rewrite andb_false_r. destruct (Nat.eqb_spec (length bs) n); [lia|reflexivity].
Qed.
Ltac merge := cbn [need map repeat]; repeat rewrite canon_any_merge; rewrite ?canon_any_end; cbn [Nat.add].

Lemma records_len f n bs : (0 < n)%nat -> (length bs <= f)%nat ->
  records f n (fun b => (length b =? n)%nat) bs = (zlen bs mod Z.of_nat n =? 0).
Proof.
  intros Hn. revert bs. induction f as [|f IH]; intros bs Hl.
  - destruct bs; [|cbn [length] in Hl; lia]. cbn [records]. rewrite zlen_nil, Z.mod_0_l by lia. reflexivity.
  - destruct bs as [|b bs]; [cbn [records]; rewrite zlen_nil, Z.mod_0_l by lia; reflexivity|].
    cbn [records]. set (l := b :: bs) in *.
    assert (1 <= length l)%nat by (subst l; cbn [length]; lia).
    destruct (Nat.leb_spec n (length l)) as [Hle|Hlt]; cbn [andb].
    + rewrite firstn_length_le by exact Hle. rewrite Nat.eqb_refl. cbn [andb].
      rewrite IH by (rewrite skipn_length; lia).
      unfold zlen. rewrite skipn_length, Nat2Z.inj_sub by exact Hle.
      replace (Z.of_nat (length l) - Z.of_nat n) with (Z.of_nat (length l) + (-1) * Z.of_nat n) by lia.
      rewrite Z.mod_add by lia. reflexivity.
    + unfold zlen. rewrite Z.mod_small by lia. symmetry. apply Z.eqb_neq. lia.
Qed.

Lemma records_ext f n ok ok' bs : (forall b, length b = n -> ok b = ok' b) ->
  records f n ok bs = records f n ok' bs.
Proof.
  intros H. revert bs. induction f as [|f IH]; intros bs; [reflexivity|].
  cbn [records]. destruct bs as [|b bs]; [reflexivity|].
  destruct (Nat.leb_spec n (length (b :: bs))) as [Hle|]; cbn [andb]; [|reflexivity].
  rewrite H by (apply firstn_length_le; exact Hle). rewrite IH. reflexivity.
Qed.

Lemma records_flag f bs : (length bs <= f)%nat ->
  records f 1 (c_ok c_flag) bs = forallb (fun x => x <? 2) bs.
Proof.
  revert bs. induction f as [|f IH]; intros bs Hl.
  - destruct bs; [reflexivity|cbn [length] in Hl; lia].
  - destruct bs as [|b bs]; [reflexivity|]. cbn [records forallb length Nat.leb andb].
    change (skipn 1 (b :: bs)) with bs. cbn [length] in Hl. rewrite IH by lia. f_equal.
    change (c_ok c_flag (firstn 1 (b :: bs))) with (b + 256 * 0 <? 2). f_equal. lia.
Qed.

(* item cells of the list classes; [w]: playlist items have 60 bytes *)
Definition item_cells (w : bool) (k : kind) : option (con * list cell) :=
  match k with
  | KPlaylist => Some (playlist_item,
      [any 4; any 2; any 2; any 4; any 2; any 2; any 2; any 2; any 4; c_f32; c_f32;
       if w then any 28 else any 0])
  | KMixerParams => Some (mixer_param, [any 4; any 1; any 1; any 2; any 4])
  | KController => Some (controller_item, [any 4; any 1; any 1; any 1; any 1; c_f32])
  | KNotes => Some (note_item, [any 4; any 2; any 2; any 4; any 2; any 2; any 1; any 1; any 1;
                                any 1; any 1; any 1; any 1; any 1])
  | KInsertRouting => Some (Flag, [c_flag])
  | _ => None
  end.

Ltac nfield := cbn [snd]; split; [reflexivity|cell].
Ltac nfields := repeat first [apply Forall2_nil | apply Forall2_cons; [nfield|]].

Lemma new_true en L w : w = true -> forall cx, cxp en L w cx -> cx_new cx = true.
Proof. intros -> cx (_ & _ & _ & _ & H). exact H. Qed.
Lemma new_false en L w : w = false -> forall cx, cxp en L w cx -> cx_new cx = false.
Proof. intros -> cx (_ & _ & _ & _ & H). exact H. Qed.

Lemma struct_cell' en L w fs ks :
  Forall2 (fun f k => c_fixed k = true /\ cell_rt (cxp en L w) (snd f) k) fs ks ->
  names_ok fs = true -> cell_rt (cxp en L w) (Struct fs) (rec_cell ks).
Proof.
  intros HF Hn. destruct (names_ok_spec _ Hn) as [Hnd Hne].
  apply struct_cell; auto.
Qed.

Lemma item_rt_list en L w k c ks : item_cells w k = Some (c, ks) ->
  exists cl, cell_rt (cxp en L w) c cl /\ c_fixed cl = true /\ (0 < c_size cl)%nat /\
    (forall b, length b = c_size cl -> c_reads cl b = true) /\
    c_size cl = list_sum (map c_size ks) /\
    (forall b, length b = c_size cl -> c_ok cl b = canon (need ks) b) /\
    kcon k = GreedyRange c.
Proof.
  assert (Rany : forall ks b, length b = c_size (rec_cell ks) ->
            (forall k', In k' ks -> forall b, c_reads k' b = true) -> c_reads (rec_cell ks) b = true).
  { clear. intros ks. induction ks as [|k ks IH]; intros b Hl Hr.
    - reflexivity.
    - cbn [rec_cell c_reads need map leftover] in *. unfold fits.
      change (c_size (rec_cell (k :: ks))) with (c_size k + c_size (rec_cell ks))%nat in Hl.
      rewrite (Hr k) by (left; reflexivity). rewrite andb_true_r.
      replace (c_size k <=? length b)%nat with true by (symmetry; apply Nat.leb_le; lia).
      specialize (IH (skipn (c_size k) b)). cbn [rec_cell c_reads need] in IH. apply IH.
      + rewrite skipn_length. cbn [rec_cell c_size] in *. lia.
      + intros k' Hk'. apply Hr. right. exact Hk'. }
  assert (Rany' : forall ks, Forall (fun k => forall b, c_reads k b = true) ks ->
            forall b, length b = c_size (rec_cell ks) -> c_reads (rec_cell ks) b = true).
  { intros ks0 HF b Hl. apply Rany; [exact Hl|].
    intros k' Hin. rewrite Forall_forall in HF. apply HF. exact Hin. }
  destruct k; intros H; try discriminate H; apply Some_inj in H; injection H as <- <-.
  - (* playlist *)
    pose proof (new_true en L w). pose proof (new_false en L w).
    exists (rec_cell [any 4; any 2; any 2; any 4; any 2; any 2; any 2; any 2; any 4; c_f32; c_f32;
       if w then any 28 else any 0]).
    split.
    { apply struct_cell'; [|vm_compute; reflexivity].
      destruct w; [specialize (H eq_refl)|specialize (H0 eq_refl)]; nfields. }
    split; [reflexivity|]. split; [destruct w; cbn; lia|].
    split; [apply Rany'; destruct w; repeat constructor|].
    split; [reflexivity|]. split; reflexivity.
  - exists c_flag. split; [apply cell_flag|]. split; [reflexivity|]. split; [cbn; lia|].
    split; [reflexivity|]. split; [reflexivity|]. split; [|reflexivity].
    intros b Hb. change (length b = 1%nat) in Hb. destruct b as [|x [|]]; try discriminate.
    cbn [need map canon c_size c_flag length Nat.leb c_reads firstn skipn andb].
    rewrite andb_true_r. reflexivity.
  - match goal with |- context [need ?ks] => exists (rec_cell ks) end. split; [apply struct_cell'; [nfields|vm_compute; reflexivity]|].
    split; [reflexivity|]. split; [cbn; lia|]. split; [apply Rany'; repeat constructor|].
    split; [reflexivity|]. split; reflexivity.
  - match goal with |- context [need ?ks] => exists (rec_cell ks) end. split; [apply struct_cell'; [nfields|vm_compute; reflexivity]|].
    split; [reflexivity|]. split; [cbn; lia|]. split; [apply Rany'; repeat constructor|].
    split; [reflexivity|]. split; reflexivity.
  - match goal with |- context [need ?ks] => exists (rec_cell ks) end. split; [apply struct_cell'; [nfields|vm_compute; reflexivity]|].
    split; [reflexivity|]. split; [cbn; lia|]. split; [apply Rany'; repeat constructor|].
    split; [reflexivity|]. split; reflexivity.
Qed.
