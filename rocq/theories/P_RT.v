(* Combinator-level lemmas: how a construct relates to the byte layouts of
   S_Canon. *)
From Coq Require Import String ZArith List Bool Lia Arith.
From Verif Require Import M_Base M_Float M_Text M_Construct M_Structs M_Events.
From Verif Require Import S_Canon P_Base P_Codec P_Float.
Import ListNotations.
Open Scope Z_scope.

(* contexts of one event: everything but the fields, the index and the stream *)
Definition cxp (en : env) (L : Z) (w : bool) (cx : ctx) : Prop :=
  cx_py311 cx = en_py311 en /\ cx_log2 cx = en_log2 en /\ cx_exp2 cx = en_exp2 en /\
  cx_len cx = L /\ cx_new cx = w.

Lemma cxp_fields en L w cx d : cxp en L w cx -> cxp en L w (cx_with_fields cx d).
Proof. intros H; exact H. Qed.
Lemma cxp_index en L w cx i : cxp en L w cx -> cxp en L w (cx_with_index cx i).
Proof. intros H; exact H. Qed.
Lemma cxp_mk en L w s : cxp en L w (mkctx en L w s).
Proof. repeat split. Qed.
#[global] Hint Resolve cxp_fields cxp_index cxp_mk : core.

Definition fits (k : cell) (bs : bytes) : bool :=
  (c_size k <=? length bs)%nat && c_reads k (firstn (c_size k) bs).

Definition built (k : cell) (chunk : bytes) (r : res bytes) : Prop :=
  match r with
  | Ok out => length out = c_size k /\ (out = chunk <-> c_ok k chunk = true)
  | Err e => c_fixed k = false /\ c_ok k chunk = false
  end.

(* construct [c] reads and writes cell [k] *)
Definition cell_rt (P : ctx -> Prop) (c : con) (k : cell) : Prop :=
  forall cx bs, P cx -> is_bytes bs ->
  if fits k bs
  then exists v, cparse c cx bs = Ok (v, skipn (c_size k) bs) /\
         forall cx', P cx' -> built k (firstn (c_size k) bs) (cbuild c cx' v)
  else exists e, cparse c cx bs = Err e /\ (c_fixed k = true -> e <> StopFieldError).

Definition none_fails (c : con) : Prop := forall cx, exists e, cbuild c cx VNone = Err e.

Definition item_rt (P : ctx -> Prop) (c : con) (it : item) : Prop :=
  match it with
  | Need k => c_fixed k = true /\ cell_rt P c k
  | May k => exists c0, c = Optional c0 /\ cell_rt P c0 k /\ none_fails c0
  | MayFlag => c = Optional Flag
  | Rest => c = GreedyBytes \/ c = Optional GreedyBytes
  end.

(* number of flag fields *)
Fixpoint nflags (its : list item) : nat :=
  match its with
  | [] => O
  | MayFlag :: r => S (nflags r)
  | _ :: r => nflags r
  end.
(* a field that may shrink is longer than what absent flags can add after it *)
Fixpoint wf_items (its : list item) : bool :=
  match its with
  | [] => true
  | Need k :: r => wf_items r
  | May k :: r => (0 <? c_size k)%nat && (c_fixed k || (nflags r <? c_size k)%nat) && wf_items r
  | MayFlag :: r => wf_items r
  | Rest :: r => match r with [] => true | _ => false end
  end.

(* what is left unread; [None]: the payload is rejected *)
Fixpoint leftover (its : list item) (bs : bytes) : option bytes :=
  match its with
  | [] => Some bs
  | Need k :: r => if fits k bs then leftover r (skipn (c_size k) bs) else None
  | May k :: r => if fits k bs then leftover r (skipn (c_size k) bs) else leftover r bs
  | MayFlag :: r => leftover r (skipn 1 bs)
  | Rest :: _ => Some []
  end.

Definition slack (rest : bytes) (its : list item) : nat :=
  match rest with [] => nflags its | _ => O end.

(* ------------------------------------------------------------------ *)
Lemma fits_nil k : (0 <? c_size k)%nat = true -> fits k [] = false.
Proof. intros H. unfold fits. destruct (c_size k); [discriminate | reflexivity]. Qed.

Lemma struct_parse_frame fs cx acc bs d rest n :
  struct_parse fs cx acc bs = Ok (d, rest) -> ~ In n (map fst fs) -> dget d n = dget acc n.
Proof.
  revert acc bs. induction fs as [|[m c] fs IH]; cbn [struct_parse map fst]; intros acc bs H Hn.
  - injection H as <- _. reflexivity.
  - destruct (cparse c (cx_with_fields cx acc) bs) as [[v bs']|e].
    + rewrite (IH _ _ H) by (intros X; apply Hn; right; exact X).
      unfold put. destruct (String.eqb_spec m ""); [reflexivity|].
      apply dget_dset_other. intros ->. apply Hn. left; reflexivity.
    + destruct e; try discriminate. injection H as <- _. reflexivity.
Qed.

(* building from a dict only looks at the struct's own names, as far as the
   sub-constructs ignore the fields in the context *)
Definition struct_spec (P : ctx -> Prop) (fs : list (string * con)) (its : list item)
  (bs : bytes) (r : res (list (string * val) * bytes)) : Prop :=
  match leftover its bs with
  | None => exists e, r = Err e /\ e <> StopFieldError
  | Some rest =>
      exists d, r = Ok (d, rest) /\
      forall cx' d', P cx' -> (forall n, In n (map fst fs) -> dget d' n = dget d n) ->
      exists out, struct_build fs cx' d' = Ok out /\
        (length out + length rest <= length bs + slack rest its)%nat /\
        (out = bs <-> canon its bs = true) /\
        (bs = [] -> length out = nflags its)
  end.

Definition field_rt P (f : string * con) it := item_rt P (snd f) it.

Lemma leftover_len its : forall bs rest,
  leftover its bs = Some rest -> (length rest <= length bs)%nat.
Proof.
  induction its as [|it its IH]; intros bs rest; cbn [leftover].
  - intros [= <-]. reflexivity.
  - destruct it as [k|k| |].
    + destruct (fits k bs); [|discriminate]. intros H. apply IH in H.
      rewrite skipn_length in H. lia.
    + destruct (fits k bs); intros H; apply IH in H; rewrite ?skipn_length in H; lia.
    + intros H. apply IH in H. rewrite skipn_length in H. lia.
    + intros [= <-]. cbn. lia.
Qed.

Section Struct.
  Variable P : ctx -> Prop.
  Hypothesis Pf : forall cx d, P cx -> P (cx_with_fields cx d).

  Lemma struct_rt fs its :
    Forall2 (field_rt P) fs its -> NoDup (map fst fs) -> ~ In ""%string (map fst fs) ->
    wf_items its = true ->
    forall cx acc bs, P cx -> is_bytes bs ->
    struct_spec P fs its bs (struct_parse fs cx acc bs).
  Proof.
    intros HF. induction HF as [|[n c] it fs its Hit HF IH]; intros Hnd Hne Hwf cx acc bs Hcx Hbs.
    - unfold struct_spec. cbn [leftover struct_parse]. exists acc. split; [reflexivity|].
      intros cx' d' _ _. exists []. cbn [struct_build canon length nflags].
      split; [reflexivity|]. split; [cbn; lia|]. split.
      + destruct bs; split; congruence.
      + reflexivity.
    - cbn [map fst] in Hnd, Hne. inversion Hnd as [|? ? Hn1 Hnd']; subst.
      assert (Hn0 : n <> ""%string) by (intros ->; apply Hne; left; reflexivity).
      assert (Hne' : ~ In ""%string (map fst fs)) by (intros X; apply Hne; right; exact X).
      unfold field_rt in Hit. cbn [snd] in Hit.
      (* the value stored for n in the final dict *)
      assert (Hget : forall v d rest bs', struct_parse fs cx (put acc n v) bs' = Ok (d, rest) ->
                dget d n = Some v).
      { intros v d rest bs' H. rewrite (struct_parse_frame _ _ _ _ _ _ n H Hn1).
        unfold put. destruct (String.eqb_spec n ""); [congruence|]. apply dget_dset_same. }
      destruct it as [k|k| |]; cbn [item_rt] in Hit; cbn [wf_items] in Hwf.
      + (* Need *)
        destruct Hit as [Hfix Hc].
        specialize (Hc (cx_with_fields cx acc) bs (Pf _ _ Hcx) Hbs).
        unfold struct_spec. cbn [leftover struct_parse].
        destruct (fits k bs) eqn:Hfit.
        * destruct Hc as (v & Ep & Hb). rewrite Ep.
          assert (Hbs' := is_bytes_skipn (c_size k) bs Hbs).
          specialize (IH Hnd' Hne' Hwf cx (put acc n v) _ Hcx Hbs').
          unfold struct_spec in IH.
          unfold fits in Hfit. apply andb_true_iff in Hfit. destruct Hfit as [Hlen Hrd].
          apply Nat.leb_le in Hlen.
          destruct (leftover its (skipn (c_size k) bs)) as [rest|] eqn:El.
          2:{ destruct IH as (e & -> & He). exists e. split; [|exact He]. reflexivity. }
          destruct IH as (d & Ed & IH). exists d. split; [exact Ed|].
          intros cx' d' Hcx' Hd'.
          specialize (Hb (cx_with_fields cx' d') (Pf _ _ Hcx')). unfold built in Hb.
          cbn [struct_build]. rewrite (Hd' n) by (left; reflexivity). rewrite (Hget _ _ _ _ Ed).
          cbn [bind].
          destruct (cbuild c (cx_with_fields cx' d') v) as [o|e].
          2:{ exfalso. destruct Hb as (Hb & _). congruence. }
          destruct Hb as [Ho1 Ho2].
          destruct (IH cx' d' Hcx') as (out & Eo & Hle & Hiff & Hnil).
          { intros m Hm. apply Hd'. right; exact Hm. }
          rewrite Eo. cbn [bind]. exists (o ++ out). split; [reflexivity|].
          rewrite app_length. rewrite skipn_length in Hle.
          split; [|split].
          -- unfold slack in *. cbn [nflags]. destruct rest; cbn [length] in *; lia.
          -- cbn [canon].
             replace (c_size k <=? length bs)%nat with true by (symmetry; apply Nat.leb_le; exact Hlen).
             rewrite Hrd. cbn [andb].
             rewrite <- (firstn_skipn (c_size k) bs) at 1.
             rewrite andb_true_iff, <- Ho2, <- Hiff. split.
             ++ intros E. apply app_inj_len in E; [exact E|].
                rewrite firstn_length_le by exact Hlen. exact Ho1.
             ++ intros [-> ->]. reflexivity.
          -- intros ->. cbn [length] in *. cbn [nflags].
             assert (c_size k = 0)%nat by lia. rewrite Hnil; [lia|].
             destruct (c_size k); reflexivity.
        * destruct Hc as (e & Ep & He). rewrite Ep.
          specialize (He Hfix).
          destruct e; try (eexists; split; [reflexivity|discriminate]). congruence.
      + (* May *)
        destruct Hit as (c0 & -> & Hc & Hnf).
        apply andb_true_iff in Hwf. destruct Hwf as [Hwf Hwf2].
        apply andb_true_iff in Hwf. destruct Hwf as [Hpos Hshr].
        specialize (Hc (cx_with_fields cx acc) bs (Pf _ _ Hcx) Hbs).
        unfold struct_spec. cbn [leftover struct_parse Optional cparse].
        destruct (fits k bs) eqn:Hfit.
        * destruct Hc as (v & Ep & Hb). rewrite Ep.
          assert (Hbs' := is_bytes_skipn (c_size k) bs Hbs).
          specialize (IH Hnd' Hne' Hwf2 cx (put acc n v) _ Hcx Hbs').
          unfold struct_spec in IH.
          assert (Hnn : bs <> []) by (intros ->; rewrite fits_nil in Hfit by exact Hpos; discriminate).
          pose proof Hfit as Hfit'.
          unfold fits in Hfit'. apply andb_true_iff in Hfit'. destruct Hfit' as [Hlen Hrd].
          apply Nat.leb_le in Hlen. apply Nat.ltb_lt in Hpos.
          destruct (leftover its (skipn (c_size k) bs)) as [rest|] eqn:El.
          2:{ destruct IH as (e & -> & He). exists e. split; [|exact He]. reflexivity. }
          destruct IH as (d & Ed & IH). exists d. split; [exact Ed|].
          intros cx' d' Hcx' Hd'.
          specialize (Hb (cx_with_fields cx' d') (Pf _ _ Hcx')). unfold built in Hb.
          cbn [struct_build]. rewrite (Hd' n) by (left; reflexivity). rewrite (Hget _ _ _ _ Ed).
          cbn [bind Optional cbuild].
          destruct (IH cx' d' Hcx') as (out & Eo & Hle & Hiff & Hnil).
          { intros m Hm. apply Hd'. right; exact Hm. }
          rewrite Eo. rewrite skipn_length in Hle.
          assert (HC : canon (May k :: its) bs =
                       c_ok k (firstn (c_size k) bs) && canon its (skipn (c_size k) bs)).
          { cbn [canon]. unfold fits in Hfit. rewrite Hfit. reflexivity. }
          destruct (cbuild c0 (cx_with_fields cx' d') v) as [o|e]; cbn [bind].
          -- destruct Hb as [Ho1 Ho2]. exists (o ++ out). split; [reflexivity|].
             rewrite app_length.
             split; [|split].
             ++ unfold slack in *. cbn [nflags]. destruct rest; cbn [length] in *; lia.
             ++ rewrite HC.
                rewrite <- (firstn_skipn (c_size k) bs) at 1.
                rewrite andb_true_iff, <- Ho2, <- Hiff. split.
                ** intros E. apply app_inj_len in E; [exact E|].
                   rewrite firstn_length_le by exact Hlen. exact Ho1.
                ** intros [-> ->]. reflexivity.
             ++ congruence.
          -- destruct Hb as (Hf & Hok). rewrite Hf in Hshr. cbn [orb] in Hshr.
             apply Nat.ltb_lt in Hshr.
             exists out. split; [reflexivity|]. split; [|split].
             ++ unfold slack in *. cbn [nflags]. destruct rest; cbn [length] in *; lia.
             ++ rewrite HC, Hok. cbn [andb]. split; [|discriminate].
                intros ->. exfalso. unfold slack in Hle. destruct rest; cbn [length] in *; lia.
             ++ congruence.
        * destruct Hc as (e & Ep & He). rewrite Ep.
          specialize (IH Hnd' Hne' Hwf2 cx (put acc n VNone) _ Hcx Hbs).
          unfold struct_spec in IH.
          destruct (leftover its bs) as [rest|] eqn:El.
          2:{ destruct IH as (e' & -> & He'). exists e'. split; [|exact He']. reflexivity. }
          destruct IH as (d & Ed & IH). exists d. split; [exact Ed|].
          intros cx' d' Hcx' Hd'.
          cbn [struct_build]. rewrite (Hd' n) by (left; reflexivity). rewrite (Hget _ _ _ _ Ed).
          cbn [bind Optional cbuild].
          destruct (Hnf (cx_with_fields cx' d')) as (e' & ->).
          destruct (IH cx' d' Hcx') as (out & Eo & Hle & Hiff & Hnil).
          { intros m Hm. apply Hd'. right; exact Hm. }
          rewrite Eo. cbn [bind app]. exists out. split; [reflexivity|].
          split; [exact Hle|]. split; [|exact Hnil].
          rewrite Hiff. cbn [canon]. unfold fits in Hfit. rewrite Hfit. reflexivity.
      + (* MayFlag *)
        subst c. unfold struct_spec. cbn [leftover struct_parse Optional cparse Flag].
        destruct bs as [|b bs].
        * unfold take. cbn [length Nat.leb bind].
          change (skipn 1 (@nil Z)) with (@nil Z).
          specialize (IH Hnd' Hne' Hwf cx (put acc n VNone) [] Hcx Hbs).
          unfold struct_spec in IH.
          destruct (leftover its []) as [rest|] eqn:El.
          2:{ destruct IH as (e' & -> & He'). exists e'. split; [|exact He']. reflexivity. }
          destruct IH as (d & Ed & IH). exists d. split; [exact Ed|].
          intros cx' d' Hcx' Hd'.
          cbn [struct_build]. rewrite (Hd' n) by (left; reflexivity). rewrite (Hget _ _ _ _ Ed).
          cbn [bind Optional cbuild truthy].
          destruct (IH cx' d' Hcx') as (out & Eo & Hle & Hiff & Hnil).
          { intros m Hm. apply Hd'. right; exact Hm. }
          rewrite Eo. cbn [bind app]. exists (0 :: out). split; [reflexivity|].
          apply leftover_len in El. destruct rest; [|cbn in El; lia].
          cbn [slack nflags length] in *. rewrite Hnil by reflexivity.
          split; [lia|]. split; [cbn [canon]; split; discriminate|]. reflexivity.
        * unfold take. cbn [length Nat.leb bind].
          change (skipn 1 (b :: bs)) with bs. change (firstn 1 (b :: bs)) with [b].
          apply is_bytes_cons in Hbs. destruct Hbs as [Hb Hbs].
          cbn [le_dec].
          match goal with |- context [put acc n ?v] =>
            specialize (IH Hnd' Hne' Hwf cx (put acc n v) bs Hcx Hbs) end.
          unfold struct_spec in IH.
          destruct (leftover its bs) as [rest|] eqn:El.
          2:{ destruct IH as (e' & -> & He'). exists e'. split; [|exact He']. reflexivity. }
          destruct IH as (d & Ed & IH). exists d. split; [exact Ed|].
          intros cx' d' Hcx' Hd'.
          cbn [struct_build]. rewrite (Hd' n) by (left; reflexivity). rewrite (Hget _ _ _ _ Ed).
          cbn [bind Optional cbuild truthy].
          destruct (IH cx' d' Hcx') as (out & Eo & Hle & Hiff & Hnil).
          { intros m Hm. apply Hd'. right; exact Hm. }
          rewrite Eo. cbn [bind app]. eexists. split; [reflexivity|].
          cbn [length app truthy] in *. split; [|split].
          -- unfold slack in *. cbn [nflags]. destruct rest; cbn [length] in *; lia.
          -- cbn [canon]. rewrite andb_true_iff, <- Hiff. unfold is_byte in Hb.
             destruct (Z.eqb_spec (b + 256 * 0) 0) as [E0|E0]; cbn [negb].
             ++ split; [intros [= <- ->]; split; [reflexivity|reflexivity]|].
                intros [_ ->]. f_equal. lia.
             ++ split; [intros [= <- ->]; split; [reflexivity|reflexivity]|].
                intros [H ->]. f_equal. lia.
          -- discriminate.
      + (* Rest *)
        assert (its = []) as -> by (destruct its; [reflexivity|discriminate]).
        inversion HF; subst. cbn [leftover].
        unfold struct_spec. cbn [leftover struct_parse].
        assert (Ep : cparse c (cx_with_fields cx acc) bs = Ok (VBytes bs, [])).
        { destruct Hit as [-> | ->]; reflexivity. }
        rewrite Ep. eexists. split; [reflexivity|].
        intros cx' d' Hcx' Hd'. cbn [struct_build].
        rewrite (Hd' n) by (left; reflexivity).
        unfold put. destruct (String.eqb_spec n ""); [congruence|]. rewrite dget_dset_same.
        cbn [bind].
        assert (Eb : cbuild c (cx_with_fields cx' d') (VBytes bs) = Ok bs).
        { destruct Hit as [-> | ->]; reflexivity. }
        rewrite Eb. cbn [bind]. exists (bs ++ []). rewrite app_nil_r.
        split; [reflexivity|]. cbn [slack nflags length canon]. split; [lia|].
        split; [split; reflexivity|]. intros ->. reflexivity.
  Qed.

  (* a struct of mandatory cells is itself a cell *)
  Definition rec_cell (ks : list cell) : cell :=
    Cell (list_sum (map c_size ks))
         (fun b => match leftover (need ks) b with Some _ => true | None => false end)
         (canon (need ks)) true.

  Lemma fits_rec_cons k ks bs :
    fits (rec_cell (k :: ks)) bs = fits k bs && fits (rec_cell ks) (skipn (c_size k) bs).
  Proof.
    unfold fits at 1. cbn [rec_cell c_size c_reads map need]. 
    change (list_sum (c_size k :: map c_size ks)) with (c_size k + list_sum (map c_size ks))%nat.
    cbn [leftover]. set (n := c_size k). set (m := list_sum (map c_size ks)).
    unfold fits. cbn [rec_cell c_size c_reads need]. fold n m.
    rewrite skipn_length.
    destruct (n <=? length bs)%nat eqn:E1; cycle 1.
    { apply Nat.leb_gt in E1. replace (n + m <=? length bs)%nat with false; [reflexivity|].
      symmetry. apply Nat.leb_gt. lia. }
    apply Nat.leb_le in E1. cbn [andb].
    replace (m <=? length bs - n)%nat with (n + m <=? length bs)%nat
      by (destruct (Nat.leb_spec (n + m) (length bs)), (Nat.leb_spec m (length bs - n)); lia).
    destruct (n + m <=? length bs)%nat eqn:E2; cbn [andb]; [|rewrite andb_false_r; reflexivity].
    apply Nat.leb_le in E2.
    rewrite firstn_length_le by lia.
    replace (n <=? n + m)%nat with true by (symmetry; apply Nat.leb_le; lia). cbn [andb].
    rewrite firstn_firstn, Nat.min_l by lia.
    rewrite skipn_firstn_comm. replace (n + m - n)%nat with m by lia.
    destruct (c_reads k (firstn n bs)); reflexivity.
  Qed.

  Lemma need_rt fs ks :
    Forall2 (fun f k => c_fixed k = true /\ cell_rt P (snd f) k) fs ks ->
    NoDup (map fst fs) -> ~ In ""%string (map fst fs) ->
    forall cx acc bs, P cx -> is_bytes bs ->
    if fits (rec_cell ks) bs
    then exists d, struct_parse fs cx acc bs = Ok (d, skipn (c_size (rec_cell ks)) bs) /\
         forall cx' d', P cx' -> (forall n, In n (map fst fs) -> dget d' n = dget d n) ->
         built (rec_cell ks) (firstn (c_size (rec_cell ks)) bs) (struct_build fs cx' d')
    else exists e, struct_parse fs cx acc bs = Err e /\ e <> StopFieldError.
  Proof.
    intros HF. induction HF as [|[n c] k fs ks [Hfix Hc] HF IH]; intros Hnd Hne cx acc bs Hcx Hbs.
    - cbn [rec_cell c_size map list_sum fold_right]. unfold fits. cbn [rec_cell c_size c_reads need map].
      change (list_sum []) with O. cbn [Nat.leb leftover andb firstn].
      exists acc. split; [reflexivity|]. intros cx' d' _ _. unfold built.
      cbn [struct_build rec_cell c_ok c_size need map canon]. split; [reflexivity|]. split; reflexivity.
    - cbn [map fst] in Hnd, Hne. inversion Hnd as [|? ? Hn1 Hnd']; subst.
      assert (Hn0 : n <> ""%string) by (intros ->; apply Hne; left; reflexivity).
      assert (Hne' : ~ In ""%string (map fst fs)) by (intros X; apply Hne; right; exact X).
      cbn [snd] in Hc. specialize (Hc (cx_with_fields cx acc) bs (Pf _ _ Hcx) Hbs).
      rewrite fits_rec_cons. cbn [struct_parse].
      destruct (fits k bs) eqn:Hfit; cbn [andb].
      2:{ destruct Hc as (e & Ep & He). rewrite Ep. specialize (He Hfix).
          destruct e; try (eexists; split; [reflexivity|discriminate]). congruence. }
      destruct Hc as (v & Ep & Hb). rewrite Ep.
      assert (Hbs' := is_bytes_skipn (c_size k) bs Hbs).
      specialize (IH Hnd' Hne' cx (put acc n v) _ Hcx Hbs').
      destruct (fits (rec_cell ks) (skipn (c_size k) bs)) eqn:Hfit2; [|exact IH].
      destruct IH as (d & Ed & IH). exists d. 
      cbn [rec_cell c_size map] in *.
      change (list_sum (c_size k :: map c_size ks)) with (c_size k + list_sum (map c_size ks))%nat.
      set (m := list_sum (map c_size ks)) in *.
      split. { rewrite Ed. rewrite skipn_skipn. do 3 f_equal. lia. }
      intros cx' d' Hcx' Hd'.
      assert (Hget : dget d n = Some v).
      { rewrite (struct_parse_frame _ _ _ _ _ _ n Ed Hn1).
        unfold put. destruct (String.eqb_spec n ""); [congruence|]. apply dget_dset_same. }
      specialize (Hb (cx_with_fields cx' d') (Pf _ _ Hcx')). unfold built in Hb.
      cbn [struct_build]. rewrite (Hd' n) by (left; reflexivity). rewrite Hget. cbn [bind].
      destruct (cbuild c (cx_with_fields cx' d') v) as [o|e].
      2:{ exfalso. destruct Hb as (Hb & _). congruence. }
      destruct Hb as [Ho1 Ho2].
      specialize (IH cx' d' Hcx'). 
      assert (IHd : forall m, In m (map fst fs) -> dget d' m = dget d m)
        by (intros m' Hm; apply Hd'; right; exact Hm).
      specialize (IH IHd). unfold built in IH.
      destruct (struct_build fs cx' d') as [out|e]; [|destruct IH as (IH & _); discriminate].
      cbn [bind]. unfold built. cbn [c_size rec_cell c_ok need map] in *.
      fold m in IH |- *.
      change (list_sum (c_size k :: map c_size ks)) with (c_size k + m)%nat.
      destruct IH as [IH1 IH2].
      unfold fits in Hfit, Hfit2. apply andb_true_iff in Hfit. destruct Hfit as [Hlen Hrd].
      apply Nat.leb_le in Hlen. apply andb_true_iff in Hfit2. destruct Hfit2 as [Hlen2 _].
      apply Nat.leb_le in Hlen2. cbn [rec_cell c_size] in Hlen2. fold m in Hlen2.
      rewrite skipn_length in Hlen2.
      split; [rewrite app_length; lia|].
      cbn [canon]. rewrite firstn_length_le by lia.
      replace (c_size k <=? c_size k + m)%nat with true by (symmetry; apply Nat.leb_le; lia).
      cbn [andb].
      rewrite firstn_firstn, Nat.min_l by lia.
      rewrite Hrd. cbn [andb].
      rewrite skipn_firstn_comm. replace (c_size k + m - c_size k)%nat with m by lia.
      rewrite andb_true_iff. unfold need in IH2. rewrite <- Ho2, <- IH2.
      assert (E : firstn (c_size k + m) bs = firstn (c_size k) bs ++ firstn m (skipn (c_size k) bs)).
      { rewrite <- (firstn_skipn (c_size k) bs) at 1.
        rewrite firstn_app, firstn_firstn, Nat.min_r by lia.
        rewrite firstn_length_le by lia. f_equal. f_equal. lia. }
      rewrite E. split.
      + intros E'. apply app_inj_len in E'; [exact E'|]. rewrite firstn_length_le by exact Hlen. exact Ho1.
      + intros [-> ->]. reflexivity.
  Qed.

  Lemma struct_cell fs ks :
    Forall2 (fun f k => c_fixed k = true /\ cell_rt P (snd f) k) fs ks ->
    NoDup (map fst fs) -> ~ In ""%string (map fst fs) ->
    cell_rt P (Struct fs) (rec_cell ks).
  Proof.
    intros HF Hnd Hne cx bs Hcx Hbs.
    pose proof (need_rt fs ks HF Hnd Hne cx [] bs Hcx Hbs) as H.
    cbn [Struct cparse cbuild].
    destruct (fits (rec_cell ks) bs).
    - destruct H as (d & -> & H). cbn [bind]. eexists. split; [reflexivity|].
      intros cx' Hcx'. apply H; [exact Hcx'|reflexivity].
    - destruct H as (e & -> & He). cbn [bind]. eexists. split; [reflexivity|intros _; exact He].
  Qed.
End Struct.
