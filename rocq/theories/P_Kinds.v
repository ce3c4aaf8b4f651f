(* Every flat struct of PyFLP against its layout in S_Canon. *)
From Coq Require Import String ZArith List Bool Lia Arith.
From Verif Require Import M_Base M_Float M_Text M_Construct M_Structs M_Events.
From Verif Require Import S_Canon P_Base P_Codec P_Float P_Text P_RT P_Cells.
Import ListNotations.
Open Scope Z_scope.

Ltac cell :=
  first
  [ apply cell_uint | apply cell_sint; lia | apply cell_bytes | apply cell_f64 | apply cell_f32
  | apply cell_flag | apply cell_bool4 | apply cell_stdenum | apply cell_stdenum_s; lia
  | apply cell_stdflag | apply (cell_list2tuple _ 4) | apply cell_u16tuple | apply cell_color
  | apply cell_enum; vm_compute; reflexivity | apply cell_musical
  | apply cell_envflags; vm_compute; reflexivity | apply cell_log2 | apply cell_lognormal
  | apply cell_height
  | apply cell_if_false; assumption
  | apply cell_if_true; [assumption|cell] ].
Ltac nf :=
  first [ apply nf_uint | apply nf_sint | apply nf_bytes | apply nf_f32 | apply nf_f64
        | apply nf_adapter; intro; eexists; reflexivity ].
Ltac field :=
  unfold field_rt; cbn [snd];
  match goal with
  | |- item_rt _ _ (Need _) => split; [reflexivity|cell]
  | |- item_rt _ _ (May _) => eexists; split; [reflexivity|]; split; [cell|nf]
  | |- item_rt _ _ MayFlag => reflexivity
  | |- item_rt _ _ Rest => first [left; reflexivity | right; reflexivity]
  end.
Ltac fields := repeat first [apply Forall2_nil | apply Forall2_cons; [field|]].

Definition names_ok (fs : list (string * con)) : bool :=
  (fix nd (l : list string) := match l with
     | [] => true
     | x :: r => negb (existsb (String.eqb x) r) && nd r end) (map fst fs)
  && negb (existsb (String.eqb "") (map fst fs)).
Lemma names_ok_spec fs : names_ok fs = true -> NoDup (map fst fs) /\ ~ In ""%string (map fst fs).
Proof.
  unfold names_ok. intros H. apply andb_true_iff in H. destruct H as [H1 H2]. split.
  - revert H1. generalize (map fst fs). intros l. induction l as [|x l IH]; intros H1; constructor.
    + apply andb_true_iff in H1. destruct H1 as [H1 _]. apply negb_true_iff in H1.
      intros Hin. rewrite <- not_true_iff_false in H1. apply H1. apply existsb_exists.
      exists x. split; [exact Hin|apply String.eqb_refl].
    + apply IH. apply andb_true_iff in H1. apply H1.
  - intros Hin. apply negb_true_iff in H2. rewrite <- not_true_iff_false in H2. apply H2.
    apply existsb_exists. exists ""%string. split; [exact Hin|reflexivity].
Qed.

(* the layout of a construct as a whole payload *)
Definition whole_rt (P : ctx -> Prop) (c : con) (its : list item) : Prop :=
  forall cx bs, P cx -> is_bytes bs ->
  match leftover its bs with
  | None => exists e, cparse c cx bs = Err e
  | Some rest =>
      exists v, cparse c cx bs = Ok (v, rest) /\
      forall cx', P cx' -> exists out, cbuild c cx' v = Ok out /\
        (length out + length rest <= length bs + slack rest its)%nat /\
        (out = bs <-> canon its bs = true)
  end.

Lemma whole_struct (P : ctx -> Prop) fs its :
  (forall cx d, P cx -> P (cx_with_fields cx d)) ->
  Forall2 (field_rt P) fs its -> names_ok fs = true -> wf_items its = true ->
  whole_rt P (Struct fs) its.
Proof.
  intros Pf HF Hn Hwf cx bs Hcx Hbs.
  destruct (names_ok_spec _ Hn) as [Hnd Hne].
  pose proof (struct_rt P Pf fs its HF Hnd Hne Hwf cx [] bs Hcx Hbs) as H.
  unfold struct_spec in H. cbn [Struct cparse cbuild].
  destruct (leftover its bs) as [rest|].
  - destruct H as (d & -> & H). cbn [bind]. eexists. split; [reflexivity|].
    intros cx' Hcx'. destruct (H cx' d Hcx') as (out & H1 & H2 & H3 & _); [reflexivity|].
    exists out. split; [exact H1|]. split; [exact H2|exact H3].
  - destruct H as (e & -> & _). eexists. reflexivity.
Qed.

Lemma whole_cell (P : ctx -> Prop) c k : c_fixed k = true -> cell_rt P c k -> whole_rt P c [Need k].
Proof.
  intros Hf Hc cx bs Hcx Hbs. specialize (Hc cx bs Hcx Hbs). cbn [leftover canon].
  fold (fits k bs).
  destruct (fits k bs) eqn:Hfit.
  - destruct Hc as (v & -> & Hb). eexists. split; [reflexivity|]. intros cx' Hcx'.
    specialize (Hb cx' Hcx'). unfold built in Hb.
    destruct (cbuild c cx' v) as [out|e]; [|destruct Hb; congruence].
    exists out. split; [reflexivity|]. destruct Hb as [Hl Hiff].
    unfold fits in Hfit. apply andb_true_iff in Hfit. destruct Hfit as [Hle Hrd].
    apply Nat.leb_le in Hle. rewrite skipn_length. split.
    { unfold slack. destruct (skipn (c_size k) bs); cbn [nflags]; lia. }
    cbn [andb]. rewrite andb_true_iff, <- Hiff.
    destruct (skipn (c_size k) bs) as [|x r] eqn:Es.
    + rewrite <- (firstn_skipn (c_size k) bs) at 1. rewrite Es, app_nil_r. tauto.
    + split; [|intros [_ H]; discriminate]. intros ->. exfalso.
      apply (f_equal (@length Z)) in Es. rewrite skipn_length in Es. cbn [length] in Es. lia.
  - destruct Hc as (e & -> & _). eexists. reflexivity.
Qed.

(* the items of every class whose STRUCT is a flat struct or a single value *)
Definition flat_items (en : env) (L : Z) (k : kind) : option (list item) :=
  match k with
  | KBool => Some [Need c_flag]
  | KI8 | KU8 => Some (need [any 1])
  | KI16 | KU16 => Some (need [any 2])
  | KF32 => Some [Need c_f32]
  | KI32 | KU32 | KU16Tuple | KColor => Some (need [any 4])
  | KDelay => Some (may (repeat (any 4) 5))
  | KEnvelopeLFO => Some (may (c_envflags en :: repeat (any 4) 16))
  | KLevelAdjusts => Some (may (repeat (any 4) 5))
  | KLevels => Some (may (repeat (any 4) 6))
  | KParameters => Some (parameters_items en)
  | KPolyphony => Some (may [any 4; any 4; any 1])
  | KTracking => Some (may (repeat (any 4) 4))
  | KBooBass => Some (need ((if L =? 16 then any 4 else any 0) :: repeat (any 4) 3))
  | KFruitKick => Some (need (repeat (any 4) 8))
  | KFruityBalance => Some (need [any 4; any 4])
  | KFruityBloodOverdrive =>
      Some (need [if L =? 36 then any 4 else any 0; any 4; any 4; any 4; c_bool4; any 4; any 4; any 4; any 4])
  | KFruityCenter => Some (need [if L =? 8 then any 4 else any 0; c_bool4])
  | KFruityFastDist => Some (need (repeat (any 4) 5))
  | KFruitySend => Some (need (repeat (any 4) 4))
  | KFruitySoftClipper => Some (need [any 4; any 4])
  | KFruityStereoEnhancer => Some (need (repeat (any 4) 6))
  | KPlucked => Some (need [any 4; any 4; c_bool4; c_bool4; c_bool4])
  | KSoundgoodizer => Some (need [if L =? 12 then any 4 else any 0; any 4; any 4])
  | KWrapper => Some (may [any 16; any 2; any 2; any 1; any 23; any 4; any 4] ++ [Rest])
  | KPLSelection => Some (may [any 4; any 4])
  | KTrack => Some track_items
  | KInsertFlags => Some (may [any 4; any 4; any 4])
  | KMIDIController => Some [Rest]
  | KRemoteController => Some (may [any 2; any 1; any 1; any 2; any 2; any 8; any 4])
  | KTimestamp => Some (need [any 8; any 8])
  | _ => None
  end.

Lemma len_is_true en L w n : (L =? n) = true -> forall cx, cxp en L w cx -> len_is n cx = true.
Proof. intros H cx (_ & _ & _ & Hl & _). unfold len_is. rewrite Hl. exact H. Qed.
Lemma len_is_false en L w n : (L =? n) = false -> forall cx, cxp en L w cx -> len_is n cx = false.
Proof. intros H cx (_ & _ & _ & Hl & _). unfold len_is. rewrite Hl. exact H. Qed.

Lemma flat_rt en L w k its : flat_items en L k = Some its -> whole_rt (cxp en L w) (kcon k) its.
Proof.
  assert (Pf : forall cx d, cxp en L w cx -> cxp en L w (cx_with_fields cx d)) by auto.
  destruct k; intros H; try discriminate H; apply Some_inj in H; subst its; cbn [kcon];
  try (apply whole_cell; [reflexivity|cell]);
  try (apply whole_struct; [exact Pf| |vm_compute; reflexivity|reflexivity]; cbn [may need map repeat app];
       fields; fail).
  all: apply whole_struct; [exact Pf| |vm_compute; reflexivity| ].
  all: try (match goal with |- wf_items ?x = true =>
              match x with context [?l =? ?n] => destruct (l =? n) end end; reflexivity).
  all: match goal with |- Forall2 (field_rt (cxp ?en ?l ?w)) _ _ =>
      match goal with |- context [l =? ?n] =>
      pose proof (len_is_true en l w n); pose proof (len_is_false en l w n);
      destruct (l =? n) end end.
  all: try (match goal with H : true = true -> _ |- _ => specialize (H eq_refl) end).
  all: try (match goal with H : false = false -> _ |- _ => specialize (H eq_refl) end).
  all: cbn [may need map repeat app]; fields.
Qed.
