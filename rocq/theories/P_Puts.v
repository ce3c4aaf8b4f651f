(* Projects with several first events given other values, saved and loaded again. *)
From Coq Require Import String ZArith List Bool Lia Arith.
From Verif Require Import M_Base M_Float M_Text M_Construct M_Structs M_Events M_Parse M_Tree M_Prop M_Project.
From Verif Require Import S_Canon S_File S_Domain S_Tree S_Prop S_Real S_Project P_Base P_Codec P_Payload P_File P_Null P_Save P_Domain P_TreeBase P_Tree P_TreeEdit P_Prop P_Edit P_Rewrite P_Project.
Import ListNotations.
Open Scope Z_scope.

Fixpoint puts (m : list (Z * val)) (es : list event) : list event :=
  match m with [] => es | (id, v) :: m => put id v (puts m es) end.
Definition text_wide (s : pystr) : option bool := option_map wide_text (numbers s).

Definition put_ok (e : event) (v : val) : Prop :=
  scalar_kind (e_kind e) = true /\ domain (e_kind e) v /\ e_id e <> 201 /\
  (e_id e = 199 -> exists s s0, v = VStr s /\ e_val e = VStr s0 /\ numbers s <> None /\ text_wide s = text_wide s0).

Lemma same_event_trans a b c : same_event a b -> same_event b c -> same_event a c.
Proof. intros (A & B & C) (D & E & F). repeat split; congruence. Qed.
Lemma same_events_trans : forall a b c, Forall2 same_event a b -> Forall2 same_event b c -> Forall2 same_event a c.
Proof.
  intros a b c H. revert c. induction H as [|x y a b X H IH]; intros c H2; inversion H2; subst; constructor; [eapply same_event_trans; eauto|auto].
Qed.
Lemma same_events_refl l : Forall2 same_event l l.
Proof. induction l; constructor; [repeat split|assumption]. Qed.
Lemma same_put id v a b : Forall2 same_event a b -> Forall2 same_event (put id v a) (put id v b).
Proof.
  induction 1 as [|x y a b (X1 & X2 & X3) H IH]; [constructor|]. cbn [put]. rewrite <- X1. destruct (e_id x =? id); constructor; try assumption; repeat split; assumption.
Qed.

(* a text of numbers and dots has the class of its numbers *)
Lemma wide_text_spec ns : lex_le [11; 5] (firstn 2 ns) = wide_text ns.
Proof. destruct ns as [|a [|b ns]]; cbn [firstn lex_le wide_text]; lia. Qed.
Lemma text_class_numbers p ns : version_numbers p = Some ns -> text_class [(199, p)] = Some (if wide_text ns then KUnicode else KAscii).
Proof.
  intros H. unfold text_class. cbn [last_payload]. change (199 =? 199) with true. cbn iota. rewrite H.
  rewrite <- wide_text_spec. reflexivity.
Qed.
Lemma ascii_mk_value en id p e : mk_event en KAscii id p = Ok e -> exists s, ascii_dec p = Some s /\ e_val e = VStr (rstrip0 s).
Proof.
  intros H. destruct (mk_event_inv _ _ _ _ _ H) as (v & r & E & -> & _). cbn [e_val]. unfold kcon, AsciiText in E.
  cbn [text_con Adapter GreedyString GreedyBytes cparse bind] in E. destruct (ascii_dec p) as [s|]; [|discriminate].
  exists s. split; [reflexivity|]. cbn [bind] in E. congruence.
Qed.

Definition keeps (id : Z) (a b : list event) : Prop := Forall2 (fun x y => e_id x = id -> x = y) a b.
Lemma edited_put en id v k : forall g es es1 es1', edited en g es es1 es1' ->
  keeps id es es1 -> keeps id es es1' -> 0 <= k ->
  (forall e, In e es -> e_id e = id -> exists p1 e1', steers_alike en e p1 /\ payload en (with_val e v) = Ok p1 /\ is_bytes p1 /\
     mk_event en (e_kind e) (e_id e) p1 = Ok e1' /\ e_val e1' = v /\ zlen p1 + 6 <= k < 2 ^ 32) ->
  exists g' es2', g' <= k + g /\ edited en g' es (put id v es1) es2' /\ Forall2 same_event (put id v es1') es2' /\
    forall id', id' <> id -> keeps id' es es1' -> keeps id' es es2'.
Proof.
  induction 1 as [|g e es es1 es1' HD IH|g k0 e e1 p1 e1' es es1 es1' NS EI EK HP HB HM K0 SZ HD IH]; intros F1 F2 Hk HOK.
  - exists 0, []. split; [lia|]. split; [constructor|]. split; [constructor|]. auto.
  - inversion F1; subst. inversion F2; subst. cbn [put]. destruct (Z.eqb_spec (e_id e) id) as [X|X].
    + destruct (HOK e (or_introl eq_refl) X) as (p1 & e1' & S1 & S2 & S3 & S4 & S5 & S6).
      pose proof (edited_pos _ _ _ _ _ HD).
      exists (k + g), (e1' :: es1'). split; [lia|]. split; [eapply EdChange; eauto; reflexivity|]. split.
      * constructor; [|apply same_events_refl]. destruct (mk_event_inv _ _ _ _ _ S4) as (v0 & r & _ & -> & _).
        cbn in S5. subst v0. repeat split.
      * intros id' N K'. inversion K' as [|? ? ? ? KH KT]; subst. constructor; [|exact KT]. intros Y. congruence.
    + destruct (IH ltac:(assumption) ltac:(assumption) Hk) as (g' & es2' & L & E & S & K); [intros e0 I0; apply HOK; now right|].
      exists g', (e :: es2'). split; [exact L|]. split; [constructor; exact E|]. split; [constructor; [repeat split|exact S]|].
      intros id' N K'. inversion K' as [|? ? ? ? KH KT]; subst. constructor; auto. now apply K.
  - inversion F1 as [|? ? ? ? F1h F1t]; subst. inversion F2 as [|? ? ? ? F2h F2t]; subst.
    destruct (mk_event_inv _ _ _ _ _ HM) as (v0 & r & _ & EE & _).
    destruct (IH ltac:(assumption) ltac:(assumption) Hk) as (g' & es2' & L & E & S & K); [intros e0 I0; apply HOK; now right|].
    pose proof (edited_pos _ _ _ _ _ HD).
    cbn [put]. replace (e_id e1') with (e_id e) by (rewrite EE; reflexivity). rewrite EI. destruct (Z.eqb_spec (e_id e) id) as [X|X].
    + specialize (F1h X). specialize (F2h X). subst e1. subst e1'.
      destruct (HOK e (or_introl eq_refl) X) as (q1 & q1' & S1 & S2 & S3 & S4 & S5 & S6).
      exists (k + g), (q1' :: es1'). split; [lia|]. split; [eapply EdChange; eauto; reflexivity|]. split.
      * constructor; [|apply same_events_refl]. destruct (mk_event_inv _ _ _ _ _ S4) as (w0 & r' & _ & -> & _).
        cbn in S5. subst w0. repeat split.
      * intros id' N K'. inversion K' as [|? ? ? ? KH KT]; subst. constructor; [|exact KT]. intros Y. congruence.
    + exists (k0 + g'), (e1' :: es2'). split; [lia|]. split; [eapply EdChange; eauto|]. split; [constructor; [repeat split|exact S]|].
      intros id' N K'. inversion K' as [|? ? ? ? KH KT]; subst. constructor; auto. now apply K.
Qed.

Definition puts_room (m : list (Z * val)) : Z := fold_right (fun x a => room (snd x) + 6 + a) 0 m.
Lemma room_pos v : 0 <= room v.
Proof. destruct v; cbn [room]; try lia; match goal with |- context [zlen ?x] => pose proof (zlen_nonneg _ x); lia end. Qed.

Lemma put_other_same id id' v es a : id <> id' -> keeps id es a ->
  map e_id a = map e_id es -> keeps id es (put id' v a).
Proof.
  intros N F. induction F as [|x y es a X F IH]; intros E; [constructor|]. cbn [map] in E. injection E as E1 E2. cbn [put].
  destruct (Z.eqb_spec (e_id y) id') as [Y|Y].
  - constructor; [|exact F]. intros Z0. exfalso. congruence.
  - constructor; [exact X|]. now apply IH.
Qed.
Lemma same_ids a b : Forall2 same_event a b -> map e_id b = map e_id a.
Proof. induction 1 as [|x y a b (X & _) _ IH]; [reflexivity|]. cbn [map]. congruence. Qed.

(* the conditions of [edited_put] for a suitable value *)
Lemma put_ok_alike en h es cs e v : encodes en h es cs -> Forall (fun e => 0 <= e_id e < 256) es -> In e es -> put_ok e v -> room v + 6 < 2 ^ 32 ->
  exists p1 e1', steers_alike en e p1 /\ payload en (with_val e v) = Ok p1 /\ is_bytes p1 /\
     mk_event en (e_kind e) (e_id e) p1 = Ok e1' /\ e_val e1' = v /\ zlen p1 + 6 <= room v + 6 < 2 ^ 32.
Proof.
  intros HE HI IN (Hk & HD & N201 & HV) SZ.
  pose proof (encodes_classes _ _ _ _ HE HI) as HCL. rewrite Forall_forall in HCL, HI.
  destruct (HCL e IN) as [HA HU]. pose proof (HI e IN) as HID.
  destruct (proj2 (domain_exact en (e_kind e) (e_id e) v Hk HID HA HU) HD) as (L0 & w0 & p1 & e1' & P1 & B1 & M1 & V1).
  pose proof (stored_room en _ _ _ _ _ _ _ Hk HD HU (proj1 HID) P1 M1) as RM.
  exists p1, e1'. split; [|split; [|split; [exact B1|split; [exact M1|split; [exact V1|lia]]]]].
  - split; [exact N201|]. intros E199. destruct (HV E199) as (s & s0 & -> & EV & NN & TW).
    assert (X : e_kind e = KAscii /\ forall p, payload en e = Ok p -> exists s1, ascii_dec p = Some s1 /\ e_val e = VStr (rstrip0 s1)).
    { clear - HE IN E199. revert IN. induction HE as [|h e0 es p cs e' HP HB HC HVN HM HS HE IH]; intros IN; [destruct IN|]. destruct IN as [->|I]; [|auto].
      assert (KK : e_kind e = KAscii).
      { rewrite E199 in HC. clear - HC. revert HC. generalize (e_kind e). intros k HC. unfold class_of, registered in HC. destruct (en_ctrl en); vm_compute in HC; congruence. }
      split; [exact KK|]. intros q Q. assert (q = p) by congruence. subst q. rewrite KK in HM.
      destruct (ascii_mk_value _ _ _ _ HM) as (s1 & D & V). exists s1. split; [exact D|]. destruct HS as (_ & _ & HS). congruence. }
    destruct X as [KK X]. rewrite KK in M1. destruct (ascii_mk_value _ _ _ _ M1) as (s1 & D1 & V1').
    assert (S1 : rstrip0 s1 = s) by congruence.
    assert (VN : version_numbers p1 = numbers s) by (unfold version_numbers; now rewrite D1, S1).
    split; [now rewrite VN|]. intros q Q. destruct (X q Q) as (s2 & D2 & V2).
    assert (VQ : version_numbers q = numbers s0) by (unfold version_numbers; rewrite D2; congruence).
    unfold text_wide in TW. destruct (numbers s) as [ns|]; [|congruence]. destruct (numbers s0) as [ns0|]; [|discriminate].
    rewrite (text_class_numbers _ _ VQ), (text_class_numbers _ _ VN). cbn in TW. injection TW as TW. now rewrite TW.
  - unfold with_val. rewrite <- P1. apply scalar_payload. exact Hk.
Qed.

Theorem puts_saved en f p m : is_bytes f -> parse en f = Ok p -> canonical_file en f ->
  NoDup (map fst m) ->
  (forall id v e, In (id, v) m -> In e (pr_events p) -> e_id e = id -> put_ok e v) ->
  zlen f + puts_room m < 2 ^ 32 ->
  exists f' p', serialise en (Project (puts m (pr_events p)) (pr_channel_count p) (pr_format p) (pr_ppq p)) = Ok f' /\
    parse en f' = Ok p' /\ Forall2 same_event (puts m (pr_events p)) (pr_events p') /\
    pr_channel_count p' = pr_channel_count p /\ pr_format p' = pr_format p /\ pr_ppq p' = pr_ppq p.
Proof.
  intros Hb H HC ND HOK SZ.
  destruct (canonical_encodes en f p Hb H HC) as (cs & HE & HI & _ & _ & _ & _ & _ & NE).
  pose proof (zlen_nonneg _ f) as ZF.
  assert (X : exists g es', g <= puts_room m /\ edited en g (pr_events p) (puts m (pr_events p)) es' /\ Forall2 same_event (puts m (pr_events p)) es' /\
    forall id, ~ In id (map fst m) -> keeps id (pr_events p) (puts m (pr_events p)) /\ keeps id (pr_events p) es').
  { assert (SZ' : puts_room m < 2 ^ 32) by lia. clear SZ ZF.
    induction m as [|[id v] m IH].
    - exists 0, (pr_events p). cbn [puts puts_room fold_right]. split; [lia|]. split; [apply edited_refl|]. split; [apply same_events_refl|].
      intros id _. split; unfold keeps; clear; induction (pr_events p); constructor; auto.
    - cbn [map fst] in ND. inversion ND as [|? ? NI ND']; subst.
      assert (PR : puts_room ((id, v) :: m) = room v + 6 + puts_room m) by reflexivity.
      assert (P0 : 0 <= puts_room m).
      { clear. unfold puts_room. induction m as [|x m IH]; cbn [fold_right]; [lia|]. pose proof (room_pos (snd x)). lia. }
      pose proof (room_pos v) as RP.
      destruct (IH ND') as (g & es' & G & E & S & O); [intros; eapply HOK; eauto; now right|lia|].
      destruct (O id NI) as [O1 O2].
      destruct (edited_put en id v (room v + 6) g _ _ _ E O1 O2 ltac:(lia)) as (g' & es2 & G' & E' & S' & K').
      { intros e I EI. apply (put_ok_alike en [] (pr_events p) cs); auto; [|lia]. apply (HOK id v e); auto. now left. }
      exists g', es2. split; [lia|]. cbn [puts]. split; [exact E'|]. split; [eapply same_events_trans; [apply same_put; exact S|exact S']|].
      intros id' NI'. cbn [map fst] in NI'. assert (N : id' <> id) by (intros ->; apply NI'; now left).
      destruct (O id' ltac:(intros X; apply NI'; now right)) as [P1 P2].
      split; [|now apply K'].
      apply put_other_same; auto. exact (edited_ids _ _ _ _ _ E). }
  destruct X as (g & es' & G & E & S & _). pose proof (edited_pos _ _ _ _ _ E).
  destruct (edits_saved en f p g _ _ Hb H HC E ltac:(right; lia)) as (f' & p' & S1 & S2 & S3 & S4).
  exists f', p'. split; [exact S1|]. split; [exact S2|]. split; [eapply same_events_trans; eauto|exact S4].
Qed.
