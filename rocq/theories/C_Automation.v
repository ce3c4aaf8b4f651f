(* C72: the points of an automation clip. *)
From Coq Require Import String ZArith List Bool Lia Arith.
From Verif Require Import M_Base M_Float M_Text M_Construct M_Structs M_Events M_Parse M_Tree M_Prop M_Models.
From Verif Require Import S_Real S_Canon S_File S_Tree S_Prop S_Project S_Layout S_Automation.
From Verif Require Import P_Base P_Codec P_RT P_Cells P_Float P_Special P_Payload P_Round P_Tempo P_Struct P_Null P_TreeBase P_Tree P_TreeEdit P_Save P_Prop P_Models P_Edit P_EditStruct P_Session P_Automation.
From Verif Require Import C_Samples C_Prop.
Import ListNotations.
Open Scope Z_scope.

(* AutomationPoint.value, .tension, .position (channel.py:1158-1168) and AutomationLFO.amount (1144) *)
Definition point_prop (k : string) : prop := MkProp [] VNone (String.eqb k "position") (PStruct k).
Definition amount_prop : prop := MkProp [234] VNone false (PStruct "lfo.amount").

(* ------------------------------------------------------------------ reading *)

Lemma auto_items b id L w : items (Event id KAutomation L w (VDict (auto_fields b))) = map (fun i => VDict (point b i)) (seq 0 (Z.to_nat (point_count b))).
Proof. reflexivity. Qed.
Lemma nth_points b k : (k < Z.to_nat (point_count b))%nat ->
  nth_error (map (fun i => VDict (point b i)) (seq 0 (Z.to_nat (point_count b)))) k = Some (VDict (point b k)).
Proof.
  intros L. rewrite nth_error_map, (nth_error_nth' _ O) by (now rewrite seq_length). now rewrite seq_nth by exact L.
Qed.
Lemma event_is en b e : is_bytes b -> mk_event en KAutomation 234 b = Ok e -> complete b /\ e = Event 234 KAutomation (zlen b) (new_of b) (VDict (auto_fields b)).
Proof.
  intros Hb M. pose proof (automation_complete en 234 b e Hb M) as C. split; [exact C|].
  pose proof (complete_event en 234 b Hb ltac:(lia) C). congruence.
Qed.
Lemma point_get en h r b e i : is_bytes b -> mk_event en KAutomation 234 b = Ok e -> ev_of h r = e -> (i < Z.to_nat (point_count b))%nat ->
  prop_get en h (ItModel r i) (point_prop "value") = Ok (VFlt (height b i)) /\
  prop_get en h (ItModel r i) (point_prop "tension") = Ok (VFlt (tension b i)) /\
  prop_get en h (ItModel r i) (point_prop "position") = Ok (VFlt (position b i)).
Proof.
  intros Hb M E L. destruct (event_is en b e Hb M) as (C & EE).
  assert (G : forall k, prop_get en h (ItModel r i) (point_prop k) = dindex (point b i) k).
  { intros k. unfold prop_get. cbn [point_prop p_ids p_kind get_event bind target_read tg_get]. rewrite E, EE, auto_items, nth_points by exact L. reflexivity. }
  rewrite !G. repeat split.
Qed.

(* What iterating over an automation gives, for the event with these bytes: as many points as
   the count says, each with its height, its tension and its position; and the amount. *)
Theorem C72_points : forall en h t b e m, is_bytes b -> mk_event en KAutomation 234 b = Ok e ->
  filter (fun e => e_id e =? 234) (events h t) = e :: m ->
  21 + 24 * point_count b <= zlen b /\
  (exists r, M_Models.points h t = Ok (map (ItModel r) (seq 0 (Z.to_nat (point_count b)))) /\ ev_of h r = e /\
     forall i, (i < Z.to_nat (point_count b))%nat ->
       prop_get en h (ItModel r i) (point_prop "value") = Ok (VFlt (height b i)) /\
       prop_get en h (ItModel r i) (point_prop "tension") = Ok (VFlt (tension b i)) /\
       exists x, prop_get en h (ItModel r i) (point_prop "position") = Ok (VFlt x) /\ (sums_fit b i -> finite x /\ units x = total b i)) /\
  prop_get en h (EvModel t) amount_prop = Ok (VInt (s_le (slice b 4 4))).
Proof.
  intros en h t b e m Hb M F. destruct (event_is en b e Hb M) as (C & EE). split; [apply C|].
  destruct (first_event _ _ _ _ _ F) as (c & l & G & E & _ & CT & _ & _). split.
  - exists (ref_of h c). split; [|split; [exact E|]].
    + unfold M_Models.points. rewrite G. unfold struct_get. change (e_of h c) with (ev_of h (ref_of h c)). rewrite E, EE. cbn [is_struct_kind e_kind e_val].
      unfold auto_fields, dindex. cbv zeta. cbn [dget String.eqb Ascii.eqb Bool.eqb bind is_list_kind negb]. now rewrite map_length, seq_length.
    + intros i L. destruct (point_get en h (ref_of h c) b e i Hb M E L) as (A & B & D). split; [exact A|]. split; [exact B|].
      exists (position b i). split; [exact D|]. apply sums_exact.
  - unfold prop_get. cbn [amount_prop p_ids p_kind get_event first_of]. rewrite CT, G. cbn [option_map bind target_read tg_get].
    unfold struct_get. now rewrite E, EE.
Qed.
Print Assumptions C72_points.
Theorem C72_none : forall h t, value_of 234 (events h t) = None -> M_Models.points h t = Ok [].
Proof. intros h t N. unfold M_Models.points. now rewrite (proj1 (no_first _ _ _ N)). Qed.
Print Assumptions C72_none.

(* A position is never before that of the point before, if the step between them is not negative;
   the first position is the first step.  (2^2096 units are 2^1022.) *)
Theorem C72_ordered : forall en h b e r i x, is_bytes b -> mk_event en KAutomation 234 b = Ok e -> ev_of h r = e ->
  (S i < Z.to_nat (point_count b))%nat -> prop_get en h (ItModel r i) (point_prop "position") = Ok (VFlt x) ->
  finite x -> 0 <= units x < 2 ^ 2096 ->
  finite (step b 0) -> 0 <= units (step b 0) < 2 ^ 2096 -> finite (step b (S i)) -> 0 <= units (step b (S i)) < 2 ^ 2096 ->
  exists y, prop_get en h (ItModel r (S i)) (point_prop "position") = Ok (VFlt y) /\ finite y /\ units x <= units y.
Proof.
  intros en h b e r i x Hb M E L P FX BX F0 B0 F1 B1.
  destruct (point_get en h r b e i Hb M E ltac:(lia)) as (_ & _ & D). assert (x = position b i) by congruence. subst x.
  destruct (point_get en h r b e (S i) Hb M E L) as (_ & _ & D'). exists (position b (S i)). split; [exact D'|].
  now apply positions_ordered.
Qed.
Print Assumptions C72_ordered.
Theorem C72_first : forall en h b e r, is_bytes b -> mk_event en KAutomation 234 b = Ok e -> ev_of h r = e ->
  0 < point_count b -> prop_get en h (ItModel r 0) (point_prop "position") = Ok (VFlt (step b 0)).
Proof. intros en h b e r Hb M E L. now destruct (point_get en h r b e 0 Hb M E ltac:(lia)) as (_ & _ & D). Qed.
Print Assumptions C72_first.
Theorem C72_position_fixed : forall en h r i v, prop_set en h (ItModel r i) (point_prop "position") v = (h, Err PropertyCannotBeSet).
Proof. reflexivity. Qed.
Print Assumptions C72_position_fixed.

(* ------------------------------------------------------------------ editing *)

(* which bytes a number given as height or tension is in the file, and where in the point *)
Inductive point_stores : string -> val -> nat -> bytes -> Prop :=
| ps_value x : 0 <= x < 2 ^ 64 -> point_stores "value" (VFlt x) 8 (le 8 x)
| ps_tension x w : f64_to_32 x = Some w -> point_stores "tension" (VFlt x) 16 (le 4 w).

Lemma no_snan x w : f64_to_32 x = Some w -> f32_snan w = false.
Proof.
  unfold f64_to_32. assert (Hs : b2z (f_sign x) * 2 ^ 31 = 0 \/ b2z (f_sign x) * 2 ^ 31 = 2 ^ 31) by (destruct (f_sign x); [right|left]; reflexivity).
  set (s := b2z (f_sign x) * 2 ^ 31) in *. clearbody s. unfold f32_snan.
  destruct (f_is_nan x).
  { intros H. apply Some_inj in H. subst w. pose proof (f_man_range x) as Hm.
    assert (H22 : 0 <= f_man x / 2 ^ 29 < 2 ^ 23) by lia.
    rewrite (lor_22 _ H22). destruct (f_man x / 2 ^ 29 <? 2 ^ 22) eqn:E; lia. }
  destruct (f_is_inf x); [intros H; apply Some_inj in H; lia|].
  destruct (f_exp x =? 0); [intros H; apply Some_inj in H; lia|].
  set (te := Z.max (f_e x + 29) (-149)).
  assert (Hq : 0 <= div_rne (f_mag x) (2 ^ (te - f_e x))).
  { apply div_rne_nonneg; [apply f_mag_range|]. apply Z.pow_pos_nonneg; lia. }
  set (q := div_rne (f_mag x) (2 ^ (te - f_e x))) in *. clearbody q.
  destruct (Z.leb_spec (255 * 2 ^ 23) ((te + 149) * 2 ^ 23 + q)) as [H|H]; [discriminate|].
  intros E. apply Some_inj in E. lia.
Qed.

(* the file after the edit: what differs between the payloads b and b' *)
Definition point_changed (b b' : bytes) (i : nat) (x y : Z) : Prop :=
  length b' = length b /\ point_count b' = point_count b /\ height b' i = x /\ tension b' i = y /\
  (forall j, step b' j = step b j) /\ (forall j, j <> i -> height b' j = height b j /\ tension b' j = tension b j) /\
  s_le (slice b' 4 4) = s_le (slice b 4 4).

Section Edit.
  Variables (b : bytes) (i o : nat) (k : string) (v v' : val) (c : bytes).
  (* v: what is assigned; c: its bytes; v': what these mean *)
  Definition in_point : Prop :=
    (exists x, k = "value"%string /\ o = 8%nat /\ c = le_enc 8 x /\ 0 <= x < 2 ^ 64 /\ as_float v = Some x /\ v' = VFlt x) \/
    (exists x w, k = "tension"%string /\ o = 16%nat /\ c = le_enc 4 w /\ as_float v = Some x /\ f64_to_32 x = Some w /\ v' = VFlt (f32_to_64 w)).
  Hypothesis (Hb : is_bytes b) (C : complete b) (Li : (i < Z.to_nat (point_count b))%nat) (IP : in_point).
  Lemma ip_bytes : is_bytes c.
  Proof. destruct IP as [(x & _ & _ & -> & _)|(x & w & _ & _ & -> & _)]; apply le_enc_bytes. Qed.
  Lemma ip_saves : k = "value"%string /\ o = 8%nat /\ length c = 8%nat /\ v' = VFlt (u_le c) \/
    k = "tension"%string /\ o = 16%nat /\ length c = 4%nat /\ c_ok c_f32 c = true /\ v' = VFlt (f32_to_64 (u_le c)).
  Proof.
    destruct IP as [(x & -> & -> & -> & X & _ & ->)|(x & w & -> & -> & -> & _ & W & ->)]; [left|right].
    - repeat split. now rewrite u_le_enc.
    - pose proof (f64_to_32_range _ _ W) as R. pose proof (no_snan _ _ W) as NS. repeat split; [|now rewrite u_le_enc].
      change (c_ok c_f32 (le_enc 4 w)) with (negb (is_snan32 (le_enc 4 w))). rewrite is_snan32_spec, u_le_enc by exact R. now rewrite NS.
  Qed.
  Lemma ip_place : (8 <= o)%nat /\ (o + length c <= 24)%nat.
  Proof using IP. clear Hb C Li. destruct ip_saves as [(_ & -> & -> & _)|(_ & -> & -> & _)]; lia. Qed.
  Lemma ip_same en L w : payload en (Event 234 KAutomation L w (with_point b i k v)) = payload en (Event 234 KAutomation L w (with_point b i k v')).
  Proof.
    apply point_same_bytes. destruct IP as [(x & -> & _ & _ & _ & -> & ->)|(x & w' & -> & _ & _ & E & W & ->)]; [left; now split|right].
    split; [reflexivity|]. exists x, (f32_to_64 w'). split; [exact E|]. split; [reflexivity|].
    rewrite (f32_roundtrip w' (f64_to_32_range _ _ W)), (no_snan _ _ W). exact W.
  Qed.
  Lemma ip_changed : point_changed b (splice b (point_at i + o) c) i
      (match k with "value"%string => match v' with VFlt x => x | _ => 0 end | _ => height b i end)
      (match k with "tension"%string => match v' with VFlt x => x | _ => 0 end | _ => tension b i end).
  Proof.
    destruct ip_place as [Lo Lc]. pose proof (sp_here b i o c Hb C Li Lo Lc) as H.
    split; [exact (sp_length b i o c Hb C Li Lo Lc)|]. split; [exact (sp_count b i o c Hb C Li Lo Lc)|].
    assert (X : forall j, (j <> i \/ o = 16%nat) -> height (splice b (point_at i + o) c) j = height b j).
    { intros j J. unfold height. rewrite (sp_slice b i o c Hb C Li Lo Lc); [reflexivity|]. unfold point_at. destruct ip_saves as [(_ & -> & -> & _)|(_ & -> & -> & _)]; lia. }
    assert (Y : forall j, (j <> i \/ o = 8%nat) -> tension (splice b (point_at i + o) c) j = tension b j).
    { intros j J. unfold tension. rewrite (sp_slice b i o c Hb C Li Lo Lc); [reflexivity|]. unfold point_at. destruct ip_saves as [(_ & -> & -> & _)|(_ & -> & -> & _)]; lia. }
    pose proof (splice_same b (point_at i + o) c H) as SS.
    split; [|split; [|split; [exact (sp_step b i o c Hb C Li Lo Lc)|split; [intros j J; auto|]]]].
    - destruct ip_saves as [(-> & -> & Q & ->)|(-> & -> & _)]; [|apply X; now right]. unfold height. rewrite Q in SS. now rewrite SS.
    - destruct ip_saves as [(-> & -> & _)|(-> & -> & Q & _ & ->)]; [apply Y; now right|]. unfold tension. rewrite Q in SS. now rewrite SS.
    - rewrite (sp_slice b i o c Hb C Li Lo Lc); [reflexivity|]. unfold point_at. lia.
  Qed.
End Edit.

Lemma point_set en h r e b i k v : is_bytes b -> mk_event en KAutomation 234 b = Ok e -> ev_of h r = e -> (r < length (h_evs h))%nat ->
  (i < Z.to_nat (point_count b))%nat -> k <> "position"%string ->
  exists h', prop_set en h (ItModel r i) (point_prop k) v = (h', Ok tt) /\ only_value h r (with_point b i k v) h'.
Proof.
  intros Hb M E LR L NK. destruct (event_is en b e Hb M) as (C & EE). unfold prop_set. cbn [point_prop p_readonly p_ids p_kind get_event target_write].
  replace (String.eqb k "position") with false by (symmetry; now apply String.eqb_neq). cbn [tg_set]. rewrite E, EE, auto_items, nth_points by exact L.
  eexists. split; [reflexivity|]. apply (set_event_only h r (Event 234 KAutomation (zlen b) (new_of b) (with_point b i k v)) LR). rewrite E, EE. reflexivity.
Qed.

(* In memory: assigning a float to the height or a tension of a point of any project that has been
   looked at and edited.  The event afterwards is the one of other bytes, so this may be repeated. *)
Theorem C72_edit : forall en evs h r e b i k v o c, evs <> [] -> session evs h -> (r < length (h_evs h))%nat ->
  is_bytes b -> mk_event en KAutomation 234 b = Ok e -> ev_of h r = e -> (i < Z.to_nat (point_count b))%nat ->
  point_stores k v o c -> (forall x w, k = "tension"%string -> v = VFlt x -> f64_to_32 x = Some w -> x = f32_to_64 w) ->
  let b' := splice b (point_at i + o) c in
  exists h', prop_set en h (ItModel r i) (point_prop k) v = (h', Ok tt) /\ session evs h' /\
    mk_event en KAutomation 234 b' = Ok (ev_of h' r) /\ is_bytes b' /\
    (forall j, j <> r -> nth_error (root_events h') j = nth_error (root_events h) j) /\ nth_error (root_events h') r = Some (ev_of h' r) /\
    length (root_events h') = length (root_events h) /\
    prop_get en h' (ItModel r i) (point_prop k) = Ok v /\
    (forall j k', In k' ["value"; "tension"; "position"]%string -> (j < Z.to_nat (point_count b))%nat -> j <> i \/ k' <> k ->
       prop_get en h' (ItModel r j) (point_prop k') = prop_get en h (ItModel r j) (point_prop k')).
Proof.
  intros en evs h r e b i k v o c NE S LR Hb M E L PS TN b'. destruct (event_is en b e Hb M) as (C & EE).
  assert (NK : k <> "position"%string) by (destruct PS; discriminate).
  destruct (point_set en h r e b i k v Hb M E LR L NK) as (h' & P & O). exists h'. split; [exact P|].
  assert (S' : session evs h').
  { unfold prop_set in P. cbn [point_prop p_readonly p_ids p_kind get_event target_write] in P.
    replace (String.eqb k "position") with false in P by (symmetry; now apply String.eqb_neq). eapply tg_set_session; eassumption. }
  split; [exact S'|].
  assert (IP : in_point o k v v c).
  { destruct PS as [x X|x w W]; [left; exists x; now rewrite le_spec|right]. exists x, w. rewrite le_spec. repeat split; [exact W|]. now rewrite <- (TN x w eq_refl eq_refl W). }
  destruct (ip_place o k v v c IP) as [Lo Lc]. pose proof (ip_bytes o k v v c IP) as Bc.
  assert (B' : is_bytes b') by (now apply is_bytes_splice).
  pose proof (sp_complete b i o c Hb C L Lo Lc) as C'. pose proof (sp_length b i o c Hb C L Lo Lc) as LL. fold b' in C', LL.
  assert (ZL : zlen b' = zlen b) by (unfold zlen; now rewrite LL).
  assert (EV : ev_of h' r = Event 234 KAutomation (zlen b) (new_of b) (with_point b i k v)) by (destruct O as (_ & _ & _ & _ & ->); rewrite E, EE; reflexivity).
  assert (M' : mk_event en KAutomation 234 b' = Ok (ev_of h' r)).
  { rewrite EV, (complete_event en 234 b' B' ltac:(lia) C'). unfold new_of. rewrite ZL. do 2 f_equal.
    apply (sp_fields b i o c Hb C L Lo Lc k v). destruct (ip_saves o k v v c IP) as [(-> & -> & Q & ->)|(-> & -> & Q & _ & ->)].
    - assert (LE : le_enc 8 (u_le c) = c) by (rewrite (u_le_dec c); rewrite <- Q; now apply le_enc_dec).
      rewrite <- LE at 1. apply value_point; try assumption. rewrite (u_le_dec c). pose proof (le_dec_bound c Bc) as R. rewrite Q in R. exact R.
    - now apply tension_point. }
  split; [exact M'|]. split; [exact B'|].
  destruct (session_root _ _ NE S) as (_ & _ & ->), (session_root _ _ NE S') as (_ & _ & ->).
  pose proof (only_value_h_evs _ _ _ _ LR O) as HE. split; [intros j J; rewrite HE, nth_error_lset; apply Nat.eqb_neq in J; now rewrite J|].
  split; [destruct O as (_ & _ & N & _); unfold ev_of; apply nth_error_nth'; lia|]. split; [rewrite HE; apply lset_length|].
  destruct (ip_changed b i o k v v c Hb C L IP) as (_ & PC & H1 & H2 & ST & OT & _). fold b' in PC, H1, H2, ST, OT.
  assert (L' : forall j, (j < Z.to_nat (point_count b))%nat -> (j < Z.to_nat (point_count b'))%nat) by (intros j; now rewrite PC).
  assert (PP : forall j, position b' j = position b j) by (intros j; apply (sp_position b i o c Hb C L Lo Lc)).
  pose proof (fun j J => point_get en h r b e j Hb M E J) as G. pose proof (fun j J => point_get en h' r b' _ j B' M' eq_refl (L' j J)) as G'.
  split.
  - destruct (G' i L) as (A1 & A2 & _). destruct PS as [x X|x w W]; [rewrite A1, H1|rewrite A2, H2]; reflexivity.
  - intros j k' K J D. destruct (G j J) as (A1 & A2 & A3), (G' j J) as (B1 & B2 & B3).
    destruct (Nat.eq_dec j i) as [->|NJ].
    + destruct D as [D|D]; [congruence|]. destruct K as [<-|[<-|[<-|[]]]]; [rewrite A1, B1, H1|rewrite A2, B2, H2|now rewrite A3, B3, PP];
        destruct PS; try congruence; reflexivity.
    + destruct (OT j NJ) as [O1 O2]. destruct K as [<-|[<-|[<-|[]]]]; [now rewrite A1, B1, O1|now rewrite A2, B2, O2|now rewrite A3, B3, PP].
Qed.
Print Assumptions C72_edit.

(* ------------------------------------------------------------------ saving *)

Lemma point_edit_saved en f p h t r e b i k v v' o c : is_bytes f -> parse en f = Ok p -> canonical_file en f ->
  views (parsed (pr_events p)) h -> (t < nt h)%nat -> In r (refs h t) -> ev_of h r = e -> e_id e = 234 -> e_kind e = KAutomation ->
  payload en e = Ok b -> (i < Z.to_nat (point_count b))%nat -> in_point o k v v' c -> k <> "position"%string ->
  let b' := splice b (point_at i + o) c in
  exists h' f' p' e', prop_set en h (ItModel r i) (point_prop k) v = (h', Ok tt) /\
    serialise en (Project (root_events h') (pr_channel_count p) (pr_format p) (pr_ppq p)) = Ok f' /\
    parse en f' = Ok p' /\ mk_event en KAutomation 234 b' = Ok e' /\ nth_error (pr_events p) r = Some e /\
    reloaded (pr_events p) r (e_val e') (pr_events p') /\
    pr_channel_count p' = pr_channel_count p /\ pr_format p' = pr_format p /\ pr_ppq p' = pr_ppq p /\ complete b /\ is_bytes b.
Proof.
  intros Hf H HC V LT IR E EI EK HP L IP NK b'.
  destruct (canonical_encodes en f p Hf H HC) as (cs & _ & _ & _ & _ & _ & _ & _ & NE).
  destruct (views_tree _ _ t NE V LT) as (W & _ & FF). rewrite Forall_forall in FF. pose proof (FF r IR) as FR. rewrite E in FR.
  assert (LR : (r < length (pr_events p))%nat) by (apply nth_error_Some; congruence).
  assert (LH : (r < length (h_evs h))%nat) by (unfold in_heap in W; rewrite Forall_forall in W; now apply W).
  pose proof (canonical_read en f p Hf H HC) as CR. rewrite Forall_forall in CR.
  destruct (CR e (nth_error_In _ _ FR)) as (b0 & Hb & M & B2 & B3). rewrite EI, EK in M. rewrite EK in B3. assert (b0 = b) by congruence. subst b0. cbn [canonical_payload] in B3.
  destruct (event_is en b e Hb M) as (C & EE).
  destruct (point_set en h r e b i k v Hb M E LH L NK) as (h' & P & O).
  destruct (point_saved en 234 b i k v' c o Hb ltac:(lia) C B3 L (ip_bytes o k v v' c IP) (ip_saves o k v v' c IP)) as (Q1 & Q2 & Q3 & Q4). fold b' in Q1, Q2, Q3, Q4.
  destruct (edit_saved en f p r e (with_val e (with_point b i k v)) b' (Event 234 KAutomation (zlen b) (new_of b) (with_point b i k v')) Hf H HC FR) as (f' & p' & S1 & S2 & S3 & S4 & S5 & S6).
  - rewrite EI. intros [X|X]; discriminate X.
  - reflexivity.
  - reflexivity.
  - rewrite EE. unfold with_val. cbn [e_id e_kind e_len e_new]. rewrite (ip_same b i o k v v' c IP). exact Q4.
  - exact Q1.
  - rewrite EI, EK. exact Q3.
  - exact Q4.
  - right. exists b. split; [exact HP|now symmetry].
  - exists h', f', p'. eexists. split; [exact P|]. rewrite (only_value_root _ _ _ _ _ NE V LR O), E. split; [exact S1|]. split; [exact S2|]. split; [exact Q3|]. split; [exact FR|].
    split; [|auto]. eapply reloaded_lset; [exact FR| | |reflexivity|exact S3]; [now rewrite EI|now rewrite EK].
Qed.

(* A height or a tension, set through any view of a project loaded from a canonical file, is what the
   saved file has; everything else in it is as before.  A tension is rounded to single precision. *)
Theorem C72_saved : forall en f p h t r e b i k v o c, is_bytes f -> parse en f = Ok p -> canonical_file en f ->
  views (parsed (pr_events p)) h -> (t < nt h)%nat -> In r (refs h t) -> ev_of h r = e -> e_id e = 234 -> e_kind e = KAutomation ->
  payload en e = Ok b -> (i < Z.to_nat (point_count b))%nat -> point_stores k v o c ->
  exists h' f' p' e' b', prop_set en h (ItModel r i) (point_prop k) v = (h', Ok tt) /\
    serialise en (Project (root_events h') (pr_channel_count p) (pr_format p) (pr_ppq p)) = Ok f' /\
    parse en f' = Ok p' /\ nth_error (pr_events p) r = Some e /\
    b' = splice b (point_at i + o) c /\ mk_event en KAutomation 234 b' = Ok e' /\ reloaded (pr_events p) r (e_val e') (pr_events p') /\
    (forall x, v = VFlt x -> k = "value"%string -> point_changed b b' i x (tension b i)) /\
    (forall x w, v = VFlt x -> k = "tension"%string -> f64_to_32 x = Some w -> point_changed b b' i (height b i) (f32_to_64 w)) /\
    pr_channel_count p' = pr_channel_count p /\ pr_format p' = pr_format p /\ pr_ppq p' = pr_ppq p.
Proof.
  intros en f p h t r e b i k v o c Hf H HC V LT IR E EI EK HP L PS.
  assert (NK : k <> "position"%string) by (destruct PS; discriminate).
  assert (X : exists v', in_point o k v v' c).
  { destruct PS as [x X|x w W]; [exists (VFlt x); left; exists x; now rewrite le_spec|exists (VFlt (f32_to_64 w)); right]. exists x, w. rewrite le_spec. repeat split. exact W. }
  destruct X as (v' & IP). destruct (point_edit_saved en f p h t r e b i k v v' o c Hf H HC V LT IR E EI EK HP L IP NK) as (h' & f' & p' & e' & A1 & A2 & A3 & A4 & A5 & A6 & A7 & A8 & A9 & C & Hb).
  exists h', f', p', e'. eexists. split; [exact A1|]. split; [exact A2|]. split; [exact A3|]. split; [exact A5|]. split; [reflexivity|]. split; [exact A4|]. split; [exact A6|].
  pose proof (ip_changed b i o k v v' c Hb C L IP) as CH. split; [|split; [|auto]].
  - intros x -> ->. destruct IP as [(x' & _ & _ & _ & _ & AF & ->)|(x' & w & X & _)]; [|discriminate X]. injection AF as <-. exact CH.
  - intros x w -> -> W. destruct IP as [(x' & X & _)|(x' & w' & _ & _ & _ & AF & W' & ->)]; [discriminate X|]. injection AF as <-. assert (w' = w) by congruence. subst w'. exact CH.
Qed.
Print Assumptions C72_saved.

(* an int given as height is saved as that number *)
Theorem C72_saved_int : forall en f p h t r e b i z, is_bytes f -> parse en f = Ok p -> canonical_file en f ->
  views (parsed (pr_events p)) h -> (t < nt h)%nat -> In r (refs h t) -> ev_of h r = e -> e_id e = 234 -> e_kind e = KAutomation ->
  payload en e = Ok b -> (i < Z.to_nat (point_count b))%nat -> Z.abs z < 2 ^ 53 ->
  exists h' f' p' e' b' x, prop_set en h (ItModel r i) (point_prop "value") (VInt z) = (h', Ok tt) /\
    serialise en (Project (root_events h') (pr_channel_count p) (pr_format p) (pr_ppq p)) = Ok f' /\
    parse en f' = Ok p' /\ nth_error (pr_events p) r = Some e /\ mk_event en KAutomation 234 b' = Ok e' /\ reloaded (pr_events p) r (e_val e') (pr_events p') /\
    point_changed b b' i x (tension b i) /\ finite x /\ units x = z * one.
Proof.
  intros en f p h t r e b i z Hf H HC V LT IR E EI EK HP L B. destruct (f_of_int_exact z B) as (x & FX & [F U] & _).
  assert (R : 0 <= x < 2 ^ 64) by (apply F).
  assert (IP : in_point 8 "value" (VInt z) (VFlt x) (le_enc 8 x)) by (left; exists x; repeat split; try apply R; exact FX).
  destruct (point_edit_saved en f p h t r e b i "value" (VInt z) (VFlt x) 8 (le_enc 8 x) Hf H HC V LT IR E EI EK HP L IP ltac:(discriminate)) as (h' & f' & p' & e' & A1 & A2 & A3 & A4 & A5 & A6 & _ & _ & _ & C & Hb).
  exists h', f', p', e'. eexists _, x. split; [exact A1|]. split; [exact A2|]. split; [exact A3|]. split; [exact A5|]. split; [exact A4|]. split; [exact A6|].
  split; [exact (ip_changed b i 8 "value" (VInt z) (VFlt x) (le_enc 8 x) Hb C L IP)|]. split; [exact F|exact U].
Qed.
Print Assumptions C72_saved_int.

(* the amount of the LFO of an automation *)
Theorem C72_amount : forall en f p h t r e b z, is_bytes f -> parse en f = Ok p -> canonical_file en f ->
  views (parsed (pr_events p)) h -> (t < nt h)%nat -> chosen [234] (events h t) (Some r) -> nth_error (events h t) r = Some e -> e_kind e = KAutomation ->
  payload en e = Ok b -> - 2 ^ 31 <= z < 2 ^ 31 ->
  exists h' f' p' j e' b', prop_set en h (EvModel t) amount_prop (VInt z) = (h', Ok tt) /\
    serialise en (Project (root_events h') (pr_channel_count p) (pr_format p) (pr_ppq p)) = Ok f' /\
    parse en f' = Ok p' /\ nth_error (pr_events p) j = Some e /\ mk_event en KAutomation 234 b' = Ok e' /\ reloaded (pr_events p) j (e_val e') (pr_events p') /\
    s_le (slice b' 4 4) = z /\ length b' = length b /\ (forall o n, (8 <= o \/ o + n <= 4)%nat -> slice b' o n = slice b o n) /\
    pr_channel_count p' = pr_channel_count p /\ pr_format p' = pr_format p /\ pr_ppq p' = pr_ppq p.
Proof.
  intros en f p h t k e b z Hf H HC V LT CH N EK HP B.
  destruct (canonical_encodes en f p Hf H HC) as (cs & _ & _ & _ & _ & _ & _ & _ & NE).
  destruct (views_tree _ _ t NE V LT) as (W & _ & FF). rewrite Forall_forall in FF.
  destruct (get_event_spec h t [234] ltac:(discriminate)) as [A _]. destruct (A k CH) as (c & K & GE). set (r := ref_of h c) in *.
  assert (RR : nth_error (refs h t) k = Some r) by (unfold refs; now rewrite nth_error_map, K).
  assert (E : ev_of h r = e) by (rewrite events_refs, nth_error_map, RR in N; cbn in N; congruence).
  assert (LH : (r < length (h_evs h))%nat) by (unfold in_heap in W; rewrite Forall_forall in W; apply W; eapply nth_error_In; eauto).
  pose proof (FF r (nth_error_In _ _ RR)) as FR. rewrite E in FR.
  assert (EI : e_id e = 234).
  { remember (Some k) as ko eqn:KO. destruct CH as [ids1 id ids2 k0 e0 E1 E2 E3 E4 E5|]; [|discriminate KO]. injection KO as ->. assert (e0 = e) by congruence.
    destruct ids1 as [|x [|y ids1]]; cbn [app] in E1; try discriminate E1; congruence. }
  destruct (s_le_enc 4 z ltac:(lia)) as (cb & Bc & Lc & SC). { change (256 ^ Z.of_nat 4) with (2 ^ 32). lia. }
  pose proof (canonical_read en f p Hf H HC) as CR. rewrite Forall_forall in CR.
  destruct (CR e (nth_error_In _ _ FR)) as (b0 & Hb & M & B2 & B3). rewrite EI, EK in M. rewrite EK in B3. assert (b0 = b) by congruence. subst b0. cbn [canonical_payload] in B3.
  destruct (event_is en b e Hb M) as (C & EE). pose proof (proj1 C) as L21.
  destruct (amount_saved en 234 b cb Hb ltac:(lia) C B3 Bc Lc) as (Q1 & Q2 & Q3 & Q4). rewrite SC in Q3, Q4.
  set (d' := dset (auto_fields b) "lfo.amount" (VInt z)) in *.
  assert (WV : Event 234 KAutomation (zlen b) (new_of b) (VDict d') = with_val e (VDict d')) by (rewrite EE; reflexivity). rewrite WV in Q3, Q4.
  destruct (same_size_saved en f p h t r e (VDict d') (set_val h r (VDict d')) Hf H HC V LT (nth_error_In _ _ RR) E) as (f' & p' & S1 & S2 & S3 & S4 & S5).
  - rewrite EI. intros [X|X]; discriminate X.
  - intros b1 D0 D1 D2 D3. assert (b1 = b) by congruence. subst b1. rewrite EI, EK. exists (splice b 4 cb). auto.
  - now apply set_val_only.
  - exists (set_val h r (VDict d')), f', p', r. eexists _, (splice b 4 cb). split.
    + unfold prop_set. cbn [amount_prop p_readonly p_ids p_kind]. rewrite GE. cbn [target_write tg_set]. unfold struct_set. rewrite E, EE. reflexivity.
    + split; [exact S2|]. split; [exact S3|]. split; [exact S1|]. split; [exact Q3|]. split; [exact S4|].
      split; [pose proof (splice_same b 4 cb ltac:(lia)) as SS; rewrite Lc in SS; now rewrite SS|]. split; [apply splice_length; lia|].
      split; [intros o n D; apply slice_splice; lia|]. exact S5.
Qed.
Print Assumptions C72_amount.

(* ------------------------------------------------------------------ a clip with three points *)

Definition clip : bytes :=
  [1; 0; 0; 0] ++ [64; 0; 0; 0] ++ [0; 1; 2; 3; 4; 5; 6; 7; 8] ++ [3; 0; 0; 0] ++
  [0; 0; 0; 0; 0; 0; 0; 0] ++ [0; 0; 0; 0; 0; 0; 240; 63] ++ [0; 0; 0; 63] ++ [0; 0; 0; 2] ++         (* 0, 1.0, 0.5 *)
  [0; 0; 0; 0; 0; 0; 4; 64] ++ [0; 0; 0; 0; 0; 0; 224; 63] ++ [0; 0; 0; 0] ++ [0; 0; 0; 2] ++          (* +2.5, 0.5, 0 *)
  [0; 0; 0; 0; 0; 0; 248; 63] ++ [0; 0; 0; 0; 0; 0; 0; 0] ++ [0; 0; 128; 63] ++ [0; 0; 0; 2] ++        (* +1.5, 0, 1.0 *)
  [9; 9; 9].
Definition clip_cs : list chunk := [(199, ver20); (64, [1; 0]); (21, [5]); (234, clip); (64, [2; 0]); (21, [0])].
Definition clip_p : project := load (sample clip_cs).
Definition clip_h : heap := parsed (pr_events clip_p).
Definition clip_e : event := nth 3 (pr_events clip_p) (Event 0 KU8 0 false VNone).
Definition f64_2p5 : Z := 4612811918334230528.      (* 0x4004000000000000 *)
Definition f64_4 : Z := 4616189618054758400.        (* 0x4010000000000000 *)
Definition f64_quarter : Z := 4598175219545276416.  (* 0x3FD0000000000000 *)
Definition f64_tenth : Z := 4591870180066957722.    (* 0x3FB999999999999A *)
Example C72_case :
  is_bytes (sample clip_cs) /\ parse en0 (sample clip_cs) = Ok clip_p /\ canonical_file en0 (sample clip_cs) /\
  views (parsed (pr_events clip_p)) clip_h /\ session (pr_events clip_p) clip_h /\ In 3%nat (refs clip_h 0) /\ ev_of clip_h 3 = clip_e /\
  e_id clip_e = 234 /\ e_kind clip_e = KAutomation /\ payload en0 clip_e = Ok clip /\ point_count clip = 3 /\
  M_Models.points clip_h 0 = Ok [ItModel 3 0; ItModel 3 1; ItModel 3 2] /\
  map (fun i => prop_get en0 clip_h (ItModel 3 i) (point_prop "position")) (seq 0 3) = [Ok (VFlt 0); Ok (VFlt f64_2p5); Ok (VFlt f64_4)] /\
  sums_fit clip 2 /\ total clip 2 = 4 * one /\
  point_stores "value" (VFlt f64_quarter) 8 (le 8 f64_quarter) /\ point_stores "tension" (VFlt f64_tenth) 16 [205; 204; 204; 61].
Proof.
  destruct (sample_ok clip_cs ltac:(vm_compute; reflexivity)) as [A B]. split; [exact A|]. split; [vm_compute; reflexivity|]. split; [exact B|].
  split; [apply views_none|]. split; [apply ses_load|]. split; [vm_compute; tauto|]. split; [vm_compute; reflexivity|]. do 3 (split; [vm_compute; reflexivity|]).
  do 3 (split; [vm_compute; reflexivity|]). split.
  - exists 1073. split; [lia|]. intros j J.
    destruct j as [|[|[|j]]]; [| | |lia]; (split; [split; [split; [vm_compute; discriminate|vm_compute; reflexivity]|vm_compute; reflexivity]|]).
    + exists 0. split; vm_compute; reflexivity.
    + exists 5. split; vm_compute; reflexivity.
    + exists 3. split; vm_compute; reflexivity.
  - split; [vm_compute; reflexivity|]. split; [apply ps_value; vm_compute; split; [discriminate|reflexivity]|].
    change [205; 204; 204; 61] with (le 4 1036831949). apply ps_tension. vm_compute. reflexivity.
Qed.
(* and what comes of it *)
Definition clip_again (i : nat) (k : string) (v : val) : list (res val) :=
  match serialise en0 (Project (root_events (fst (prop_set en0 clip_h (ItModel 3 i) (point_prop k) v))) 2 0 96) with
  | Ok f' => map (fun '(j, k) => prop_get en0 (parsed (pr_events (load f'))) (ItModel 3 j) (point_prop k))
               (list_prod (seq 0 3) ["value"; "tension"; "position"]%string)
  | Err x => [Err x]
  end.
Example C72_again :
  clip_again 1 "value" (VFlt f64_quarter) = map (fun x => Ok (VFlt x))
    [4607182418800017408; 4602678819172646912; 0; f64_quarter; 0; f64_2p5; 0; 4607182418800017408; f64_4] /\
  clip_again 0 "tension" (VFlt f64_tenth) = map (fun x => Ok (VFlt x))
    [4607182418800017408; 4591870180174331904; 0; 4602678819172646912; 0; f64_2p5; 0; 4607182418800017408; f64_4] /\
  clip_again 2 "value" (VInt 1) = map (fun x => Ok (VFlt x))
    [4607182418800017408; 4602678819172646912; 0; 4602678819172646912; 0; f64_2p5; 4607182418800017408; 4607182418800017408; f64_4].
Proof. vm_compute. repeat split. Qed.
