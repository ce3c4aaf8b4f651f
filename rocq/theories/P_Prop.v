(* Descriptors: the chosen event, writes, flags, slices. *)
From Coq Require Import String ZArith List Bool Lia Arith.
From Verif Require Import M_Base M_Construct M_Structs M_Events M_Tree M_Prop.
From Verif Require Import S_Tree S_Prop P_Base P_TreeBase P_Tree P_TreeEdit.
Import ListNotations.
Open Scope Z_scope.

(* ------------------------------------------------------------------ the event *)

Lemma contains_spec h t id : contains h t id = true <-> exists c, In c (lst_of h t) /\ id_of h c = id.
Proof.
  unfold contains. rewrite existsb_exists. split; intros (c & I & E); exists c; (split; [exact I|]); lia.
Qed.

Lemma nth_error_events h t k : nth_error (events h t) k = option_map (e_of h) (nth_error (lst_of h t) k).
Proof. unfold events. rewrite nth_error_map. reflexivity. Qed.

Lemma in_events h t e : In e (events h t) <-> exists c, In c (lst_of h t) /\ e_of h c = e.
Proof. unfold events. rewrite in_map_iff. firstorder. Qed.

(* head of a filtered list *)
Lemma filter_head A (f : A -> bool) l x r : filter f l = x :: r ->
  exists k, nth_error l k = Some x /\ f x = true /\
    forall j y, (j < k)%nat -> nth_error l j = Some y -> f y = false.
Proof.
  induction l as [|a l IH]; [discriminate|]. cbn [filter]. destruct (f a) eqn:E; intros H.
  - injection H as -> _. exists 0%nat. split; [reflexivity|]. split; [exact E|]. lia.
  - destruct (IH H) as (k & K & F & J). exists (S k). split; [exact K|]. split; [exact F|].
    intros [|j] y Hj Hy; [injection Hy as <-; exact E|]. apply (J j y); [lia|exact Hy].
Qed.
Lemma filter_nil A (f : A -> bool) l : filter f l = [] -> forall x, In x l -> f x = false.
Proof.
  induction l as [|a l IH]; [contradiction|]. cbn [filter]. destruct (f a) eqn:E; [discriminate|].
  intros H x [<-|I]; auto.
Qed.

(* the event found is the chosen one *)
Lemma first_of_spec h t : forall ids,
  match first_of h t ids with
  | Some r => exists k c, chosen ids (events h t) (Some k) /\ nth_error (lst_of h t) k = Some c /\ ref_of h c = r
  | None => chosen ids (events h t) None
  end.
Proof.
  induction ids as [|id ids IH]; cbn [first_of]; [apply ch_none; intros e _ []|].
  destruct (contains h t id) eqn:C.
  - destruct (get_ie h t [id]) as [|c r] eqn:G.
    + exfalso. apply contains_spec in C as (c & I & E). pose proof (filter_nil _ _ _ G c I) as F.
      cbv beta in F. rewrite mem_Z_1 in F. lia.
    + destruct (filter_head _ _ _ _ _ G) as (k & K & F & J). rewrite mem_Z_1 in F. exists k, c.
      split; [|split; [exact K|reflexivity]].
      apply (ch_some _ _ [] id ids k (e_of h c)); try reflexivity; [intros ? ? []| | |].
      * rewrite nth_error_events, K. reflexivity.
      * unfold id_of in F. lia.
      * intros j e' Hj Hn. rewrite nth_error_events in Hn.
        destruct (nth_error (lst_of h t) j) as [d|] eqn:D; [|discriminate]. cbn in Hn. injection Hn as <-.
        pose proof (J j d Hj D) as X. rewrite mem_Z_1 in X. unfold id_of in X. lia.
  - assert (N : forall e, In e (events h t) -> e_id e <> id).
    { intros e I E. apply in_events in I as (c & I & <-).
      assert (contains h t id = true) by (apply contains_spec; exists c; auto). congruence. }
    destruct (first_of h t ids) as [r|].
    + destruct IH as (k & c & H & K & R). exists k, c. split; [|auto].
      inversion H as [ids1 id' ids2 k' e HI HN HE HID HJ| ]; subst.
      apply (ch_some _ _ (id :: ids1) (e_id e) ids2 k e); auto.
      intros e' I [E|E]; [now apply (N e')|]. now apply (HN e' I).
    + inversion IH; subst. apply ch_none. intros e I [E|E]; [now apply (N e)|]. now apply (H e I).
Qed.

Lemma chosen_fun ids evs a : chosen ids evs a -> forall b, chosen ids evs b -> a = b.
Proof.
  assert (X : forall (ids1 : list Z) (id : Z) ids2 ids1' id' ids2',
    ids1 ++ id :: ids2 = ids1' ++ id' :: ids2' ->
    (ids1 = ids1' /\ id = id') \/ In id ids1' \/ In id' ids1).
  { clear. induction ids1 as [|x a IH]; intros id b [|y a'] id' b' H; cbn in H; injection H as -> H.
    - left. auto.
    - right. left. left. reflexivity.
    - right. right. left. reflexivity.
    - destruct (IH _ _ _ _ _ H) as [[-> ->]|[I|I]]; [left; auto|right; left; now right|right; right; now right]. }
  intros [ids1 id ids2 k e HI HN HE HID HJ|HN] b [ids1' id' ids2' k' e' HI' HN' HE' HID' HJ'|HN']; subst.
  - destruct (X _ _ _ _ _ _ HI') as [[_ E]|[I|I]].
    + destruct (lt_eq_lt_dec k k') as [[L| ->]|L]; [|reflexivity|].
      * exfalso. apply (HJ' k e L HE). congruence.
      * exfalso. apply (HJ k' e' L HE'). congruence.
    + exfalso. apply (HN' e); [eapply nth_error_In; eauto|exact I].
    + exfalso. apply (HN e'); [eapply nth_error_In; eauto|exact I].
  - exfalso. apply (HN' e); [eapply nth_error_In; eauto|]. apply in_or_app. right. now left.
  - exfalso. apply (HN e'); [eapply nth_error_In; eauto|]. apply in_or_app. right. now left.
  - reflexivity.
Qed.
Lemma chosen_total ids evs : exists o, chosen ids evs o.
Proof.
  pose proof (first_of_spec (parsed evs) 0 ids) as H. rewrite parsed_events in H.
  destruct (first_of (parsed evs) 0 ids); [destruct H as (k & c & H & _)|]; eauto.
Qed.

Lemma get_event_spec h t ids : ids <> [] ->
  (forall k, chosen ids (events h t) (Some k) -> exists c, nth_error (lst_of h t) k = Some c /\
     get_event h ids (EvModel t) = Ok (Some (TEvent (ref_of h c)))) /\
  (chosen ids (events h t) None -> get_event h ids (EvModel t) = Ok None).
Proof.
  intros NE. pose proof (first_of_spec h t ids) as H. unfold get_event. destruct ids as [|i ids]; [congruence|].
  destruct (first_of h t (i :: ids)) as [r|]; cbn [option_map].
  - destruct H as (k & c & H & K & <-). split.
    + intros k' H'. pose proof (chosen_fun _ _ _ H _ H') as E. injection E as <-. eauto.
    + intros H'. pose proof (chosen_fun _ _ _ H _ H'). discriminate.
  - split; [|auto]. intros k' H'. pose proof (chosen_fun _ _ _ H _ H'). discriminate.
Qed.

(* ------------------------------------------------------------------ the heap *)

Lemma nth_lset A (l : list A) i x j d : nth j (lset l i x) d = if (j =? i)%nat && (i <? length l)%nat then x else nth j l d.
Proof.
  revert i j. induction l as [|a l IH]; intros [|i] [|j]; cbn [lset nth length]; try reflexivity;
    try (rewrite IH; reflexivity); destruct (_ =? _)%nat; reflexivity.
Qed.
Lemma lset_length A (l : list A) i x : length (lset l i x) = length l.
Proof. revert i. induction l as [|a l IH]; intros [|i]; cbn [lset length]; auto. Qed.
Lemma nth_error_lset A (l : list A) i x j : nth_error (lset l i x) j =
  if (j =? i)%nat && (i <? length l)%nat then Some x else nth_error l j.
Proof.
  revert i j. induction l as [|a l IH]; intros [|i] [|j]; cbn [lset nth_error length]; try reflexivity;
    try (rewrite IH; reflexivity); destruct (_ =? _)%nat; reflexivity.
Qed.

(* only the value of event object [r] differs *)
Definition only_value (h : heap) (r : nat) (v : val) (h' : heap) : Prop :=
  h_cells h' = h_cells h /\ h_trees h' = h_trees h /\ length (h_evs h') = length (h_evs h) /\
  (forall s, s <> r -> ev_of h' s = ev_of h s) /\ ev_of h' r = with_val (ev_of h r) v.

Lemma set_val_only h r v : (r < length (h_evs h))%nat -> only_value h r v (set_val h r v).
Proof.
  intros L. unfold set_val, set_event. repeat split; cbn [h_evs h_cells h_trees].
  - apply lset_length.
  - intros s N. unfold ev_of. cbn [h_evs]. rewrite nth_lset.
    replace (s =? r)%nat with false by (symmetry; now apply Nat.eqb_neq). reflexivity.
  - unfold ev_of at 1. cbn [h_evs]. rewrite nth_lset, Nat.eqb_refl.
    replace (r <? length (h_evs h))%nat with true by (symmetry; now apply Nat.ltb_lt). reflexivity.
Qed.

Lemma only_value_lst h r v h' : only_value h r v h' -> forall t, lst_of h' t = lst_of h t.
Proof. intros (_ & T & _) t. unfold lst_of, tree_of. now rewrite T. Qed.
Lemma only_value_cell h r v h' : only_value h r v h' -> forall c, cell_of h' c = cell_of h c.
Proof. intros (C & _) c. unfold cell_of. now rewrite C. Qed.

(* references of the events of a tree *)
Definition refs (h : heap) (t : nat) : list nat := map (ref_of h) (lst_of h t).
Lemma events_refs h t : events h t = map (ev_of h) (refs h t).
Proof. unfold events, refs. now rewrite map_map. Qed.
Lemma only_value_refs h r v h' : only_value h r v h' -> forall t, refs h' t = refs h t.
Proof.
  intros O t. unfold refs, ref_of. rewrite (only_value_lst _ _ _ _ O).
  apply map_ext. intros c. now rewrite (only_value_cell _ _ _ _ O).
Qed.

Lemma only_value_revalued h r v h' t k : only_value h r v h' -> NoDup (refs h t) ->
  nth_error (refs h t) k = Some r -> revalued (events h t) k v (events h' t).
Proof.
  intros O ND K. pose proof (only_value_refs _ _ _ _ O t) as R. destruct O as (_ & _ & _ & O1 & O2).
  rewrite !events_refs, R. split; [now rewrite !map_length|]. split.
  - intros j N. rewrite !nth_error_map. destruct (nth_error (refs h t) j) as [s|] eqn:E; [|reflexivity].
    cbn. f_equal. apply O1. intros ->. apply N. eapply NoDup_nth_error; eauto.
    + apply nth_error_Some. congruence.
    + congruence.
  - exists (ev_of h r), (ev_of h' r). rewrite !nth_error_map, K. cbn [option_map]. rewrite O2. repeat split.
Qed.
Lemma only_value_same h r v h' t : only_value h r v h' -> ~ In r (refs h t) -> events h' t = events h t.
Proof.
  intros O N. pose proof (only_value_refs _ _ _ _ O t) as R. destruct O as (_ & _ & _ & O1 & _).
  rewrite !events_refs, R. apply map_ext_in. intros s I. apply O1. intros ->. contradiction.
Qed.

(* ids are untouched, so the same event is chosen afterwards *)
Lemma only_value_ids h r v h' t : only_value h r v h' -> map e_id (events h' t) = map e_id (events h t).
Proof.
  intros O. rewrite !events_refs, (only_value_refs _ _ _ _ O), !map_map. apply map_ext. intros s.
  destruct O as (_ & _ & _ & O1 & O2). destruct (Nat.eq_dec s r) as [->|N]; [now rewrite O2|now rewrite O1].
Qed.
Lemma chosen_ids ids a b o : map e_id a = map e_id b -> chosen ids a o -> chosen ids b o.
Proof.
  intros E H. assert (I : forall e, In e b -> exists e', In e' a /\ e_id e' = e_id e).
  { intros e X. apply (in_map e_id) in X. rewrite <- E in X. apply in_map_iff in X. firstorder. }
  assert (N : forall k e, nth_error b k = Some e -> exists e', nth_error a k = Some e' /\ e_id e' = e_id e).
  { intros k e X. apply (map_nth_error e_id) in X. rewrite <- E, nth_error_map in X.
    destruct (nth_error a k) as [e'|]; [|discriminate]. exists e'. cbn in X. split; congruence. }
  assert (N' : forall k e, nth_error a k = Some e -> exists e', nth_error b k = Some e' /\ e_id e' = e_id e).
  { intros k e X. apply (map_nth_error e_id) in X. rewrite E, nth_error_map in X.
    destruct (nth_error b k) as [e'|]; [|discriminate]. exists e'. cbn in X. split; congruence. }
  destruct H as [ids1 id ids2 k e HI HN HE HID HJ|HN].
  - destruct (N' _ _ HE) as (e2 & E2 & E3). apply (ch_some _ _ ids1 id ids2 k e2); auto; try congruence.
    + intros e' X Y. destruct (I _ X) as (e'' & Z1 & Z2). apply (HN e'' Z1). congruence.
    + intros j e' L X. destruct (N _ _ X) as (e'' & Z1 & Z2). rewrite <- Z2. eauto.
  - apply ch_none. intros e X Y. destruct (I _ X) as (e'' & Z1 & Z2). apply (HN e'' Z1). congruence.
Qed.

(* ------------------------------------------------------------------ the lens *)

Definition in_heap (h : heap) (t : nat) : Prop :=
  Forall (fun r => (r < length (h_evs h))%nat) (refs h t).

Lemma event_prop_get en h t ids d ro o : ids <> [] -> chosen ids (events h t) o ->
  prop_get en h (EvModel t) (MkProp ids d ro PEvent) =
    Ok (match o with
        | Some k => match value_at (events h t) k with Some v => v | None => d end
        | None => d
        end).
Proof.
  intros NE H. destruct (get_event_spec h t ids NE) as [A B]. unfold prop_get. cbn [p_ids p_kind p_default].
  destruct o as [k|].
  - destruct (A k H) as (c & K & ->). cbn [bind target_read]. unfold value_at. rewrite nth_error_events, K.
    reflexivity.
  - rewrite (B H). reflexivity.
Qed.

Lemma event_prop_set en h t ids d v k : ids <> [] -> in_heap h t -> chosen ids (events h t) (Some k) ->
  exists r h', nth_error (refs h t) k = Some r /\
    prop_set en h (EvModel t) (MkProp ids d false PEvent) v = (h', Ok tt) /\ only_value h r v h'.
Proof.
  intros NE W H. destruct (get_event_spec h t ids NE) as [A _]. destruct (A k H) as (c & K & E).
  exists (ref_of h c), (set_val h (ref_of h c) v).
  assert (R : nth_error (refs h t) k = Some (ref_of h c)) by (unfold refs; now rewrite nth_error_map, K).
  split; [exact R|]. split.
  - unfold prop_set. cbn [p_ids p_kind p_readonly]. rewrite E. reflexivity.
  - apply set_val_only. unfold in_heap in W. rewrite Forall_forall in W. apply W. eapply nth_error_In; eauto.
Qed.

Lemma event_prop_refused en h t ids d ro v : ids <> [] -> (ro = true \/ chosen ids (events h t) None) ->
  prop_set en h (EvModel t) (MkProp ids d ro PEvent) v = (h, Err PropertyCannotBeSet).
Proof.
  intros NE H. unfold prop_set. cbn [p_readonly p_ids]. destruct ro; [reflexivity|].
  destruct H as [H|H]; [discriminate|]. destruct (get_event_spec h t ids NE) as [_ B]. now rewrite (B H).
Qed.

(* ------------------------------------------------------------------ flags *)

(* a member of an IntFlag class whose members' union is [mask] *)
Definition good_flag (mask f : Z) : Prop := 0 < mask /\ 0 < f /\ Z.land f mask = f.

Lemma good_flag_le mask f : good_flag mask f -> f <= mask.
Proof.
  intros (M & F & L). rewrite <- L. apply Z.ldiff_le; [lia|].
  apply Z.bits_inj'. intros i Hi. rewrite Z.ldiff_spec, Z.land_spec, Z.bits_0.
  destruct (Z.testbit f i), (Z.testbit mask i); reflexivity.
Qed.
Lemma good_flag_bit mask f i : good_flag mask f -> Z.testbit f i = true -> Z.testbit mask i = true.
Proof.
  intros (M & F & L) T. rewrite <- L, Z.land_spec in T. apply andb_true_iff in T. tauto.
Qed.
Lemma good_flag_high mask f i : good_flag mask f -> Z.log2 mask < i -> Z.testbit f i = false.
Proof.
  intros G H. destruct (Z.testbit f i) eqn:E; [|reflexivity].
  pose proof (good_flag_bit _ _ _ G E) as X. rewrite Z.bits_above_log2 in X; [discriminate|destruct G; lia|exact H].
Qed.

Lemma norm_old mask v : intflag_norm false mask v = v.
Proof. reflexivity. Qed.
Lemma norm_nonneg b mask v : 0 < mask -> 0 <= v -> intflag_norm b mask v = v.
Proof.
  intros M V. destruct b; [|reflexivity]. unfold intflag_norm. cbv zeta.
  replace (v <? 0) with false by lia.
  match goal with |- context [if ?c then v else v] => destruct c end; replace (v <? 0) with false by lia; reflexivity.
Qed.

Definition ones (n : Z) : Z := 2 ^ (n + 1) - 1.
Lemma ones_ones n : 0 <= n -> ones n = Z.ones (n + 1).
Proof. intros. unfold ones. rewrite Z.ones_equiv. lia. Qed.
Lemma norm_invert mask f : good_flag mask f ->
  intflag_norm true mask (Z.lnot f) = Z.ldiff (ones (Z.log2 mask)) f.
Proof.
  intros G. pose proof (good_flag_le _ _ G) as LE. destruct G as (M & F & L). pose (G := conj M (conj F L) : good_flag mask f).
  set (n := Z.log2 mask) in *. assert (Hn : 0 <= n) by apply Z.log2_nonneg.
  assert (B : mask < 2 ^ (n + 1)) by (apply Z.log2_lt_pow2; [exact M|]; fold n; lia).
  assert (D : Z.ldiff (ones n) f = ones n - f).
  { symmetry. apply Z.sub_nocarry_ldiff. apply Z.bits_inj'. intros i Hi.
    rewrite Z.ldiff_spec, Z.bits_0, ones_ones by exact Hn. destruct (Z.testbit f i) eqn:T; [|reflexivity].
    rewrite Z.ones_spec_low; [reflexivity|]. split; [exact Hi|].
    destruct (Z.ltb_spec n i) as [H|H]; [|lia]. rewrite (good_flag_high _ _ _ G) in T; [discriminate|exact H]. }
  rewrite D. unfold intflag_norm. cbv zeta. fold n. fold (ones n).
  assert (O : ones n = 2 ^ (n + 1) - 1) by reflexivity.
  replace (Z.lnot f) with (- f - 1) by (unfold Z.lnot; lia).
  replace ((- ones n - 1 <=? - f - 1) && (- f - 1 <=? ones n)) with true by lia. cbn [negb orb].
  destruct (Z.land (- f - 1) (Z.lxor (ones n) mask) =? 0) eqn:E; cbn [negb].
  - replace (- f - 1 <? 0) with true by lia. lia.
  - replace (- f - 1 <? 0) with true by lia.
    assert (NE : mask <> ones n) by (intros X; rewrite X, Z.lxor_nilpotent, Z.land_0_r in E; discriminate).
    assert (P : 2 ^ (if Z.abs (- f - 1) =? 0 then 0 else Z.log2 (Z.abs (- f - 1)) + 1) <= 2 ^ (n + 1)).
    { apply Z.pow_le_mono_r; [lia|]. replace (Z.abs (- f - 1)) with (f + 1) by lia.
      replace (f + 1 =? 0) with false by lia. assert (Z.log2 (f + 1) < n + 1); [|lia].
      apply Z.log2_lt_pow2; lia. }
    rewrite Z.max_l by lia.
    match goal with |- context [if ?c <? 0 then _ else _] => replace (c <? 0) with false by lia end. lia.
Qed.

Definition cleared (py311 : bool) (mask f z w : Z) : Prop :=
  if py311 then bits_set_below (Z.log2 mask) z f false w else bits_set z f false w.

Lemma land_flag z f : Z.land z f = f <-> (forall i, 0 <= i -> Z.testbit f i = true -> Z.testbit z i = true).
Proof.
  split.
  - intros E i Hi T. rewrite <- E, Z.land_spec in T. apply andb_true_iff in T. tauto.
  - intros H. apply Z.bits_inj'. intros i Hi. rewrite Z.land_spec. destruct (Z.testbit f i) eqn:T; [|apply andb_false_r].
    now rewrite (H i Hi T).
Qed.
Lemma has_bit f : 0 < f -> Z.testbit f (Z.log2 f) = true.
Proof. apply Z.bit_log2. Qed.

(* what flag arithmetic does to a number *)
Lemma flag_write_spec py mask f v z (b : bool) : good_flag mask f -> number v z -> (py = true -> 0 <= z) ->
  exists w y, (if b then flag_or else flag_andnot) py mask f v = Ok w /\ number w y /\
    (if b then bits_set z f true y else cleared py mask f z y) /\
    flag_in py mask f w = Ok b /\ (0 <= z -> 0 <= y).
Proof.
  intros G N P. pose proof (good_flag_le _ _ G) as LE. destruct G as (M & F & L). pose (G := conj M (conj F L) : good_flag mask f).
  assert (NN : forall v z, number v z -> as_int v = Some z).
  { intros v' z' [->|[->|(c & -> & ->)]]; reflexivity. }
  destruct b.
  - set (y := Z.lor z f).
    assert (Y : py = true -> 0 <= y) by (intros X; apply Z.lor_nonneg; split; [auto|lia]).
    assert (BS : bits_set z f true y).
    { intros i Hi. unfold y. rewrite Z.lor_spec. destruct (Z.testbit f i), (Z.testbit z i); reflexivity. }
    assert (NY : intflag_norm py mask y = y) by (destruct py; [apply norm_nonneg; [exact M|auto]|reflexivity]).
    assert (IN : Z.land y f = f) by (apply land_flag; intros i Hi T; rewrite BS, T by exact Hi; reflexivity).
    assert (Y' : 0 <= z -> 0 <= y) by (intros; apply Z.lor_nonneg; lia).
    destruct N as [->|[->|(c & -> & ->)]]; cbn [flag_or]; unfold flag_in; cbn [as_int].
    + fold y. rewrite NY. exists (VEnum y), y. split; [reflexivity|]. split; [right; now left|]. split; [exact BS|].
      split; [|exact Y']. cbn [as_int]. rewrite NY, IN, Z.eqb_refl. reflexivity.
    + fold y. rewrite NY. exists (VEnum y), y. split; [reflexivity|]. split; [right; now left|]. split; [exact BS|].
      split; [|exact Y']. cbn [as_int]. rewrite NY, IN, Z.eqb_refl. reflexivity.
    + replace (Z.b2z c) with (if c then 1 else 0) by reflexivity. fold y. exists (VInt y), y.
      split; [reflexivity|]. split; [now left|]. split; [exact BS|].
      split; [|exact Y']. cbn [as_int]. rewrite NY, IN, Z.eqb_refl. reflexivity.
  - set (y := Z.land z (flag_invert py mask f)).
    assert (BS : cleared py mask f z y).
    { unfold cleared, y, flag_invert. destruct py.
      - rewrite norm_invert by exact G. intros i Hi. rewrite Z.land_spec, Z.ldiff_spec, ones_ones by apply Z.log2_nonneg.
        destruct (Z.ltb_spec (Z.log2 mask) i).
        + rewrite Z.ones_spec_high by (pose proof (Z.log2_nonneg mask); lia). apply andb_false_r.
        + rewrite Z.ones_spec_low by lia. destruct (Z.testbit f i), (Z.testbit z i); reflexivity.
      - intros i Hi. rewrite norm_old, Z.land_spec, Z.lnot_spec by exact Hi.
        destruct (Z.testbit f i), (Z.testbit z i); reflexivity. }
    assert (Y' : 0 <= z -> 0 <= y) by (intros; unfold y; apply Z.land_nonneg; now left).
    assert (Y : py = true -> 0 <= y) by auto.
    assert (NY : intflag_norm py mask y = y) by (destruct py; [apply norm_nonneg; [exact M|auto]|reflexivity]).
    assert (IN : Z.land y f <> f).
    { intros X. pose proof (proj1 (land_flag y f) X (Z.log2 f) (Z.log2_nonneg f) (has_bit f F)) as T.
      pose proof (has_bit f F) as T2. unfold cleared in BS.
      destruct py; rewrite BS in T by apply Z.log2_nonneg; rewrite T2 in T; [destruct (_ <? _)|]; discriminate. }
    assert (IN' : (Z.land y f =? f) = false) by (apply Z.eqb_neq; exact IN).
    destruct N as [->|[->|(c & -> & ->)]]; cbn [flag_andnot]; unfold flag_in; cbn [as_int].
    + fold y. rewrite NY. exists (VEnum y), y. split; [reflexivity|]. split; [right; now left|]. split; [exact BS|].
      split; [|exact Y']. cbn [as_int]. rewrite NY, IN'. reflexivity.
    + fold y. rewrite NY. exists (VEnum y), y. split; [reflexivity|]. split; [right; now left|]. split; [exact BS|].
      split; [|exact Y']. cbn [as_int]. rewrite NY, IN'. reflexivity.
    + replace (Z.b2z c) with (if c then 1 else 0) by reflexivity. fold y. exists (VInt y), y.
      split; [reflexivity|]. split; [now left|]. split; [exact BS|].
      split; [|exact Y']. cbn [as_int]. rewrite NY, IN'. reflexivity.
Qed.

(* ------------------------------------------------------------------ writing a target *)

Definition target_ok (h : heap) (g : target) : Prop :=
  match g with TEvent r => (r < length (h_evs h))%nat | TItem r _ => (r < length (h_evs h))%nat end.
Definition target_ref (g : target) : nat := match g with TEvent r => r | TItem r _ => r end.

Lemma dget_dset d k v : dget (dset d k v) k = Some v.
Proof.
  induction d as [|[k' v'] d IH]; cbn [dset dget]; [now rewrite String.eqb_refl|].
  destruct (String.eqb k' k) eqn:E; cbn [dget]; rewrite E; [reflexivity|exact IH].
Qed.
Lemma dget_dset_other d k v k' : k' <> k -> dget (dset d k v) k' = dget d k'.
Proof.
  intros N. induction d as [|[a b] d IH]; cbn [dset dget].
  - destruct (String.eqb_spec k k'); [congruence|reflexivity].
  - destruct (String.eqb_spec a k) as [->|]; cbn [dget].
    + destruct (String.eqb_spec k k'); [congruence|reflexivity].
    + now rewrite IH.
Qed.
Lemma dset_keys d k v w : dget d k = Some w -> map fst (dset d k v) = map fst d.
Proof.
  induction d as [|[a b] d IH]; cbn [dset dget]; [discriminate|].
  destruct (String.eqb a k); intros H; cbn [map fst]; [reflexivity|]. now rewrite IH.
Qed.
Lemma dset_updated d k v w : dget d k = Some w -> dict_updated d k v (dset d k v).
Proof.
  intros H. split; [eapply dset_keys; eauto|]. split; [apply dget_dset|]. intros k' N. now apply dget_dset_other.
Qed.

Lemma set_event_only h r e : (r < length (h_evs h))%nat -> e = with_val (ev_of h r) (e_val e) ->
  only_value h r (e_val e) (set_event h r e).
Proof. intros L E. pose proof (set_val_only h r (e_val e) L) as X. unfold set_val in X. rewrite <- E in X. exact X. Qed.

Lemma items_set h r i e d : ev_of h r = e -> nth_error (items e) i = Some d ->
  forall l, items (set_items e l) = l.
Proof.
  intros _ N l. unfold items, set_items in *. destruct e as [id k L w v]; cbn [e_val with_val] in *.
  destruct v; try (destruct i; discriminate).
  - unfold list_usable in *. cbn [e_kind e_len e_id e_new with_val] in *.
    match goal with |- context [if ?c then _ else _] => destruct c; [reflexivity|destruct i; discriminate] end.
  - now rewrite dget_dset.
Qed.

(* a successful (or refused) item write changes the value of one event only, and
   the item reads back *)
Lemma tg_set_spec h g k v h' a : target_ok h g -> tg_set h g k v = (h', a) ->
  (h' = h /\ exists x, a = Err x) \/
  (exists w, only_value h (target_ref g) w h' /\ tg_get h' g k = Ok v /\
     (forall k', k' <> k -> tg_get h' g k' = tg_get h g k') /\
     a = Ok tt).
Proof.
  intros T H. destruct g as [r|r i]; cbn [tg_set target_ok target_ref tg_get] in *.
  - destruct (struct_set (ev_of h r) k v) as [w|x] eqn:E; injection H as <- <-; [|left; eauto].
    right. exists w. pose proof (set_val_only h r w T) as O. split; [exact O|].
    destruct O as (_ & _ & _ & _ & O). rewrite O. unfold struct_set, struct_get in *. cbn [with_val e_kind e_val].
    destruct (is_struct_kind (e_kind (ev_of h r))); [|discriminate].
    destruct (e_val (ev_of h r)) as [| | | | | | | | |d]; try discriminate.
    destruct (dget d k) as [old|] eqn:D; [|discriminate].
    assert (w = VDict (dset d k v)) as -> by (destruct old; congruence). unfold dindex.
    split; [now rewrite dget_dset|]. split; [intros k' N; now rewrite dget_dset_other|reflexivity].
  - destruct (nth_error (items (ev_of h r)) i) as [v0|] eqn:N.
    2: injection H as <- <-; left; eauto.
    destruct v0 as [| | | | | | | | |d]; try (injection H as <- <-; left; eauto; fail).
    set (l' := lset (items (ev_of h r)) i (VDict (dset d k v))) in *.
    assert (W : set_items (ev_of h r) l' = with_val (ev_of h r) (e_val (set_items (ev_of h r) l'))).
    { unfold set_items. destruct (ev_of h r); reflexivity. }
    pose proof (set_event_only h r _ T W) as O. injection H as <- <-.
    right. eexists. split; [exact O|].
    assert (EV : ev_of (set_event h r (set_items (ev_of h r) l')) r = set_items (ev_of h r) l').
    { destruct O as (_ & _ & _ & _ & O). rewrite O. symmetry. exact W. }
    rewrite EV, (items_set h r i _ _ eq_refl N l'). unfold l'. rewrite !nth_error_lset, Nat.eqb_refl.
    assert (LT : (i < length (items (ev_of h r)))%nat) by (apply nth_error_Some; congruence).
    replace (i <? length (items (ev_of h r)))%nat with true by (symmetry; now apply Nat.ltb_lt). cbn [andb].
    unfold dindex. rewrite dget_dset. split; [reflexivity|]. split.
    + intros k' NE. now rewrite dget_dset_other.
    + reflexivity.
Qed.

Lemma get_event_ext h h' ids m : h_cells h' = h_cells h -> h_trees h' = h_trees h ->
  (forall c, id_of h' c = id_of h c) -> get_event h' ids m = get_event h ids m.
Proof.
  intros C T I. destruct m as [t|]; [|reflexivity]. unfold get_event.
  assert (L : forall t, lst_of h' t = lst_of h t) by (intros; unfold lst_of, tree_of; now rewrite T).
  assert (R : forall c, ref_of h' c = ref_of h c) by (intros; unfold ref_of, cell_of; now rewrite C).
  assert (G : forall id, get_ie h' t [id] = get_ie h t [id]).
  { intros. unfold get_ie. rewrite L. apply filter_ext. intros. now rewrite I. }
  assert (K : forall id, contains h' t id = contains h t id).
  { intros. unfold contains. rewrite L. induction (lst_of h t) as [|c l IH]; [reflexivity|]. cbn [existsb]. now rewrite I, IH. }
  destruct ids as [|i ids].
  - rewrite L. destruct (lst_of h t) as [|c [|d l]]; try reflexivity. now rewrite R.
  - f_equal. f_equal. remember (i :: ids) as l. clear Heql i ids. induction l as [|i l IH]; [reflexivity|].
    cbn [first_of]. rewrite K, G. destruct (contains h t i); [|exact IH].
    destruct (get_ie h t [i]); [reflexivity|]. now rewrite R.
Qed.
Lemma only_value_id h r v h' : only_value h r v h' -> forall c, id_of h' c = id_of h c.
Proof.
  intros O c. unfold id_of, e_of. rewrite (only_value_cell _ _ _ _ O).
  destruct O as (_ & _ & _ & O1 & O2). destruct (Nat.eq_dec (c_e (cell_of h c)) r) as [->|N]; [now rewrite O2|now rewrite O1].
Qed.
Lemma only_value_get_event h r v h' ids m : only_value h r v h' -> get_event h' ids m = get_event h ids m.
Proof. intros O. apply get_event_ext; [apply O|apply O|]. now apply (only_value_id _ _ _ _ O). Qed.
Lemma only_value_target h r v h' g : only_value h r v h' -> target_ok h g -> target_ok h' g.
Proof. intros (_ & _ & L & _). destruct g; cbn; now rewrite L. Qed.
Lemma only_value_kind h r v h' s : only_value h r v h' -> e_kind (ev_of h' s) = e_kind (ev_of h s).
Proof.
  intros (_ & _ & _ & O1 & O2). destruct (Nat.eq_dec s r) as [->|N]; [now rewrite O2|now rewrite O1].
Qed.

Lemma flags_set_spec h g n w h' : target_ok h g -> flags_set h g n w = (h', Ok tt) ->
  exists u, only_value h (target_ref g) u h' /\ flags_get h' g n = Ok w.
Proof.
  intros T H. unfold flags_set, flags_get in *.
  assert (X : forall u, only_value h (target_ref g) u h' -> has_items h' g = has_items h g).
  { intros u O. destruct g; cbn [has_items]; [|reflexivity]. now rewrite (only_value_kind _ _ _ _ _ O). }
  destruct (has_items h g) eqn:E.
  - destruct (tg_set_spec _ _ _ _ _ _ T H) as [(_ & x & D)|(u & O & G & _ & _)]; [discriminate|].
    exists u. split; [exact O|]. rewrite (X u O). exact G.
  - destruct g as [r|r i]; [|discriminate]. injection H as <-. exists w.
    pose proof (set_val_only h r w T) as O. split; [exact O|]. rewrite (X w O).
    destruct O as (_ & _ & _ & _ & O). now rewrite O.
Qed.

(* Setting a flag property: what happens to the number, and what is read then *)
Lemma flag_prop_set en h m p n f mask inv g old z v h' :
  p_kind p = PFlag n f mask inv -> good_flag mask f ->
  get_event h (p_ids p) m = Ok (Some g) -> target_ok h g ->
  flags_get h g n = Ok old -> number old z -> (en_py311 en = true -> 0 <= z) ->
  prop_set en h m p v = (h', Ok tt) ->
  exists u w y, only_value h (target_ref g) u h' /\ flags_get h' g n = Ok w /\ number w y /\
    (if xorb inv (truthy v) then bits_set z f true y else cleared (en_py311 en) mask f z y) /\
    prop_get en h' m p = Ok (VBool (truthy v)).
Proof.
  intros K G E T F N P H. unfold prop_set in H. destruct (p_readonly p); [discriminate|].
  rewrite E in H. cbn [target_write] in H. rewrite K in H. cbn [target_write] in H. rewrite F in H. cbn [bind] in H.
  destruct (flag_write_spec (en_py311 en) mask f old z (xorb inv (truthy v)) G N P) as (w & y & W & NY & B & I & _).
  rewrite W in H. destruct (flags_set_spec _ _ _ _ _ T H) as (u & O & R).
  exists u, w, y. split; [exact O|]. split; [exact R|]. split; [exact NY|]. split; [exact B|].
  unfold prop_get. rewrite (only_value_get_event _ _ _ _ _ _ O), E. cbn [bind]. rewrite K. cbn [target_read].
  rewrite R. cbn [bind]. rewrite I. cbn [bind].
  assert (X : xorb inv (xorb inv (truthy v)) = truthy v) by (destruct inv, (truthy v); reflexivity). rewrite X.
  destruct NY as [->|[->|(c & -> & _)]]; reflexivity.
Qed.

(* ------------------------------------------------------------------ slices *)

Lemma slice_spec A (l : list A) a b : 0 <= a -> 0 <= b -> slice_models l (Some a) (Some b) = Ok (list_slice l a b).
Proof.
  intros Ha Hb. unfold slice_models. f_equal. unfold list_slice.
  assert (X : forall (l : list A) n, map snd (filter (fun x : nat * A => (a <=? Z.of_nat (fst x)) && (Z.of_nat (fst x) <? b))
              (combine (seq n (length l)) l)) =
            skipn (Z.to_nat a - n) (firstn (Z.to_nat b - n) l)).
  { clear l. induction l as [|x l IH]; intros n; cbn [length seq combine filter map].
    - now rewrite firstn_nil, skipn_nil.
    - cbn [fst]. destruct (Z.ltb_spec (Z.of_nat n) b) as [B|B].
      + replace (Z.to_nat b - n)%nat with (S (Z.to_nat b - S n)) by lia. cbn [firstn].
        destruct (Z.leb_spec a (Z.of_nat n)) as [L|L]; cbn [andb map snd].
        * rewrite IH. replace (Z.to_nat a - n)%nat with 0%nat by lia. replace (Z.to_nat a - S n)%nat with 0%nat by lia. reflexivity.
        * rewrite IH. replace (Z.to_nat a - n)%nat with (S (Z.to_nat a - S n)) by lia. reflexivity.
      + rewrite andb_false_r, IH. replace (Z.to_nat b - n)%nat with 0%nat by lia.
        replace (Z.to_nat b - S n)%nat with 0%nat by lia. cbn [firstn]. now rewrite !skipn_nil. }
  specialize (X l 0%nat). rewrite !Nat.sub_0_r in X. exact X.
Qed.
