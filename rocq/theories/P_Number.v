(* Lemmas for C65: giving a pattern another number. *)
From Coq Require Import String ZArith List Bool Lia Arith.
From Verif Require Import M_Base M_Events M_Tree M_Prop M_Project M_Items M_Collections M_Models.
From Verif Require Import S_Tree S_Prop S_Project S_Items S_Collections S_Models.
From Verif Require Import P_Base P_TreeBase P_Tree P_TreeEdit P_Prop P_Edit P_Project P_Items P_Patterns P_Session P_Models.
Import ListNotations.
Open Scope Z_scope.

(* values given to several events *)
Definition set_all (h : heap) (l : list nat) (v : val) : heap := fold_left (fun h c => set_val h (ref_of h c) v) l h.
Lemma set_all_shape v : forall l h, h_cells (set_all h l v) = h_cells h /\ h_trees (set_all h l v) = h_trees h /\ length (h_evs (set_all h l v)) = length (h_evs h).
Proof.
  induction l as [|c l IH]; intros h; [repeat split|]. cbn [set_all fold_left]. change (fold_left _ l ?a) with (set_all a l v).
  destruct (IH (set_val h (ref_of h c) v)) as (A & B & C). rewrite A, B, C. split; [reflexivity|]. split; [reflexivity|]. unfold set_val, set_event. cbn [h_evs]. apply lset_length.
Qed.
Lemma set_all_session evs v : forall l h, session evs h -> session evs (set_all h l v).
Proof. induction l as [|c l IH]; intros h S; [exact S|]. cbn [set_all fold_left]. apply IH. apply ses_edit; [exact S|reflexivity]. Qed.
Lemma set_all_ev v s : forall l h, ev_of (set_all h l v) s = if existsb (fun c => (ref_of h c =? s)%nat) l && (s <? length (h_evs h))%nat then with_val (ev_of h s) v else ev_of h s.
Proof.
  induction l as [|c l IH]; intros h; [reflexivity|]. cbn [set_all fold_left existsb]. change (fold_left _ l ?a) with (set_all a l v). rewrite IH.
  change (fun c0 => (ref_of (set_val h (ref_of h c) v) c0 =? s)%nat) with (fun c0 => (ref_of h c0 =? s)%nat).
  assert (E : ev_of (set_val h (ref_of h c) v) s = if (ref_of h c =? s)%nat && (s <? length (h_evs h))%nat then with_val (ev_of h s) v else ev_of h s).
  { unfold set_val, set_event, ev_of at 1. cbn [h_evs]. rewrite nth_lset. rewrite (Nat.eqb_sym s). destruct (Nat.eqb_spec (ref_of h c) s) as [->|]; reflexivity. }
  assert (LL : length (h_evs (set_val h (ref_of h c) v)) = length (h_evs h)) by (unfold set_val, set_event; cbn [h_evs]; apply lset_length).
  rewrite E, LL. destruct (ref_of h c =? s)%nat, (existsb _ l), (s <? length (h_evs h))%nat; reflexivity.
Qed.
Lemma iid_set_all h t v : iid_set h t v = set_all h (get_ie h t [65]) v.
Proof. reflexivity. Qed.

(* ------------------------------------------------- making the patterns is looking *)

Definition pick (bs : list bool) (e : event) : list bool * option bool := match bs with [] => ([], None) | b :: r => (r, Some b) end.
Lemma picked h a b : subseq a b -> exists bs, select_list h pick bs b = a.
Proof.
  induction 1 as [l|x a b S (bs & IH)|x a b S (bs & IH)].
  - exists []. induction l as [|x l IH]; [reflexivity|exact IH].
  - exists (true :: bs). cbn [select_list pick]. now rewrite IH.
  - exists (false :: bs). cbn [select_list pick]. exact IH.
Qed.
Lemma session_new_trees evs t : forall inits h h' us, session evs h -> (t < nt h)%nat -> Forall (fun x => subseq x (lst_of h t)) inits ->
  new_trees h t inits = (h', us) -> session evs h'.
Proof.
  induction inits as [|x inits IH]; intros h h' us S L F E; cbn [new_trees] in E; [now injection E as <- _|].
  destruct (new_tree h (Some t) x) as [h1 u] eqn:E1. destruct (new_trees h1 t inits) as [h2 vs] eqn:E2. injection E as <- _.
  apply Forall_cons_iff in F. destruct F as [F1 F].
  assert (V : view_op h h1).
  { destruct (picked h _ _ F1) as (bs & P). replace h1 with (fst (subtree h t pick bs)); [now apply op_subtree|]. unfold subtree. now rewrite P, E1. }
  pose proof (new_tree_ext h (Some t) x) as X. rewrite E1 in X. cbn [fst] in X.
  refine (IH h1 h2 vs (ses_look _ _ _ S V) _ _ E2).
  - pose proof (extends_nt _ _ X). lia.
  - unfold lst_of. rewrite (extends_tree _ _ _ X L). exact F.
Qed.
Lemma session_patterns evs h t h' us : session evs h -> (t < nt h)%nat -> patterns_iter h t = (h', Ok us) -> session evs h'.
Proof.
  intros S L H. unfold patterns_iter in H. rewrite fill_forces in H.
  destruct (forces 0 (map (e_of h) (lst_of h t))) as [zs|] eqn:F; [|discriminate].
  pose proof (forces_length _ _ _ F) as LN. rewrite map_length in LN. fold (mine h t zs) in H. rewrite dict_of_labels, map_map in H. cbn [snd] in H.
  destruct (new_trees h t _) as [h1 vs] eqn:E. injection H as <- _. eapply session_new_trees; [exact S|exact L| |exact E].
  apply Forall_forall. intros x I. apply in_map_iff in I. destruct I as (z & <- & _). now apply labelled_subseq.
Qed.

(* ------------------------------------------------------------------- renaming *)

Section Rename.
Variables y n : Z.
Let ren (z : Z) : Z := if z =? y then n else z.
Definition renumbered (e : event) : event :=
  if (e_id e =? 65) && (match as_int (e_val e) with Some z => z =? y | None => false end) then with_val e (VInt n) else e.

Lemma renumbered_id e : e_id (renumbered e) = e_id e.
Proof. unfold renumbered. destruct (_ && _); reflexivity. Qed.
Lemma forces_renumbered : forall es cur zs, forces cur es = Some zs -> forces (ren cur) (map renumbered es) = Some (map ren zs).
Proof.
  induction es as [|e es IH]; intros cur zs F; cbn [forces map] in *; [injection F as <-; reflexivity|].
  rewrite renumbered_id. destruct (e_id e =? 65) eqn:I.
  - destruct (as_int (e_val e)) as [z|] eqn:A; [|discriminate]. unfold renumbered at 1. rewrite I, A. cbn [andb].
    assert (R : as_int (e_val (if z =? y then with_val e (VInt n) else e)) = Some (ren z)).
    { unfold ren. destruct (z =? y); [reflexivity|exact A]. }
    rewrite R. destruct (forces z es) as [zs'|] eqn:F'; [|discriminate]. cbn [option_map] in F. injection F as <-. rewrite (IH _ _ F'). reflexivity.
  - destruct (forces cur es) as [zs'|] eqn:F'; [|discriminate]. cbn [option_map] in F. injection F as <-. rewrite (IH _ _ F'). reflexivity.
Qed.
Lemma ren_inj a b : a <> n -> b <> n -> ren a = ren b -> a = b.
Proof. unfold ren. destruct (Z.eqb_spec a y), (Z.eqb_spec b y); congruence. Qed.
Lemma firsts_ren l : ~ In n l -> firsts (map ren l) = map ren (firsts l).
Proof.
  induction l as [|x l IH]; intros N; [reflexivity|]. cbn [map firsts]. rewrite IH by (intros I; apply N; now right). f_equal.
  assert (K : forall m, (forall z, In z m -> z <> n) -> filter (fun z => negb (z =? ren x)) (map ren m) = map ren (filter (fun z => negb (z =? x)) m)).
  { induction m as [|z m IHm]; intros NM; [reflexivity|]. cbn [map filter]. rewrite IHm by (intros w W; apply NM; now right).
    assert (E : (ren z =? ren x) = (z =? x)).
    { destruct (Z.eqb_spec z x) as [->|NE]; [apply Z.eqb_refl|]. apply Z.eqb_neq. intros E. apply NE. apply ren_inj; [apply NM; now left|intros ->; apply N; now left|exact E]. }
    rewrite E. destruct (negb (z =? x)); reflexivity. }
  apply K. intros z I E. subst z. apply N. right. now apply firsts_in.
Qed.
Lemma labelled_ren (m : list (nat * Z)) z : ~ In n (map snd m) -> z <> n -> labelled (map (fun x => (fst x, ren (snd x))) m) (ren z) = labelled m z.
Proof.
  intros N NZ. unfold labelled. induction m as [|[c w] m IH]; [reflexivity|]. cbn [map filter fst snd] in *.
  assert (E : (ren w =? ren z) = (w =? z)).
  { destruct (Z.eqb_spec w z) as [->|NE]; [apply Z.eqb_refl|]. apply Z.eqb_neq. intros E. apply NE. apply ren_inj; [intros ->; apply N; now left|exact NZ|exact E]. }
  rewrite E. destruct (w =? z); cbn [map fst]; rewrite IH by (intros I; apply N; now right); reflexivity.
Qed.
End Rename.

(* ------------------------------------------------------- renumbering a pattern *)

Lemma number_int v z : number v z -> as_int v = Some z. Proof. apply number_as. Qed.

(* the events of the collection afterwards *)
Lemma renumbered_events evs h t h1 us i u y n : evs <> [] -> session evs h -> (t < nt h)%nat -> patterns_iter h t = (h1, Ok us) -> nth_error us i = Some u ->
  (exists e, In e (events h1 u) /\ announces e /\ number (e_val e) y) ->
  events (iid_set h1 u (VInt n)) t = map (renumbered y n) (events h t) /\
  forall c, In c (lst_of h t) -> e_of (iid_set h1 u (VInt n)) c = renumbered y n (e_of h c).
Proof.
  intros NE S L IT U (e0 & I0 & A0 & N0).
  destruct (session_root _ _ NE S) as (NE' & V & _).
  assert (O : ordered h t) by (apply synced_ordered; destruct (views_synced _ _ NE' V) as (SY & _); now apply SY).
  destruct (patterns_label _ _ _ _ _ _ O IT U) as (zs & z & F & FZ & LL & EV).
  destruct (patterns_iter_spec _ _ _ _ O IT) as (_ & _ & X & _).
  assert (z = y) by (rewrite EV in I0; eapply number_fun; [eapply label_announces; eassumption|exact N0]). subst z.
  assert (LT : lst_of h1 t = lst_of h t) by (unfold lst_of; now rewrite (extends_tree _ _ _ X L)).
  destruct X as (X1 & X2 & X3).
  assert (EO : forall c, e_of h1 c = e_of h c) by (intros c; unfold e_of, ev_of, cell_of; now rewrite X1, X2).
  assert (RO : forall c, ref_of h1 c = ref_of h c) by (intros c; unfold ref_of, cell_of; now rewrite X2).
  assert (K : forall c, In c (lst_of h t) -> e_of (iid_set h1 u (VInt n)) c = renumbered y n (e_of h c)).
  { intros c I. rewrite iid_set_all. unfold e_of at 1. destruct (set_all_shape (VInt n) (get_ie h1 u [65]) h1) as (SC & _ & _).
    unfold cell_of. rewrite SC. fold (cell_of h1 c). fold (ref_of h1 c). rewrite set_all_ev.
    assert (RL : (ref_of h1 c < length (h_evs h1))%nat).
    { rewrite RO, X1. destruct (views_refs _ _ NE' V) as (R0 & _ & SU). specialize (SU t L). assert (IR : In (ref_of h c) (refs h t)) by (unfold refs; now apply in_map).
      apply (subseq_in _ _ _ SU) in IR. apply in_seq in IR. lia. }
    apply Nat.ltb_lt in RL. rewrite RL, andb_true_r. change (ev_of h1 (ref_of h1 c)) with (e_of h1 c). rewrite EO. unfold renumbered.
    (* c is one of the pattern's announcements iff it announces y *)
    apply In_nth_error in I as I'. destruct I' as (k & KC).
    assert (IF : existsb (fun c0 => (ref_of h1 c0 =? ref_of h1 c)%nat) (get_ie h1 u [65]) = (e_id (e_of h c) =? 65) && match as_int (e_val (e_of h c)) with Some z => z =? y | None => false end).
    { apply eq_true_iff_eq. rewrite existsb_exists, andb_true_iff, Z.eqb_eq, get_ie_one. split.
      - intros (c0 & I1 & E1). apply filter_In in I1 as [I1 E2]. apply Nat.eqb_eq in E1. apply Z.eqb_eq in E2. rewrite LL in I1. pose proof I1 as I2. apply labelled_in in I2. apply mine_in in I2 as (k0 & K0 & _ & _).
        assert (c0 = c).
        { destruct (views_tree _ _ t NE' V L) as (_ & ND & _). unfold refs in ND. rewrite !RO in E1.
          assert (k0 = k); [|congruence]. rewrite NoDup_nth_error in ND. apply ND; [rewrite map_length; apply nth_error_Some; congruence|]. rewrite !nth_error_map, K0, KC. cbn [option_map]. congruence. }
        subst c0. unfold id_of in E2. rewrite EO in E2. split; [exact E2|].
        assert (NN : number (e_val (e_of h c)) y) by (eapply (label_announces h t zs y F (e_of h c)); [now apply in_map|exact E2]). apply number_int in NN. rewrite NN. apply Z.eqb_refl.
      - intros (E2 & E3). destruct (as_int (e_val (e_of h c))) as [z|] eqn:AI; [|discriminate]. apply Z.eqb_eq in E3. subst z. exists c. split; [|apply Nat.eqb_refl].
        apply filter_In. split; [|unfold id_of; rewrite EO; now apply Z.eqb_eq]. rewrite LL. apply labelled_in. apply mine_in. exists k. split; [exact KC|].
        assert (ZK : exists z, nth_error zs k = Some z).
        { destruct (nth_error zs k) as [z|] eqn:Z; [eauto|]. apply nth_error_None in Z. rewrite (forces_length _ _ _ F) in Z. unfold events in Z. rewrite map_length in Z.
          assert (k < length (lst_of h t))%nat by (apply nth_error_Some; congruence). lia. }
        destruct ZK as (z & ZK). assert (PE : pattern_event (e_of h c) = true) by (unfold pattern_event; rewrite E2; reflexivity).
        split; [|exact PE]. rewrite ZK. f_equal. assert (NN : number (e_val (e_of h c)) z).
        { eapply (label_announces h t zs z F (e_of h c)); [|exact E2]. apply in_map. apply labelled_in. apply mine_in. exists k. auto. }
        apply number_int in NN. congruence. }
    rewrite IF. reflexivity. }
  split; [|exact K].
  unfold events. rewrite iid_set_all in *. destruct (set_all_shape (VInt n) (get_ie h1 u [65]) h1) as (SC & ST & _).
  unfold lst_of at 1, tree_of. rewrite ST. fold (tree_of h1 t). fold (lst_of h1 t). rewrite LT, map_map. apply map_ext_in. exact K.
Qed.

Lemma renumbered_patterns h h2 t y n h1 us : ordered h t -> patterns_iter h t = (h1, Ok us) -> lst_of h2 t = lst_of h t -> ordered h2 t ->
  (forall c, In c (lst_of h t) -> e_of h2 c = renumbered y n (e_of h c)) -> y <> 0 -> n <> 0 -> ~ announced_in (events h t) n ->
  exists h3 ws, patterns_iter h2 t = (h3, Ok ws) /\ map (lst_of h3) ws = map (lst_of h1) us.
Proof.
  intros O IT LT O2 K Y N FR. destruct (patterns_iter_spec _ _ _ _ O IT) as (zs & F & X & M). rewrite M.
  assert (EV : events h2 t = map (renumbered y n) (events h t)) by (unfold events; rewrite LT, map_map; now apply map_ext_in).
  pose proof (forces_renumbered y n _ _ _ F) as F2. rewrite <- EV in F2. replace (if 0 =? y then n else 0) with 0 in F2 by (destruct (Z.eqb_spec 0 y); congruence).
  destruct (patterns_iter h2 t) as [h3 r] eqn:IT2. assert (R : exists ws, r = Ok ws).
  { unfold patterns_iter in IT2. rewrite (fill_forces h2 (lst_of h2 t) 0 []) in IT2. fold (events h2 t) in IT2. rewrite F2 in IT2. destruct (new_trees _ _ _). injection IT2 as _ <-. eauto. }
  destruct R as (ws & ->). exists h3, ws. split; [reflexivity|]. destruct (patterns_iter_spec _ _ _ _ O2 IT2) as (zs2 & F3 & _ & M2). rewrite M2.
  assert (zs2 = map (fun z => if z =? y then n else z) zs) by congruence. subst zs2. clear F3 M2 IT2.
  assert (MN : mine h2 t (map (fun z => if z =? y then n else z) zs) = map (fun x => (fst x, if snd x =? y then n else snd x)) (mine h t zs)).
  { unfold mine. rewrite LT. clear -K. revert zs K. induction (lst_of h t) as [|c l IH]; intros [|z zs] K; try reflexivity. cbn [map combine filter].
    assert (E : is_mine h2 (c, if z =? y then n else z) = is_mine h (c, z)).
    { unfold is_mine. cbn [fst]. rewrite K by now left. unfold pattern_event. now rewrite renumbered_id. }
    rewrite E, IH by (intros c' I; apply K; now right). destruct (is_mine h (c, z)); reflexivity. }
  rewrite MN.
  assert (SN : map snd (map (fun x : nat * Z => (fst x, if snd x =? y then n else snd x)) (mine h t zs)) = map (fun z => if z =? y then n else z) (map snd (mine h t zs))) by (rewrite !map_map; reflexivity).
  rewrite SN.
  assert (NI : ~ In n (map snd (mine h t zs))) by (rewrite (label_cases _ _ _ F); intros [A|[_ A]]; contradiction).
  rewrite (firsts_ren y n) by exact NI. rewrite map_map. apply map_ext_in. intros z I. apply (labelled_ren y n); [exact NI|]. intros ->. apply NI. now apply firsts_in.
Qed.
