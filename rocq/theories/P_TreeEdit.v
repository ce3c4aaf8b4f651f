(* Edits of event trees through views. *)
From Coq Require Import String ZArith List Bool Lia Sorting.Sorted.
From Verif Require Import M_Base M_Events M_Tree S_Tree P_Base P_TreeBase P_Tree.
Import ListNotations.
Open Scope Z_scope.

(* A tree in step with the project (tree 0): it and its ancestors share their
   cells, and the root indexes are 0..n-1. *)
Inductive synced (h : heap) : nat -> Prop :=
| synced_root :
    (0 < nt h)%nat -> t_parent (tree_of h 0) = None -> t_root (tree_of h 0) = 0%nat ->
    keys h 0 = upto 0 (length (lst_of h 0)) ->
    (forall c, In c (lst_of h 0) -> (c < nc h)%nat) ->
    synced h 0
| synced_view : forall t p,
    (t < nt h)%nat -> (p < t)%nat -> t_parent (tree_of h t) = Some p ->
    t_root (tree_of h t) = 0%nat ->
    subseq (lst_of h t) (lst_of h p) -> synced h p -> synced h t.

(* The same without sharing: equal cells (index and event) instead. *)
Inductive in_step (h : heap) : nat -> Prop :=
| in_step_root :
    (0 < nt h)%nat -> t_parent (tree_of h 0) = None -> t_root (tree_of h 0) = 0%nat ->
    keys h 0 = upto 0 (length (lst_of h 0)) ->
    (forall c, In c (lst_of h 0) -> (c < nc h)%nat) ->
    in_step h 0
| in_step_view : forall t p,
    (t < nt h)%nat -> (p < t)%nat -> t_parent (tree_of h t) = Some p ->
    t_root (tree_of h t) = 0%nat ->
    subseq (map (cell_of h) (lst_of h t)) (map (cell_of h) (lst_of h p)) ->
    in_step h p -> in_step h t.

Lemma synced_in_step : forall h t, synced h t -> in_step h t.
Proof.
  induction 1; [constructor; auto|]. eapply in_step_view; eauto. now apply subseq_map.
Qed.

Lemma in_step_lt : forall h t, in_step h t -> (t < nt h)%nat.
Proof. intros h t H. now inversion H. Qed.

Lemma in_step_0 : forall h t, in_step h t -> in_step h 0.
Proof. induction 1; [constructor; auto|auto]. Qed.

Lemma synced_0 : forall h t, synced h t -> synced h 0.
Proof. induction 1; [constructor; auto|auto]. Qed.

Lemma in_step_root_of : forall h t, in_step h t -> t_root (tree_of h t) = 0%nat.
Proof. intros h t H. now inversion H. Qed.

Lemma keys_cells : forall h t, keys h t = map c_r (map (cell_of h) (lst_of h t)).
Proof. intros. unfold keys. rewrite map_map. reflexivity. Qed.

Lemma in_step_sub : forall h t, in_step h t ->
  subseq (map (cell_of h) (lst_of h t)) (map (cell_of h) (lst_of h 0)).
Proof. induction 1; [apply subseq_refl|]. eapply subseq_trans; eauto. Qed.

Lemma in_step_ordered : forall h t, in_step h t -> ordered h t.
Proof.
  intros h t H. pose proof (in_step_sub _ _ H) as S.
  assert (O : ordered h 0).
  { apply in_step_0 in H. inversion H; subst; [|lia].
    unfold ordered. rewrite H3. apply upto_incr. }
  unfold ordered in *. rewrite keys_cells in *.
  eapply subseq_sorted; [|exact O]. now apply subseq_map.
Qed.

Lemma synced_sub : forall h t, synced h t -> subseq (lst_of h t) (lst_of h 0).
Proof. induction 1; [apply subseq_refl|]. eapply subseq_trans; eauto. Qed.

Lemma synced_ordered : forall h t, synced h t -> ordered h t.
Proof. intros. now apply in_step_ordered, synced_in_step. Qed.

(* ---------------------------------------------------------------------- chains *)

Inductive chained (h : heap) : nat -> list nat -> Prop :=
| chained_top : forall t, t_parent (tree_of h t) = None -> chained h t [t]
| chained_up : forall t p l, t_parent (tree_of h t) = Some p -> (p < t)%nat ->
    chained h p l -> chained h t (t :: l).

Lemma chain_fuel_chained : forall h t, in_step h t ->
  forall fuel, (t < fuel)%nat -> chained h t (chain_fuel fuel h t).
Proof.
  induction 1; intros fuel L; (destruct fuel as [|fuel]; [lia|]); cbn [chain_fuel].
  - rewrite H0. now constructor.
  - rewrite H1. eapply chained_up; eauto. apply IHin_step. lia.
Qed.

Lemma chain_chained : forall h t, in_step h t -> chained h t (chain h t).
Proof. intros. apply chain_fuel_chained; auto. apply in_step_lt in H. exact H. Qed.

Lemma chained_le : forall h t l, chained h t l -> Forall (fun u => (u <= t)%nat) l.
Proof.
  induction 1; constructor; auto. eapply Forall_impl; [|exact IHchained]. cbn. lia.
Qed.

Lemma chained_nodup : forall h t l, chained h t l -> NoDup l.
Proof.
  induction 1; constructor; auto. constructor.
  intros I. apply chained_le in H1. rewrite Forall_forall in H1. specialize (H1 _ I). lia.
Qed.

Lemma chained_in : forall h t l, chained h t l -> In t l.
Proof. intros. inversion H; now left. Qed.

(* the chain is closed under parents *)
Lemma chained_parent : forall h t l, chained h t l ->
  forall u p, In u l -> t_parent (tree_of h u) = Some p -> In p l.
Proof.
  induction 1; intros u q I E.
  - destruct I as [<-|[]]. congruence.
  - destruct I as [<-|I].
    + assert (p = q) by congruence. subst. right. eapply chained_in; eauto.
    + right. eauto.
Qed.

Lemma chained_in_step : forall h t l, chained h t l -> in_step h t ->
  forall u, In u l -> in_step h u.
Proof.
  induction 1; intros S u I.
  - destruct I as [<-|[]]; auto.
  - destruct I as [<-|I]; auto. apply IHchained; auto.
    inversion S; subst; [congruence|]. assert (p0 = p) by congruence. now subst.
Qed.

Lemma chained_synced : forall h t l, chained h t l -> synced h t ->
  forall u, In u l -> synced h u.
Proof.
  induction 1; intros S u I.
  - destruct I as [<-|[]]; auto.
  - destruct I as [<-|I]; auto. apply IHchained; auto.
    inversion S; subst; [congruence|]. assert (p0 = p) by congruence. now subst.
Qed.

Lemma chained_0 : forall h t l, chained h t l -> in_step h t -> In 0%nat l.
Proof.
  induction 1; intros S.
  - inversion S; subst; [now left|congruence].
  - right. apply IHchained. inversion S; subst; [congruence|].
    assert (p0 = p) by congruence. now subst.
Qed.

(* cells of every tree in the chain contain those of the first *)
Lemma chained_cells : forall h t l, chained h t l -> in_step h t ->
  forall u, In u l ->
  subseq (map (cell_of h) (lst_of h t)) (map (cell_of h) (lst_of h u)).
Proof.
  induction 1; intros S u I.
  - destruct I as [<-|[]]; apply subseq_refl.
  - destruct I as [<-|I]; [apply subseq_refl|].
    inversion S; subst; [congruence|]. assert (p0 = p) by congruence. subst.
    eapply subseq_trans; eauto.
Qed.

Lemma chained_lst : forall h t l, chained h t l -> synced h t ->
  forall u, In u l -> subseq (lst_of h t) (lst_of h u).
Proof.
  induction 1; intros S u I.
  - destruct I as [<-|[]]; apply subseq_refl.
  - destruct I as [<-|I]; [apply subseq_refl|].
    inversion S; subst; [congruence|]. assert (p0 = p) by congruence. subst.
    eapply subseq_trans; eauto.
Qed.

Lemma chain_last : forall h t l d, chained h t l -> in_step h t -> last l d = 0%nat.
Proof.
  induction 1; intros S.
  - inversion S; subst; [reflexivity|congruence].
  - inversion S; subst; [congruence|]. assert (p0 = p) by congruence. subst.
    match goal with K : in_step h p |- _ => specialize (IHchained K) end.
    destruct l; [inversion H1|exact IHchained].
Qed.

Lemma chained_fun : forall h t l, chained h t l -> forall l', chained h t l' -> l = l'.
Proof.
  induction 1; intros l' H'; inversion H'; subst; try congruence.
  f_equal. apply IHchained. congruence.
Qed.

Lemma chain_cons : forall h t p, in_step h t -> t_parent (tree_of h t) = Some p ->
  chain h t = t :: chain h p.
Proof.
  intros h t p S P. apply (chained_fun h t).
  - now apply chain_chained.
  - inversion S; subst; [congruence|]. assert (p0 = p) by congruence. subst.
    eapply chained_up; eauto. now apply chain_chained.
Qed.

Lemma chain_root : forall h, in_step h 0 -> chain h 0 = [0%nat].
Proof.
  intros h S. apply (chained_fun h 0).
  - now apply chain_chained.
  - inversion S; subst; [now constructor|lia].
Qed.

(* ------------------------------------------------------------ histories of views *)

Inductive view_op (h : heap) : heap -> Prop :=
| op_subtree : forall (S : Type) (sel : S -> event -> S * option bool) s t,
    (t < nt h)%nat -> view_op h (fst (subtree h t sel s))
| op_divide : forall t sep ids,
    (t < nt h)%nat -> view_op h (fst (divide h t sep ids))
| op_group : forall t ids,
    (t < nt h)%nat -> NoDup ids -> view_op h (fst (group h t ids))
| op_separate : forall t id,
    (t < nt h)%nat -> view_op h (fst (separate h t id))
| op_subtrees : forall (S : Type) (sel : S -> event -> S * option bool) s rep t,
    (t < nt h)%nat -> view_op h (fst (subtrees h t sel s rep)).

Inductive views (h : heap) : heap -> Prop :=
| views_none : views h h
| views_more : forall h1 h2, views h h1 -> view_op h1 h2 -> views h h2.

(* one new view of a tree in step *)
Lemma new_tree_synced : forall h t i h' u, new_tree h (Some t) i = (h', u) ->
  synced h t -> lst_of h 0 <> [] -> subseq (sl_init (r_of h) i) (lst_of h t) ->
  synced h' u /\ (forall v, synced h v -> synced h' v).
Proof.
  intros h t i h' u E S NE SS.
  pose proof (new_tree_ext h (Some t) i) as X. rewrite E in X. cbn [fst] in X.
  destruct (new_tree_self _ _ _ _ _ E) as (-> & N & P & L).
  assert (K : forall v, synced h v -> synced h' v).
  { induction 1.
    - pose proof (extends_tree _ _ 0 X H) as T.
      constructor; unfold keys, lst_of in *; rewrite ?T; auto; try lia.
      + now rewrite (extends_r _ _ X).
      + unfold nc. destruct X as (_ & -> & _). exact H3.
    - pose proof (extends_tree _ _ t0 X H) as T.
      assert (T' : tree_of h' p = tree_of h p) by (apply extends_tree; auto; lia).
      eapply synced_view with (p := p); unfold lst_of in *; rewrite ?T, ?T'; auto; lia. }
  split; auto. pose proof (in_step_lt _ _ (synced_in_step _ _ S)) as Lt.
  eapply synced_view with (p := t); auto; try lia.
  - unfold new_tree in E. injection E as <-. unfold tree_of at 1. cbn [h_trees].
    change (nt h) with (length (h_trees h)). rewrite nth_mid. cbn [t_root].
    pose proof (chain_chained _ _ (synced_in_step _ _ S)) as C.
    rewrite (chain_last _ _ _ t C (synced_in_step _ _ S)).
    destruct (lst_of h 0); congruence.
  - rewrite L. replace (lst_of h' t) with (lst_of h t); auto.
    unfold lst_of. now rewrite (extends_tree _ _ _ X Lt).
Qed.

Lemma new_trees_synced : forall inits h t h' us, new_trees h t inits = (h', us) ->
  synced h t -> lst_of h 0 <> [] ->
  Forall (fun i => subseq (sl_init (r_of h) i) (lst_of h t)) inits ->
  (forall u, In u us -> synced h' u) /\ (forall v, synced h v -> synced h' v).
Proof.
  induction inits as [|i inits IH]; intros h t h' us E S NE F; cbn [new_trees] in E.
  - injection E as <- <-. split; auto. intros u [].
  - destruct (new_tree h (Some t) i) as [h1 u] eqn:E1.
    destruct (new_trees h1 t inits) as [h2 vs] eqn:E2. injection E as <- <-.
    inversion F; subst.
    destruct (new_tree_synced _ _ _ _ _ E1 S NE H1) as [A B].
    pose proof (new_tree_ext h (Some t) i) as X. rewrite E1 in X. cbn [fst] in X.
    pose proof (in_step_lt _ _ (synced_in_step _ _ S)) as Lt.
    assert (L : forall v, (v < nt h)%nat -> lst_of h1 v = lst_of h v).
    { intros v V. unfold lst_of. now rewrite (extends_tree _ _ _ X V). }
    destruct (IH h1 t h2 vs E2) as [C D]; auto.
    + rewrite L by lia. auto.
    + eapply Forall_impl; [|exact H2]. cbn. intros j J.
      now rewrite (extends_r _ _ X), L by lia.
    + split; auto. intros v [<-|I]; auto.
Qed.

Lemma in_seq_nt : forall a n u, In u (seq a n) <-> (a <= u < a + n)%nat.
Proof. intros. apply in_seq. Qed.

Lemma Forall_init : forall h t inits, ordered h t ->
  Forall (fun i => subseq i (lst_of h t)) inits ->
  Forall (fun i => subseq (sl_init (r_of h) i) (lst_of h t)) inits.
Proof.
  intros h t inits O F. eapply Forall_impl; [|exact F]. intros i S.
  now rewrite (init_subseq h t).
Qed.

Definition all_synced (h : heap) : Prop := forall t, (t < nt h)%nat -> synced h t.

Lemma new_trees_all : forall inits h t, all_synced h -> lst_of h 0 <> [] -> (t < nt h)%nat ->
  Forall (fun i => subseq (sl_init (r_of h) i) (lst_of h t)) inits ->
  all_synced (fst (new_trees h t inits)).
Proof.
  intros inits h t A NE L F. destruct (new_trees h t inits) as [h' us] eqn:E.
  destruct (new_trees_synced _ _ _ _ _ E (A _ L) NE F) as [B C].
  destruct (new_trees_spec _ _ _ _ _ E) as (_ & U & N & _). cbn [fst].
  intros v V. destruct (Nat.lt_ge_cases v (nt h)); [apply C; auto|].
  apply B. subst us. apply in_seq_nt. lia.
Qed.

Lemma view_op_synced : forall h h', view_op h h' -> all_synced h -> lst_of h 0 <> [] ->
  all_synced h' /\ lst_of h' 0 = lst_of h 0 /\ h_evs h' = h_evs h /\ h_cells h' = h_cells h.
Proof.
  intros h h' V A NE.
  assert (K : forall t inits, (t < nt h)%nat ->
    let h' := fst (new_trees h t inits) in
    lst_of h' 0 = lst_of h 0 /\ h_evs h' = h_evs h /\ h_cells h' = h_cells h).
  { intros t inits L. destruct (new_trees h t inits) as [h1 us] eqn:E. cbn [fst].
    destruct (new_trees_spec _ _ _ _ _ E) as (X & _).
    destruct X as (X1 & X2 & X3). repeat split; auto.
    unfold lst_of. rewrite (extends_tree h h1 0); [auto|repeat split; auto|lia]. }
  destruct V.
  - unfold subtree. destruct (new_tree h (Some t) _) as [h1 u] eqn:E. cbn [fst].
    pose proof (new_tree_ext h (Some t) (select_list h sel s (lst_of h t))) as X.
    rewrite E in X. cbn [fst] in X.
    destruct (new_tree_self _ _ _ _ _ E) as (-> & N & _).
    destruct (new_tree_synced _ _ _ _ _ E (A _ H) NE) as [B C].
    { rewrite (init_subseq h t).
      - apply select_subseq. - apply synced_ordered; auto. - apply select_subseq. }
    pose proof X as (X1 & X2 & X3).
    repeat split; auto.
    + intros v L. destruct (Nat.lt_ge_cases v (nt h)); [apply C; auto|].
      assert (v = nt h) by lia. now subst.
    + unfold lst_of. rewrite (extends_tree h h1 0 X); auto. lia.
  - split; [|apply K; auto]. apply new_trees_all; auto. apply Forall_init.
    + apply synced_ordered; auto. + apply divide_subseq.
  - split; [|apply K; auto]. apply new_trees_all; auto. apply Forall_forall. intros i I.
    apply In_nth_error in I. destruct I as (k & I).
    destruct (group_row h t ids k i (synced_ordered _ _ (A _ H)) H0 I) as (_ & ? & _). auto.
  - split; [|apply K; auto]. apply new_trees_all; auto. apply Forall_init.
    + apply synced_ordered; auto. + apply separate_subseq.
  - split; [|apply K; auto]. apply new_trees_all; auto. apply Forall_init.
    + apply synced_ordered; auto. + apply subtrees_subseq.
Qed.

(* the freshly parsed project *)
Lemma cells_from_length : forall k n, length (cells_from n k) = k.
Proof. induction k; cbn; auto. Qed.

Lemma cells_from_nth : forall k n i d, (i < k)%nat ->
  nth i (cells_from n k) d = Cell (Z.of_nat (n + i)) (n + i).
Proof.
  induction k; intros n i d L; [lia|]. cbn [cells_from nth]. destruct i.
  - now rewrite Nat.add_0_r.
  - rewrite IHk by lia. now rewrite Nat.add_succ_r.
Qed.

Lemma map_seq_upto : forall (f : nat -> Z) k n, (forall i, (n <= i < n + k)%nat -> f i = Z.of_nat i) ->
  map f (seq n k) = upto (Z.of_nat n) k.
Proof.
  induction k; intros n H; cbn [seq map upto]; auto. f_equal; [apply H; lia|].
  rewrite IHk by (intros; apply H; lia). f_equal. lia.
Qed.

Lemma parsed_cells : forall evs i, (i < length evs)%nat ->
  cell_of (parsed evs) i = Cell (Z.of_nat i) i.
Proof.
  intros evs i L. unfold parsed, cell_of. cbn [new_tree fst h_cells].
  rewrite cells_from_nth by auto. reflexivity.
Qed.

Lemma parsed_lst : forall evs, lst_of (parsed evs) 0 = seq 0 (length evs).
Proof.
  intros. unfold parsed, lst_of, tree_of. cbn [new_tree fst h_trees app length nth t_lst].
  apply sl_init_id. rewrite (map_seq_upto _ _ 0); [apply upto_incr|].
  intros i L. unfold r_of, cell_of. cbn [h_cells]. rewrite cells_from_nth by lia. reflexivity.
Qed.

Lemma nth_seq_map : forall A (l : list A) d n,
  map (fun i => nth (i - n) l d) (seq n (length l)) = l.
Proof.
  induction l as [|x l IH]; intros d n; auto. cbn [length seq map].
  rewrite Nat.sub_diag. cbn [nth]. f_equal. rewrite <- (IH d (S n)) at 2.
  apply map_ext_in. intros i I. apply in_seq in I.
  replace (i - n)%nat with (S (i - S n)) by lia. reflexivity.
Qed.

Lemma parsed_events : forall evs, events (parsed evs) 0 = evs.
Proof.
  intros. unfold events. rewrite parsed_lst.
  transitivity (map (fun i => nth (i - 0) evs no_event) (seq 0 (length evs)));
    [|apply nth_seq_map].
  apply map_ext_in. intros i I. apply in_seq in I. unfold e_of.
  rewrite parsed_cells by lia. cbn [c_e]. now rewrite Nat.sub_0_r.
Qed.

Lemma parsed_synced : forall evs, all_synced (parsed evs).
Proof.
  intros evs t L. assert (N : nt (parsed evs) = 1%nat) by reflexivity.
  assert (t = 0%nat) by lia. subst. constructor; auto.
  - unfold keys. rewrite parsed_lst, seq_length. apply (map_seq_upto _ _ 0).
    intros i I. unfold r_of. now rewrite parsed_cells by lia.
  - intros c I. rewrite parsed_lst in I. apply in_seq in I. unfold nc, parsed.
    cbn [new_tree fst h_cells]. rewrite cells_from_length. lia.
Qed.

Lemma views_synced : forall evs h, evs <> [] -> views (parsed evs) h ->
  all_synced h /\ lst_of h 0 = lst_of (parsed evs) 0 /\
  h_evs h = h_evs (parsed evs) /\ h_cells h = h_cells (parsed evs).
Proof.
  intros evs h NE V. induction V.
  - repeat split. apply parsed_synced.
  - destruct IHV as (A & B & C & D).
    destruct (view_op_synced _ _ H A) as (A' & B' & C' & D').
    + rewrite B, parsed_lst. destruct evs; [congruence|discriminate].
    + split; auto. repeat split; congruence.
Qed.

(* ------------------------------------------------------------------- insertion *)

(* everything but the lists of the trees *)
Definition same_trees (h h' : heap) : Prop :=
  h_evs h' = h_evs h /\ nt h' = nt h /\
  forall t, t_parent (tree_of h' t) = t_parent (tree_of h t) /\
            t_root (tree_of h' t) = t_root (tree_of h t).

Lemma add_new_step : forall r e h t, (t < nt h)%nat ->
  let h' := add_new r e h t in
  same_trees h h' /\ nc h' = S (nc h) /\
  (forall c, (c < nc h)%nat -> cell_of h' c = cell_of h c) /\
  cell_of h' (nc h) = Cell r e /\
  (forall u, u <> t -> lst_of h' u = lst_of h u) /\
  lst_of h' t = sl_add (fst (new_cell h r e)) (lst_of h t) (nc h).
Proof.
  intros r e h t L. unfold add_new. destruct (new_cell h r e) as [h1 c] eqn:E.
  assert (E1 : h1 = fst (new_cell h r e)) by now rewrite E.
  assert (c = nc h) by (unfold new_cell in E; now injection E as _ <-). subst c.
  assert (T1 : h_trees h1 = h_trees h) by (rewrite E1; reflexivity).
  assert (L1 : (t < length (h_trees h1))%nat) by (rewrite T1; exact L).
  assert (TT : forall u, tree_of h1 u = tree_of h u) by (intros; unfold tree_of; now rewrite T1).
  assert (LL : forall u, lst_of h1 u = lst_of h u) by (intros; unfold lst_of; now rewrite TT).
  cbn zeta. repeat split.
  - rewrite E1. reflexivity.
  - unfold nt, set_lst. cbn [h_trees]. rewrite lset_length. now rewrite T1.
  - rewrite tree_of_set_lst by auto. destruct (Nat.eqb t0 t); cbn; now rewrite TT.
  - rewrite tree_of_set_lst by auto. destruct (Nat.eqb t0 t); cbn; now rewrite TT.
  - unfold nc, set_lst. cbn [h_cells]. rewrite E1. cbn. rewrite app_length. cbn. lia.
  - intros c C. change (cell_of (set_lst h1 t (sl_add h1 (lst_of h1 t) (nc h))) c)
      with (cell_of h1 c). rewrite E1. now apply cell_of_new.
  - change (cell_of (set_lst h1 t (sl_add h1 (lst_of h1 t) (nc h))) (nc h))
      with (cell_of h1 (nc h)). rewrite E1. apply cell_of_new_self.
  - intros u U. rewrite lst_of_set_lst by auto. apply Nat.eqb_neq in U. rewrite U. apply LL.
  - rewrite lst_of_set_lst by auto. rewrite Nat.eqb_refl, LL. reflexivity.
Qed.

Lemma same_trees_trans : forall a b c, same_trees a b -> same_trees b c -> same_trees a c.
Proof.
  intros a b c (A & B & C) (A' & B' & C'). repeat split; try congruence;
  destruct (C t), (C' t); congruence.
Qed.

Lemma same_trees_refl : forall a, same_trees a a.
Proof. repeat split. Qed.

(* every tree of the chain gets a new cell at the same key *)
Lemma add_chain : forall r e ts h, NoDup ts ->
  (forall t, In t ts -> (t < nt h)%nat /\ ordered h t /\
                        forall c, In c (lst_of h t) -> (c < nc h)%nat) ->
  let h' := fold_left (add_new r e) ts h in
  same_trees h h' /\ (nc h <= nc h')%nat /\
  (forall c, (c < nc h)%nat -> cell_of h' c = cell_of h c) /\
  (forall t, ~ In t ts -> lst_of h' t = lst_of h t) /\
  (forall t, In t ts -> exists a b c', lst_of h t = a ++ b /\ lst_of h' t = a ++ c' :: b /\
     (nc h <= c' < nc h')%nat /\ cell_of h' c' = Cell r e /\
     Forall (fun d => r_of h d <= r) a /\ Forall (fun d => r < r_of h d) b).
Proof.
  intros r e ts. induction ts as [|t ts IH]; intros h N H; cbn [fold_left].
  - repeat split; auto. intros t [].
  - inversion N; subst. destruct (H t (or_introl eq_refl)) as (Lt & Ot & Bt).
    destruct (add_new_step r e h t Lt) as (S1 & N1 & C1 & C2 & F1 & A1).
    set (h1 := add_new r e h t) in *.
    assert (RR : forall c, (c < nc h)%nat -> r_of h1 c = r_of h c).
    { intros c C. unfold r_of. now rewrite C1. }
    destruct (IH h1) as (S2 & N2 & C3 & F2 & A2); auto.
    { intros u U. destruct (H u (or_intror U)) as (Lu & Ou & Bu).
      assert (u <> t) by (intros ->; contradiction).
      destruct S1 as (_ & S1 & _). rewrite S1. split; auto.
      unfold ordered, keys. rewrite F1 by auto. split.
      - replace (map (r_of h1) (lst_of h u)) with (map (r_of h) (lst_of h u)); auto.
        apply map_ext_in. intros c C. symmetry. apply RR. auto.
      - intros c C. specialize (Bu c C). lia. }
    split; [eapply same_trees_trans; eauto|]. split; [lia|]. split; [|split].
    + intros c C. rewrite C3 by lia. auto.
    + intros u U. rewrite F2 by (intros K; apply U; now right). apply F1.
      intros ->. apply U. now left.
    + intros u [<-|U].
      * rewrite F2 by auto.
        assert (R1 : forall d, In d (lst_of h t) -> r_of (fst (new_cell h r e)) d = r_of h d).
        { intros d D. unfold r_of. rewrite cell_of_new; [auto|]. apply Bt; auto. }
        assert (RN : r_of (fst (new_cell h r e)) (nc h) = r).
        { unfold r_of, nc. now rewrite cell_of_new_self. }
        destruct (sl_add_spec (fst (new_cell h r e)) (lst_of h t) (nc h)) as (a & b & E & E2 & Fa & Fb).
        { rewrite (map_ext_in _ (r_of h)); auto. }
        exists a, b, (nc h). rewrite A1, E2.
        split; [auto|]. split; [auto|]. split; [lia|].
        split; [rewrite C3 by lia; auto|].
        rewrite RN in Fa, Fb. rewrite E in R1. split; apply Forall_forall; intros d D;
          rewrite Forall_forall in Fa, Fb.
        { rewrite <- R1 by (apply in_or_app; now left). auto. }
        { rewrite <- R1 by (apply in_or_app; now right). auto. }
      * destruct (A2 u U) as (a & b & c' & E & E2 & L & Cc & Fa & Fb).
        assert (u <> t) by (intros ->; contradiction).
        rewrite F1 in E by auto. exists a, b, c'.
        repeat split; auto; try lia.
        { apply Forall_forall. intros d D. rewrite Forall_forall in Fa.
          rewrite <- RR; [auto|]. apply (H u (or_intror U)). rewrite E.
          apply in_or_app. now left. }
        { apply Forall_forall. intros d D. rewrite Forall_forall in Fb.
          rewrite <- RR; [auto|]. apply (H u (or_intror U)). rewrite E.
          apply in_or_app. now right. }
Qed.

Lemma subseq_split : forall A (x l1 l2 : list A), subseq x (l1 ++ l2) ->
  exists a b, x = a ++ b /\ subseq a l1 /\ subseq b l2.
Proof.
  intros A x l1. revert x. induction l1 as [|y l1 IH]; intros x l2 H; cbn in H.
  - exists [], x. repeat split; auto. constructor.
  - inversion H; subst.
    + exists [], []. repeat split; constructor.
    + destruct (IH _ _ H2) as (a' & b' & -> & P & Q). exists (y :: a'), b'.
      repeat split; auto. now constructor.
    + destruct (IH _ _ H2) as (a' & b' & -> & P & Q). exists a', b'.
      repeat split; auto. now constructor.
Qed.

Lemma split_unique : forall A (P : A -> Prop) (a b a' b' : list A), a ++ b = a' ++ b' ->
  Forall P a -> Forall (fun x => ~ P x) b -> Forall P a' -> Forall (fun x => ~ P x) b' ->
  a = a' /\ b = b'.
Proof.
  induction a as [|x a IH]; intros b [|y a'] b' E F1 F2 F3 F4; cbn in *; auto.
  - subst. inversion F2; inversion F3; subst. contradiction.
  - subst. inversion F1; inversion F4; subst. contradiction.
  - injection E as <- E. inversion F1; inversion F3; subst.
    destruct (IH b a' b' E) as [-> ->]; auto.
Qed.

Lemma subseq_forall : forall A (P : A -> Prop) a b, subseq a b -> Forall P b -> Forall P a.
Proof.
  intros A P a b S F. rewrite Forall_forall in *. intros x I. apply F.
  eapply subseq_in; eauto.
Qed.

Lemma subseq_parts : forall A (P : A -> Prop) (a b a' b' : list A),
  subseq (a ++ b) (a' ++ b') ->
  Forall P a -> Forall (fun x => ~ P x) b -> Forall P a' -> Forall (fun x => ~ P x) b' ->
  subseq a a' /\ subseq b b'.
Proof.
  intros A P a b a' b' S F1 F2 F3 F4. destruct (subseq_split _ _ _ _ S) as (x & y & E & X & Y).
  destruct (split_unique _ P a b x y E) as [-> ->]; auto; eapply subseq_forall; eauto.
Qed.

Lemma app_eq_len : forall A (a b c d : list A), length a = length c -> a ++ b = c ++ d ->
  a = c /\ b = d.
Proof.
  induction a as [|x a IH]; intros b [|y c] d L E; cbn in *; try discriminate; auto.
  injection E as -> E. destruct (IH b c d) as [-> ->]; auto.
Qed.

Lemma keys_parts : forall h l1 l2, map (r_of h) (l1 ++ l2) = upto 0 (length (l1 ++ l2)) ->
  map (r_of h) l1 = upto 0 (length l1) /\
  map (r_of h) l2 = upto (Z.of_nat (length l1)) (length l2).
Proof.
  intros h l1 l2 E. rewrite map_app, app_length, upto_app in E.
  apply app_eq_len in E; auto. now rewrite map_length, upto_length.
Qed.

Lemma keys_bound : forall h l n k, map (r_of h) l = upto n k ->
  forall d, In d l -> n <= r_of h d < n + Z.of_nat k.
Proof. intros h l n k E d I. apply upto_in. rewrite <- E. now apply in_map. Qed.

Lemma synced_bound : forall h t, synced h t -> forall c, In c (lst_of h t) -> (c < nc h)%nat.
Proof.
  intros h t S c I. eapply subseq_in in I; [|apply synced_sub; eauto].
  apply synced_0 in S. inversion S; subst; auto. lia.
Qed.

(* the common part of all insertions: before the root position [length l1] *)
Lemma insert_core : forall h t e l1 l2, synced h t -> lst_of h 0 = l1 ++ l2 ->
  let r := Z.of_nat (length l1) in
  let h' := fold_left (add_new r e) (chain h t)
              (fold_left (shift_up r) (lst_of h 0) h) in
  same_trees h h' /\ (nc h <= nc h')%nat /\
  (forall d, (d < nc h)%nat -> c_e (cell_of h' d) = c_e (cell_of h d)) /\
  (forall u, ~ In u (chain h t) -> lst_of h' u = lst_of h u) /\
  (forall u, In u (chain h t) -> exists a b c', lst_of h u = a ++ b /\
     subseq a l1 /\ subseq b l2 /\ lst_of h' u = a ++ c' :: b /\
     cell_of h' c' = Cell r e /\ (nc h <= c' < nc h')%nat) /\
  synced h' 0 /\
  (forall u, synced h u -> in_step h' u) /\
  (forall u, synced h u ->
     (forall v, In v (chain h u) -> In v (chain h t) -> v = 0%nat) -> synced h' u).
Proof.
  intros h t e l1 l2 S E r.
  set (h1 := fold_left (shift_up r) (lst_of h 0) h). intros h'.
  pose proof (synced_0 _ _ S) as S0.
  assert (K0 : keys h 0 = upto 0 (length (lst_of h 0))) by (inversion S0; subst; [auto|lia]).
  assert (B0 : forall c, In c (lst_of h 0) -> (c < nc h)%nat) by (apply synced_bound; auto).
  assert (SH : same_shape h h1) by apply shape_up.
  destruct SH as (SH1 & SH2 & SH3 & SH4).
  pose proof (ordered_nodup _ _ (synced_ordered _ _ S0)) as ND.
  assert (R1 : forall d, r_of h1 d = if in_dec_nat d (lst_of h 0)
                 then (if r <=? r_of h d then r_of h d + 1 else r_of h d) else r_of h d).
  { intros d. apply r_of_shift_up; auto. }
  unfold keys in K0. rewrite E in K0. destruct (keys_parts _ _ _ K0) as [KL1 KL2].
  assert (RL1 : forall d, In d l1 -> 0 <= r_of h d < r /\ r_of h1 d = r_of h d).
  { intros d I. pose proof (keys_bound _ _ _ _ KL1 d I) as B. fold r in B.
    split; [lia|]. rewrite R1. destruct (in_dec_nat d (lst_of h 0)); auto.
    destruct (r <=? r_of h d) eqn:Q; auto. lia. }
  assert (RL2 : forall d, In d l2 -> r <= r_of h d /\ r_of h1 d = r_of h d + 1).
  { intros d I. pose proof (keys_bound _ _ _ _ KL2 d I) as B. fold r in B.
    split; [lia|]. rewrite R1. destruct (in_dec_nat d (lst_of h 0)) as [J|J].
    - destruct (r <=? r_of h d) eqn:Q; auto. lia.
    - exfalso. apply J. rewrite E. apply in_or_app. now right. }
  assert (T1 : forall u, tree_of h1 u = tree_of h u) by (intros; unfold tree_of; now rewrite SH2).
  assert (LL1 : forall u, lst_of h1 u = lst_of h u) by (intros; unfold lst_of; now rewrite T1).
  (* every tree in step splits *)
  assert (SP : forall u, synced h u -> exists a b, lst_of h u = a ++ b /\
            subseq a l1 /\ subseq b l2).
  { intros u Su. apply subseq_split. rewrite <- E. now apply synced_sub. }
  assert (F1 : forall a, subseq a l1 -> Forall (fun d => r_of h1 d < r) a).
  { intros a A. eapply subseq_forall; [exact A|]. apply Forall_forall. intros d I.
    destruct (RL1 d I). lia. }
  assert (F2 : forall b, subseq b l2 -> Forall (fun d => ~ r_of h1 d < r) b).
  { intros a A. eapply subseq_forall; [exact A|]. apply Forall_forall. intros d I.
    destruct (RL2 d I). lia. }
  assert (F3 : forall b, subseq b l2 -> Forall (fun d => r < r_of h1 d) b).
  { intros a A. eapply subseq_forall; [exact A|]. apply Forall_forall. intros d I.
    destruct (RL2 d I). lia. }
  assert (O1 : forall u, synced h u -> ordered h1 u).
  { intros u Su. destruct (SP u Su) as (a & b & Eu & A & B).
    unfold ordered, keys. rewrite LL1. eapply subseq_sorted.
    - apply subseq_map. apply synced_sub. exact Su.
    - rewrite E, map_app.
      rewrite (map_ext_in _ (r_of h) l1) by (intros d I; apply RL1; auto).
      rewrite (map_ext_in (r_of h1) (fun d => r_of h d + 1) l2) by (intros d I; apply RL2; auto).
      rewrite <- (map_map (r_of h) (fun x => x + 1) l2), KL1, KL2, map_upto_shift.
      fold r. clear. generalize (length l2). intros n. remember (length l1) as k eqn:Hk.
      assert (G : forall k s n m, s + Z.of_nat k < m -> incr (upto s k ++ upto m n)).
      { clear. induction k; intros s n m L; cbn [upto app]; [apply upto_incr|].
        constructor; [apply IHk; lia|]. apply Forall_app. split; apply Forall_forall;
        intros x I; apply upto_in in I; lia. }
      apply G. subst r k. lia. }
  pose proof (chain_chained _ _ (synced_in_step _ _ S)) as C.
  assert (CS : forall u, In u (chain h t) -> synced h u) by (intros; eapply chained_synced; eauto).
  destruct (add_chain r e (chain h t) h1) as (A1 & A2 & A3 & A4 & A5).
  { eapply chained_nodup; eauto. }
  { intros u U. specialize (CS u U). pose proof (in_step_lt _ _ (synced_in_step _ _ CS)).
    unfold nt, nc in *. rewrite SH2, SH3, LL1. repeat split; auto.
    apply synced_bound; auto. }
  fold h' in A1, A2, A3, A4, A5.
  assert (NC : nc h1 = nc h) by exact SH3. rewrite NC in *.
  assert (ST : same_trees h h').
  { eapply same_trees_trans; [|exact A1]. repeat split; auto.
    - unfold nt. now rewrite SH2. - now rewrite T1. - now rewrite T1. }
  assert (CE : forall d, (d < nc h)%nat -> c_e (cell_of h' d) = c_e (cell_of h d)).
  { intros d D. rewrite A3 by auto. apply SH4. }
  assert (UN : forall u, ~ In u (chain h t) -> lst_of h' u = lst_of h u).
  { intros u U. rewrite A4 by auto. apply LL1. }
  assert (IN : forall u, In u (chain h t) -> exists a b c', lst_of h u = a ++ b /\
     subseq a l1 /\ subseq b l2 /\ lst_of h' u = a ++ c' :: b /\
     cell_of h' c' = Cell r e /\ (nc h <= c' < nc h')%nat).
  { intros u U. destruct (A5 u U) as (a & b & c' & E1 & E2 & L & Cc & Fa & Fb).
    rewrite LL1 in E1. destruct (SP u (CS u U)) as (a2 & b2 & E3 & Sa & Sb).
    exists a2, b2, c'.
    assert (a = a2 /\ b = b2) as [-> ->].
    { apply (split_unique _ (fun d => r_of h1 d <= r)); try congruence.
      - eapply Forall_impl; [|exact Fb]. cbn. lia.
      - eapply Forall_impl; [|apply F1; exact Sa]. cbn. lia.
      - eapply Forall_impl; [|apply F3; exact Sb]. cbn. lia. }
    repeat split; auto; lia. }
  (* the root *)
  assert (S0' : synced h' 0).
  { pose proof (chained_0 _ _ _ C (synced_in_step _ _ S)) as I0.
    destruct (IN _ I0) as (a & b & c' & E1 & Sa & Sb & E2 & Cc & L).
    assert (a = l1 /\ b = l2) as [-> ->].
    { apply (split_unique _ (fun d => r_of h1 d < r)); try congruence; auto using subseq_refl. }
    inversion S0; subst; [|lia]. destruct ST as (_ & N & TT). destruct (TT 0%nat) as [P R].
    constructor; try congruence.
    - unfold keys. rewrite E2, map_app, app_length. cbn [map length].
      assert (RH : forall d, (d < nc h)%nat -> r_of h' d = r_of h1 d).
      { intros d D. unfold r_of. now rewrite A3. }
      rewrite (map_ext_in _ (r_of h) l1).
      2:{ intros d I. rewrite RH by (apply B0; rewrite E; apply in_or_app; now left). apply RL1; auto. }
      rewrite (map_ext_in (r_of h') (fun d => r_of h d + 1) l2).
      2:{ intros d I. rewrite RH by (apply B0; rewrite E; apply in_or_app; now right). apply RL2; auto. }
      rewrite <- (map_map (r_of h) (fun x => x + 1) l2), KL1, KL2, map_upto_shift.
      rewrite upto_app. cbn [upto]. unfold r_of. rewrite Cc. cbn [c_r]. reflexivity.
    - intros d I. rewrite E2 in I. apply in_app_or in I.
      assert (In d (lst_of h 0) \/ d = c') as [J| ->].
      { rewrite E. rewrite in_app_iff. destruct I as [I|[I|I]]; auto. }
      + specialize (B0 d J). lia.
      + lia. }
  (* the other trees *)
  assert (IS : forall u, synced h u -> in_step h' u).
  { induction 1 as [|u p Lu Lp Pu Ru Su Sp IHp].
    - apply synced_in_step. exact S0'.
    - destruct ST as (_ & N & TT). destruct (TT u) as [P R].
      eapply in_step_view with (p := p); try congruence; auto.
      assert (Suu : synced h u) by (eapply synced_view; eauto).
      destruct (in_dec_nat u (chain h t)) as [U|U].
      + pose proof (chained_parent _ _ _ C u p U Pu) as Up.
        destruct (IN u U) as (a & b & c' & E1 & Sa & Sb & E2 & Cc & L).
        destruct (IN p Up) as (a2 & b2 & c2 & E3 & Sa2 & Sb2 & E4 & Cc2 & L2).
        rewrite E1, E3 in Su.
        destruct (subseq_parts _ (fun d => r_of h1 d < r) _ _ _ _ Su) as [Q1 Q2]; auto.
        rewrite E2, E4, !map_app. cbn [map]. rewrite Cc, Cc2.
        apply subseq_app; [now apply subseq_map|]. constructor. now apply subseq_map.
      + apply subseq_map. rewrite UN by auto.
        destruct (in_dec_nat p (chain h t)) as [Up|Up].
        * destruct (IN p Up) as (a2 & b2 & c2 & E3 & Sa2 & Sb2 & E4 & Cc2 & L2).
          rewrite E4. eapply subseq_trans; [exact Su|]. rewrite E3.
          apply subseq_app; [apply subseq_refl|]. constructor. apply subseq_refl.
        * now rewrite UN. }
  repeat (split; [now auto|]).
  intros u Su. induction Su as [|u p Lu Lp Pu Ru Su Sp IHp]; intros U; auto.
  assert (Suu : synced h u) by (eapply synced_view; eauto).
  rewrite (chain_cons h u p) in U; auto; [|now apply synced_in_step].
  destruct ST as (_ & N & TT). destruct (TT u) as [P R].
  eapply synced_view with (p := p); try congruence; auto.
  - assert (Un : ~ In u (chain h t)).
    { intros J. specialize (U u (or_introl eq_refl) J). lia. }
    rewrite UN by auto. destruct (in_dec_nat p (chain h t)) as [Up|Up].
    + destruct (IN p Up) as (a2 & b2 & c2 & E3 & Sa2 & Sb2 & E4 & Cc2 & L2).
      rewrite E4. eapply subseq_trans; [exact Su|]. rewrite E3.
      apply subseq_app; [apply subseq_refl|]. constructor. apply subseq_refl.
    + now rewrite UN.
  - apply IHp. intros v V. apply U. now right.
Qed.

(* --- Python indexing *)
Lemma py_nth_norm : forall A (l : list A) i,
  match norm_index (zlen l) i with
  | Some k => exists x, nth_error l k = Some x /\ py_nth l i = Ok x
  | None => py_nth l i = Err IndexError
  end.
Proof.
  intros A l i. unfold norm_index, py_nth, zlen.
  destruct ((0 <=? i) && (i <? Z.of_nat (length l))) eqn:E.
  - apply andb_true_iff in E as [E1 E2]. apply Z.leb_le in E1. apply Z.ltb_lt in E2.
    destruct (i <? 0) eqn:F; [lia|]. rewrite F.
    destruct (nth_error l (Z.to_nat i)) eqn:G; [eauto|].
    apply nth_error_None in G. lia.
  - destruct ((- Z.of_nat (length l) <=? i) && (i <? 0)) eqn:E'.
    + apply andb_true_iff in E' as [E1 E2]. apply Z.leb_le in E1. rewrite E2.
      apply Z.ltb_lt in E2. destruct (i + Z.of_nat (length l) <? 0) eqn:F; [lia|].
      destruct (nth_error l (Z.to_nat (i + Z.of_nat (length l)))) eqn:G; [eauto|].
      apply nth_error_None in G. lia.
    + apply andb_false_iff in E, E'.
      destruct (i <? 0) eqn:F.
      * assert (i + Z.of_nat (length l) < 0) by lia.
        destruct (i + Z.of_nat (length l) <? 0) eqn:G; [auto|lia].
      * rewrite F. destruct (nth_error l (Z.to_nat i)) eqn:G; auto.
        assert (nth_error l (Z.to_nat i) <> None) as K by congruence.
        apply nth_error_Some in K. lia.
Qed.

Lemma norm_index_lt : forall n i k, norm_index n i = Some k -> (Z.of_nat k < n).
Proof.
  intros n i k. unfold norm_index.
  destruct ((0 <=? i) && (i <? n)) eqn:E.
  - intros H. injection H as <-. lia.
  - destruct ((- n <=? i) && (i <? 0)) eqn:E'; [|discriminate].
    intros H. injection H as <-. lia.
Qed.

Lemma set_add_incr : forall l x, incr (x :: l) -> set_add x l = x :: l.
Proof.
  intros [|y l] x H; auto. inversion H; subst. inversion H3; subst. cbn.
  destruct (x <? y) eqn:E; auto. lia.
Qed.

Lemma set_of_incr : forall l, incr l -> fold_right set_add [] l = l.
Proof.
  induction l as [|x l IH]; intros H; auto. cbn. inversion H; subst.
  rewrite IH by auto. now apply set_add_incr.
Qed.

Lemma sorted_indexes_ordered : forall h t, ordered h t -> sorted_indexes h t = keys h t.
Proof. intros. unfold sorted_indexes. now apply set_of_incr. Qed.

Lemma zlen_map : forall A B (f : A -> B) l, zlen (map f l) = zlen l.
Proof. intros. unfold zlen. now rewrite map_length. Qed.

(* --- insertion before an event of a view *)
Lemma insert_view : forall h t pos e i, synced h t ->
  norm_index (zlen (lst_of h t)) pos = Some i ->
  exists h' c, insert h t pos e = (h', Ok tt) /\ nth_error (lst_of h t) i = Some c /\
    same_trees h h' /\
    (forall d, (d < nc h)%nat -> c_e (cell_of h' d) = c_e (cell_of h d)) /\
    (forall u, ~ In u (chain h t) -> lst_of h' u = lst_of h u) /\
    (forall u, In u (chain h t) -> exists a b c', lst_of h u = a ++ c :: b /\
       lst_of h' u = a ++ c' :: c :: b /\ cell_of h' c' = Cell (r_of h c) e /\
       (nc h <= c')%nat) /\
    synced h' 0 /\
    (forall u, synced h u -> in_step h' u) /\
    (forall u, synced h u ->
       (forall v, In v (chain h u) -> In v (chain h t) -> v = 0%nat) -> synced h' u).
Proof.
  intros h t pos e i S NI.
  assert (O : ordered h t) by now apply synced_ordered.
  assert (P : exists c, nth_error (lst_of h t) i = Some c /\
            py_nth (sorted_indexes h t) pos = Ok (r_of h c)).
  { pose proof (py_nth_norm _ (keys h t) pos) as Q. unfold keys in Q.
    rewrite zlen_map, NI in Q. destruct Q as (x & Q1 & Q2).
    rewrite nth_error_map in Q1. destruct (nth_error (lst_of h t) i) as [c|] eqn:E; [|discriminate].
    cbn in Q1. injection Q1 as <-. exists c. split; auto.
    rewrite sorted_indexes_ordered by auto. exact Q2. }
  destruct P as (c & E & PN). pose proof (nth_error_In _ _ E) as It.
  pose proof (subseq_in _ _ _ _ (synced_sub _ _ S) It) as I0.
  destruct (in_split _ _ I0) as (l1 & l2 & L0).
  pose proof (synced_0 _ _ S) as S0.
  assert (K0 : map (r_of h) (l1 ++ c :: l2) = upto 0 (length (l1 ++ c :: l2))).
  { inversion S0; subst; [|lia]. unfold keys in H2. now rewrite L0 in H2. }
  assert (Rc : r_of h c = Z.of_nat (length l1)).
  { destruct (keys_parts _ _ _ K0) as [_ K]. cbn [map length upto] in K. congruence. }
  pose proof (ordered_nodup _ _ (synced_ordered _ _ S0)) as ND.
  destruct (insert_core h t e l1 (c :: l2) S L0) as (C1 & C2 & C3 & C4 & C5 & C6 & C7 & C8).
  unfold insert. destruct (lst_of h t) as [|x l] eqn:Lt.
  { destruct i; discriminate. }
  rewrite PN. rewrite (in_step_root_of _ _ (synced_in_step _ _ S)). rewrite Rc.
  eexists. exists c. split; [reflexivity|]. repeat (split; [now auto|]).
  split; [|auto].
  intros u U. destruct (C5 u U) as (a & b & c' & E1 & Sa & Sb & E2 & Cc & L).
  assert (Iu : In c (lst_of h u)).
  { eapply subseq_in; [apply (chained_lst _ _ _ (chain_chained _ _ (synced_in_step _ _ S)) S u U)|].
    rewrite Lt. exact It. }
  rewrite L0 in ND. apply NoDup_remove_2 in ND.
  assert (exists b', b = c :: b') as (b' & ->).
  { rewrite E1 in Iu. apply in_app_or in Iu. destruct Iu as [J|J].
    - exfalso. apply ND. apply in_or_app. left. eapply subseq_in; eauto.
    - inversion Sb; subst; eauto; [inversion J|].
      exfalso. apply ND. apply in_or_app. right. eapply subseq_in; eauto. }
  exists a, b', c'. split; [auto|]. split; [auto|]. split; [now rewrite Rc|lia].
Qed.

(* --- insertion through an empty view *)
Lemma insert_empty : forall h t pos e, synced h t -> lst_of h t = [] ->
  exists h', insert h t pos e = (h', Ok tt) /\ same_trees h h' /\
    (forall d, (d < nc h)%nat -> c_e (cell_of h' d) = c_e (cell_of h d)) /\
    (forall u, ~ In u (chain h t) -> lst_of h' u = lst_of h u) /\
    (forall u, In u (chain h t) -> exists c', lst_of h' u = c' :: lst_of h u /\
       cell_of h' c' = Cell 0 e /\ (nc h <= c')%nat) /\
    synced h' 0 /\ (forall u, synced h u -> in_step h' u).
Proof.
  intros h t pos e S E.
  destruct (insert_core h t e [] (lst_of h 0) S eq_refl) as (C1 & C2 & C3 & C4 & C5 & C6 & C7 & C8).
  unfold insert. rewrite E, (in_step_root_of _ _ (synced_in_step _ _ S)).
  eexists. split; [reflexivity|]. repeat (split; [now auto|]). split; [|auto].
  intros u U. destruct (C5 u U) as (a & b & c' & E1 & Sa & Sb & E2 & Cc & L).
  apply subseq_nil_r in Sa. subst a. exists c'. rewrite E1. cbn [app] in *.
  split; [exact E2|]. split; [exact Cc|lia].
Qed.

(* ------------------------------------------------------------------------- pop *)

Lemma remove_chain_spec : forall ie ts h, NoDup ts ->
  (forall u, In u ts -> (u < nt h)%nat /\ ordered h u /\
     exists a d b, lst_of h u = a ++ d :: b /\ r_of h d = r_of h ie) ->
  exists h', remove_chain h ts ie = (h', Ok tt) /\ same_trees h h' /\
    h_cells h' = h_cells h /\
    (forall u, ~ In u ts -> lst_of h' u = lst_of h u) /\
    (forall u, In u ts -> forall a d b, lst_of h u = a ++ d :: b ->
       r_of h d = r_of h ie -> lst_of h' u = a ++ b).
Proof.
  induction ts as [|t ts IH]; intros h N H; cbn [remove_chain].
  - exists h. repeat split; auto. intros u [].
  - inversion N; subst. destruct (H t (or_introl eq_refl)) as (Lt & Ot & a & d & b & E & R).
    unfold ordered, keys in Ot. rewrite E in Ot |- *.
    rewrite (sl_remove_at h a b ie d Ot R).
    assert (LS : forall u, lst_of (set_lst h t (a ++ b)) u = if Nat.eqb u t then a ++ b else lst_of h u).
    { intros. now apply lst_of_set_lst. }
    destruct (IH (set_lst h t (a ++ b))) as (h' & R' & ST & HC & F1 & F2); auto.
    { intros u U. destruct (H u (or_intror U)) as (Lu & Ou & X).
      assert (Nat.eqb u t = false) as Q by (apply Nat.eqb_neq; intros ->; contradiction).
      split; [unfold nt, set_lst; cbn; now rewrite lset_length|].
      unfold ordered, keys in *. rewrite LS, Q. split; auto. }
    exists h'. split; [auto|]. split; [|split; [|split]].
    + eapply same_trees_trans; [|exact ST]. repeat split.
      * unfold nt, set_lst. cbn. now rewrite lset_length.
      * rewrite tree_of_set_lst by auto. now destruct (Nat.eqb t0 t).
      * rewrite tree_of_set_lst by auto. now destruct (Nat.eqb t0 t).
    + rewrite HC. reflexivity.
    + intros u U. rewrite F1 by (intros K; apply U; now right). rewrite LS.
      destruct (Nat.eqb u t) eqn:Q; auto. apply Nat.eqb_eq in Q. subst.
      exfalso. apply U. now left.
    + intros u [<-|U] a' d' b' E' R''.
      * rewrite F1 by auto. rewrite LS, Nat.eqb_refl.
        rewrite E in E'.
        assert (d' = d).
        { apply (ordered_inj h t); auto.
          - unfold ordered, keys. now rewrite E.
          - rewrite E, E'. apply in_or_app. right. now left.
          - rewrite E. apply in_or_app. right. now left.
          - congruence. }
        subst d'. destruct (nodup_split _ (lst_of h t) a d b a' b') as [-> ->]; auto; try congruence.
        apply (ordered_nodup h). unfold ordered, keys. now rewrite E.
      * apply F2 with d'; auto. rewrite LS.
        destruct (Nat.eqb u t) eqn:Q; auto. apply Nat.eqb_eq in Q. subst. contradiction.
Qed.

Lemma get_ie_1 : forall h t id, get_ie h t [id] = filter (fun c => id_of h c =? id) (lst_of h t).
Proof. intros. unfold get_ie. apply filter_ext. intros c. apply mem_Z_1. Qed.

Lemma contains_get_ie : forall h t id,
  contains h t id = match get_ie h t [id] with [] => false | _ => true end.
Proof.
  intros. rewrite get_ie_1. unfold contains. induction (lst_of h t) as [|c l IH]; auto.
  cbn. destruct (id_of h c =? id); auto.
Qed.

Lemma pop_absent : forall h t id k, get_ie h t [id] = [] -> pop h t id k = (h, Err KeyError).
Proof. intros. unfold pop. rewrite contains_get_ie, H. reflexivity. Qed.

Lemma pop_outside : forall h t id k, get_ie h t [id] <> [] ->
  norm_index (zlen (get_ie h t [id])) k = None -> pop h t id k = (h, Err IndexError).
Proof.
  intros h t id k H N. unfold pop. rewrite contains_get_ie.
  pose proof (py_nth_norm _ (get_ie h t [id]) k) as Q. rewrite N in Q. rewrite Q.
  destruct (get_ie h t [id]); [congruence|reflexivity].
Qed.

Lemma in_map_cell : forall h l c, In c (map (cell_of h) l) ->
  exists a d b, l = a ++ d :: b /\ cell_of h d = c.
Proof.
  intros h l c I. apply in_map_iff in I. destruct I as (d & E & I).
  apply in_split in I. destruct I as (a & b & ->). eauto.
Qed.

Lemma pop_view : forall h t id k j, in_step h t ->
  norm_index (zlen (get_ie h t [id])) k = Some j ->
  exists h' ie, nth_error (get_ie h t [id]) j = Some ie /\
    pop h t id k = (h', Ok (c_e (cell_of h ie))) /\
    same_trees h h' /\ nc h' = nc h /\
    (forall d, c_e (cell_of h' d) = c_e (cell_of h d)) /\
    (forall u, ~ In u (chain h t) -> lst_of h' u = lst_of h u) /\
    (forall u, In u (chain h t) -> exists a d b, lst_of h u = a ++ d :: b /\
       cell_of h d = cell_of h ie /\ lst_of h' u = a ++ b) /\
    synced h' 0 /\
    (synced h t ->
     (forall u, In u (chain h t) -> exists a b, lst_of h u = a ++ ie :: b /\
        lst_of h' u = a ++ b) /\
     (forall u, synced h u ->
        (forall v, In v (chain h u) -> In v (chain h t) \/ ~ In ie (lst_of h v)) ->
        synced h' u)).
Proof.
  intros h t id k j S NI.
  pose proof (py_nth_norm _ (get_ie h t [id]) k) as Q. rewrite NI in Q.
  destruct Q as (ie & E & PN). pose proof (nth_error_In _ _ E) as I.
  assert (CT : contains h t id = true).
  { rewrite contains_get_ie. destruct (get_ie h t [id]); [inversion I|auto]. }
  apply get_ie_in in I. destruct I as [I _].
  pose proof (chain_chained _ _ S) as C.
  assert (HAS : forall u, In u (chain h t) -> exists a d b, lst_of h u = a ++ d :: b /\
            cell_of h d = cell_of h ie).
  { intros u U. apply in_map_cell. eapply subseq_in; [eapply chained_cells; eauto|].
    now apply in_map. }
  destruct (remove_chain_spec ie (chain h t) h) as (h1 & R & ST & HC & F1 & F2).
  { eapply chained_nodup; eauto. }
  { intros u U. pose proof (chained_in_step _ _ _ C S u U) as Su. split; [now apply in_step_lt|].
    split; [now apply in_step_ordered|]. destruct (HAS u U) as (a & d & b & E1 & E2).
    exists a, d, b. split; auto. unfold r_of. now rewrite E2. }
  pose proof (chained_0 _ _ _ C S) as I0.
  destruct (HAS _ I0) as (l1 & d0 & l2 & L0 & D0).
  assert (RD : r_of h d0 = r_of h ie) by (unfold r_of; now rewrite D0).
  pose proof (F2 _ I0 _ _ _ L0 RD) as L0'.
  pose proof (in_step_0 _ _ S) as S0.
  pose proof (ordered_nodup _ _ (in_step_ordered _ _ S0)) as ND.
  assert (NIe : ~ In ie (l1 ++ l2)).
  { intros J. rewrite L0 in ND. pose proof (NoDup_remove_2 _ _ _ ND) as ND2.
    assert (ie = d0); [|subst; contradiction].
    apply (ordered_inj h 0); auto using in_step_ordered.
    - rewrite L0. apply in_app_or in J. apply in_or_app. destruct J; auto. right. now right.
    - rewrite L0. apply in_or_app. right. now left. }
  assert (RT : t_root (tree_of h1 t) = 0%nat).
  { destruct ST as (_ & _ & TT). destruct (TT t) as [_ ->]. now apply in_step_root_of. }
  set (h' := fold_left (shift_down ie) (l1 ++ l2) h1).
  assert (PE : pop h t id k = (h', Ok (c_e (cell_of h ie)))).
  { unfold pop. rewrite CT. cbn [negb]. rewrite PN, R. cbn [fst snd]. rewrite RT, L0'.
    fold h'. unfold cell_of. now rewrite HC. }
  assert (SH : same_shape h1 h') by apply shape_down.
  destruct SH as (SH1 & SH2 & SH3 & SH4).
  assert (LL : forall u, lst_of h' u = lst_of h1 u).
  { intros. unfold lst_of, tree_of. now rewrite SH2. }
  assert (ST' : same_trees h h').
  { eapply same_trees_trans; [exact ST|]. repeat split; auto.
    - unfold nt. now rewrite SH2. - unfold tree_of. now rewrite SH2.
    - unfold tree_of. now rewrite SH2. }
  assert (NC : nc h' = nc h) by (unfold nc; rewrite SH3; now rewrite HC).
  assert (CE : forall d, c_e (cell_of h' d) = c_e (cell_of h d)).
  { intros d. rewrite SH4. unfold cell_of. now rewrite HC. }
  assert (UN : forall u, ~ In u (chain h t) -> lst_of h' u = lst_of h u).
  { intros. rewrite LL. auto. }
  assert (IN : forall u, In u (chain h t) -> exists a d b, lst_of h u = a ++ d :: b /\
       cell_of h d = cell_of h ie /\ lst_of h' u = a ++ b).
  { intros u U. destruct (HAS u U) as (a & d & b & E1 & E2). exists a, d, b.
    split; auto. split; auto. rewrite LL. apply F2 with d; auto. unfold r_of. now rewrite E2. }
  assert (K0 : map (r_of h) (l1 ++ d0 :: l2) = upto 0 (length (l1 ++ d0 :: l2))).
  { inversion S0; subst; [|lia]. unfold keys in H2. now rewrite L0 in H2. }
  assert (B0 : forall c, In c (l1 ++ l2) -> (c < nc h)%nat).
  { intros c J. inversion S0; subst; [|lia]. apply H3. rewrite L0.
    apply in_app_or in J. apply in_or_app. destruct J; auto. right. now right. }
  assert (S0' : synced h' 0).
  { inversion S0; subst; [|lia]. destruct ST' as (_ & N & TT). destruct (TT 0%nat) as [P RR].
    constructor; try congruence.
    - unfold keys. rewrite LL, L0'.
      destruct (keys_parts _ _ _ K0) as [KL1 KL2]. cbn [map length upto] in KL2.
      injection KL2 as KD KL2.
      assert (R1 : forall c, r_of h1 c = r_of h c) by (intros; unfold r_of, cell_of; now rewrite HC).
      assert (RH : forall c, In c (l1 ++ l2) -> r_of h' c =
                (if r_of h ie <=? r_of h c then r_of h c - 1 else r_of h c)).
      { intros c J. unfold h'. rewrite r_of_shift_down; auto.
        - rewrite !R1. destruct (in_dec_nat c (l1 ++ l2)); [auto|contradiction].
        - rewrite L0 in ND. eapply NoDup_remove_1; eauto.
        - intros x X. rewrite HC. now apply B0. }
      rewrite map_app, app_length, upto_app.
      rewrite (map_ext_in _ (r_of h) l1).
      2:{ intros c J. rewrite RH by (apply in_or_app; now left).
          pose proof (keys_bound _ _ _ _ KL1 c J).
          destruct (r_of h ie <=? r_of h c) eqn:Q; auto. lia. }
      rewrite (map_ext_in (r_of h') (fun c => r_of h c + -1) l2).
      2:{ intros c J. rewrite RH by (apply in_or_app; now right).
          pose proof (keys_bound _ _ _ _ KL2 c J).
          destruct (r_of h ie <=? r_of h c) eqn:Q; lia. }
      rewrite <- (map_map (r_of h) (fun x => x + -1) l2), KL1, KL2, map_upto_shift.
      f_equal. f_equal. lia.
    - intros c J. rewrite LL, L0' in J. rewrite NC. auto. }
  exists h', ie. repeat (split; [now auto|]).
  intros Sy.
  assert (EX : forall u, In u (chain h t) -> exists a b, lst_of h u = a ++ ie :: b /\
        lst_of h' u = a ++ b).
  { intros u U. destruct (IN u U) as (a & d & b & E1 & E2 & E3).
    assert (d = ie); [|subst; eauto].
    pose proof (chained_synced _ _ _ C Sy u U) as Su.
    apply (ordered_inj h u); auto using synced_ordered.
    - rewrite E1. apply in_or_app. right. now left.
    - eapply subseq_in; [eapply chained_lst; eauto|auto].
    - unfold r_of. now rewrite E2. }
  split; auto.
  intros u Su. induction Su as [|u p Lu Lp Pu Ru Su Sp IHp]; intros U; auto.
  assert (Suu : synced h u) by (eapply synced_view; eauto).
  rewrite (chain_cons h u p) in U; auto; [|now apply synced_in_step].
  assert (Sp' : synced h' p) by (apply IHp; intros v V; apply U; now right).
  destruct ST' as (_ & N & TT). destruct (TT u) as [P RR].
  eapply synced_view with (p := p); try congruence; auto.
  destruct (in_dec_nat u (chain h t)) as [Uc|Uc].
  - pose proof (chained_parent _ _ _ C u p Uc Pu) as Up.
    destruct (EX u Uc) as (a & b & E1 & E3). destruct (EX p Up) as (a2 & b2 & E4 & E5).
    rewrite E3, E5. rewrite E1, E4 in Su.
    assert (NDp : NoDup (lst_of h p)) by (apply (ordered_nodup h); now apply synced_ordered).
    rewrite E4 in NDp. apply NoDup_remove_2 in NDp.
    destruct (subseq_app_inv _ _ _ _ _ Su) as [(x & y & Ex & X & Y)|(x & y & Ex & X & Y)].
    + assert (NDu : NoDup (lst_of h u)) by (apply (ordered_nodup h); now apply synced_ordered).
      destruct (nodup_split _ _ a ie b x y NDu E1) as [-> ->]; [congruence|].
      now apply subseq_app.
    + exfalso. apply NDp. assert (In ie (x ++ y)) as J.
      { rewrite <- Ex. apply in_or_app. right. now left. }
      eapply subseq_in; [apply subseq_app; eauto|auto].
  - rewrite UN by auto. destruct (in_dec_nat p (chain h t)) as [Up|Up]; [|now rewrite UN].
    destruct (EX p Up) as (a2 & b2 & E4 & E5). rewrite E5. rewrite E4 in Su.
    destruct (subseq_app_inv _ _ _ _ _ Su) as [(x & y & Ex & X & Y)|(x & y & -> & X & Y)].
    + destruct (U u (or_introl eq_refl)) as [J|J]; [contradiction|].
      exfalso. apply J. rewrite Ex. apply in_or_app. right. now left.
    + now apply subseq_app.
Qed.
