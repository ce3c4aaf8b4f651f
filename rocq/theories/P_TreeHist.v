(* Histories of edits: the root tree against plain lists, pops through a view. *)
From Coq Require Import String ZArith List Bool Lia Sorting.Sorted.
From Verif Require Import M_Base M_Events M_Tree S_Tree P_Base P_TreeBase P_Tree P_TreeEdit.
Import ListNotations.
Open Scope Z_scope.

(* a list edit carried out on a tree *)
Definition tree_edit (h : heap) (t : nat) (o : edit) : heap * res (option event) :=
  match o with
  | Insert pos e =>
      let '(h1, i) := new_event h e in
      let '(h2, a) := insert h1 t pos i in
      (h2, match a with Ok _ => Ok None | Err x => Err x end)
  | Pop id k =>
      let '(h1, a) := pop h t id k in
      (h1, match a with Ok i => Ok (Some (ev_of h1 i)) | Err x => Err x end)
  end.

Fixpoint tree_edits (h : heap) (t : nat) (os : list edit)
  : heap * list (res (option event)) :=
  match os with
  | [] => (h, [])
  | o :: r => let '(h1, a) := tree_edit h t o in
              let '(h2, b) := tree_edits h1 t r in (h2, a :: b)
  end.

(* event references exist *)
Definition sound (h : heap) (t : nat) : Prop :=
  forall c, In c (lst_of h t) -> (c_e (cell_of h c) < length (h_evs h))%nat.

Lemma positions_shift : forall id l n, positions id (S n) l = map S (positions id n l).
Proof.
  induction l as [|e l IH]; intros n; cbn; auto. rewrite (IH (S n)).
  destruct (e_id e =? id); auto.
Qed.

Lemma positions_get : forall h id l,
  filter (fun c => id_of h c =? id) l =
  map (fun i => nth i l 0%nat) (positions id 0 (map (e_of h) l)).
Proof.
  induction l as [|c l IH]; auto. cbn [filter map positions].
  rewrite positions_shift. unfold id_of at 1.
  destruct (e_id (e_of h c) =? id); cbn [map nth]; rewrite IH, map_map; reflexivity.
Qed.

Lemma positions_lt : forall id l i, In i (positions id 0 l) -> (i < length l)%nat.
Proof.
  induction l as [|e l IH]; intros i I; cbn in *; [contradiction|].
  rewrite positions_shift in I.
  assert (In i (0%nat :: map S (positions id 0 l))) as J.
  { destruct (e_id e =? id); auto. now right. }
  destruct J as [<-|J]; [lia|]. apply in_map_iff in J. destruct J as (k & <- & J).
  specialize (IH _ J). lia.
Qed.

Lemma split_nth : forall A (l : list A) i d, (i < length l)%nat ->
  l = firstn i l ++ nth i l d :: skipn (S i) l.
Proof.
  induction l as [|x l IH]; intros i d L; cbn in L; [lia|]. destruct i; auto.
  cbn [firstn nth skipn app]. f_equal. apply IH. lia.
Qed.

Lemma firstn_map' : forall A B (f : A -> B) n l, firstn n (map f l) = map f (firstn n l).
Proof. intros. apply firstn_map. Qed.
Lemma skipn_map' : forall A B (f : A -> B) n l, skipn n (map f l) = map f (skipn n l).
Proof. intros. apply skipn_map. Qed.

Lemma events_ext : forall h h' l, h_evs h' = h_evs h ->
  (forall d, In d l -> c_e (cell_of h' d) = c_e (cell_of h d)) ->
  map (e_of h') l = map (e_of h) l.
Proof.
  intros h h' l E C. apply map_ext_in. intros d I. unfold e_of, ev_of.
  now rewrite E, C.
Qed.

Lemma zlen_nil : forall A (l : list A), l <> [] -> 0 < zlen l.
Proof. intros A [|x l] H; [congruence|]. unfold zlen. cbn [length]. lia. Qed.

(* pop through a view acts on the view's events as on a list *)
Lemma pop_list : forall h t id k, synced h t ->
  let '(h', a) := tree_edit h t (Pop id k) in
  list_edit (events h t) (Pop id k) = (events h' t, a) /\
  synced h' t /\ h_evs h' = h_evs h /\ nc h' = nc h /\
  (forall d, c_e (cell_of h' d) = c_e (cell_of h d)) /\
  (forall u, ~ In u (chain h t) -> lst_of h' u = lst_of h u) /\
  chain h' t = chain h t /\
  exists gone, (length gone <= 1)%nat /\ (forall c, In c gone -> In c (lst_of h t)) /\
    (is_ok a = true <-> gone <> []) /\
    (forall u, In u (chain h t) ->
       lst_of h' u = filter (fun c => negb (existsb (Nat.eqb c) gone)) (lst_of h u)).
Proof.
  intros h t id k S. unfold tree_edit, list_edit.
  assert (G : get_ie h t [id] = map (fun i => nth i (lst_of h t) 0%nat) (positions id 0 (events h t))).
  { rewrite get_ie_1. apply positions_get. }
  assert (FT : forall u, lst_of h u = filter (fun _ => true) (lst_of h u)).
  { intros. symmetry. clear. induction (lst_of h u); cbn; congruence. }
  destruct (positions id 0 (events h t)) as [|p0 ps] eqn:P.
  { rewrite pop_absent by (rewrite G; reflexivity).
    repeat (split; [now auto|]). exists []. split; [auto|]. split; [intros c []|].
    split; [split; [discriminate|congruence]|]. intros u _. apply FT. }
  rewrite <- P in *. set (ps' := positions id 0 (events h t)) in *.
  assert (Z : zlen (get_ie h t [id]) = zlen ps') by (rewrite G; apply zlen_map).
  destruct (norm_index (zlen ps') k) as [j|] eqn:NI.
  2:{ rewrite pop_outside; try (rewrite Z; auto).
      2:{ rewrite G, P. discriminate. }
      repeat (split; [now auto|]). exists []. split; [auto|]. split; [intros c []|].
      split; [split; [discriminate|congruence]|]. intros u _. apply FT. }
  rewrite <- Z in NI.
  destruct (pop_view h t id k j (synced_in_step _ _ S) NI)
    as (h' & ie & E & PE & ST & NC & CE & UN & IN & S0' & SY).
  destruct (SY S) as [EX KEEP]. rewrite PE.
  assert (It : In t (chain h t)).
  { apply (chained_in h t). apply chain_chained. now apply synced_in_step. }
  assert (Jlt : (j < length ps')%nat).
  { apply norm_index_lt in NI. rewrite Z in NI. unfold zlen in NI. lia. }
  set (i := nth j ps' 0%nat).
  assert (Ilt : (i < length (lst_of h t))%nat).
  { assert (In i ps') as J by (apply nth_In; auto). apply positions_lt in J.
    unfold events in J. now rewrite map_length in J. }
  assert (Ei : nth i (lst_of h t) 0%nat = ie).
  { rewrite G, nth_error_map in E. rewrite (nth_error_nth' ps' 0%nat Jlt) in E.
    cbn in E. now injection E. }
  destruct (EX t It) as (a & b & E1 & E2).
  pose proof (split_nth _ (lst_of h t) i 0%nat Ilt) as SPL. rewrite Ei in SPL.
  pose proof (ordered_nodup _ _ (synced_ordered _ _ S)) as ND.
  destruct (nodup_split _ _ _ _ _ _ _ ND E1 SPL) as [Ea Eb].
  assert (EV : h_evs h' = h_evs h) by apply ST.
  assert (EVT : events h' t = map (e_of h) (a ++ b)).
  { unfold events. rewrite E2. apply events_ext; auto. }
  split.
  { f_equal.
    - rewrite EVT, Ea, Eb, map_app. unfold events. now rewrite firstn_map', skipn_map'.
    - f_equal. unfold events. rewrite nth_error_map.
      rewrite (nth_error_nth' (lst_of h t) 0%nat Ilt), Ei. cbn.
      unfold e_of, ev_of. now rewrite EV. }
  split.
  { apply KEEP; auto. }
  split; [auto|]. split; [auto|]. split; [auto|]. split; [auto|].
  split.
  { apply (chained_fun h' t).
    - apply chain_chained. apply synced_in_step. apply KEEP; auto.
    - pose proof (chain_chained _ _ (synced_in_step _ _ S)) as C.
      destruct ST as (_ & _ & TT). clear -C TT. induction C.
      + constructor. now rewrite (proj1 (TT t)).
      + eapply chained_up; eauto. now rewrite (proj1 (TT t)). }
  exists [ie]. cbn [length]. repeat split; auto; try discriminate.
  - intros c [<-|[]]. rewrite E1. apply in_or_app. right. now left.
  - intros u U. destruct (EX u U) as (a' & b' & E3 & E4). rewrite E3, E4.
    assert (NDu : NoDup (a' ++ ie :: b')).
    { rewrite <- E3. apply (ordered_nodup h). apply synced_ordered.
      eapply chained_synced; eauto. apply chain_chained. now apply synced_in_step. }
    apply NoDup_remove_2 in NDu.
    assert (FF : forall l, ~ In ie l ->
      filter (fun c => negb (existsb (Nat.eqb c) [ie])) l = l).
    { induction l as [|x l IH]; intros NI'; auto. cbn [filter existsb].
      assert (Nat.eqb x ie = false) as -> by (apply Nat.eqb_neq; intros ->; apply NI'; now left).
      cbn. f_equal. apply IH. intros J. apply NI'. now right. }
    rewrite filter_app. cbn [filter existsb]. rewrite Nat.eqb_refl. cbn [orb negb].
    rewrite !FF; auto; intros J; apply NDu; apply in_or_app; auto.
Qed.

(* any history of pops through a view *)
Definition is_pop (o : edit) : bool := match o with Pop _ _ => true | _ => false end.

Lemma pops_list : forall os h t, synced h t -> forallb is_pop os = true ->
  let '(h', res) := tree_edits h t os in
  list_edits (events h t) os = (events h' t, res) /\
  synced h' t /\ h_evs h' = h_evs h /\
  (forall d, c_e (cell_of h' d) = c_e (cell_of h d)) /\
  (forall u, ~ In u (chain h t) -> lst_of h' u = lst_of h u) /\
  exists gone, NoDup gone /\ (forall c, In c gone -> In c (lst_of h t)) /\
    length gone = length (filter (@is_ok (option event)) res) /\
    (forall u, In u (chain h t) ->
       lst_of h' u = filter (fun c => negb (existsb (Nat.eqb c) gone)) (lst_of h u)).
Proof.
  induction os as [|o os IH]; intros h t S F.
  - cbn. repeat (split; [now auto|]). exists []. repeat split; auto; try constructor.
    + intros c []. + intros u _. symmetry. clear. induction (lst_of h u) as [|x l IH]; [reflexivity|]. cbn in *. congruence.
  - cbn [forallb] in F. apply andb_true_iff in F as [Fo F]. destruct o as [|id k]; [discriminate|].
    cbn [tree_edits list_edits].
    pose proof (pop_list h t id k S) as PL.
    destruct (tree_edit h t (Pop id k)) as [h1 a] eqn:E1.
    destruct PL as (A1 & A2 & A3 & A4 & A5 & A6 & A7 & g1 & G1 & G2 & G3 & G4).
    specialize (IH h1 t A2 F). destruct (tree_edits h1 t os) as [h2 r] eqn:E2.
    destruct IH as (B1 & B2 & B3 & B4 & B5 & g2 & H1 & H2 & H3 & H4).
    rewrite A1, B1. split; [reflexivity|]. split; [auto|]. split; [congruence|].
    split; [intros; congruence|].
    split; [intros u U; rewrite B5 by (now rewrite A7); now apply A6|].
    assert (It : In t (chain h t)).
    { apply (chained_in h t). apply chain_chained. now apply synced_in_step. }
    exists (g1 ++ g2). split; [|split; [|split]].
    + assert (NoDup g1) by (destruct g1 as [|x [|y g]]; cbn in G1; [constructor|repeat constructor; auto|lia]).
      assert (D : forall c, In c g1 -> ~ In c g2).
      { intros c I J. apply H2 in J. rewrite (G4 t It) in J. apply filter_In in J.
        destruct J as [_ J]. apply negb_true_iff in J.
        assert (existsb (Nat.eqb c) g1 = true); [|congruence].
        apply existsb_exists. exists c. split; auto. apply Nat.eqb_refl. }
      clear -H H1 D. induction H; cbn; auto. constructor.
      * rewrite in_app_iff. intros [?|?]; [contradiction|]. eapply D; [now left|eauto].
      * apply IHNoDup. intros c I. apply D. now right.
    + intros c I. apply in_app_or in I. destruct I as [I|I]; auto.
      apply H2 in I. rewrite (G4 t It) in I. apply filter_In in I. tauto.
    + rewrite app_length, H3. cbn [filter]. destruct (is_ok a) eqn:Q.
      * destruct g1 as [|x [|y g]]; cbn in G1 |- *; try lia. exfalso. apply (proj1 G3); auto.
      * destruct g1 as [|x g]; auto. exfalso.
        assert (false = true); [|discriminate]. apply G3. discriminate.
    + intros u U. rewrite H4 by (now rewrite A7). rewrite (G4 u U).
      clear. induction (lst_of h u) as [|c l IH]; auto. cbn [filter].
      rewrite existsb_app. destruct (existsb (Nat.eqb c) g1) eqn:E; cbn [negb orb filter]; auto.
      destruct (existsb (Nat.eqb c) g2); cbn [negb]; congruence.
Qed.

(* --- editing the root *)
Lemma new_event_synced : forall h e t, synced h t -> synced (fst (new_event h e)) t.
Proof.
  induction 1; [constructor; auto|]. eapply synced_view with (p := p); auto.
Qed.

Lemma new_event_events : forall h e t, sound h t ->
  events (fst (new_event h e)) t = events h t.
Proof.
  intros h e t S. unfold events. apply map_ext_in. intros c I. specialize (S c I).
  unfold e_of, ev_of. cbn [new_event fst h_evs].
  change (cell_of {| h_evs := h_evs h ++ [e]; h_cells := h_cells h; h_trees := h_trees h |} c)
    with (cell_of h c). now rewrite app_nth1.
Qed.

Lemma insert_outside : forall h t pos e, synced h t -> lst_of h t <> [] ->
  norm_index (zlen (lst_of h t)) pos = None -> insert h t pos e = (h, Err IndexError).
Proof.
  intros h t pos e S NE NI. unfold insert. destruct (lst_of h t) as [|c l] eqn:E; [congruence|].
  rewrite sorted_indexes_ordered by now apply synced_ordered.
  pose proof (py_nth_norm _ (keys h t) pos) as Q. unfold keys in Q at 1.
  rewrite zlen_map, E, NI in Q. now rewrite Q.
Qed.

Lemma nth_error_split_nodup : forall (l a b : list nat) i c, NoDup l ->
  nth_error l i = Some c -> l = a ++ c :: b -> a = firstn i l /\ c :: b = skipn i l.
Proof.
  intros l a b i c N E S.
  assert (L : (i < length l)%nat) by (apply nth_error_Some; congruence).
  pose proof (split_nth _ l i 0%nat L) as SP. rewrite (nth_error_nth _ _ 0%nat E) in SP.
  destruct (nodup_split _ _ _ _ _ _ _ N S SP) as [-> ->]. split; auto.
  clear -E L. revert i E L. induction l as [|x l IH]; intros i E L; cbn in L; [lia|].
  destruct i; cbn in *; [congruence|]. rewrite (IH i); auto. lia.
Qed.

Lemma root_edit : forall h o, synced h 0 -> sound h 0 ->
  let '(h', a) := tree_edit h 0 o in
  list_edit (events h 0) o = (events h' 0, a) /\ synced h' 0 /\ sound h' 0.
Proof.
  intros h o S SD. destruct o as [pos e|id k].
  - cbn [tree_edit list_edit]. destruct (new_event h e) as [h1 i] eqn:E1.
    assert (i = length (h_evs h)) by (unfold new_event in E1; now injection E1 as _ <-). subst i.
    assert (H1 : h1 = fst (new_event h e)) by now rewrite E1.
    assert (S1 : synced h1 0) by (rewrite H1; now apply new_event_synced).
    assert (EV1 : events h1 0 = events h 0) by (rewrite H1; now apply new_event_events).
    assert (L1 : forall t, lst_of h1 t = lst_of h t) by (rewrite H1; reflexivity).
    assert (C1 : forall c, cell_of h1 c = cell_of h c) by (rewrite H1; reflexivity).
    assert (VE : ev_of h1 (length (h_evs h)) = e).
    { rewrite H1. unfold ev_of. cbn. rewrite app_nth2 by lia. now rewrite Nat.sub_diag. }
    assert (LE : length (h_evs h1) = Datatypes.S (length (h_evs h))).
    { rewrite H1. cbn. rewrite app_length. cbn. lia. }
    assert (SD1 : sound h1 0).
    { intros c I. rewrite L1 in I. specialize (SD c I). rewrite C1. lia. }
    assert (I0 : In 0%nat (chain h1 0)).
    { rewrite chain_root by now apply synced_in_step. now left. }
    rewrite <- EV1.
    assert (NIL : events h1 0 = [] <-> lst_of h1 0 = []).
    { unfold events. destruct (lst_of h1 0); cbn; split; intros Q; auto; discriminate Q. }
    destruct (lst_of h1 0) as [|c0 l0] eqn:EL.
    + rewrite (proj2 NIL eq_refl).
      destruct (insert_empty h1 0 pos (length (h_evs h)) S1 EL)
        as (h2 & I2 & ST & CE & UN & IN & S0 & _).
      rewrite I2. destruct (IN 0%nat I0) as (c' & E2 & Cc & L). rewrite EL in E2.
      split; [|split; auto].
      * unfold events. rewrite E2. cbn [map]. unfold e_of, ev_of. rewrite Cc.
        cbn [c_e]. destruct ST as (-> & _). fold (ev_of h1 (length (h_evs h))). now rewrite VE.
      * intros c J. rewrite E2 in J. destruct J as [<-|[]]. rewrite Cc. cbn [c_e].
        destruct ST as (-> & _). lia.
    + destruct (events h1 0) as [|e0 es] eqn:EE; [exfalso; discriminate (proj1 NIL eq_refl)|].
      rewrite <- EE in *. rewrite <- EL in *.
      assert (Z : zlen (events h1 0) = zlen (lst_of h1 0)) by apply zlen_map.
      rewrite Z. destruct (norm_index (zlen (lst_of h1 0)) pos) as [i|] eqn:NI.
      * destruct (insert_view h1 0 pos (length (h_evs h)) i S1 NI)
          as (h2 & c & I2 & NE & ST & CE & UN & IN & S0 & _).
        rewrite I2. destruct (IN 0%nat I0) as (a & b & c' & E2 & E3 & Cc & L).
        pose proof (ordered_nodup _ _ (synced_ordered _ _ S1)) as ND.
        destruct (nth_error_split_nodup _ _ _ _ _ ND NE E2) as [Ea Eb].
        assert (EV : h_evs h2 = h_evs h1) by apply ST.
        assert (EX : forall l, (forall d, In d l -> In d (lst_of h1 0)) ->
                  map (e_of h2) l = map (e_of h1) l).
        { intros l H. apply events_ext; auto. intros d D. apply CE.
          apply (synced_bound h1 0); auto. }
        split; [|split; auto].
        { f_equal. unfold events. rewrite E3, map_app. cbn [map].
          change (e_of h2 c :: map (e_of h2) b) with (map (e_of h2) (c :: b)).
          rewrite !EX.
          - rewrite Ea, Eb, <- firstn_map', <- skipn_map'. f_equal. f_equal.
            unfold e_of, ev_of. rewrite Cc, EV. cbn [c_e]. now symmetry.
          - intros d D. rewrite E2. apply in_or_app. now right.
          - intros d D. rewrite E2. apply in_or_app. now left. }
        { intros d D. rewrite E3 in D. rewrite EV.
          assert (d = c' \/ In d (lst_of h1 0)) as [->|J].
          { rewrite E2. rewrite in_app_iff in *. destruct D as [D|[D|D]]; auto. }
          - rewrite Cc. cbn [c_e]. lia.
          - rewrite CE; [now apply SD1|]. apply (synced_bound h1 0); auto. }
      * rewrite insert_outside; auto. rewrite EL. discriminate.
  - pose proof (pop_list h 0 id k S) as PL. destruct (tree_edit h 0 (Pop id k)) as [h' a].
    destruct PL as (A1 & A2 & A3 & A4 & A5 & A6 & A7 & g1 & G1 & G2 & G3 & G4).
    split; [auto|]. split; [auto|]. intros c I.
    rewrite (G4 0%nat) in I.
    + apply filter_In in I. destruct I as [I _]. rewrite A3, A5. now apply SD.
    + rewrite chain_root by now apply synced_in_step. now left.
Qed.

Lemma root_edits : forall os h, synced h 0 -> sound h 0 ->
  let '(h', res) := tree_edits h 0 os in
  list_edits (events h 0) os = (events h' 0, res) /\ synced h' 0 /\ sound h' 0.
Proof.
  induction os as [|o os IH]; intros h S SD; cbn [tree_edits list_edits]; auto.
  pose proof (root_edit h o S SD) as R. destruct (tree_edit h 0 o) as [h1 a].
  destruct R as (R1 & R2 & R3). specialize (IH h1 R2 R3).
  destruct (tree_edits h1 0 os) as [h2 r]. destruct IH as (I1 & I2 & I3).
  rewrite R1, I1. auto.
Qed.

Lemma parsed_sound : forall evs, sound (parsed evs) 0.
Proof.
  intros evs c I. rewrite parsed_lst in I. apply in_seq in I.
  rewrite parsed_cells by lia. cbn. lia.
Qed.

(* --- append *)
Lemma set_add_length : forall l x, (length (set_add x l) <= S (length l))%nat.
Proof.
  induction l as [|y l IH]; intros x; cbn; auto.
  destruct (x <? y); cbn; auto. destruct (x =? y); cbn; auto. specialize (IH x). lia.
Qed.

Lemma sorted_indexes_length : forall h t, (length (sorted_indexes h t) <= length (lst_of h t))%nat.
Proof.
  intros. unfold sorted_indexes. induction (lst_of h t) as [|c l IH]; cbn; auto.
  pose proof (set_add_length (fold_right set_add [] (map (r_of h) l)) (r_of h c)). lia.
Qed.

Lemma append_fails : forall h t e, lst_of h t <> [] -> append h t e = (h, Err IndexError).
Proof.
  intros h t e NE. unfold append, insert. pose proof (sorted_indexes_length h t) as L.
  assert (py_nth (sorted_indexes h t) (zlen (lst_of h t)) = Err IndexError) as ->.
  { unfold py_nth, zlen in *.
    destruct (Z.of_nat (length (lst_of h t)) <? 0) eqn:E; [lia|]. rewrite E.
    rewrite Nat2Z.id. destruct (nth_error (sorted_indexes h t) (length (lst_of h t))) eqn:G; auto.
    assert (nth_error (sorted_indexes h t) (length (lst_of h t)) <> None) as K by congruence.
    apply nth_error_Some in K. lia. }
  destruct (lst_of h t); [congruence|reflexivity].
Qed.

(* --- equality *)
Lemma list_Zeqb_refl : forall l, list_Zeqb l l = true.
Proof. induction l; cbn; auto. rewrite Z.eqb_refl. auto. Qed.
Lemma list_Zeqb_len : forall a b, list_Zeqb a b = true -> length a = length b.
Proof.
  induction a; intros [|y b] H; cbn in *; try discriminate; auto.
  apply andb_true_iff in H as [_ H]. auto.
Qed.

Lemma tree_eq_counts : forall h1 h2, synced h1 0 -> synced h2 0 ->
  (tree_eqb h1 h2 0 0 = true <-> length (events h1 0) = length (events h2 0)).
Proof.
  intros h1 h2 S1 S2. unfold tree_eqb, events. fold (keys h1 0). fold (keys h2 0).
  rewrite !map_length. inversion S1; subst; [|lia]. inversion S2; subst; [|lia].
  rewrite H2, H7. split.
  - intros E. apply list_Zeqb_len in E. now rewrite !upto_length in E.
  - intros ->. apply list_Zeqb_refl.
Qed.
