(* C15-C23: event trees, their views and edits through them. *)
From Coq Require Import String ZArith List Bool Lia Sorting.Sorted.
From Verif Require Import M_Base M_Events M_Tree S_Tree P_Base P_TreeBase P_Tree
  P_TreeEdit P_TreeHist.
Import ListNotations.
Open Scope Z_scope.

(* sample project: ten one-byte events; the value tells them apart *)
Definition ev1 (id v : Z) : event := Event id KU8 1 false (VInt v).
Definition evs0 : list event :=
  [ev1 10 0; ev1 11 1; ev1 12 2; ev1 10 3; ev1 13 4; ev1 11 5; ev1 10 6; ev1 12 7].
Definition vals (l : list event) : list val := map e_val l.
Definition by_ids (ids : list Z) (s : unit) (e : event) : unit * option bool :=
  (s, if mem_Z (e_id e) ids then Some true else None).

(* ------------------------------------------------------------------------- C15 *)

(* Views are made from the project's tree (tree 0) in any way, to any depth. *)
Theorem C15_views : forall evs h, evs <> [] -> views (parsed evs) h ->
  events h 0 = evs /\
  forall t p, (t < nt h)%nat -> t_parent (tree_of h t) = Some p ->
    subseq (lst_of h t) (lst_of h p) /\ NoDup (lst_of h t) /\
    subseq (events h t) (events h p) /\ subseq (events h t) evs.
Proof.
  intros evs h NE V. destruct (views_synced _ _ NE V) as (A & B & C & D).
  assert (E : events h 0 = evs).
  { transitivity (events (parsed evs) 0); [|apply parsed_events].
    unfold events. rewrite B. apply map_ext.
    intros c. unfold e_of, ev_of, cell_of. now rewrite C, D. }
  split; auto. intros t p L P. pose proof (A t L) as S. pose proof (synced_sub _ _ S) as Q.
  assert (subseq (lst_of h t) (lst_of h p)) as R.
  { inversion S; subst; [congruence|]. assert (p0 = p) by congruence. now subst. }
  split; auto. split; [apply (ordered_nodup h); now apply synced_ordered|].
  split; [now apply subseq_map|]. rewrite <- E. now apply subseq_map.
Qed.

(* The same for one view of any tree whose root indexes increase. *)
Theorem C15_subtree : forall S h t (sel : S -> event -> S * option bool) s h' u,
  ordered h t -> subtree h t sel s = (h', u) ->
  t_parent (tree_of h' u) = Some t /\
  lst_of h' u = map fst (filter (fun x => match snd x with Some true => true | _ => false end)
                           (combine (lst_of h t) (answers sel s (events h t)))) /\
  subseq (lst_of h' u) (lst_of h t) /\
  forall v, (v < nt h)%nat -> tree_of h' v = tree_of h v.
Proof.
  intros S h t sel s h' u O E. unfold subtree in E.
  pose proof (new_tree_ext h (Some t) (select_list h sel s (lst_of h t))) as X.
  rewrite E in X. cbn [fst] in X.
  destruct (new_tree_self _ _ _ _ _ E) as (-> & N & P & L).
  rewrite (init_subseq h t) in L; auto using select_subseq.
  split; auto. split; [rewrite L; apply select_spec|].
  split; [rewrite L; apply select_subseq|]. intros v V. now apply extends_tree.
Qed.

Example C15_case :
  let h := fst (subtree (parsed evs0) 0 (by_ids [10; 12]) tt) in
  let h2 := fst (subtree h 1 (by_ids [12]) tt) in
  views (parsed evs0) h2 /\ evs0 <> [] /\
  vals (events h2 1) = [VInt 0; VInt 2; VInt 3; VInt 6; VInt 7] /\
  vals (events h2 2) = [VInt 2; VInt 7] /\ t_parent (tree_of h2 2) = Some 1%nat.
Proof.
  split; [|split; [discriminate|vm_compute; auto]].
  apply views_more with (fst (subtree (parsed evs0) 0 (by_ids [10; 12]) tt)).
  - eapply views_more; [apply views_none|]. apply op_subtree. vm_compute. lia.
  - apply op_subtree. vm_compute. lia.
Qed.

(* ------------------------------------------------------------------------- C16 *)

(* divide: the parent's events are cut before every separator (the first piece
   also absorbs the first one) and each piece is filtered. *)
Theorem C16_divide : forall h t sep ids h' us,
  ordered h t -> divide h t sep ids = (h', us) ->
  exists ps, cut_pieces (fun c => id_of h c =? sep) (lst_of h t) ps /\
    map (lst_of h') us = map (filter (fun c => mem_Z (id_of h c) ids)) ps /\
    length us = Nat.max 1 (length (filter (fun c => id_of h c =? sep) (lst_of h t))) /\
    Forall (fun u => t_parent (tree_of h' u) = Some t) us.
Proof.
  intros h t sep ids h' us O E. unfold divide in E.
  destruct (divide_pieces h sep ids (lst_of h t)) as (ps & C & D).
  destruct (new_trees_spec _ _ _ _ _ E) as (_ & U & _ & _ & F).
  pose proof (new_trees_sub _ _ _ _ _ O (divide_subseq h sep ids (lst_of h t)) E) as M.
  exists ps. split; [exact C|]. split; [now rewrite M, D|]. split; [|exact F].
  rewrite U, seq_length, D, map_length. apply (cut_pieces_count _ _ _ _ C).
Qed.

(* Together the pieces are exactly the wanted events of the parent, in order. *)
Theorem C16_concat : forall h t sep ids h' us,
  ordered h t -> divide h t sep ids = (h', us) ->
  concat (map (events h') us) = get h t ids.
Proof.
  intros h t sep ids h' us O E.
  destruct (C16_divide h t sep ids h' us O E) as (ps & (C & _) & D & _).
  unfold divide in E. destruct (new_trees_spec _ _ _ _ _ E) as ((X1 & X2 & _) & _).
  assert (EE : forall c, e_of h' c = e_of h c).
  { intros. unfold e_of, ev_of, cell_of. now rewrite X1, X2. }
  unfold events. rewrite <- (map_map (lst_of h') (map (e_of h'))), D.
  unfold get, events. rewrite <- C. clear -EE.
  induction ps as [|p ps IH]; auto. cbn [map concat]. rewrite IH, map_app, filter_app. f_equal.
  clear IH. induction p as [|c p IH]; auto. cbn [filter map]. unfold id_of at 1.
  destruct (mem_Z (e_id (e_of h c)) ids); cbn [map]; rewrite ?IH, ?EE; auto.
Qed.

(* Every tree after the first starts with the separator and has no other one,
   the first has at most one, when the separator itself is wanted. *)
Theorem C16_starts : forall h t sep ids h' us,
  ordered h t -> divide h t sep ids = (h', us) -> In sep ids ->
  forall k u, nth_error us k = Some u ->
    (length (filter (fun e => (e_id e =? sep)%Z) (events h' u)) <= 1)%nat /\
    ((0 < k)%nat -> exists e es, events h' u = e :: es /\ e_id e = sep).
Proof.
  intros h t sep ids h' us O E I k u K.
  destruct (C16_divide h t sep ids h' us O E) as (ps & (C & P) & D & _).
  unfold divide in E. destruct (new_trees_spec _ _ _ _ _ E) as ((X1 & X2 & _) & _).
  assert (EE : forall c, e_of h' c = e_of h c).
  { intros. unfold e_of, ev_of, cell_of. now rewrite X1, X2. }
  assert (exists p, nth_error ps k = Some p /\
            lst_of h' u = filter (fun c => mem_Z (id_of h c) ids) p) as (p & Np & Lu).
  { assert (N : nth_error (map (lst_of h') us) k = Some (lst_of h' u))
      by (rewrite nth_error_map, K; reflexivity).
    rewrite D, nth_error_map in N. destruct (nth_error ps k) as [p|]; [|discriminate].
    exists p. split; auto. cbn in N. congruence. }
  assert (EV : events h' u = map (e_of h) (filter (fun c => mem_Z (id_of h c) ids) p)).
  { unfold events. rewrite Lu. apply map_ext. auto. }
  assert (CNT : (length (filter (fun e => (e_id e =? sep)%Z) (events h' u)) <=
                 length (filter (fun c => (id_of h c =? sep)%Z) p))%nat).
  { rewrite EV. clear. induction p as [|c p IH]; auto. cbn [filter].
    unfold id_of in *. destruct (mem_Z (e_id (e_of h c)) ids); cbn [map filter];
    destruct (e_id (e_of h c) =? sep); cbn [length]; lia. }
  assert (Z0 : forall a, forallb (fun x => negb (id_of h x =? sep)) a = true ->
            filter (fun c => id_of h c =? sep) a = []).
  { induction a; cbn; intros H; auto. apply andb_true_iff in H as [H1 H2].
    destruct (id_of h a =? sep); try discriminate. auto. }
  destruct ps as [|p0 r]; [contradiction|]. destruct P as ((a & b & -> & Fa & Fb) & Fr).
  destruct k as [|k]; cbn [nth_error] in Np.
  - injection Np as <-. split; [|lia]. rewrite filter_app, (Z0 _ Fa) in CNT. cbn [app] in CNT.
    destruct b as [|x b]; cbn [filter length] in CNT; [lia|].
    destruct Fb as [Fx Fb]. rewrite Fx, (Z0 _ Fb) in CNT. cbn [length] in CNT. lia.
  - apply nth_error_In in Np. rewrite Forall_forall in Fr.
    destruct (Fr _ Np) as (x & p' & -> & Hx & Hp).
    cbn [filter] in CNT. rewrite Hx, (Z0 _ Hp) in CNT. cbn [length] in CNT.
    split; [lia|]. intros _. cbn [filter] in EV. apply Z.eqb_eq in Hx.
    assert (mem_Z (id_of h x) ids = true) as Q by (apply mem_Z_in; congruence).
    rewrite Q in EV. cbn [map] in EV. eexists _, _. split; [exact EV|exact Hx].
Qed.

Example C16_case :
  let '(h, us) := divide (parsed evs0) 0 10 [10; 11] in
  ordered (parsed evs0) 0 /\
  map (fun u => vals (events h u)) us =
    [[VInt 0; VInt 1]; [VInt 3; VInt 5]; [VInt 6]].
Proof.
  split; [apply synced_ordered, parsed_synced; vm_compute; lia|vm_compute; reflexivity].
Qed.

(* ------------------------------------------------------------------------- C17 *)

Theorem C17_separate : forall h t id h' us,
  ordered h t -> separate h t id = (h', us) ->
  map (lst_of h') us = map (fun c => [c]) (filter (fun c => id_of h c =? id) (lst_of h t)) /\
  concat (map (events h') us) = get h t [id].
Proof.
  intros h t id h' us O E. unfold separate in E. rewrite get_ie_1 in E.
  pose proof (new_trees_sub _ _ _ _ _ O (separate_subseq (lst_of h t) _) E) as M.
  split; auto. destruct (new_trees_spec _ _ _ _ _ E) as ((X1 & X2 & _) & _).
  assert (EE : forall c, e_of h' c = e_of h c).
  { intros. unfold e_of, ev_of, cell_of. now rewrite X1, X2. }
  unfold events. rewrite <- (map_map (lst_of h') (map (e_of h'))), M, map_map.
  unfold get, events. clear -EE. induction (lst_of h t) as [|c l IH]; auto.
  cbn [filter map]. rewrite mem_Z_1. unfold id_of at 1.
  destruct (e_id (e_of h c) =? id); auto. cbn [map concat app]. rewrite EE. f_equal. exact IH.
Qed.

(* group: the k-th tree holds the k-th event of every id, in the parent's order;
   there are as many trees as events of the most frequent id. *)
Theorem C17_group : forall h t ids h' us,
  ordered h t -> NoDup ids -> group h t ids = (h', us) ->
  let occ id := filter (fun c => id_of h c =? id) (lst_of h t) in
  length us = list_max (map (fun id => length (occ id)) ids) /\
  forall k u, nth_error us k = Some u ->
    subseq (lst_of h' u) (lst_of h t) /\
    forall c, In c (lst_of h' u) <-> exists id, In id ids /\ nth_error (occ id) k = Some c.
Proof.
  intros h t ids h' us O N E occ. unfold group in E.
  set (rows := zip_longest _ _) in E.
  destruct (new_trees_spec _ _ _ _ _ E) as (_ & U & _ & M & _).
  assert (LL : forall l, In l (map (fun id => get_ie h t [id]) ids) ->
            (length l <= S (length (lst_of h t)))%nat).
  { intros l I. apply in_map_iff in I. destruct I as (id & <- & I).
    pose proof (subseq_length _ _ _ (subseq_filter _ (fun c => mem_Z (id_of h c) [id]) (lst_of h t))).
    unfold get_ie. lia. }
  destruct (zip_longest_spec _ _ LL) as [Z _]. fold rows in Z. split.
  - rewrite U, seq_length, Z, map_map. f_equal. apply map_ext. intros id. now rewrite get_ie_1.
  - intros k u K.
    assert (NM : nth_error (map (lst_of h') us) k = Some (lst_of h' u))
      by (rewrite nth_error_map, K; reflexivity).
    rewrite M, nth_error_map in NM. destruct (nth_error rows k) as [row|] eqn:R; [|discriminate].
    cbn in NM. injection NM as NM.
    destruct (group_row h t ids k row O N R) as (_ & A & B). rewrite <- NM. split; auto.
    intros c. rewrite B. split; intros (id & I & J); exists id; split; auto;
      rewrite get_ie_1 in *; auto.
Qed.

(* subtrees: the events the callback does not skip are cut before every event it
   answers False on; the pieces are yielded in order, at most [rep] of them when
   [rep] is not negative, and the piece after the last cut never is. *)
Theorem C17_subtrees : forall S h t (sel : S -> event -> S * option bool) s rep h' us,
  ordered h t -> subtrees h t sel s rep = (h', us) ->
  let wanted := filter (fun x => match snd x with None => false | _ => true end)
                  (combine (lst_of h t) (answers sel s (events h t))) in
  let cut := fun x : nat * option bool => match snd x with Some false => true | _ => false end in
  exists ps tail, concat ps ++ tail = wanted /\
    length ps = length (filter cut wanted) /\
    (forall k p, nth_error (ps ++ [tail]) k = Some p ->
       length (filter cut p) = (if Nat.eqb k 0 then 0 else 1)%nat /\
       ((0 < k)%nat -> exists x p', p = x :: p' /\ cut x = true)) /\
    map (lst_of h') us =
      map (map fst) (if rep <? 0 then ps else firstn (Z.to_nat rep) ps).
Proof.
  intros S h t sel s rep h' us O E wanted cut. unfold subtrees in E.
  pose proof (new_trees_sub _ _ _ _ _ O (subtrees_subseq S h sel s rep (lst_of h t)) E) as M.
  destruct (subtrees_pieces h sel (lst_of h t) s rep []) as (p & ps & A & B & C & D).
  cbn zeta in D. cbn [app] in D.
  assert (NE : p :: ps <> []) by discriminate.
  destruct (exists_last NE) as (qs & tail & Eq). exists qs, tail.
  assert (Z0 : forall a, forallb (fun x => negb (boundary x)) a = true -> filter cut a = []).
  { induction a as [|x a IH]; intros H; auto. cbn [forallb] in H.
    apply andb_true_iff in H as [H1 H2]. cbn [filter]. unfold boundary in H1.
    change (cut x) with (boundary x). unfold boundary. apply negb_true_iff in H1. rewrite H1.
    auto. }
  assert (PC : forall k q, nth_error (p :: ps) k = Some q ->
       length (filter cut q) = (if Nat.eqb k 0 then 0 else 1)%nat /\
       ((0 < k)%nat -> exists x p', q = x :: p' /\ cut x = true)).
  { intros [|k] q Nk; cbn [nth_error] in Nk.
    - injection Nk as <-. rewrite (Z0 _ B). split; auto. lia.
    - apply nth_error_In in Nk. rewrite Forall_forall in C.
      destruct (C _ Nk) as (x & p' & -> & Hx & Hp). cbn [filter].
      change (cut x) with (boundary x). rewrite Hx, (Z0 _ Hp). cbn. split; auto.
      intros _. exists x, p'. auto. }
  assert (CC : concat qs ++ tail = wanted).
  { change wanted with (taken h sel s (lst_of h t)). rewrite <- A, Eq, concat_app. cbn.
    now rewrite app_nil_r. }
  split; auto. split.
  - rewrite <- CC.
    replace (concat qs ++ tail) with (concat (p :: ps))
      by (rewrite Eq, concat_app; cbn; now rewrite app_nil_r).
    assert (L : length (p :: ps) = Datatypes.S (length qs)) by (rewrite Eq, app_length; cbn; lia).
    cbn [length] in L. injection L as L. rewrite <- L. cbn [concat].
    rewrite filter_app, (Z0 _ B). cbn [app]. clear -C Z0. induction C as [|q ps Q C IH]; auto.
    destruct Q as (x & p' & -> & Hx & Hp). cbn [concat]. rewrite filter_app. cbn [filter].
    change (cut x) with (boundary x). rewrite Hx, (Z0 _ Hp). cbn [app length]. now rewrite <- IH.
  - split; [now rewrite <- Eq|].
    rewrite M, D. change (map fst p :: map (map fst) ps) with (map (map (@fst nat (option bool))) (p :: ps)).
    rewrite Eq, map_app. cbn [map].
    rewrite removelast_last. destruct (rep <? 0); auto. now rewrite firstn_map.
Qed.

Example C17_case :
  let h0 := parsed evs0 in
  let '(h1, s1) := separate h0 0 12 in
  let '(h2, s2) := group h0 0 [11; 12; 10] in
  let '(h3, s3) := subtrees h0 0 (fun (s : unit) e => (s, if e_id e =? 10 then Some false
                       else if e_id e =? 11 then None else Some true)) tt (-1) in
  map (fun u => vals (events h1 u)) s1 = [[VInt 2]; [VInt 7]] /\
  map (fun u => vals (events h2 u)) s2 =
    [[VInt 0; VInt 1; VInt 2]; [VInt 3; VInt 5; VInt 7]; [VInt 6]] /\
  map (fun u => vals (events h3 u)) s3 = [[]; [VInt 0; VInt 2]; [VInt 3; VInt 4]].
Proof. vm_compute. auto. Qed.

(* ------------------------------------------------------------------------- C18 *)

(* Histories of edits on the project's tree, from a freshly parsed project. *)
Theorem C18_root_edits : forall evs os h' rs,
  tree_edits (parsed evs) 0 os = (h', rs) ->
  list_edits evs os = (events h' 0, rs) /\
  map (r_of h') (lst_of h' 0) = upto 0 (length (lst_of h' 0)).
Proof.
  intros evs os h' rs E.
  pose proof (root_edits os (parsed evs) (parsed_synced evs 0%nat ltac:(vm_compute; lia))
                (parsed_sound evs)) as R.
  rewrite E, parsed_events in R. destruct R as (R1 & R2 & _). split; auto.
  inversion R2; subst; [assumption|lia].
Qed.

(* Failed pops change nothing, on any tree whatsoever. *)
Theorem C18_failed_pop : forall h t id k,
  filter (fun e => e_id e =? id) (events h t) = [] ->
  pop h t id k = (h, Err KeyError).
Proof.
  intros h t id k H. apply pop_absent. rewrite get_ie_1. unfold events in H.
  induction (lst_of h t) as [|c l IH]; auto. cbn [filter map] in *. unfold id_of at 1.
  destruct (e_id (e_of h c) =? id); [discriminate|auto].
Qed.

Example C18_case :
  list_edits evs0 [Insert 3 (ev1 20 8); Pop 10 (-1); Insert (-1) (ev1 21 9); Pop 99 0;
                   Pop 11 2; Insert 50 (ev1 22 9)] =
  (let '(h, rs) := tree_edits (parsed evs0) 0
      [Insert 3 (ev1 20 8); Pop 10 (-1); Insert (-1) (ev1 21 9); Pop 99 0;
       Pop 11 2; Insert 50 (ev1 22 9)] in (events h 0, rs)) /\
  vals (fst (list_edits evs0 [Insert 3 (ev1 20 8); Pop 10 (-1); Insert (-1) (ev1 21 9)])) =
    [VInt 0; VInt 1; VInt 2; VInt 8; VInt 3; VInt 4; VInt 5; VInt 9; VInt 7].
Proof. vm_compute. auto. Qed.

(* ------------------------------------------------------------------------- C19 *)

(* [synced h t]: t and its ancestors share their cells up to the project's tree;
   every view of a parsed project has this property (C19_fresh). *)
Theorem C19_fresh : forall evs h t, evs <> [] -> views (parsed evs) h -> (t < nt h)%nat ->
  synced h t.
Proof. intros evs h t NE V L. now apply (views_synced evs). Qed.

(* Any history of pops through a view, at any depth: the view behaves like the
   list of its events, and it and all its ancestors lose exactly the popped
   cells; all other trees keep theirs; no event changes. *)
Theorem C19_pops : forall os h t h' rs, synced h t ->
  forallb (fun o => match o with Pop _ _ => true | _ => false end) os = true ->
  tree_edits h t os = (h', rs) ->
  list_edits (events h t) os = (events h' t, rs) /\
  (exists gone, NoDup gone /\ (forall c, In c gone -> In c (lst_of h t)) /\
     length gone = length (filter (@is_ok (option event)) rs) /\
     forall u, In u (chain h t) ->
       lst_of h' u = filter (fun c => negb (existsb (Nat.eqb c) gone)) (lst_of h u)) /\
  (forall u, ~ In u (chain h t) -> lst_of h' u = lst_of h u) /\
  (forall c, e_of h' c = e_of h c) /\
  map (r_of h') (lst_of h' 0) = upto 0 (length (lst_of h' 0)).
Proof.
  intros os h t h' rs S F E. pose proof (pops_list os h t S F) as P. rewrite E in P.
  destruct P as (A & B & C & D & G & g & H1 & H2 & H3 & H4).
  split; auto. split; [exists g; auto|]. split; auto. split.
  - intros c. unfold e_of, ev_of. now rewrite C, D.
  - apply synced_0 in B. inversion B; subst; [assumption|lia].
Qed.

(* Inserting through a view puts the event directly before the chosen one in the
   view and in each of its ancestors, the project included. *)
Theorem C19_insert : forall h t pos e i, synced h t ->
  norm_index (zlen (lst_of h t)) pos = Some i ->
  exists h' c, insert h t pos e = (h', Ok tt) /\ nth_error (lst_of h t) i = Some c /\
    (forall u, In u (chain h t) -> exists a b, lst_of h u = a ++ c :: b /\
       events h' u = map (e_of h) a ++ ev_of h e :: map (e_of h) (c :: b)) /\
    (forall u, synced h u -> ~ In u (chain h t) -> events h' u = events h u) /\
    map (r_of h') (lst_of h' 0) = upto 0 (length (lst_of h' 0)).
Proof.
  intros h t pos e i S NI.
  destruct (insert_view h t pos e i S NI) as (h' & c & E & N & ST & CE & UN & IN & S0 & _).
  exists h', c. split; auto. split; auto.
  assert (EV : h_evs h' = h_evs h) by apply ST.
  assert (EX : forall u l, synced h u -> (forall d, In d l -> In d (lst_of h u)) ->
            map (e_of h') l = map (e_of h) l).
  { intros u l Su H. apply events_ext; auto. intros d D. apply CE. apply (synced_bound h u); auto. }
  split; [|split].
  - intros u U. destruct (IN u U) as (a & b & c' & E1 & E2 & Cc & L). exists a, b. split; auto.
    assert (Su : synced h u).
    { eapply chained_synced; eauto. apply chain_chained. now apply synced_in_step. }
    unfold events. rewrite E2, map_app. cbn [map].
    change (e_of h' c :: map (e_of h') b) with (map (e_of h') (c :: b)).
    rewrite (EX u a Su), (EX u (c :: b) Su).
    + f_equal. f_equal. unfold e_of, ev_of. now rewrite Cc, EV.
    + intros d D. rewrite E1. apply in_or_app. now right.
    + intros d D. rewrite E1. apply in_or_app. now left.
  - intros u Su U. unfold events. rewrite UN by auto. apply (EX u); auto.
  - inversion S0; subst; [assumption|lia].
Qed.

Definition h_nested : heap :=
  fst (subtree (fst (subtree (parsed evs0) 0 (by_ids [10; 11]) tt)) 1 (by_ids [11]) tt).

Example C19_case :
  synced h_nested 2 /\ chain h_nested 2 = [2; 1; 0]%nat /\
  (let '(h, rs) := tree_edits h_nested 2 [Pop 11 1] in
   rs = [Ok (Some (ev1 11 5))] /\ vals (events h 2) = [VInt 1] /\
   vals (events h 1) = [VInt 0; VInt 1; VInt 3; VInt 6] /\
   vals (events h 0) = [VInt 0; VInt 1; VInt 2; VInt 3; VInt 4; VInt 6; VInt 7]) /\
  (let '(h1, i) := new_event h_nested (ev1 50 50) in
   let '(h, _) := insert h1 2 1 i in
   vals (events h 0) = [VInt 0; VInt 1; VInt 2; VInt 3; VInt 4; VInt 50; VInt 5; VInt 6; VInt 7]).
Proof.
  split; [|vm_compute; repeat split].
  apply (C19_fresh evs0); [discriminate| |vm_compute; lia].
  apply views_more with (fst (subtree (parsed evs0) 0 (by_ids [10; 11]) tt)).
  - eapply views_more; [apply views_none|]. apply op_subtree. vm_compute. lia.
  - apply op_subtree. vm_compute. lia.
Qed.

(* ------------------------------------------------------------------------- C20 *)

(* The wanted law [append adds at the end] fails on every non-empty tree ... *)
Theorem C20_append_fails : forall h t e, events h t <> [] ->
  append h t e = (h, Err IndexError).
Proof.
  intros h t e H. apply append_fails. intros E. apply H. unfold events. now rewrite E.
Qed.

(* ... and an empty view puts the event at the start of the project. *)
Theorem C20_append_empty : forall h t e, synced h t -> events h t = [] ->
  exists h', append h t e = (h', Ok tt) /\
    forall u, In u (chain h t) -> events h' u = ev_of h e :: events h u.
Proof.
  intros h t e S E.
  assert (L : lst_of h t = []) by (unfold events in E; destruct (lst_of h t); [auto|discriminate]).
  destruct (insert_empty h t (zlen (lst_of h t)) e S L) as (h' & I & ST & CE & UN & IN & S0 & _).
  exists h'. split; auto. intros u U. destruct (IN u U) as (c' & E2 & Cc & _).
  assert (Su : synced h u).
  { eapply chained_synced; eauto. apply chain_chained. now apply synced_in_step. }
  unfold events. rewrite E2. cbn [map]. f_equal.
  - unfold e_of, ev_of. rewrite Cc. destruct ST as (-> & _). reflexivity.
  - apply events_ext; [apply ST|]. intros d D. apply CE. apply (synced_bound h u); auto.
Qed.

(* So the intended law does not hold: *)
Theorem C20_append_refuted :
  ~ (forall evs e, let '(h, i) := new_event (parsed evs) e in
       events (fst (append h 0 i)) 0 = evs ++ [e]).
Proof.
  intros H. specialize (H evs0 (ev1 9 9)). vm_compute in H. discriminate.
Qed.

Example C20_case :
  let h := fst (subtree (parsed evs0) 0 (by_ids [77]) tt) in
  synced h 1 /\ events h 1 = [] /\ chain h 1 = [1; 0]%nat.
Proof.
  split; [|vm_compute; repeat split]. apply (C19_fresh evs0); [discriminate| |vm_compute; lia].
  eapply views_more; [apply views_none|]. apply op_subtree. vm_compute. lia.
Qed.

(* ------------------------------------------------------------------------- C21 *)

(* After one insertion through a view, a pop through it is still exact: the view
   and its ancestors each lose one cell, the one of the returned event. *)
Theorem C21_one_insert : forall h t pos e i h1 id k j, synced h t ->
  norm_index (zlen (lst_of h t)) pos = Some i -> insert h t pos e = (h1, Ok tt) ->
  norm_index (zlen (filter (fun c => id_of h1 c =? id) (lst_of h1 t))) k = Some j ->
  exists h2 ie, pop h1 t id k = (h2, Ok (c_e (cell_of h1 ie))) /\ In ie (lst_of h1 t) /\
    id_of h1 ie = id /\
    (forall u, In u (chain h1 t) -> exists a d b, lst_of h1 u = a ++ d :: b /\
       c_e (cell_of h1 d) = c_e (cell_of h1 ie) /\ lst_of h2 u = a ++ b) /\
    map (r_of h2) (lst_of h2 0) = upto 0 (length (lst_of h2 0)).
Proof.
  intros h t pos e i h1 id k j S NI E NP.
  destruct (insert_view h t pos e i S NI) as (h' & c & E' & _ & _ & _ & _ & _ & _ & IS & _).
  rewrite E in E'. injection E' as <-. rewrite <- get_ie_1 in NP.
  destruct (pop_view h1 t id k j (IS t S) NP)
    as (h2 & ie & N & P & _ & _ & _ & _ & IN & S0 & _).
  apply nth_error_In in N. rewrite get_ie_1 in N. apply filter_In in N. destruct N as [N Q].
  exists h2, ie. split; auto. split; auto. split; [now apply Z.eqb_eq in Q|]. split.
  - intros u U. destruct (IN u U) as (a & d & b & E1 & E2 & E3). exists a, d, b.
    rewrite E2. auto.
  - inversion S0; subst; [assumption|lia].
Qed.

(* After two it is not: the project loses another event than the one returned. *)
Theorem C21_two_inserts_refuted : exists evs ids a b h,
  let h0 := fst (subtree (parsed evs) 0 (by_ids ids) tt) in
  tree_edits h0 1 [Insert 0 a; Insert 0 b; Pop (e_id a) 0] = (h, [Ok None; Ok None; Ok (Some a)]) /\
  a <> b /\ existsb (fun e => e_id e =? e_id a) (events h 0) = true /\
  existsb (fun e => e_id e =? e_id b) (events h 0) = false.
Proof.
  exists evs0, [11; 13], (ev1 50 50), (ev1 51 51). eexists.
  split; [vm_compute; reflexivity|]. split; [discriminate|]. vm_compute. auto.
Qed.

(* ------------------------------------------------------------------------- C22 *)

(* A pop leaves in step every view that does not hold the popped event, nor has
   an ancestor outside the edited chain that does. *)
Theorem C22_unrelated_views : forall h t id k j, synced h t ->
  norm_index (zlen (filter (fun c => id_of h c =? id) (lst_of h t))) k = Some j ->
  exists h' ie, nth_error (filter (fun c => id_of h c =? id) (lst_of h t)) j = Some ie /\
    pop h t id k = (h', Ok (c_e (cell_of h ie))) /\
    forall u, synced h u ->
      (forall v, In v (chain h u) -> In v (chain h t) \/ ~ In ie (lst_of h v)) ->
      synced h' u /\ (~ In u (chain h t) -> events h' u = events h u).
Proof.
  intros h t id k j S NI. rewrite <- get_ie_1 in *.
  destruct (pop_view h t id k j (synced_in_step _ _ S) NI)
    as (h' & ie & N & P & ST & _ & CE & UN & _ & _ & SY).
  exists h', ie. split; auto. split; auto. intros u Su H. destruct (SY S) as [_ K].
  split; [auto|]. intros U. unfold events. rewrite UN by auto.
  apply events_ext; [apply ST|auto].
Qed.

(* A sibling that does hold it deletes an unrelated event afterwards. *)
Theorem C22_sibling_refuted : exists evs h1 h2 h3 x y,
  h1 = fst (subtree (fst (subtree (parsed evs) 0 (by_ids [11]) tt)) 0 (by_ids [11; 12]) tt) /\
  tree_edits h1 1 [Pop 11 0] = (h2, [Ok (Some x)]) /\
  events h2 0 = [ev1 10 0; y; ev1 10 3] /\
  tree_edits h2 2 [Pop 11 0] = (h3, [Ok (Some x)]) /\
  events h3 0 = [ev1 10 0; ev1 10 3] /\ e_id y <> 11.
Proof.
  exists [ev1 10 0; ev1 11 1; ev1 12 2; ev1 10 3].
  eexists _, _, _, (ev1 11 1), (ev1 12 2). split; [reflexivity|].
  split; [vm_compute; reflexivity|]. split; [vm_compute; reflexivity|].
  split; [vm_compute; reflexivity|]. split; [vm_compute; reflexivity|discriminate].
Qed.

(* ------------------------------------------------------------------------- C23 *)

(* Trees compare by root index only, so projects compare by number of events,
   also after any edits of their root trees. *)
Theorem C23_equality : forall evs1 evs2 os1 os2,
  let '(h1, _) := tree_edits (parsed evs1) 0 os1 in
  let '(h2, _) := tree_edits (parsed evs2) 0 os2 in
  tree_eqb h1 h2 0 0 = true <-> length (events h1 0) = length (events h2 0).
Proof.
  intros evs1 evs2 os1 os2.
  pose proof (root_edits os1 (parsed evs1) (parsed_synced evs1 0%nat ltac:(vm_compute; lia))
                (parsed_sound evs1)) as R1.
  pose proof (root_edits os2 (parsed evs2) (parsed_synced evs2 0%nat ltac:(vm_compute; lia))
                (parsed_sound evs2)) as R2.
  destruct (tree_edits (parsed evs1) 0 os1) as [h1 r1].
  destruct (tree_edits (parsed evs2) 0 os2) as [h2 r2].
  apply tree_eq_counts; [apply R1|apply R2].
Qed.

Theorem C23_equality_refuted : exists evs1 evs2,
  tree_eqb (parsed evs1) (parsed evs2) 0 0 = true /\
  Forall2 (fun a b => e_id a <> e_id b /\ e_val a <> e_val b) evs1 evs2 /\ evs1 <> [].
Proof.
  exists [ev1 10 0; ev1 11 1], [ev1 12 2; ev1 13 3].
  split; [vm_compute; reflexivity|]. split; [|discriminate].
  repeat constructor; discriminate.
Qed.

Print Assumptions C15_views.
Print Assumptions C15_subtree.
Print Assumptions C16_divide.
Print Assumptions C16_concat.
Print Assumptions C16_starts.
Print Assumptions C17_separate.
Print Assumptions C17_group.
Print Assumptions C17_subtrees.
Print Assumptions C18_root_edits.
Print Assumptions C18_failed_pop.
Print Assumptions C19_fresh.
Print Assumptions C19_pops.
Print Assumptions C19_insert.
Print Assumptions C20_append_fails.
Print Assumptions C20_append_empty.
Print Assumptions C20_append_refuted.
Print Assumptions C21_one_insert.
Print Assumptions C21_two_inserts_refuted.
Print Assumptions C22_unrelated_views.
Print Assumptions C22_sibling_refuted.
Print Assumptions C23_equality.
Print Assumptions C23_equality_refuted.
