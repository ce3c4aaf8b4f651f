(* C43 the patterns of a project. *)
From Coq Require Import String ZArith List Bool Lia Arith.
From Verif Require Import M_Base M_Float M_Text M_Construct M_Structs M_Events M_Parse M_Tree M_Prop M_Project M_Items M_Collections.
From Verif Require Import S_Canon S_File S_Domain S_Tree S_Prop S_Project S_Items S_Collections.
From Verif Require Import P_Base P_Null P_TreeBase P_Tree P_TreeEdit P_Prop P_Edit P_Project P_Items P_Patterns P_Views.
From Verif Require Import C_Samples.
Import ListNotations.
Open Scope Z_scope.

(* The patterns yielded are the classes of the pattern events of the view under the number in
   force at their position, classes in order of first appearance, events in file order. *)
Theorem C43_partition : forall h t h' us, ordered h t -> patterns_iter h t = (h', Ok us) ->
  h_evs h' = h_evs h /\ h_cells h' = h_cells h /\
  exists zs, length zs = length (lst_of h t) /\
    (forall k z, nth_error zs k = Some z -> in_force (events h t) k z) /\
    let own := filter (fun x => pattern_event (e_of h (fst x))) (combine (lst_of h t) zs) in
    map (lst_of h') us =
      map (fun z => map fst (filter (fun x => snd x =? z) own)) (firsts (map snd own)).
Proof.
  intros h t h' us O H. destruct (patterns_iter_spec _ _ _ _ O H) as (zs & F & (A & B & _) & M).
  split; [exact A|]. split; [exact B|]. exists zs. split.
  - rewrite (forces_length _ _ _ F). unfold events. apply map_length.
  - split; [intros k z K; eapply forces_in_force; eauto|exact M].
Qed.
Print Assumptions C43_partition.

(* Every pattern event of the view is in exactly one pattern, and nothing else is in any. *)
Theorem C43_each : forall h t h' us c, ordered h t -> patterns_iter h t = (h', Ok us) ->
  (In c (lst_of h t) -> pattern_event (e_of h c) = true ->
     exists i u, nth_error us i = Some u /\ In c (lst_of h' u) /\
       forall j w, nth_error us j = Some w -> In c (lst_of h' w) -> j = i) /\
  (forall u, In u us -> In c (lst_of h' u) -> In c (lst_of h t) /\ pattern_event (e_of h c) = true).
Proof.
  intros h t h' us c O H. destruct (patterns_iter_spec _ _ _ _ O H) as (zs & F & X & M).
  assert (LZ : length zs = length (lst_of h t)) by (rewrite (forces_length _ _ _ F); unfold events; apply map_length).
  set (ks := firsts (map snd (mine h t zs))) in *.
  assert (AT : forall i u, nth_error us i = Some u -> exists z, nth_error ks i = Some z /\ lst_of h' u = labelled (mine h t zs) z).
  { intros i u U. assert (N : nth_error (map (lst_of h') us) i = Some (lst_of h' u)) by now rewrite nth_error_map, U.
    rewrite M, nth_error_map in N. destruct (nth_error ks i) as [z|]; [|discriminate]. cbn [option_map] in N. exists z. split; congruence. }
  split.
  - intros I P. apply In_nth_error in I. destruct I as (k & K).
    destruct (nth_error zs k) as [z|] eqn:Z; [|apply nth_error_None in Z; assert (k < length (lst_of h t))%nat by (apply nth_error_Some; congruence); lia].
    assert (IM : In (c, z) (mine h t zs)) by (apply mine_in; exists k; auto).
    assert (IK : In z ks) by (apply firsts_in; apply in_map_iff; exists (c, z); auto).
    apply In_nth_error in IK. destruct IK as (i & IK).
    assert (exists u, nth_error us i = Some u) as (u & U).
    { assert (i < length us)%nat.
      { apply (f_equal (@length _)) in M. rewrite !map_length in M. rewrite M. apply nth_error_Some. congruence. }
      destruct (nth_error us i) eqn:Q; [eauto|]. apply nth_error_None in Q. lia. }
    exists i, u. split; [exact U|]. destruct (AT _ _ U) as (z' & Z' & L). assert (z' = z) by congruence. subst z'. split.
    + rewrite L. now apply labelled_in.
    + intros j w W IW. destruct (AT _ _ W) as (y & Y & LW). rewrite LW in IW. apply labelled_in, mine_in in IW. destruct IW as (k2 & K2 & Z2 & _).
      assert (k2 = k).
      { assert (ND : NoDup (lst_of h t)) by (now apply (ordered_nodup h)). rewrite NoDup_nth_error in ND. apply ND; [apply nth_error_Some; congruence|congruence]. }
      subst k2. assert (y = z) by congruence. subst y.
      assert (ND : NoDup ks) by apply firsts_nodup. rewrite NoDup_nth_error in ND. apply ND; [apply nth_error_Some; congruence|congruence].
  - intros u U I. apply In_nth_error in U. destruct U as (i & U). destruct (AT _ _ U) as (z & _ & L). rewrite L in I.
    apply labelled_in, mine_in in I. destruct I as (k & K & _ & P). split; [eapply nth_error_In; eauto|exact P].
Qed.
Print Assumptions C43_each.

(* How many there are: len counts the numbers announced; pattern events before the first
   announcement make one more pattern unless 0 is announced too. *)
Theorem C43_len : forall h t h' us n, ordered h t -> patterns_iter h t = (h', Ok us) -> patterns_len h t = Ok n ->
  (exists l, n = zlen l /\ NoDup l /\ forall z, In z l <-> announced_in (events h t) z) /\
  (early (events h t) -> announced_in (events h t) 0 -> zlen us = n) /\
  (~ early (events h t) -> zlen us = n) /\
  (early (events h t) -> ~ announced_in (events h t) 0 -> zlen us = n + 1).
Proof. intros h t h' us n O H L. split; [now apply patterns_len_spec|]. eapply patterns_count; eauto. Qed.
Print Assumptions C43_len.

(* Without any announcement len raises NoModelsFound, but iterating may still yield a pattern. *)
Theorem C43_none : forall h t, ordered h t -> (forall e, In e (events h t) -> ~ announces e) ->
  patterns_len h t = Err NoModelsFound /\
  exists h' us, patterns_iter h t = (h', Ok us) /\
    (early (events h t) -> zlen us = 1) /\ (~ early (events h t) -> us = []).
Proof.
  intros h t O N. split.
  { unfold patterns_len. destruct (contains h t 65) eqn:C; [|reflexivity]. exfalso. unfold contains in C. apply existsb_exists in C.
    destruct C as (c & I & E). apply Z.eqb_eq in E. apply (N (e_of h c)); [unfold events; now apply in_map|exact E]. }
  destruct (forces_total (events h t)) with (cur := 0) as (zs & F). { intros e I E. destruct (N e I E). }
  destruct (patterns_iter h t) as [h' [us|x]] eqn:H.
  - exists h', us. split; [reflexivity|]. destruct (patterns_iter_spec _ _ _ _ O H) as (zs' & F' & X & M).
    assert (zs' = zs) by congruence. subst zs'. set (ks := firsts (map snd (mine h t zs))) in *.
    assert (IK : forall z, In z ks <-> early (events h t) /\ z = 0).
    { intros z. unfold ks. rewrite firsts_in, (label_cases _ _ _ F). split; [|tauto]. intros [(e & I & A & _)|Y]; [destruct (N e I A)|exact Y]. }
    assert (LU : length us = length ks) by (apply (f_equal (@length _)) in M; now rewrite !map_length in M). split.
    + intros E. unfold zlen. rewrite LU. rewrite (same_elements_length ks [0]); [reflexivity|apply firsts_nodup|repeat constructor; tauto|].
      intros z. rewrite IK. cbn. intuition.
    + intros E. destruct ks as [|z ks'] eqn:Q; [destruct us; [reflexivity|discriminate]|]. exfalso. apply E. apply (IK z). now left.
  - exfalso. unfold patterns_iter in H. rewrite (fill_forces h (lst_of h t) 0 []) in H. fold (events h t) in H. rewrite F in H.
    destruct (new_trees _ _ _) in H. discriminate.
Qed.
Print Assumptions C43_none.

(* Different patterns have different numbers; all announcements inside one agree. *)
Theorem C43_iid : forall h t h' us i j u w e f z, ordered h t -> patterns_iter h t = (h', Ok us) ->
  nth_error us i = Some u -> nth_error us j = Some w ->
  In e (events h' u) -> announces e -> number (e_val e) z ->
  In f (events h' w) -> announces f -> (number (e_val f) z <-> i = j).
Proof.
  intros h t h' us i j u w e f z O H U W IE AE NE IF AF.
  destruct (patterns_label _ _ _ _ _ _ O H U) as (zs & y & F & KY & _ & EU).
  destruct (patterns_label _ _ _ _ _ _ O H W) as (zs2 & y2 & F2 & KY2 & _ & EW). assert (zs2 = zs) by congruence. subst zs2.
  rewrite EU in IE. rewrite EW in IF. pose proof (label_announces _ _ _ _ F _ IE AE) as N1. pose proof (label_announces _ _ _ _ F _ IF AF) as N2.
  assert (y = z) by (eapply number_fun; eauto). subst y. split.
  - intros N3. assert (y2 = z) by (eapply number_fun; eauto). subst y2. pose proof (firsts_nodup (map snd (mine h t zs))) as ND.
    rewrite NoDup_nth_error in ND. apply ND; [apply nth_error_Some; congruence|congruence].
  - intros ->. assert (y2 = z) by congruence. now subst y2.
Qed.
Print Assumptions C43_iid.

(* patterns.current is the pattern with the number stored in the view (event 67). *)
Theorem C43_current : forall en h t h' us v z, ordered h t -> (t < nt h)%nat -> patterns_iter h t = (h', Ok us) ->
  value_of 67 (events h t) = Some v -> number v z ->
  exists o, pattern_current en h' t us = Ok o /\
    match o with
    | Some u => exists i, nth_error us i = Some u /\ exists e, In e (events h' u) /\ announces e /\ number (e_val e) z
    | None => ~ announced_in (events h t) z
    end.
Proof. exact pattern_current_spec. Qed.
Print Assumptions C43_current.

(* What the view shows of a project: pattern events everywhere, time markers only before the
   first arrangement. *)
Theorem C43_view : forall h h1 t, ordered h 0 -> patterns h = (h1, t) ->
  exists a b, cut_before (fun c => id_of h c =? 99) (lst_of h 0) a b /\
    lst_of h1 t = filter (fun c => pattern_id (id_of h c) || patterns_id (id_of h c) || marker_id (id_of h c)) a ++
                  filter (fun c => pattern_id (id_of h c) || patterns_id (id_of h c)) b.
Proof. exact patterns_view. Qed.
Print Assumptions C43_view.

(* In a parsed file iterating never fails. *)
Theorem C43_loaded : forall en f p h t, is_bytes f -> parse en f = Ok p -> pr_events p <> [] -> views (parsed (pr_events p)) h -> (t < nt h)%nat ->
  exists h' us, patterns_iter h t = (h', Ok us).
Proof.
  intros en f p h t B P NE V L.
  assert (S : subseq (events h t) (pr_events p)).
  { destruct (views_synced _ _ NE V) as (A & B1 & C1 & D1). assert (E0 : events h 0 = pr_events p).
    { transitivity (events (parsed (pr_events p)) 0); [|apply parsed_events]. unfold events. rewrite B1. apply map_ext. intros c. unfold e_of, ev_of, cell_of. now rewrite C1, D1. }
    rewrite <- E0. apply subseq_map. apply synced_sub. now apply A. }
  destruct (forces_total (events h t)) with (cur := 0) as (zs & F).
  { intros e I EI. eapply (parse_int en f p e KU16 B P); [eapply subseq_in; eauto|rewrite EI; reflexivity|reflexivity]. }
  unfold patterns_iter. rewrite (fill_forces h (lst_of h t) 0 []). fold (events h t). rewrite F.
  destruct (new_trees _ _ _) as [h' us]. eauto.
Qed.
Print Assumptions C43_loaded.

(* A file with a pattern event before any announcement, two patterns (2 announced twice), and
   a time marker on both sides of the arrangement. *)
Definition pat_chunks : list chunk :=
  [(199, ver20); (67, [2; 0]); (193, title16); (65, [2; 0]); (65, [1; 0]); (193, title16); (148, [1; 0; 0; 0]); (64, [1; 0]);
   (65, [2; 0]); (150, [1; 2; 3; 4]); (99, [0; 0]); (148, [2; 0; 0; 0])].
Definition pat_file : bytes := sample pat_chunks.
Definition pat_heap : heap := parsed (pr_events (load pat_file)).
Definition pat_view : heap := fst (patterns pat_heap).
Definition pat_iter : heap := fst (patterns_iter pat_view 1).
Example C43_case : is_bytes pat_file /\ parse en0 pat_file = Ok (load pat_file) /\ ordered pat_heap 0 /\
  patterns pat_heap = (pat_view, 1%nat) /\ views pat_heap pat_view /\ ordered pat_view 1 /\
  map e_id (events pat_view 1) = [67; 193; 65; 65; 193; 148; 65; 150] /\
  patterns_iter pat_view 1 = (pat_iter, Ok [2; 3; 4]%nat) /\
  map (fun u => map e_id (events pat_iter u)) [2; 3; 4]%nat = [[193]; [65; 65; 150]; [65; 193; 148]] /\
  patterns_len pat_view 1 = Ok 2 /\ value_of 67 (events pat_view 1) = Some (VInt 2) /\
  pattern_current en0 pat_iter 1 [2; 3; 4]%nat = Ok (Some 3%nat).
Proof.
  destruct (sample_ok pat_chunks ltac:(vm_compute; reflexivity)) as [B _]. split; [exact B|].
  split; [vm_compute; reflexivity|]. assert (O : ordered pat_heap 0) by (apply parsed_ordered).
  split; [exact O|]. split; [vm_compute; reflexivity|]. split.
  { eapply views_more; [apply views_none|]. apply op_subtree. vm_compute. lia. }
  split; [|vm_compute; repeat split]. destruct (subtree_spec _ _ _ _ _ _ _ O (surjective_pairing (patterns pat_heap))) as (-> & _ & _ & _ & O1).
  exact O1.
Qed.
