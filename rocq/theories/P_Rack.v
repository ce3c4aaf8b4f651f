(* Proofs about the channel rack. *)
From Coq Require Import String ZArith List Bool Lia Arith.
From Verif Require Import M_Base M_Float M_Text M_Construct M_Structs M_Events M_Parse M_Tree M_Prop M_Project M_Items M_Collections.
From Verif Require Import S_Tree S_Prop S_Project S_Items S_Collections.
From Verif Require Import P_Base P_TreeBase P_Tree P_TreeEdit P_Project P_Items P_Patterns P_Views.
Import ListNotations.
Open Scope Z_scope.

Lemma extends_e h h' c : extends h h' -> e_of h' c = e_of h c.
Proof. intros (A & B & _). unfold e_of, ev_of, cell_of. now rewrite A, B. Qed.
Lemma extends_id h h' c : extends h h' -> id_of h' c = id_of h c.
Proof. intros X. unfold id_of. now rewrite (extends_e _ _ _ X). Qed.
Lemma extends_ordered h h' t : extends h h' -> (t < nt h)%nat -> ordered h t -> ordered h' t.
Proof. intros X L O. unfold ordered, keys, lst_of in *. rewrite (extends_tree _ _ _ X L), (extends_r _ _ X). exact O. Qed.

Lemma divide_lists_ext h h' sep ids : (forall c, id_of h' c = id_of h c) -> forall l el f,
  divide_lists h' sep ids l el f = divide_lists h sep ids l el f.
Proof.
  intros E. induction l as [|c l IH]; intros el f; [reflexivity|]. cbn [divide_lists]. rewrite !E.
  destruct (id_of h c =? sep); [destruct f|]; cbn [app]; rewrite ?IH; reflexivity.
Qed.
(* leaving out what divide ignores makes no difference *)
Lemma divide_filter h sep ids P : (forall c, P c = false -> id_of h c <> sep /\ mem_Z (id_of h c) ids = false) -> forall l el f,
  divide_lists h sep ids (filter P l) el f = divide_lists h sep ids l el f.
Proof.
  intros H. induction l as [|c l IH]; intros el f; [reflexivity|]. cbn [filter]. destruct (P c) eqn:Q; cbn [divide_lists].
  - destruct (id_of h c =? sep); [destruct f|]; rewrite ?IH; reflexivity.
  - destruct (H c Q) as [A B]. replace (id_of h c =? sep) with false by lia. rewrite B. cbn [app]. apply IH.
Qed.

Lemma chans_spec h groups : forall ts cs x, (forall t v, In t ts -> value_of 64 (events h t) = Some v -> v <> VNone) ->
  chans_from h groups ts = (cs, x) ->
  map ch_tree cs = firstn (length cs) ts /\ (forall c, In c cs -> chan_make h groups (ch_tree c) = Ok (Some c)) /\
  match x with
  | None => length cs = length ts
  | Some e => exists t, nth_error ts (length cs) = Some t /\ chan_make h groups t = Err e
  end.
Proof.
  induction ts as [|t ts IH]; intros cs x N H; cbn [chans_from] in H.
  - injection H as <- <-. repeat split; intros c [].
  - destruct (chan_make h groups t) as [[c|]|e] eqn:M.
    + destruct (chans_from h groups ts) as [l y] eqn:R. injection H as <- <-.
      destruct (IH l y (fun u v I => N u v (or_intror I)) eq_refl) as (A & B & C).
      assert (T : ch_tree c = t).
      { unfold chan_make in M. inv_bind M. inv_bind M. inv_bind M. inv_bind M.
        destruct x; try discriminate; destruct (as_int x1); try discriminate; inv_bind M; injection M as <-; reflexivity. }
      cbn [map length firstn]. rewrite A, T. split; [reflexivity|]. split.
      * intros d [<-|I]; [now rewrite T|now apply B].
      * destruct y; [exact C|now rewrite C].
    + exfalso. unfold chan_make in M. inv_bind M. inv_bind M. inv_bind M. inv_bind M. rewrite first_val_spec in E.
      destruct (value_of 64 (events h t)) as [v|] eqn:V; [|discriminate]. assert (v = x0) by congruence. subst v. pose proof (N t x0 (or_introl eq_refl) V) as NV.
      destruct x0; try congruence; destruct (as_int x2); try discriminate; inv_bind M; discriminate.
    + injection H as <- <-. cbn [map length firstn]. split; [reflexivity|]. split; [intros c []|]. exists t. auto.
Qed.

Lemma rack_spec h h1 t h2 cs x : ordered h 0 -> channels h = (h1, t) -> rack_iter h1 t = (h2, (cs, x)) ->
  (forall e, In e (events h 0) -> e_id e = 64 -> e_val e <> VNone) ->
  exists ps groups ts, cut_pieces (fun c => id_of h c =? 64) (lst_of h 0) ps /\ extends h h2 /\
    map (lst_of h2) groups = map (fun c => [c]) (filter (fun c => id_of h c =? 231) (lst_of h 0)) /\
    map (lst_of h2) ts = map (filter (fun c => channel_id (id_of h c) || plugin_id (id_of h c))) ps /\
    map ch_tree cs = firstn (length cs) ts /\ (forall c, In c cs -> chan_make h2 groups (ch_tree c) = Ok (Some c)) /\
    match x with
    | None => length cs = length ts
    | Some e => exists t, nth_error ts (length cs) = Some t /\ chan_make h2 groups t = Err e
    end.
Proof.
  intros O V R N. destruct (subtree_spec _ _ _ _ _ _ _ O V) as (_ & X1 & N1 & _ & O1). pose proof (channels_view _ _ _ O V) as L1.
  assert (LT : (t < nt h1)%nat) by (destruct (subtree_spec _ _ _ _ _ _ _ O V) as (-> & _ & E & _); lia).
  unfold rack_iter in R. destruct (separate h1 t 231) as [ha groups] eqn:S. destruct (divide ha t 64 _) as [hb ts] eqn:D.
  assert (hb = h2 /\ chans_from h2 groups ts = (cs, x)) as [-> CF] by (split; congruence). clear R.
  unfold separate in S. rewrite get_ie_1 in S. pose proof (new_trees_sub _ _ _ _ _ O1 (separate_subseq (lst_of h1 t) _) S) as MG.
  destruct (new_trees_spec _ _ _ _ _ S) as (X2 & EG & NG & _). pose proof (extends_ordered _ _ _ X2 LT O1) as O2.
  unfold divide in D. pose proof (new_trees_sub _ _ _ _ _ O2 (divide_subseq ha 64 _ (lst_of ha t)) D) as MT.
  destruct (new_trees_spec _ _ _ _ _ D) as (X3 & ET & NT & _).
  assert (LA : lst_of ha t = lst_of h1 t) by (unfold lst_of; now rewrite (extends_tree _ _ _ X2 LT)).
  pose proof (extends_trans _ _ _ X1 X2) as X12. pose proof (extends_trans _ _ _ X12 X3) as X13.
  assert (EA : forall c, id_of ha c = id_of h c) by (intros c; now apply extends_id).
  rewrite (divide_lists_ext h ha _ _ EA), LA, L1, divide_filter in MT.
  2:{ intros c Q. rewrite !orb_false_iff in Q. destruct Q as [[Q1 Q2] Q3]. rewrite mem_app, channel_ids, plugin_ids, Q1, Q2. split; [|reflexivity].
      intros E. rewrite E in Q1. discriminate. }
  destruct (divide_pieces h 64 (members ChannelIDs ++ members PluginIDs) (lst_of h 0)) as (ps & C & DP).
  rewrite DP in MT.
  assert (MT' : map (lst_of h2) ts = map (filter (fun c => channel_id (id_of h c) || plugin_id (id_of h c))) ps).
  { rewrite MT. apply map_ext. intros p. apply filter_ext. intros c. unfold keep. now rewrite mem_app, channel_ids, plugin_ids. }
  assert (VN : forall u v, In u ts -> value_of 64 (events h2 u) = Some v -> v <> VNone).
  { intros u v U VV. assert (exists e, In e (events h2 u) /\ e_id e = 64 /\ e_val e = v) as (e & IE & EI & <-).
    { clear -VV. induction (events h2 u) as [|e l IH]; [discriminate|]. cbn [value_of] in VV. destruct (Z.eqb_spec (e_id e) 64) as [E|E].
      - exists e. injection VV as <-. repeat split; [now left|exact E].
      - destruct (IH VV) as (e' & I & Q). exists e'. split; [now right|exact Q]. }
    apply N; [|exact EI]. unfold events in *. apply in_map_iff in IE. destruct IE as (c & <- & IC). rewrite (extends_e _ _ _ X13). apply in_map.
    assert (IL : In (lst_of h2 u) (map (lst_of h2) ts)) by now apply in_map. rewrite MT' in IL. apply in_map_iff in IL. destruct IL as (p & EP & IP).
    rewrite <- EP in IC. apply filter_In in IC. destruct C as [CC _]. rewrite <- CC. apply in_concat. exists p. tauto. }
  destruct (chans_spec h2 groups ts cs x VN CF) as (A & B & E). exists ps, groups, ts. split; [exact C|]. split; [exact X13|]. split.
  { assert (MG2 : map (lst_of h2) groups = map (lst_of ha) groups).
    { apply map_ext_in. intros u U. rewrite EG in U. apply in_seq in U. unfold lst_of. rewrite (extends_tree ha h2 u X3); [reflexivity|].
      rewrite NG. lia. }
    rewrite MG2, MG, L1. f_equal. clear -X1. induction (lst_of h 0) as [|c l IH]; [reflexivity|]. cbn [filter].
    destruct (channel_id (id_of h c) || plugin_id (id_of h c) || rack_id (id_of h c)) eqn:Q; cbn [filter].
    - rewrite (extends_id _ _ _ X1). destruct (id_of h c =? 231); now rewrite IH.
    - rewrite IH. destruct (Z.eqb_spec (id_of h c) 231) as [E|E]; [rewrite E in Q; discriminate|reflexivity]. }
  split; [exact MT'|]. auto.
Qed.

Lemma destruct_last A (l : list A) : l = [] \/ exists r x, l = r ++ [x].
Proof. induction l as [|x l _] using rev_ind; [now left|right; eauto]. Qed.
Lemma app_split A : forall (a b c d : list A), a ++ b = c ++ d -> (exists q, c = a ++ q /\ b = q ++ d) \/ (exists q, a = c ++ q /\ d = q ++ b).
Proof.
  induction a as [|x a IH]; intros b c d E; cbn [app] in E.
  - left. exists c. auto.
  - destruct c as [|y c]; cbn [app] in E.
    + right. exists (x :: a). subst. auto.
    + injection E as -> E. destruct (IH _ _ _ E) as [(q & -> & Q)|(q & -> & Q)]; [left|right]; exists q; auto.
Qed.
