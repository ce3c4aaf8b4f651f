(* C83 comparing models. *)
From Coq Require Import String ZArith List Bool Lia Arith.
From Verif Require Import M_Base M_Float M_Text M_Construct M_Structs M_Events M_Parse M_Tree M_Prop M_Project M_Items M_Collections M_Compare.
From Verif Require Import S_Canon S_File S_Domain S_Tree S_Prop S_Project S_Items S_Collections.
From Verif Require Import P_Base P_TreeBase P_Tree P_TreeEdit P_Prop P_Edit P_Project P_Items P_Patterns P_Views P_Rack P_Mixer P_Arrange P_Api P_Compare.
From Verif Require Import C_Samples C_Rack C_Patterns C_Mixer.
Import ListNotations.
Open Scope Z_scope.

(* Models of loaded projects, the same one or two: of one class they are equal if their events
   stand at the same places of their files, whatever the events hold; otherwise, and with
   anything but a model, the comparison raises TypeError. *)
Theorem C83_equal : forall en f p g q ha hb a b, is_bytes f -> is_bytes g -> parse en f = Ok p -> parse en g = Ok q ->
  views (parsed (pr_events p)) ha -> views (parsed (pr_events q)) hb -> (md_tree a < nt ha)%nat -> (md_tree b < nt hb)%nat ->
  (md_class a = md_class b -> exists r, model_eq ha a hb (Some b) = Ok r /\ model_ne ha a hb (Some b) = Ok (negb r) /\
     (r = true <-> refs ha (md_tree a) = refs hb (md_tree b))) /\
  (md_class a <> md_class b -> model_eq ha a hb (Some b) = Err TypeError /\ model_ne ha a hb (Some b) = Err TypeError) /\
  model_eq ha a hb None = Err TypeError /\ model_ne ha a hb None = Err TypeError.
Proof.
  intros en f p g q ha hb a b Bf Bg P Q VA VB LA LB. destruct (parse_made _ _ _ Bf P) as [_ NA]. destruct (parse_made _ _ _ Bg Q) as [_ NB].
  unfold model_ne, model_eq. split; [|split; [|split; reflexivity]].
  - intros ->. rewrite String.eqb_refl. eexists. split; [reflexivity|]. split; [reflexivity|].
    assert (K : forall evs h t, evs <> [] -> views (parsed evs) h -> (t < nt h)%nat -> map (r_of h) (lst_of h t) = map Z.of_nat (refs h t)).
    { intros evs h t NE V L. destruct (views_synced _ _ NE V) as (SY & L0 & _ & D). unfold refs. rewrite map_map. apply map_ext_in. intros c I.
      assert (In c (lst_of h 0)) by (eapply subseq_in; [apply synced_sub, SY; exact L|exact I]). rewrite L0, parsed_lst in H. apply in_seq in H.
      unfold r_of, ref_of, cell_of. rewrite D. fold (cell_of (parsed evs) c). rewrite parsed_cells by lia. reflexivity. }
    unfold tree_eqb. rewrite list_Zeqb_eq, (K _ _ _ NA VA LA), (K _ _ _ NB VB LB). split; [|intros E; now rewrite E].
    intros E. symmetry in E. revert E. apply map_inj_in. intros x y _ _. apply Nat2Z.inj.
  - intros N. apply String.eqb_neq in N. rewrite N. split; reflexivity.
Qed.
Print Assumptions C83_equal.


Lemma more_root h ha : (0 < nt h)%nat -> ordered h 0 -> extends h ha -> lst_of ha 0 = lst_of h 0 /\ ordered ha 0 /\ events ha 0 = events h 0.
Proof.
  intros L O X. assert (E : lst_of ha 0 = lst_of h 0) by (unfold lst_of; now rewrite (extends_tree _ _ _ X L)).
  split; [exact E|]. split; [now apply (extends_ordered h)|]. unfold events. rewrite E. apply map_ext. intros c. now apply extends_e.
Qed.
Lemma model_lists h ha hb a b : ordered h 0 -> h_cells ha = h_cells h -> h_cells hb = h_cells h ->
  incl (lst_of ha (md_tree a)) (lst_of h 0) -> incl (lst_of hb (md_tree b)) (lst_of h 0) -> md_class a = md_class b ->
  (lst_of ha (md_tree a) = lst_of hb (md_tree b) -> model_eq ha a hb (Some b) = Ok true) /\
  (lst_of ha (md_tree a) <> lst_of hb (md_tree b) -> model_eq ha a hb (Some b) = Ok false).
Proof.
  intros O A B IA IB C. unfold model_eq. rewrite C, String.eqb_refl. pose proof (eq_cells h ha hb _ _ O A B IA IB) as E.
  split; intros H; [now apply E in H; rewrite H|]. destruct (tree_eqb hb ha (md_tree b) (md_tree a)); [|reflexivity]. destruct H. now apply E.
Qed.
Lemma class_name_inj c d : class_name c = class_name d -> c = d.
Proof. destruct c, d; try reflexivity; discriminate. Qed.

(* one channel of an iteration: its piece *)
Definition chan_of_piece (id : nat -> Z) (c : nat) : bool := channel_id (id c) || plugin_id (id c).
Lemma chan_piece h ha h1 t h2 cs x : (0 < nt h)%nat -> ordered h 0 -> extends h ha ->
  (forall e, In e (events h 0) -> e_id e = 64 -> e_val e <> VNone) -> channels ha = (h1, t) -> rack_iter h1 t = (h2, (cs, x)) ->
  exists ps, cut_pieces (fun c => id_of h c =? 64) (lst_of h 0) ps /\ extends h h2 /\
    forall i c, nth_error cs i = Some c ->
      (exists g, chan_make h2 g (ch_tree c) = Ok (Some c)) /\
      exists q, nth_error ps i = Some q /\ lst_of h2 (ch_tree c) = filter (chan_of_piece (id_of h)) q.
Proof.
  intros L O X N C R. destruct (more_root _ _ L O X) as (E & OA & EE). rewrite <- EE in N.
  destruct (rack_spec _ _ _ _ _ _ OA C R N) as (ps & groups & ts & CP & X2 & _ & MT & MC & CM & _). exists ps.
  assert (IE : forall c, id_of ha c = id_of h c) by (intros; now apply extends_id).
  assert (CP' : cut_pieces (fun c => id_of h c =? 64) (lst_of h 0) ps).
  { rewrite E in CP. destruct CP as [CC PP]. split; [exact CC|]. destruct ps as [|p0 r]; [exact PP|].
    assert (FB : forall l, forallb (fun c => negb (id_of h c =? 64)) l = forallb (fun c => negb (id_of ha c =? 64)) l) by (induction l as [|y l IH]; [reflexivity|]; cbn [forallb]; now rewrite IE, IH).
    destruct PP as ((a & b & EP & NA & B) & RR). split.
    - exists a, b. rewrite FB. split; [exact EP|]. split; [exact NA|]. destruct b; [exact B|]. now rewrite FB, <- IE.
    - revert RR. apply Forall_impl. intros p (y & q & A1 & A2 & A3). exists y, q. now rewrite FB, <- IE. }
  split; [exact CP'|]. split; [eapply extends_trans; eauto|]. intros i c K. split; [exists groups; apply CM; eapply nth_error_In; eauto|].
  assert (K1 : nth_error (map ch_tree cs) i = Some (ch_tree c)) by now rewrite nth_error_map, K. rewrite MC in K1. apply nth_firstn in K1.
  assert (K2 : nth_error (map (lst_of h2) ts) i = Some (lst_of h2 (ch_tree c))) by now rewrite nth_error_map, K1. rewrite MT, nth_error_map in K2.
  destruct (nth_error ps i) as [q|]; [|discriminate]. exists q. split; [reflexivity|]. injection K2 as K2. rewrite <- K2. apply filter_ext. intros y. unfold chan_of_piece. now rewrite IE.
Qed.
Lemma start_kept h x : (id_of h x =? 64) = true -> chan_of_piece (id_of h) x = true.
Proof. intros E. apply Z.eqb_eq in E. unfold chan_of_piece. now rewrite E. Qed.

(* Channels, from one iteration over the rack or from two (ha and hb are states of the project
   between which only views were made): the channel at the same place is equal, any other one
   of its class differs, one of another class raises. *)
Theorem C83_channels : forall h ha h1 t h2 cs x hb h3 t' h4 ds y i j c d, (0 < nt h)%nat -> ordered h 0 -> extends h ha -> extends h hb ->
  (forall e, In e (events h 0) -> e_id e = 64 -> e_val e <> VNone) ->
  channels ha = (h1, t) -> rack_iter h1 t = (h2, (cs, x)) -> channels hb = (h3, t') -> rack_iter h3 t' = (h4, (ds, y)) ->
  nth_error cs i = Some c -> nth_error ds j = Some d ->
  (i = j -> ch_class c = ch_class d /\ model_eq h2 (chan_model c) h4 (Some (chan_model d)) = Ok true) /\
  (i <> j -> ch_class c = ch_class d -> model_eq h2 (chan_model c) h4 (Some (chan_model d)) = Ok false) /\
  (ch_class c <> ch_class d -> model_eq h2 (chan_model c) h4 (Some (chan_model d)) = Err TypeError).
Proof.
  intros h ha h1 t h2 cs x hb h3 t' h4 ds y i j c d L O XA XB N CA RA CB RB IC ID.
  destruct (chan_piece _ _ _ _ _ _ _ L O XA N CA RA) as (ps & P & X2 & SA). destruct (chan_piece _ _ _ _ _ _ _ L O XB N CB RB) as (ps' & P' & X4 & SB).
  assert (ps' = ps) by (eapply cut_pieces_fun; eauto). subst ps'. destruct (SA _ _ IC) as ((ga & MA) & p & KP & LP). destruct (SB _ _ ID) as ((gb & MB) & q & KQ & LQ).
  assert (INC : forall k r, nth_error ps k = Some r -> incl (filter (chan_of_piece (id_of h)) r) (lst_of h 0)).
  { intros k r K z Z. apply filter_In in Z. destruct P as [<- _]. apply in_concat. exists r. split; [eapply nth_error_In; eauto|tauto]. }
  assert (SAME : i = j -> ch_class c = ch_class d).
  { intros ->. assert (q = p) by congruence. subst q. eapply chan_class_same; eauto. unfold events. rewrite LP, LQ. apply map_ext. intros z.
    now rewrite (extends_e _ _ _ X2), (extends_e _ _ _ X4). }
  assert (ML : ch_class c = ch_class d -> (lst_of h2 (ch_tree c) = lst_of h4 (ch_tree d) -> model_eq h2 (chan_model c) h4 (Some (chan_model d)) = Ok true) /\
    (lst_of h2 (ch_tree c) <> lst_of h4 (ch_tree d) -> model_eq h2 (chan_model c) h4 (Some (chan_model d)) = Ok false)).
  { intros E. apply (model_lists h h2 h4 (chan_model c) (chan_model d) O); [apply X2|apply X4| | |cbn; now rewrite E]; cbn [chan_model md_tree]; [rewrite LP|rewrite LQ]; eauto. }
  split; [|split].
  - intros E. specialize (SAME E). split; [exact SAME|]. apply ML; [exact SAME|]. subst j. assert (q = p) by congruence. subst q. congruence.
  - intros NE E. apply ML; [exact E|]. intros EL. apply NE. rewrite LP, LQ in EL.
    assert (exists z, In z p /\ (id_of h z =? 64) = true) as (z & Z & CZ).
    { assert (V : exists v, value_of 64 (events h2 (ch_tree c)) = Some v).
      { unfold chan_make in MA. inv_bind MA. rewrite first_val_spec in E0. destruct (value_of 64 _) as [v|]; [eauto|discriminate]. }
      destruct V as (v & V). clear -V LP X2. unfold events in V. rewrite LP in V.
      assert (W : forall l, value_of 64 (map (e_of h2) (filter (chan_of_piece (id_of h)) l)) = Some v -> exists z, In z l /\ (id_of h z =? 64) = true).
      { induction l as [|z l IH]; [discriminate|]. cbn [filter]. destruct (chan_of_piece (id_of h) z); cbn [map value_of].
        - destruct (e_id (e_of h2 z) =? 64) eqn:Q; [|intros H; destruct (IH H) as (w & I & W); exists w; split; [now right|exact W]].
          intros _. exists z. split; [now left|]. rewrite (extends_e _ _ _ X2) in Q. exact Q.
        - intros H; destruct (IH H) as (w & I & W); exists w; split; [now right|exact W]. }
      destruct (W _ V) as (z & I & E). exists z. rewrite E. split; [exact I|reflexivity]. }
    assert (Z1 : In z (filter (chan_of_piece (id_of h)) p)) by (apply filter_In; split; [exact Z|now apply start_kept]).
    rewrite EL in Z1. apply filter_In in Z1. destruct Z1 as [Z1 _]. destruct P as [PC _].
    eapply (pieces_apart _ ps); eauto. rewrite PC. now apply ordered_nodup.
  - intros NE. unfold model_eq, chan_model. cbn [md_class]. destruct (String.eqb_spec (class_name (ch_class c)) (class_name (ch_class d))) as [E|]; [|reflexivity].
    destruct NE. now apply class_name_inj.
Qed.
Print Assumptions C83_channels.

Lemma in_spec ha a hb : forall l i b, nth_error l i = Some b -> model_eq hb b ha (Some a) = Ok true ->
  (forall k d, (k < i)%nat -> nth_error l k = Some d -> model_eq hb d ha (Some a) = Ok false \/ model_eq hb d ha (Some a) = Err TypeError) ->
  ((forall k d, (k < i)%nat -> nth_error l k = Some d -> model_eq hb d ha (Some a) = Ok false) -> model_in ha a hb l = Ok true) /\
  ((exists k d, (k < i)%nat /\ nth_error l k = Some d /\ model_eq hb d ha (Some a) = Err TypeError) -> model_in ha a hb l = Err TypeError).
Proof.
  induction l as [|m l IH]; intros i b K T W; [destruct i; discriminate|]. cbn [model_in]. destruct i as [|i].
  - cbn [nth_error] in K. injection K as ->. rewrite T. split; [reflexivity|]. intros (k & d & LT & _). lia.
  - cbn [nth_error] in K. destruct (IH i b K T) as [A B]. { intros k d LT D. apply (W (S k)); [lia|exact D]. } split.
    + intros F. rewrite (F 0%nat m) by (lia || reflexivity). cbn [bind]. apply A. intros k d LT D. apply (F (S k)); [lia|exact D].
    + intros (k & d & LT & D & E). destruct k as [|k]; cbn [nth_error] in D; [injection D as ->; now rewrite E|].
      destruct (W 0%nat m) as [Q|Q]; [lia|reflexivity| |]; rewrite Q; cbn [bind]; [|reflexivity]. apply B. exists k, d. split; [lia|]. auto.
Qed.

(* So whether a channel is `in` a list of the channels made afresh depends on the order: it is
   found if those before it have its class, otherwise TypeError is raised. *)
Theorem C83_member : forall h ha h1 t h2 cs x hb h3 t' h4 ds y i c, (0 < nt h)%nat -> ordered h 0 -> extends h ha -> extends h hb ->
  (forall e, In e (events h 0) -> e_id e = 64 -> e_val e <> VNone) ->
  channels ha = (h1, t) -> rack_iter h1 t = (h2, (cs, x)) -> channels hb = (h3, t') -> rack_iter h3 t' = (h4, (ds, y)) ->
  nth_error cs i = Some c -> (i < length ds)%nat ->
  ((forall k d, (k < i)%nat -> nth_error ds k = Some d -> ch_class d = ch_class c) -> model_in h2 (chan_model c) h4 (map chan_model ds) = Ok true) /\
  ((exists k d, (k < i)%nat /\ nth_error ds k = Some d /\ ch_class d <> ch_class c) -> model_in h2 (chan_model c) h4 (map chan_model ds) = Err TypeError).
Proof.
  intros h ha h1 t h2 cs x hb h3 t' h4 ds y i c L O XA XB N CA RA CB RB IC LD.
  assert (EQ : forall j d, nth_error ds j = Some d -> (j = i -> model_eq h4 (chan_model d) h2 (Some (chan_model c)) = Ok true) /\
     (j <> i -> ch_class d = ch_class c -> model_eq h4 (chan_model d) h2 (Some (chan_model c)) = Ok false) /\
     (ch_class d <> ch_class c -> model_eq h4 (chan_model d) h2 (Some (chan_model c)) = Err TypeError)).
  { intros j d D. destruct (C83_channels h hb h3 t' h4 ds y ha h1 t h2 cs x j i d c L O XB XA N CB RB CA RA D IC) as (A & B & C). split; [intros E; now apply A|]. auto. }
  destruct (nth_error ds i) as [d|] eqn:D; [|apply nth_error_None in D; lia].
  assert (CD : forall c d : chan_class, c = d \/ c <> d) by (intros u w; destruct u, w; (now left) || (right; discriminate)).
  assert (M : forall k m, nth_error (map chan_model ds) k = Some m -> exists e, nth_error ds k = Some e /\ m = chan_model e).
  { intros k m K. rewrite nth_error_map in K. destruct (nth_error ds k) as [e|]; [|discriminate]. exists e. split; [reflexivity|]. cbn in K. congruence. }
  destruct (in_spec h2 (chan_model c) h4 (map chan_model ds) i (chan_model d)) as [A B].
  - now rewrite nth_error_map, D.
  - now apply (EQ _ _ D).
  - intros k m LT K. destruct (M _ _ K) as (e & KE & ->). destruct (EQ _ _ KE) as (_ & F & G). destruct (CD (ch_class e) (ch_class c)); [left; apply F; [lia|assumption]|right; auto].
  - split.
    + intros S. apply A. intros k m LT K. destruct (M _ _ K) as (e & KE & ->). apply (EQ _ _ KE); [lia|]. now apply (S k).
    + intros (k & e & LT & KE & NE). apply B. exists k, (chan_model e). split; [exact LT|]. split; [now rewrite nth_error_map, KE|]. now apply (EQ _ _ KE).
Qed.
Print Assumptions C83_member.

Lemma select_more S h ha (sel : S -> event -> S * option bool) : extends h ha -> forall l s, select_list ha sel s l = select_list h sel s l.
Proof.
  intros X. induction l as [|c l IH]; intros s; [reflexivity|]. cbn [select_list]. rewrite (extends_e _ _ _ X). destruct (sel s (e_of h c)) as [s' o].
  now rewrite IH.
Qed.

(* Patterns: equal if at the same place. *)
Theorem C83_patterns : forall h ha h1 t h2 us hb h3 t' h4 ws i j u w, (0 < nt h)%nat -> ordered h 0 -> extends h ha -> extends h hb ->
  patterns ha = (h1, t) -> patterns_iter h1 t = (h2, Ok us) -> patterns hb = (h3, t') -> patterns_iter h3 t' = (h4, Ok ws) ->
  nth_error us i = Some u -> nth_error ws j = Some w ->
  model_eq h2 (pattern_model u) h4 (Some (pattern_model w)) = Ok (Nat.eqb i j).
Proof.
  intros h ha h1 t h2 us hb h3 t' h4 ws i j u w L O XA XB PA IA PB IB U W.
  destruct (more_root _ _ L O XA) as (LA & OA & _). destruct (more_root _ _ L O XB) as (LB & OB & _).
  destruct (subtree_spec _ _ _ _ _ _ _ OA PA) as (_ & X1 & _ & S1 & O1). destruct (subtree_spec _ _ _ _ _ _ _ OB PB) as (_ & X3 & _ & S3 & O3).
  rewrite LA, (select_more _ _ _ _ XA) in S1. rewrite LB, (select_more _ _ _ _ XB) in S3.
  pose proof (extends_trans _ _ _ XA X1) as XX1. pose proof (extends_trans _ _ _ XB X3) as XX3.
  destruct (patterns_label _ _ _ _ _ _ O1 IA U) as (zs & z & F & KZ & LU & _). destruct (patterns_label _ _ _ _ _ _ O3 IB W) as (zs' & z' & F' & KZ' & LW & _).
  destruct (patterns_iter_spec _ _ _ _ O1 IA) as (_ & _ & X2 & _). destruct (patterns_iter_spec _ _ _ _ O3 IB) as (_ & _ & X4 & _).
  assert (LL : lst_of h3 t' = lst_of h1 t) by congruence.
  assert (EE : events h3 t' = events h1 t). { unfold events. rewrite LL. apply map_ext. intros c. now rewrite (extends_e _ _ _ XX1), (extends_e _ _ _ XX3). }
  rewrite EE in F'. assert (zs' = zs) by congruence. subst zs'.
  assert (MM : mine h3 t' zs = mine h1 t zs).
  { unfold mine. rewrite LL. apply filter_ext. intros [c y]. unfold is_mine. now rewrite (extends_e _ _ _ XX1), (extends_e _ _ _ XX3). }
  rewrite MM in KZ', LW. set (m := mine h1 t zs) in *.
  assert (INC : forall y, incl (labelled m y) (lst_of h 0)).
  { intros y c I. unfold labelled in I. apply in_map_iff in I. destruct I as ([c' y'] & <- & I). apply filter_In in I. destruct I as [I _]. cbn [fst].
    apply mine_in in I. destruct I as (k & K & _). apply nth_error_In in K. rewrite S1 in K. eapply subseq_in; [apply select_subseq|exact K]. }
  destruct (model_lists h h2 h4 (pattern_model u) (pattern_model w) O) as [T D]; cbn [pattern_model md_tree md_class] in *.
  - transitivity (h_cells h1); [apply X2|apply XX1].
  - transitivity (h_cells h3); [apply X4|apply XX3].
  - rewrite LU. apply INC.
  - rewrite LW. apply INC.
  - reflexivity.
  - destruct (Nat.eqb_spec i j) as [->|NE]; [apply T; assert (z' = z) by congruence; congruence|]. apply D. rewrite LU, LW. intros E. apply NE.
    assert (IZ : In z (map snd m)) by (apply firsts_in; eapply nth_error_In; eauto). apply in_map_iff in IZ. destruct IZ as ([c y] & YZ & I). cbn [snd] in YZ. subst y.
    assert (IC : In c (labelled m z)) by (unfold labelled; apply in_map_iff; exists (c, z); split; [reflexivity|]; apply filter_In; cbn [snd]; split; [exact I|apply Z.eqb_refl]).
    rewrite E in IC. unfold labelled in IC. apply in_map_iff in IC. destruct IC as ([c' y] & YC & J). cbn [fst] in YC. subst c'. apply filter_In in J. destruct J as [J Y]. cbn [snd] in Y. apply Z.eqb_eq in Y. subst y.
    apply mine_in in I. apply mine_in in J. destruct I as (k & K & ZK & _), J as (k' & K' & ZK' & _).
    assert (k' = k). { pose proof (ordered_nodup _ _ O1) as ND. rewrite NoDup_nth_error in ND. apply ND; [apply nth_error_Some; congruence|congruence]. } subst k'.
    assert (z' = z) by congruence. subst z'. pose proof (firsts_nodup (map snd m)) as ND. rewrite NoDup_nth_error in ND. apply ND; [apply nth_error_Some; congruence|congruence].
Qed.
Print Assumptions C83_patterns.

Lemma insert_piece h ha h1 t v h2 l : (0 < nt h)%nat -> ordered h 0 -> extends h ha -> mixer ha = (h1, t) -> mixer_iter h1 t v = (h2, l) ->
  exists a b ps, cut_before (fun c => mixer_id (id_of h c)) (lst_of h 0) a b /\
    starts_at (fun c => id_of h c =? 147) (filter (fun c => insert_id (id_of h c) || plugin_id (id_of h c) || slot_id (id_of h c)) b) ps /\
    extends h h2 /\ forall i x, nth_error l i = Some x -> nth_error ps i = Some (lst_of h2 (in_tree x)).
Proof.
  intros L O X M R. destruct (more_root _ _ L O X) as (E & OA & _).
  destruct (mixer_spec _ _ _ _ _ _ OA M R) as (a & b & ps & tail & CB & SA & X2 & ML & _). exists a, b, (ps ++ [tail]).
  assert (IE : forall c, id_of ha c = id_of h c) by (intros; now apply extends_id).
  assert (FB : forall (f : Z -> bool) l, forallb (fun c => negb (f (id_of h c))) l = forallb (fun c => negb (f (id_of ha c))) l) by (intros f; induction l0 as [|y m IH]; [reflexivity|]; cbn [forallb]; now rewrite IE, IH).
  split; [|split; [|split]].
  - rewrite E in CB. destruct CB as (A & B & C). split; [exact A|]. split; [now rewrite (FB mixer_id)|]. destruct b; [exact I|]. now rewrite <- IE.
  - erewrite filter_ext; [|intros c; rewrite <- IE; reflexivity]. destruct SA as [A B]. split; [exact A|]. destruct (ps ++ [tail]) as [|p0 r]; [exact B|]. destruct B as [B C]. split.
    + now rewrite (FB (fun z => z =? 147)).
    + revert C. apply Forall_impl. intros p (y & q & A1 & A2 & A3). exists y, q. rewrite (FB (fun z => z =? 147)), <- IE. auto.
  - eapply extends_trans; eauto.
  - intros i x K. assert (K1 : nth_error (map (fun x => lst_of h2 (in_tree x)) l) i = Some (lst_of h2 (in_tree x))) by now rewrite nth_error_map, K.
    rewrite ML in K1. apply nth_firstn in K1. rewrite nth_error_app1; [exact K1|]. apply nth_error_Some. congruence.
Qed.

(* Inserts of the mixer: equal if at the same place. *)
Theorem C83_inserts : forall h ha h1 t v h2 l hb h3 t' v' h4 m i j x y, (0 < nt h)%nat -> ordered h 0 -> extends h ha -> extends h hb ->
  mixer ha = (h1, t) -> mixer_iter h1 t v = (h2, l) -> mixer hb = (h3, t') -> mixer_iter h3 t' v' = (h4, m) ->
  nth_error l i = Some x -> nth_error m j = Some y ->
  model_eq h2 (insert_model x) h4 (Some (insert_model y)) = Ok (Nat.eqb i j).
Proof.
  intros h ha h1 t v h2 l hb h3 t' v' h4 m i j x y L O XA XB MA IA MB IB KX KY.
  destruct (insert_piece _ _ _ _ _ _ _ L O XA MA IA) as (a & b & ps & CB & SA & X2 & PX). destruct (insert_piece _ _ _ _ _ _ _ L O XB MB IB) as (a' & b' & ps' & CB' & SA' & X4 & PY).
  destruct (cut_before_fun _ _ _ _ _ _ _ CB CB') as [-> ->]. assert (ps' = ps) by (eapply starts_at_fun; eauto). subst ps'. specialize (PX _ _ KX). specialize (PY _ _ KY).
  assert (INC : forall k r, nth_error ps k = Some r -> incl r (lst_of h 0)).
  { intros k r K c I. assert (J : In c (concat ps)) by (apply in_concat; exists r; split; [eapply nth_error_In; eauto|exact I]). destruct SA as [CE _]. rewrite CE in J. apply filter_In in J.
    destruct CB as [-> _]. apply in_or_app. right. apply J. }
  assert (ND : NoDup (concat ps)).
  { destruct SA as [-> _]. apply NoDup_filter. pose proof (ordered_nodup _ _ O) as ND. destruct CB as [E _]. rewrite E in ND. clear -ND. induction a as [|c a IH]; [exact ND|]. cbn [app] in ND. inversion ND; auto. }
  destruct (model_lists h h2 h4 (insert_model x) (insert_model y) O) as [T D]; cbn [insert_model md_tree md_class] in *; eauto; [apply X2|apply X4|].
  destruct (Nat.eqb_spec i j) as [->|NE]; [apply T; congruence|]. apply D. intros E. apply NE. rewrite <- E in PY.
  assert (exists c, In c (lst_of h2 (in_tree x))) as (c & I).
  { destruct SA as [_ SA]. destruct ps as [|p0 r]; [destruct SA|]. destruct SA as [_ F]. rewrite Forall_forall in F.
    assert (NN : forall k p, nth_error r k = Some p -> exists c, In c p) by (intros k p K; apply nth_error_In in K; destruct (F _ K) as (c & q & -> & _); exists c; now left).
    destruct i as [|i]; [destruct j as [|j]; [congruence|]; now apply (NN j)|now apply (NN i)]. }
  eapply (pieces_apart _ ps ND); eauto.
Qed.
Print Assumptions C83_inserts.

(* Being equal says nothing of what models hold: these channels of two projects are equal, though
   all their events differ. *)
Definition cmp_cs (a ty g : Z) : list chunk := [(199, ver20); (231, [a; 0; 0; 0]); (64, [a; 0]); (21, [ty]); (145, [g; g; g; g])].
Definition rack_of (f : bytes) : heap * list chan :=
  let '(h1, t) := channels (parsed (pr_events (load f))) in let '(h2, (cs, _)) := rack_iter h1 t in (h2, cs).
Theorem C83_contents_refuted : exists en f p g q h1 t h2 c x h3 t' h4 d y, is_bytes f /\ is_bytes g /\ parse en f = Ok p /\ parse en g = Ok q /\
  channels (parsed (pr_events p)) = (h1, t) /\ rack_iter h1 t = (h2, ([c], x)) /\ channels (parsed (pr_events q)) = (h3, t') /\ rack_iter h3 t' = (h4, ([d], y)) /\
  model_eq h2 (chan_model c) h4 (Some (chan_model d)) = Ok true /\
  Forall2 (fun a b => e_val a <> e_val b) (events h2 (ch_tree c)) (events h4 (ch_tree d)).
Proof.
  set (f := sample (cmp_cs 65 4 0)). set (g := sample (cmp_cs 66 2 255)).
  exists en0, f, (load f), g, (load g). do 10 eexists. split; [apply bytes_check; vm_compute; reflexivity|]. split; [apply bytes_check; vm_compute; reflexivity|].
  split; [vm_compute; reflexivity|]. split; [vm_compute; reflexivity|]. split; [vm_compute; reflexivity|]. split; [vm_compute; reflexivity|].
  split; [vm_compute; reflexivity|]. split; [vm_compute; reflexivity|]. split; [vm_compute; reflexivity|].
  vm_compute. repeat constructor; discriminate.
Qed.
Print Assumptions C83_contents_refuted.

(* a rack with a sampler, an instrument and another sampler, iterated twice *)
Definition three_cs : list chunk := [(199, ver20); (231, title16); (64, [7; 0]); (21, [0]); (145, [0; 0; 0; 0]); (64, [3; 0]); (21, [4]); (145, [0; 0; 0; 0]);
  (64, [5; 0]); (21, [0]); (145, [0; 0; 0; 0])].
Definition three : bytes := sample three_cs.
Definition three_h : heap := parsed (pr_events (load three)).
Definition three_1 : heap * list chan := rack_of three.
Definition three_v : heap * nat := channels (fst three_1).
Definition three_2 : heap * gen chan := rack_iter (fst three_v) (snd three_v).
Example C83_case : is_bytes three /\ parse en0 three = Ok (load three) /\ (0 < nt three_h)%nat /\ ordered three_h 0 /\ extends three_h (fst three_1) /\
  (forall e, In e (events three_h 0) -> e_id e = 64 -> e_val e <> VNone) /\
  rack_iter (fst (channels three_h)) (snd (channels three_h)) = (fst three_1, (snd three_1, None)) /\
  map ch_class (snd three_1) = [CSampler; CInstrument; CSampler] /\ map ch_class (fst (snd three_2)) = [CSampler; CInstrument; CSampler] /\
  map ch_tree (snd three_1) <> map ch_tree (fst (snd three_2)) /\
  map (fun c => map (fun d => model_eq (fst three_1) (chan_model c) (fst three_2) (Some (chan_model d))) (fst (snd three_2))) (snd three_1) =
    [[Ok true; Err TypeError; Ok false]; [Err TypeError; Ok true; Err TypeError]; [Ok false; Err TypeError; Ok true]] /\
  map (fun c => model_in (fst three_1) (chan_model c) (fst three_2) (map chan_model (fst (snd three_2)))) (snd three_1) = [Ok true; Err TypeError; Err TypeError] /\
  model_eq mixer_h2 (insert_model (nth 0 mixer_l (InsertObj 0 0 None))) mixer_h2 (Some (insert_model (nth 1 mixer_l (InsertObj 0 0 None)))) = Ok false /\
  model_eq pat_iter (pattern_model 2) pat_iter (Some (pattern_model 3)) = Ok false.
Proof.
  split; [apply bytes_check; vm_compute; reflexivity|]. split; [vm_compute; reflexivity|]. split; [apply Nat.ltb_lt; vm_compute; reflexivity|]. split; [apply parsed_ordered|].
  split; [split; [vm_compute; reflexivity|]; split; [vm_compute; reflexivity|]; eexists; vm_compute; reflexivity|].
  split; [intros e I; vm_compute in I; repeat destruct I as [<-|I]; try (vm_compute; discriminate); destruct I|].
  split; [vm_compute; reflexivity|]. split; [vm_compute; reflexivity|]. split; [vm_compute; reflexivity|]. split; [vm_compute; discriminate|].
  split; [vm_compute; reflexivity|]. split; [vm_compute; reflexivity|]. split; vm_compute; reflexivity.
Qed.
