(* C45 the channel rack. *)
From Coq Require Import String ZArith List Bool Lia Arith.
From Verif Require Import M_Base M_Float M_Text M_Construct M_Structs M_Events M_Parse M_Tree M_Prop M_Project M_Items M_Collections.
From Verif Require Import S_Canon S_File S_Domain S_Tree S_Prop S_Project S_Items S_Collections.
From Verif Require Import P_Base P_Null P_TreeBase P_Tree P_TreeEdit P_Prop P_Edit P_Project P_Items P_Patterns P_Views P_Rack.
From Verif Require Import C_Samples.
Import ListNotations.
Open Scope Z_scope.

(* The channels of a project are the pieces of its event list between channel starts (64),
   reduced to channel and plugin events; the first one also has what comes before its start.
   When iterating raises on the way, those before are as said. *)
Theorem C45_pieces : forall h h1 t h2 cs x, ordered h 0 -> channels h = (h1, t) -> rack_iter h1 t = (h2, (cs, x)) ->
  (forall e, In e (events h 0) -> e_id e = 64 -> e_val e <> VNone) ->
  h_evs h2 = h_evs h /\ h_cells h2 = h_cells h /\
  exists ps, cut_pieces (fun c => id_of h c =? 64) (lst_of h 0) ps /\
    map (fun c => lst_of h2 (ch_tree c)) cs =
      firstn (length cs) (map (filter (fun c => channel_id (id_of h c) || plugin_id (id_of h c))) ps) /\
    (x = None -> length cs = length ps).
Proof.
  intros h h1 t h2 cs x O V R N. destruct (rack_spec _ _ _ _ _ _ O V R N) as (ps & groups & ts & C & (A & B & _) & _ & MT & MC & _ & E).
  split; [exact A|]. split; [exact B|]. exists ps. split; [exact C|]. split.
  - rewrite <- MT, <- (map_map ch_tree (lst_of h2)), MC. now rewrite firstn_map.
  - intros ->. rewrite E. apply (f_equal (@length _)) in MT. now rewrite !map_length in MT.
Qed.
Print Assumptions C45_pieces.

(* The number of a channel is its start event's, its class follows its type, and its group is
   the one with the number stored in it (as a Python index), groups being numbered in order. *)
Theorem C45_channel : forall h h1 t h2 cs x c, ordered h 0 -> channels h = (h1, t) -> rack_iter h1 t = (h2, (cs, x)) ->
  (forall e, In e (events h 0) -> e_id e = 64 -> e_val e <> VNone) -> In c cs ->
  let es := events h2 (ch_tree c) in
  value_of 64 es = Some (ch_iid c) /\
  (exists v, value_of 21 es = Some v /\ forall n, number v n ->
     (n = 5 -> ch_class c = CAutomation) /\ (n = 3 -> ch_class c = CLayer) /\ (n = 0 -> ch_class c = CSampler) /\
     (n = 2 \/ n = 4 ->
        (value_of 196 es <> None -> value_of 201 es = Some (VStr []) -> ch_class c = CSampler) /\
        (value_of 196 es = None \/ (forall s, value_of 201 es = Some s -> falsy s = false) -> ch_class c = CInstrument)) /\
     (n <> 0 -> n <> 2 -> n <> 3 -> n <> 4 -> n <> 5 -> ch_class c = CChannel)) /\
  exists g z k d, value_of 145 es = Some g /\ number g z /\
    norm_index (zlen (filter (fun c => id_of h c =? 231) (lst_of h 0))) z = Some k /\
    nth_error (filter (fun c => id_of h c =? 231) (lst_of h 0)) k = Some d /\ lst_of h2 (ch_group c) = [d].
Proof.
  intros h h1 t h2 cs x c O V R N I. destruct (rack_spec _ _ _ _ _ _ O V R N) as (ps & groups & ts & _ & _ & MG & _ & _ & CM & _).
  specialize (CM c I). cbv zeta. unfold chan_make in CM. inv_bind CM. inv_bind CM. inv_bind CM. inv_bind CM.
  rewrite first_val_spec in E, E0, E1. set (es := events h2 (ch_tree c)) in *.
  destruct (value_of 64 es) as [i|] eqn:V64; [|discriminate]. destruct (value_of 21 es) as [ty|] eqn:V21; [|discriminate].
  destruct (value_of 145 es) as [g|] eqn:V145; [|discriminate].
  assert (i = x0) by congruence. assert (ty = x1) by congruence. assert (g = x2) by congruence. subst i ty g. clear E E0 E1.
  assert (exists z gr, as_int x2 = Some z /\ py_nth groups z = Ok gr /\ c = Chan (ch_tree c) x3 x0 gr) as (z & gr & Z & G & EC).
  { destruct x0; try discriminate; destruct (as_int x2) as [zz|]; try discriminate; inv_bind CM; exists zz; eexists; repeat split; eauto; congruence. }
  clear CM. assert (CC : ch_class c = x3) by now rewrite EC. assert (CI : ch_iid c = x0) by now rewrite EC. assert (CG : ch_group c = gr) by now rewrite EC.
  split; [now rewrite CI|]. split.
  - exists x1. split; [reflexivity|]. intros n NN. apply number_as in NN. rewrite CC. unfold chan_class_of in E2. rewrite !contains_value, first_val_spec in E2. fold es in E2.
    unfold class_by_type in E2. rewrite NN in E2. split; [|split; [|split; [|split]]].
    + intros ->. destruct (value_of 196 es), (value_of 201 es); cbn [andb bind] in E2; congruence.
    + intros ->. destruct (value_of 196 es), (value_of 201 es); cbn [andb bind] in E2; congruence.
    + intros ->. destruct (value_of 196 es), (value_of 201 es); cbn [andb bind] in E2; congruence.
    + intros Hn. assert (K : (match n with 5 => CAutomation | 3 => CLayer | 0 => CSampler | 4 | 2 => CInstrument | _ => CChannel end) = CInstrument) by (destruct Hn as [-> | ->]; reflexivity).
      rewrite K in E2. split.
      * intros P Q. rewrite Q in E2. destruct (value_of 196 es); [|congruence]. cbn [andb bind falsy] in E2. congruence.
      * intros [P|Q]; [rewrite P in E2; cbn [andb] in E2; congruence|]. destruct (value_of 196 es); [|cbn [andb] in E2; congruence].
        destruct (value_of 201 es) as [s|]; cbn [andb bind] in E2; [|congruence]. rewrite (Q s eq_refl) in E2. congruence.
    + intros. assert (K : (match n with 5 => CAutomation | 3 => CLayer | 0 => CSampler | 4 | 2 => CInstrument | _ => CChannel end) = CChannel).
      { destruct n as [|p|p]; [congruence| |reflexivity]. do 3 (try reflexivity; try congruence; try destruct p as [p|p|]); reflexivity || congruence. }
      rewrite K in E2. destruct (value_of 196 es), (value_of 201 es); cbn [andb bind] in E2; congruence.
  - assert (LG : zlen groups = zlen (filter (fun c => id_of h c =? 231) (lst_of h 0))).
    { unfold zlen. apply (f_equal (@length _)) in MG. rewrite !map_length in MG. now rewrite MG. }
    unfold py_nth in G. rewrite LG in G. set (n := zlen (filter (fun c => id_of h c =? 231) (lst_of h 0))) in *.
    assert (exists k, norm_index n z = Some k /\ nth_error groups k = Some gr) as (k & K & KG).
    { unfold norm_index. destruct (Z.ltb_spec z 0) as [S|S].
      - destruct (Z.ltb_spec (z + n) 0); [discriminate|]. replace (0 <=? z) with false by lia. replace (- n <=? z) with true by lia.
        cbn [andb]. exists (Z.to_nat (z + n)). split; [reflexivity|]. destruct (nth_error groups (Z.to_nat (z + n))); congruence.
      - replace (0 <=? z) with true by lia. replace (z <? 0) with false in G by lia.
        destruct (nth_error groups (Z.to_nat z)) as [y|] eqn:Y; [|discriminate].
        assert (Z.to_nat z < length groups)%nat by (apply nth_error_Some; congruence).
        replace (z <? n) with true by (clearbody n; unfold zlen in LG; lia). cbn [andb]. exists (Z.to_nat z). split; congruence. }
    assert (NK : nth_error (map (lst_of h2) groups) k = Some (lst_of h2 gr)) by now rewrite nth_error_map, KG.
    rewrite MG, nth_error_map in NK. destruct (nth_error (filter _ _) k) as [d|] eqn:D; [|discriminate]. cbn [option_map] in NK.
    exists x2, z, k, d. split; [reflexivity|]. split; [now apply number_as|]. split; [exact K|]. split; [exact D|]. rewrite CG. congruence.
Qed.
Print Assumptions C45_channel.

(* len is the number of channel starts, which is how many channels a full iteration yields *)
Theorem C45_len : forall h h1 t h2 cs n, ordered h 0 -> channels h = (h1, t) -> rack_iter h1 t = (h2, (cs, None)) ->
  (forall e, In e (events h 0) -> e_id e = 64 -> e_val e <> VNone) -> rack_len h1 t = Ok n ->
  zlen cs = n /\ n = zlen (filter (fun e => e_id e =? 64) (events h 0)).
Proof.
  intros h h1 t h2 cs n O V R N L.
  destruct (C45_pieces _ _ _ _ _ _ O V R N) as (_ & _ & ps & C & _ & LC).
  assert (CV : count h1 t 64 = zlen (filter (fun c => id_of h c =? 64) (lst_of h 0))).
  { unfold count, zlen. rewrite get_ie_1. rewrite (channels_view _ _ _ O V). destruct (subtree_spec _ _ _ _ _ _ _ O V) as (_ & X1 & _). do 2 f_equal.
    clear -X1. induction (lst_of h 0) as [|c l IH]; [reflexivity|]. cbn [filter].
    destruct (channel_id (id_of h c) || plugin_id (id_of h c) || rack_id (id_of h c)) eqn:Q; cbn [filter].
    - rewrite (extends_id _ _ _ X1). destruct (id_of h c =? 64); now rewrite IH.
    - rewrite IH. destruct (Z.eqb_spec (id_of h c) 64) as [E|E]; [rewrite E in Q; discriminate|reflexivity]. }
  unfold rack_len in L. destruct (contains h1 t 64) eqn:CT; [|discriminate]. injection L as <-. rewrite CV. split.
  - unfold zlen. rewrite (LC eq_refl), (cut_pieces_count _ _ _ _ C). f_equal. apply Nat.max_r.
    unfold contains in CT. apply existsb_exists in CT. destruct CT as (c & I & E). unfold count, zlen in CV. rewrite get_ie_1 in CV.
    assert (In c (filter (fun c => id_of h1 c =? 64) (lst_of h1 t))) by (apply filter_In; auto).
    destruct (filter (fun c => id_of h1 c =? 64) (lst_of h1 t)); [contradiction|]. cbn [length] in CV. unfold is_sep. lia.
  - unfold zlen, events, id_of. f_equal. clear. induction (lst_of h 0) as [|c l IH]; [reflexivity|]. cbn [map filter]. destruct (e_id (e_of h c) =? 64); cbn [length]; now rewrite IH.
Qed.
Print Assumptions C45_len.

(* without any channel, len raises NoModelsFound but iterating raises KeyError *)
Theorem C45_none : forall h h1 t, ordered h 0 -> channels h = (h1, t) -> (forall e, In e (events h 0) -> e_id e <> 64) ->
  rack_len h1 t = Err NoModelsFound /\ snd (rack_iter h1 t) = ([], Some KeyError).
Proof.
  intros h h1 t O V N. destruct (subtree_spec _ _ _ _ _ _ _ O V) as (_ & X1 & _).
  assert (NL : forall c, In c (lst_of h 0) -> id_of h c <> 64) by (intros c I; apply (N (e_of h c)); unfold events; now apply in_map).
  split.
  - unfold rack_len. destruct (contains h1 t 64) eqn:C; [|reflexivity]. unfold contains in C. apply existsb_exists in C. destruct C as (c & I & E).
    rewrite (channels_view _ _ _ O V) in I. apply filter_In in I. rewrite (extends_id _ _ _ X1) in E. destruct (NL c); [tauto|lia].
  - destruct (rack_iter h1 t) as [h2 [cs x]] eqn:R. cbn [snd].
    destruct (rack_spec _ _ _ _ _ _ O V R) as (ps & groups & ts & C & X2 & _ & MT & MC & CM & E). { intros e I EI. destruct (N e I EI). }
    assert (V64 : forall u, In u ts -> value_of 64 (events h2 u) = None).
    { intros u U. destruct (value_of 64 (events h2 u)) as [v|] eqn:VV; [|reflexivity]. exfalso.
      assert (CT : contains h2 u 64 = true) by now rewrite contains_value, VV. unfold contains in CT. apply existsb_exists in CT. destruct CT as (c & I & EC).
      assert (IL : In (lst_of h2 u) (map (lst_of h2) ts)) by now apply in_map. rewrite MT in IL. apply in_map_iff in IL. destruct IL as (p & EP & IP).
      rewrite <- EP in I. apply filter_In in I. rewrite (extends_id _ _ _ X2) in EC. apply (NL c); [|lia]. destruct C as [CC _]. rewrite <- CC. apply in_concat. exists p. tauto. }
    assert (NM : forall u, In u ts -> chan_make h2 groups u = Err KeyError) by (intros u U; unfold chan_make; rewrite first_val_spec, (V64 u U); reflexivity).
    assert (ZC : cs = []).
    { destruct cs as [|c cs]; [reflexivity|]. exfalso. specialize (CM c (or_introl eq_refl)). rewrite NM in CM; [discriminate|].
      assert (IC : In (ch_tree c) (firstn (length (c :: cs)) ts)) by (rewrite <- MC; now left). rewrite <- (firstn_skipn (length (c :: cs)) ts). apply in_app_iff. now left. }
    subst cs. f_equal. destruct x as [e|].
    + destruct E as (u & U & EU). rewrite NM in EU; [congruence|]. now apply nth_error_In in U.
    + cbn [length] in E. assert (length ps = 0%nat). { apply (f_equal (@length _)) in MT. rewrite !map_length in MT. lia. }
      destruct ps; [destruct C as [_ []]|discriminate].
Qed.
Print Assumptions C45_none.

Lemma cut_last {A} (cut : A -> bool) l ps a b : cut_pieces cut l ps -> l = a ++ b -> forallb (fun x => negb (cut x)) b = true ->
  exists p q, nth_error ps (length ps - 1) = Some p /\ p = q ++ b.
Proof.
  intros [C P] E F. destruct ps as [|p0 r]; [destruct P|]. destruct P as [_ FR]. destruct (destruct_last _ r) as [->|(r' & p & ->)].
  { cbn in C. rewrite app_nil_r in C. exists p0, a. split; [reflexivity|congruence]. }
  assert (LP : exists p', nth_error (p0 :: r' ++ [p]) (length (p0 :: r' ++ [p]) - 1) = Some p').
  { destruct (nth_error _ _) eqn:Q; [eauto|]. apply nth_error_None in Q. cbn [length] in Q. lia. }
  assert (LQ : nth_error (p0 :: r' ++ [p]) (length (p0 :: r' ++ [p]) - 1) = Some p).
  { cbn [length]. rewrite app_length. cbn [length]. replace (S (length r' + 1) - 1)%nat with (S (length r')) by lia. cbn [nth_error]. rewrite nth_error_app2, Nat.sub_diag by lia. reflexivity. }
  exists p. rewrite Forall_forall in FR. destruct (FR p) as (x & p' & EP & CX & FX). { apply in_app_iff. right. now left. }
  assert (CE : (p0 ++ concat r') ++ p = a ++ b). { rewrite <- E, <- C. cbn [concat]. rewrite concat_app. cbn [concat]. now rewrite app_nil_r, app_assoc. }
  destruct (app_split _ _ _ _ _ CE) as [(q & _ & Q)|(q & _ & Q)].
  - exists q. auto.
  - exfalso. rewrite forallb_forall in F. assert (I : In x b) by (rewrite Q, EP; apply in_app_iff; right; now left). specialize (F x I). now rewrite CX in F.
Qed.

(* All plugin events after the last channel start - those of the mixer's slots among them -
   end up in the last channel. *)
Theorem C45_last : forall h h1 t h2 cs a b c, ordered h 0 -> channels h = (h1, t) -> rack_iter h1 t = (h2, (cs, None)) ->
  (forall e, In e (events h 0) -> e_id e = 64 -> e_val e <> VNone) ->
  lst_of h 0 = a ++ b -> (forall d, In d b -> id_of h d <> 64) ->
  nth_error cs (length cs - 1) = Some c ->
  exists q, lst_of h2 (ch_tree c) = q ++ filter (fun c => channel_id (id_of h c) || plugin_id (id_of h c)) b.
Proof.
  intros h h1 t h2 cs a b c O V R N E F K. destruct (C45_pieces _ _ _ _ _ _ O V R N) as (_ & _ & ps & C & M & LC). specialize (LC eq_refl).
  destruct (cut_last _ _ _ _ _ C E) as (p & q & P & ->).
  { apply forallb_forall. intros d I. apply negb_true_iff, Z.eqb_neq. now apply F. }
  assert (NK : nth_error (map (fun c => lst_of h2 (ch_tree c)) cs) (length cs - 1) = Some (lst_of h2 (ch_tree c))) by now rewrite nth_error_map, K.
  rewrite M, <- LC in *. rewrite firstn_all2 in NK by (rewrite map_length; lia). rewrite nth_error_map, P in NK. cbn [option_map] in NK.
  exists (filter (fun c => channel_id (id_of h c) || plugin_id (id_of h c)) q). rewrite <- filter_app. congruence.
Qed.
Print Assumptions C45_last.

(* So a channel without a name of its own has the name of a mixer slot, and naming the channel
   names the slot. *)
Definition rack_chunks : list chunk :=
  [(199, ver20); (231, title16); (64, [7; 0]); (21, [0]); (145, [0; 0; 0; 0]); (64, [3; 0]); (21, [4]); (145, [255; 255; 255; 255]);
   (236, [0; 0; 0; 0; 0; 0; 0; 0; 0; 0; 0; 0]); (203, title16); (98, [0; 0]); (147, [0; 0; 0; 0])].
Definition rack_file : bytes := sample rack_chunks.
Definition rack_heap : heap := parsed (pr_events (load rack_file)).
Definition rack_view : heap := fst (channels rack_heap).
Definition rack_done : heap := fst (rack_iter rack_view 1).
Definition rack_chans : list chan := fst (snd (rack_iter rack_view 1)).
Example C45_case : is_bytes rack_file /\ parse en0 rack_file = Ok (load rack_file) /\ ordered rack_heap 0 /\ channels rack_heap = (rack_view, 1%nat) /\
  (forall e, In e (events rack_heap 0) -> e_id e = 64 -> e_val e <> VNone) /\
  rack_iter rack_view 1 = (rack_done, (rack_chans, None)) /\ rack_len rack_view 1 = Ok 2 /\
  map (fun c => map e_id (events rack_done (ch_tree c))) rack_chans = [[64; 21; 145]; [64; 21; 145; 203]] /\
  map ch_iid rack_chans = [VInt 7; VInt 3] /\ map ch_class rack_chans = [CSampler; CInstrument] /\
  map (fun c => map e_id (events rack_done (ch_group c))) rack_chans = [[231]; [231]].
Proof.
  destruct (sample_ok rack_chunks ltac:(vm_compute; reflexivity)) as [B _]. split; [exact B|]. split; [vm_compute; reflexivity|].
  split; [apply parsed_ordered|]. split; [vm_compute; reflexivity|]. split.
  - intros e I. vm_compute in I. repeat destruct I as [<-|I]; try (vm_compute; discriminate). destruct I.
  - vm_compute. repeat split.
Qed.
Theorem C45_refuted : exists f p, is_bytes f /\ parse en0 f = Ok p /\
  let h := parsed (pr_events p) in
  let '(h1, t) := channels h in
  let '(h2, (cs, x)) := rack_iter h1 t in
  let '(h3, m) := mixer h2 in
  x = None /\ exists c s n, In c cs /\ value_of 98 (events h3 m) <> None /\
    (* no name event between this channel's start and the mixer *)
    ev_get en0 h3 (ch_tree c) [203; 192] = Ok s /\ ev_get en0 h3 m [203] = Ok s /\ s <> VNone /\
    let h4 := fst (prop_set en0 h3 (EvModel (ch_tree c)) (ev_prop [203; 192]) (VStr n)) in
    ev_get en0 h4 m [203] = Ok (VStr n) /\ s <> VStr n.
Proof.
  exists rack_file, (load rack_file). destruct (sample_ok rack_chunks ltac:(vm_compute; reflexivity)) as [B _]. split; [exact B|]. split; [vm_compute; reflexivity|].
  cbv zeta. change (parsed (pr_events (load rack_file))) with rack_heap.
  assert (E1 : channels rack_heap = (rack_view, 1%nat)) by (vm_compute; reflexivity). rewrite E1.
  assert (E2 : rack_iter rack_view 1 = (rack_done, (rack_chans, None))) by (vm_compute; reflexivity). rewrite E2.
  assert (E3 : mixer rack_done = (fst (mixer rack_done), snd (mixer rack_done))) by apply surjective_pairing. rewrite E3. split; [reflexivity|].
  exists (nth 1 rack_chans (Chan 0 CChannel VNone 0)), (VStr [72; 105; 128521]), [66]. split; [vm_compute; right; now left|]. split; [vm_compute; discriminate|]. split; [vm_compute; reflexivity|]. split; [vm_compute; reflexivity|].
  split; [discriminate|]. split; [vm_compute; reflexivity|discriminate].
Qed.
Print Assumptions C45_refuted.

(* the condition on start events holds in every parsed file *)
Theorem C45_loaded : forall en f p e, is_bytes f -> parse en f = Ok p -> In e (pr_events p) -> e_id e = 64 -> e_val e <> VNone.
Proof.
  intros en f p e B P I E. destruct (parse_int en f p e KU16 B P I) as (z & ->); [rewrite E; reflexivity|reflexivity|discriminate].
Qed.
Print Assumptions C45_loaded.
