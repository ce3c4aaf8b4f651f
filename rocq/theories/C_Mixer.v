(* C46 the inserts of the mixer and their slots. *)
From Coq Require Import String ZArith List Bool Lia Arith.
From Verif Require Import M_Base M_Float M_Text M_Construct M_Structs M_Events M_Parse M_Tree M_Prop M_Project M_Items M_Collections.
From Verif Require Import S_Canon S_File S_Domain S_Tree S_Prop S_Project S_Items S_Collections.
From Verif Require Import P_Base P_Null P_TreeBase P_Tree P_TreeEdit P_Prop P_Edit P_Project P_Items P_Patterns P_Views P_Rack P_Mixer.
From Verif Require Import C_Samples.
Import ListNotations.
Open Scope Z_scope.

(* From the first mixer event of the project on, the insert, plugin and slot events are cut
   before every Output event (147); the pieces but the last, and no more than max_inserts of
   them, are the inserts, numbered from -1.  The rest is never reported. *)
Theorem C46_inserts : forall h h1 t v h2 l, ordered h 0 -> mixer h = (h1, t) -> mixer_iter h1 t v = (h2, l) ->
  h_evs h2 = h_evs h /\ h_cells h2 = h_cells h /\
  exists a b ps tail, cut_before (fun c => mixer_id (id_of h c)) (lst_of h 0) a b /\
    starts_at (fun c => id_of h c =? 147) (filter (fun c => insert_id (id_of h c) || plugin_id (id_of h c) || slot_id (id_of h c)) b) (ps ++ [tail]) /\
    map (fun x => lst_of h2 (in_tree x)) l = firstn (Z.to_nat (max_inserts v)) ps /\
    (forall k x, nth_error l k = Some x -> in_iid x = Z.of_nat k - 1).
Proof.
  intros h h1 t v h2 l O V R. destruct (mixer_spec _ _ _ _ _ _ O V R) as (a & b & ps & tail & CB & SA & (A & B & _) & M & P).
  split; [exact A|]. split; [exact B|]. exists a, b, ps, tail. split; [exact CB|]. split; [exact SA|]. split; [exact M|]. intros k x K. now apply P.
Qed.
Print Assumptions C46_inserts.

Lemma events_from h a b id : cut_before (fun c => mixer_id (id_of h c)) (lst_of h 0) a b -> mixer_id id = true ->
  filter (fun e => e_id e =? id) (events h 0) = map (e_of h) (filter (fun c => id_of h c =? id) b).
Proof.
  intros (LE & NA & _) MI. unfold events. rewrite LE, map_app, filter_app. assert (Z0 : filter (fun e => e_id e =? id) (map (e_of h) a) = []).
  { clear -NA MI. induction a as [|c a IH]; [reflexivity|]. cbn [forallb] in NA. apply andb_true_iff in NA as [N1 N2]. cbn [map filter].
    destruct (Z.eqb_spec (e_id (e_of h c)) id) as [E|]; [|now apply IH]. unfold id_of in N1. rewrite E, MI in N1. discriminate. }
  rewrite Z0. cbn [app]. clear. induction b as [|c b IH]; [reflexivity|]. cbn [map filter]. unfold id_of at 1. destruct (e_id (e_of h c) =? id); cbn [map]; now rewrite IH.
Qed.
Lemma outputs_kept h m : filter (fun c => id_of h c =? 147) (filter (fun c => insert_id (id_of h c) || plugin_id (id_of h c) || slot_id (id_of h c)) m) = filter (fun c => id_of h c =? 147) m.
Proof.
  induction m as [|c m IH]; [reflexivity|]. cbn [filter]. destruct (Z.eqb_spec (id_of h c) 147) as [E|E].
  - rewrite E. change (insert_id 147 || plugin_id 147 || slot_id 147) with true. cbn [filter]. rewrite E. cbn [Z.eqb Pos.eqb]. now rewrite IH.
  - destruct (_ || _); cbn [filter]; [replace (id_of h c =? 147) with false by lia|]; exact IH.
Qed.

(* How many: one per Output event, max_inserts at most; len counts other events (236). *)
Theorem C46_count : forall h h1 t v h2 l, ordered h 0 -> mixer h = (h1, t) -> mixer_iter h1 t v = (h2, l) ->
  zlen l = Z.min (max_inserts v) (zlen (filter (fun e => e_id e =? 147) (events h 0))) /\
  mixer_len h1 t = match filter (fun e => e_id e =? 236) (events h 0) with [] => Err NoModelsFound | fs => Ok (zlen fs) end.
Proof.
  intros h h1 t v h2 l O V R. destruct (mixer_spec _ _ _ _ _ _ O V R) as (a & b & ps & tail & CB & SA & X & M & _).
  pose proof (max_inserts_pos v) as MP. split.
  - rewrite (events_from _ _ _ 147 CB eq_refl). assert (L : length l = length (firstn (Z.to_nat (max_inserts v)) ps)) by (apply (f_equal (@length _)) in M; now rewrite map_length in M).
    unfold zlen. rewrite L, firstn_length, map_length. apply starts_at_count in SA. rewrite app_length in SA. cbn [length] in SA. rewrite outputs_kept in SA. lia.
  - destruct (mixer_view _ _ _ O V) as (a2 & b2 & CB2 & LV). destruct (subtree_spec _ _ _ _ _ _ _ O V) as (_ & X1 & _).
    destruct (cut_before_fun _ _ _ _ _ _ _ CB CB2) as [-> ->]. rewrite (events_from _ _ _ 236 CB eq_refl).
    assert (G : get_ie h1 t [236] = filter (fun c => id_of h c =? 236) b).
    { rewrite get_ie_1, LV. clear -X1. induction b as [|c b IH]; [reflexivity|]. cbn [filter]. destruct (mixer_id (id_of h c) || plugin_id (id_of h c)) eqn:Q; cbn [filter].
      - rewrite (extends_id _ _ _ X1). destruct (id_of h c =? 236); now rewrite IH.
      - rewrite IH. destruct (Z.eqb_spec (id_of h c) 236) as [E|]; [rewrite E in Q; discriminate|reflexivity]. }
    unfold mixer_len, count. rewrite G.
    assert (CT : contains h1 t 236 = match filter (fun c => id_of h c =? 236) b with [] => false | _ => true end).
    { rewrite <- G, get_ie_1. unfold contains. clear. induction (lst_of h1 t) as [|c m IH]; [reflexivity|]. cbn [existsb filter]. destruct (id_of h1 c =? 236); [reflexivity|exact IH]. }
    rewrite CT. destruct (filter (fun c => id_of h c =? 236) b) as [|c r]; [reflexivity|]. cbn [map]. unfold zlen. cbn [length]. now rewrite map_length.
Qed.
Print Assumptions C46_count.

(* The Output event at the end of an insert counts as the next insert's: insert number k + 1
   reads the (k+1)-th Output event of the project, and the first insert has none. *)
Theorem C46_output : forall en h h1 t v h2 l k x, ordered h 0 -> mixer h = (h1, t) -> mixer_iter h1 t v = (h2, l) -> nth_error l k = Some x ->
  ev_get en h2 (in_tree x) [147] =
    Ok match k with
       | O => VNone
       | S k => match nth_error (filter (fun e => e_id e =? 147) (events h 0)) k with Some e => e_val e | None => VNone end
       end.
Proof.
  intros en h h1 t v h2 l k x O V R K. destruct (mixer_spec _ _ _ _ _ _ O V R) as (a & b & ps & tail & CB & SA & X & M & _).
  assert (NP : nth_error (ps ++ [tail]) k = Some (lst_of h2 (in_tree x))).
  { assert (N : nth_error (map (fun x => lst_of h2 (in_tree x)) l) k = Some (lst_of h2 (in_tree x))) by now rewrite nth_error_map, K.
    rewrite M in N. assert (LK : (k < length (firstn (Z.to_nat (max_inserts v)) ps))%nat) by (apply nth_error_Some; congruence).
    rewrite firstn_length in LK. rewrite nth_error_app1 by lia. rewrite <- N. symmetry. rewrite <- (firstn_skipn (Z.to_nat (max_inserts v)) ps) at 2.
    rewrite nth_error_app1; [reflexivity|]. rewrite firstn_length. lia. }
  rewrite ev_get_one. f_equal. rewrite (events_extends _ _ _ X). destruct k as [|k].
  - assert (F : forallb (fun c => negb (id_of h c =? 147)) (lst_of h2 (in_tree x)) = true).
    { destruct SA as [_ P]. destruct (ps ++ [tail]) as [|p0 r]; [destruct P|]. cbn [nth_error] in NP. injection NP as <-. tauto. }
    clear -F. induction (lst_of h2 (in_tree x)) as [|c m IH]; [reflexivity|]. cbn [forallb] in F. apply andb_true_iff in F as [F1 F2]. cbn [map value_of].
    unfold id_of in F1. destruct (e_id (e_of h c) =? 147); [discriminate|now apply IH].
  - destruct (starts_at_nth _ _ _ _ SA _ _ NP) as (c & q & -> & N & _). rewrite outputs_kept in N. rewrite (events_from _ _ _ 147 CB eq_refl), nth_error_map, N.
    cbn [map value_of option_map]. assert (I : e_id (e_of h c) =? 147 = true).
    { apply nth_error_In in N. apply filter_In in N. tauto. }
    now rewrite I.
Qed.
Print Assumptions C46_output.

(* The parameters of an insert are the records with its number in the first parameters event
   of the mixer; the slots are the pieces of the insert between slot indexes (98) and have
   the records with the insert's and their own number.  Without records, iterating over the
   slots raises KeyError. *)
Theorem C46_params : forall h h1 t v h2 l k x, ordered h 0 -> mixer h = (h1, t) -> mixer_iter h1 t v = (h2, l) -> nth_error l k = Some x ->
  (filter (fun e => e_id e =? 225) (events h 0) = [] -> in_params x = None) /\
  forall e r, filter (fun e => e_id e =? 225) (events h 0) = e :: r ->
    (in_params x = None <-> forall y slot id, In y (items e) -> ~ addressed y (Z.of_nat k) slot id) /\
    forall p, in_params x = Some p -> exists i, p = PItems i (Z.of_nat k) /\ ev_of h i = e.
Proof.
  intros h h1 t v h2 l k x O V R K. destruct (mixer_spec _ _ _ _ _ _ O V R) as (a & b & ps & tail & CB & SA & X & M & P).
  destruct (P k x K) as [_ PX]. rewrite PX. rewrite (events_from _ _ _ 225 CB eq_refl). destruct (filter (fun c => id_of h c =? 225) b) as [|c r']; cbn [map].
  - split; [reflexivity|discriminate].
  - split; [discriminate|]. intros e r E. assert (e = e_of h c) by congruence. subst e. clear E r. split.
    + destruct (has_params (items (e_of h c)) (Z.of_nat k)) eqn:HP; split; try discriminate.
      * intros N. exfalso. apply has_params_spec in HP. destruct HP as (y & s & id & I & A). exact (N y s id I A).
      * intros _ y s id I A. assert (has_params (items (e_of h c)) (Z.of_nat k) = true) by (apply has_params_spec; eauto). congruence.
      * reflexivity.
    + intros p. destruct (has_params _ _); [|discriminate]. intros E. injection E as <-. exists (ref_of h c). split; reflexivity.
Qed.
Print Assumptions C46_params.

Theorem C46_slots : forall h x h' l ex, ordered h (in_tree x) -> insert_iter h x = (h', (l, ex)) ->
  (in_params x = None -> l = [] /\ ex = Some KeyError) /\
  forall e n, in_params x = Some (PItems e n) -> ex = None /\
    exists ps, cut_pieces (fun c => id_of h c =? 98) (lst_of h (in_tree x)) ps /\
      map (fun s => lst_of h' (sl_tree s)) l = map (filter (fun c => slot_id (id_of h c) || plugin_id (id_of h c))) ps /\
      forall k s, nth_error l k = Some s -> exists d, sl_params s = slot_params e d /\
        forall id, (forall j, last_at (slot_param n (Z.of_nat k) id) (items (ev_of h e)) j -> assoc_Z d id = Some j) /\
          ((forall y, In y (items (ev_of h e)) -> ~ slot_param n (Z.of_nat k) id y) -> assoc_Z d id = None).
Proof.
  intros h x h' l ex O E. unfold insert_iter in E. destruct (divide h (in_tree x) 98 _) as [hd ts] eqn:D. unfold divide in D.
  pose proof (new_trees_sub _ _ _ _ _ O (divide_subseq h 98 _ (lst_of h (in_tree x))) D) as MT. destruct (new_trees_spec _ _ _ _ _ D) as (X & _).
  destruct (divide_pieces h 98 (members SlotIDs ++ members PluginIDs) (lst_of h (in_tree x))) as (ps & C & DP). rewrite DP in MT.
  assert (hd = h' /\ slots_from h' (in_params x) 0 ts = (l, ex)) as [-> SF] by (split; congruence). clear E. split.
  - intros P. rewrite P, slots_none in SF. destruct ts as [|u ts]; [|split; congruence]. destruct ps; [destruct C as [_ []]|discriminate].
  - intros e n P. rewrite P in SF. destruct (slots_some h' e n ts 0) as (l' & E & M & Q). assert (l' = l) by congruence. subst l'. split; [congruence|].
    exists ps. split; [exact C|]. split.
    + rewrite <- (map_map sl_tree (lst_of h')), M, MT. apply map_ext. intros p. apply filter_ext. intros c. unfold keep. now rewrite mem_app, slot_ids, plugin_ids.
    + intros k s K. exists (slots_of (items (ev_of h' e)) n (0 + Z.of_nat k)). split; [now apply Q|]. rewrite Z.add_0_l.
      assert (EE : ev_of h' e = ev_of h e) by (destruct X as (A & _); unfold ev_of; now rewrite A). rewrite EE. intros id. exact (slot_from_spec n (Z.of_nat k) id _ 0 []).
Qed.
Print Assumptions C46_slots.

(* Two inserts; the second one has a record and a slot of its own. *)
Definition mixer_chunks : list chunk :=
  [(199, ver20); (64, [1; 0]); (203, title16); (236, [0; 0; 0; 0; 0; 0; 0; 0; 0; 0; 0; 0]); (203, title16); (98, [0; 0]); (147, [5; 0; 0; 0]);
   (236, [0; 0; 0; 0; 0; 0; 0; 0; 0; 0; 0; 0]); (98, [0; 0]); (201, title16); (98, [1; 0]); (203, title16); (147, [6; 0; 0; 0]);
   (236, [0; 0; 0; 0; 0; 0; 0; 0; 0; 0; 0; 0]); (225, [0; 0; 0; 0; 0; 31; 65; 0; 9; 0; 0; 0])].
Definition mixer_file : bytes := sample mixer_chunks.
Definition mixer_heap : heap := parsed (pr_events (load mixer_file)).
Definition mixer_h1 : heap := fst (mixer mixer_heap).
Definition mixer_v : flversion := FLV 20 8 3 None.
Definition mixer_h2 : heap := fst (mixer_iter mixer_h1 1 mixer_v).
Definition mixer_l : list insert_obj := snd (mixer_iter mixer_h1 1 mixer_v).
Example C46_case : is_bytes mixer_file /\ parse en0 mixer_file = Ok (load mixer_file) /\ ordered mixer_heap 0 /\ mixer mixer_heap = (mixer_h1, 1%nat) /\
  mixer_iter mixer_h1 1 mixer_v = (mixer_h2, mixer_l) /\ mixer_len mixer_h1 1 = Ok 3 /\
  map (fun x => map e_id (events mixer_h2 (in_tree x))) mixer_l = [[236; 203; 98]; [147; 236; 98; 201; 98; 203]] /\
  map in_iid mixer_l = [-1; 0] /\ map (fun x => ev_get en0 mixer_h2 (in_tree x) [147]) mixer_l = [Ok VNone; Ok (VInt 5)] /\
  map in_params mixer_l = [None; Some (PItems 14 1)] /\
  ordered mixer_h2 3 /\ (let '(h', (l, ex)) := insert_iter mixer_h2 (nth 1 mixer_l (InsertObj 0 0 None)) in
    ex = None /\ map (fun s => map e_id (events h' (sl_tree s))) l = [[98; 201]; [98; 203]] /\ map sl_params l = [PList; PSlotDict 14 [(0, 0%nat)]]).
Proof.
  destruct (sample_ok mixer_chunks ltac:(vm_compute; reflexivity)) as [B _]. split; [exact B|]. split; [vm_compute; reflexivity|].
  split; [apply parsed_ordered|]. split; [vm_compute; reflexivity|]. split; [vm_compute; reflexivity|]. split; [vm_compute; reflexivity|].
  split; [vm_compute; reflexivity|]. split; [vm_compute; reflexivity|]. split; [vm_compute; reflexivity|]. split; [vm_compute; reflexivity|].
  split; [vm_compute; repeat constructor|]. vm_compute. repeat split.
Qed.
