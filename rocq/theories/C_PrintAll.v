(* C85 what collections are printed as. *)
From Coq Require Import String ZArith List Bool Lia Arith.
From Verif Require Import M_Base M_Float M_Text M_Construct M_Structs M_Events M_Parse M_Tree M_Prop M_Project M_Items M_Collections M_Models M_Markers M_Api M_Print M_PrintAll.
From Verif Require Import S_Canon S_File S_Domain S_Tree S_Prop S_Project S_Items S_Collections S_Api.
From Verif Require Import P_Base P_Null P_Codec P_Payload P_File P_Special P_TreeBase P_Tree P_TreeEdit P_Prop P_Edit P_Project P_Items P_Patterns P_Views P_Rack P_Session P_Plugins P_Models P_Api.
From Verif Require Import C_Samples C_Dicts C_Patterns C_Rack C_Arrange C_Markers C_Mixer C_Plugins C_Api C_Objects.
Import ListNotations.
Local Open Scope string_scope.
Open Scope Z_scope.

Lemma value_in_events id l v : value_of id l = Some v -> exists e, In e l /\ e_id e = id /\ e_val e = v.
Proof.
  induction l as [|e l IH]; [discriminate|]. cbn [value_of]. destruct (Z.eqb_spec (e_id e) id) as [E|E]; intros H; [injection H as <-; exists e; split; [now left|auto]|].
  destruct (IH H) as (x & I & R). exists x. split; [now right|exact R].
Qed.
Lemma value_none id l : value_of id l = None -> forall e, In e l -> e_id e <> id.
Proof.
  induction l as [|e l IH]; intros H x I; [destruct I|]. cbn [value_of] in H. destruct (Z.eqb_spec (e_id e) id) as [E|E]; [discriminate|]. destruct I as [<-|I]; [exact E|now apply IH].
Qed.

Lemma nth_error_firstn_lt A : forall n (l : list A) i, (i < n)%nat -> nth_error (firstn n l) i = nth_error l i.
Proof. induction n as [|n IH]; intros [|x l] [|i] H; try lia; try reflexivity. cbn [firstn nth_error]. apply IH. lia. Qed.

(* a number announced is announced by an event of that class *)
Lemma announced_class h t zs z : forces 0 (events h t) = Some zs -> announced_in (events h t) z ->
  exists e, In e (map (e_of h) (labelled (mine h t zs) z)) /\ announces e.
Proof.
  intros F (e & I & A & N). apply In_nth_error in I as (k & K). pose proof (forces_length _ _ _ F) as LZ.
  assert (LK : (k < length (events h t))%nat) by (apply nth_error_Some; congruence).
  destruct (nth_error zs k) as [y|] eqn:Y; [|apply nth_error_None in Y; lia].
  assert (y = z).
  { apply (in_force_fun (events h t) k); [now apply forces_in_force with zs|]. apply announced with k e; [|exact K|exact N]. split.
    - exists e. split; [|exact A]. rewrite nth_error_firstn_lt by apply Nat.lt_succ_diag_r. exact K.
    - intros j x LJ X _. assert (j < length (firstn (S k) (events h t)))%nat by (apply nth_error_Some; congruence). rewrite firstn_length in H. lia. }
  subst y. unfold events in K. rewrite nth_error_map in K. destruct (nth_error (lst_of h t) k) as [c|] eqn:C; [|discriminate]. injection K as <-.
  exists (e_of h c). split; [|exact A]. apply in_map. apply labelled_in, mine_in. exists k. split; [exact C|]. split; [exact Y|]. rewrite <- pattern_ids_eq, A. reflexivity.
Qed.

Lemma class_number h t h' u zs z : extends h h' -> forces 0 (events h t) = Some zs -> lst_of h' u = labelled (mine h t zs) z ->
  (announced_in (events h t) z -> exists v, iid_get h' u = Ok v /\ number v z) /\
  (~ announced_in (events h t) z -> iid_get h' u = Err KeyError).
Proof.
  intros X F E. assert (EV : events h' u = map (e_of h) (labelled (mine h t zs) z)) by (rewrite (events_extends _ _ u X); now rewrite E).
  unfold iid_get. rewrite first_val_spec, EV. split.
  - intros A. destruct (announced_class _ _ _ _ F A) as (e & I & AE). destruct (value_of 65 _) as [v|] eqn:V.
    + exists v. split; [reflexivity|]. destruct (value_in_events _ _ _ V) as (x & IX & EX & <-). exact (label_announces _ _ _ _ F _ IX EX).
    + destruct (value_none _ _ V e I AE).
  - intros NA. destruct (value_of 65 _) as [v|] eqn:V; [|reflexivity]. exfalso. apply NA. destruct (value_in_events _ _ _ V) as (x & IX & EX & <-).
    exists x. split; [|split; [exact EX|exact (label_announces _ _ _ _ F _ IX EX)]].
    apply in_map_iff in IX as (c & <- & IC). apply labelled_in, mine_in in IC as (k & K & _ & _). unfold events. apply in_map. eapply nth_error_In; eauto.
Qed.

Lemma map_eq_forall2 A B C (f : A -> C) (g : B -> C) : forall l m, map f l = map g m -> Forall2 (fun a b => f a = g b) l m.
Proof. induction l as [|a l IH]; intros [|b m] H; try discriminate; constructor; cbn in H; [congruence|]. apply IH. congruence. Qed.

(* str(patterns) shows the numbers announced, each once; with pattern events before the first
   announcement and 0 not announced it raises KeyError. *)
Theorem C85_patterns : forall h t h' us, ordered h t -> patterns_iter h t = (h', Ok us) ->
  (early (events h t) /\ ~ announced_in (events h t) 0 -> snd (patterns_str h t) = Err KeyError) /\
  (~ early (events h t) \/ announced_in (events h t) 0 ->
   exists vs zs, snd (patterns_str h t) = Ok [Str (VInt (zlen us)); Lit " Patterns "; Rep (VList vs)] /\
     Forall2 number vs zs /\ NoDup zs /\ length zs = length us /\ forall z, In z zs <-> announced_in (events h t) z).
Proof.
  intros h t h' us O H. destruct (patterns_iter_spec _ _ _ _ O H) as (zs & F & X & M). set (ks := firsts (map snd (mine h t zs))) in *.
  pose proof (map_eq_forall2 _ _ _ _ _ _ _ M) as F2. clear M. unfold patterns_str. rewrite H. cbn [snd].
  assert (IK : forall z, In z ks <-> announced_in (events h t) z \/ (early (events h t) /\ z = 0)) by (intros z; unfold ks; rewrite firsts_in; now apply label_cases).
  split.
  - intros [E NA]. assert (Z0 : In 0 ks) by (apply IK; auto).
    assert (G : forall us ks, Forall2 (fun u z => lst_of h' u = labelled (mine h t zs) z) us ks -> In 0 ks -> (forall z, In z ks -> announced_in (events h t) z \/ z = 0) -> mapr (iid_get h') us = Err KeyError).
    { clear - X F NA. induction 1 as [|u z us ks E F2 IH]; intros I Q; [destruct I|]. cbn [mapr]. destruct (class_number _ _ _ _ _ _ X F E) as [C1 C2].
      destruct (Z.eq_dec z 0) as [->|NZ]; [now rewrite (C2 NA)|]. destruct (Q z (or_introl eq_refl)) as [A|]; [|contradiction]. destruct (C1 A) as (v & -> & _). cbn [bind].
      rewrite IH; [reflexivity| |intros y IY; apply Q; now right]. destruct I as [I|I]; [congruence|exact I]. }
    rewrite (G _ _ F2 Z0); [reflexivity|]. intros z I. apply IK in I as [A|[_ B]]; auto.
  - intros E. assert (ALL : forall z, In z ks <-> announced_in (events h t) z).
    { intros z. rewrite IK. split; [|auto]. intros [A|[B ->]]; [exact A|]. destruct E as [E|E]; [contradiction|exact E]. }
    assert (G : forall us ks, Forall2 (fun u z => lst_of h' u = labelled (mine h t zs) z) us ks -> (forall z, In z ks -> announced_in (events h t) z) ->
      exists vs, mapr (iid_get h') us = Ok vs /\ Forall2 number vs ks /\ length vs = length us).
    { clear - X F. induction 1 as [|u z us ks E F2 IH]; intros Q; [exists []; repeat split; constructor|]. cbn [mapr]. destruct (class_number _ _ _ _ _ _ X F E) as [C1 _].
      destruct (C1 (Q z (or_introl eq_refl))) as (v & -> & N). destruct IH as (vs & -> & FN & L); [intros y I; apply Q; now right|]. cbn [bind].
      exists (v :: vs). split; [reflexivity|]. split; [now constructor|]. cbn [length]. now rewrite L. }
    destruct (G _ _ F2 ltac:(intros z I; now apply ALL)) as (vs & MV & FN & L). exists vs, ks. rewrite MV. cbn [bind]. unfold zlen. rewrite L.
    split; [reflexivity|]. split; [exact FN|]. split; [apply firsts_nodup|]. split; [|exact ALL]. symmetry. clear - F2. induction F2; cbn [length]; congruence.
Qed.
Print Assumptions C85_patterns.

(* repr(channel rack) shows how many channels iterating yields; without any it raises. *)
Theorem C85_rack : forall h h1 t h2 cs, ordered h 0 -> channels h = (h1, t) -> rack_iter h1 t = (h2, (cs, None)) ->
  (forall e, In e (events h 0) -> e_id e = 64 -> e_val e <> VNone) ->
  if contains h1 t 64 then rack_repr h1 t = Ok [Lit "ChannelRack - "; Str (VInt (zlen cs)); Lit " channels"]
  else rack_repr h1 t = Err NoModelsFound.
Proof.
  intros h h1 t h2 cs O V R N. unfold rack_repr. pose proof (fun n => C45_len _ _ _ _ _ n O V R N) as L. unfold rack_len in *.
  destruct (contains h1 t 64); [|reflexivity]. cbn [bind]. destruct (L _ eq_refl) as [-> _]. reflexivity.
Qed.
Print Assumptions C85_rack.

Theorem C85_layer : forall en h t n, display_name en h t = Ok n ->
  layer_repr en h t = Ok [Lit "Layer"; Lit " (name="; Rep n; Lit ", iid="; Str (match value_of 64 (events h t) with Some v => v | None => VNone end);
                          Lit ", "; Str (VInt (zlen (filter (fun e => e_id e =? 94) (events h t)))); Lit " children)"].
Proof.
  intros en h t n D. unfold layer_repr, channel_repr. rewrite D, ev_get_one. cbn [bind removelast app].
  replace (layer_len h t) with (zlen (filter (fun e => e_id e =? 94) (events h t))); [destruct (value_of 64 (events h t)); reflexivity|].
  unfold layer_len, count, zlen. rewrite get_ie_1. unfold events. clear. f_equal. induction (lst_of h t) as [|c l IH]; [reflexivity|]. cbn [map filter]. unfold id_of at 1.
  destruct (e_id (e_of h c) =? 94); cbn [length]; now rewrite IH.
Qed.
Print Assumptions C85_layer.

(* repr() of an arrangement shows as many markers as the most frequent of their four kinds of
   events has, and as many tracks as there is track data (1 without any); it raises what going
   through the tracks raises. *)
Theorem C85_arrangement : forall en evs h t v cs ps n h1 us h2 l ex, evs <> [] -> session evs h -> (t < nt h)%nat -> max_tracks v = Ok n ->
  timemarkers h t = (h1, us) -> tracks_iter h1 t v cs ps = (h2, Ok (l, ex)) ->
  let times id := length (filter (fun e => e_id e =? id) (events h t)) in
  let or_none o := match o with Some v => v | None => VNone end in
  arrangement_repr en h t v cs ps = (h2, match ex with
    | Some x => Err x
    | None => Ok [Lit "Arrangement(iid="; Str (or_none (value_of 99 (events h t))); Lit ", name="; Rep (or_none (value_of 241 (events h t))); Lit ", ";
                  Str (VInt (Z.of_nat (list_max (map times [33; 34; 148; 205])))); Lit " timemarkers, "; Str (VInt (Z.of_nat (Nat.max 1 (times 238)))); Lit " tracks)"]
    end).
Proof.
  intros en evs h t v cs ps n h1 us h2 l ex NE S L N TM TR times or_none. destruct (markers_spec evs h t h1 us NE S L TM) as (X & S1 & LN & _).
  assert (L1 : (t < nt h1)%nat) by (destruct X as (_ & _ & (m & E)); unfold nt in *; rewrite E, app_length; lia).
  destruct (C44_tracks _ _ _ _ _ _ _ _ _ (session_order _ _ _ NE S1 L1) N TR) as [(pcs & C & _ & LL) _].
  assert (TI : forall id, times id = length (at_id h t id)) by (intros id; unfold times; now rewrite at_events, map_length).
  assert (IX : forall c, id_of h1 c = id_of h c) by (intros c; now apply extends_id).
  assert (LX : lst_of h1 t = lst_of h t) by (unfold lst_of; now rewrite (extends_tree _ _ _ X L)).
  assert (NU : length us = list_max (map times [33; 34; 148; 205])) by (rewrite LN; f_equal; apply map_ext; intros id; now rewrite TI).
  unfold arrangement_repr. rewrite !ev_get_one, TM, TR. destruct ex as [x|]; [reflexivity|].
  assert (NL : length l = Nat.max 1 (times 238)).
  { rewrite (LL eq_refl), (cut_pieces_count _ _ _ _ C), LX, TI, at_cells, map_length. do 2 f_equal. apply filter_ext. intros c. now rewrite IX. }
  unfold zlen. now rewrite NU, NL.
Qed.
Print Assumptions C85_arrangement.

(* str() of the mixer counts the flag events (236) of the whole project and raises without any;
   this need not be the number of inserts that iterating yields. *)
Theorem C85_mixer : forall h h1 t, ordered h 0 -> mixer h = (h1, t) ->
  mixer_str h1 t = match filter (fun e => e_id e =? 236) (events h 0) with
                   | [] => Err NoModelsFound
                   | fs => Ok [Lit "Mixer: "; Str (VInt (zlen fs)); Lit " inserts"]
                   end.
Proof.
  intros h h1 t O E. destruct (mixer_iter h1 t (FLV 20 8 3 None)) as [h2 l] eqn:M. destruct (C46_count _ _ _ _ _ _ O E M) as (_ & LN).
  unfold mixer_str. rewrite LN. destruct (filter _ _); reflexivity.
Qed.
Print Assumptions C85_mixer.

(* repr() of the inserts of a mixer: the name among the events of the insert, and its place,
   the first being -1. *)
Theorem C85_insert : forall en h h1 t v h2 l k x, ordered h 0 -> mixer h = (h1, t) -> mixer_iter h1 t v = (h2, l) -> nth_error l k = Some x ->
  insert_repr en h2 x = Ok [Lit "Insert(name="; Rep (match value_of 204 (events h2 (in_tree x)) with Some n => n | None => VNone end); Lit ", iid="; Str (VInt (Z.of_nat k - 1)); Lit ")"].
Proof.
  intros en h h1 t v h2 l k x O E M K. destruct (C46_inserts _ _ _ _ _ _ O E M) as (_ & _ & a & b & ps & tail & _ & _ & _ & I).
  unfold insert_repr. rewrite ev_get_one, (I k x K). reflexivity.
Qed.
Print Assumptions C85_insert.

Lemma loop_new_text en : forall f st bs es, text_state st -> parse_loop f en st bs = Ok es -> forall e, In e es -> lookup_type (e_id e) (enum_tables en) = None ->
  e_id e = 231 -> exists s, e_val e = VStr s.
Proof.
  induction f as [|f IH]; intros st bs es T H e I NL B.
  - destruct bs; [injection H as <-; destruct I|discriminate].
  - destruct bs as [|b0 bs0]; [injection H as <-; destruct I|]. cbn [parse_loop] in H.
    destruct (read_chunk (b0 :: bs0)) as [[[id p] rest]|] eqn:R; [|discriminate]. cbn [bind] in H.
    inv_bind H. destruct x as [k st']. inv_bind H. inv_bind H. injection H as <-. destruct (mk_event_kind _ _ _ _ _ E0) as [K ID].
    unfold classify in E. inv_bind E.
    assert (TS : forall k, x1 = Some k -> k = KUnicode \/ k = KAscii).
    { destruct (id =? 199); [|injection E2 as <-; exact T]. inv_bind E2. injection E2 as <-. intros kk Q. injection Q as <-. destruct (ge_11_5 x2); auto. }
    assert (TS' : text_state st').
    { intros kk Q. apply TS. rewrite <- Q. clear - E. destruct (lookup_type id (enum_tables en)); [injection E as _ <-; reflexivity|].
      destruct (id <? 64); [injection E as _ <-; reflexivity|]. destruct (id <? 128); [injection E as _ <-; reflexivity|]. destruct (id <? 192); [injection E as _ <-; reflexivity|].
      destruct ((id <? 208) || mem_Z id new_text_ids).
      - destruct x1; [|discriminate]. destruct (id =? 201); [inv_bind E; injection E as _ <-; reflexivity|injection E as _ <-; reflexivity].
      - destruct (id =? 213); [destruct (ps_plug st); injection E as _ <-; reflexivity|injection E as _ <-; reflexivity]. }
    destruct I as [<-|I]; [|exact (IH _ _ _ TS' E1 e I NL B)]. rewrite ID in NL, B. rewrite NL in E.
    rewrite B in E. change (231 <? 64) with false in E. change (231 <? 128) with false in E. change (231 <? 192) with false in E. change ((231 <? 208) || mem_Z 231 new_text_ids) with true in E. change (231 =? 201) with false in E. cbv iota in E.
    destruct x1 as [kk|]; [|discriminate]. apply (text_value en k id p x); [|exact E0]. apply TS. f_equal.
    congruence.
Qed.
Lemma text_231 en f p e : parse en f = Ok p -> In e (pr_events p) -> e_id e = 231 -> exists s, e_val e = VStr s.
Proof.
  intros H. unfold parse in H. repeat match type of H with (if ?c then _ else _) = _ => destruct c eqn:?; try discriminate end.
  cbv zeta in H. inv_bind H. injection H as <-. cbn [pr_events]. intros I J. apply (loop_new_text en _ (PState None None) _ _ ltac:(intros k; discriminate) E e I); [|exact J]. rewrite J.
  unfold enum_tables. destruct (en_ctrl en); reflexivity.
Qed.

(* str() of a group of channels: unnamed only if there is no event for the name, an empty name
   is shown; the name of a loaded group is a text. *)
Theorem C85_group : forall en f p h t, is_bytes f -> parse en f = Ok p -> views (parsed (pr_events p)) h -> (t < nt h)%nat ->
  match value_of 231 (events h t) with
  | None => group_str en h t = Ok [Lit "Unnamed display group"]
  | Some n => exists s, n = VStr s /\ group_str en h t = Ok [Lit "Display group "; Str (VStr s)]
  end.
Proof.
  intros en f p h t B P V L. unfold group_str. rewrite ev_get_one. destruct (value_of 231 (events h t)) as [n|] eqn:E; [|reflexivity].
  destruct (loaded_value _ _ _ _ _ _ _ B P V L E) as (e & I & _ & EI & <-). destruct (text_231 _ _ _ _ P I EI) as (s & ->). exists s. split; reflexivity.
Qed.
Print Assumptions C85_group.

(* repr() of a track never fails in a project that loads: it shows the name, the number that the
   first track data has (None without track data) and how many items are on it. *)
Theorem C85_track : forall en f p h x, is_bytes f -> parse en f = Ok p -> views (parsed (pr_events p)) h -> (tr_tree x < nt h)%nat ->
  exists i, track_repr en h x = Ok [Lit "Track(name="; Str (match value_of 239 (events h (tr_tree x)) with Some n => n | None => VNone end); Lit ", iid="; Str i; Lit ", ";
      Str (VInt (Z.of_nat (length (tr_items x)))); Lit " items)"] /\
    match value_of 238 (events h (tr_tree x)) with
    | None => i = VNone
    | Some v => exists d, v = VDict d /\ dget d "iid" = Some i
    end.
Proof.
  intros en f p h x B P V L.
  destruct (C76_read en f p h "Track" HTree "iid" (MkProp [238] VNone false (PStruct "iid")) (EvModel (tr_tree x)) B P V) as (i & G & D & _);
    [vm_compute; tauto|vm_compute; tauto|intros I; vm_compute in I; intuition discriminate|now constructor|].
  exists i. split; [unfold track_repr; rewrite ev_get_one, G; reflexivity|]. destruct (value_of 238 (events h (tr_tree x))) as [v|] eqn:E.
  - pose proof (ev_get_one en h (tr_tree x) 238) as W. rewrite E in W. unfold ev_get, ev_prop, prop_get in W. unfold prop_get in G. cbn [p_ids p_kind p_default] in W, G.
    destruct (get_event h [238] (EvModel (tr_tree x))) as [g|] eqn:GE; [|discriminate]. cbn [bind] in W, G.
    destruct g as [[r|r j]|]; [|cbn [target_read] in W; discriminate|].
    + cbn [target_read tg_get] in W, G. injection W as W. unfold struct_get in G. rewrite W in G. destruct (is_struct_kind _); [|discriminate].
      destruct v; try discriminate. unfold dindex in G. destruct (dget d "iid") as [y|] eqn:DG; [|discriminate]. injection G as <-. eauto.
    + exfalso. destruct (value_of_chosen _ _ _ E) as (k & e & C & N & _). destruct (get_event_spec h (tr_tree x) [238] ltac:(discriminate)) as [A Z0].
      destruct (A k C) as (c & _ & GE'). congruence.
  - apply D. intros [J|(e & I & [J|[]])]; [discriminate|]. exact (value_none _ _ E e I (eq_sym J)).
Qed.
Print Assumptions C85_track.

Definition all_file : bytes := sample [(199, ver20); (64, [0; 0]); (21, [3]); (94, [1; 0]); (94, [0; 0]); (64, [1; 0]); (65, [2; 0]); (150, [1; 2; 3; 0]); (65, [5; 0]); (65, [2; 0])].
Example C85_all_case : exists p, parse en0 all_file = Ok p /\
  snd (patterns_str (parsed (pr_events p)) 0) = Ok [Str (VInt 2); Lit " Patterns "; Rep (VList [VInt 2; VInt 5])] /\
  (let '(h, t) := channels (parsed (pr_events p)) in rack_repr h t = Ok [Lit "ChannelRack - "; Str (VInt 2); Lit " channels"]) /\
  layer_repr en0 (parsed (pr_events p)) 0 = Ok [Lit "Layer"; Lit " (name="; Rep VNone; Lit ", iid="; Str (VInt 0); Lit ", "; Str (VInt 2); Lit " children)"] /\
  (let h := parsed [Event 65 KU16 2 false (VInt 3)] in rack_repr h 0 = Err NoModelsFound).
Proof.
  exists (load all_file). split; [vm_compute; reflexivity|]. split; [vm_compute; reflexivity|]. split; [vm_compute; reflexivity|]. split; vm_compute; reflexivity.
Qed.
(* pattern events before any number: iterating yields two patterns, printing them raises *)
Example C85_early_case : exists p us, parse en0 (sample [(199, ver20); (150, [1; 2; 3; 0]); (65, [5; 0]); (64, [0; 0])]) = Ok p /\
  snd (patterns_iter (parsed (pr_events p)) 0) = Ok us /\ length us = 2%nat /\ snd (patterns_str (parsed (pr_events p)) 0) = Err KeyError.
Proof.
  eexists (load (sample [(199, ver20); (150, [1; 2; 3; 0]); (65, [5; 0]); (64, [0; 0])])), _. split; [vm_compute; reflexivity|]. split; [vm_compute; reflexivity|]. split; vm_compute; reflexivity.
Qed.
(* the second arrangement of the file of C44: it has two tracks and one marker *)
Example C85_arrangement_case : session (pr_events (load arr_file)) arr_h2 /\ (3 < nt arr_h2)%nat /\ max_tracks (FLV 20 8 3 None) = Ok 500 /\
  snd (arrangement_repr en0 arr_h2 3 (FLV 20 8 3 None) arr_cs [(VInt 1, 7%nat)]) =
  Ok [Lit "Arrangement(iid="; Str (VInt 1); Lit ", name="; Rep VNone; Lit ", "; Str (VInt 1); Lit " timemarkers, "; Str (VInt 2); Lit " tracks)"].
Proof.
  split; [|split; [vm_compute; repeat constructor|split; vm_compute; reflexivity]].
  apply ses_look with arr_h1.
  - apply ses_look with arr_heap; [constructor|]. unfold arr_h1, arrangements. apply op_subtree. vm_compute. repeat constructor.
  - replace arr_h2 with (fst (subtrees arr_h1 1 arrs_sel false 2)) by (vm_compute; reflexivity). apply op_subtrees. vm_compute. repeat constructor.
Qed.
(* the mixer of C46: three flag events, but two inserts; and groups with and without a name *)
Example C85_mixer_case : mixer_str mixer_h1 1 = Ok [Lit "Mixer: "; Str (VInt 3); Lit " inserts"] /\ length mixer_l = 2%nat /\
  map (insert_repr en0 mixer_h2) mixer_l = map (fun k => Ok [Lit "Insert(name="; Rep VNone; Lit ", iid="; Str (VInt k); Lit ")"]) [-1; 0] /\
  (let h := parsed (pr_events (load (sample [(199, ver20); (64, [0; 0]); (231, [65; 0; 0; 0])]))) in group_str en0 h 0 = Ok [Lit "Display group "; Str (VStr [65])]) /\
  group_str en0 mixer_h1 0 = Ok [Lit "Unnamed display group"].
Proof. vm_compute. repeat split. Qed.
(* the tracks of the second arrangement of the file of C44 *)
Example C85_track_case : match arr_tracks with
  | (h, Ok (l, None)) => map (track_repr en0 h) l
  | _ => []
  end = [Ok [Lit "Track(name="; Str (VStr [72; 105; 128521]); Lit ", iid="; Str (VInt 1); Lit ", "; Str (VInt 2); Lit " items)"];
         Ok [Lit "Track(name="; Str VNone; Lit ", iid="; Str (VInt 2); Lit ", "; Str (VInt 1); Lit " items)"]].
Proof. vm_compute. reflexivity. Qed.
