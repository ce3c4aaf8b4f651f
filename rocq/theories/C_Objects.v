(* C77 the plugin of a channel or slot; C78 the channels by class, their names, whether
   they are zipped; the number of slots of an insert. *)
From Coq Require Import String ZArith List Bool Lia Arith.
From Verif Require Import M_Base M_Float M_Text M_Construct M_Structs M_Events M_Parse M_Tree M_Prop M_Project M_Items M_Collections M_Models M_Api.
From Verif Require Import S_Canon S_File S_Domain S_Tree S_Prop S_Project S_Items S_Collections S_Api.
From Verif Require Import P_Base P_Codec P_Payload P_File P_Special P_TreeBase P_Tree P_TreeEdit P_Prop P_Edit P_Session P_Project P_Items P_Patterns P_Rack P_Views P_Plugins P_Api P_Nested.
From Verif Require Import C_Samples C_Mixer C_Plugins C_Api.
Import ListNotations.
Open Scope Z_scope.

(* ------------------------------------------------------------------------- C77 *)

(* the name in force *)
Definition named_by (o : option pystr) (es : list event) : option pystr :=
  fold_left (fun o e => if e_id e =? 201 then match e_val e with VStr s => Some s | _ => None end else o) es o.
Lemma loop_plugins en : forall f st bs es, parse_loop f en st bs = Ok es -> forall j e, nth_error es j = Some e -> e_id e = 213 ->
  e_kind e = match named_by (ps_plug st) (firstn j es) with Some s => plugin_class s | None => KUnknown end.
Proof.
  induction f as [|f IH]; intros st bs es H j e N I.
  - destruct bs; [injection H as <-; destruct j; discriminate|discriminate].
  - destruct bs as [|b0 bs0]; [injection H as <-; destruct j; discriminate|]. cbn [parse_loop] in H.
    destruct (read_chunk (b0 :: bs0)) as [[[id p] rest]|] eqn:R; [|discriminate]. cbn [bind] in H.
    inv_bind H. destruct x as [k st']. inv_bind H. inv_bind H. injection H as <-. destruct (mk_event_kind _ _ _ _ _ E0) as [K ID].
    destruct j as [|j].
    + cbn [nth_error] in N. injection N as <-. rewrite K. rewrite ID in I. rewrite I in E. cbn [firstn]. unfold named_by. cbn [fold_left].
      unfold classify in E. change (213 =? 199) with false in E. cbn [bind] in E.
      assert (L : lookup_type 213 (enum_tables en) = None) by (unfold enum_tables; destruct (en_ctrl en); reflexivity). rewrite L in E.
      change (213 <? 64) with false in E. change (213 <? 128) with false in E. change (213 <? 192) with false in E.
      change ((213 <? 208) || mem_Z 213 new_text_ids) with false in E. change (213 =? 213) with true in E. cbn iota in E.
      destruct (ps_plug st) as [n|]; injection E as <- _; [apply event_by_name|reflexivity].
    + cbn [nth_error] in N. rewrite (IH _ _ _ E1 j e N I). cbn [firstn]. unfold named_by. cbn [fold_left]. rewrite ID.
      assert (X : ps_plug st' = if id =? 201 then match e_val x with VStr s => Some s | _ => None end else ps_plug st); [|now rewrite X].
      clear - E E0. unfold classify in E. inv_bind E. destruct (Z.eqb_spec id 201) as [->|NE].
      * assert (L : lookup_type 201 (enum_tables en) = None) by (unfold enum_tables; destruct (en_ctrl en); reflexivity). rewrite L in E.
        change (201 <? 64) with false in E. change (201 <? 128) with false in E. change (201 <? 192) with false in E.
        change ((201 <? 208) || mem_Z 201 new_text_ids) with true in E. change (201 =? 201) with true in E. cbn iota in E.
        destruct x0 as [kk|]; [|discriminate]. inv_bind E. injection E as <- <-. cbn [ps_plug]. rewrite E2 in E0. injection E0 as ->. reflexivity.
      * destruct (lookup_type id (enum_tables en)); [injection E as _ <-; reflexivity|].
        repeat match type of E with (if ?c then _ else _) = _ => destruct c end; try (injection E as _ <-; reflexivity);
          try (destruct x0; [injection E as _ <-; reflexivity|discriminate]); destruct (ps_plug st) eqn:PP; injection E as _ <-; cbn [ps_plug]; congruence.
Qed.
Lemma parse_plugins en f p j e : parse en f = Ok p -> nth_error (pr_events p) j = Some e -> e_id e = 213 ->
  e_kind e = match named_by None (firstn j (pr_events p)) with Some s => plugin_class s | None => KUnknown end.
Proof.
  intros H. unfold parse in H. repeat match type of H with (if ?c then _ else _) = _ => destruct c eqn:?; try discriminate end.
  cbv zeta in H. inv_bind H. injection H as <-. cbn [pr_events]. exact (loop_plugins en _ _ _ _ E j e).
Qed.
Lemma named_last : forall es o i x, last_at (fun x => e_id x = 201) es i -> nth_error es i = Some x ->
  named_by o es = match e_val x with VStr s => Some s | _ => None end.
Proof.
  unfold named_by. induction es as [|e es IH]; intros o i x [(y & N & Y) A] NX; [destruct i; discriminate|]. cbn [fold_left].
  destruct i as [|i].
  - cbn [nth_error] in *. injection NX as <-. assert (y = e) by congruence. subst y. rewrite Y. change (201 =? 201) with true. cbn iota.
    assert (B : forall l o, (forall j z, nth_error l j = Some z -> e_id z <> 201) ->
      fold_left (fun o e => if e_id e =? 201 then match e_val e with VStr s => Some s | _ => None end else o) l o = o).
    { clear. induction l as [|z l IH]; intros o H; [reflexivity|]. cbn [fold_left]. pose proof (H 0%nat z eq_refl). replace (e_id z =? 201) with false by lia. apply IH. intros j w J. exact (H (S j) w J). }
    apply B. intros j z J. exact (A (S j) z ltac:(lia) J).
  - cbn [nth_error] in *. apply (IH _ i x); [|exact NX]. split; [exists y; split; assumption|]. intros j z L J. exact (A (S j) z ltac:(lia) J).
Qed.
Lemma named_none : forall es o, (forall x, In x es -> e_id x <> 201) -> named_by o es = o.
Proof.
  unfold named_by. induction es as [|e es IH]; intros o H; [reflexivity|]. cbn [fold_left]. pose proof (H e (or_introl eq_refl)). replace (e_id e =? 201) with false by lia.
  apply IH. intros x I. apply H. now right.
Qed.

(* Plugin data are read as those of the plugin named by the last name event (201) before
   them - of whatever channel or slot -, and as opaque bytes without one, or when the
   name is not one of the thirteen known. *)
Theorem C77_class : forall en f p j e, parse en f = Ok p -> nth_error (pr_events p) j = Some e -> e_id e = 213 ->
  (forall i x s, last_at (fun x => e_id x = 201) (firstn j (pr_events p)) i -> nth_error (firstn j (pr_events p)) i = Some x -> e_val x = VStr s ->
     e_kind e = plugin_class s) /\
  ((forall x, In x (firstn j (pr_events p)) -> e_id x <> 201) -> e_kind e = KUnknown).
Proof.
  intros en f p j e H N I. pose proof (parse_plugins _ _ _ _ _ H N I) as K. split.
  - intros i x s L NX V. now rewrite K, (named_last _ None _ _ L NX), V.
  - intros A. now rewrite K, (named_none _ None A).
Qed.
Print Assumptions C77_class.

Lemma kind_eqb_spec a b : kind_eqb a b = true <-> a = b.
Proof. unfold kind_eqb. match goal with |- (if ?x then _ else _) = _ <-> _ => destruct x end; split; congruence. Qed.

(* The plugin of a channel or slot: None without data; for opaque data an object with the
   wrapper's options only; for data of a plugin the class lists, an object of that plugin
   over the wrapper and data events; None for any other plugin. *)
Theorem C77_plugin : forall en f p h t types h' o, is_bytes f -> parse en f = Ok p -> views (parsed (pr_events p)) h -> (t < nt h)%nat ->
  plugin_get h t types = (h', o) ->
  match o with
  | None => h' = h /\ ((forall e, In e (events h t) -> e_id e <> 213) \/
      exists j e, chosen [213] (events h t) (Some j) /\ nth_error (events h t) j = Some e /\ e_kind e <> KUnknown /\ ~ In (e_kind e) types)
  | Some (k, u) => views (parsed (pr_events p)) h' /\ (u < nt h')%nat /\ events h' t = events h t /\
      events h' u = filter (fun e => (e_id e =? 212) || (e_id e =? 213)) (events h t) /\
      exists j e, chosen [213] (events h t) (Some j) /\ nth_error (events h t) j = Some e /\
        match k with
        | None => e_kind e = KUnknown
        | Some k => e_kind e = k /\ In k types /\ k <> KUnknown /\ at_home h' (HPlugin k) (EvModel u)
        end
  end.
Proof.
  intros en f p h t types h' o B P V L E. pose proof (load_made _ _ _ _ B P V) as (NE & _ & _).
  destruct (views_synced _ _ NE V) as (AS & _). pose proof (synced_ordered _ _ (AS t L)) as O.
  unfold plugin_get in E. pose proof (found h t [213] ltac:(discriminate)) as FD. cbn [get_event] in FD. rewrite first_of_1 in FD.
  assert (VIEW : forall h' u, plugin_view h t = (h', u) -> views (parsed (pr_events p)) h' /\ (u < nt h')%nat /\ events h' t = events h t /\
      events h' u = filter (fun e => (e_id e =? 212) || (e_id e =? 213)) (events h t)).
  { intros h2 u Q. change (plugin_view h t) with (nested h t [212; 213]) in Q. destruct (nested_spec _ _ _ _ _ O L Q) as (EU & X & NT & LU & EV & _).
    split. { eapply views_more; [exact V|]. replace h2 with (fst (nested h t [212; 213])) by now rewrite Q. now apply op_subtree. }
    split; [lia|]. split; [unfold events, lst_of; rewrite (extends_tree _ _ _ X L); apply map_ext; intros c; now apply extends_e|].
    rewrite EV. apply filter_ext. intros e. cbn [mem_Z existsb]. now rewrite orb_false_r. }
  destruct (get_ie h t [213]) as [|c r] eqn:G.
  - injection E as <- <-. split; [reflexivity|]. left. destruct FD as [(k & c & _ & _ & X & _)|[C _]]; [discriminate|]. inversion C as [|H0]; subst. intros e I J. exact (H0 e I (or_introl (eq_sym J))).
  - destruct FD as [(k & c' & CH & NL & X & NV & I)|[_ X]]; [|discriminate]. cbn [option_map] in X.
    assert (EC : e_of h c = ev_of h (ref_of h c')) by (rewrite e_of_ref; congruence). rewrite EC in E.
    assert (AT : forall h2 u, events h2 u = filter (fun e => (e_id e =? 212) || (e_id e =? 213)) (events h t) -> (u < nt h2)%nat ->
      at_home h2 (HPlugin (e_kind (ev_of h (ref_of h c')))) (EvModel u)).
    { intros h2 u EV LU. constructor; [exact LU|]. intros j e CJ NJ. rewrite EV in CJ, NJ.
      apply P_Project.chosen_one in CJ. destruct CJ as (e0 & NJ' & EI & BF). rewrite NJ in NJ'. injection NJ' as <-.
      apply P_Project.chosen_one in CH. destruct CH as (e1 & NK & EI1 & BF1). rewrite NV in NK. injection NK as <-.
      assert (Q : hd_error (filter (fun e => e_id e =? 213) (filter (fun e => (e_id e =? 212) || (e_id e =? 213)) (events h t))) = Some e).
      { clear -NJ EI BF. revert j NJ BF. generalize (filter (fun e0 => (e_id e0 =? 212) || (e_id e0 =? 213)) (events h t)). induction l as [|x l IH]; intros [|j] NJ BF; try discriminate.
        - injection NJ as ->. cbn [filter]. rewrite EI. reflexivity.
        - cbn [filter]. pose proof (BF 0%nat x ltac:(lia) eq_refl). replace (e_id x =? 213) with false by lia. apply (IH j NJ). intros i y Li Ni. exact (BF (S i) y ltac:(lia) Ni). }
      assert (Q1 : hd_error (filter (fun e => e_id e =? 213) (events h t)) = Some (ev_of h (ref_of h c'))).
      { clear -NV EI1 BF1. revert k NV BF1. generalize (events h t). induction l as [|x l IH]; intros [|j] NJ BF; try discriminate.
        - cbn [nth_error] in NJ. injection NJ as ->. cbn [filter]. rewrite EI1. reflexivity.
        - cbn [filter]. pose proof (BF 0%nat x ltac:(lia) eq_refl). replace (e_id x =? 213) with false by lia. apply (IH j NJ). intros i y Li Ni. exact (BF (S i) y ltac:(lia) Ni). }
      rewrite filter_filter in Q by (intros x HX; rewrite HX; apply orb_true_r). congruence. }
    destruct (plugin_view h t) as [hv uv] eqn:PV. destruct (VIEW hv uv eq_refl) as (W1 & W2 & W3 & W4).
    set (e := ev_of h (ref_of h c')) in *.
    assert (U : e_kind e = KUnknown \/ e_kind e <> KUnknown) by (destruct (e_kind e); try (right; discriminate); now left).
    destruct U as [U|U].
    + rewrite U in E. injection E as <- <-. split; [exact W1|]. split; [exact W2|]. split; [exact W3|]. split; [exact W4|]. exists k, e. auto.
    + assert (E' : (if existsb (kind_eqb (e_kind e)) types then (hv, Some (Some (e_kind e), uv)) else (h, None)) = (h', o)) by (destruct (e_kind e); try exact E; congruence).
      destruct (existsb (kind_eqb (e_kind e)) types) eqn:X2; injection E' as <- <-.
      * split; [exact W1|]. split; [exact W2|]. split; [exact W3|]. split; [exact W4|]. exists k, e. split; [exact CH|]. split; [exact NV|]. split; [reflexivity|].
        split; [|split; [exact U|exact (AT hv uv W4 W2)]]. apply existsb_exists in X2. destruct X2 as (y & J & Q). apply kind_eqb_spec in Q. now subst.
      * split; [reflexivity|]. right. exists k, e. split; [exact CH|]. split; [exact NV|]. split; [exact U|]. intros J.
        assert (existsb (kind_eqb (e_kind e)) types = true) by (apply existsb_exists; exists (e_kind e); split; [exact J|now apply kind_eqb_spec]). congruence.
Qed.
Print Assumptions C77_plugin.

(* The data a project can hold are those of plugins known as instruments or as effects,
   VST plugins being known as both. *)
Theorem C77_known : forall en f p e, parse en f = Ok p -> In e (pr_events p) -> e_id e = 213 ->
  e_kind e = KUnknown \/ In (e_kind e) instrument_types \/ In (e_kind e) effect_types.
Proof.
  intros en f p e H I J. destruct (In_nth_error _ _ I) as [j N]. rewrite (parse_plugins _ _ _ _ _ H N J).
  destruct (named_by _ _) as [s|]; [|now left]. unfold plugin_class. match goal with |- context [find ?g ?l] => destruct (find g l) as [[n k]|] eqn:F; [|now left] end.
  apply find_some in F. destruct F as [F _]. right. cbn [In] in F.
  repeat (destruct F as [F|F]; [injection F as _ <-; cbn [instrument_types effect_types In]; tauto|]). destruct F.
Qed.
Print Assumptions C77_known.

(* ------------------------------------------------------------------------- C78 *)

(* The four lists of the rack hold its channels of that class, in its order, each channel
   in at most one of them. *)
Definition plain (l : list chan) : nat := length (filter (fun x => match ch_class x with CChannel => true | _ => false end) l).
Theorem C78_classes : forall cs x,
  (forall c, snd (channels_of c (cs, x)) = x /\ subseq (fst (channels_of c (cs, x))) cs /\
     forall y, In y (fst (channels_of c (cs, x))) <-> In y cs /\ ch_class y = c) /\
  (length (fst (channels_of CAutomation (cs, x))) + length (fst (channels_of CInstrument (cs, x))) + length (fst (channels_of CLayer (cs, x)))
    + length (fst (channels_of CSampler (cs, x))) + plain cs = length cs)%nat.
Proof.
  intros cs x. split.
  - intros c. unfold channels_of. cbn [fst snd]. split; [reflexivity|]. split.
    + induction cs as [|y cs IH]; [constructor|]. cbn [filter]. destruct (class_eqb (ch_class y) c); now constructor.
    + intros y. rewrite filter_In. assert (Q : class_eqb (ch_class y) c = true <-> ch_class y = c) by (destruct (ch_class y), c; cbn [class_eqb]; split; congruence). now rewrite Q.
  - unfold channels_of, plain. cbn [fst]. induction cs as [|y cs IH]; [reflexivity|]. cbn [filter]. destruct (ch_class y); cbn [class_eqb length]; lia.
Qed.
Print Assumptions C78_classes.

(* loaded texts are texts *)
Definition text_state (st : pstate) : Prop := forall k, ps_str st = Some k -> k = KUnicode \/ k = KAscii.
Lemma text_value en k id b e : k = KUnicode \/ k = KAscii -> mk_event en k id b = Ok e -> exists s, e_val e = VStr s.
Proof.
  intros K M. destruct (mk_event_inv _ _ _ _ _ M) as (v & r & X & EE & _). assert (EV : e_val e = v) by now rewrite EE. rewrite EV. clear EE EV M.
  assert (T : forall dec enc cx b v r, cparse (text_con dec enc) cx b = Ok (v, r) -> exists s, v = VStr s).
  { clear. intros dec enc cx b v r X. unfold text_con in X. cbn [Adapter GreedyString GreedyBytes cparse] in X. inv_bind X. destruct x as [w r']. inv_bind X. injection X as <- <-.
    destruct w; try discriminate. injection E0 as <-. eauto. }
  destruct K as [->| ->]; cbn [kcon] in X; exact (T _ _ _ _ _ _ X).
Qed.
Lemma loop_text en : forall f st bs es, text_state st -> parse_loop f en st bs = Ok es -> forall e, In e es -> lookup_type (e_id e) (enum_tables en) = None ->
  192 <= e_id e < 208 -> exists s, e_val e = VStr s.
Proof.
  induction f as [|f IH]; intros st bs es T H e I NL B.
  - destruct bs; [injection H as <-; destruct I|discriminate].
  - destruct bs as [|b0 bs0]; [injection H as <-; destruct I|]. cbn [parse_loop] in H.
    destruct (read_chunk (b0 :: bs0)) as [[[id p] rest]|] eqn:R; [|discriminate]. cbn [bind] in H.
    inv_bind H. destruct x as [k st']. inv_bind H. inv_bind H. injection H as <-. destruct (mk_event_kind _ _ _ _ _ E0) as [K ID].
    unfold classify in E. inv_bind E.
    assert (TS : forall k, x1 = Some k -> k = KUnicode \/ k = KAscii).
    { destruct (id =? 199); [|injection E2 as <-; exact T]. inv_bind E2. injection E2 as <-. intros kk Q. injection Q as <-. destruct (ge_11_5 x2); auto. }
    assert (TS' : text_state st').
    { intros kk Q. apply TS. rewrite <- Q. clear - E. destruct (lookup_type id (enum_tables en)); [injection E as _ <-; reflexivity|].
      destruct (id <? 64); [injection E as _ <-; reflexivity|]. destruct (id <? 128); [injection E as _ <-; reflexivity|]. destruct (id <? 192); [injection E as _ <-; reflexivity|].
      destruct ((id <? 208) || mem_Z id new_text_ids).
      - destruct x1; [|discriminate]. destruct (id =? 201); [inv_bind E; injection E as _ <-; reflexivity|injection E as _ <-; reflexivity].
      - destruct (id =? 213); [destruct (ps_plug st); injection E as _ <-; reflexivity|injection E as _ <-; reflexivity]. }
    destruct I as [<-|I]; [|exact (IH _ _ _ TS' E1 e I NL B)]. rewrite ID in NL, B. rewrite NL in E.
    replace (id <? 64) with false in E by lia. replace (id <? 128) with false in E by lia. replace (id <? 192) with false in E by lia. replace (id <? 208) with true in E by lia. cbn [orb] in E.
    destruct x1 as [kk|]; [|discriminate]. apply (text_value en k id p x); [|exact E0]. apply TS. f_equal.
    destruct (id =? 201); [inv_bind E; congruence|congruence].
Qed.
Lemma parse_text en f p e : parse en f = Ok p -> In e (pr_events p) -> In (e_id e) [203; 192; 201] -> exists s, e_val e = VStr s.
Proof.
  intros H. unfold parse in H. repeat match type of H with (if ?c then _ else _) = _ => destruct c eqn:?; try discriminate end.
  cbv zeta in H. inv_bind H. injection H as <-. cbn [pr_events]. intros I J. apply (loop_text en _ (PState None None) _ _ ltac:(intros k; discriminate) E e I).
  - unfold enum_tables. destruct (en_ctrl en); cbn [In] in J; destruct J as [<-|[<-|[<-|[]]]]; reflexivity.
  - cbn [In] in J. lia.
Qed.
Lemma loaded_value en f p h t id v : is_bytes f -> parse en f = Ok p -> views (parsed (pr_events p)) h -> (t < nt h)%nat -> value_of id (events h t) = Some v ->
  exists e, In e (pr_events p) /\ made en e /\ e_id e = id /\ e_val e = v.
Proof.
  intros B P V L H. destruct (value_in _ _ _ H) as (e & I & EI & EV). pose proof (load_made _ _ _ _ B P V) as (NE & F & _).
  assert (J : In e (pr_events p)).
  { rewrite events_refs in I. apply in_map_iff in I. destruct I as (r & <- & I). destruct (views_tree _ _ t NE V L) as (_ & _ & W). rewrite Forall_forall in W. eapply nth_error_In. exact (W r I). }
  exists e. split; [exact J|]. split; [rewrite Forall_forall in F; now apply F|]. now split.
Qed.

(* Whether a channel is zipped: a boolean; False without the event. *)
Theorem C78_zipped : forall en f p h t, is_bytes f -> parse en f = Ok p -> views (parsed (pr_events p)) h -> (t < nt h)%nat ->
  match value_of 15 (events h t) with
  | Some v => exists b, v = VBool b /\ zipped_get h t = Ok (VBool b)
  | None => zipped_get h t = Ok (VBool false)
  end.
Proof.
  intros en f p h t B P V L. unfold zipped_get. rewrite contains_value, first_val_spec. destruct (value_of 15 (events h t)) as [v|] eqn:E; [|reflexivity].
  destruct (loaded_value _ _ _ _ _ _ _ B P V L E) as (e & _ & ((b & _ & M) & K) & EI & EV).
  assert (KB : e_kind e = KBool) by (apply K, fixed_kind_ok; rewrite EI; reflexivity). rewrite KB in M. destruct (mk_event_inv _ _ _ _ _ M) as (w & r & X & EE & _).
  assert (EW : e_val e = w) by now rewrite EE. rewrite <- EV, EW. clear - X. cbn [kcon Flag cparse] in X.
  inv_bind X. destruct x as [d q]. injection X as <- <-. eauto.
Qed.
Print Assumptions C78_zipped.

(* The name shown for a channel: the plugin's name (203), without such an event the
   channel's (192); when there is none or it is empty, the internal name, None without. *)
Definition own_name (es : list event) : option val := match value_of 203 es with Some v => Some v | None => value_of 192 es end.
Theorem C78_name : forall en f p h t, is_bytes f -> parse en f = Ok p -> views (parsed (pr_events p)) h -> (t < nt h)%nat ->
  (exists a s, own_name (events h t) = Some (VStr (a :: s)) /\ display_name en h t = Ok (VStr (a :: s))) \/
  ((own_name (events h t) = None \/ own_name (events h t) = Some (VStr [])) /\
   match value_of 201 (events h t) with
   | Some v => exists s, v = VStr s /\ display_name en h t = Ok (VStr s)
   | None => display_name en h t = Ok VNone
   end).
Proof.
  intros en f p h t B P V L. unfold display_name.
  assert (OWN : ev_get en h t [203; 192] = Ok (match own_name (events h t) with Some v => v | None => VNone end)).
  { unfold own_name, ev_get, ev_prop. destruct (chosen_total [203; 192] (events h t)) as (o & CH). rewrite (event_prop_get en h t [203; 192] VNone false o ltac:(discriminate) CH).
    destruct (value_of 203 (events h t)) as [v|] eqn:V3.
    - destruct (value_of_chosen _ _ _ V3) as (k & e & C & N & EI & EV). apply P_Project.chosen_one in C. destruct C as (e' & N' & EI' & BF).
      assert (C : chosen [203; 192] (events h t) (Some k)) by (apply (ch_some _ _ [] 203 [192] k e'); auto; intros ? _ []). rewrite (chosen_fun _ _ _ CH _ C). unfold value_at. rewrite N. now rewrite <- EV.
    - assert (N3 : forall e, In e (events h t) -> e_id e <> 203).
      { intros e I J. apply In_nth_error in I. destruct I as [k N]. clear -V3 N J. revert k N V3. induction (events h t) as [|x l IH]; intros [|k] N V3; try discriminate; cbn [value_of] in V3.
        - injection N as ->. rewrite J in V3. discriminate.
        - destruct (e_id x =? 203); [discriminate|]. exact (IH k N V3). }
      destruct (value_of 192 (events h t)) as [v|] eqn:V2.
      + destruct (value_of_chosen _ _ _ V2) as (k & e & C & N & EI & EV). apply P_Project.chosen_one in C. destruct C as (e' & N' & EI' & BF).
        assert (C : chosen [203; 192] (events h t) (Some k)).
        { apply (ch_some _ _ [203] 192 [] k e'); auto. intros x I [J|[]]. exact (N3 x I (eq_sym J)). }
        rewrite (chosen_fun _ _ _ CH _ C). unfold value_at. rewrite N. now rewrite <- EV.
      + destruct o as [k|]; [|reflexivity]. exfalso. inversion CH as [ids1 id ids2 k' e EI N1 NK ID FST E0|]; subst.
        assert (J : In (e_id e) [203; 192]) by (rewrite EI; apply in_or_app; right; now left). pose proof (nth_error_In _ _ NK) as I. cbn [In] in J. destruct J as [J|[J|[]]]; [exact (N3 e I (eq_sym J))|].
        clear -V2 NK J. revert k NK V2. induction (events h t) as [|x l IH]; intros [|k] N V2; try discriminate; cbn [value_of] in V2.
        * injection N as ->. rewrite <- J in V2. discriminate.
        * destruct (e_id x =? 192); [discriminate|]. exact (IH k N V2). }
  rewrite OWN. cbn [bind].
  assert (TX : forall v, own_name (events h t) = Some v -> exists s, v = VStr s).
  { unfold own_name. intros v E. destruct (value_of 203 (events h t)) as [w|] eqn:V3.
    - injection E as <-. destruct (loaded_value _ _ _ _ _ _ _ B P V L V3) as (e & I & _ & EI & <-). apply (parse_text _ _ _ _ P I). rewrite EI. cbn [In]. tauto.
    - destruct (loaded_value _ _ _ _ _ _ _ B P V L E) as (e & I & _ & EI & <-). apply (parse_text _ _ _ _ P I). rewrite EI. cbn [In]. tauto. }
  assert (IN : match value_of 201 (events h t) with Some v => exists s, v = VStr s /\ ev_get en h t [201] = Ok (VStr s) | None => ev_get en h t [201] = Ok VNone end).
  { rewrite ev_get_one. destruct (value_of 201 (events h t)) as [v|] eqn:V1; [|reflexivity].
    destruct (loaded_value _ _ _ _ _ _ _ B P V L V1) as (e & I & _ & EI & <-). destruct (parse_text _ _ _ _ P I) as (s & ->); [rewrite EI; cbn [In]; tauto|]. eauto. }
  destruct (own_name (events h t)) as [v|] eqn:E; [|right; split; [now left|exact IN]].
  destruct (TX v eq_refl) as ([|a s] & ->); [right; split; [now right|exact IN]|]. left. exists a, s. split; reflexivity.
Qed.
Print Assumptions C78_name.

(* len of an insert is its number of slot events; iterating gives that many slots, but
   one slot for an insert without any *)
Theorem C78_slots : forall h x h' l ex e n, ordered h (in_tree x) -> insert_iter h x = (h', (l, ex)) -> in_params x = Some (PItems e n) ->
  insert_len h x = zlen (filter (fun e => e_id e =? 98) (events h (in_tree x))) /\ zlen l = Z.max 1 (insert_len h x).
Proof.
  intros h x h' l ex e n O E P. destruct (C46_slots _ _ _ _ _ O E) as [_ S]. destruct (S e n P) as (_ & ps & C & M & _).
  assert (EL : insert_len h x = zlen (filter (fun c => id_of h c =? 98) (lst_of h (in_tree x)))) by (unfold insert_len, count; now rewrite get_ie_1).
  split.
  - rewrite EL. unfold zlen, events, id_of. f_equal. clear. induction (lst_of h (in_tree x)) as [|c r IH]; [reflexivity|]. cbn [map filter]. destruct (e_id (e_of h c) =? 98); cbn [length]; now rewrite IH.
  - rewrite EL. apply (f_equal (@length _)) in M. rewrite !map_length in M. unfold zlen. rewrite M, (cut_pieces_count _ _ _ _ C). lia.
Qed.
Print Assumptions C78_slots.

(* A file with a zipped, named channel, one without a name, and an insert without slots. *)
Definition obj_chunks : list chunk :=
  [(199, ver20); (64, [1; 0]); (21, [2]); (15, [1]); (201, boobass16); (203, title16); (212, repeat 0 52); (213, boobass_data); (145, [0; 0; 0; 0]);
   (64, [2; 0]); (21, [0]); (201, boobass16); (203, [0; 0]); (145, [0; 0; 0; 0]); (231, title16);
   (147, [5; 0; 0; 0]); (236, [0; 0; 0; 0; 0; 0; 0; 0; 0; 0; 0; 0]); (147, [6; 0; 0; 0]); (236, [0; 0; 0; 0; 0; 0; 0; 0; 0; 0; 0; 0]);
   (147, [6; 0; 0; 0]); (236, [0; 0; 0; 0; 0; 0; 0; 0; 0; 0; 0; 0]); (225, [0; 0; 0; 0; 0; 31; 65; 0; 9; 0; 0; 0])].
Definition obj_h0 : heap := parsed (pr_events (load (sample obj_chunks))).
Definition obj_h1 : heap := fst (channels obj_h0).
Definition obj_h2 : heap := fst (rack_iter obj_h1 1).
Definition obj_cs : gen chan := snd (rack_iter obj_h1 1).
Definition obj_h3 : heap := fst (mixer obj_h2).
Definition obj_h4 : heap := fst (mixer_iter obj_h3 (snd (mixer obj_h2)) mixer_v).
Definition obj_l : list insert_obj := snd (mixer_iter obj_h3 (snd (mixer obj_h2)) mixer_v).
Example C78_case : is_bytes (sample obj_chunks) /\ parse en0 (sample obj_chunks) = Ok (load (sample obj_chunks)) /\
  views obj_h0 obj_h2 /\ (3 < nt obj_h2)%nat /\ (4 < nt obj_h2)%nat /\
  map (fun c => (ch_tree c, ch_class c)) (fst obj_cs) = [(3%nat, CInstrument); (4%nat, CSampler)] /\
  map ch_tree (fst (channels_of CInstrument obj_cs)) = [3%nat] /\ map ch_tree (fst (channels_of CSampler obj_cs)) = [4%nat] /\ fst (channels_of CLayer obj_cs) = [] /\
  map (zipped_get obj_h2) [3%nat; 4%nat] = [Ok (VBool true); Ok (VBool false)] /\
  map (display_name en0 obj_h2) [3%nat; 4%nat] = [Ok (VStr [72; 105; 128521]); Ok (VStr boobass)].
Proof.
  destruct (sample_ok obj_chunks ltac:(vm_compute; reflexivity)) as [B _]. split; [exact B|]. split; [vm_compute; reflexivity|]. split.
  { eapply views_more with (fst (separate obj_h1 1 231)).
    - eapply views_more with obj_h1; [eapply views_more; [apply views_none|apply op_subtree; vm_compute; lia]|apply op_separate; vm_compute; lia].
    - unfold obj_h2, rack_iter. destruct (separate obj_h1 1 231) as [ha g] eqn:S. cbn [fst]. destruct (divide ha 1 64 (members ChannelIDs ++ members PluginIDs)) as [hb ts] eqn:D. cbn [fst].
      assert (HB : hb = fst (divide ha 1 64 (members ChannelIDs ++ members PluginIDs))) by now rewrite D. rewrite HB. apply op_divide.
      assert (HA : ha = fst (separate obj_h1 1 231)) by now rewrite S. rewrite HA. vm_compute. lia. }
  split; [apply Nat.ltb_lt; vm_compute; reflexivity|]. split; [apply Nat.ltb_lt; vm_compute; reflexivity|]. repeat split; vm_compute; reflexivity.
Qed.
Theorem C78_slots_refuted : exists x, nth_error obj_l 1 = Some x /\ ordered obj_h4 (in_tree x) /\ in_params x = Some (PItems 21 1) /\
  insert_len obj_h4 x = 0 /\ length (fst (snd (insert_iter obj_h4 x))) = 1%nat.
Proof. eexists. split; [vm_compute; reflexivity|]. split; [vm_compute; repeat constructor|]. repeat split; vm_compute; reflexivity. Qed.
Print Assumptions C78_slots_refuted.

Definition plug_h6 : heap := fst (plugin_get plug_h3 4 instrument_types).
Example C77_case : is_bytes plug_file /\ parse en0 plug_file = Ok (load plug_file) /\ views (parsed (pr_events (load plug_file))) plug_h3 /\ (4 < nt plug_h3)%nat /\
  plugin_get plug_h3 4 instrument_types = (plug_h6, Some (Some KBooBass, 6%nat)) /\ plugin_get plug_h3 4 effect_types = (plug_h3, None) /\
  last_at (fun x => e_id x = 201) (firstn 11 (pr_events (load plug_file))) 9 /\ map e_kind (firstn 1 (skipn 11 (pr_events (load plug_file)))) = [KBooBass].
Proof.
  destruct C52_case as (B & P & _ & V & _). split; [exact B|]. split; [exact P|]. split; [exact V|]. split; [apply Nat.ltb_lt; vm_compute; reflexivity|].
  split; [vm_compute; reflexivity|]. split; [vm_compute; reflexivity|]. split; [|vm_compute; reflexivity].
  split; [eexists; split; vm_compute; reflexivity|]. intros j y L.
  destruct j as [|[|[|[|[|[|[|[|[|[|[|j]]]]]]]]]]]; try lia; [vm_compute; intros [= <-]; discriminate|]. intros Q. apply nth_error_In in Q as Q'. assert (X : nth_error (firstn 11 (pr_events (load plug_file))) (S (S (S (S (S (S (S (S (S (S (S j))))))))))) = None) by (apply nth_error_None; vm_compute; lia). congruence.
Qed.
