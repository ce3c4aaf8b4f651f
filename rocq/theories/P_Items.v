(* Markers, notes, reverb, VST options and mixer parameters. *)
From Coq Require Import String ZArith List Bool Lia Arith.
From Verif Require Import M_Base M_Float M_Text M_Construct M_Structs M_Events M_Parse M_Tree M_Prop M_Project M_Items.
From Verif Require Import S_Canon S_File S_Domain S_Tree S_Prop S_Real S_Project S_Items.
From Verif Require Import P_Base P_Null P_Payload P_Domain P_TreeBase P_Tree P_TreeEdit P_Prop P_Edit P_Project P_Header.
Import ListNotations.
Open Scope Z_scope.

(* ------------------------------------------ the first event with an id, in any view *)

Lemma value_chosen id es v : value_of id es = Some v -> exists k e, chosen [id] es (Some k) /\ nth_error es k = Some e /\ e_id e = id /\ e_val e = v.
Proof.
  intros H. assert (X : exists k e, nth_error es k = Some e /\ e_id e = id /\ e_val e = v /\
    forall j y, (j < k)%nat -> nth_error es j = Some y -> e_id y <> id).
  { induction es as [|e es IH]; [discriminate|]. cbn [value_of] in H. destruct (Z.eqb_spec (e_id e) id) as [E|E].
    - exists 0%nat, e. injection H as <-. repeat split; auto. intros; lia.
    - destruct (IH H) as (k & x & A & B & C & D). exists (S k), x. repeat split; auto.
      intros [|j] y L Y; [cbn in Y; congruence|]. apply (D j y); [lia|exact Y]. }
  destruct X as (k & e & A & B & C & D). exists k, e. split; [|auto].
  eapply (ch_some _ _ [] id [] k e); eauto.
Qed.

Lemma set_first_in en h t id d v : value_of id (events h t) <> None ->
  set_first h t id v = prop_set en h (EvModel t) (MkProp [id] d false PEvent) v.
Proof.
  intros N. unfold set_first, prop_set. cbn [p_readonly p_ids get_event first_of]. rewrite contains_value.
  destruct (value_of id (events h t)) as [o|] eqn:V; [|congruence].
  pose proof (get_ie_events h t id) as G. destruct (get_ie h t [id]) as [|c l]; [congruence|]. reflexivity.
Qed.

Lemma set_first_view evs h t id v : evs <> [] -> views (parsed evs) h -> (t < nt h)%nat ->
  value_of id (events h t) <> None ->
  exists h' j, set_first h t id v = (h', Ok tt) /\ same_shape h h' /\
    changed id v evs (root_events h') j /\ events h' t = put id v (events h t) /\
    (forall u, (u < nt h)%nat -> events h' u = events h u \/
       exists i, nth_error (events h u) i = nth_error evs j /\ revalued (events h u) i v (events h' u)).
Proof.
  intros NE V L N. destruct (value_of id (events h t)) as [o|] eqn:EV; [|congruence].
  destruct (value_chosen _ _ _ EV) as (k & e & CH & K & EI & _).
  destruct (views_tree _ _ t NE V L) as (W & ND & F).
  destruct (event_prop_set (Env true (fun _ => Err TypeError) (fun _ => Err TypeError) true) h t [id] VNone v k ltac:(discriminate) W CH) as (r & h' & R & S & O).
  exists h', r. rewrite (set_first_in (Env true (fun _ => Err TypeError) (fun _ => Err TypeError) true) h t id VNone v) by congruence.
  split; [exact S|]. split; [destruct O as (A & B & C & _); repeat split; assumption|].
  rewrite Forall_forall in F. pose proof (F r (nth_error_In _ _ R)) as FR.
  assert (LR : (r < length evs)%nat) by (apply nth_error_Some; congruence).
  assert (EE : ev_of h r = e) by (rewrite events_refs, nth_error_map, R in K; cbn in K; congruence).
  split; [|split].
  - split; [exists e; split; [congruence|exact EI]|].
    rewrite (only_value_root _ _ _ _ _ NE V LR O). split; [now rewrite lset_length|]. split.
    + intros j NJ. rewrite nth_error_lset. apply Nat.eqb_neq in NJ. now rewrite NJ.
    + exists (ev_of h r), (with_val (ev_of h r) v). split; [exact FR|]. split; [|repeat split].
      rewrite nth_error_lset, Nat.eqb_refl. apply Nat.ltb_lt in LR. now rewrite LR.
  - pose proof (only_value_revalued _ _ _ _ t k O ND R) as (RL & RO & x & y & X & Y & Y1 & Y2 & Y3 & Y4 & Y5).
    assert (x = e) by congruence. subst x.
    rewrite (put_lset id v _ k e K EI).
    + apply list_ext_nth. intros j. rewrite nth_error_lset. destruct (Nat.eqb_spec j k) as [->|NJ]; cbn [andb]; [|now apply RO].
      assert (LK : (k < length (events h t))%nat) by (apply nth_error_Some; congruence). apply Nat.ltb_lt in LK. rewrite LK, Y. f_equal.
      destruct y. cbn in *. subst. reflexivity.
    + intros j y0 LJ YJ. inversion CH as [i1 i i2 k0 e0 EQ _ _ EE0 J|]; subst. destruct i1 as [|? [|? ?]]; cbn in EQ; try discriminate.
      injection EQ as ->. now apply (J j y0).
  - intros u LU. destruct (views_tree _ _ u NE V LU) as (_ & NDU & _).
    destruct (in_dec Nat.eq_dec r (refs h u)) as [I|I]; [right|left; now apply (only_value_same _ _ _ _ _ O)].
    apply In_nth_error in I as [i I]. exists i. split; [rewrite FR, events_refs, nth_error_map, I; reflexivity|].
    now apply (only_value_revalued _ _ _ _ _ _ O).
Qed.

Lemma in_view evs h t e : evs <> [] -> views (parsed evs) h -> (t < nt h)%nat -> In e (events h t) -> In e evs.
Proof.
  intros NE V L I. destruct (views_tree _ _ t NE V L) as (_ & _ & F). rewrite Forall_forall in F.
  rewrite events_refs in I. apply in_map_iff in I as (r & <- & I). specialize (F r I). eapply nth_error_In; eauto.
Qed.
Lemma value_in id es v : value_of id es = Some v -> exists e, In e es /\ e_id e = id /\ e_val e = v.
Proof. intros H. destruct (value_chosen _ _ _ H) as (k & e & _ & K & I & E). exists e. split; [eapply nth_error_In; eauto|auto]. Qed.

(* what the values read from a file look like *)
Lemma registered_kind en p e cs k : encodes en [] (pr_events p) cs -> In e (pr_events p) -> registered en (e_id e) = Some k -> e_kind e = k.
Proof.
  intros HE I R. destruct (encodes_kind _ _ _ _ _ HE I) as (pl & h0 & CL). unfold class_of in CL. rewrite R in CL. congruence.
Qed.

Lemma value_domain en : forall es h cs e k, encodes en h es cs -> In e es -> registered en (e_id e) = Some k -> scalar_kind k = true ->
  k <> KUnknown -> 0 <= e_id e < 256 -> domain k (e_val e).
Proof.
  induction es as [|x es IH]; intros h cs e k HE I HR HK NU B; [destruct I|]. inversion HE as [|h0 e0 es0 p cs0 e' HP HB HC HV HM HS HE']; subst.
  destruct I as [->|I]; [|eapply IH; eauto]. assert (EK : e_kind e = k) by (unfold class_of in HC; rewrite HR in HC; congruence).
  destruct (mk_event_inv _ _ _ _ _ HM) as (v & r & _ & _ & HA & _). rewrite EK in HA.
  apply (proj1 (domain_exact en k (e_id e) (e_val e) HK B HA ltac:(congruence))).
  exists (e_len e), (e_new e), p, e'. rewrite EK in HM. split; [|split; [exact HB|split; [exact HM|symmetry; apply HS]]].
  rewrite <- HP. rewrite <- EK. destruct e; reflexivity.
Qed.

Lemma set_first_saved en f p h t id k v : is_bytes f -> parse en f = Ok p -> canonical_file en f ->
  views (parsed (pr_events p)) h -> (t < nt h)%nat -> value_of id (events h t) <> None -> id <> 199 -> id <> 201 ->
  registered en id = Some k -> scalar_kind k = true -> domain k v -> zlen f + room v + 6 < 2 ^ 32 ->
  exists h' f' p' j, set_first h t id v = (h', Ok tt) /\
    serialise en (Project (root_events h') (pr_channel_count p) (pr_format p) (pr_ppq p)) = Ok f' /\
    parse en f' = Ok p' /\
    (exists e, nth_error (pr_events p) j = Some e /\ e_id e = id) /\ reloaded (pr_events p) j v (pr_events p').
Proof.
  intros Hb H HC V L N N1 N2 HR HK HD SZ.
  destruct (canonical_encodes en f p Hb H HC) as (cs & HE & _ & _ & _ & _ & _ & _ & NE).
  destruct (value_of id (events h t)) as [o|] eqn:EV; [|congruence].
  destruct (value_chosen _ _ _ EV) as (k0 & e & CH & K & EI & _).
  assert (I : In e (pr_events p)) by (eapply in_view; eauto; eapply nth_error_In; eauto).
  assert (EK : e_kind e = k) by (eapply registered_kind; eauto; congruence).
  destruct (edit_event_prop en f p h t [id] VNone k0 e v Hb H HC V L ltac:(discriminate) CH K) as (h' & f' & p' & j & A & B & C & D & E & _); try (rewrite EK; assumption); try assumption; try (intros [X|X]; congruence).
  exists h', f', p', j. rewrite (set_first_in en h t id VNone v) by congruence. eauto 10.
Qed.

(* ------------------------------------------------------------------ time markers *)

Lemma only_value_filter h r v h' id u : only_value h r v h' -> e_id (ev_of h r) <> id ->
  filter (fun e => e_id e =? id) (events h' u) = filter (fun e => e_id e =? id) (events h u).
Proof.
  intros O N. rewrite !events_refs, (only_value_refs _ _ _ _ O). destruct O as (_ & _ & _ & O1 & O2).
  induction (refs h u) as [|s l IH]; [reflexivity|]. cbn [map filter].
  destruct (Nat.eq_dec s r) as [->|NR]; [|rewrite O1 by exact NR; destruct (_ =? _); [now rewrite IH|exact IH]].
  rewrite O2. unfold with_val at 1. cbn [e_id]. replace (e_id (ev_of h r) =? id) with false by lia. exact IH.
Qed.
Lemma only_value_heap h r v h' t : only_value h r v h' -> in_heap h t -> in_heap h' t.
Proof. intros O W. unfold in_heap in *. rewrite (only_value_refs _ _ _ _ O). destruct O as (_ & _ & -> & _). exact W. Qed.

Lemma marker_assign_spec en h t a v : in_heap h t -> in_heap (fst (marker_assign en h t a v)) t /\
  forall u, filter (fun e => e_id e =? 148) (events (fst (marker_assign en h t a v)) u) = filter (fun e => e_id e =? 148) (events h u).
Proof.
  intros W. assert (X : forall id, id <> 148 -> let h' := fst (prop_set en h (EvModel t) (MkProp [id] VNone false PEvent) v) in
    in_heap h' t /\ forall u, filter (fun e => e_id e =? 148) (events h' u) = filter (fun e => e_id e =? 148) (events h u)).
  { intros id N. cbv zeta. destruct (chosen_total [id] (events h t)) as [[k|] CH].
    - destruct (event_prop_set en h t [id] VNone v k ltac:(discriminate) W CH) as (r & h' & R & -> & O). cbn [fst].
      split; [eapply only_value_heap; eauto|]. intros u. apply (only_value_filter _ _ _ _ _ _ O).
      inversion CH as [i1 i i2 k0 e0 EQ _ K EE0 J|]; subst. destruct i1 as [|? [|? ?]]; cbn in EQ; try discriminate. injection EQ as EQ1 EQ2.
      rewrite events_refs, nth_error_map, R in K. cbn in K. congruence.
    - rewrite event_prop_refused; [split; [exact W|reflexivity]|discriminate|now right]. }
  destruct a; cbn [marker_assign fst]; try (apply X; lia); split; auto.
Qed.
Lemma marker_assigns en t : forall l h, in_heap h t ->
  forall u, let h' := fold_left (fun h x => fst (marker_assign en h t (fst x) (snd x))) l h in
    filter (fun e => e_id e =? 148) (events h' u) = filter (fun e => e_id e =? 148) (events h u).
Proof.
  induction l as [|x l IH]; intros h W u; cbn [fold_left]; [reflexivity|].
  destruct (marker_assign_spec en h t (fst x) (snd x) W) as [W' E]. rewrite <- (E u). apply IH. exact W'.
Qed.

(* -------------------------------------------------------------------- note keys *)

Lemma app_digits_inj a b s r : digits s -> digits r -> Forall (fun c => ~ 48 <= c <= 57) a -> Forall (fun c => ~ 48 <= c <= 57) b ->
  a ++ s = b ++ r -> a = b /\ s = r.
Proof.
  intros Ds Dr Fa. revert b. induction Fa as [|x a X Fa IH]; intros b Fb H.
  - destruct Fb as [|y b Y Fb]; [auto|]. cbn in H. destruct s as [|c s]; [discriminate|]. injection H as -> _. inversion Ds. lia.
  - destruct Fb as [|y b Y Fb]; cbn in H.
    + destruct r as [|c r]; [discriminate|]. injection H as -> _. inversion Dr. lia.
    + injection H as -> H. destruct (IH b Fb H). split; congruence.
Qed.
Lemma note_name_mod k : exists n, nth_error note_names (Z.to_nat (k mod 12)) = Some n /\ Forall (fun c => ~ 48 <= c <= 57) n.
Proof.
  assert (B : 0 <= k mod 12 < 12) by lia. destruct (nth_error note_names (Z.to_nat (k mod 12))) as [n|] eqn:E.
  - exists n. split; [reflexivity|]. apply nth_error_In in E.
    assert (X : forallb (forallb (fun c => negb ((48 <=? c) && (c <=? 57)))) note_names = true) by (vm_compute; reflexivity).
    rewrite forallb_forall in X. specialize (X n E). rewrite forallb_forall in X. apply Forall_forall. intros c I. specialize (X c I). lia.
  - apply nth_error_None in E. change (length note_names) with 12%nat in E. lia.
Qed.
Lemma note_names_nodup : NoDup note_names.
Proof.
  assert (X : nodup (list_eq_dec Z.eq_dec) note_names = note_names) by (vm_compute; reflexivity).
  rewrite <- X. apply NoDup_nodup.
Qed.
Lemma key_get_inj h g k h2 g2 k2 s : tg_get h g "key" = Ok (VInt k) -> tg_get h2 g2 "key" = Ok (VInt k2) -> 0 <= k -> 0 <= k2 ->
  key_get h g = Ok (VStr s) -> key_get h2 g2 = Ok (VStr s) -> k = k2.
Proof.
  intros T1 T2 K1 K2. unfold key_get. rewrite T1, T2. cbn [bind as_int].
  destruct (note_name_mod k) as (n1 & E1 & F1). destruct (note_name_mod k2) as (n2 & E2 & F2). rewrite E1, E2.
  intros [= <-] [= H]. pose proof (str_int_digits (k / 12) ltac:(lia)) as (D1 & _). pose proof (str_int_digits (k2 / 12) ltac:(lia)) as (D2 & _).
  destruct (app_digits_inj _ _ _ _ D2 D1 F2 F1 H) as [-> HD].
  pose proof (py_int_str (k / 12) ltac:(lia)) as P1. pose proof (py_int_str (k2 / 12) ltac:(lia)) as P2. rewrite HD in P2.
  assert (Q : k / 12 = k2 / 12) by congruence.
  assert (M : Z.to_nat (k mod 12) = Z.to_nat (k2 mod 12)).
  { apply (proj1 (NoDup_nth_error note_names) note_names_nodup); [apply nth_error_Some; congruence|congruence]. }
  lia.
Qed.

(* assigning a text *)
Lemma starts_sharp s n : starts_with s (n ++ [35]) = true -> starts_with s n = true /\ exists r, drop_prefix s n = 35 :: r.
Proof.
  revert s. induction n as [|c n IH]; intros [|d s] H; cbn [app starts_with] in H; try discriminate.
  - apply andb_true_iff in H as [H _]. split; [reflexivity|]. unfold drop_prefix. cbn [length skipn]. exists s. f_equal. lia.
  - apply andb_true_iff in H as [H1 H2]. destruct (IH s H2) as [A B]. cbn [starts_with]. rewrite H1, A. split; [reflexivity|exact B].
Qed.
Lemma py_int_sharp r : py_int (35 :: r) = None.
Proof.
  unfold py_int. cbn [drop_blanks]. change (is_blank 35) with false. cbn iota.
  set (q := drop_blanks (rev (35 :: r))). assert (Q : exists w, rev q = 35 :: w \/ rev q = []).
  { unfold q. cbn [rev]. generalize (rev r). clear. induction l as [|c l IH]; cbn [app drop_blanks].
    - change (is_blank 35) with false. exists []. left. reflexivity.
    - destruct (is_blank c); [exact IH|]. exists (rev l ++ [c]). left. cbn [rev]. rewrite rev_app_distr. cbn. now rewrite <- ?app_assoc. }
  destruct Q as (w & [->| ->]); reflexivity.
Qed.
Definition named (s : pystr) : option Z :=
  match s with
  | c :: r => match natural c, py_int r with Some i, Some o => Some (12 * o + i) | _, _ => None end
  | [] => None
  end.
Lemma starts_35 r : py_int r <> None -> starts_with r [35] = false.
Proof.
  intros N. destruct (starts_with r [35]) eqn:E; [|reflexivity]. destruct r as [|c r]; [discriminate|].
  cbn [starts_with] in E. apply andb_true_iff in E as [E _]. assert (c = 35) by lia. subst c. now rewrite py_int_sharp in N.
Qed.
Ltac closed_eqb := repeat match goal with
  | |- context [Zpos ?a =? Zpos ?b] => let r := eval vm_compute in (Zpos a =? Zpos b) in change (Zpos a =? Zpos b) with r
  end; cbn [andb].
Lemma key_set_text h g s : (forall v, snd (tg_set h g "key" v) = Ok tt) ->
  key_set h g (VStr s) = (match named s with Some k => fst (tg_set h g "key" (VInt k)) | None => h end, Err ValueError).
Proof.
  intros OK. cbn [key_set]. let n := eval vm_compute in note_names in change note_names with n.
  destruct s as [|c r]; [reflexivity|]. cbn [named key_names_set starts_with drop_prefix length skipn].
  assert (AT : forall v f, and_then (tg_set h g "key" v) f = f (fst (tg_set h g "key" v))).
  { intros v f. unfold and_then. now rewrite OK. }
  assert (S35 : forall o, py_int r = Some o -> match r with [] => false | d :: _ => (35 =? d) && true end = false).
  { intros o E. pose proof (starts_35 r ltac:(congruence)) as X. destruct r; exact X. }
  destruct (natural c) as [i|] eqn:EN.
  - assert (C : c = 67 /\ i = 0 \/ c = 68 /\ i = 2 \/ c = 69 /\ i = 4 \/ c = 70 /\ i = 5 \/ c = 71 /\ i = 7 \/ c = 65 /\ i = 9 \/ c = 66 /\ i = 11).
    { unfold natural in EN. repeat (match type of EN with match ?p with _ => _ end = _ => destruct p end; try discriminate EN; try (injection EN as <-; lia)). }
    destruct (py_int r) as [o|] eqn:EP.
    + specialize (S35 o eq_refl).
      destruct C as [[-> ->]|[[-> ->]|[[-> ->]|[[-> ->]|[[-> ->]|[[-> ->]|[-> ->]]]]]]]; closed_eqb; rewrite ?S35; cbn [andb]; rewrite AT; do 3 f_equal; f_equal; lia.
    + destruct C as [[-> ->]|[[-> ->]|[[-> ->]|[[-> ->]|[[-> ->]|[[-> ->]|[-> ->]]]]]]]; closed_eqb; reflexivity.
  - assert (C : c <> 67 /\ c <> 68 /\ c <> 69 /\ c <> 70 /\ c <> 71 /\ c <> 65 /\ c <> 66).
    { repeat split; intros ->; discriminate. }
    repeat match goal with |- context [Zpos ?a =? c] => replace (Zpos a =? c) with false by lia end. reflexivity.
Qed.

(* --------------------------------------------------------------- version tables *)

Lemma tuple_le_lex a b c d x y z : tuple_le [a; b; c; d] [x; y; z] = lex_lt [a; b; c] [x; y; z].
Proof.
  cbn [tuple_le lex_lt]. destruct (Z.eqb_spec a x); [|destruct (a <? x); reflexivity]. subst x. rewrite Z.ltb_irrefl. cbn [orb andb].
  destruct (Z.eqb_spec b y); [|destruct (b <? y); reflexivity]. subst y. rewrite Z.ltb_irrefl. cbn [orb andb].
  destruct (Z.eqb_spec c z); [|destruct (c <? z); reflexivity]. subst z. rewrite Z.ltb_irrefl. reflexivity.
Qed.

(* ------------------------------------------------------------------ VST options *)

Lemma get_ie_chosen h t id k : chosen [id] (events h t) (Some k) ->
  exists c l, get_ie h t [id] = c :: l /\ nth_error (lst_of h t) k = Some c.
Proof.
  intros CH. destruct (get_event_spec h t [id] ltac:(discriminate)) as [A _]. destruct (A k CH) as (c & K & E).
  cbn [get_event first_of] in E. inversion CH as [i1 i i2 k0 e0 EQ _ N EI J|]; subst.
  destruct i1 as [|? [|? ?]]; cbn in EQ; try discriminate. injection EQ as EQ1 EQ2. subst.
  unfold get_ie. rewrite nth_error_events, K in N. cbn in N. injection N as N.
  assert (F : forall j y, (j < k)%nat -> nth_error (lst_of h t) j = Some y -> id_of h y <> e_id e0).
  { intros j y LJ Y. apply (J j (e_of h y)); [exact LJ|]. rewrite nth_error_events, Y. reflexivity. }
  clear A E J CH. revert k K F.
  induction (lst_of h t) as [|x l IH]; intros [|k] K F; try discriminate.
  - cbn in K. injection K as ->. cbn [filter mem_Z existsb]. unfold id_of at 1. rewrite N, Z.eqb_refl. cbn [orb]. eauto.
  - cbn in K. cbn [filter]. pose proof (F 0%nat x ltac:(lia) eq_refl) as NX. replace (mem_Z (id_of h x) [e_id e0]) with false by (cbn [mem_Z existsb]; lia).
    destruct (IH k K) as (c' & l' & E & K'); [intros j y LJ Y; apply (F (S j) y); [lia|exact Y]|]. exists c', l'. split; [exact E|exact K'].
Qed.

Lemma number_as v z : number v z <-> as_int v = Some z.
Proof.
  split.
  - intros [->|[->|(b & -> & ->)]]; try reflexivity.
  - destruct v; cbn [as_int]; intros [= <-]; [right; right; eauto|left; reflexivity|right; left; reflexivity].
Qed.
Lemma sub_id_spec v id : sub_id v id = true <-> has_sub_id id v.
Proof.
  unfold sub_id, has_sub_id. split.
  - destruct v; try discriminate. destruct (dget d "id") as [x|] eqn:E; [|discriminate]. destruct (as_int x) as [z|] eqn:A; [|discriminate].
    intros H. exists d, x. repeat split; auto. apply number_as. rewrite A. f_equal. lia.
  - intros (s & n & -> & E & N). rewrite E. apply number_as in N. rewrite N. lia.
Qed.
Lemma sub_find_spec id s x : forall l i n, sub l id i s x -> sub_find l id n = Some ((n + i)%nat, x).
Proof.
  induction l as [|v l IH]; intros [|i] n (N & HS & HD & HJ); try discriminate; cbn [sub_find].
  - cbn in N. injection N as ->. rewrite (proj2 (sub_id_spec _ _) HS), HD. do 2 f_equal. lia.
  - destruct (sub_id v id) eqn:E; [apply sub_id_spec in E; destruct (HJ 0%nat v ltac:(lia) eq_refl E)|].
    rewrite (IH i (S n)); [do 2 f_equal; lia|]. split; [exact N|]. split; [exact HS|]. split; [exact HD|].
    intros j w LJ W. apply (HJ (S j) w); [lia|exact W].
Qed.
Lemma sub_find_none id l n : (forall v, In v l -> ~ has_sub_id id v) -> sub_find l id n = None.
Proof.
  revert n. induction l as [|v l IH]; intros n H; [reflexivity|]. cbn [sub_find]. destruct (sub_id v id) eqn:E.
  - apply sub_id_spec in E. destruct (H v (or_introl eq_refl) E).
  - apply IH. intros w I. apply H. now right.
Qed.

(* VST data somewhere in a view *)
Definition vst_at (h : heap) (t : nat) (k : nat) (e : event) (d : list (string * val)) (l : list val) : Prop :=
  chosen [213] (events h t) (Some k) /\ nth_error (events h t) k = Some e /\
  is_struct_kind (e_kind e) = true /\ e_val e = VDict d /\ dget d "events" = Some (VList l).
Lemma vst_at_ref h t k e d l : vst_at h t k e d l -> exists r, nth_error (refs h t) k = Some r /\ vst_ref h t = Ok r /\ ev_of h r = e /\ vst_subs e = Ok l.
Proof.
  intros (CH & K & SK & EV & EL). destruct (get_ie_chosen _ _ _ _ CH) as (c & r & G & N). exists (ref_of h c).
  split; [unfold refs; now rewrite nth_error_map, N|]. unfold vst_ref. rewrite G. split; [reflexivity|].
  split; [rewrite nth_error_events, N in K; cbn in K; unfold e_of in K; unfold ref_of; congruence|].
  unfold vst_subs, struct_get. now rewrite SK, EV; unfold dindex; rewrite EL.
Qed.
Lemma vst_get_spec h t k e d l id i s x f : vst_at h t k e d l -> sub l id i s x -> vst_get h t id f = f x.
Proof.
  intros A S. destruct (vst_at_ref _ _ _ _ _ _ A) as (r & _ & R & E & L). unfold vst_get. rewrite R. cbn [bind]. rewrite E, L. cbn [bind].
  now rewrite (sub_find_spec _ _ _ _ _ _ S).
Qed.
Lemma vst_set_spec evs h t k e d l id i s x y f : evs <> [] -> views (parsed evs) h -> (t < nt h)%nat ->
  vst_at h t k e d l -> sub l id i s x -> f x = Ok y ->
  exists h' r, vst_set h t id f = (h', Ok tt) /\ nth_error (refs h t) k = Some r /\ only_value h r (with_sub d l i s y) h' /\
    changed 213 (with_sub d l i s y) evs (root_events h') r /\
    vst_at h' t k (with_val e (with_sub d l i s y)) (dset d "events" (VList (lset l i (VDict (dset s "data" y))))) (lset l i (VDict (dset s "data" y))).
Proof.
  intros NE V L A S F. destruct (vst_at_ref _ _ _ _ _ _ A) as (r & N & R & E & LL).
  destruct A as (CH & K & SK & EV & EL). destruct (views_tree _ _ t NE V L) as (W & ND & FF). rewrite Forall_forall in FF.
  pose proof (FF r (nth_error_In _ _ N)) as FR. assert (LR : (r < length evs)%nat) by (apply nth_error_Some; congruence).
  assert (LH : (r < length (h_evs h))%nat) by (unfold in_heap in W; rewrite Forall_forall in W; apply W; eapply nth_error_In; eauto).
  pose proof (set_val_only h r (with_sub d l i s y) LH) as O.
  exists (set_val h r (with_sub d l i s y)), r. split.
  { unfold vst_set. rewrite R. cbn [bind]. rewrite E, LL. cbn [bind]. rewrite (sub_find_spec _ _ _ _ _ 0 S), F. cbn [Nat.add].
    unfold vst_put. rewrite E, EV. unfold sub_put. destruct S as (S1 & _). rewrite S1. reflexivity. }
  split; [exact N|]. split; [exact O|]. split.
  - split; [exists e; split; [congruence|]|].
    + inversion CH as [i1 ii i2 k0 e0 EQ _ N0 EI J|]; subst. destruct i1 as [|? [|? ?]]; cbn in EQ; try discriminate. congruence.
    + rewrite (only_value_root _ _ _ _ _ NE V LR O). split; [now rewrite lset_length|]. split.
      * intros j NJ. rewrite nth_error_lset. apply Nat.eqb_neq in NJ. now rewrite NJ.
      * exists (ev_of h r), (with_val (ev_of h r) (with_sub d l i s y)). split; [exact FR|]. split; [|repeat split].
        rewrite nth_error_lset, Nat.eqb_refl. apply Nat.ltb_lt in LR. now rewrite LR.
  - split; [eapply chosen_ids; [symmetry; exact (only_value_ids _ _ _ _ t O)|exact CH]|].
    split; [|split; [exact SK|split; [reflexivity|apply dget_dset]]].
    rewrite events_refs, (only_value_refs _ _ _ _ O), nth_error_map, N. cbn [option_map]. destruct O as (_ & _ & _ & _ & ->). now rewrite E.
Qed.
Lemma sub_after l id i s x y : sub l id i s x -> sub (lset l i (VDict (dset s "data" y))) id i (dset s "data" y) y.
Proof.
  intros (N & (s' & n & [= <-] & E & NN) & HD & J). assert (LI : (i < length l)%nat) by (apply nth_error_Some; congruence).
  split; [rewrite nth_error_lset, Nat.eqb_refl; apply Nat.ltb_lt in LI; now rewrite LI|].
  split; [exists (dset s "data" y), n; split; [reflexivity|split; [rewrite dget_dset_other by discriminate; exact E|exact NN]]|].
  split; [apply dget_dset|]. intros j v LJ W. rewrite nth_error_lset in W. replace (j =? i)%nat with false in W by (symmetry; apply Nat.eqb_neq; lia).
  now apply (J j v).
Qed.

(* ------------------------------------------------------------ mixer parameters *)

Lemma insert_of_div a : insert_of a = (a / 64) mod 128.
Proof. unfold insert_of. rewrite Z.shiftr_div_pow2 by lia. change 127 with (Z.ones 7). rewrite Z.land_ones by lia. reflexivity. Qed.
Lemma slot_of_mod a : slot_of a = a mod 64.
Proof. unfold slot_of. change 63 with (Z.ones 6). now rewrite Z.land_ones by lia. Qed.
Lemma address a i s : insert_of a = i /\ slot_of a = s <-> exists top, a = 8192 * top + 64 * i + s /\ 0 <= i < 128 /\ 0 <= s < 64.
Proof.
  rewrite insert_of_div, slot_of_mod. split.
  - intros [<- <-]. exists (a / 8192). lia.
  - intros (top & -> & I & S). lia.
Qed.
Lemma rec_int_spec v k z : rec_int v k = Some z <-> exists d x, v = VDict d /\ dget d k = Some x /\ number x z.
Proof.
  unfold rec_int. split.
  - destruct v; try discriminate. destruct (dget d k) as [x|] eqn:E; [|discriminate]. intros H. exists d, x. repeat split; auto. now apply number_as.
  - intros (d & x & -> & -> & N). now apply number_as.
Qed.
Lemma filed_spec v n so id : filed_of v = Some (Filed n so id) <->
  exists s, addressed v n s id /\ so = if (id =? 0) || (id =? 1) then Some s else None.
Proof.
  unfold filed_of, addressed. replace (mem_Z id [0; 1]) with ((id =? 0) || (id =? 1)) by (cbn; now rewrite orb_false_r). split.
  - destruct (rec_int v "channel_data") as [a|] eqn:A; [|discriminate]. destruct (rec_int v "id") as [i|] eqn:I; [|discriminate].
    intros H. injection H as H1 H2 H3. subst i. exists (slot_of a).
    apply rec_int_spec in A, I. destruct A as (d & x & -> & A1 & A2), I as (d' & y & [= <-] & I1 & I2).
    destruct (proj1 (address a n (slot_of a)) (conj H1 eq_refl)) as (top & T & B).
    split; [|rewrite <- H2; cbn [mem_Z existsb]; rewrite orb_false_r; reflexivity].
    exists d, x, y. split; [reflexivity|]. split; [exact A1|]. split; [exact I1|]. split; [exact I2|]. exists top. split; [congruence|exact B].
  - intros (s & (d & a & m & -> & A & M & NM & top & NA & B1 & B2) & ->).
    replace (rec_int (VDict d) "channel_data") with (Some (8192 * top + 64 * n + s)) by (symmetry; apply rec_int_spec; eauto).
    replace (rec_int (VDict d) "id") with (Some id) by (symmetry; apply rec_int_spec; eauto).
    destruct (proj2 (address (8192 * top + 64 * n + s) n s)) as [-> ->]; [exists top; auto|].
    cbn [mem_Z existsb]. rewrite orb_false_r. reflexivity.
Qed.
Lemma addressed_fun v n s i n' s' i' : addressed v n s i -> addressed v n' s' i' -> n = n' /\ s = s' /\ i = i'.
Proof.
  intros (d & a & m & -> & A & M & NM & top & NA & B1 & B2) (d' & a' & m' & [= <-] & A' & M' & NM' & top' & NA' & B1' & B2').
  rewrite A in A'. rewrite M in M'. injection A' as <-. injection M' as <-. apply number_as in NM, NM', NA, NA'.
  rewrite NM in NM'. rewrite NA in NA'. injection NM' as <-. injection NA' as E. lia.
Qed.
Lemma filed_own v n id : filed_of v = Some (Filed n None id) <-> own_param n id v.
Proof.
  rewrite filed_spec. unfold own_param. split.
  - intros (s & A & E). destruct (Z.eqb_spec id 0), (Z.eqb_spec id 1); try discriminate. eauto.
  - intros (N0 & N1 & s & A). exists s. split; [exact A|]. now destruct (Z.eqb_spec id 0), (Z.eqb_spec id 1).
Qed.
Lemma filed_slot v n s id : filed_of v = Some (Filed n (Some s) id) <-> slot_param n s id v.
Proof.
  rewrite filed_spec. unfold slot_param. split.
  - intros (s' & A & E). destruct (Z.eqb_spec id 0), (Z.eqb_spec id 1); cbn [orb] in E; try discriminate; injection E as <-; auto.
  - intros (N & A). exists s. split; [exact A|]. destruct (Z.eqb_spec id 0), (Z.eqb_spec id 1); reflexivity || lia.
Qed.
Lemma assoc_put d id i k : assoc_Z (own_put d id i) k = if id =? k then Some i else assoc_Z d k.
Proof.
  induction d as [|[a j] d IH]; cbn [own_put assoc_Z]; [reflexivity|]. destruct (Z.eqb_spec a id) as [->|N]; cbn [assoc_Z].
  - destruct (Z.eqb_spec id k); reflexivity.
  - rewrite IH. destruct (Z.eqb_spec a k) as [->|]; [|reflexivity]. destruct (Z.eqb_spec id k); [congruence|reflexivity].
Qed.
Lemma last_at_cons {A} (P : A -> Prop) x l j : last_at P (x :: l) (S j) -> last_at P l j.
Proof. intros ((y & N & Py) & H). split; [eauto|]. intros k z LK Z. apply (H (S k) z); [lia|exact Z]. Qed.
Lemma last_at_0 {A} (P : A -> Prop) x l : last_at P (x :: l) 0 -> P x /\ forall y, In y l -> ~ P y.
Proof.
  intros ((y & E0 & Py) & HL). cbn in E0. injection E0 as <-. split; [exact Py|]. intros z I. apply In_nth_error in I. destruct I as [k K]. apply (HL (S k) z); [lia|exact K].
Qed.
Lemma own_from_spec n id : forall l i d,
  (forall j, last_at (own_param n id) l j -> assoc_Z (own_from l n i d) id = Some (i + j)%nat) /\
  ((forall x, In x l -> ~ own_param n id x) -> assoc_Z (own_from l n i d) id = assoc_Z d id).
Proof.
  induction l as [|v l IH]; intros i d; cbn [own_from].
  - split; [intros j ((x & N & _) & _); destruct j; discriminate|reflexivity].
  - set (d' := match filed_of v with Some _ => _ | None => d end). destruct (IH (S i) d') as [I1 I2].
    assert (D1 : own_param n id v -> assoc_Z d' id = Some i).
    { intros P. apply filed_own in P. unfold d'. rewrite P, Z.eqb_refl, assoc_put, Z.eqb_refl. reflexivity. }
    assert (D2 : ~ own_param n id v -> assoc_Z d' id = assoc_Z d id).
    { intros P. unfold d'. destruct (filed_of v) as [[m [q|] k]|] eqn:F; try reflexivity. destruct (Z.eqb_spec m n) as [->|]; [|reflexivity].
      rewrite assoc_put. destruct (Z.eqb_spec k id) as [->|]; [|reflexivity]. apply filed_own in F. contradiction. }
    split.
    + intros [|j] L.
      * apply last_at_0 in L. destruct L as [P H]. rewrite I2 by exact H. rewrite D1 by exact P. f_equal. lia.
      * rewrite (I1 j) by (eapply last_at_cons; eauto). f_equal. lia.
    + intros H. rewrite I2 by (intros; apply H; now right). apply D2, H. now left.
Qed.
Lemma slot_from_spec n s id : forall l i d,
  (forall j, last_at (slot_param n s id) l j -> assoc_Z (slot_from l n s i d) id = Some (i + j)%nat) /\
  ((forall x, In x l -> ~ slot_param n s id x) -> assoc_Z (slot_from l n s i d) id = assoc_Z d id).
Proof.
  induction l as [|v l IH]; intros i d; cbn [slot_from].
  - split; [intros j ((x & N & _) & _); destruct j; discriminate|reflexivity].
  - set (d' := match filed_of v with Some _ => _ | None => d end). destruct (IH (S i) d') as [I1 I2].
    assert (D1 : slot_param n s id v -> assoc_Z d' id = Some i).
    { intros P. apply filed_slot in P. unfold d'. rewrite P, !Z.eqb_refl; cbn [andb]; rewrite assoc_put, Z.eqb_refl. reflexivity. }
    assert (D2 : ~ slot_param n s id v -> assoc_Z d' id = assoc_Z d id).
    { intros P. unfold d'. destruct (filed_of v) as [[m [q|] k]|] eqn:F; try reflexivity. destruct (Z.eqb_spec m n) as [->|]; [|reflexivity].
      destruct (Z.eqb_spec q s) as [->|]; [|reflexivity]. cbn [andb].
      rewrite assoc_put. destruct (Z.eqb_spec k id) as [->|]; [|reflexivity]. apply filed_slot in F. contradiction. }
    split.
    + intros [|j] L.
      * apply last_at_0 in L. destruct L as [P H]. rewrite I2 by exact H. rewrite D1 by exact P. f_equal. lia.
      * rewrite (I1 j) by (eapply last_at_cons; eauto). f_equal. lia.
    + intros H. rewrite I2 by (intros; apply H; now right). apply D2, H. now left.
Qed.

Lemma own_from_filed n : forall l l' i d, map filed_of l = map filed_of l' -> own_from l n i d = own_from l' n i d.
Proof.
  induction l as [|v l IH]; intros [|v' l'] i d H; try discriminate; [reflexivity|]. cbn [map] in H. injection H as H1 H2.
  cbn [own_from]. rewrite H1. now apply IH.
Qed.

(* an element of a list event *)
Definition element (h : heap) (r i : nat) (d : list (string * val)) : Prop :=
  (r < length (h_evs h))%nat /\ is_list_kind (e_kind (ev_of h r)) = true /\ nth_error (items (ev_of h r)) i = Some (VDict d).
Lemma element_get h r i d k v : element h r i d -> dget d k = Some v -> tg_get h (TItem r i) k = Ok v.
Proof. intros (_ & _ & N) D. cbn [tg_get]. rewrite N. unfold dindex. now rewrite D. Qed.
Lemma element_set h r i d k v : element h r i d -> exists h' w, tg_set h (TItem r i) k v = (h', Ok tt) /\
  only_value h r w h' /\ items (ev_of h' r) = lset (items (ev_of h r)) i (VDict (dset d k v)) /\ element h' r i (dset d k v).
Proof.
  intros (L & K & N). cbn [tg_set]. rewrite N. set (l' := lset (items (ev_of h r)) i (VDict (dset d k v))).
  assert (W : set_items (ev_of h r) l' = with_val (ev_of h r) (e_val (set_items (ev_of h r) l'))).
  { unfold set_items. destruct (ev_of h r); reflexivity. }
  pose proof (set_event_only h r _ L W) as O. eexists _, _. split; [reflexivity|]. split; [exact O|].
  assert (EV : ev_of (set_event h r (set_items (ev_of h r) l')) r = set_items (ev_of h r) l').
  { destruct O as (_ & _ & _ & _ & O). rewrite O. symmetry. exact W. }
  rewrite EV, (items_set h r i _ _ eq_refl N l'). split; [reflexivity|].
  split; [destruct O as (_ & _ & -> & _); exact L|]. rewrite EV. split; [rewrite W; exact K|].
  rewrite (items_set h r i _ _ eq_refl N l'). unfold l'. rewrite nth_error_lset, Nat.eqb_refl.
  assert (LT : (i < length (items (ev_of h r)))%nat) by (apply nth_error_Some; congruence).
  apply Nat.ltb_lt in LT. now rewrite LT.
Qed.

Lemma rec_int_dset d k v k' : k' <> k -> rec_int (VDict (dset d k v)) k' = rec_int (VDict d) k'.
Proof. intros N. cbn [rec_int]. now rewrite dget_dset_other. Qed.
Lemma filed_dset d v : filed_of (VDict (dset d "msg" v)) = filed_of (VDict d).
Proof. unfold filed_of. now rewrite !rec_int_dset by discriminate. Qed.
Lemma map_lset_same {A B} (f : A -> B) l i x y : nth_error l i = Some x -> f y = f x -> map f (lset l i y) = map f l.
Proof.
  revert i. induction l as [|a l IH]; intros [|i] N E; try discriminate; cbn [lset map].
  - cbn in N. injection N as ->. now rewrite E.
  - f_equal. now apply (IH i).
Qed.
Lemma own_last l n id j : last_at (own_param n id) l j -> assoc_Z (own_of l n) id = Some j.
Proof. intros H. unfold own_of. now rewrite (proj1 (own_from_spec n id l 0 []) j H). Qed.
Lemma own_none l n id : (forall x, In x l -> ~ own_param n id x) -> assoc_Z (own_of l n) id = None.
Proof. intros H. unfold own_of. now rewrite (proj2 (own_from_spec n id l 0 []) H). Qed.
Lemma own_dec n id x : {own_param n id x} + {~ own_param n id x}.
Proof.
  destruct (filed_of x) as [[m [q|] k]|] eqn:F.
  - right. intros H. apply filed_own in H. congruence.
  - destruct (Z.eq_dec m n) as [->|]; [destruct (Z.eq_dec k id) as [->|]; [left; now apply filed_own|]|]; right; intros H; apply filed_own in H; congruence.
  - right. intros H. apply filed_own in H. congruence.
Qed.
Lemma last_dec {A} (P : A -> Prop) (D : forall x, {P x} + {~ P x}) l : (exists j, last_at P l j) \/ (forall x, In x l -> ~ P x).
Proof.
  induction l as [|a l [[j J]|N]]; [right; intros x []| |].
  - left. exists (S j). destruct J as ((x & X & Px) & H). split; [exists x; auto|]. intros [|k] y LK Y; [lia|]. apply (H k y); [lia|exact Y].
  - destruct (D a) as [Pa|Na].
    + left. exists 0%nat. split; [exists a; auto|]. intros [|k] y LK Y; [lia|]. apply N. eapply nth_error_In. exact Y.
    + right. intros x [<-|I]; auto.
Qed.

Lemma chosen_one es id k : chosen [id] es (Some k) -> (exists e, nth_error es k = Some e /\ e_id e = id) /\
  forall j e, (j < k)%nat -> nth_error es j = Some e -> e_id e <> id.
Proof.
  intros CH. inversion CH as [i1 i i2 k0 e0 EQ _ N EI J K0|]. destruct i1 as [|x [|y l]]; cbn in EQ; try discriminate.
  injection EQ as EQ _. subst i. split; [exists e0; auto|exact J].
Qed.
Lemma first_chosen h t id k e : chosen [id] (events h t) (Some k) -> nth_error (events h t) k = Some e -> first h t id = Ok e.
Proof.
  intros CH K. unfold first. rewrite get_value. destruct (chosen_one _ _ _ CH) as ((e0 & N & EI) & J). rewrite K in N. injection N as <-.
  clear CH. revert k K J. induction (events h t) as [|x l IH]; intros [|k] K J; try discriminate; cbn [filter].
  - cbn in K. injection K as ->. rewrite EI, Z.eqb_refl. reflexivity.
  - replace (e_id x =? id) with false. { apply (IH k K). intros j y LJ Y. apply (J (S j) y); [lia|exact Y]. }
    symmetry. apply Z.eqb_neq. apply (J 0%nat x); [lia|reflexivity].
Qed.
