(* Proofs about M_Project: first values, versions, guards. *)
From Coq Require Import String ZArith List Bool Lia Arith.
From Verif Require Import M_Base M_Float M_Text M_Construct M_Structs M_Events M_Parse M_Tree M_Prop M_Project.
From Verif Require Import S_Canon S_File S_Domain S_Tree S_Prop S_Real S_Project P_Base P_TreeBase P_Tree P_TreeEdit P_Prop P_Edit.
Import ListNotations.
Open Scope Z_scope.

(* ---------------------------------------------------------------- first values *)

Lemma get_value h t id : get h t [id] = filter (fun e => e_id e =? id) (events h t).
Proof. unfold get. apply filter_ext. intros e. cbn [mem_Z existsb]. apply orb_false_r. Qed.

Lemma value_of_filter id es :
  value_of id es = match filter (fun e => e_id e =? id) es with e :: _ => Some (e_val e) | [] => None end.
Proof. induction es as [|e es IH]; [reflexivity|]. cbn [value_of filter]. destruct (e_id e =? id); [reflexivity|exact IH]. Qed.

Lemma first_val_spec h t id :
  first_val h t id = match value_of id (events h t) with Some v => Ok v | None => Err KeyError end.
Proof.
  unfold first_val, first. rewrite get_value, value_of_filter. destruct (filter _ _); reflexivity.
Qed.

Lemma contains_value h t id :
  contains h t id = match value_of id (events h t) with Some _ => true | None => false end.
Proof.
  unfold contains, events. induction (lst_of h t) as [|c l IH]; [reflexivity|].
  cbn [existsb map value_of]. unfold id_of at 1. destruct (e_id (e_of h c) =? id); [reflexivity|exact IH].
Qed.

Lemma get_ie_events h t id :
  match get_ie h t [id] with
  | [] => value_of id (events h t) = None
  | c :: _ => exists k, nth_error (lst_of h t) k = Some c /\ e_id (e_of h c) = id /\
      forall j y, (j < k)%nat -> nth_error (lst_of h t) j = Some y -> e_id (e_of h y) <> id
  end.
Proof.
  unfold get_ie. destruct (filter _ _) as [|c r] eqn:E.
  - pose proof (filter_nil _ _ _ E) as N. unfold events. clear E. induction (lst_of h t) as [|c l IH]; [reflexivity|].
    cbn [map value_of]. pose proof (N c (or_introl eq_refl)) as X. cbn [mem_Z existsb] in X. rewrite orb_false_r in X.
    unfold id_of in X. rewrite X. apply IH. intros x I. apply N. now right.
  - destruct (filter_head _ _ _ _ _ E) as (k & K & F & J). exists k. split; [exact K|].
    cbn [mem_Z existsb] in F. rewrite orb_false_r in F. split; [unfold id_of in F; lia|].
    intros j y L Y. specialize (J j y L Y). cbn [mem_Z existsb] in J. rewrite orb_false_r in J. unfold id_of in J. lia.
Qed.

Lemma put_lset id v : forall es k e, nth_error es k = Some e -> e_id e = id ->
  (forall j y, (j < k)%nat -> nth_error es j = Some y -> e_id y <> id) -> put id v es = lset es k (with_val e v).
Proof.
  induction es as [|x es IH]; intros [|k] e K I J; try discriminate; cbn [put lset].
  - cbn in K. injection K as ->. replace (e_id e =? id) with true by lia. reflexivity.
  - cbn in K. pose proof (J 0%nat x ltac:(lia) eq_refl). replace (e_id x =? id) with false by lia. f_equal.
    apply IH; [exact K|exact I|]. intros j y L Y. apply (J (S j) y); [lia|exact Y].
Qed.
Lemma put_none id v es : value_of id es = None -> put id v es = es.
Proof.
  induction es as [|x es IH]; [reflexivity|]. cbn [value_of put]. destruct (e_id x =? id); [discriminate|].
  intros H. f_equal. auto.
Qed.
Lemma put_ids id v es : map e_id (put id v es) = map e_id es.
Proof. induction es as [|x es IH]; [reflexivity|]. cbn [put]. destruct (e_id x =? id); cbn [map e_id]; [reflexivity|now rewrite IH]. Qed.
Lemma value_put id v es : value_of id (put id v es) = match value_of id es with Some _ => Some v | None => None end.
Proof.
  induction es as [|x es IH]; [reflexivity|]. cbn [put value_of]. destruct (e_id x =? id) eqn:E; cbn [value_of e_id e_val]; rewrite E; [reflexivity|exact IH].
Qed.
Lemma value_put_other id id' v es : id <> id' -> value_of id (put id' v es) = value_of id es.
Proof.
  intros N. induction es as [|x es IH]; [reflexivity|]. cbn [put value_of]. destruct (Z.eqb_spec (e_id x) id') as [X|X]; cbn [value_of e_id e_val].
  - destruct (Z.eqb_spec (e_id x) id); [congruence|reflexivity].
  - now rewrite IH.
Qed.

(* the objects of the project's list are there, and different *)
Definition tidy (h : heap) : Prop := in_heap h 0 /\ NoDup (refs h 0).
Definition same_shape (h h' : heap) : Prop :=
  h_cells h' = h_cells h /\ h_trees h' = h_trees h /\ length (h_evs h') = length (h_evs h).
Lemma same_shape_refl h : same_shape h h. Proof. repeat split. Qed.
Lemma same_shape_trans a b c : same_shape a b -> same_shape b c -> same_shape a c.
Proof. intros (A & B & C) (D & E & F). repeat split; congruence. Qed.
Lemma tidy_views evs h : evs <> [] -> views (parsed evs) h -> tidy h /\ root_events h = evs.
Proof.
  intros NE V. destruct (views_refs _ _ NE V) as (R0 & E & _). destruct (views_synced _ _ NE V) as (L & _).
  assert (W : in_heap h 0 /\ NoDup (refs h 0)).
  { rewrite R0. split; [|apply seq_NoDup]. unfold in_heap. rewrite R0, E. apply Forall_forall. intros r I. apply in_seq in I. lia. }
  split; [exact W|]. unfold root_events. rewrite events_refs, R0.
  apply nth_ext with no_event no_event; [now rewrite map_length, seq_length|]. intros i Hi.
  rewrite map_length, seq_length in Hi. rewrite (nth_indep _ no_event (ev_of h 0%nat)) by (rewrite map_length, seq_length; lia).
  rewrite map_nth, seq_nth by lia. unfold ev_of. now rewrite E.
Qed.
Lemma shape_tidy h h' : same_shape h h' -> tidy h -> tidy h'.
Proof.
  intros (C & T & L) (A & B). assert (R : refs h' 0 = refs h 0).
  { unfold refs, ref_of, lst_of, tree_of, cell_of. now rewrite C, T. }
  unfold tidy, in_heap in *. rewrite R, L. tauto.
Qed.

Lemma list_ext_nth {A} (a b : list A) : (forall j, nth_error a j = nth_error b j) -> a = b.
Proof.
  revert b. induction a as [|x a IH]; intros [|y b] H; [reflexivity|specialize (H 0%nat); discriminate|specialize (H 0%nat); discriminate|].
  pose proof (H 0%nat) as E. cbn in E. f_equal; [congruence|]. apply IH. intros j. exact (H (S j)).
Qed.

Lemma set_first_spec h id v : tidy h -> value_of id (root_events h) <> None ->
  exists h', set_first h 0 id v = (h', Ok tt) /\ root_events h' = put id v (root_events h) /\ same_shape h h'.
Proof.
  intros (W & ND) N. unfold set_first. pose proof (get_ie_events h 0 id) as G. unfold root_events in *.
  destruct (get_ie h 0 [id]) as [|c l]; [contradiction|]. destruct G as (k & K & I & J).
  assert (R : nth_error (refs h 0) k = Some (ref_of h c)) by (unfold refs; now rewrite nth_error_map, K).
  assert (LT : (ref_of h c < length (h_evs h))%nat).
  { unfold in_heap in W. rewrite Forall_forall in W. apply W. eapply nth_error_In; eauto. }
  pose proof (set_val_only h (ref_of h c) v LT) as O. eexists. split; [reflexivity|].
  destruct (only_value_revalued _ _ _ _ 0 k O ND R) as (RL & RO & (e & e' & RE & RE' & X)).
  split; [|destruct O as (A & B & C & _); repeat split; assumption].
  assert (EC : e = e_of h c) by (rewrite nth_error_events, K in RE; cbn in RE; congruence). subst e.
  rewrite (put_lset id v _ _ _ RE I).
  - apply list_ext_nth. intros j. rewrite nth_error_lset. destruct (Nat.eqb_spec j k) as [->|NJ]; cbn [andb].
    + assert (LK : (k < length (events h 0))%nat) by (apply nth_error_Some; congruence). apply Nat.ltb_lt in LK. rewrite LK, RE'.
      destruct e'; cbn in X. destruct X as (X1 & X2 & X3 & X4 & X5). subst. reflexivity.
    + now apply RO.
  - intros j y L Y. rewrite nth_error_events in Y. destruct (nth_error (lst_of h 0) j) as [d|] eqn:D; [|discriminate].
    cbn in Y. injection Y as <-. exact (J j d L D).
Qed.

Lemma first_root h id : first_val h 0 id = match value_of id (root_events h) with Some v => Ok v | None => Err KeyError end.
Proof. apply first_val_spec. Qed.
Lemma contains_root h id : contains h 0 id = match value_of id (root_events h) with Some _ => true | None => false end.
Proof. apply contains_value. Qed.

(* -------------------------------------------------------------------- versions *)

Definition clash (v : flversion) (k : list Z) : Prop :=
  [v_major v; v_minor v; v_patch v] = k /\ v_build v <> None.
Definition parts_of (v : flversion) : list Z :=
  [v_major v; v_minor v; v_patch v] ++ match v_build v with Some b => [b] | None => [] end.

Lemma ver_cmp_spec v a b c :
  ver_cmp v (FLV a b c None) =
    if (v_major v =? a) && (v_minor v =? b) && (v_patch v =? c) then
      match v_build v with Some _ => Err TypeError | None => Ok Eq end
    else Ok (if lex_lt [v_major v; v_minor v; v_patch v] [a; b; c] then Lt else Gt).
Proof.
  unfold ver_cmp. cbn [v_major v_minor v_patch v_build lex_lt].
  destruct (Z.compare_spec (v_major v) a); destruct (Z.compare_spec (v_minor v) b); destruct (Z.compare_spec (v_patch v) c);
    repeat match goal with |- context [?x =? ?y] => destruct (Z.eqb_spec x y); try lia end; cbn [andb];
    repeat match goal with |- context [?x <? ?y] => destruct (Z.ltb_spec x y); try lia end; cbn [orb andb]; try reflexivity;
    destruct (v_build v); reflexivity.
Qed.
Lemma ver_cmp_swap a b : ver_cmp a b = let* c := ver_cmp b a in Ok (CompOpp c).
Proof.
  unfold ver_cmp. rewrite (Z.compare_antisym (v_major b)), (Z.compare_antisym (v_minor b)), (Z.compare_antisym (v_patch b)).
  destruct (v_major b ?= v_major a); try reflexivity. destruct (v_minor b ?= v_minor a); try reflexivity.
  destruct (v_patch b ?= v_patch a); try reflexivity. cbn [CompOpp]. destruct (v_build a), (v_build b); try reflexivity.
  cbn [bind]. now rewrite Z.compare_antisym.
Qed.

Lemma clash_dec v a b c : {clash v [a; b; c]} + {~ clash v [a; b; c]}.
Proof.
  unfold clash. destruct (list_eq_dec Z.eq_dec [v_major v; v_minor v; v_patch v] [a; b; c]) as [E|N]; [|right; tauto].
  destruct (v_build v); [left; split; [exact E|discriminate]|right; intros [_ X]; congruence].
Qed.

Lemma ver_lt_spec v a b c : ~ clash v [a; b; c] ->
  ver_lt v (FLV a b c None) = Ok (lex_lt [v_major v; v_minor v; v_patch v] [a; b; c]).
Proof.
  intros N. unfold ver_lt. rewrite ver_cmp_spec.
  destruct (Z.eqb_spec (v_major v) a); [destruct (Z.eqb_spec (v_minor v) b); [destruct (Z.eqb_spec (v_patch v) c)|]|]; cbn [andb];
    try (destruct (lex_lt _ _); reflexivity).
  destruct (v_build v) eqn:E; [exfalso; apply N; split; [congruence|rewrite E; discriminate]|].
  cbn [bind lex_lt]. f_equal. lia.
Qed.
Lemma ver_ge_spec v a b c : ~ clash v [a; b; c] ->
  ver_le (FLV a b c None) v = Ok (negb (lex_lt [v_major v; v_minor v; v_patch v] [a; b; c])).
Proof.
  intros N. unfold ver_le. rewrite ver_cmp_swap, ver_cmp_spec.
  destruct (Z.eqb_spec (v_major v) a); [destruct (Z.eqb_spec (v_minor v) b); [destruct (Z.eqb_spec (v_patch v) c)|]|]; cbn [andb];
    try (destruct (lex_lt _ _); reflexivity).
  destruct (v_build v) eqn:E; [exfalso; apply N; split; [congruence|rewrite E; discriminate]|].
  cbn [bind lex_lt CompOpp]. f_equal. lia.
Qed.
Lemma ver_lt_clash v a b c : clash v [a; b; c] -> ver_lt v (FLV a b c None) = Err TypeError.
Proof.
  intros [E B]. injection E as <- <- <-. unfold ver_lt. rewrite ver_cmp_spec, !Z.eqb_refl. cbn [andb]. destruct (v_build v); [reflexivity|congruence].
Qed.
Lemma ver_ge_clash v a b c : clash v [a; b; c] -> ver_le (FLV a b c None) v = Err TypeError.
Proof.
  intros [E B]. injection E as <- <- <-. unfold ver_le. rewrite ver_cmp_swap, ver_cmp_spec, !Z.eqb_refl. cbn [andb]. destruct (v_build v); [reflexivity|congruence].
Qed.

Lemma flversion_parts l v : flversion_of l = Ok v -> (3 <= length l)%nat -> parts_of v = l.
Proof.
  destruct l as [|a [|b [|c [|d [|e l]]]]]; cbn [flversion_of length]; intros [= <-] L; try lia; reflexivity.
Qed.

(* -------------------------------------------------- numbers written and read back *)

Definition digits (s : pystr) : Prop := Forall (fun c => 48 <= c <= 57) s.
Lemma digits_val_digits : forall s acc b, digits s -> s <> [] \/ b = true ->
  digits_val acc b s = Some (fold_left (fun a c => a * 10 + (c - 48)) s acc).
Proof.
  induction s as [|c s IH]; intros acc b D N; cbn [digits_val fold_left].
  - destruct N as [N| ->]; [congruence|reflexivity].
  - inversion D; subst. replace (is_digit c) with true by (unfold is_digit; lia). apply IH; [assumption|now right].
Qed.
Lemma dec_digits_spec : forall f n acc, 0 <= n < 2 ^ Z.of_nat f -> digits acc ->
  exists s, dec_digits f n acc = s ++ acc /\ digits s /\ (f <> O -> s <> []) /\
    forall a, fold_left (fun a c => a * 10 + (c - 48)) s a = a * 10 ^ zlen s + n.
Proof.
  induction f as [|f IH]; intros n acc H D.
  - exists []. cbn. repeat split; try constructor; try congruence. intros a. change (2 ^ Z.of_nat 0) with 1 in H. change (10 ^ zlen (@nil Z)) with 1. lia.
  - cbn [dec_digits]. set (c := 48 + n mod 10). assert (HC : 48 <= c <= 57) by (unfold c; lia).
    destruct (Z.ltb_spec n 10).
    + exists [c]. repeat split; [repeat constructor; lia|discriminate|]. intros a. cbn [fold_left]. change (10 ^ zlen [c]) with 10. unfold c. lia.
    + assert (D' : digits (c :: acc)) by (constructor; [exact HC|exact D]).
      rewrite Nat2Z.inj_succ, Z.pow_succ_r in H by lia. assert (PP : 0 < 2 ^ Z.of_nat f) by (apply Z.pow_pos_nonneg; lia).
      destruct (IH (n / 10) (c :: acc) ltac:(lia) D') as (s & E & Ds & _ & F).
      exists (s ++ [c]). rewrite E, <- app_assoc. split; [reflexivity|]. split; [apply Forall_app; split; [exact Ds|repeat constructor; lia]|].
      split; [destruct s; discriminate|]. intros a. rewrite fold_left_app, F. cbn [fold_left]. rewrite zlen_app, zlen_cons.
      change (zlen (@nil Z)) with 0. rewrite Z.pow_add_r by (try apply zlen_nonneg; lia). change (10 ^ (0 + 1)) with 10. unfold c. ring_simplify. lia.
Qed.

Lemma str_int_digits n : 0 <= n -> digits (py_str_int n) /\ py_str_int n <> [] /\
  forall a, fold_left (fun a c => a * 10 + (c - 48)) (py_str_int n) a = a * 10 ^ zlen (py_str_int n) + n.
Proof.
  intros H. unfold py_str_int. replace (n <? 0) with false by lia. rewrite (Z.abs_eq n H).
  destruct (dec_digits_spec (S (Z.to_nat (Z.log2 n))) n []) as (s & E & D & N & F); [|constructor|].
  - rewrite Nat2Z.inj_succ, Z2Nat.id by apply Z.log2_nonneg. split; [exact H|].
    destruct (Z.eq_dec n 0) as [->|]; [reflexivity|]. apply Z.log2_spec. lia.
  - rewrite E, app_nil_r. split; [exact D|]. split; [apply N; discriminate|exact F].
Qed.
Lemma drop_blanks_digits s : digits s -> drop_blanks s = s.
Proof. intros [|c l H _]; [reflexivity|]. cbn [drop_blanks]. replace (is_blank c) with false by (unfold is_blank; lia). reflexivity. Qed.
Lemma py_int_str n : 0 <= n -> py_int (py_str_int n) = Some n.
Proof.
  intros H. destruct (str_int_digits n H) as (D & N & F). unfold py_int.
  rewrite (drop_blanks_digits _ D), (drop_blanks_digits (rev _)) by (apply Forall_rev; exact D). rewrite rev_involutive.
  destruct (py_str_int n) as [|c r] eqn:E; [congruence|]. inversion D; subst.
  replace (c =? 43) with false by lia. replace (c =? 45) with false by lia.
  rewrite digits_val_digits by (auto; left; discriminate). f_equal. rewrite F. lia.
Qed.

Lemma split_no sep s : Forall (fun c => c <> sep) s -> split_on sep s = [s].
Proof.
  induction 1 as [|c s H _ IH]; [reflexivity|]. cbn [split_on]. replace (c =? sep) with false by lia. now rewrite IH.
Qed.
Lemma split_app sep s r : Forall (fun c => c <> sep) s -> split_on sep (s ++ sep :: r) = s :: split_on sep r.
Proof.
  induction 1 as [|c s H _ IH]; cbn [app split_on].
  - now rewrite Z.eqb_refl.
  - replace (c =? sep) with false by lia. now rewrite IH.
Qed.
Lemma split_join sep l : l <> [] -> Forall (Forall (fun c => c <> sep)) l -> split_on sep (join_with sep l) = l.
Proof.
  intros N F. induction F as [|x l H F IH]; [congruence|]. destruct l as [|y l]; [now apply split_no|].
  change (join_with sep (x :: y :: l)) with (x ++ sep :: join_with sep (y :: l)). rewrite split_app by exact H.
  f_equal. apply IH. discriminate.
Qed.
Lemma digits_not_dot s : digits s -> Forall (fun c => c <> 46) s.
Proof. intros D. eapply Forall_impl; [|exact D]. cbn beta. lia. Qed.

Lemma int_parts_join l : l <> [] -> Forall (fun n => 0 <= n) l ->
  int_parts (join_with 46 (map py_str_int l)) = Ok l.
Proof.
  intros N F. unfold int_parts. rewrite split_join.
  - clear N. induction F as [|n l H F IH]; [reflexivity|]. cbn [map mapr]. rewrite (py_int_str n H). cbn [bind]. now rewrite IH.
  - destruct l; [congruence|discriminate].
  - clear N. induction F as [|n l H F IH]; constructor; [|exact IH]. apply digits_not_dot. now apply str_int_digits.
Qed.

(* the text of a version *)
Definition ver_text (l : list Z) : pystr := join_with 46 (map py_str_int l).
Lemma ver_text_chars l : Forall (fun n => 0 <= n) l -> Forall (fun c => c = 46 \/ 48 <= c <= 57) (ver_text l).
Proof.
  unfold ver_text. induction 1 as [|n l H F IH]; [constructor|]. cbn [map].
  assert (X : Forall (fun c => c = 46 \/ 48 <= c <= 57) (py_str_int n)).
  { eapply Forall_impl; [|apply str_int_digits; exact H]. cbn beta. lia. }
  destruct l as [|m l]; [exact X|].
  change (join_with 46 (py_str_int n :: map py_str_int (m :: l))) with (py_str_int n ++ 46 :: join_with 46 (map py_str_int (m :: l))).
  apply Forall_app. split; [exact X|]. constructor; [now left|exact IH].
Qed.

Lemma version_get_put h h' l : root_events h' = put 199 (VStr (ver_text l)) (root_events h) ->
  value_of 199 (root_events h) <> None -> l <> [] -> Forall (fun n => 0 <= n) l -> version_get h' = flversion_of l.
Proof.
  intros R N NL F. unfold version_get. rewrite first_root, R, value_put.
  destruct (value_of 199 (root_events h)); [|congruence]. cbn [bind]. unfold ver_text. now rewrite int_parts_join.
Qed.
Lemma version_get_same h h' : value_of 199 (root_events h') = value_of 199 (root_events h) -> version_get h' = version_get h.
Proof. intros E. unfold version_get. now rewrite !first_root, E. Qed.

(* setting the version *)
Lemma version_set_spec h l a : tidy h -> value_of 199 (root_events h) <> None ->
  version_list a = Ok l -> (length l = 3 \/ length l = 4)%nat -> Forall (fun n => 0 <= n) l ->
  exists h' v, version_set h a = (h', Ok tt) /\ same_shape h h' /\
    root_events h' = match l with
                     | [_; _; _; b] => put 159 (VInt b) (put 199 (VStr (ver_text l)) (root_events h))
                     | _ => put 199 (VStr (ver_text l)) (root_events h)
                     end /\
    version_get h' = Ok v /\ parts_of v = l.
Proof.
  intros T N A L F. unfold version_set. rewrite contains_root. destruct (value_of 199 (root_events h)) as [old|] eqn:V; [|congruence].
  cbn [negb]. rewrite A. cbn [with_res].
  replace ((length l <? 3)%nat || (4 <? length l)%nat) with false
    by (symmetry; apply orb_false_iff; split; [apply Nat.ltb_ge|apply Nat.ltb_ge]; lia).
  fold (ver_text l).
  destruct (set_first_spec h 199 (VStr (ver_text l)) T ltac:(congruence)) as (h1 & -> & R1 & S1). unfold and_then at 1. cbn [fst snd].
  assert (G : forall h2, version_get h2 = version_get h1 -> exists v, version_get h2 = Ok v /\ parts_of v = l).
  { intros h2 E. rewrite E, (version_get_put h h1 l R1 ltac:(congruence) ltac:(destruct l; [cbn in L; lia|discriminate]) F).
    destruct l as [|x [|y [|z [|w [|? l]]]]]; cbn in L; try lia; eexists; (split; [reflexivity|reflexivity]). }
  destruct L as [L|L].
  - destruct l as [|x [|y [|z [|w l]]]]; cbn in L; try lia. destruct (G h1 eq_refl) as (v & G1 & G2).
    exists h1, v. split; [reflexivity|]. auto.
  - destruct l as [|x [|y [|z [|w [|? l]]]]]; cbn in L; try lia. rewrite contains_root.
    destruct (value_of 159 (root_events h1)) as [ob|] eqn:B.
    + destruct (set_first_spec h1 159 (VInt w) (shape_tidy _ _ S1 T) ltac:(congruence)) as (h2 & E2 & R2 & S2).
      rewrite E2. destruct (G h2) as (v & G1 & G2).
      { apply version_get_same. rewrite R2. apply value_put_other. lia. }
      exists h2, v. split; [reflexivity|]. split; [eapply same_shape_trans; eauto|]. split; [congruence|auto].
    + destruct (G h1 eq_refl) as (v & G1 & G2). exists h1, v. split; [reflexivity|]. split; [exact S1|]. split; [|auto].
      rewrite <- R1. symmetry. now apply put_none.
Qed.

Lemma version_set_refused h a :
  (value_of 199 (root_events h) = None /\ version_set h a = (h, Err PropertyCannotBeSet)) \/
  (value_of 199 (root_events h) <> None /\ 
   (forall l, version_list a = Ok l -> (length l < 3 \/ 4 < length l)%nat -> version_set h a = (h, Err ValueError)) /\
   (forall x, version_list a = Err x -> version_set h a = (h, Err x))).
Proof.
  unfold version_set. rewrite contains_root. destruct (value_of 199 (root_events h)); [right|left; auto].
  split; [discriminate|]. cbn [negb]. split.
  - intros l -> L. cbn [with_res]. replace ((length l <? 3)%nat || (4 <? length l)%nat) with true; [reflexivity|].
    symmetry. apply orb_true_iff. destruct L; [left|right]; now apply Nat.ltb_lt.
  - intros x ->. reflexivity.
Qed.

(* -------------------------------------------------------------------- licensee *)

Lemma jumble_kept alnum idx c : (forall n, 0 <= n < 128 -> (alnum n = true <-> letter_or_digit n)) ->
  letter_or_digit c -> 0 <= idx -> idx < c + 26 ->
  exists k, jumble idx c = [k] /\ 0 < k < 128 /\ unjumble alnum idx k = Ok [c].
Proof.
  intros HA HC HI HK. unfold jumble. cbv zeta. assert (RC : 48 <= c <= 122) by (unfold letter_or_digit in HC; lia).
  destruct (Z.leb_spec (c + 26 - idx) 127).
  - replace (0 <? c + 26 - idx) with true by lia. cbn [andb]. eexists. split; [reflexivity|]. split; [lia|].
    unfold unjumble. cbv zeta. replace (c + 26 - idx - 26 + idx) with c by ring.
    replace ((c <? 0) || (1114111 <? c)) with false by lia. rewrite (proj2 (HA c ltac:(lia)) HC). replace (c <? 256) with true by lia. reflexivity.
  - replace (0 <? c + 26 - idx) with true by lia. cbn [andb].
    replace ((0 <? c - 49 - idx) && (c - 49 - idx <=? 127)) with true by lia. eexists. split; [reflexivity|]. split; [lia|].
    unfold unjumble. cbv zeta. replace (c - 49 - idx - 26 + idx) with (c - 75) by ring. replace (c - 49 - idx + 49 + idx) with c by ring.
    replace ((c - 75 <? 0) || (1114111 <? c - 75)) with false by lia.
    destruct (alnum (c - 75)) eqn:E; [exfalso; apply HA in E; unfold letter_or_digit in E; lia|].
    replace ((c <? 0) || (1114111 <? c)) with false by lia. rewrite (proj2 (HA c ltac:(lia)) HC). replace (c <? 256) with true by lia. reflexivity.
Qed.
Lemma jumble_dropped idx c : letter_or_digit c -> 0 <= idx -> (jumble idx c = [] <-> c + 26 <= idx).
Proof.
  intros HC HI. assert (RC : 48 <= c <= 122) by (unfold letter_or_digit in HC; lia). unfold jumble. cbv zeta.
  destruct (Z.ltb_spec 0 (c + 26 - idx)); destruct (Z.leb_spec (c + 26 - idx) 127); destruct (Z.ltb_spec 0 (c - 49 - idx));
    destruct (Z.leb_spec (c - 49 - idx) 127); cbn [andb]; split; intros; try discriminate; try lia; reflexivity.
Qed.
(* every character can be kept at its place *)
Fixpoint all_kept (idx : Z) (s : pystr) : Prop :=
  match s with [] => True | c :: r => idx < c + 26 /\ all_kept (idx + 1) r end.
Lemma all_kept_short : forall s idx, Forall letter_or_digit s -> idx + zlen s <= 74 -> all_kept idx s.
Proof.
  induction s as [|c s IH]; intros idx F L; cbn [all_kept]; [exact I|]. inversion F; subst. rewrite zlen_cons in L. pose proof (zlen_nonneg _ s).
  split; [unfold letter_or_digit in *; lia|]. apply IH; [assumption|lia].
Qed.
Lemma jumble_all_spec alnum : (forall n, 0 <= n < 128 -> (alnum n = true <-> letter_or_digit n)) ->
  forall s idx, Forall letter_or_digit s -> 0 <= idx -> all_kept idx s ->
  zlen (jumble_all idx s) = zlen s /\ Forall (fun c => 0 < c < 128) (jumble_all idx s) /\
  unjumble_all alnum idx (jumble_all idx s) = Ok s.
Proof.
  intros HA. induction s as [|c s IH]; intros idx F HI K; [repeat split; constructor|]. inversion F; subst. destruct K as [K1 K2].
  destruct (jumble_kept alnum idx c HA) as (k & E1 & E2 & E3); try assumption.
  destruct (IH (idx + 1)) as (J1 & J2 & J3); try assumption; [lia|].
  cbn [jumble_all]. rewrite E1. cbn [app unjumble_all]. rewrite E3. cbn [bind]. rewrite J3. cbn [bind app].
  rewrite !zlen_cons. split; [lia|]. split; [constructor; assumption|reflexivity].
Qed.
Lemma jumble_all_range : forall s idx, Forall (fun c => 0 < c < 128) (jumble_all idx s).
Proof.
  induction s as [|c s IH]; intros idx; cbn [jumble_all]; [constructor|]. apply Forall_app. split; [|apply IH].
  unfold jumble. cbv zeta. destruct (Z.ltb_spec 0 (c + 26 - idx)); destruct (Z.leb_spec (c + 26 - idx) 127); cbn [andb]; try (repeat constructor; lia);
    destruct (Z.ltb_spec 0 (c - 49 - idx)); destruct (Z.leb_spec (c - 49 - idx) 127); cbn [andb]; repeat constructor; lia.
Qed.
Lemma ascii_dec_letters s : Forall letter_or_digit s -> ascii_dec s = Some s.
Proof.
  intros F. unfold ascii_dec. replace (forallb (fun c => c <? 128) s) with true; [reflexivity|]. symmetry. apply forallb_forall.
  rewrite Forall_forall in F. intros c I. specialize (F c I). unfold letter_or_digit in F. lia.
Qed.
Lemma licensee_read alnum h s : (forall n, 0 <= n < 128 -> (alnum n = true <-> letter_or_digit n)) ->
  Forall letter_or_digit s -> all_kept 0 s -> value_of 200 (root_events h) = Some (VStr (jumble_all 0 s)) ->
  licensee_get alnum h = Ok (VStr s).
Proof.
  intros HA F K V. unfold licensee_get. rewrite contains_root, first_root, V. cbn [bind].
  destruct (jumble_all_spec alnum HA s 0 F ltac:(lia) K) as (_ & _ & ->). cbn [bind]. now rewrite ascii_dec_letters.
Qed.

(* the first event with an id is the chosen one *)
Lemma chosen_one id es k : chosen [id] es (Some k) <->
  exists e, nth_error es k = Some e /\ e_id e = id /\ forall j e', (j < k)%nat -> nth_error es j = Some e' -> e_id e' <> id.
Proof.
  split.
  - intros C. inversion C as [ids1 id0 ids2 k0 e0 EQ NI K EI J E0|]. destruct ids1 as [|a [|b l]]; try discriminate. injection EQ as EQ _.
    exists e0. rewrite EQ. auto.
  - intros (e & N & I & J). apply (ch_some _ _ [] id [] k e); auto.
Qed.
Lemma value_of_chosen id es v : value_of id es = Some v -> exists k e, chosen [id] es (Some k) /\ nth_error es k = Some e /\ e_id e = id /\ e_val e = v.
Proof.
  induction es as [|x es IH]; [discriminate|]. cbn [value_of]. destruct (Z.eqb_spec (e_id x) id) as [E|E].
  - intros [= <-]. exists 0%nat, x. split; [|auto]. apply chosen_one. exists x. split; [reflexivity|]. split; [exact E|]. intros j e' L. lia.
  - intros H. destruct (IH H) as (k & e & C & N & I & V). exists (S k), e. split; [|auto].
    apply chosen_one in C as (e0 & N0 & I0 & J). apply chosen_one. exists e0. split; [exact N0|]. split; [exact I0|].
    intros [|j] e' L N'; cbn in N'; [congruence|]. apply (J j e' ltac:(lia) N').
Qed.
Lemma chosen_value_of id es k e : chosen [id] es (Some k) -> nth_error es k = Some e -> value_of id es = Some (e_val e) /\ e_id e = id.
Proof.
  intros C N. apply chosen_one in C as (e0 & N0 & I0 & J). assert (e0 = e) by congruence. subst e0. split; [|exact I0].
  clear N0. revert k N J. induction es as [|x es IH]; intros [|k] N J; try discriminate; cbn [value_of].
  - cbn in N. injection N as ->. now replace (e_id e =? id) with true by lia.
  - pose proof (J 0%nat x ltac:(lia) eq_refl). replace (e_id x =? id) with false by lia. apply (IH k); [exact N|].
    intros j e' L N'. apply (J (S j) e'); [lia|exact N'].
Qed.
Lemma set_first_prop en h id d v : value_of id (root_events h) <> None ->
  set_first h 0 id v = prop_set en h (EvModel 0) (MkProp [id] d false PEvent) v.
Proof.
  intros N. unfold set_first, prop_set. cbn [p_readonly p_ids get_event first_of]. rewrite contains_root.
  destruct (value_of id (root_events h)) as [o|] eqn:V; [|congruence].
  pose proof (get_ie_events h 0 id) as G. destruct (get_ie h 0 [id]) as [|c l]; [unfold root_events in V; congruence|]. reflexivity.
Qed.
Lemma reloaded_value id a k v b : chosen [id] a (Some k) -> reloaded a k v b -> value_of id b = Some v.
Proof.
  intros C (L & O & (x & y & X & Y & EI & EK & EV)). destruct (chosen_value_of _ _ _ _ C X) as [_ IX].
  assert (C' : chosen [id] b (Some k)).
  { eapply chosen_ids; [|exact C]. apply list_ext_nth. intros j. rewrite !nth_error_map.
    destruct (Nat.eq_dec j k) as [->|NJ]; [rewrite X, Y; cbn; congruence|].
    destruct (nth_error a j) as [z|] eqn:Z1.
    - destruct (O j z NJ Z1) as (w & W & S & _). rewrite W. cbn. congruence.
    - apply nth_error_None in Z1. rewrite <- L in Z1. apply nth_error_None in Z1. now rewrite Z1. }
  destruct (chosen_value_of _ _ _ _ C' Y) as [V _]. congruence.
Qed.

(* ---------------------------------------------------------------------- header *)
