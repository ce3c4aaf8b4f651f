(* Proofs about iterating patterns. *)
From Coq Require Import String ZArith List Bool Lia Arith Permutation.
From Verif Require Import M_Base M_Float M_Text M_Construct M_Structs M_Events M_Parse M_Tree M_Prop M_Project M_Items M_Collections.
From Verif Require Import S_Canon S_File S_Tree S_Prop S_Project S_Items S_Collections.
From Verif Require Import P_Base P_Payload P_File P_Null P_TreeBase P_Tree P_TreeEdit P_Prop P_Edit P_Project P_Items.
Import ListNotations.
Open Scope Z_scope.

(* ------------------------------------------------------------ grouping by label *)

Lemma mem_Z_false x l : mem_Z x l = false <-> ~ In x l.
Proof. rewrite <- (mem_Z_in x l). destruct (mem_Z x l); split; intros; congruence. Qed.

Lemma firsts_in l : forall x, In x (firsts l) <-> In x l.
Proof.
  induction l as [|y l IH]; intros x; cbn [firsts]; [reflexivity|]. cbn [In]. rewrite filter_In, IH.
  destruct (Z.eq_dec y x) as [->|N]; [tauto|]. replace (negb (x =? y)) with true by (symmetry; apply negb_true_iff, Z.eqb_neq; congruence). tauto.
Qed.
Lemma firsts_nodup l : NoDup (firsts l).
Proof.
  induction l as [|y l IH]; cbn [firsts]; constructor.
  - rewrite filter_In, Z.eqb_refl. intros [_ X]. discriminate.
  - now apply NoDup_filter.
Qed.
Lemma firsts_snoc l x : firsts (l ++ [x]) = if mem_Z x l then firsts l else firsts l ++ [x].
Proof.
  induction l as [|y l IH]; [reflexivity|]. cbn [app firsts]. rewrite IH. change (mem_Z x (y :: l)) with ((x =? y) || mem_Z x l).
  destruct (mem_Z x l); [now rewrite orb_true_r|]. rewrite orb_false_r, filter_app. cbn [filter]. destruct (Z.eqb_spec x y) as [->|N]; cbn [negb app].
  - now rewrite app_nil_r.
  - reflexivity.
Qed.

Definition labelled (mine : list (nat * Z)) (z : Z) : list nat := map fst (filter (fun x => snd x =? z) mine).

Lemma dict_append_in d z c : NoDup (map fst d) -> In z (map fst d) ->
  dict_append d z c = map (fun x => (fst x, if fst x =? z then snd x ++ [c] else snd x)) d.
Proof.
  induction d as [|[k l] d IH]; intros ND I; [destruct I|]. cbn [dict_append map fst snd]. cbn [map fst] in ND, I. inversion ND; subst.
  destruct (Z.eqb_spec k z) as [->|N].
  - f_equal. rewrite <- (map_id d) at 1. apply map_ext_in. intros [k' l'] I'. cbn [fst snd].
    replace (k' =? z) with false; [reflexivity|]. symmetry. apply Z.eqb_neq. intros ->. apply H1. apply in_map_iff. exists (z, l'). auto.
  - f_equal. apply IH; [assumption|]. destruct I; [congruence|assumption].
Qed.
Lemma dict_append_new d z c : ~ In z (map fst d) -> dict_append d z c = d ++ [(z, [c])].
Proof.
  induction d as [|[k l] d IH]; intros NI; [reflexivity|]. cbn [dict_append]. cbn [map fst In] in NI.
  replace (k =? z) with false by (symmetry; apply Z.eqb_neq; tauto). cbn [app]. f_equal. apply IH. tauto.
Qed.
Lemma dict_of_labels mine :
  fold_left (fun d x => dict_append d (snd x) (fst x)) mine [] = map (fun z => (z, labelled mine z)) (firsts (map snd mine)).
Proof.
  induction mine as [|[c z] mine IH] using rev_ind; [reflexivity|]. rewrite fold_left_app. cbn [fold_left fst snd]. rewrite IH.
  rewrite map_app. cbn [map snd]. rewrite firsts_snoc.
  assert (K : map fst (map (fun z => (z, labelled mine z)) (firsts (map snd mine))) = firsts (map snd mine)) by (rewrite map_map; apply map_id).
  assert (LB : forall y, labelled (mine ++ [(c, z)]) y = labelled mine y ++ if z =? y then [c] else []).
  { intros y. unfold labelled. rewrite filter_app, map_app. cbn [filter snd]. now destruct (z =? y). }
  destruct (mem_Z z (map snd mine)) eqn:M.
  - apply mem_Z_in in M. rewrite dict_append_in by (rewrite K; first [apply firsts_nodup|now apply firsts_in]).
    rewrite map_map. apply map_ext. intros y. cbn [fst snd]. rewrite LB, Z.eqb_sym. now destruct (z =? y); rewrite ?app_nil_r.
  - apply mem_Z_false in M. rewrite dict_append_new by (rewrite K, firsts_in; exact M). rewrite map_app. cbn [map]. f_equal.
    + apply map_ext_in. intros y I. rewrite LB. apply (proj1 (firsts_in _ _)) in I.
      replace (z =? y) with false by (symmetry; apply Z.eqb_neq; congruence). now rewrite app_nil_r.
    + rewrite LB, Z.eqb_refl. do 2 f_equal. unfold labelled.
      replace (filter (fun x => snd x =? z) mine) with (@nil (nat * Z)); [reflexivity|]. symmetry.
      clear -M. induction mine as [|[d y] mine IH]; [reflexivity|]. cbn [map snd In] in M. cbn [filter snd].
      replace (y =? z) with false by (symmetry; apply Z.eqb_neq; tauto). apply IH. tauto.
Qed.

(* ------------------------------------------------------------ the id in force *)

Fixpoint forces (cur : Z) (es : list event) : option (list Z) :=
  match es with
  | [] => Some []
  | e :: r => match (if e_id e =? 65 then as_int (e_val e) else Some cur) with
              | Some cur => option_map (cons cur) (forces cur r)
              | None => None
              end
  end.
Lemma forces_length es : forall cur zs, forces cur es = Some zs -> length zs = length es.
Proof.
  induction es as [|e es IH]; intros cur zs H; cbn [forces] in H; [injection H as <-; reflexivity|].
  destruct (if _ : bool then _ else _) as [c|]; [|discriminate]. destruct (forces c es) as [ys|] eqn:F; [|discriminate].
  cbn in H. injection H as <-. cbn [length]. now rewrite (IH _ _ F).
Qed.
Lemma forces_spec es : forall cur zs k z, forces cur es = Some zs -> nth_error zs k = Some z ->
  (exists j e, last_at announces (firstn (S k) es) j /\ nth_error es j = Some e /\ number (e_val e) z) \/
  (Forall (fun e => ~ announces e) (firstn (S k) es) /\ z = cur).
Proof.
  induction es as [|e es IH]; intros cur zs k z H K; cbn [forces] in H; [injection H as <-; now destruct k|].
  destruct (if _ : bool then _ else _) as [c|] eqn:C; [|discriminate]. destruct (forces c es) as [ys|] eqn:F; [|discriminate].
  cbn in H. injection H as <-.
  assert (E0 : (announces e /\ number (e_val e) c) \/ (~ announces e /\ c = cur)).
  { unfold announces. destruct (Z.eqb_spec (e_id e) 65); [left; split; [assumption|now apply number_as]|right; split; [assumption|congruence]]. }
  destruct k as [|k]; cbn [nth_error] in K.
  - injection K as <-. cbn [firstn]. destruct E0 as [[A N]|[A N]].
    + left. exists 0%nat, e. split; [|split; [reflexivity|exact N]]. split; [exists e; auto|]. intros j x L X. destruct j as [|[|j]]; cbn in X; [lia|discriminate|discriminate].
    + right. split; [constructor; auto|congruence].
  - destruct (IH _ _ k z F K) as [(j & x & (P1 & P2) & X & N)|[A ->]].
    + left. exists (S j), x. split; [|split; [exact X|exact N]]. change (firstn (S (S k)) (e :: es)) with (e :: firstn (S k) es).
      split; [exact P1|]. intros [|j'] y L Y; [lia|]. apply (P2 j' y); [lia|exact Y].
    + change (firstn (S (S k)) (e :: es)) with (e :: firstn (S k) es). destruct E0 as [[A' N]|[A' N]].
      * left. exists 0%nat, e. split; [|split; [reflexivity|exact N]]. split; [exists e; auto|].
        intros [|j] y L Y; [lia|]. cbn [nth_error] in Y. rewrite Forall_forall in A. apply A. eapply nth_error_In; eauto.
      * right. split; [constructor; assumption|congruence].
Qed.
Lemma forces_in_force es zs k z : forces 0 es = Some zs -> nth_error zs k = Some z -> in_force es k z.
Proof.
  intros F K. destruct (forces_spec _ _ _ _ _ F K) as [(j & e & A & B & C)|[A ->]]; [now apply announced with j e|now apply unannounced].
Qed.
Lemma number_fun v a b : number v a -> number v b -> a = b.
Proof. intros A B. apply number_as in A, B. congruence. Qed.
Lemma last_at_fun A (P : A -> Prop) l i j : last_at P l i -> last_at P l j -> i = j.
Proof.
  intros ((x & X & PX) & LX) ((y & Y & PY) & LY). destruct (Nat.lt_trichotomy i j) as [L|[E|L]]; [|assumption|].
  - destruct (LX _ _ L Y PY).
  - destruct (LY _ _ L X PX).
Qed.
Lemma in_force_fun es k a b : in_force es k a -> in_force es k b -> a = b.
Proof.
  intros A B. destruct A as [j e z LA X N|F]; destruct B as [j' e' z' LA' X' N'|F'].
  - pose proof (last_at_fun _ _ _ _ _ LA LA'). subst j'. assert (e' = e) by congruence. subst. eapply number_fun; eauto.
  - destruct LA as ((x & I & P) & _). apply nth_error_In in I. rewrite Forall_forall in F'. destruct (F' _ I P).
  - destruct LA' as ((x & I & P) & _). apply nth_error_In in I. rewrite Forall_forall in F. destruct (F _ I P).
  - reflexivity.
Qed.

Definition is_mine (h : heap) (x : nat * Z) : bool := pattern_event (e_of h (fst x)).
Lemma pattern_ids_eq e : mem_Z (e_id e) (members PatternIDs ++ members TimeMarkerIDs) = pattern_event e.
Proof.
  unfold pattern_event. apply eq_true_iff_eq. rewrite mem_Z_in, existsb_exists. split.
  - intros I. exists (e_id e). split; [|apply Z.eqb_refl]. vm_compute in I. vm_compute. tauto.
  - intros (x & I & E). apply Z.eqb_eq in E. subst x. vm_compute in I. vm_compute. tauto.
Qed.
Lemma fill_forces h l : forall cur d, patterns_fill h l cur d =
  match forces cur (map (e_of h) l) with
  | Some zs => Ok (fold_left (fun d x => dict_append d (snd x) (fst x)) (filter (is_mine h) (combine l zs)) d)
  | None => Err TypeError
  end.
Proof.
  induction l as [|c l IH]; intros cur d; cbn [patterns_fill map forces]; [reflexivity|].
  unfold id_of. destruct (e_id (e_of h c) =? 65) eqn:E65.
  - destruct (as_int (e_val (e_of h c))) as [z|]; cbn [bind]; [|reflexivity]. rewrite IH.
    destruct (forces z (map (e_of h) l)) as [zs|]; cbn [option_map]; [|reflexivity]. cbn [combine filter].
    unfold is_mine at 2. cbn [fst]. rewrite <- pattern_ids_eq. destruct (mem_Z _ _); reflexivity.
  - cbn [bind]. rewrite IH. destruct (forces cur (map (e_of h) l)) as [zs|]; cbn [option_map]; [|reflexivity]. cbn [combine filter].
    unfold is_mine at 2. cbn [fst]. rewrite <- pattern_ids_eq. destruct (mem_Z _ _); reflexivity.
Qed.

Definition mine (h : heap) (t : nat) (zs : list Z) : list (nat * Z) := filter (is_mine h) (combine (lst_of h t) zs).

Lemma combine_fst A B (l : list A) (m : list B) : length m = length l -> map fst (combine l m) = l.
Proof. revert m. induction l as [|x l IH]; intros [|y m] H; try discriminate; [reflexivity|]. cbn. f_equal. apply IH. cbn in H. lia. Qed.
Lemma labelled_subseq h t zs z : length zs = length (lst_of h t) -> subseq (labelled (mine h t zs) z) (lst_of h t).
Proof.
  intros L. unfold labelled. replace (lst_of h t) with (map fst (combine (lst_of h t) zs)) by (now apply combine_fst). apply subseq_map.
  eapply subseq_trans; [apply subseq_filter|]. unfold mine. apply subseq_filter.
Qed.

Lemma patterns_iter_spec h t h' us : ordered h t -> patterns_iter h t = (h', Ok us) ->
  exists zs, forces 0 (events h t) = Some zs /\ extends h h' /\
    map (lst_of h') us = map (labelled (mine h t zs)) (firsts (map snd (mine h t zs))).
Proof.
  intros O H. unfold patterns_iter in H. rewrite fill_forces in H. unfold events. fold (mine h t) in H.
  destruct (forces 0 (map (e_of h) (lst_of h t))) as [zs|] eqn:F; [|discriminate]. exists zs. split; [reflexivity|].
  pose proof (forces_length _ _ _ F) as L. rewrite map_length in L. fold (mine h t zs) in H. rewrite dict_of_labels, map_map in H. cbn [snd] in H.
  destruct (new_trees h t _) as [h1 vs] eqn:E. injection H as <- <-. split; [now destruct (new_trees_spec _ _ _ _ _ E)|].
  apply (new_trees_sub _ _ _ _ _ O) in E; [exact E|]. apply Forall_forall. intros x I. apply in_map_iff in I. destruct I as (z & <- & _).
  now apply labelled_subseq.
Qed.

(* ------------------------------------------------------------ each event once *)

Lemma combine_in A B (l : list A) (m : list B) a b : In (a, b) (combine l m) <-> exists k, nth_error l k = Some a /\ nth_error m k = Some b.
Proof.
  revert m. induction l as [|x l IH]; intros m; cbn [combine].
  - split; [intros []|]. intros (k & K & _). now destruct k.
  - destruct m as [|y m].
    + split; [intros []|]. intros (k & _ & K). now destruct k.
    + cbn [In]. rewrite IH. split.
      * intros [E|(k & K1 & K2)]; [injection E as -> ->; exists 0%nat; auto|exists (S k); auto].
      * intros ([|k] & K1 & K2); cbn in K1, K2; [left; congruence|right; eauto].
Qed.
Lemma mine_in h t zs c z : In (c, z) (mine h t zs) <->
  exists k, nth_error (lst_of h t) k = Some c /\ nth_error zs k = Some z /\ pattern_event (e_of h c) = true.
Proof.
  unfold mine. rewrite filter_In, combine_in. unfold is_mine. cbn [fst]. split.
  - intros [(k & A & B) C]. eauto.
  - intros (k & A & B & C). eauto.
Qed.
Lemma labelled_in ms c z : In c (labelled ms z) <-> In (c, z) ms.
Proof.
  unfold labelled. rewrite in_map_iff. split.
  - intros ([c' z'] & <- & I). apply filter_In in I. cbn [fst snd] in *. destruct I as [I E]. apply Z.eqb_eq in E. now subst.
  - intros I. exists (c, z). split; [reflexivity|]. apply filter_In. split; [exact I|apply Z.eqb_refl].
Qed.
Lemma events_extends h h' u : extends h h' -> events h' u = map (e_of h) (lst_of h' u).
Proof. intros (A & B & _). unfold events. apply map_ext. intros c. unfold e_of, ev_of, cell_of. now rewrite A, B. Qed.

Lemma label_cases h t zs : forces 0 (events h t) = Some zs -> forall z,
  In z (map snd (mine h t zs)) <-> announced_in (events h t) z \/ (early (events h t) /\ z = 0).
Proof.
  intros F z. pose proof (forces_length _ _ _ F) as LZ. unfold events in LZ. rewrite map_length in LZ.
  assert (EV : forall k c, nth_error (lst_of h t) k = Some c -> nth_error (events h t) k = Some (e_of h c)).
  { intros k c K. unfold events. now rewrite nth_error_map, K. }
  assert (AT : forall k e, nth_error (events h t) k = Some e -> exists c y, nth_error (lst_of h t) k = Some c /\ e_of h c = e /\ nth_error zs k = Some y).
  { intros k e K. unfold events in K. rewrite nth_error_map in K. destruct (nth_error (lst_of h t) k) as [c|] eqn:C; [|discriminate].
    cbn in K. injection K as K. destruct (nth_error zs k) as [y|] eqn:Y; [exists c, y; auto|]. apply nth_error_None in Y.
    assert (k < length (lst_of h t))%nat by (apply nth_error_Some; congruence). lia. }
  split.
  - intros I. apply in_map_iff in I. destruct I as ([c y] & E & I). cbn in E. subst y. apply mine_in in I. destruct I as (k & C & Y & P).
    destruct (forces_in_force _ _ _ _ F Y) as [j e z LA X N|FA].
    + left. exists e. split; [eapply nth_error_In; eauto|]. split; [|exact N]. destruct LA as ((x & X' & PX) & _).
      assert (nth_error (events h t) j = Some x) by (rewrite <- (firstn_skipn (S k) (events h t)), nth_error_app1; [exact X'|apply nth_error_Some; congruence]).
      congruence.
    + right. split; [|reflexivity]. exists k, (e_of h c). auto.
  - intros [(e & I & A & N)|[(k & e & K & P & FA) ->]].
    + apply In_nth_error in I. destruct I as (k & K). destruct (AT _ _ K) as (c & y & C & EC & Y).
      assert (y = z).
      { apply (in_force_fun (events h t) k); [eapply forces_in_force; eauto|]. apply announced with k e; [|exact K|exact N].
        assert (LK : (k < length (events h t))%nat) by (apply nth_error_Some; congruence).
        split; [exists e; split; [|exact A]|].
        - rewrite <- (firstn_skipn (S k) (events h t)), nth_error_app1 in K; [exact K|]. rewrite firstn_length. lia.
        - intros j x L X. exfalso. assert (j < length (firstn (S k) (events h t)))%nat by (apply nth_error_Some; congruence). rewrite firstn_length in *. lia. }
      subst y. apply in_map_iff. exists (c, z). split; [reflexivity|]. apply mine_in. exists k. split; [exact C|]. split; [exact Y|].
      rewrite EC. unfold pattern_event. rewrite A. reflexivity.
    + destruct (AT _ _ K) as (c & y & C & EC & Y). assert (y = 0).
      { apply (in_force_fun (events h t) k); [eapply forces_in_force; eauto|]. now apply unannounced. }
      subst y. apply in_map_iff. exists (c, 0). split; [reflexivity|]. apply mine_in. exists k. split; [exact C|]. split; [exact Y|]. now rewrite EC.
Qed.

Lemma distinct_in l x : In x (distinct l) <-> In x l.
Proof.
  induction l as [|y l IH]; cbn [distinct]; [reflexivity|]. destruct (mem_Z y l) eqn:M.
  - apply mem_Z_in in M. rewrite IH. cbn [In]. split; [tauto|]. intros [->|I]; assumption.
  - cbn [In]. now rewrite IH.
Qed.
Lemma distinct_nodup l : NoDup (distinct l).
Proof.
  induction l as [|y l IH]; cbn [distinct]; [constructor|]. destruct (mem_Z y l) eqn:M; [exact IH|]. constructor; [|exact IH].
  rewrite distinct_in. now apply mem_Z_false.
Qed.
Lemma same_elements_length (a b : list Z) : NoDup a -> NoDup b -> (forall x, In x a <-> In x b) -> length a = length b.
Proof.
  intros A B H. apply Nat.le_antisymm; apply NoDup_incl_length; auto; intros x I; now apply H.
Qed.

Lemma mapr_in {A B} (f : A -> res B) l : forall bs, mapr f l = Ok bs -> forall b, In b bs <-> exists a, In a l /\ f a = Ok b.
Proof.
  induction l as [|a l IH]; intros bs H b; cbn [mapr] in H.
  - injection H as <-. split; [intros []|intros (x & [] & _)].
  - destruct (f a) as [y|] eqn:FA; [|discriminate]. cbn [bind] in H. destruct (mapr f l) as [ys|] eqn:M; [|discriminate]. cbn [bind] in H.
    injection H as <-. cbn [In]. rewrite (IH _ eq_refl). split.
    + intros [<-|(x & I & E)]; [exists a; auto|exists x; auto].
    + intros (x & [<-|I] & E); [left; congruence|right; eauto].
Qed.
Lemma get_one h t id e : In e (get h t [id]) <-> In e (events h t) /\ e_id e = id.
Proof. unfold get. rewrite filter_In, mem_Z_1. now rewrite Z.eqb_eq. Qed.

Lemma patterns_len_spec h t n : patterns_len h t = Ok n -> exists l, n = zlen l /\ NoDup l /\ forall z, In z l <-> announced_in (events h t) z.
Proof.
  intros H. unfold patterns_len in H. destruct (contains h t 65); [|discriminate].
  destruct (mapr _ _) as [l|] eqn:M; [|discriminate]. cbn [bind] in H. injection H as <-. exists (distinct l).
  split; [reflexivity|]. split; [apply distinct_nodup|]. intros z. rewrite distinct_in, (mapr_in _ _ _ M). split.
  - intros (e & I & E). apply get_one in I. destruct I as [I P]. exists e. split; [exact I|]. split; [exact P|]. apply number_as.
    destruct (as_int (e_val e)); [congruence|discriminate].
  - intros (e & I & P & N). exists e. split; [apply get_one; auto|]. apply number_as in N. now rewrite N.
Qed.

Lemma patterns_count h t h' us n : ordered h t -> patterns_iter h t = (h', Ok us) -> patterns_len h t = Ok n ->
  (early (events h t) -> announced_in (events h t) 0 -> zlen us = n) /\
  (~ early (events h t) -> zlen us = n) /\
  (early (events h t) -> ~ announced_in (events h t) 0 -> zlen us = n + 1).
Proof.
  intros O H LN. destruct (patterns_iter_spec _ _ _ _ O H) as (zs & F & _ & M). destruct (patterns_len_spec _ _ _ LN) as (l & -> & ND & IL).
  set (ks := firsts (map snd (mine h t zs))) in *. assert (NK : NoDup ks) by apply firsts_nodup.
  assert (IK : forall z, In z ks <-> announced_in (events h t) z \/ (early (events h t) /\ z = 0)).
  { intros z. unfold ks. rewrite firsts_in. now apply label_cases. }
  assert (LU : length us = length ks) by (apply (f_equal (@length _)) in M; now rewrite !map_length in M).
  unfold zlen. rewrite LU. split; [|split].
  - intros E A. f_equal. apply same_elements_length; auto. intros z. rewrite IK, IL. split; [intros [X|[_ ->]]; assumption|tauto].
  - intros E. f_equal. apply same_elements_length; auto. intros z. rewrite IK, IL. tauto.
  - intros E A. assert (L : length ks = length (0 :: l)); [|rewrite L; cbn [length]; lia]. apply same_elements_length; auto.
    + constructor; [now rewrite IL|exact ND].
    + intros z. rewrite IK. cbn [In]. rewrite IL. split; [intros [X|[_ ->]]; auto|intros [<-|X]; auto].
Qed.

(* ------------------------------------------------------------------ one pattern *)

Lemma patterns_label h t h' us i u : ordered h t -> patterns_iter h t = (h', Ok us) -> nth_error us i = Some u ->
  exists zs z, forces 0 (events h t) = Some zs /\ nth_error (firsts (map snd (mine h t zs))) i = Some z /\
    lst_of h' u = labelled (mine h t zs) z /\ events h' u = map (e_of h) (labelled (mine h t zs) z).
Proof.
  intros O H U. destruct (patterns_iter_spec _ _ _ _ O H) as (zs & F & X & M).
  assert (N : nth_error (map (lst_of h') us) i = Some (lst_of h' u)) by now rewrite nth_error_map, U.
  rewrite M, nth_error_map in N. destruct (nth_error (firsts _) i) as [z|] eqn:Z; [|discriminate]. cbn [option_map] in N. assert (N' : labelled (mine h t zs) z = lst_of h' u) by congruence.
  exists zs, z. split; [exact F|]. split; [exact Z|]. split; [congruence|]. rewrite (events_extends _ _ _ X). now rewrite N'.
Qed.

(* announcements inside a pattern carry its number *)
Lemma label_announces h t zs z : forces 0 (events h t) = Some zs -> forall e, In e (map (e_of h) (labelled (mine h t zs) z)) -> announces e -> number (e_val e) z.
Proof.
  intros F e I A. apply in_map_iff in I. destruct I as (c & <- & I). apply labelled_in, mine_in in I. destruct I as (k & C & Y & P).
  assert (EV : nth_error (events h t) k = Some (e_of h c)) by (unfold events; now rewrite nth_error_map, C).
  destruct (forces_in_force _ _ _ _ F Y) as [j e z LA X N|FA].
  - assert (j = k).
    { assert (LK : (k < length (events h t))%nat) by (apply nth_error_Some; congruence).
      assert (K' : nth_error (firstn (S k) (events h t)) k = Some (e_of h c)).
      { rewrite <- (firstn_skipn (S k) (events h t)), nth_error_app1 in EV; [exact EV|]. rewrite firstn_length. lia. }
      destruct LA as ((x & X' & PX) & L2). destruct (Nat.lt_trichotomy j k) as [L|[E|L]]; [destruct (L2 _ _ L K' A)|exact E|].
      assert (j < length (firstn (S k) (events h t)))%nat by (apply nth_error_Some; congruence). rewrite firstn_length in *. lia. }
    subst j. assert (e = e_of h c) by congruence. now subst e.
  - exfalso. assert (LK : (k < length (events h t))%nat) by (apply nth_error_Some; congruence).
    rewrite Forall_forall in FA. apply (FA (e_of h c)); [|exact A].
    apply nth_error_In with k. rewrite <- (firstn_skipn (S k) (events h t)), nth_error_app1 in EV; [exact EV|]. rewrite firstn_length. lia.
Qed.

Lemma ev_get_one en h t id : ev_get en h t [id] = Ok (match value_of id (events h t) with Some v => v | None => VNone end).
Proof.
  unfold ev_get, ev_prop. destruct (value_of id (events h t)) as [v|] eqn:V.
  - destruct (chosen_total [id] (events h t)) as (o & CH). rewrite (event_prop_get en h t [id] VNone false o ltac:(discriminate) CH).
    destruct o as [k|].
    + destruct (chosen_one _ _ _ CH) as ((e & K & EI) & J). unfold value_at. rewrite K. cbn [option_map].
      clear CH. revert k K J. induction (events h t) as [|x l IH]; intros k K J; [destruct k; discriminate|]. cbn [value_of] in V.
      destruct k as [|k]; cbn [nth_error] in K.
      * injection K as ->. rewrite EI, Z.eqb_refl in V. congruence.
      * replace (e_id x =? id) with false in V by (symmetry; apply Z.eqb_neq; apply (J 0%nat x); [lia|reflexivity]).
        apply (IH V k K). intros j y L Y. apply (J (S j) y); [lia|exact Y].
    + exfalso. inversion CH as [|N]. clear CH. revert V N. induction (events h t) as [|x l IH]; intros V N; [discriminate|]. cbn [value_of] in V.
      destruct (Z.eqb_spec (e_id x) id) as [E|E].
      * apply (N x); [now left|left; congruence].
      * apply IH; [exact V|]. intros e I1. apply N. now right.
  - destruct (chosen_total [id] (events h t)) as (o & CH). rewrite (event_prop_get en h t [id] VNone false o ltac:(discriminate) CH).
    destruct o as [k|]; [|reflexivity]. exfalso. destruct (chosen_one _ _ _ CH) as ((e & K & EI) & _). apply nth_error_In in K.
    clear CH. revert V. induction (events h t) as [|x l IH]; [destruct K|]. cbn [value_of]. destruct (Z.eqb_spec (e_id x) id); [discriminate|].
    destruct K as [->|K]; [congruence|]. now apply IH.
Qed.

(* --------------------------------------------------------------- finding a model *)

Lemma find_model_spec A (f : nat -> A -> res bool) (g : nat -> A -> bool) l : forall i,
  (forall k x, nth_error l k = Some x -> f (i + k)%nat x = Ok (g (i + k)%nat x)) ->
  match find_model f i l with
  | Ok (Some x) => exists k, nth_error l k = Some x /\ g (i + k)%nat x = true /\ forall j y, (j < k)%nat -> nth_error l j = Some y -> g (i + j)%nat y = false
  | Ok None => forall k x, nth_error l k = Some x -> g (i + k)%nat x = false
  | Err _ => False
  end.
Proof.
  induction l as [|y l IH]; intros i H; cbn [find_model]; [intros [|k] x; discriminate|].
  pose proof (H 0%nat y eq_refl) as H0. rewrite Nat.add_0_r in H0. rewrite H0. cbn [bind]. destruct (g i y) eqn:G.
  - exists 0%nat. rewrite Nat.add_0_r. split; [reflexivity|]. split; [exact G|]. intros j z L. lia.
  - assert (H' : forall k x, nth_error l k = Some x -> f (S i + k)%nat x = Ok (g (S i + k)%nat x)).
    { intros k x K. specialize (H (S k) x K). replace (i + S k)%nat with (S i + k)%nat in H by lia. exact H. }
    specialize (IH (S i) H'). destruct (find_model f (S i) l) as [[x|]|].
    + destruct IH as (k & K & GK & J). exists (S k). replace (i + S k)%nat with (S i + k)%nat by lia. split; [exact K|]. split; [exact GK|].
      intros [|j] z L Z; cbn in Z; [injection Z as <-; now rewrite Nat.add_0_r|]. replace (i + S j)%nat with (S i + j)%nat by lia. apply (J j z); [lia|exact Z].
    + intros [|k] x K; cbn in K; [injection K as <-; now rewrite Nat.add_0_r|]. replace (i + S k)%nat with (S i + k)%nat by lia. now apply IH.
    + exact IH.
Qed.

(* by position *)
Lemma find_index A (f : nat -> A -> res bool) z l : (forall i x, f i x = Ok (Z.of_nat i =? z)) ->
  find_model f 0 l = Ok (if z <? 0 then None else nth_error l (Z.to_nat z)).
Proof.
  intros H. pose proof (find_model_spec A f (fun i _ => Z.of_nat i =? z) l 0 (fun k x _ => H _ x)) as S.
  destruct (find_model f 0 l) as [[x|]|]; [| |destruct S]; cbn [Nat.add] in S.
  - destruct S as (k & K & G & _). apply Z.eqb_eq in G. replace (z <? 0) with false by lia. replace (Z.to_nat z) with k by lia. now rewrite K.
  - destruct (Z.ltb_spec z 0); [reflexivity|]. destruct (nth_error l (Z.to_nat z)) as [x|] eqn:N; [|reflexivity].
    pose proof (S _ _ N) as X. apply Z.eqb_neq in X. lia.
Qed.

Lemma pattern_current_spec en h t h' us v z : ordered h t -> (t < nt h)%nat -> patterns_iter h t = (h', Ok us) ->
  value_of 67 (events h t) = Some v -> number v z ->
  exists o, pattern_current en h' t us = Ok o /\
    match o with
    | Some u => exists i, nth_error us i = Some u /\ exists e, In e (events h' u) /\ announces e /\ number (e_val e) z
    | None => ~ announced_in (events h t) z
    end.
Proof.
  intros O LT H V N. destruct (patterns_iter_spec _ _ _ _ O H) as (zs & F & X & M).
  assert (ET : events h' t = events h t).
  { rewrite (events_extends _ _ _ X). unfold events, lst_of. now rewrite (extends_tree _ _ _ X LT). }
  unfold pattern_current. rewrite contains_value, first_val_spec, ET, V. cbn [bind].
  set (f := fun (_ : nat) u => _).
  set (g := fun (_ : nat) u => same_int (match value_of 65 (events h' u) with Some v => v | None => VNone end) v).
  pose proof (find_model_spec nat f g us 0) as S. assert (HF : forall k x, nth_error us k = Some x -> f (0 + k)%nat x = Ok (g (0 + k)%nat x)).
  { intros k x _. unfold f, g. now rewrite ev_get_one. }
  specialize (S HF). destruct (find_model f 0 us) as [[u|]|]; [| |destruct S]; eexists; (split; [reflexivity|]).
  - destruct S as (k & K & G & _). exists k. split; [exact K|]. unfold g in G. destruct (value_of 65 (events h' u)) as [w|] eqn:W.
    + assert (exists e, In e (events h' u) /\ announces e /\ e_val e = w) as (e & I & A & E).
      { clear -W. induction (events h' u) as [|x l IH]; [discriminate|]. cbn [value_of] in W. destruct (Z.eqb_spec (e_id x) 65).
        - exists x. split; [now left|]. split; [assumption|congruence].
        - destruct (IH W) as (e & I & Q). exists e. split; [now right|exact Q]. }
      exists e. split; [exact I|]. split; [exact A|]. rewrite E. apply number_as. apply number_as in N. unfold same_int in G. rewrite N in G.
      destruct (as_int w) as [y|]; [|discriminate]. apply Z.eqb_eq in G. congruence.
    + unfold same_int in G. cbn in G. discriminate.
  - intros (e & I & A & NE).
    assert (IL : In z (firsts (map snd (mine h t zs)))) by (apply firsts_in, label_cases; [exact F|left; exists e; auto]).
    apply In_nth_error in IL. destruct IL as (i & IL).
    assert (exists u, nth_error us i = Some u) as (u & U).
    { destruct (nth_error us i) eqn:E; [eauto|]. apply nth_error_None in E. apply (f_equal (@length _)) in M. rewrite !map_length in M.
      assert (i < length (firsts (map snd (mine h t zs))))%nat by (apply nth_error_Some; congruence). lia. }
    destruct (patterns_label _ _ _ _ _ _ O H U) as (zs' & z' & F' & Z' & L' & E'). assert (zs' = zs) by congruence. subst zs'.
    assert (z' = z) by congruence. subst z'.
    assert (IE : In e (events h' u)).
    { rewrite E'. assert (I2 : In z (map snd (mine h t zs))) by (apply label_cases; [exact F|left; exists e; auto]).
      apply In_nth_error in I. destruct I as (k & K). unfold events in K. rewrite nth_error_map in K.
      destruct (nth_error (lst_of h t) k) as [c|] eqn:C; [|discriminate]. cbn in K. injection K as K.
      pose proof (forces_length _ _ _ F) as LZ. unfold events in LZ. rewrite map_length in LZ.
      destruct (nth_error zs k) as [y|] eqn:Y; [|apply nth_error_None in Y; assert (k < length (lst_of h t))%nat by (apply nth_error_Some; congruence); lia].
      assert (PE : pattern_event (e_of h c) = true) by (rewrite K; unfold pattern_event; now rewrite A).
      assert (y = z).
      { apply (number_fun (e_val e)); [|exact NE]. apply (label_announces h t zs y F); [|exact A]. apply in_map_iff. exists c. split; [exact K|].
        apply labelled_in, mine_in. exists k. auto. }
      subst y. apply in_map_iff. exists c. split; [exact K|]. apply labelled_in, mine_in. exists k. auto. }
    pose proof (S i u U) as G. unfold g in G.
    assert (exists w, value_of 65 (events h' u) = Some w /\ number w z) as (w & W & NW).
    { assert (NA : forall e, In e (events h' u) -> announces e -> number (e_val e) z) by (intros x Q; rewrite E' in Q; now apply (label_announces h t zs)).
      clear -IE A NA. induction (events h' u) as [|x l IH]; [destruct IE|]. cbn [value_of]. destruct (Z.eqb_spec (e_id x) 65).
      - exists (e_val x). split; [reflexivity|]. apply NA; [now left|assumption].
      - destruct IE as [->|IE]; [congruence|]. apply IH; [exact IE|]. intros y Q. apply NA. now right. }
    rewrite W in G. apply number_as in NW, N. unfold same_int in G. rewrite NW, N, Z.eqb_refl in G. discriminate.
Qed.

(* --------------------------------------------------------- values read from a file *)

Definition int_kind (k : kind) : bool := match k with KI8 | KU8 | KI16 | KU16 | KI32 | KU32 => true | _ => false end.
Lemma c_uint_int n cx b v r : cparse (c_uint n) cx b = Ok (v, r) -> exists z, v = VInt z.
Proof. unfold c_uint. cbn. intros H. inv_bind H. destruct x. injection H as <- _. eauto. Qed.
Lemma c_sint_int n cx b v r : cparse (c_sint n) cx b = Ok (v, r) -> exists z, v = VInt z.
Proof. unfold c_sint. cbn. intros H. inv_bind H. destruct x. injection H as <- _. eauto. Qed.
Lemma int_event en k id p e : mk_event en k id p = Ok e -> int_kind k = true -> e_id e = id /\ exists z, e_val e = VInt z.
Proof.
  intros H K. destruct (mk_event_inv _ _ _ _ _ H) as (v & r & C & -> & _). cbn [e_id e_val]. split; [reflexivity|].
  destruct k; try discriminate; cbn [kcon] in C; first [eapply c_uint_int; exact C|eapply c_sint_int; exact C].
Qed.
Lemma reads_int en : forall cs h es e k, reads en h cs es -> In e es -> registered en (e_id e) = Some k -> int_kind k = true -> exists z, e_val e = VInt z.
Proof.
  induction cs as [|[id p] cs IH]; intros h es e k R I G K; inversion R as [|h0 id0 p0 cs0 k0 e0 es0 C V M R']; subst; [destruct I|].
  destruct I as [->|I]; [|eapply IH; eauto].
  assert (EI : e_id e = id) by (destruct (mk_event_inv _ _ _ _ _ M) as (v & r & _ & -> & _); reflexivity).
  unfold class_of in C. rewrite <- EI, G in C. injection C as <-. now apply (int_event _ _ _ _ _ M).
Qed.
Lemma parse_int en f p e k : is_bytes f -> parse en f = Ok p -> In e (pr_events p) -> registered en (e_id e) = Some k -> int_kind k = true ->
  exists z, e_val e = VInt z.
Proof.
  intros Hb H I G K. destruct (parse_ok _ _ _ Hb H) as (fmt & ch & q & body & es & _ & _ & HB & HL & ->). cbn [pr_events] in I.
  destruct (loop_any _ _ _ _ _ _ st_ok_init HB HL) as (cs & _ & HR). eapply reads_int; eauto.
Qed.
Lemma forces_total es : (forall e, In e es -> e_id e = 65 -> exists z, e_val e = VInt z) -> forall cur, exists zs, forces cur es = Some zs.
Proof.
  induction es as [|e es IH]; intros H cur; cbn [forces]; [eauto|].
  assert (exists c, (if e_id e =? 65 then as_int (e_val e) else Some cur) = Some c) as (c & ->).
  { destruct (Z.eqb_spec (e_id e) 65); [|eauto]. destruct (H e (or_introl eq_refl) e0) as (z & ->). cbn. eauto. }
  destruct (IH (fun x I => H x (or_intror I)) c) as (zs & ->). cbn. eauto.
Qed.
