(* Proofs about arrangements and their tracks. *)
From Coq Require Import String ZArith List Bool Lia Arith Sorting.Sorted.
From Verif Require Import M_Base M_Float M_Text M_Construct M_Structs M_Events M_Parse M_Tree M_Prop M_Project M_Items M_Collections.
From Verif Require Import S_Tree S_Prop S_Project S_Items S_Collections.
From Verif Require Import P_Base P_Special P_TreeBase P_Tree P_TreeEdit P_Project P_Items P_Patterns P_Views P_Rack P_Mixer.
Import ListNotations.
Open Scope Z_scope.

(* ----------------------------------------------------------------- arrangements *)

(* the first new-arrangement event does not end an arrangement, later ones do, and so do all
   current-arrangement events *)
Definition arr_wanted (h : heap) (c : nat) : bool :=
  arrangement_id (id_of h c) || marker_id (id_of h c) || track_id (id_of h c) || (id_of h c =? 100).
Definition arr_cut (h : heap) (first c : nat) : bool :=
  (id_of h c =? 100) || ((id_of h c =? 99) && negb (Nat.eqb c first)).

Lemma arr_answers_true h d l : ~ In d l ->
  answers arrs_sel true (map (e_of h) l) = map (ans (arr_wanted h) (arr_cut h d)) l.
Proof.
  induction l as [|c l IH]; intros N; [reflexivity|]. cbn [map answers]. unfold arrs_sel at 1, ans at 1, arr_wanted at 1, arr_cut at 1, id_of.
  replace (Nat.eqb c d) with false by (symmetry; apply Nat.eqb_neq; intros ->; apply N; now left).
  rewrite !mem_app, arrangement_ids, marker_ids, track_ids.
  assert (IH' : answers arrs_sel true (map (e_of h) l) = map (ans (arr_wanted h) (arr_cut h d)) l) by (apply IH; intros I; apply N; now right).
  destruct (Z.eqb_spec (e_id (e_of h c)) 99) as [E|E].
  - rewrite E. cbn [andb negb orb Z.eqb Pos.eqb]. now rewrite IH'.
  - cbn [andb]. rewrite orb_false_r. destruct (Z.eqb_spec (e_id (e_of h c)) 100) as [F|F].
    + rewrite F. change (arrangement_id 100 || (marker_id 100 || track_id 100)) with false. change (100 =? 100) with true. cbn [orb]. now rewrite IH'.
    + rewrite orb_false_r. destruct (arrangement_id _), (marker_id _), (track_id _); cbn [orb]; now rewrite IH'.
Qed.
Lemma arr_answers h l : NoDup l -> forall d r, filter (fun c => id_of h c =? 99) l = d :: r ->
  answers arrs_sel false (map (e_of h) l) = map (ans (arr_wanted h) (arr_cut h d)) l.
Proof.
  induction l as [|c l IH]; intros ND d r F; [discriminate|]. cbn [filter] in F. inversion ND as [|c' l' N1 N2]; subst.
  cbn [map answers]. unfold arrs_sel at 1, ans at 1, arr_wanted at 1, arr_cut at 1, id_of. unfold id_of in F at 1.
  destruct (Z.eqb_spec (e_id (e_of h c)) 99) as [E|E].
  - assert (c = d) by congruence. subst d. rewrite Nat.eqb_refl. rewrite E.
    rewrite !mem_app, arrangement_ids. change (arrangement_id 99) with true. cbn [andb negb orb Z.eqb Pos.eqb]. rewrite (arr_answers_true h c l N1). reflexivity.
  - cbn [andb orb]. specialize (IH N2 d r F). rewrite !mem_app, arrangement_ids, marker_ids, track_ids. rewrite orb_false_r.
    destruct (Z.eqb_spec (e_id (e_of h c)) 100) as [G|G].
    + rewrite G. change (arrangement_id 100 || (marker_id 100 || track_id 100)) with false. change (100 =? 100) with true. cbn [orb]. now rewrite IH.
    + rewrite ?orb_false_r. destruct (arrangement_id _), (marker_id _), (track_id _); cbn [orb]; now rewrite IH.
Qed.

Lemma contains_filter h t id : contains h t id = match filter (fun c => id_of h c =? id) (lst_of h t) with [] => false | _ => true end.
Proof. unfold contains. induction (lst_of h t) as [|c l IH]; [reflexivity|]. cbn [existsb filter]. destruct (id_of h c =? id); [reflexivity|exact IH]. Qed.

Lemma arrs_spec h t h' us : ordered h t -> arrs_iter h t = (h', Ok us) ->
  exists d r ps tail, filter (fun c => id_of h c =? 99) (lst_of h t) = d :: r /\
    starts_at (arr_cut h d) (filter (arr_wanted h) (lst_of h t)) (ps ++ [tail]) /\ extends h h' /\
    map (lst_of h') us = firstn (S (length r)) ps.
Proof.
  intros O E. unfold arrs_iter, arrs_len in E. rewrite contains_filter in E. unfold count in E. rewrite get_ie_1 in E.
  destruct (filter (fun c => id_of h c =? 99) (lst_of h t)) as [|d r] eqn:F; [discriminate|].
  destruct (subtrees h t arrs_sel false (zlen (d :: r))) as [hb ts] eqn:S. assert (hb = h' /\ ts = us) as [-> ->] by (split; congruence).
  destruct (subtrees_yield _ h t arrs_sel (arr_wanted h) (arr_cut h d) false (zlen (d :: r)) h' us O) as (ps & tail & SA & X & M).
  - unfold zlen. lia.
  - intros c C. unfold arr_cut, arr_wanted in *. destruct (Z.eqb_spec (id_of h c) 100) as [E1|E1]; [now rewrite orb_true_r|].
    cbn [orb] in C. apply andb_true_iff in C. destruct C as [C _]. apply Z.eqb_eq in C. rewrite C. reflexivity.
  - apply (arr_answers h (lst_of h t)) with r; [now apply (ordered_nodup h)|exact F].
  - exact S.
  - exists d, r, ps, tail. split; [reflexivity|]. split; [exact SA|]. split; [exact X|]. rewrite M. unfold zlen. now rewrite Nat2Z.id.
Qed.

(* ----------------------------------------------------------------------- tracks *)

Lemma item_int_spec v k z : item_int v k = Ok z <-> field v k z.
Proof.
  unfold item_int, field. split.
  - destruct v; try discriminate. unfold dindex. destruct (dget d k) as [x|] eqn:D; [|discriminate]. cbn [bind].
    destruct (as_int x) as [y|] eqn:A; [|discriminate]. intros E. apply Ok_inj in E. subst y. exists d, x. repeat split; auto. now apply number_as.
  - intros (d & x & -> & D & N). unfold dindex. rewrite D. cbn [bind]. apply number_as in N. now rewrite N.
Qed.

(* what the n-th item plays *)
Definition plays_right (cs : list chan) (ps : list (val * nat)) (v : val) (p : plays) : Prop :=
  exists a b, field v "item_index" a /\ field v "pattern_base" b /\
    (a <= b -> exists c, chan_by_iid cs (VInt a) = Ok c /\ p = PlaysChannel c) /\
    (b < a -> exists u, pat_by_iid ps (a - b) = Ok u /\ p = PlaysPattern u).

Lemma track_items_spec max idx cs ps : forall l i r, track_items max idx cs ps i l = Ok r ->
  (forall p, In p (map fst r) <-> exists v, (i <= p)%nat /\ nth_error l (p - i) = Some v /\ field v "track_rvidx" (max - idx)) /\
  StronglySorted lt (map fst r) /\
  (forall p q, In (p, q) r -> exists v, nth_error l (p - i) = Some v /\ plays_right cs ps v q).
Proof.
  induction l as [|v l IH]; intros i r H; cbn [track_items] in H.
  - injection H as <-. split; [|split; [constructor|intros p q []]]. intros p. split; [intros []|]. intros (v & _ & N & _). destruct (p - i)%nat; discriminate.
  - inv_bind H. pose proof (proj1 (item_int_spec _ _ _) E) as RV.
    assert (NF : max - x =? idx = false -> ~ field v "track_rvidx" (max - idx)).
    { intros F G. apply item_int_spec in G. assert (x = max - idx) by congruence. lia. }
    assert (SH : forall p w, (i <= p)%nat -> nth_error (v :: l) (p - i) = Some w -> (p = i /\ w = v) \/ ((S i <= p)%nat /\ nth_error l (p - S i) = Some w)).
    { intros p w L N. destruct (Nat.eq_dec p i) as [->|NE]; [left; rewrite Nat.sub_diag in N; cbn in N; split; congruence|right].
      split; [lia|]. replace (p - i)%nat with (S (p - S i)) in N by lia. exact N. }
    assert (BK : forall p w, (S i <= p)%nat -> nth_error l (p - S i) = Some w -> nth_error (v :: l) (p - i) = Some w).
    { intros p w L N. replace (p - i)%nat with (S (p - S i)) by lia. exact N. }
    destruct (max - x =? idx) eqn:TR; cbn [negb] in H.
    + inv_bind H. inv_bind H. inv_bind H. inv_bind H. apply Ok_inj in H. subst r. destruct (IH _ _ E3) as (A & B & C). cbn [map fst]. split; [|split].
      * intros p. split.
        -- intros [<-|I]; [exists v; split; [lia|]; rewrite Nat.sub_diag; split; [reflexivity|]; replace (max - idx) with x by lia; exact RV|].
           apply A in I. destruct I as (w & L & N & F). exists w. split; [lia|]. split; [now apply BK|exact F].
        -- intros (w & L & N & F). destruct (SH p w L N) as [[-> ->]|[L2 N2]]; [now left|right]. apply A. exists w. auto.
      * constructor; [exact B|]. apply Forall_forall. intros p I. apply A in I. destruct I as (_ & L & _). lia.
      * intros p q [I|I].
        -- assert (i = p /\ x2 = q) as [-> ->] by (split; congruence). exists v. rewrite Nat.sub_diag. split; [reflexivity|].
           apply item_int_spec in E0, E1. exists x0, x1. split; [exact E0|]. split; [exact E1|]. destruct (Z.leb_spec x0 x1) as [LE|LT].
           ++ inv_bind E2. split; [|lia]. intros _. eexists. split; [eassumption|congruence].
           ++ inv_bind E2. split; [lia|]. intros _. eexists. split; [eassumption|congruence].
        -- destruct (C p q I) as (w & N & P). exists w. split; [|exact P]. apply BK; [|exact N].
           assert (IP : In p (map fst x3)) by (apply in_map_iff; exists (p, q); auto). apply A in IP. destruct IP as (_ & L & _). exact L.
    + destruct (IH _ _ H) as (A & B & C). split; [|split; [exact B|]].
      * intros p. rewrite A. split; intros (w & L & N & F).
        -- exists w. split; [lia|]. split; [now apply BK|exact F].
        -- destruct (SH p w L N) as [[-> ->]|[L2 N2]]; [destruct (NF eq_refl F)|]. exists w. auto.
      * intros p q I. destruct (C p q I) as (w & N & P). exists w. split; [|exact P]. apply BK; [|exact N].
        assert (IP : In p (map fst r)) by (apply in_map_iff; exists (p, q); auto). apply A in IP. destruct IP as (_ & L & _). exact L.
Qed.

Lemma tracks_spec max cs ps pl : forall ts idx l ex, tracks_from max idx cs ps pl ts = (l, ex) ->
  map tr_tree l = firstn (length l) ts /\
  (forall k tr, nth_error l k = Some tr ->
     match pl with
     | None => tr_items tr = []
     | Some r => exists vs, r = Ok vs /\ track_items max (idx + Z.of_nat k) cs ps 0 vs = Ok (tr_items tr)
     end) /\
  match ex with
  | None => length l = length ts
  | Some e => match pl with
              | None => False
              | Some r => (length l < length ts)%nat /\ (let* vs := r in track_items max (idx + zlen l) cs ps 0 vs) = Err e
              end
  end.
Proof.
  induction ts as [|t ts IH]; intros idx l ex H; cbn [tracks_from] in H.
  - injection H as <- <-. split; [reflexivity|]. split; [intros [|] tr K; discriminate|reflexivity].
  - destruct (match pl with None => Ok [] | Some r => let* l := r in track_items max idx cs ps 0 l end) as [its|e] eqn:I.
    + destruct (tracks_from max (idx + 1) cs ps pl ts) as [l' x'] eqn:R. injection H as <- <-. destruct (IH _ _ _ R) as (A & B & C).
      cbn [map length firstn tr_tree]. rewrite A. split; [reflexivity|]. split.
      * intros [|k] tr K; cbn [nth_error] in K.
        -- injection K as <-. cbn [tr_items]. destruct pl as [r|]; [|congruence]. inv_bind I. exists x. rewrite Z.add_0_r. auto.
        -- specialize (B k tr K). destruct pl as [r|]; [|exact B]. destruct B as (vs & -> & B). exists vs. split; [reflexivity|]. rewrite <- B. f_equal. lia.
      * destruct x' as [e|]; [|lia]. destruct pl as [r|]; [|exact C]. destruct C as [C1 C2]. split; [lia|]. rewrite <- C2. unfold zlen. cbn [length].
        replace (idx + 1 + Z.of_nat (length l')) with (idx + Z.of_nat (S (length l'))) by lia. reflexivity.
    + injection H as <- <-. split; [reflexivity|]. split; [intros [|] tr K; discriminate|]. destruct pl as [r|]; [|discriminate].
      cbn [length]. split; [lia|]. unfold zlen. cbn. rewrite Z.add_0_r. exact I.
Qed.

(* no exception when everything an item names exists *)
Lemma track_items_total max idx cs ps l : (forall v, In v l -> exists rv a b, field v "track_rvidx" rv /\ field v "item_index" a /\ field v "pattern_base" b /\
    (max - rv = idx -> a <= b -> exists c, chan_by_iid cs (VInt a) = Ok c) /\ (max - rv = idx -> b < a -> exists u, pat_by_iid ps (a - b) = Ok u)) ->
  forall i, exists r, track_items max idx cs ps i l = Ok r.
Proof.
  induction l as [|v l IH]; intros H i; cbn [track_items]; [eauto|].
  destruct (H v (or_introl eq_refl)) as (rv & a & b & F1 & F2 & F3 & G1 & G2). apply item_int_spec in F1, F2, F3. rewrite F1. cbn [bind].
  destruct (IH (fun w I => H w (or_intror I)) (S i)) as (r & R). rewrite R. destruct (Z.eqb_spec (max - rv) idx) as [E|E]; cbn [negb]; [|eauto].
  rewrite F2, F3. cbn [bind]. destruct (Z.leb_spec a b) as [L|L].
  - destruct (G1 E L) as (c & ->). cbn [bind]. eauto.
  - destruct (G2 E L) as (u & ->). cbn [bind]. eauto.
Qed.

Lemma same_int_spec v z : same_int v (VInt z) = true <-> number v z.
Proof. unfold same_int. rewrite number_as. cbn [as_int]. destruct (as_int v) as [y|]; [rewrite Z.eqb_eq|]; split; congruence. Qed.
(* the first match in the reversed list is the last one *)
Lemma rev_filter_last A (f : A -> bool) l x r : filter f (rev l) = x :: r ->
  exists j, nth_error l j = Some x /\ f x = true /\ forall j' y, (j < j')%nat -> nth_error l j' = Some y -> f y = false.
Proof.
  revert x r. induction l as [|y l IH] using rev_ind; intros x r H; [discriminate|]. rewrite rev_unit in H. cbn [filter] in H. destruct (f y) eqn:Y.
  - injection H as <- _. exists (length l). split; [now rewrite nth_error_app2, Nat.sub_diag by lia|]. split; [exact Y|].
    intros j' z L N. assert (j' < length (l ++ [y]))%nat by (apply nth_error_Some; congruence). rewrite app_length in *. cbn [length] in *. lia.
  - destruct (IH x r H) as (j & J & FX & LJ). assert (j < length l)%nat by (apply nth_error_Some; congruence). exists j. split; [now rewrite nth_error_app1|].
    split; [exact FX|]. intros j' z L N. destruct (Nat.lt_ge_cases j' (length l)) as [L'|L']; [rewrite nth_error_app1 in N by lia; eauto|].
    rewrite nth_error_app2 in N by lia. destruct (j' - length l)%nat as [|q]; cbn in N; [congruence|destruct q; discriminate].
Qed.
Lemma chan_by_iid_spec cs a c : chan_by_iid cs (VInt a) = Ok c -> exists j, nth_error cs j = Some c /\ number (ch_iid c) a /\
  forall j' c', (j < j')%nat -> nth_error cs j' = Some c' -> ~ number (ch_iid c') a.
Proof.
  unfold chan_by_iid. destruct (filter _ (rev cs)) as [|d r] eqn:F; [discriminate|]. intros E. assert (d = c) by congruence. subst d.
  destruct (rev_filter_last _ _ _ _ _ F) as (j & J & FX & L). exists j. split; [exact J|]. split; [now apply same_int_spec|].
  intros j' c' LJ N NN. apply same_int_spec in NN. pose proof (L j' c' LJ N). congruence.
Qed.
Lemma pat_by_iid_spec ps a u : pat_by_iid ps a = Ok u -> exists j i, nth_error ps j = Some (i, u) /\ number i a /\
  forall j' i' u', (j < j')%nat -> nth_error ps j' = Some (i', u') -> ~ number i' a.
Proof.
  unfold pat_by_iid. destruct (filter _ (rev ps)) as [|[i d] r] eqn:F; [discriminate|]. intros E. assert (d = u) by congruence. subst d.
  destruct (rev_filter_last _ _ _ _ _ F) as (j & J & FX & L). exists j, i. split; [exact J|]. split; [now apply same_int_spec|].
  intros j' i' u' LJ N NN. apply same_int_spec in NN. pose proof (L j' _ LJ N) as Q. cbn [fst] in Q. congruence.
Qed.
Lemma chan_by_iid_total cs a c : In c cs -> number (ch_iid c) a -> exists d, chan_by_iid cs (VInt a) = Ok d.
Proof.
  intros I N. unfold chan_by_iid. destruct (filter _ (rev cs)) as [|d r] eqn:F; [|eauto]. exfalso.
  assert (X : In c (filter (fun c => same_int (ch_iid c) (VInt a)) (rev cs))) by (apply filter_In; split; [now apply in_rev in I|now apply same_int_spec]).
  rewrite F in X. destruct X.
Qed.
Lemma pat_by_iid_total ps a y : In y ps -> number (fst y) a -> exists d, pat_by_iid ps a = Ok d.
Proof.
  intros I N. unfold pat_by_iid. destruct (filter _ (rev ps)) as [|[i d] r] eqn:F; [|eauto]. exfalso.
  assert (X : In y (filter (fun x => same_int (fst x) (VInt a)) (rev ps))) by (apply filter_In; split; [now apply in_rev in I|now apply same_int_spec]).
  rewrite F in X. destruct X.
Qed.

(* ------------------------------------------------------- cutting a list in pieces *)

Lemma starts_at_exists A (cut : A -> bool) l : exists ps, starts_at cut l ps.
Proof.
  induction l as [|x l ([|p0 r] & C & P)]; [exists [[]]; repeat split; constructor|destruct P|]. destruct P as [P0 PR]. destruct (cut x) eqn:CX.
  - exists ([] :: (x :: p0) :: r). split; [cbn [concat app] in *; now rewrite C|]. split; [reflexivity|]. constructor; [exists x, p0; auto|exact PR].
  - exists ((x :: p0) :: r). split; [cbn [concat app] in *; now rewrite C|]. split; [cbn [forallb]; now rewrite CX, P0|exact PR].
Qed.
Lemma first_piece A (cut : A -> bool) : forall p0 l (p0' l' : list A), p0 ++ l = p0' ++ l' ->
  forallb (fun x => negb (cut x)) p0 = true -> forallb (fun x => negb (cut x)) p0' = true ->
  match l with [] => True | x :: _ => cut x = true end -> match l' with [] => True | x :: _ => cut x = true end -> p0 = p0' /\ l = l'.
Proof.
  induction p0 as [|x p0 IH]; intros l [|y p0'] l' E F F' H H'; cbn [app forallb] in *.
  - auto.
  - subst l. rewrite H in F'. discriminate.
  - subst l'. rewrite H' in F. discriminate.
  - injection E as <- E. apply andb_true_iff in F, F'. destruct (IH l p0' l' E) as [-> ->]; tauto.
Qed.
Lemma starts_at_fun A (cut : A -> bool) l ps ps' : starts_at cut l ps -> starts_at cut l ps' -> ps = ps'.
Proof.
  intros [C P] [C' P']. destruct ps as [|p0 r]; [destruct P|]. destruct ps' as [|p0' r']; [destruct P'|]. destruct P as [P0 PR], P' as [P0' PR'].
  cbn [concat] in *. subst l.
  assert (HC : forall r, Forall (fun p => exists x q, p = x :: q /\ cut x = true /\ forallb (fun x => negb (cut x)) q = true) r -> match concat r with [] => True | x :: _ => cut x = true end).
  { intros rr FR. destruct FR as [|p rr (x & q & -> & CX & _) _]; [exact I|]. exact CX. }
  destruct (first_piece _ cut _ _ _ _ C' P0' P0 (HC _ PR') (HC _ PR)) as [-> E]. f_equal. clear P0 P0' C'. symmetry in E.
  revert r' PR' E. induction PR as [|p r (x & q & -> & CX & FQ) PR IH]; intros r' PR' E; destruct PR' as [|p' r' (x' & q' & -> & CX' & FQ') PR']; cbn [concat app] in E.
  - reflexivity.
  - discriminate.
  - discriminate.
  - injection E as <- E. destruct (first_piece _ cut _ _ _ _ E FQ FQ' (HC _ PR) (HC _ PR')) as [-> E']. f_equal. now apply IH.
Qed.
Lemma starts_at_app A (cut : A -> bool) l1 x l2 qs rs : starts_at cut l1 qs -> cut x = true -> starts_at cut (x :: l2) rs ->
  exists r, rs = [] :: r /\ r <> [] /\ starts_at cut (l1 ++ x :: l2) (qs ++ r).
Proof.
  intros [C P] CX [C' P']. destruct qs as [|p0 q]; [destruct P|]. destruct rs as [|r0 r]; [destruct P'|]. destruct P as [P0 PR], P' as [P0' PR'].
  destruct r0 as [|y r0].
  - cbn [concat app] in C'. exists r. split; [reflexivity|]. split; [intros ->; discriminate|]. split; [cbn [app concat]; rewrite concat_app, C', app_assoc; cbn [concat] in C; now rewrite C|].
    cbn [app]. split; [exact P0|]. apply Forall_app. auto.
  - cbn [concat app] in C'. injection C' as -> _. cbn [forallb] in P0'. rewrite CX in P0'. discriminate.
Qed.

Lemma singletons A (L : list (list A)) : Forall (fun p => exists x, p = [x]) L -> L = map (fun x => [x]) (concat L).
Proof. induction 1 as [|p L (x & ->) F IH]; [reflexivity|]. cbn [concat app map]. now rewrite <- IH. Qed.

Lemma NoDup_app_split A (l m : list A) : NoDup (l ++ m) -> NoDup l /\ NoDup m /\ (forall x, In x l -> ~ In x m).
Proof.
  induction l as [|x l IH]; intro H; [repeat split; [constructor|exact H|intros y []]|]. cbn [app] in H. inversion H as [|? ? NI ND]; subst. destruct (IH ND) as (A1 & A2 & A3).
  split; [|split]; [constructor; [intro I; apply NI; apply in_or_app; now left|exact A1]|exact A2|].
  intros y [<-|I] J; [apply NI; apply in_or_app; now right|exact (A3 y I J)].
Qed.

Lemma filter_99 h l : filter (fun c => id_of h c =? 99) (filter (arr_wanted h) l) = filter (fun c => id_of h c =? 99) l.
Proof.
  induction l as [|c l IH]; [reflexivity|]. cbn [filter]. destruct (arr_wanted h c) eqn:W; cbn [filter]; rewrite IH; [reflexivity|].
  destruct (Z.eqb_spec (id_of h c) 99) as [E|E]; [|reflexivity]. unfold arr_wanted in W. rewrite E in W. discriminate.
Qed.

Lemma own_arrangement h d r ps a : NoDup (filter (arr_wanted h) a) -> filter (fun c => id_of h c =? 99) a = d :: r -> (forall c, In c a -> id_of h c <> 100) ->
  starts_at (arr_cut h d) (filter (arr_wanted h) a) ps ->
  map (filter (fun c => id_of h c =? 99)) ps = map (fun c => [c]) (d :: r).
Proof.
  intros ND F N [C P]. destruct ps as [|p0 R]; [destruct P|]. destruct P as [P0 PR].
  set (f := fun c => id_of h c =? 99) in *.
  assert (CC : concat (map (filter f) (p0 :: R)) = d :: r). { pose proof (filter_99 h a) as F9. fold f in F9. rewrite <- F, <- F9, <- C. clear. induction (p0 :: R) as [|p L IH]; [reflexivity|]. cbn [map concat]. now rewrite filter_app, IH. }
  assert (NDp : forall p, In p (p0 :: R) -> NoDup p).
  { intros p I. rewrite <- C in ND. clear -ND I. induction (p0 :: R) as [|q L IH]; [destruct I|]. cbn [concat] in ND. apply NoDup_app_split in ND. destruct ND as (A & B & _). destruct I as [<-|I]; auto. }
  assert (IA : forall p c, In p (p0 :: R) -> In c p -> id_of h c <> 100).
  { intros p c I IC. apply N. assert (X : In c (filter (arr_wanted h) a)) by (rewrite <- C; apply in_concat; eauto). apply filter_In in X. tauto. }
  assert (ONE : forall q, NoDup q -> (forall c, In c q -> id_of h c <> 100) -> forallb (fun x => negb (arr_cut h d x)) q = true -> filter f q = [] \/ filter f q = [d]).
  { intros q NDq Iq Fq. assert (ALL : forall c, In c (filter f q) -> c = d).
    { intros c I. apply filter_In in I. destruct I as [I FC]. rewrite forallb_forall in Fq. specialize (Fq c I). apply negb_true_iff in Fq. unfold arr_cut in Fq.
      apply orb_false_iff in Fq. destruct Fq as [_ Fq]. unfold f in FC. rewrite FC in Fq. cbn [andb] in Fq. apply negb_false_iff in Fq. now apply Nat.eqb_eq. }
    assert (NDf : NoDup (filter f q)) by now apply NoDup_filter. destruct (filter f q) as [|x [|y m]]; [now left|right; f_equal; apply ALL; now left|].
    exfalso. assert (x = d) by (apply ALL; now left). assert (y = d) by (apply ALL; right; now left). subst. inversion NDf as [|? ? NI]; subst. apply NI. now left. }
  assert (H0 : filter f p0 = [d]).
  { destruct (ONE p0) as [Z0|Z0]; [apply NDp; now left|intros c; apply IA; now left|exact P0| |exact Z0]. exfalso.
    cbn [map concat] in CC. rewrite Z0 in CC. cbn [app] in CC. destruct PR as [|p R (x & q & -> & CX & FQ) PR]; [discriminate|].
    cbn [map concat filter] in CC. assert (FX : f x = true).
    { unfold arr_cut in CX. destruct (Z.eqb_spec (id_of h x) 100) as [E|E]; [|cbn [orb] in CX; apply andb_true_iff in CX; tauto].
      exfalso. apply (IA (x :: q) x); [right; now left|now left|exact E]. }
    rewrite FX in CC. cbn [app] in CC. assert (x = d) by congruence. subst x. unfold arr_cut in CX. rewrite Nat.eqb_refl, andb_false_r, orb_false_r in CX.
    apply (IA (d :: q) d); [right; now left|now left|lia]. }
  assert (HR : Forall (fun p => exists x, p = [x]) (map (filter f) R)).
  { apply Forall_forall. intros p I. apply in_map_iff in I. destruct I as (q & <- & I). rewrite Forall_forall in PR. destruct (PR q I) as (x & q' & -> & CX & FQ).
    assert (FX : f x = true).
    { unfold arr_cut in CX. destruct (Z.eqb_spec (id_of h x) 100) as [E|E]; [|cbn [orb] in CX; apply andb_true_iff in CX; tauto].
      exfalso. apply (IA (x :: q') x); [now right|now left|exact E]. }
    exists x. cbn [filter]. rewrite FX. f_equal. destruct (ONE q') as [Z0|Z0]; [|intros c IC; apply (IA (x :: q')); [now right|now right]|exact FQ|exact Z0|].
    { pose proof (NDp _ (or_intror I)) as NQ. now inversion NQ. }
    exfalso. assert (D1 : In d p0) by (assert (X : In d (filter f p0)) by (rewrite H0; now left); apply filter_In in X; tauto).
    assert (D2 : In d (concat R)). { apply in_concat. exists (x :: q'). split; [exact I|]. right. assert (X : In d (filter f q')) by (rewrite Z0; now left). apply filter_In in X; tauto. }
    rewrite <- C in ND. cbn [concat] in ND. apply NoDup_app_split in ND. destruct ND as (_ & _ & DD). exact (DD d D1 D2). }
  rewrite (singletons _ (map (filter f) (p0 :: R))).
  - now rewrite CC.
  - cbn [map]. constructor; [exists d; exact H0|exact HR].
Qed.
