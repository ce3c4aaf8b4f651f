(* Lists, subsequences, bisection and heap access: the ground facts for P_Tree. *)
From Coq Require Import String ZArith List Bool Lia Sorting.Sorted.
From Verif Require Import M_Base M_Events M_Tree S_Tree P_Base.
Import ListNotations.
Open Scope Z_scope.

(* ---------------------------------------------------------------- subsequence *)

Lemma subseq_refl : forall A (l : list A), subseq l l.
Proof. induction l; constructor; auto. Qed.

Lemma subseq_cons_l : forall A (x : A) a b, subseq (x :: a) b -> subseq a b.
Proof.
  intros A x a b H. remember (x :: a) as y. revert x a Heqy.
  induction H; intros; try discriminate.
  - injection Heqy as -> ->. now constructor.
  - constructor. eapply IHsubseq; eauto.
Qed.

Lemma subseq_trans : forall A (a b c : list A), subseq a b -> subseq b c -> subseq a c.
Proof.
  intros A a b c H1 H2. revert a H1.
  induction H2; intros a' H1.
  - inversion H1; constructor.
  - inversion H1; subst; constructor; auto.
  - constructor; auto.
Qed.

Lemma subseq_in : forall A (a b : list A) x, subseq a b -> In x a -> In x b.
Proof. induction 1; cbn; intros; intuition. Qed.

Lemma subseq_filter : forall A (f : A -> bool) l, subseq (filter f l) l.
Proof. induction l; cbn; [constructor|]. destruct (f a); constructor; auto. Qed.

Lemma subseq_app : forall A (a b c d : list A),
  subseq a b -> subseq c d -> subseq (a ++ c) (b ++ d).
Proof.
  induction 1; intros; cbn.
  - induction l; cbn; auto. now constructor.
  - constructor; auto.
  - constructor; auto.
Qed.

Lemma subseq_map : forall A B (f : A -> B) a b, subseq a b -> subseq (map f a) (map f b).
Proof. induction 1; cbn; constructor; auto. Qed.

Lemma subseq_length : forall A (a b : list A), subseq a b -> (length a <= length b)%nat.
Proof. induction 1; cbn; lia. Qed.

Lemma subseq_nil_r : forall A (a : list A), subseq a [] -> a = [].
Proof. intros A a H. now inversion H. Qed.

Lemma subseq_nodup : forall A (a b : list A), subseq a b -> NoDup b -> NoDup a.
Proof.
  induction 1; intros N; try constructor; inversion N; subst; auto.
  intros I. eapply subseq_in in I; eauto.
Qed.

Lemma subseq_sorted : forall A (R : A -> A -> Prop) a b,
  subseq a b -> StronglySorted R b -> StronglySorted R a.
Proof.
  induction 1; intros N; try constructor; inversion N; subst; auto.
  rewrite Forall_forall in *. intros y I. apply H3. eapply subseq_in; eauto.
Qed.

(* deleting one (unique) element from both *)
Lemma subseq_app_inv : forall A (a b1 b2 : list A) x,
  subseq a (b1 ++ x :: b2) ->
  (exists a1 a2, a = a1 ++ x :: a2 /\ subseq a1 b1 /\ subseq a2 b2) \/
  (exists a1 a2, a = a1 ++ a2 /\ subseq a1 b1 /\ subseq a2 b2).
Proof.
  intros A a b1. revert a. induction b1 as [|y b1 IH]; intros a b2 x H; cbn in H.
  - inversion H; subst.
    + right. exists [], []. repeat split; constructor.
    + left. exists [], a0. repeat split; auto. constructor.
    + right. exists [], a. repeat split; auto. constructor.
  - inversion H; subst.
    + right. exists [], []. repeat split; constructor.
    + destruct (IH _ _ _ H2) as [(a1 & a2 & -> & H3 & H4)|(a1 & a2 & -> & H3 & H4)].
      * left. exists (y :: a1), a2. repeat split; auto. now constructor.
      * right. exists (y :: a1), a2. repeat split; auto. now constructor.
    + destruct (IH _ _ _ H2) as [(a1 & a2 & -> & H3 & H4)|(a1 & a2 & -> & H3 & H4)].
      * left. exists a1, a2. repeat split; auto. now constructor.
      * right. exists a1, a2. repeat split; auto. now constructor.
Qed.

Lemma nodup_split : forall A (l : list A) a1 x a2 b1 b2,
  NoDup l -> l = a1 ++ x :: a2 -> l = b1 ++ x :: b2 -> a1 = b1 /\ a2 = b2.
Proof.
  induction l as [|y l IH]; intros a1 x a2 b1 b2 N E1 E2.
  - destruct a1; discriminate.
  - inversion N; subst. destruct a1 as [|z a1], b1 as [|w b1]; cbn in *.
    + split; congruence.
    + injection E1 as -> ->. injection E2 as <- E. subst.
      exfalso. apply H1. apply in_or_app. right. now left.
    + injection E2 as -> ->. injection E1 as <- E. subst.
      exfalso. apply H1. apply in_or_app. right. now left.
    + injection E1 as <- E1. injection E2 as -> E2.
      destruct (IH _ _ _ _ _ H2 E1 E2) as [-> ->]. auto.
Qed.

(* ------------------------------------------------------- increasing sequences *)

Definition incr (l : list Z) : Prop := StronglySorted Z.lt l.

Lemma incr_nodup : forall l, incr l -> NoDup l.
Proof.
  induction 1; constructor; auto. intros I.
  rewrite Forall_forall in H0. specialize (H0 _ I). lia.
Qed.

Lemma incr_app : forall a x b,
  incr (a ++ x :: b) -> Forall (fun y => y < x) a /\ Forall (fun y => x < y) b /\
  incr a /\ incr b.
Proof.
  induction a as [|y a IH]; intros x b H; cbn in H; inversion H; subst.
  - repeat split; auto. constructor.
  - destruct (IH _ _ H2) as (A & B & C & D). rewrite Forall_app in H3.
    destruct H3 as [H3 H4]. inversion H4; subst.
    repeat split; auto. constructor; auto.
Qed.

Lemma incr_nth : forall l i j, incr l -> (i < j < length l)%nat ->
  nth i l 0 < nth j l 0.
Proof.
  intros l i j H. revert i j. induction H; intros i j L; cbn in L; [lia|].
  destruct j; [lia|]. destruct i; cbn.
  - rewrite Forall_forall in H0. apply H0. apply nth_In. lia.
  - apply IHStronglySorted. lia.
Qed.

Lemma upto_length : forall k n, length (upto n k) = k.
Proof. induction k; cbn; intros; auto. Qed.

Lemma upto_in : forall k n x, In x (upto n k) <-> n <= x < n + Z.of_nat k.
Proof.
  induction k; intros n x; cbn [upto In]; [lia|].
  rewrite IHk. lia.
Qed.

Lemma upto_incr : forall k n, incr (upto n k).
Proof.
  induction k; intros n; cbn; constructor; auto. apply IHk.
  apply Forall_forall. intros x I. apply upto_in in I. lia.
Qed.

Lemma upto_app : forall a b n, upto n (a + b) = upto n a ++ upto (n + Z.of_nat a) b.
Proof.
  induction a; intros b n; cbn [upto Nat.add app].
  - f_equal. lia.
  - f_equal. rewrite IHa.
    replace (n + 1 + Z.of_nat a) with (n + Z.of_nat (S a)) by lia. reflexivity.
Qed.

Lemma upto_nth : forall k n i, (i < k)%nat -> nth i (upto n k) 0 = n + Z.of_nat i.
Proof.
  induction k; intros n i L; [lia|]. cbn [upto nth]. destruct i; [lia|].
  rewrite IHk by lia. lia.
Qed.

Lemma map_upto_shift : forall k n d, map (fun x => x + d) (upto n k) = upto (n + d) k.
Proof.
  induction k; intros; cbn [upto map]; auto. f_equal. rewrite IHk. f_equal. lia.
Qed.

(* ------------------------------------------------------------------ bisection *)

Lemma div2_bounds : forall a b, (a < b)%nat ->
  (a <= Nat.div2 (a + b) < b)%nat.
Proof.
  intros a b L. pose proof (Nat.div2_odd (a + b)). destruct (Nat.odd (a + b)); cbn in H; lia.
Qed.

Lemma bisect_l_spec : forall fuel ks x lo hi,
  incr ks -> (hi <= length ks)%nat -> (lo <= hi)%nat -> (hi - lo <= fuel)%nat ->
  (forall j, (j < lo)%nat -> nth j ks 0 < x) ->
  (forall j, (hi <= j < length ks)%nat -> x <= nth j ks 0) ->
  let i := bisect_l fuel ks x lo hi in
  (lo <= i <= hi)%nat /\
  (forall j, (j < i)%nat -> nth j ks 0 < x) /\
  (forall j, (i <= j < length ks)%nat -> x <= nth j ks 0).
Proof.
  induction fuel; intros ks x lo hi S L1 L2 L3 A B; cbn [bisect_l].
  - assert (lo = hi) by lia. subst. repeat split; auto.
  - destruct (Nat.ltb lo hi) eqn:E.
    + apply Nat.ltb_lt in E. pose proof (div2_bounds lo hi E) as D.
      set (mid := Nat.div2 (lo + hi)) in *.
      destruct (nth mid ks 0 <? x) eqn:F.
      * apply Z.ltb_lt in F.
        destruct (IHfuel ks x (Datatypes.S mid) hi) as (P & Q & R); auto; try lia.
        { intros j J. destruct (Nat.eq_dec j mid) as [->|]; auto.
          pose proof (incr_nth ks j mid S ltac:(lia)). lia. }
        repeat split; auto; lia.
      * apply Z.ltb_ge in F.
        destruct (IHfuel ks x lo mid) as (P & Q & R); auto; try lia.
        { intros j J. destruct (Nat.eq_dec j mid) as [->|]; auto.
          pose proof (incr_nth ks mid j S ltac:(lia)). lia. }
        repeat split; auto; lia.
    + apply Nat.ltb_ge in E. assert (lo = hi) by lia. subst. repeat split; auto.
Qed.

Lemma bisect_r_spec : forall fuel ks x lo hi,
  incr ks -> (hi <= length ks)%nat -> (lo <= hi)%nat -> (hi - lo <= fuel)%nat ->
  (forall j, (j < lo)%nat -> nth j ks 0 <= x) ->
  (forall j, (hi <= j < length ks)%nat -> x < nth j ks 0) ->
  let i := bisect_r fuel ks x lo hi in
  (lo <= i <= hi)%nat /\
  (forall j, (j < i)%nat -> nth j ks 0 <= x) /\
  (forall j, (i <= j < length ks)%nat -> x < nth j ks 0).
Proof.
  induction fuel; intros ks x lo hi S L1 L2 L3 A B; cbn [bisect_r].
  - assert (lo = hi) by lia. subst. repeat split; auto.
  - destruct (Nat.ltb lo hi) eqn:E.
    + apply Nat.ltb_lt in E. pose proof (div2_bounds lo hi E) as D.
      set (mid := Nat.div2 (lo + hi)) in *.
      destruct (x <? nth mid ks 0) eqn:F.
      * apply Z.ltb_lt in F.
        destruct (IHfuel ks x lo mid) as (P & Q & R); auto; try lia.
        { intros j J. destruct (Nat.eq_dec j mid) as [->|]; auto.
          pose proof (incr_nth ks mid j S ltac:(lia)). lia. }
        repeat split; auto; lia.
      * apply Z.ltb_ge in F.
        destruct (IHfuel ks x (Datatypes.S mid) hi) as (P & Q & R); auto; try lia.
        { intros j J. destruct (Nat.eq_dec j mid) as [->|]; auto.
          pose proof (incr_nth ks j mid S ltac:(lia)). lia. }
        repeat split; auto; lia.
    + apply Nat.ltb_ge in E. assert (lo = hi) by lia. subst. repeat split; auto.
Qed.

Lemma last_app1 : forall A (l : list A) x d, last (l ++ [x]) d = x.
Proof. intros. apply last_last. Qed.

Lemma nth_mid : forall A (a b : list A) x d, nth (length a) (a ++ x :: b) d = x.
Proof. intros. rewrite app_nth2 by lia. now rewrite Nat.sub_diag. Qed.

Lemma incr_last : forall ks y, incr ks -> In y ks -> y <= last ks 0.
Proof.
  intros ks y S I. destruct (exists_last (l := ks)) as (l & z & ->).
  { intros ->. inversion I. }
  rewrite last_last. apply in_app_or in I. destruct I as [I|[->|[]]]; [|lia].
  destruct (incr_app l z [] S) as (A & _). rewrite Forall_forall in A.
  specialize (A _ I). lia.
Qed.

Section Keys.
Variable h : heap.
Let key := r_of h.

Lemma keys_split : forall l i, incr (map key l) ->
  forall x, (i <= length l)%nat ->
  (forall j, (j < i)%nat -> nth j (map key l) 0 <= x) ->
  (forall j, (i <= j < length (map key l))%nat -> x < nth j (map key l) 0) ->
  Forall (fun c => key c <= x) (firstn i l) /\ Forall (fun c => x < key c) (skipn i l).
Proof.
  intros l i S x L A B. rewrite map_length in B. split; apply Forall_forall; intros c I.
  - apply (In_nth _ _ 0%nat) in I. destruct I as (j & J & <-).
    rewrite firstn_length in J.
    specialize (A j ltac:(lia)).
    rewrite (nth_indep _ 0 (key 0%nat)) in A by (rewrite map_length; lia).
    rewrite map_nth in A.
    assert (E : nth j (firstn i l) 0%nat = nth j l 0%nat).
    { rewrite <- (firstn_skipn i l) at 2. rewrite app_nth1; auto.
      rewrite firstn_length. lia. }
    now rewrite E.
  - apply (In_nth _ _ 0%nat) in I. destruct I as (j & J & <-).
    rewrite skipn_length in J.
    specialize (B (i + j)%nat ltac:(lia)).
    rewrite (nth_indep _ 0 (key 0%nat)) in B by (rewrite map_length; lia).
    rewrite map_nth in B.
    assert (E : nth j (skipn i l) 0%nat = nth (i + j) l 0%nat).
    { rewrite <- (firstn_skipn i l) at 2. rewrite app_nth2; rewrite firstn_length.
      - f_equal. lia.
      - lia. }
    now rewrite E.
Qed.
End Keys.

Lemma sl_add_spec : forall h l c, incr (map (r_of h) l) ->
  exists a b, l = a ++ b /\ sl_add h l c = a ++ c :: b /\
    Forall (fun d => r_of h d <= r_of h c) a /\ Forall (fun d => r_of h c < r_of h d) b.
Proof.
  intros h l c S. unfold sl_add. destruct l as [|d l'] eqn:El.
  - exists [], []. repeat split; constructor.
  - rewrite <- El in *. clear El d l'.
    destruct (r_of h c <? last (map (r_of h) l) 0) eqn:E.
    + unfold bisect_right.
      destruct (bisect_r_spec (length (map (r_of h) l)) (map (r_of h) l) (r_of h c) 0
                  (length (map (r_of h) l))) as (P & Q & R); auto; try lia.
      set (i := bisect_r _ _ _ _ _) in *. rewrite map_length in P.
      destruct (keys_split h l i S (r_of h c)) as [A B]; auto; try lia.
      exists (firstn i l), (skipn i l). rewrite firstn_skipn. repeat split; auto.
    + apply Z.ltb_ge in E. exists l, []. rewrite app_nil_r. repeat split; auto.
      apply Forall_forall. intros d I.
      pose proof (incr_last _ (r_of h d) S (in_map _ _ _ I)). lia.
Qed.

(* the exact place of a new cell among increasing keys *)
Lemma sl_add_at : forall h a b c, incr (map (r_of h) (a ++ b)) ->
  Forall (fun d => r_of h d <= r_of h c) a -> Forall (fun d => r_of h c < r_of h d) b ->
  sl_add h (a ++ b) c = a ++ c :: b.
Proof.
  intros h a b c S A B. destruct (sl_add_spec h (a ++ b) c S) as (a' & b' & E & -> & A' & B').
  assert (a = a' /\ b = b') as [-> ->]; [|auto].
  clear S. revert a' b' A' B' E. induction a as [|x a IH]; intros [|y a'] b' A' B' E; cbn in *.
  - auto.
  - subst. inversion B; inversion A'; subst. lia.
  - subst. inversion A; inversion B'; subst. lia.
  - injection E as <- E. inversion A; inversion A'; subst.
    destruct (IH ltac:(auto) a' b') as [-> ->]; auto.
Qed.

Lemma sl_remove_at : forall h a b c d, incr (map (r_of h) (a ++ d :: b)) ->
  r_of h d = r_of h c -> sl_remove h (a ++ d :: b) c = Ok (a ++ b).
Proof.
  intros h a b c d S E. unfold sl_remove.
  destruct (a ++ d :: b) as [|x l] eqn:El; [destruct a; discriminate|].
  rewrite <- El in *. clear El x l. set (ks := map (r_of h) (a ++ d :: b)) in *.
  assert (I : In (r_of h c) ks).
  { unfold ks. rewrite <- E. apply in_map. apply in_or_app. right. now left. }
  pose proof (incr_last _ _ S I).
  destruct (last ks 0 <? r_of h c) eqn:F; [lia|]. clear F.
  unfold bisect_left.
  destruct (bisect_l_spec (length ks) ks (r_of h c) 0 (length ks))
    as (P & Q & R); auto; try lia.
  set (i := bisect_l _ _ _ _ _) in *.
  assert (N : nth (length a) ks 0 = r_of h c).
  { unfold ks. rewrite map_app. cbn [map]. rewrite <- E.
    rewrite <- (map_length (r_of h) a). apply nth_mid. }
  assert (L : (length a < length ks)%nat).
  { unfold ks. rewrite map_length, app_length. cbn. lia. }
  assert (i = length a).
  { destruct (Nat.lt_trichotomy i (length a)) as [G|[G|G]]; auto.
    - pose proof (incr_nth ks i (length a) S ltac:(lia)).
      specialize (R i ltac:(lia)). lia.
    - specialize (Q _ G). lia. }
  rewrite H0, N, Z.eqb_refl. f_equal. unfold delete_at.
  replace (firstn (length a) (a ++ d :: b)) with a.
  2:{ rewrite firstn_app, Nat.sub_diag, firstn_all. cbn. now rewrite app_nil_r. }
  f_equal. change (d :: b) with ([d] ++ b). rewrite app_assoc.
  rewrite skipn_app. rewrite app_length. cbn [length].
  rewrite skipn_all2 by (rewrite app_length; cbn; lia).
  replace (Datatypes.S (length a) - (length a + 1))%nat with 0%nat by lia. reflexivity.
Qed.

Lemma sl_remove_none : forall h l c, incr (map (r_of h) l) ->
  ~ In (r_of h c) (map (r_of h) l) -> sl_remove h l c = Err ValueError.
Proof.
  intros h l c S N. unfold sl_remove. destruct l as [|x l'] eqn:El; auto.
  rewrite <- El in *. set (ks := map (r_of h) l) in *.
  destruct (last ks 0 <? r_of h c) eqn:F; auto. apply Z.ltb_ge in F.
  destruct (nth (bisect_left ks (r_of h c)) ks 0 =? r_of h c) eqn:G; auto.
  apply Z.eqb_eq in G. exfalso. apply N. rewrite <- G. apply nth_In.
  unfold bisect_left.
  destruct (bisect_l_spec (length ks) ks (r_of h c) 0 (length ks))
    as (P & Q & R); auto; try lia.
  set (i := bisect_l _ _ _ _ _) in *.
  destruct (Nat.eq_dec i (length ks)); [|lia].
  assert (K : (0 < length ks)%nat) by (unfold ks; rewrite map_length, El; cbn; lia).
  assert (last ks 0 = nth (length ks - 1) ks 0).
  { clear. rewrite <- (rev_involutive ks). destruct (rev ks) as [|y r]; auto.
    cbn [rev]. rewrite last_last, app_length. cbn [length].
    rewrite app_nth2 by lia. replace (length (rev r) + 1 - 1 - length (rev r))%nat with 0%nat by lia.
    reflexivity. }
  specialize (Q (length ks - 1)%nat ltac:(lia)). lia.
Qed.

(* SortedList(iterable) keeps an increasing iterable *)
Lemma sl_init_id : forall key l, StronglySorted Z.lt (map key l) -> sl_init key l = l.
Proof.
  induction l as [|c l IH]; intros S; cbn in *; auto. inversion S; subst.
  rewrite IH by auto. destruct l as [|d l]; auto. cbn in *.
  inversion H2; subst. destruct (key c <=? key d) eqn:E; auto. lia.
Qed.

(* ------------------------------------------------------------------ heap access *)

Lemma lset_length : forall A (l : list A) i v, length (lset l i v) = length l.
Proof. induction l; destruct i; cbn; auto. Qed.

Lemma lset_nth : forall A (l : list A) i v j d,
  nth j (lset l i v) d = if (Nat.eqb j i && Nat.ltb i (length l))%bool then v else nth j l d.
Proof.
  induction l as [|x l IH]; intros i v j d; cbn.
  - rewrite andb_false_r. reflexivity.
  - destruct i, j; cbn; auto. rewrite IH. reflexivity.
Qed.

Lemma in_dec_nat : forall (c : nat) l, {In c l} + {~ In c l}.
Proof. intros. apply in_dec. apply Nat.eq_dec. Defined.

Lemma r_of_set_r : forall h c r d, (c < length (h_cells h))%nat ->
  r_of (set_r h c r) d = if Nat.eqb d c then r else r_of h d.
Proof.
  intros h c r d L. unfold r_of, set_r, cell_of. cbn [h_cells]. rewrite lset_nth.
  apply Nat.ltb_lt in L. rewrite L, andb_true_r. destruct (Nat.eqb d c); auto.
Qed.

Lemma ce_set_r : forall h c r d, c_e (cell_of (set_r h c r) d) = c_e (cell_of h d).
Proof.
  intros h c r d. unfold set_r, cell_of. cbn [h_cells]. rewrite lset_nth.
  destruct (Nat.eqb d c) eqn:E; auto. apply Nat.eqb_eq in E. subst.
  destruct (Nat.ltb c (length (h_cells h))) eqn:F; auto.
Qed.

(* everything but the root indexes *)
Definition same_shape (h h' : heap) : Prop :=
  h_evs h' = h_evs h /\ h_trees h' = h_trees h /\
  length (h_cells h') = length (h_cells h) /\
  forall d, c_e (cell_of h' d) = c_e (cell_of h d).

Lemma same_shape_refl : forall h, same_shape h h.
Proof. intros. repeat split. Qed.

Lemma same_shape_trans : forall a b c, same_shape a b -> same_shape b c -> same_shape a c.
Proof.
  intros a b c (A & B & C & D) (A' & B' & C' & D').
  repeat split; try congruence.
Qed.

Lemma same_shape_set_r : forall h c r, same_shape h (set_r h c r).
Proof.
  intros. repeat split. - cbn. apply lset_length. - intros. apply ce_set_r.
Qed.

Lemma shape_up : forall x l h, same_shape h (fold_left (shift_up x) l h).
Proof.
  induction l as [|c l IH]; intros h; cbn [fold_left]; [apply same_shape_refl|].
  eapply same_shape_trans; [|apply IH]. unfold shift_up.
  destruct (x <=? r_of h c); [apply same_shape_set_r|apply same_shape_refl].
Qed.

Lemma shape_down : forall ie l h, same_shape h (fold_left (shift_down ie) l h).
Proof.
  induction l as [|c l IH]; intros h; cbn [fold_left]; [apply same_shape_refl|].
  eapply same_shape_trans; [|apply IH]. unfold shift_down.
  destruct (r_of h ie <=? r_of h c); [apply same_shape_set_r|apply same_shape_refl].
Qed.

(* the loop of insert *)
Lemma r_of_shift_up : forall x l h d, NoDup l ->
  (forall c, In c l -> (c < length (h_cells h))%nat) ->
  r_of (fold_left (shift_up x) l h) d =
    if in_dec_nat d l then (if x <=? r_of h d then r_of h d + 1 else r_of h d)
    else r_of h d.
Proof.
  induction l as [|c l IH]; intros h d N B; cbn [fold_left].
  - destruct (in_dec_nat d []); auto. contradiction.
  - inversion N; subst.
    assert (S : same_shape h (shift_up x h c)) by (apply (shape_up x [c])).
    destruct S as (_ & _ & S & _).
    rewrite IH; auto. 2:{ intros. rewrite S. apply B. now right. }
    assert (E : r_of (shift_up x h c) d =
      if Nat.eqb d c then (if x <=? r_of h d then r_of h d + 1 else r_of h d) else r_of h d).
    { unfold shift_up. destruct (x <=? r_of h c) eqn:F.
      - rewrite r_of_set_r by (apply B; now left). destruct (Nat.eqb d c) eqn:G; auto.
        apply Nat.eqb_eq in G. subst. now rewrite F.
      - destruct (Nat.eqb d c) eqn:G; auto.
        apply Nat.eqb_eq in G. subst. now rewrite F. }
    rewrite !E. destruct (Nat.eqb d c) eqn:G.
    + apply Nat.eqb_eq in G. subst.
      destruct (in_dec_nat c l); [contradiction|].
      destruct (in_dec_nat c (c :: l)) as [|K]; auto. exfalso. apply K. now left.
    + apply Nat.eqb_neq in G.
      destruct (in_dec_nat d l), (in_dec_nat d (c :: l)) as [K|K]; auto.
      * exfalso. apply K. now right.
      * destruct K as [K|K]; [congruence|contradiction].
Qed.

(* the loop of pop, when the popped cell is no longer in the root *)
Lemma r_of_shift_down : forall ie l h d, NoDup l -> ~ In ie l ->
  (forall c, In c l -> (c < length (h_cells h))%nat) ->
  r_of (fold_left (shift_down ie) l h) d =
    if in_dec_nat d l then (if r_of h ie <=? r_of h d then r_of h d - 1 else r_of h d)
    else r_of h d.
Proof.
  induction l as [|c l IH]; intros h d N M B; cbn [fold_left].
  - destruct (in_dec_nat d []); auto. contradiction.
  - inversion N; subst.
    assert (S : same_shape h (shift_down ie h c)) by (apply (shape_down ie [c])).
    destruct S as (_ & _ & S & _).
    assert (E : forall d, r_of (shift_down ie h c) d =
      if Nat.eqb d c then (if r_of h ie <=? r_of h d then r_of h d - 1 else r_of h d) else r_of h d).
    { intros k. unfold shift_down. destruct (r_of h ie <=? r_of h c) eqn:F.
      - rewrite r_of_set_r by (apply B; now left). destruct (Nat.eqb k c) eqn:G; auto.
        apply Nat.eqb_eq in G. subst. now rewrite F.
      - destruct (Nat.eqb k c) eqn:G; auto.
        apply Nat.eqb_eq in G. subst. now rewrite F. }
    rewrite IH; auto.
    2:{ intros K. apply M. now right. }
    2:{ intros. rewrite S. apply B. now right. }
    rewrite !E.
    assert (Nat.eqb ie c = false) as ->.
    { apply Nat.eqb_neq. intros ->. apply M. now left. }
    destruct (Nat.eqb d c) eqn:G.
    + apply Nat.eqb_eq in G. subst.
      destruct (in_dec_nat c l); [contradiction|].
      destruct (in_dec_nat c (c :: l)) as [|K]; auto. exfalso. apply K. now left.
    + apply Nat.eqb_neq in G.
      destruct (in_dec_nat d l), (in_dec_nat d (c :: l)) as [K|K]; auto.
      * exfalso. apply K. now right.
      * destruct K as [K|K]; [congruence|contradiction].
Qed.

Lemma tree_of_set_lst : forall h t l u, (t < length (h_trees h))%nat ->
  tree_of (set_lst h t l) u =
    if Nat.eqb u t then Tree (t_parent (tree_of h u)) (t_root (tree_of h u)) l
    else tree_of h u.
Proof.
  intros h t l u L. unfold tree_of, set_lst. cbn [h_trees]. rewrite lset_nth.
  apply Nat.ltb_lt in L. rewrite L, andb_true_r.
  destruct (Nat.eqb u t) eqn:E; auto. apply Nat.eqb_eq in E. now subst.
Qed.

Lemma lst_of_set_lst : forall h t l u, (t < length (h_trees h))%nat ->
  lst_of (set_lst h t l) u = if Nat.eqb u t then l else lst_of h u.
Proof.
  intros. unfold lst_of. rewrite tree_of_set_lst by auto. now destruct (Nat.eqb u t).
Qed.

Lemma r_of_set_lst : forall h t l c, r_of (set_lst h t l) c = r_of h c.
Proof. reflexivity. Qed.

Lemma cell_of_new : forall h r e c, (c < length (h_cells h))%nat ->
  cell_of (fst (new_cell h r e)) c = cell_of h c.
Proof. intros. unfold cell_of. cbn. now rewrite app_nth1. Qed.

Lemma cell_of_new_self : forall h r e,
  cell_of (fst (new_cell h r e)) (length (h_cells h)) = Cell r e.
Proof. intros. unfold cell_of. cbn. rewrite app_nth2 by lia. now rewrite Nat.sub_diag. Qed.
