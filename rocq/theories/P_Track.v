(* Facts about slices. *)
From Coq Require Import ZArith List Bool Lia Arith Sorting.Sorted.
From Verif Require Import M_Base M_Tree M_Collections M_Track S_Track P_Base.
Import ListNotations.
Open Scope Z_scope.

(* the positions a, a + st, ... *)
Fixpoint stepping (a st : Z) (k : nat) : list Z := match k with O => [] | S k => a :: stepping (a + st) st k end.
Lemma stepping_in a st : forall k b p, b = a -> In p (stepping b st k) <-> exists m, (m < k)%nat /\ p = a + Z.of_nat m * st.
Proof.
  intros k. revert a. induction k as [|k IH]; intros a b p ->; cbn [stepping In]; [split; [intros []|intros (m & L & _); lia]|].
  rewrite (IH (a + st) (a + st) p eq_refl). split.
  - intros [<-|(m & L & ->)]; [exists 0%nat; split; lia|]. exists (S m). split; [lia|]. rewrite Nat2Z.inj_succ. ring.
  - intros (m & L & ->). destruct m as [|m]; [left; lia|]. right. exists m. split; [lia|]. rewrite Nat2Z.inj_succ. ring.
Qed.
Lemma stepping_sorted st : forall k a, (0 < st -> StronglySorted Z.lt (stepping a st k)) /\ (st < 0 -> StronglySorted Z.gt (stepping a st k)).
Proof.
  induction k as [|k IH]; intros a; cbn [stepping]; [split; constructor|]. destruct (IH (a + st)) as [U D].
  split; intros S; constructor; auto; apply Forall_forall; intros p I; apply (stepping_in (a + st) st k _ p eq_refl) in I; destruct I as (m & _ & ->); nia.
Qed.
Lemma pick_stepping A (l : list A) st : forall k a, (forall p, In p (stepping a st k) -> 0 <= p < zlen l) ->
  map Some (pick l a st k) = map (fun p => nth_error l (Z.to_nat p)) (stepping a st k).
Proof.
  induction k as [|k IH]; intros a H; [reflexivity|]. cbn [pick stepping map]. assert (0 <= a < zlen l) by (apply H; now left). unfold zlen in *.
  destruct (nth_error l (Z.to_nat a)) as [x|] eqn:E; [|apply nth_error_None in E; lia]. cbn [map]. f_equal. apply IH. intros p I. apply H. now right.
Qed.

Lemma count_up (a b s : Z) m : 0 < s -> (m < Z.to_nat (if (a <? b)%Z then (b - a - 1) / s + 1 else 0)%Z)%nat <-> a + Z.of_nat m * s < b.
Proof.
  intros S. destruct (Z.ltb_spec a b) as [L|L].
  - pose proof (Z.mul_div_le (b - a - 1) s S) as U. assert (Q : 0 <= (b - a - 1) / s) by (apply Z.div_pos; lia). split; intros H.
    + assert (M : Z.of_nat m <= (b - a - 1) / s) by lia. clear H. set (q := (b - a - 1) / s) in *. clearbody q. nia.
    + assert (M : Z.of_nat m <= (b - a - 1) / s) by (apply Z.div_le_lower_bound; lia). lia.
  - split; intros H; [lia|]. assert (0 <= Z.of_nat m * s) by (apply Z.mul_nonneg_nonneg; lia). lia.
Qed.
Lemma count_down (a b s : Z) m : s < 0 -> (m < Z.to_nat (if (b <? a)%Z then (a - b - 1) / - s + 1 else 0)%Z)%nat <-> b < a + Z.of_nat m * s.
Proof.
  intros S. pose proof (count_up (- a) (- b) (- s) m ltac:(lia)) as U. replace (- a <? - b) with (b <? a) in U by (destruct (Z.ltb_spec b a), (Z.ltb_spec (- a) (- b)); lia || reflexivity).
  replace (- b - - a - 1) with (a - b - 1) in U by lia. rewrite U. split; intros; lia.
Qed.

(* the indices of a slice are the positions meant *)
Lemma indices_meant n start stop step a st k : 0 <= n -> slice_indices n start stop step = Ok (a, st, k) ->
  st = match step with Some s => s | None => 1 end /\ st <> 0 /\ forall p, In p (stepping a st (Z.to_nat k)) <-> in_slice n start stop st p.
Proof.
  intros N E. unfold slice_indices in E. set (s := match step with Some s => s | None => 1 end) in *. clearbody s. destruct (Z.eqb_spec s 0) as [|NZ]; [discriminate|].
  assert (ES : s = st) by congruence. subst st. split; [reflexivity|]. split; [exact NZ|]. intros p. rewrite (stepping_in a s _ a p eq_refl).
  unfold in_slice, from_end. cbv zeta in E. destruct (Z.ltb_spec s 0) as [NS|PS].
  - set (a0 := match start with Some _ => _ | None => _ end) in E. set (b := match stop with Some _ => _ | None => _ end) in E.
    assert (A : a0 = match start with Some i => Z.max (-1) (Z.min (n - 1) (if i <? 0 then i + n else i)) | None => n - 1 end).
    { unfold a0. destruct start as [i|]; [|lia]. destruct (Z.ltb_spec i 0); [destruct (Z.ltb_spec (i + n) 0); lia|destruct (Z.leb_spec n i); lia]. }
    assert (B : b = match stop with Some i => Z.max (-1) (Z.min (n - 1) (if i <? 0 then i + n else i)) | None => -1 end).
    { unfold b. destruct stop as [i|]; [|lia]. destruct (Z.ltb_spec i 0); [destruct (Z.ltb_spec (i + n) 0); lia|destruct (Z.leb_spec n i); lia]. }
    clearbody a0 b. assert (EA : a0 = a) by congruence. rewrite EA in A.
    assert (K : forall m, (m < Z.to_nat k)%nat <-> b < a + Z.of_nat m * s) by (intros m; rewrite <- (count_down a b s m NS); injection E as E1 E2; rewrite <- E2, E1; reflexivity). clear E.
    set (x := match start with Some i => if i <? 0 then i + n else i | None => n - 1 end).
    assert (AX : a = Z.max (-1) (Z.min (n - 1) x)) by (unfold x; destruct start; lia).
    assert (SX : match start with Some i => Z.min (n - 1) (if i <? 0 then i + n else i) | None => n - 1 end = Z.min (n - 1) x) by (unfold x; destruct start; lia).
    rewrite SX. clear SX A. clearbody x. split.
    + intros (m & L & ->). apply K in L. assert (M : Z.of_nat m * s <= 0) by (apply Z.mul_nonneg_nonpos; lia).
      assert (-1 <= b) by (destruct stop; lia). split; [lia|]. split; [lia|]. intros _. replace (Z.min (n - 1) x) with a by lia. split; [lia|]. split.
      * exists (Z.of_nat m). lia.
      * destruct stop as [j|]; [lia|exact I].
    + intros (R & _ & D). destruct (D NS) as (LE & (q & Q) & ST). replace (Z.min (n - 1) x) with a in * by lia. assert (0 <= q) by nia.
      exists (Z.to_nat q). rewrite K, Z2Nat.id by assumption. split; [|lia]. replace (a + q * s) with p by lia. destruct stop as [j|]; lia.
  - set (a0 := match start with Some _ => _ | None => _ end) in E. set (b := match stop with Some _ => _ | None => _ end) in E.
    assert (A : a0 = match start with Some i => Z.max 0 (Z.min n (if i <? 0 then i + n else i)) | None => 0 end).
    { unfold a0. destruct start as [i|]; [|lia]. destruct (Z.ltb_spec i 0); [destruct (Z.ltb_spec (i + n) 0); lia|destruct (Z.leb_spec n i); lia]. }
    assert (B : b = match stop with Some i => Z.max 0 (Z.min n (if i <? 0 then i + n else i)) | None => n end).
    { unfold b. destruct stop as [i|]; [|lia]. destruct (Z.ltb_spec i 0); [destruct (Z.ltb_spec (i + n) 0); lia|destruct (Z.leb_spec n i); lia]. }
    assert (PP : 0 < s) by lia. clearbody a0 b. assert (EA : a0 = a) by congruence. rewrite EA in A.
    assert (K : forall m, (m < Z.to_nat k)%nat <-> a + Z.of_nat m * s < b) by (intros m; rewrite <- (count_up a b s m PP); injection E as E1 E2; rewrite <- E2, E1; reflexivity). clear E.
    set (x := match start with Some i => if i <? 0 then i + n else i | None => 0 end).
    assert (AX : a = Z.max 0 (Z.min n x)) by (unfold x; destruct start; lia).
    assert (SX : match start with Some i => Z.max 0 (if i <? 0 then i + n else i) | None => 0 end = Z.max 0 x) by (unfold x; destruct start; lia).
    rewrite SX. clear SX A. clearbody x. split.
    + intros (m & L & ->). apply K in L. assert (M : 0 <= Z.of_nat m * s) by (apply Z.mul_nonneg_nonneg; lia).
      assert (b <= n) by (destruct stop; lia). split; [lia|]. split; [|lia]. intros _. replace (Z.max 0 x) with a by lia. split; [lia|]. split.
      * exists (Z.of_nat m). lia.
      * destruct stop as [j|]; [lia|exact I].
    + intros (R & U & _). destruct (U PP) as (LE & (q & Q) & ST). replace (Z.max 0 x) with a in * by lia. assert (0 <= q) by nia.
      exists (Z.to_nat q). rewrite K, Z2Nat.id by assumption. split; [|lia]. replace (a + q * s) with p by lia. destruct stop as [j|]; lia.
Qed.
