(* Views and edits of event trees (C15-C23). *)
From Coq Require Import String ZArith List Bool Lia Sorting.Sorted.
From Verif Require Import M_Base M_Events M_Tree S_Tree P_Base P_TreeBase.
Import ListNotations.
Open Scope Z_scope.

Definition nt (h : heap) : nat := length (h_trees h).
Definition nc (h : heap) : nat := length (h_cells h).
Definition keys (h : heap) (t : nat) : list Z := map (r_of h) (lst_of h t).
Definition ordered (h : heap) (t : nat) : Prop := incr (keys h t).

(* ------------------------------------------------------------- creating views *)

(* [h'] has the same events and cells as [h] and its trees extend those of [h] *)
Definition extends (h h' : heap) : Prop :=
  h_evs h' = h_evs h /\ h_cells h' = h_cells h /\
  exists ts, h_trees h' = h_trees h ++ ts.

Lemma extends_refl : forall h, extends h h.
Proof. intros. repeat split. exists []. now rewrite app_nil_r. Qed.

Lemma extends_trans : forall a b c, extends a b -> extends b c -> extends a c.
Proof.
  intros a b c (A & B & ts & C) (A' & B' & ts' & C'). repeat split; try congruence.
  exists (ts ++ ts'). rewrite C', C. now rewrite app_assoc.
Qed.

Lemma extends_tree : forall h h' t, extends h h' -> (t < nt h)%nat ->
  tree_of h' t = tree_of h t.
Proof. intros h h' t (_ & _ & ts & E) L. unfold tree_of. rewrite E. now apply app_nth1. Qed.

Lemma extends_r : forall h h', extends h h' -> r_of h' = r_of h.
Proof. intros h h' (A & B & _). unfold r_of, cell_of. now rewrite B. Qed.

Lemma extends_nt : forall h h', extends h h' -> (nt h <= nt h')%nat.
Proof. intros h h' (_ & _ & ts & E). unfold nt. rewrite E, app_length. lia. Qed.

Lemma new_tree_ext : forall h p i, extends h (fst (new_tree h p i)).
Proof. intros. repeat split. cbn. eauto. Qed.

Lemma new_tree_self : forall h p i h' u, new_tree h p i = (h', u) ->
  u = nt h /\ nt h' = S (nt h) /\
  t_parent (tree_of h' u) = p /\ lst_of h' u = sl_init (r_of h) i.
Proof.
  intros h p i h' u E. unfold new_tree in E. injection E as <- <-.
  unfold nt, lst_of, tree_of. cbn [h_trees]. rewrite app_length. cbn [length].
  rewrite nth_mid. cbn. repeat split; auto. lia.
Qed.

Lemma new_trees_spec : forall p inits h h' ts, new_trees h p inits = (h', ts) ->
  extends h h' /\ ts = seq (nt h) (length inits) /\ nt h' = (nt h + length inits)%nat /\
  map (lst_of h') ts = map (sl_init (r_of h)) inits /\
  Forall (fun u => t_parent (tree_of h' u) = Some p) ts.
Proof.
  induction inits as [|i inits IH]; intros h h' ts E.
  - cbn in E. injection E as <- <-. cbn. repeat split; auto.
    + exists []. now rewrite app_nil_r.
  - cbn [new_trees] in E. destruct (new_tree h (Some p) i) as [h1 u] eqn:E1.
    destruct (new_trees h1 p inits) as [h2 us] eqn:E2. injection E as <- <-.
    pose proof (new_tree_ext h (Some p) i) as X. rewrite E1 in X. cbn [fst] in X.
    destruct (new_tree_self _ _ _ _ _ E1) as (-> & N1 & P1 & L1).
    destruct (IH _ _ _ E2) as (X2 & -> & N2 & M2 & F2).
    pose proof (extends_tree _ _ (nt h) X2 ltac:(lia)) as T.
    split; [eapply extends_trans; eauto|]. cbn [length seq map].
    rewrite N1. split; [reflexivity|]. split; [lia|]. rewrite N1 in M2. split.
    + f_equal.
      * unfold lst_of at 1. rewrite T. exact L1.
      * rewrite M2. now rewrite (extends_r _ _ X).
    + constructor; [now rewrite T|]. now rewrite N1 in F2.
Qed.

(* views whose initial lists are subsequences of an ordered tree *)
Lemma init_subseq : forall h t i, ordered h t -> subseq i (lst_of h t) ->
  sl_init (r_of h) i = i.
Proof.
  intros h t i O S. apply sl_init_id. eapply subseq_sorted; [|exact O].
  now apply subseq_map.
Qed.

Lemma map_id_forall : forall A (f : A -> A) l, Forall (fun x => f x = x) l -> map f l = l.
Proof. induction 1; cbn; congruence. Qed.

Lemma new_trees_sub : forall h t inits h' ts, ordered h t ->
  Forall (fun i => subseq i (lst_of h t)) inits ->
  new_trees h t inits = (h', ts) -> map (lst_of h') ts = inits.
Proof.
  intros h t inits h' ts O F E. destruct (new_trees_spec _ _ _ _ _ E) as (_ & _ & _ & -> & _).
  apply map_id_forall. eapply Forall_impl; [|exact F]. intros i S.
  eapply init_subseq; eauto.
Qed.

(* --- subtree *)
Lemma select_subseq : forall S h (sel : S -> event -> S * option bool) l s,
  subseq (select_list h sel s l) l.
Proof.
  induction l as [|c l IH]; intros s; cbn; [constructor|].
  destruct (sel s (e_of h c)) as [s1 [[|]|]]; constructor; apply IH.
Qed.

Lemma select_spec : forall S h (sel : S -> event -> S * option bool) l s,
  select_list h sel s l =
  map fst (filter (fun x => match snd x with Some true => true | _ => false end)
             (combine l (answers sel s (map (e_of h) l)))).
Proof.
  induction l as [|c l IH]; intros s; cbn; auto.
  destruct (sel s (e_of h c)) as [s1 a]. cbn. rewrite IH.
  destruct a as [[|]|]; reflexivity.
Qed.

(* --- divide *)
Definition is_sep (h : heap) (sep : Z) (c : nat) : bool := id_of h c =? sep.
Definition keep (h : heap) (ids : list Z) (c : nat) : bool := mem_Z (id_of h c) ids.

Lemma filter_app_ : forall A (f : A -> bool) a b, filter f (a ++ b) = filter f a ++ filter f b.
Proof. intros. apply filter_app. Qed.

(* once the first separator has been seen *)
Lemma divide_rest : forall h sep ids l cur,
  exists p ps, concat (p :: ps) = l /\
    forallb (fun c => negb (is_sep h sep c)) p = true /\
    Forall (fun p => exists x p', p = x :: p' /\ is_sep h sep x = true /\
              forallb (fun c => negb (is_sep h sep c)) p' = true) ps /\
    divide_lists h sep ids l cur false =
      (cur ++ filter (keep h ids) p) :: map (filter (keep h ids)) ps.
Proof.
  induction l as [|c l IH]; intros cur; cbn [divide_lists].
  - exists [], []. repeat split; auto. cbn. now rewrite app_nil_r.
  - fold (is_sep h sep c). fold (keep h ids c).
    destruct (is_sep h sep c) eqn:E.
    + destruct (IH (if keep h ids c then [] ++ [c] else [])) as (p & ps & A & B & C & D).
      exists [], ((c :: p) :: ps). repeat split.
      * cbn in *. now rewrite A.
      * constructor; eauto.
      * cbn [app]. cbn [app] in D. rewrite D. cbn. rewrite app_nil_r. f_equal. f_equal.
        destruct (keep h ids c); reflexivity.
    + destruct (IH (if keep h ids c then cur ++ [c] else cur)) as (p & ps & A & B & C & D).
      exists (c :: p), ps. repeat split; auto.
      * cbn in *. now rewrite A.
      * cbn. now rewrite E.
      * cbn [app]. rewrite D. f_equal. cbn. destruct (keep h ids c); cbn; auto.
        now rewrite <- app_assoc.
Qed.

Lemma divide_first : forall h sep ids l cur,
  exists ps, cut_pieces (is_sep h sep) l ps /\
    exists p r, ps = p :: r /\
    divide_lists h sep ids l cur true =
      (cur ++ filter (keep h ids) p) :: map (filter (keep h ids)) r.
Proof.
  induction l as [|c l IH]; intros cur; cbn [divide_lists].
  - exists [[]]. split.
    + split; auto. split; [|constructor]. exists [], []. auto.
    + exists [], []. cbn. rewrite app_nil_r. auto.
  - fold (is_sep h sep c). fold (keep h ids c).
    destruct (is_sep h sep c) eqn:E.
    + destruct (divide_rest h sep ids l (if keep h ids c then cur ++ [c] else cur))
        as (p & ps & A & B & C & D).
      exists ((c :: p) :: ps). split.
      * split; [cbn in *; now rewrite A|]. split; [|exact C].
        exists [], (c :: p). auto.
      * exists (c :: p), ps. split; auto. cbn [app]. rewrite D. f_equal. cbn.
        destruct (keep h ids c); cbn; auto. now rewrite <- app_assoc.
    + destruct (IH (if keep h ids c then cur ++ [c] else cur))
        as (ps & (A & B) & p & r & -> & D).
      destruct B as ((a & b & -> & B1 & B2) & C).
      exists ((c :: a ++ b) :: r). split.
      * split; [cbn in *; now rewrite A|]. split; [|exact C].
        exists (c :: a), b. repeat split; auto. cbn. now rewrite E.
      * exists (c :: a ++ b), r. split; auto. cbn [app]. rewrite D. f_equal.
        cbn. destruct (keep h ids c); cbn; auto. now rewrite <- app_assoc.
Qed.

Lemma divide_pieces : forall h sep ids l,
  exists ps, cut_pieces (is_sep h sep) l ps /\
    divide_lists h sep ids l [] true = map (filter (keep h ids)) ps.
Proof.
  intros. destruct (divide_first h sep ids l []) as (ps & A & p & r & -> & D).
  exists (p :: r). split; auto.
Qed.

Lemma subseq_concat : forall A (ps : list (list A)) p, In p ps -> subseq p (concat ps).
Proof.
  induction ps as [|q ps IH]; intros p I; [inversion I|]. cbn.
  destruct I as [->|I].
  - rewrite <- (app_nil_r p) at 1. apply subseq_app; [apply subseq_refl|constructor].
  - change p with ([] ++ p). apply subseq_app; [constructor|auto].
Qed.

Lemma divide_subseq : forall h sep ids l,
  Forall (fun i => subseq i l) (divide_lists h sep ids l [] true).
Proof.
  intros. destruct (divide_pieces h sep ids l) as (ps & (A & _) & ->).
  apply Forall_forall. intros i I. apply in_map_iff in I. destruct I as (p & <- & I).
  eapply subseq_trans; [apply subseq_filter|]. rewrite <- A. now apply subseq_concat.
Qed.

(* number of pieces *)
Lemma cut_pieces_count : forall A (cut : A -> bool) l ps, cut_pieces cut l ps ->
  length ps = Nat.max 1 (length (filter cut l)).
Proof.
  assert (Z0 : forall A (cut : A -> bool) a,
    forallb (fun x => negb (cut x)) a = true -> filter cut a = []).
  { induction a; cbn; intros; auto. apply andb_true_iff in H as [H1 H2].
    destruct (cut a); try discriminate. auto. }
  intros A cut l ps (E & H). destruct ps as [|p0 r]; [contradiction|].
  destruct H as ((a & b & -> & Ha & Hb) & F). subst l. cbn [concat length].
  rewrite !filter_app, (Z0 _ _ _ Ha). cbn [app].
  assert (R : length (filter cut (concat r)) = length r).
  { clear Hb. induction F as [|q r Q F IHF]; auto. destruct Q as (y & p' & -> & Hx & Hp).
    cbn [concat]. rewrite filter_app. cbn [filter]. rewrite Hx, (Z0 _ _ _ Hp). cbn.
    now rewrite IHF. }
  destruct b as [|x b].
  - subst r. cbn. auto.
  - destruct Hb as [Hx Hb]. cbn [filter]. rewrite Hx, (Z0 _ _ _ Hb). cbn [app length].
    rewrite R. lia.
Qed.

(* --- separate *)
Lemma filter_in_split : forall A (f : A -> bool) l c, In c (filter f l) -> subseq [c] l.
Proof.
  intros A f l c I. apply filter_In in I. destruct I as [I _].
  apply in_split in I. destruct I as (a & b & ->).
  change [c] with ([] ++ [c]). apply subseq_app; repeat constructor.
Qed.

Lemma separate_subseq : forall l f,
  Forall (fun i => subseq i l) (map (fun c : nat => [c]) (filter f l)).
Proof.
  intros. apply Forall_forall. intros i I. apply in_map_iff in I.
  destruct I as (c & <- & I). eapply filter_in_split; eauto.
Qed.

(* --- subtrees *)
Section Subtrees.
Context {S : Type} (h : heap) (sel : S -> event -> S * option bool).

(* all cells the callback does not skip, with its answer *)
Definition taken (s : S) (l : list nat) : list (nat * option bool) :=
  filter (fun x => match snd x with None => false | _ => true end)
    (combine l (answers sel s (map (e_of h) l))).
Definition boundary (x : nat * option bool) : bool :=
  match snd x with Some false => true | _ => false end.

(* pieces of the taken cells, one starting at every boundary *)
Lemma subtrees_pieces : forall l s rep cur,
  exists p ps, concat (p :: ps) = taken s l /\
    forallb (fun x => negb (boundary x)) p = true /\
    Forall (fun p => exists x p', p = x :: p' /\ boundary x = true /\
              forallb (fun x => negb (boundary x)) p' = true) ps /\
    let all := (cur ++ map fst p) :: map (map fst) ps in
    let yields := removelast all in
    subtrees_lists h sel s rep l cur =
      if rep <? 0 then yields else firstn (Z.to_nat rep) yields.
Proof.
  induction l as [|c l IH]; intros s rep cur.
  - exists [], []. repeat split; auto. cbn. destruct (rep <? 0); auto.
    now rewrite firstn_nil.
  - cbn [subtrees_lists]. unfold taken. cbn [map answers].
    destruct (sel s (e_of h c)) as [s1 a] eqn:E. cbn [combine filter snd].
    fold (taken s1 l). destruct a as [[|]|].
    + destruct (IH s1 rep (cur ++ [c])) as (p & ps & A & B & C & D).
      exists ((c, Some true) :: p), ps. repeat split; auto.
      * cbn in *. now rewrite A.
      * destruct (rep =? 0) eqn:R.
        { apply Z.eqb_eq in R. subst. cbn. reflexivity. }
        rewrite D. cbn [map fst]. now rewrite <- app_assoc.
    + destruct (IH s1 (rep - 1) [c]) as (p & ps & A & B & C & D).
      exists [], (((c, Some false) :: p) :: ps). repeat split; auto.
      * cbn in *. now rewrite A.
      * constructor; auto. exists (c, Some false), p. auto.
      * destruct (rep =? 0) eqn:R.
        { apply Z.eqb_eq in R. subst. cbn. reflexivity. }
        apply Z.eqb_neq in R. rewrite D. cbn [map fst app]. rewrite app_nil_r.
        set (m := map (map fst) ps). cbn [removelast].
        change (match m with [] => [] | _ :: _ => (c :: map fst p) :: removelast m end)
          with (removelast ((c :: map fst p) :: m)).
        destruct (rep - 1 <? 0) eqn:Q.
        { assert (rep < 0) by lia. destruct (rep <? 0) eqn:Q'; [reflexivity|lia]. }
        { destruct (rep <? 0) eqn:Q'; [lia|].
          replace (Z.to_nat rep) with (Datatypes.S (Z.to_nat (rep - 1))) by lia.
          reflexivity. }
    + destruct (IH s1 rep cur) as (p & ps & A & B & C & D).
      exists p, ps. repeat split; auto.
      destruct (rep =? 0) eqn:R; [|exact D].
      apply Z.eqb_eq in R. subst. reflexivity.
Qed.

Lemma taken_subseq : forall l s, subseq (map fst (taken s l)) l.
Proof.
  induction l as [|c l IH]; intros s; unfold taken; cbn [map answers].
  - constructor.
  - destruct (sel s (e_of h c)) as [s1 a]. cbn [combine filter snd].
    destruct a as [[|]|]; cbn; constructor; apply IH.
Qed.
End Subtrees.

Lemma firstn_in : forall A n (l : list A) x, In x (firstn n l) -> In x l.
Proof.
  intros A n l x I. rewrite <- (firstn_skipn n l). apply in_or_app. now left.
Qed.

Lemma removelast_in : forall A (l : list A) x, In x (removelast l) -> In x l.
Proof.
  induction l as [|y l IH]; cbn; auto. intros x I. destruct l; [inversion I|].
  destruct I as [->|I]; auto.
Qed.

Lemma subtrees_subseq : forall S h (sel : S -> event -> S * option bool) s rep l,
  Forall (fun i => subseq i l) (subtrees_lists h sel s rep l []).
Proof.
  intros. destruct (subtrees_pieces h sel l s rep []) as (p & ps & A & B & C & D).
  cbn zeta in D. rewrite D. apply Forall_forall. intros i I.
  assert (J : In i (map (map fst) (p :: ps))).
  { cbn [map]. cbn [app] in I. destruct (rep <? 0).
    - now apply removelast_in in I.
    - apply firstn_in in I. now apply removelast_in in I. }
  apply in_map_iff in J. destruct J as (q & <- & J).
  eapply subseq_trans; [|apply (taken_subseq h sel l s)]. apply subseq_map.
  rewrite <- A. now apply subseq_concat.
Qed.

(* --- group *)
Lemma ins_sorted_in : forall key l c x, In x (ins_sorted key c l) <-> x = c \/ In x l.
Proof.
  induction l as [|d l IH]; intros c x; cbn.
  - intuition.
  - destruct (key c <=? key d); cbn; [intuition|]. rewrite IH. intuition.
Qed.

Lemma sl_init_in : forall key l x, In x (sl_init key l) <-> In x l.
Proof.
  induction l as [|d l IH]; intros x; cbn; [intuition|].
  rewrite ins_sorted_in, IH. intuition.
Qed.

Lemma ins_sorted_incr : forall key l c, incr (map key l) ->
  (forall d, In d l -> key d <> key c) -> incr (map key (ins_sorted key c l)).
Proof.
  induction l as [|d l IH]; intros c H D; cbn.
  - repeat constructor.
  - cbn in H. inversion H; subst. pose proof (D d ltac:(now left)).
    destruct (key c <=? key d) eqn:E.
    + cbn. constructor; auto. constructor; [lia|].
      eapply Forall_impl; [|exact H3]. cbn. intros. lia.
    + cbn. constructor.
      * apply IH; auto. intros. apply D. now right.
      * apply Forall_forall. intros k I. apply in_map_iff in I. destruct I as (x & <- & I).
        apply ins_sorted_in in I. destruct I as [->|I]; [lia|].
        rewrite Forall_forall in H3. apply H3. now apply in_map.
Qed.

Lemma sl_init_incr : forall key l, NoDup (map key l) -> incr (map key (sl_init key l)).
Proof.
  induction l as [|c l IH]; intros N; cbn in *; [constructor|].
  inversion N; subst. apply ins_sorted_incr; auto.
  intros d I E. apply sl_init_in in I. apply H1. rewrite <- E. now apply in_map.
Qed.

Lemma incr_ext : forall (key : nat -> Z) a b,
  incr (map key a) -> incr (map key b) -> (forall c, In c a <-> In c b) -> a = b.
Proof.
  induction a as [|x a IH]; intros [|y b] A B E; auto.
  - exfalso. apply (E y). now left.
  - exfalso. apply (E x). now left.
  - cbn in A, B. inversion A; inversion B; subst. rewrite Forall_forall in *.
    assert (x = y).
    { destruct (proj1 (E x) (or_introl eq_refl)) as [|I]; auto.
      destruct (proj2 (E y) (or_introl eq_refl)) as [|J]; auto.
      pose proof (H2 _ (in_map key _ _ J)). pose proof (H6 _ (in_map key _ _ I)). lia. }
    subst y. f_equal. apply IH; auto. intros c. split; intros I.
    + destruct (proj1 (E c) (or_intror I)) as [->|]; auto.
      pose proof (H2 _ (in_map key _ _ I)). lia.
    + destruct (proj2 (E c) (or_intror I)) as [->|]; auto.
      pose proof (H6 _ (in_map key _ _ I)). lia.
Qed.


Lemma zip_longest_spec : forall fuel ls, (forall l, In l ls -> (length l <= fuel)%nat) ->
  length (zip_longest fuel ls) = list_max (map (@length nat) ls) /\
  forall k row, nth_error (zip_longest fuel ls) k = Some row ->
    forall c, In c row <-> exists l, In l ls /\ nth_error l k = Some c.
Proof.
  assert (M0 : forall ls, (forall l : list nat, In l ls -> l = []) ->
            list_max (map (@length nat) ls) = 0%nat).
  { intros ls H. apply Nat.le_0_r. apply list_max_le. apply Forall_forall.
    intros n I. apply in_map_iff in I. destruct I as (l & <- & I). now rewrite (H _ I). }
  induction fuel; intros ls L.
  - cbn. split.
    + symmetry. apply M0. intros l I. specialize (L l I). destruct l; auto. cbn in L. lia.
    + intros [|k]; discriminate.
  - cbn [zip_longest].
    assert (R : forall c, In c (concat (map (fun l => firstn 1 l) ls)) <->
                exists l, In l ls /\ nth_error l 0 = Some c).
    { intros c. rewrite in_concat. split.
      - intros (x & I & J). apply in_map_iff in I. destruct I as (l & <- & I).
        exists l. split; auto. destruct l; cbn in J; [contradiction|].
        destruct J as [->|[]]. reflexivity.
      - intros (l & I & J). exists (firstn 1 l). split; [apply in_map_iff; eauto|].
        destruct l; cbn in J; [discriminate|]. injection J as ->. now left. }
    destruct (concat (map (fun l => firstn 1 l) ls)) as [|x row] eqn:E.
    + split.
      * cbn. symmetry. apply M0. intros l I. destruct l as [|c l]; auto.
        exfalso. apply (proj2 (R c)). exists (c :: l). auto.
      * intros [|k]; discriminate.
    + destruct (IHfuel (map (fun l => skipn 1 l) ls)) as [A B].
      { intros l I. apply in_map_iff in I. destruct I as (l' & <- & I).
        specialize (L _ I). rewrite skipn_length. lia. }
      split.
      * cbn [length]. rewrite A. clear A B IHfuel L.
        assert (N : exists l, In l ls /\ l <> []).
        { destruct (proj1 (R x) (or_introl eq_refl)) as (l & I & J).
          exists l. split; auto. intros ->. discriminate. }
        clear R E. induction ls as [|l ls IH]; [destruct N as (l & [] & _)|].
        cbn [map list_max fold_right]. fold (list_max (map (@length nat) ls)).
        fold (list_max (map (@length nat) (map (fun l => skipn 1 l) ls))).
        rewrite skipn_length.
        destruct (list_eq_dec Nat.eq_dec l []) as [->|Nl].
        { cbn [length]. rewrite <- IH; [lia|].
          destruct N as (l' & [<-|I] & Nl'); [congruence|eauto]. }
        destruct (forallb (fun l : list nat => match l with [] => true | _ => false end) ls) eqn:Z.
        { rewrite forallb_forall in Z.
          assert (forall l, In l ls -> l = []).
          { intros l' I. specialize (Z _ I). destruct l'; auto; discriminate. }
          rewrite !M0; auto.
          - destruct l; [congruence|]. cbn [length]. lia.
          - intros l' I. apply in_map_iff in I. destruct I as (l'' & <- & I).
            now rewrite (H _ I). }
        { rewrite <- IH; [destruct l; [congruence|]; cbn [length]; lia|].
          clear -Z. induction ls as [|m ls IH]; [discriminate|]. cbn in Z.
          destruct m as [|y m].
          - destruct IH as (l & I & J); auto. exists l. split; auto. now right.
          - exists (y :: m). split; [now left|discriminate]. }
      * intros [|k] row' H c.
        { cbn in H. injection H as <-. apply R. }
        { cbn in H. rewrite (B _ _ H c). split.
          - intros (l & I & J). apply in_map_iff in I. destruct I as (l' & <- & I).
            exists l'. split; auto. destruct l'; auto. cbn in J. destruct k; discriminate.
          - intros (l & I & J). exists (skipn 1 l). split; [apply in_map_iff; eauto|].
            destruct l; [discriminate|]. exact J. }
Qed.

Lemma get_ie_in : forall h t ids c,
  In c (get_ie h t ids) <-> In c (lst_of h t) /\ mem_Z (id_of h c) ids = true.
Proof. intros. unfold get_ie. apply filter_In. Qed.

Lemma mem_Z_1 : forall x y, mem_Z x [y] = (x =? y).
Proof. intros. unfold mem_Z. cbn. apply orb_false_r. Qed.

Lemma mem_Z_in : forall x l, mem_Z x l = true <-> In x l.
Proof.
  intros. unfold mem_Z. rewrite existsb_exists. split.
  - intros (y & I & E). apply Z.eqb_eq in E. now subst.
  - intros I. exists x. split; auto. apply Z.eqb_refl.
Qed.

(* rows of group as trees: the k-th occurrences, in the parent's order *)
Definition heads (k : nat) (ls : list (list nat)) : list nat :=
  concat (map (fun l => firstn 1 (skipn k l)) ls).

Lemma zip_rows : forall fuel ls k row, nth_error (zip_longest fuel ls) k = Some row ->
  row = heads k ls.
Proof.
  induction fuel; intros ls k row H; [destruct k; discriminate|].
  cbn [zip_longest] in H.
  destruct (concat (map (fun l => firstn 1 l) ls)) as [|x r] eqn:E; [destruct k; discriminate|].
  destruct k; cbn [nth_error] in H.
  - injection H as <-. unfold heads. cbn [skipn]. now rewrite <- E.
  - apply IHfuel in H. subst. unfold heads. rewrite map_map. f_equal. apply map_ext.
    intros l. destruct l; cbn [skipn]; auto. now rewrite skipn_nil.
Qed.

Lemma heads_subseq : forall k ls, subseq (heads k ls) (concat ls).
Proof.
  induction ls as [|l ls IH]; unfold heads; cbn [map concat]; [constructor|].
  apply subseq_app; [|exact IH].
  rewrite <- (firstn_skipn k l) at 2.
  change (firstn 1 (skipn k l)) with ([] ++ firstn 1 (skipn k l)).
  apply subseq_app; [constructor|]. rewrite <- (firstn_skipn 1 (skipn k l)) at 2.
  rewrite <- (app_nil_r (firstn 1 (skipn k l))) at 1.
  apply subseq_app; [apply subseq_refl|constructor].
Qed.

Lemma ordered_nodup : forall h t, ordered h t -> NoDup (lst_of h t).
Proof.
  intros h t O. apply incr_nodup in O. unfold keys in O. eapply NoDup_map_inv; eauto.
Qed.

Lemma streams_nodup : forall h t ids, NoDup ids -> ordered h t ->
  NoDup (concat (map (fun id => get_ie h t [id]) ids)).
Proof.
  intros h t ids N O. apply ordered_nodup in O.
  induction N as [|id ids M N IH]; cbn [map concat]; [constructor|].
  assert (X : forall a b : list nat, NoDup a -> NoDup b -> (forall c, In c a -> ~ In c b) ->
              NoDup (a ++ b)).
  { induction 1; cbn; auto. intros B D. constructor.
    - rewrite in_app_iff. intros [?|?]; [contradiction|]. eapply D; [left; reflexivity|eassumption].
    - apply IHNoDup; auto. }
  apply X; auto.
  - apply NoDup_filter. exact O.
  - intros c I J. apply get_ie_in in I. destruct I as [_ I]. rewrite mem_Z_1 in I.
    apply Z.eqb_eq in I. apply in_concat in J. destruct J as (l & J & K).
    apply in_map_iff in J. destruct J as (id' & <- & J).
    apply get_ie_in in K. destruct K as [_ K]. rewrite mem_Z_1 in K. apply Z.eqb_eq in K.
    congruence.
Qed.

Lemma sub_in : forall A (a b : list A), NoDup a -> (forall x, In x a -> In x b) ->
  (length a <= length b)%nat.
Proof. intros. apply NoDup_incl_length; auto. Qed.

(* keys separate the cells of an ordered tree *)
Lemma ordered_inj : forall h t c d, ordered h t ->
  In c (lst_of h t) -> In d (lst_of h t) -> r_of h c = r_of h d -> c = d.
Proof.
  intros h t c d O I J E. unfold ordered, keys in O. induction (lst_of h t) as [|x l IH].
  - inversion I.
  - cbn in O. inversion O; subst. rewrite Forall_forall in H2.
    destruct I as [->|I], J as [->|J]; auto.
    + specialize (H2 _ (in_map (r_of h) _ _ J)). lia.
    + specialize (H2 _ (in_map (r_of h) _ _ I)). lia.
Qed.

Lemma nodup_keys : forall h t l, ordered h t -> NoDup l ->
  (forall c, In c l -> In c (lst_of h t)) -> NoDup (map (r_of h) l).
Proof.
  intros h t l O N S. induction N as [|c l M N IH]; cbn; constructor; auto.
  - intros I. apply in_map_iff in I. destruct I as (d & E & I).
    apply M. rewrite <- (ordered_inj h t d c O); auto.
    + apply S. now right. + apply S. now left.
  - apply IH. intros d I. apply S. now right.
Qed.

(* a view holding some cells of an ordered tree is a subsequence of it *)
Lemma ordered_subset : forall h t l, ordered h t -> incr (map (r_of h) l) ->
  (forall c, In c l -> In c (lst_of h t)) -> subseq l (lst_of h t).
Proof.
  intros h t l O I S.
  assert (l = filter (fun c => if in_dec_nat c l then true else false) (lst_of h t)) as ->.
  2: apply subseq_filter.
  apply (incr_ext (r_of h)); auto.
  - eapply subseq_sorted; [|exact O]. apply subseq_map. apply subseq_filter.
  - intros c. rewrite filter_In. destruct (in_dec_nat c l); intuition. discriminate.
Qed.

Lemma group_row : forall h t ids k row, ordered h t -> NoDup ids ->
  nth_error (zip_longest (S (length (lst_of h t))) (map (fun id => get_ie h t [id]) ids)) k
    = Some row ->
  incr (map (r_of h) (sl_init (r_of h) row)) /\
  subseq (sl_init (r_of h) row) (lst_of h t) /\
  forall c, In c (sl_init (r_of h) row) <->
    exists id, In id ids /\ nth_error (get_ie h t [id]) k = Some c.
Proof.
  intros h t ids k row O N H.
  assert (LL : forall l, In l (map (fun id => get_ie h t [id]) ids) ->
            (length l <= S (length (lst_of h t)))%nat).
  { intros l I. apply in_map_iff in I. destruct I as (id & <- & I).
    pose proof (subseq_length _ _ _ (subseq_filter _ (fun c => mem_Z (id_of h c) [id]) (lst_of h t))).
    unfold get_ie. lia. }
  destruct (zip_longest_spec _ _ LL) as [_ Z]. specialize (Z _ _ H).
  assert (M : forall c, In c (sl_init (r_of h) row) <->
    exists id, In id ids /\ nth_error (get_ie h t [id]) k = Some c).
  { intros c. rewrite sl_init_in, Z. split.
    - intros (l & I & J). apply in_map_iff in I. destruct I as (id & <- & I). eauto.
    - intros (id & I & J). exists (get_ie h t [id]). split; auto.
      apply in_map_iff. eauto. }
  assert (SS : forall c, In c (sl_init (r_of h) row) -> In c (lst_of h t)).
  { intros c I. apply M in I. destruct I as (id & _ & J). apply nth_error_In in J.
    apply get_ie_in in J. tauto. }
  assert (I : incr (map (r_of h) (sl_init (r_of h) row))).
  { apply sl_init_incr. apply (nodup_keys h t); auto.
    - apply zip_rows in H. subst row. eapply subseq_nodup; [apply heads_subseq|].
      now apply streams_nodup.
    - intros c I. apply SS. now apply sl_init_in. }
  split; auto. split; auto. now apply ordered_subset.
Qed.
