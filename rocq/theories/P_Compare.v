(* Facts about comparing models. *)
From Coq Require Import String ZArith List Bool Lia Arith.
From Verif Require Import M_Base M_Events M_Parse M_Tree M_Prop M_Project M_Items M_Collections M_Compare.
From Verif Require Import S_Tree S_Prop S_Project S_Items S_Collections.
From Verif Require Import P_Base P_TreeBase P_Tree P_TreeEdit P_Prop P_Edit P_Project P_Items P_Patterns P_Views P_Rack P_Mixer P_Arrange.
Import ListNotations.
Open Scope Z_scope.

Lemma map_inj_in A B (f : A -> B) : forall l m, (forall x y, In x l -> In y m -> f x = f y -> x = y) -> map f l = map f m -> l = m.
Proof.
  induction l as [|x l IH]; intros [|y m] I E; try discriminate; [reflexivity|]. cbn [map] in E. injection E as E1 E2. f_equal; [apply I; cbn; auto|].
  apply IH; [|exact E2]. intros a b Ia Ib. apply I; cbn; auto.
Qed.

(* two trees of one project *)
Lemma eq_cells h ha hb t u : ordered h 0 -> h_cells ha = h_cells h -> h_cells hb = h_cells h ->
  incl (lst_of ha t) (lst_of h 0) -> incl (lst_of hb u) (lst_of h 0) -> tree_eqb hb ha u t = true <-> lst_of ha t = lst_of hb u.
Proof.
  intros O A B IA IB. unfold tree_eqb. rewrite list_Zeqb_eq.
  assert (RA : r_of ha = r_of h) by (unfold r_of, cell_of; now rewrite A). assert (RB : r_of hb = r_of h) by (unfold r_of, cell_of; now rewrite B).
  rewrite RA, RB. split; [|now intros ->].
  intros E. symmetry. revert E. apply (map_inj_in _ _ (r_of h)). intros x y X Y. apply (ordered_inj h 0 x y O); auto.
Qed.

(* pieces of a list without repetitions *)
Lemma pieces_apart A : forall ps : list (list A), NoDup (concat ps) -> forall i j p q x, nth_error ps i = Some p -> nth_error ps j = Some q ->
  In x p -> In x q -> i = j.
Proof.
  induction ps as [|p0 ps IH]; intros N i j p q x P Q X Y; [destruct i; discriminate|]. cbn [concat] in N.
  assert (D : forall k r, nth_error ps k = Some r -> In x r -> In x p0 -> False).
  { intros k r K R Z. assert (In x (concat ps)) by (apply in_concat; exists r; split; [eapply nth_error_In; eauto|exact R]). clear -N Z H.
    induction p0 as [|y p0 IH]; [destruct Z|]. cbn [app] in N. inversion N; subst. destruct Z as [->|Z]; [apply H2, in_or_app; auto|auto]. }
  assert (N' : NoDup (concat ps)) by (clear -N; induction p0 as [|y p0 IH]; [exact N|cbn [app] in N; inversion N; auto]).
  destruct i as [|i], j as [|j]; cbn [nth_error] in *; [reflexivity| | |f_equal; eapply IH; eauto].
  - injection P as <-. exfalso. eapply D; eauto.
  - injection Q as <-. exfalso. eapply D; eauto.
Qed.

(* cut_pieces and starts_at determine their pieces *)
Lemma cut_pieces_fun A (cut : A -> bool) l ps ps' : cut_pieces cut l ps -> cut_pieces cut l ps' -> ps = ps'.
Proof.
  assert (W : forall ps, cut_pieces cut l ps -> (exists a, ps = [a] /\ starts_at cut l [a]) \/
     exists a b r, ps = (a ++ b) :: r /\ starts_at cut l (a :: b :: r)).
  { intros qs [<- P]. destruct qs as [|p0 r]; [destruct P|]. destruct P as ((a & b & -> & NA & B) & R). destruct b as [|x b].
    - left. subst r. rewrite app_nil_r. exists a. split; [reflexivity|]. split; [reflexivity|]. split; [exact NA|constructor].
    - right. exists a, (x :: b), r. split; [reflexivity|]. split; [cbn [concat]; now rewrite app_assoc|]. split; [exact NA|]. constructor; [exists x, b; tauto|exact R]. }
  intros P Q. destruct (W _ P) as [(a & -> & SA)|(a & b & r & -> & SA)], (W _ Q) as [(c & -> & SC)|(c & d & s & -> & SC)];
    pose proof (starts_at_fun _ _ _ _ _ SA SC) as E; congruence.
Qed.
Lemma cut_pieces_own A (cut : A -> bool) l ps i p : cut_pieces cut l ps -> (exists x, In x l /\ cut x = true) -> nth_error ps i = Some p -> exists x, In x p /\ cut x = true.
Proof.
  intros [<- P] (x & X & CX) K. destruct ps as [|p0 r]; [destruct P|]. destruct P as ((a & b & -> & NA & B) & R). destruct i as [|i]; cbn [nth_error] in K.
  - injection K as <-. destruct b as [|y b]; [|exists y; split; [apply in_or_app; cbn; auto|tauto]]. subst r. cbn [concat] in X. rewrite !app_nil_r in X.
    rewrite forallb_forall in NA. specialize (NA _ X). rewrite CX in NA. discriminate.
  - apply nth_error_In in K. rewrite Forall_forall in R. destruct (R _ K) as (y & q & -> & CY & _). exists y. cbn. auto.
Qed.
Lemma concat_filter A (f : A -> bool) ps : concat (map (filter f) ps) = filter f (concat ps).
Proof. induction ps as [|p ps IH]; [reflexivity|]. cbn [map concat]. now rewrite filter_app, IH. Qed.
Lemma nth_firstn A (l : list A) : forall k i x, nth_error (firstn k l) i = Some x -> nth_error l i = Some x.
Proof. induction l as [|y l IH]; intros [|k] [|i] x E; cbn [firstn nth_error] in *; try discriminate; auto. eauto. Qed.

(* the class of a channel follows from its events *)
Lemma chan_class_same ha hb ga gb c d : chan_make ha ga (ch_tree c) = Ok (Some c) -> chan_make hb gb (ch_tree d) = Ok (Some d) ->
  events ha (ch_tree c) = events hb (ch_tree d) -> ch_class c = ch_class d.
Proof.
  intros A B E.
  assert (K : forall h g e, chan_make h g (ch_tree e) = Ok (Some e) -> exists ty, value_of 21 (events h (ch_tree e)) = Some ty /\ chan_class_of h (ch_tree e) ty = Ok (ch_class e)).
  { intros h g e H. unfold chan_make in H. inv_bind H. inv_bind H. inv_bind H. inv_bind H. rewrite first_val_spec in E1.
    destruct (value_of 21 _) as [ty|]; [|discriminate]. assert (ty = x0) by congruence. subst ty. exists x0. split; [reflexivity|]. rewrite E3. f_equal.
    destruct x; try discriminate; destruct (as_int x1); try discriminate; inv_bind H; injection H as H; apply (f_equal ch_class) in H; exact H. }
  destruct (K _ _ _ A) as (ty & V & CA). destruct (K _ _ _ B) as (ty' & V' & CB). assert (ty' = ty) by congruence. subst ty'.
  unfold chan_class_of in CA, CB. rewrite !contains_value, first_val_spec, E in CA. rewrite !contains_value, first_val_spec in CB. congruence.
Qed.
