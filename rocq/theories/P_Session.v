(* Views and assignments in any order: the state is one that loading the project with its present
   events and looking at it leads to. *)
From Coq Require Import String ZArith List Bool Lia Arith.
From Verif Require Import M_Base M_Events M_Tree M_Prop M_Project.
From Verif Require Import S_Tree S_Prop.
From Verif Require Import P_Base P_TreeBase P_Tree P_TreeEdit P_Prop P_Edit P_Project.
Import ListNotations.
Open Scope Z_scope.

Definition with_evs (h : heap) (es : list event) : heap := Heap es (h_cells h) (h_trees h).
Definition same_ids (a b : list event) : Prop := map e_id a = map e_id b.

(* the answers a selector gave, and giving them again *)
Fixpoint answers {S} (h : heap) (sel : S -> event -> S * option bool) (s : S) (l : list nat) : list (option bool) :=
  match l with
  | [] => []
  | c :: r => let '(s, a) := sel s (e_of h c) in a :: answers h sel s r
  end.
Definition again (s : list (option bool)) (_ : event) : list (option bool) * option bool :=
  match s with [] => ([], None) | a :: s => (s, a) end.

Lemma select_again S h h' (sel : S -> event -> S * option bool) : forall l s,
  select_list h' again (answers h sel s l) l = select_list h sel s l.
Proof.
  induction l as [|c l IH]; intros s; [reflexivity|]. cbn [answers select_list]. destruct (sel s (e_of h c)) as [s' a].
  cbn [again]. now rewrite IH.
Qed.
Lemma subtrees_again S h h' (sel : S -> event -> S * option bool) : forall l s n el,
  subtrees_lists h' again (answers h sel s l) n l el = subtrees_lists h sel s n l el.
Proof.
  induction l as [|c l IH]; intros s n el; [reflexivity|]. cbn [answers subtrees_lists]. destruct (n =? 0); [reflexivity|].
  destruct (sel s (e_of h c)) as [s' a]. cbn [again]. destruct a as [[]|]; now rewrite IH.
Qed.

Lemma with_id h es c : same_ids es (h_evs h) -> id_of (with_evs h es) c = id_of h c.
Proof.
  intros E. unfold id_of, e_of, ev_of. cbn [with_evs h_evs]. change (cell_of (with_evs h es) c) with (cell_of h c).
  rewrite <- !(map_nth e_id). unfold same_ids in E. now rewrite E.
Qed.
Lemma with_get h es t ids : same_ids es (h_evs h) -> get_ie (with_evs h es) t ids = get_ie h t ids.
Proof.
  intros E. unfold get_ie. change (lst_of (with_evs h es) t) with (lst_of h t). apply filter_ext. intros c.
  now rewrite (with_id h es c E).
Qed.
Lemma with_divide h es sep ids : same_ids es (h_evs h) -> forall l el first,
  divide_lists (with_evs h es) sep ids l el first = divide_lists h sep ids l el first.
Proof.
  intros E. induction l as [|c l IH]; intros el first; [reflexivity|]. cbn [divide_lists]. rewrite !(with_id h es c E).
  destruct (id_of h c =? sep), first; now rewrite IH.
Qed.
Lemma with_chain h es p : chain (with_evs h es) p = chain h p.
Proof.
  unfold chain. change (h_trees (with_evs h es)) with (h_trees h). generalize (length (h_trees h)) as n. intros n. revert p.
  induction n as [|n IH]; intros p; [reflexivity|]. cbn [chain_fuel]. change (tree_of (with_evs h es) p) with (tree_of h p).
  destruct (t_parent (tree_of h p)); [now rewrite IH|reflexivity].
Qed.
Lemma with_new_tree h es p i : fst (new_tree (with_evs h es) p i) = with_evs (fst (new_tree h p i)) es.
Proof. unfold new_tree. destruct p as [p|]; [|reflexivity]. rewrite with_chain. reflexivity. Qed.
Lemma with_new_trees es : forall inits h t, fst (new_trees (with_evs h es) t inits) = with_evs (fst (new_trees h t inits)) es.
Proof.
  induction inits as [|i inits IH]; intros h t; [reflexivity|]. cbn [new_trees].
  pose proof (with_new_tree h es (Some t) i) as E.
  destruct (new_tree (with_evs h es) (Some t) i) as [a1 b1], (new_tree h (Some t) i) as [a2 b2]. cbn [fst] in E. subst a1.
  specialize (IH a2 t). destruct (new_trees (with_evs a2 es) t inits), (new_trees a2 t inits). exact IH.
Qed.

Lemma with_new_trees_snd es : forall inits h t, snd (new_trees (with_evs h es) t inits) = snd (new_trees h t inits).
Proof.
  induction inits as [|i inits IH]; intros h t; [reflexivity|]. cbn [new_trees].
  pose proof (with_new_tree h es (Some t) i) as E. assert (E2 : snd (new_tree (with_evs h es) (Some t) i) = snd (new_tree h (Some t) i)) by reflexivity.
  destruct (new_tree (with_evs h es) (Some t) i) as [a1 b1], (new_tree h (Some t) i) as [a2 b2]. cbn [fst snd] in E, E2. subst a1 b1.
  specialize (IH a2 t). destruct (new_trees (with_evs a2 es) t inits), (new_trees a2 t inits). cbn [snd] in *. now rewrite IH.
Qed.

Lemma view_op_with h h' es : same_ids es (h_evs h) -> view_op h h' -> view_op (with_evs h es) (with_evs h' es).
Proof.
  intros E V. inversion V; subst.
  - change (nt h) with (nt (with_evs h es)) in H. pose proof (op_subtree _ _ again (answers h sel s (lst_of h t)) t H) as O.
    unfold subtree in O |- *. change (lst_of (with_evs h es) t) with (lst_of h t) in O. rewrite select_again in O. now rewrite with_new_tree in O.
  - change (nt h) with (nt (with_evs h es)) in H. pose proof (op_divide _ t sep ids H) as O.
    unfold divide in O |- *. change (lst_of (with_evs h es) t) with (lst_of h t) in O. rewrite (with_divide h es sep ids E) in O.
    now rewrite with_new_trees in O.
  - change (nt h) with (nt (with_evs h es)) in H. pose proof (op_group _ t ids H H0) as O.
    unfold group in O |- *. change (lst_of (with_evs h es) t) with (lst_of h t) in O.
    rewrite (map_ext (fun id => get_ie (with_evs h es) t [id]) (fun id => get_ie h t [id])) in O by (intros id; apply with_get; exact E).
    now rewrite with_new_trees in O.
  - change (nt h) with (nt (with_evs h es)) in H. pose proof (op_separate _ t id H) as O.
    unfold separate in O |- *. rewrite (with_get h es t [id] E) in O. now rewrite with_new_trees in O.
  - change (nt h) with (nt (with_evs h es)) in H. pose proof (op_subtrees _ _ again (answers h sel s (lst_of h t)) rep t H) as O.
    unfold subtrees in O |- *. change (lst_of (with_evs h es) t) with (lst_of h t) in O. rewrite subtrees_again in O. now rewrite with_new_trees in O.
Qed.

Lemma new_trees_evs : forall inits h t, h_evs (fst (new_trees h t inits)) = h_evs h.
Proof.
  induction inits as [|i inits IH]; intros h t; [reflexivity|]. cbn [new_trees].
  assert (E : h_evs (fst (new_tree h (Some t) i)) = h_evs h) by reflexivity.
  destruct (new_tree h (Some t) i) as [a b]. cbn [fst] in E. specialize (IH a t). destruct (new_trees a t inits). cbn [fst] in *. congruence.
Qed.
Lemma view_op_evs h h' : view_op h h' -> h_evs h' = h_evs h.
Proof. intros V. inversion V; subst; try apply new_trees_evs; reflexivity. Qed.
Lemma views_evs evs h : views (parsed evs) h -> h_evs h = evs.
Proof. induction 1 as [|h1 h2 V IH O]; [reflexivity|]. now rewrite (view_op_evs _ _ O). Qed.

Lemma parsed_with evs es : length es = length evs -> with_evs (parsed evs) es = parsed es.
Proof. intros L. unfold parsed, with_evs, new_tree. cbn [fst h_cells h_trees h_evs]. now rewrite L. Qed.
Lemma views_with evs es h : same_ids es evs -> views (parsed evs) h -> views (parsed es) (with_evs h es).
Proof.
  intros E V. induction V as [|h1 h2 V IH O].
  - rewrite parsed_with; [constructor|]. unfold same_ids in E. rewrite <- (map_length e_id es), E. apply map_length.
  - eapply views_more; [exact IH|]. apply view_op_with; [|exact O]. now rewrite (views_evs _ _ V).
Qed.

(* ------------------------------------------------------------------- sessions *)

(* [evs] is loaded; then views are made and events given values, in any order *)
Inductive session (evs : list event) : heap -> Prop :=
| ses_load : session evs (parsed evs)
| ses_look h h' : session evs h -> view_op h h' -> session evs h'
| ses_edit h r e : session evs h -> e_id e = e_id (ev_of h r) -> session evs (set_event h r e).

Lemma set_event_ids h r e : e_id e = e_id (ev_of h r) -> map e_id (h_evs (set_event h r e)) = map e_id (h_evs h).
Proof.
  intros E. unfold set_event. cbn [h_evs]. apply list_ext_nth. intros j. rewrite !nth_error_map, nth_error_lset.
  destruct (Nat.eqb_spec j r) as [->|]; [|reflexivity]. destruct (Nat.ltb_spec r (length (h_evs h))) as [L|L]; [|reflexivity]. cbn [andb].
  unfold ev_of in E. rewrite (nth_error_nth' _ no_event L). cbn [option_map]. now rewrite E.
Qed.
Lemma session_views evs h : session evs h -> views (parsed (h_evs h)) h /\ same_ids (h_evs h) evs.
Proof.
  induction 1 as [|h h' S [V I] O|h r e S [V I] E].
  - split; [constructor|reflexivity].
  - rewrite (view_op_evs _ _ O). split; [|exact I]. eapply views_more; eauto.
  - split; [|unfold same_ids; rewrite set_event_ids by exact E; exact I].
    change (set_event h r e) with (with_evs h (h_evs (set_event h r e))) at 2. eapply views_with; [|exact V]. now apply set_event_ids.
Qed.
