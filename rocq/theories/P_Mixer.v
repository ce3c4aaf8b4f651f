(* Proofs about the mixer and the arrangements: what subtrees yields. *)
From Coq Require Import String ZArith List Bool Lia Arith.
From Verif Require Import M_Base M_Float M_Text M_Construct M_Structs M_Events M_Parse M_Tree M_Prop M_Project M_Items M_Collections.
From Verif Require Import S_Tree S_Prop S_Project S_Items S_Collections.
From Verif Require Import P_Base P_TreeBase P_Tree P_TreeEdit P_Project P_Items P_Patterns P_Views P_Rack.
Import ListNotations.
Open Scope Z_scope.

Definition ans (w cut : nat -> bool) (c : nat) : option bool :=
  if cut c then Some false else if w c then Some true else None.

Lemma subtrees_answers S h (sel : S -> event -> S * option bool) w cut : (forall c, cut c = true -> w c = true) ->
  forall l s rep cur, 0 <= rep -> answers sel s (map (e_of h) l) = map (ans w cut) l ->
  exists p ps, starts_at cut (filter w l) (p :: ps) /\
    subtrees_lists h sel s rep l cur = firstn (Z.to_nat rep) (removelast ((cur ++ p) :: ps)).
Proof.
  intros CW. induction l as [|c l IH]; intros s rep cur R E.
  - exists [], []. split; [repeat split; constructor|]. cbn. now rewrite firstn_nil.
  - cbn [map answers] in E. destruct (sel s (e_of h c)) as [s1 a] eqn:A.
    assert (E0 : a = ans w cut c) by congruence. assert (E1 : answers sel s1 (map (e_of h) l) = map (ans w cut) l) by congruence.
    cbn [subtrees_lists]. rewrite A. unfold ans in E0. cbn [filter]. destruct (cut c) eqn:C; [|destruct (w c) eqn:W]; subst a.
    + rewrite (CW c C). destruct (Z.eqb_spec rep 0) as [->|NZ].
      * destruct (IH s1 0 [c] ltac:(lia) E1) as (p & ps & (SC & P0 & PR) & _). exists [], ((c :: p) :: ps). split; [|reflexivity]. split; [cbn [concat app] in *; now rewrite SC|].
        split; [reflexivity|]. constructor; [exists c, p; auto|exact PR].
      * destruct (IH s1 (rep - 1) [c] ltac:(lia) E1) as (p & ps & (SC & P0 & PR) & SL). exists [], ((c :: p) :: ps). split.
        -- split; [cbn [concat app] in *; now rewrite SC|]. split; [reflexivity|]. constructor; [exists c, p; auto|exact PR].
        -- rewrite SL, app_nil_r. replace (Z.to_nat rep) with (Datatypes.S (Z.to_nat (rep - 1))) by lia. cbn [app].
           change (removelast (cur :: (c :: p) :: ps)) with (cur :: removelast ((c :: p) :: ps)). reflexivity.
    + destruct (IH s1 rep (cur ++ [c]) R E1) as (p & ps & (SC & P0 & PR) & SL). exists (c :: p), ps. split.
      * split; [cbn [concat app] in *; now rewrite SC|]. split; [cbn [forallb]; now rewrite C, P0|exact PR].
      * rewrite <- app_assoc in SL. cbn [app] in SL. rewrite SL. destruct (Z.eqb_spec rep 0) as [->|]; reflexivity.
    + destruct (IH s1 rep cur R E1) as (p & ps & X & SL). exists p, ps. split; [exact X|]. rewrite SL. destruct (Z.eqb_spec rep 0) as [->|]; reflexivity.
Qed.

(* the pieces yielded, with the rest that is not *)
Lemma subtrees_yield S h t (sel : S -> event -> S * option bool) w cut s rep h' us : ordered h t -> 0 <= rep ->
  (forall c, cut c = true -> w c = true) -> answers sel s (events h t) = map (ans w cut) (lst_of h t) ->
  subtrees h t sel s rep = (h', us) ->
  exists ps tail, starts_at cut (filter w (lst_of h t)) (ps ++ [tail]) /\ extends h h' /\
    map (lst_of h') us = firstn (Z.to_nat rep) ps.
Proof.
  intros O R CW AN E. unfold subtrees in E. pose proof (new_trees_sub _ _ _ _ _ O (subtrees_subseq S h sel s rep (lst_of h t)) E) as M.
  destruct (new_trees_spec _ _ _ _ _ E) as (X & _). destruct (subtrees_answers S h sel w cut CW (lst_of h t) s rep [] R AN) as (p & ps & SA & SL).
  destruct (exists_last (l := p :: ps) ltac:(discriminate)) as (qs & tail & EQ). exists qs, tail. rewrite <- EQ. split; [exact SA|]. split; [exact X|].
  rewrite M, SL. cbn [app]. rewrite EQ, removelast_last. reflexivity.
Qed.

Lemma starts_at_count A (cut : A -> bool) l ps : starts_at cut l ps -> length ps = S (length (filter cut l)).
Proof.
  intros [<- P]. destruct ps as [|p0 r]; [destruct P|]. destruct P as [P0 PR]. cbn [length concat]. f_equal. rewrite filter_app.
  assert (Z0 : forall a, forallb (fun x => negb (cut x)) a = true -> filter cut a = []).
  { induction a as [|x a IH]; intros H; [reflexivity|]. cbn [forallb] in H. apply andb_true_iff in H as [H1 H2]. cbn [filter]. apply negb_true_iff in H1. rewrite H1. auto. }
  rewrite (Z0 _ P0). cbn [app]. induction PR as [|p r (x & q & -> & CX & FQ) PR IH]; [reflexivity|]. cbn [concat length]. rewrite filter_app. cbn [filter].
  rewrite CX, (Z0 _ FQ). cbn [app length]. now rewrite <- IH.
Qed.

(* the k-th piece starts with the k-th cut *)
Lemma starts_at_nth A (cut : A -> bool) l ps : starts_at cut l ps -> forall k p, nth_error ps (S k) = Some p ->
  exists x q, p = x :: q /\ nth_error (filter cut l) k = Some x /\ forallb (fun x => negb (cut x)) q = true.
Proof.
  intros [<- P]. destruct ps as [|p0 r]; [destruct P|]. destruct P as [P0 PR]. intros k p K. cbn [nth_error concat] in *. rewrite filter_app.
  assert (Z0 : forall a, forallb (fun x => negb (cut x)) a = true -> filter cut a = []).
  { induction a as [|x a IH]; intros H; [reflexivity|]. cbn [forallb] in H. apply andb_true_iff in H as [H1 H2]. cbn [filter]. apply negb_true_iff in H1. rewrite H1. auto. }
  rewrite (Z0 _ P0). cbn [app]. revert k K. induction PR as [|p1 r (x & q & -> & CX & FQ) PR IH]; intros k K; [destruct k; discriminate|].
  cbn [concat]. rewrite filter_app. cbn [filter]. rewrite CX, (Z0 _ FQ). cbn [app]. destruct k as [|k]; cbn [nth_error] in *.
  - injection K as <-. exists x, q. auto.
  - apply IH. exact K.
Qed.

(* ------------------------------------------------------------------------ mixer *)

Lemma max_inserts_pos v : 0 < max_inserts v.
Proof.
  unfold max_inserts. unfold MAX_INSERTS. cbn [first_row]. repeat destruct (tuple_le _ _); lia.
Qed.
Lemma inserts_trees h pe : forall ts i, map in_tree (inserts_from h pe i ts) = ts /\
  (forall k x, nth_error (inserts_from h pe i ts) k = Some x -> in_iid x = i + Z.of_nat k - 1 /\
     in_params x = match pe with Some e => if has_params (items (ev_of h e)) (i + Z.of_nat k) then Some (PItems e (i + Z.of_nat k)) else None | None => None end).
Proof.
  induction ts as [|t ts IH]; intros i; cbn [inserts_from map]; [split; [reflexivity|intros [|] x H; discriminate]|].
  destruct (IH (i + 1)) as [A B]. cbn [in_tree]. rewrite A. split; [reflexivity|]. intros [|k] x H; cbn [nth_error] in H.
  - injection H as <-. cbn [in_iid in_params]. rewrite Z.add_0_r. auto.
  - destruct (B k x H) as [B1 B2]. replace (i + Z.of_nat (S k)) with (i + 1 + Z.of_nat k) by lia. auto.
Qed.

Lemma mixer_spec h h1 t v h2 l : ordered h 0 -> mixer h = (h1, t) -> mixer_iter h1 t v = (h2, l) ->
  exists a b ps tail, cut_before (fun c => mixer_id (id_of h c)) (lst_of h 0) a b /\
    starts_at (fun c => id_of h c =? 147) (filter (fun c => insert_id (id_of h c) || plugin_id (id_of h c) || slot_id (id_of h c)) b) (ps ++ [tail]) /\
    extends h h2 /\ map (fun x => lst_of h2 (in_tree x)) l = firstn (Z.to_nat (max_inserts v)) ps /\
    forall k x, nth_error l k = Some x -> in_iid x = Z.of_nat k - 1 /\
      in_params x = match filter (fun c => id_of h c =? 225) b with
                    | c :: _ => if has_params (items (e_of h c)) (Z.of_nat k) then Some (PItems (ref_of h c) (Z.of_nat k)) else None
                    | [] => None
                    end.
Proof.
  intros O V R. destruct (subtree_spec _ _ _ _ _ _ _ O V) as (_ & X1 & _ & _ & O1). destruct (mixer_view _ _ _ O V) as (a & b & CB & LV).
  unfold mixer_iter in R. destruct (subtrees h1 t inserts_sel tt (max_inserts v)) as [hb ts] eqn:S.
  set (pe := match get_ie h1 t [225] with c :: _ => Some (ref_of h1 c) | [] => None end) in *.
  assert (hb = h2 /\ l = inserts_from h2 pe 0 ts) as [-> ->] by (split; congruence).
  set (w := fun c => insert_id (id_of h c) || plugin_id (id_of h c) || slot_id (id_of h c)).
  set (cut := fun c => id_of h c =? 147).
  assert (AN : answers inserts_sel tt (events h1 t) = map (ans w cut) (lst_of h1 t)).
  { unfold events. clear LV. induction (lst_of h1 t) as [|c m IH]; [reflexivity|]. cbn [map answers]. rewrite (extends_e _ _ _ X1). unfold inserts_sel at 1. rewrite IH. apply (f_equal (fun x => x :: map (ans w cut) m)).
    unfold ans, cut, w, id_of. rewrite !mem_app, insert_ids, plugin_ids, slot_ids. destruct (e_id (e_of h c) =? 147); [reflexivity|].
    destruct (insert_id _), (plugin_id _), (slot_id _); reflexivity. }
  assert (CW : forall c, cut c = true -> w c = true) by (intros c C; unfold cut in C; apply Z.eqb_eq in C; unfold w; rewrite C; reflexivity).
  destruct (subtrees_yield _ h1 t inserts_sel w cut tt (max_inserts v) _ _ O1 (Z.lt_le_incl _ _ (max_inserts_pos v)) CW AN S) as (ps & tail & SA & X2 & M).
  pose proof (extends_trans _ _ _ X1 X2) as X.
  exists a, b, ps, tail. split; [exact CB|]. split.
  { rewrite LV in SA. replace (filter w (filter _ b)) with (filter w b) in SA; [exact SA|].
    clear. induction b as [|c b IH]; [reflexivity|]. cbn [filter].
    destruct (mixer_id (id_of h c) || plugin_id (id_of h c)) eqn:Q; cbn [filter]; rewrite IH; [reflexivity|].
    unfold w, mixer_id in *. rewrite !orb_false_iff in Q. destruct Q as [[[-> ->] _] ->]. reflexivity. }
  split; [exact X|]. destruct (inserts_trees h2 pe ts 0) as [A B]. split.
  { rewrite <- M, <- (map_map in_tree (lst_of h2)), A. reflexivity. }
  intros k x K. destruct (B k x K) as [B1 B2]. rewrite !Z.add_0_l in *. split; [exact B1|]. rewrite B2. unfold pe. rewrite get_ie_1, LV.
  replace (filter (fun c => id_of h1 c =? 225) _) with (filter (fun c => id_of h c =? 225) b).
  2:{ clear -X1. induction b as [|c b IH]; [reflexivity|]. cbn [filter]. destruct (mixer_id (id_of h c) || plugin_id (id_of h c)) eqn:Q; cbn [filter].
      - rewrite (extends_id _ _ _ X1). destruct (id_of h c =? 225); now rewrite IH.
      - rewrite IH. destruct (Z.eqb_spec (id_of h c) 225) as [E|]; [rewrite E in Q; discriminate|reflexivity]. }
  destruct (filter (fun c => id_of h c =? 225) b) as [|c r]; [reflexivity|].
  assert (RE : ref_of h1 c = ref_of h c) by (destruct X1 as (_ & B3 & _); unfold ref_of, cell_of; now rewrite B3).
  assert (EE : ev_of h2 (ref_of h1 c) = e_of h c) by (rewrite RE; destruct X as (A3 & _); unfold e_of, ev_of, ref_of; now rewrite A3).
  now rewrite EE, RE.
Qed.

Lemma has_params_spec l n : has_params l n = true <-> exists y s id, In y l /\ addressed y n s id.
Proof.
  unfold has_params. rewrite existsb_exists. split.
  - intros (y & I & F). destruct (filed_of y) as [[m so id]|] eqn:Q; [|discriminate]. cbn [f_insert] in F. apply Z.eqb_eq in F. subst m.
    apply filed_spec in Q. destruct Q as (s & A & _). exists y, s, id. auto.
  - intros (y & s & id & I & A). exists y. split; [exact I|].
    assert (Q : filed_of y = Some (Filed n (if (id =? 0) || (id =? 1) then Some s else None) id)) by (apply filed_spec; exists s; auto).
    rewrite Q. cbn [f_insert]. apply Z.eqb_refl.
Qed.

Lemma slots_none h : forall ts i, slots_from h None i ts = ([], match ts with [] => None | _ => Some KeyError end).
Proof. intros [|t ts] i; reflexivity. Qed.
Lemma slots_some h e n : forall ts i, exists l, slots_from h (Some (PItems e n)) i ts = (l, None) /\ map sl_tree l = ts /\
  forall k s, nth_error l k = Some s -> sl_params s = slot_params e (slots_of (items (ev_of h e)) n (i + Z.of_nat k)).
Proof.
  induction ts as [|t ts IH]; intros i; cbn [slots_from]; [exists []; repeat split; intros [|] s H; discriminate|].
  destruct (IH (i + 1)) as (l & -> & M & P). eexists. split; [reflexivity|]. cbn [map sl_tree]. rewrite M. split; [reflexivity|].
  intros [|k] s H; cbn [nth_error] in H.
  - injection H as <-. cbn [sl_params]. now rewrite Z.add_0_r.
  - rewrite (P k s H). do 2 f_equal. lia.
Qed.
