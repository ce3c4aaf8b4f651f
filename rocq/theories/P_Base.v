(* Helper lemmas on lists, bytes and the result monad. *)
From Coq Require Import String ZArith List Bool Lia.
From Coq Require Import ZifyBool ZifyNat.
From Verif Require Import M_Base.
Import ListNotations.
Open Scope Z_scope.

Ltac Zify.zify_post_hook ::= Z.div_mod_to_equations.

#[global] Arguments Z.mul : simpl never.
#[global] Arguments Z.add : simpl never.
#[global] Arguments Z.sub : simpl never.
#[global] Arguments Z.opp : simpl never.
#[global] Arguments Z.pow : simpl never.
#[global] Arguments Z.div : simpl never.
#[global] Arguments Z.modulo : simpl never.
#[global] Arguments Z.eqb : simpl never.
#[global] Arguments Z.ltb : simpl never.
#[global] Arguments Z.leb : simpl never.
#[global] Arguments Z.of_nat : simpl never.
#[global] Arguments Z.to_nat : simpl never.

Lemma zlen_nil A : zlen (@nil A) = 0. Proof. reflexivity. Qed.
Lemma zlen_cons A (x : A) l : zlen (x :: l) = 1 + zlen l.
Proof. unfold zlen; cbn [length]; lia. Qed.
Lemma zlen_app A (a b : list A) : zlen (a ++ b) = zlen a + zlen b.
Proof. unfold zlen; rewrite app_length; lia. Qed.
Lemma zlen_nonneg A (l : list A) : 0 <= zlen l.
Proof. unfold zlen; lia. Qed.
#[export] Hint Rewrite zlen_nil zlen_cons zlen_app : zlen.

Lemma is_bytes_nil : is_bytes []. Proof. constructor. Qed.
Lemma is_bytes_cons b l : is_bytes (b :: l) <-> is_byte b /\ is_bytes l.
Proof. split; [intro H; inversion H; auto | intros []; constructor; auto]. Qed.
Lemma is_bytes_app a b : is_bytes (a ++ b) <-> is_bytes a /\ is_bytes b.
Proof. apply Forall_app. Qed.
Lemma is_bytes_firstn n b : is_bytes b -> is_bytes (firstn n b).
Proof. intro H; rewrite <- (firstn_skipn n b) in H; apply is_bytes_app in H; tauto. Qed.
Lemma is_bytes_skipn n b : is_bytes b -> is_bytes (skipn n b).
Proof. intro H; rewrite <- (firstn_skipn n b) in H; apply is_bytes_app in H; tauto. Qed.

Lemma bind_ok A B (m : res A) (k : A -> res B) y :
  bind m k = Ok y <-> exists x, m = Ok x /\ k x = Ok y.
Proof.
  destruct m; cbn; split.
  - eauto.
  - intros (x & E & H); congruence.
  - discriminate.
  - intros (x & E & _); discriminate.
Qed.

(* H : bind m k = Ok y  ==>  the intermediate values *)
Ltac inv_bind H :=
  let x := fresh "x" in let E := fresh "E" in
  apply bind_ok in H; destruct H as (x & E & H).

Lemma list_Zeqb_eq a b : list_Zeqb a b = true <-> a = b.
Proof.
  revert b; induction a as [|x a IH]; destruct b as [|y b]; cbn; split; try easy.
  - intro H; apply andb_true_iff in H as [H1 H2].
    apply Z.eqb_eq in H1; apply IH in H2; congruence.
  - intro H; inversion H; subst. rewrite Z.eqb_refl; cbn; now apply IH.
Qed.

Lemma mem_Z_In x l : mem_Z x l = true <-> In x l.
Proof.
  unfold mem_Z; rewrite existsb_exists; split.
  - intros (y & Hy & E); apply Z.eqb_eq in E; now subst.
  - intro H; exists x; split; [assumption | apply Z.eqb_refl].
Qed.

Lemma app_inj_len A (a a' b b' : list A) :
  length a = length a' -> a ++ b = a' ++ b' -> a = a' /\ b = b'.
Proof.
  revert a'; induction a as [|x a IH]; destruct a'; cbn; intros L H; try discriminate; auto.
  injection H as -> H. apply IH in H as [-> ->]; auto.
Qed.

Lemma firstn_app_exact A (a b : list A) : firstn (length a) (a ++ b) = a.
Proof. rewrite firstn_app, Nat.sub_diag, firstn_all; cbn; apply app_nil_r. Qed.
Lemma skipn_app_exact A (a b : list A) : skipn (length a) (a ++ b) = b.
Proof. rewrite skipn_app, Nat.sub_diag, skipn_all; reflexivity. Qed.

(* dictionaries *)
Lemma dget_dset_same d k v : dget (dset d k v) k = Some v.
Proof.
  induction d as [|[k' v'] d IH]; cbn.
  - now rewrite String.eqb_refl.
  - destruct (String.eqb k' k) eqn:E; cbn; rewrite E; auto.
Qed.
Lemma dget_dset_other d k k' v : k <> k' -> dget (dset d k v) k' = dget d k'.
Proof.
  intro N; induction d as [|[k2 v2] d IH]; cbn.
  - apply String.eqb_neq in N; now rewrite N.
  - destruct (String.eqb_spec k2 k); cbn.
    + subst. apply String.eqb_neq in N; now rewrite N.
    + now rewrite IH.
Qed.
Lemma dset_keys d k v : In k (map fst d) -> map fst (dset d k v) = map fst d.
Proof.
  induction d as [|[k' v'] d IH]; cbn; [tauto|].
  intros [->|H].
  - now rewrite String.eqb_refl.
  - destruct (String.eqb k' k); cbn; [reflexivity | now rewrite IH].
Qed.
Lemma dset_fresh d k v : dget d k = None -> dset d k v = d ++ [(k, v)].
Proof.
  induction d as [|[k' v'] d IH]; cbn; [reflexivity|].
  destruct (String.eqb k' k); [discriminate|]. intro H; now rewrite IH.
Qed.
Lemma dget_None d k : dget d k = None <-> ~ In k (map fst d).
Proof.
  induction d as [|[k' v'] d IH]; cbn; [tauto|].
  destruct (String.eqb_spec k' k).
  - subst; split; [discriminate | tauto].
  - rewrite IH; tauto.
Qed.
Lemma dget_In d k v : dget d k = Some v -> In (k, v) d.
Proof.
  induction d as [|[k' v'] d IH]; cbn; [discriminate|].
  destruct (String.eqb_spec k' k); [intro H; injection H as ->; subst; auto | auto].
Qed.

(* lset *)
Lemma lset_length A (l : list A) i v : length (lset l i v) = length l.
Proof. revert i; induction l; destruct i; cbn; auto. Qed.
Lemma nth_error_lset_same A (l : list A) i v :
  (i < length l)%nat -> nth_error (lset l i v) i = Some v.
Proof. revert i; induction l; destruct i; cbn; intros; try lia; auto. apply IHl; lia. Qed.
Lemma nth_error_lset_other A (l : list A) i j v :
  i <> j -> nth_error (lset l i v) j = nth_error l j.
Proof.
  revert i j; induction l; destruct i, j; cbn; intros; try easy; auto.
Qed.

(* rstrip0 *)
Lemma rstrip0_spec s : exists n, s = rstrip0 s ++ repeat 0 n.
Proof.
  induction s as [|c s [n IH]]; [now exists O|].
  cbn. destruct (rstrip0 s) as [|a r] eqn:E.
  - cbn in IH. destruct (Z.eqb_spec c 0).
    + exists (S n); cbn; congruence.
    + exists n; cbn; congruence.
  - exists n. cbn in *; congruence.
Qed.
Lemma rstrip0_no_trail s : forall t, rstrip0 s <> t ++ [0].
Proof.
  induction s as [|c s IH]; intros t.
  - destruct t; cbn; discriminate.
  - cbn. destruct (rstrip0 s) as [|a r] eqn:E.
    + destruct (Z.eqb_spec c 0); [destruct t; discriminate|].
      destruct t as [|x t]; cbn; intro H; [injection H; auto | destruct t; discriminate].
    + destruct t as [|x t]; cbn; intro H; [discriminate|]. injection H as -> H. now apply (IH t).
Qed.
Lemma rstrip0_id s : (forall t, s <> t ++ [0]) -> rstrip0 s = s.
Proof.
  intro N. destruct (rstrip0_spec s) as [n E].
  destruct n; [now rewrite app_nil_r in E|].
  exfalso. apply (N (rstrip0 s ++ repeat 0 n)).
  rewrite <- app_assoc, <- repeat_cons. exact E.
Qed.
Lemma rstrip0_app0 s n : rstrip0 (s ++ repeat 0 n) = rstrip0 s.
Proof.
  induction s as [|c s IH].
  - induction n; cbn; [reflexivity|]. cbn in IHn. now rewrite IHn.
  - cbn. rewrite IH. reflexivity.
Qed.

(* evaluate comparisons between integer literals *)
Ltac is_zlit t :=
  lazymatch t with
  | Z0 => idtac | Zpos ?p => is_poslit p | Zneg ?p => is_poslit p
  end
with is_poslit p :=
  lazymatch p with xH => idtac | xO ?q => is_poslit q | xI ?q => is_poslit q end.
Ltac zlit :=
  repeat match goal with
  | |- context [Z.eqb ?a ?b] => is_zlit a; is_zlit b;
      let v := eval compute in (Z.eqb a b) in change (Z.eqb a b) with v
  | |- context [Z.ltb ?a ?b] => is_zlit a; is_zlit b;
      let v := eval compute in (Z.ltb a b) in change (Z.ltb a b) with v
  | |- context [Z.leb ?a ?b] => is_zlit a; is_zlit b;
      let v := eval compute in (Z.leb a b) in change (Z.leb a b) with v
  end.

Lemma skipn_skipn A x y (l : list A) : skipn x (skipn y l) = skipn (x + y) l.
Proof.
  revert l. induction y as [|y IH]; intros l.
  - rewrite Nat.add_0_r. reflexivity.
  - rewrite Nat.add_succ_r. destruct l; [rewrite !skipn_nil; reflexivity|]. cbn [skipn]. apply IH.
Qed.
