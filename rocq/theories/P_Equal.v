(* Python's equality of values. *)
From Coq Require Import String Ascii ZArith List Permutation Bool Lia Arith.
From Verif Require Import M_Base M_Float M_Text M_Construct M_Structs M_Events M_Equal S_Real S_Equal.
From Verif Require Import P_Base P_Round.
Import ListNotations.
Open Scope Z_scope.

Section ind.
Variable P : val -> Prop.
Hypothesis Hs : forall v, match v with VList _ | VTup _ | VDict _ => False | _ => True end -> P v.
Hypothesis Hl : forall l, Forall P l -> P (VList l).
Hypothesis Ht : forall l, Forall P l -> P (VTup l).
Hypothesis Hd : forall d, Forall (fun x => P (snd x)) d -> P (VDict d).
Fixpoint val_deep (v : val) : P v :=
  match v with
  | VList l => Hl l ((fix go l := match l return Forall P l with [] => Forall_nil _ | x :: l => Forall_cons _ (val_deep x) (go l) end) l)
  | VTup l => Ht l ((fix go l := match l return Forall P l with [] => Forall_nil _ | x :: l => Forall_cons _ (val_deep x) (go l) end) l)
  | VDict d => Hd d ((fix go d := match d return Forall (fun x => P (snd x)) d with [] => Forall_nil _ | x :: d => Forall_cons x (val_deep (snd x)) (go d) end) d)
  | v => Hs v I
  end.
End ind.

Fixpoint all_eq (l m : list val) : bool :=
  match l, m with [], [] => true | x :: l, y :: m => py_eq x y && all_eq l m | _, _ => false end.
Fixpoint covered (d e : list (string * val)) : bool :=
  match d with [] => true | (n, x) :: d => (hidden n || match dget e n with Some y => py_eq x y | None => false end) && covered d e end.
Lemma py_list l m : py_eq (VList l) (VList m) = all_eq l m.
Proof. reflexivity. Qed.
Lemma py_tup l m : py_eq (VTup l) (VTup m) = all_eq l m.
Proof. reflexivity. Qed.
Lemma py_dict d e : py_eq (VDict d) (VDict e) = covered d e && forallb (fun x => hidden (fst x) || match dget d (fst x) with Some _ => true | None => false end) e.
Proof.
  reflexivity.
Qed.

Lemma hidden_iff n : hidden n = false <-> public n.
Proof.
  unfold hidden, public. destruct n as [|c s]; [split; [discriminate|reflexivity]|]. split.
  - intros H s' E. injection E as -> ->. discriminate.
  - intros H. destruct (Ascii.eqb_spec c "_"); [|reflexivity]. subst. exfalso. now apply (H s).
Qed.

Lemma covered_iff e : forall d, covered d e = true <-> (forall n x, In (n, x) d -> public n -> exists y, dget e n = Some y /\ py_eq x y = true).
Proof.
  induction d as [|[n x] d IH]; [split; [intros _ n x []|reflexivity]|]. cbn [covered]. rewrite andb_true_iff, IH. split.
  - intros [A B] n' x' [E|I] PU; [injection E as <- <-|exact (B _ _ I PU)]. apply hidden_iff in PU. rewrite PU in A. cbn [orb] in A. destruct (dget e n) as [y|]; [|discriminate]. eauto.
  - intros H. split; [|intros n' x' I; apply H; now right]. destruct (hidden n) eqn:HN; [reflexivity|]. apply hidden_iff in HN. destruct (H n x (or_introl eq_refl) HN) as (y & -> & E). exact E.
Qed.
Lemma present_iff (d e : list (string * val)) : forallb (fun x => hidden (fst x) || match dget d (fst x) with Some _ => true | None => false end) e = true <->
  (forall n y, In (n, y) e -> public n -> exists x, dget d n = Some x).
Proof.
  rewrite forallb_forall. split.
  - intros H n y I PU. specialize (H _ I). cbn [fst] in H. apply hidden_iff in PU. rewrite PU in H. cbn [orb] in H. destruct (dget d n); [eauto|discriminate].
  - intros H [n y] I. cbn [fst]. destruct (hidden n) eqn:HN; [reflexivity|]. apply hidden_iff in HN. destruct (H _ _ I HN) as (x & ->). reflexivity.
Qed.

Lemma exp_range x : 0 <= f_exp x < 2048.
Proof. unfold f_exp. apply Z.mod_pos_bound. reflexivity. Qed.
Lemma not_finite x : f_is_nan x || f_is_inf x = negb (f_exp x <? 2047).
Proof. pose proof (exp_range x). unfold f_is_nan, f_is_inf. destruct (Z.eqb_spec (f_exp x) 2047), (Z.ltb_spec (f_exp x) 2047); try lia; destruct (f_man x =? 0); reflexivity. Qed.
Lemma amount_mag x : f_exp x < 2047 -> amount x = f_signed_mag x * 2 ^ (f_e x + 1074) /\ 0 <= f_e x + 1074.
Proof.
  intros _. pose proof (exp_range x). unfold amount, f_signed_mag, f_mag, f_e, f_sign. fold (f_exp x). fold (f_man x). destruct (Z.eqb_spec (f_exp x) 0) as [E|E].
  - change (-1074 + 1074) with 0. rewrite Z.pow_0_r. split; [|lia]. destruct (2 ^ 63 <=? x); ring.
  - replace (f_exp x - 1075 + 1074) with (f_exp x - 1) by ring. split; [|lia]. destruct (2 ^ 63 <=? x); ring.
Qed.

(* the number of a value, in units *)
Definition of_dyadic (p : Z * Z) : Z := fst p * 2 ^ (snd p + 1074).
Lemma dyadic_stands v m e : dyadic v = Some (m, e) -> 0 <= e + 1074 /\ stands_for v (m * 2 ^ (e + 1074)).
Proof.
  destruct v; cbn [dyadic as_int]; intros H; try discriminate; try (injection H as <- <-; change (2 ^ (0 + 1074)) with one; split; [lia|]).
  - destruct b; cbn [Z.b2z]; [rewrite Z.mul_1_l; constructor|rewrite Z.mul_0_l; constructor].
  - constructor.
  - constructor.
  - rewrite not_finite in H. destruct (Z.ltb_spec (f_exp bits) 2047) as [L|L]; [|discriminate]. cbn [negb] in H. injection H as <- <-.
    destruct (amount_mag bits L) as [A N]. split; [exact N|]. rewrite <- A. constructor. exact L.
Qed.
Lemma stands_dyadic v u : stands_for v u -> exists m e, dyadic v = Some (m, e) /\ 0 <= e + 1074 /\ u = m * 2 ^ (e + 1074).
Proof.
  intros H. destruct H; cbn [dyadic as_int].
  1-4: do 2 eexists; split; [reflexivity|]; split; [lia|]; change (2 ^ (0 + 1074)) with one; cbn [Z.b2z]; ring.
  fold (f_exp x) in H. rewrite not_finite. destruct (Z.ltb_spec (f_exp x) 2047) as [L|L]; [|lia]. cbn [negb]. destruct (amount_mag x L) as [A N]. eauto.
Qed.
Lemma scaled m e m' e' : 0 <= e + 1074 -> 0 <= e' + 1074 ->
  (m * 2 ^ (e - Z.min e e') = m' * 2 ^ (e' - Z.min e e') <-> m * 2 ^ (e + 1074) = m' * 2 ^ (e' + 1074)).
Proof.
  intros H H'. set (k := Z.min e e'). assert (K : 0 <= k + 1074 /\ 0 <= e - k /\ 0 <= e' - k) by (unfold k; lia).
  replace (e + 1074) with ((e - k) + (k + 1074)) by ring. replace (e' + 1074) with ((e' - k) + (k + 1074)) by ring.
  rewrite (Z.pow_add_r 2 (e - k)), (Z.pow_add_r 2 (e' - k)) by lia. rewrite !Z.mul_assoc. assert (P : 0 < 2 ^ (k + 1074)) by (apply Z.pow_pos_nonneg; lia).
  set (q := 2 ^ (k + 1074)) in *. clearbody q. generalize (m * 2 ^ (e - k)) (m' * 2 ^ (e' - k)). intros a b. split; [intros ->; reflexivity|]. intros E. apply Z.mul_reg_r in E; [exact E|lia].
Qed.

Definition leaf (v : val) : bool := match v with VList _ | VTup _ | VDict _ | VNone | VBytes _ | VStr _ => false | _ => true end.
Lemma inf_iff x : f_is_inf x = true <-> infinite x.
Proof. unfold f_is_inf, infinite. fold (f_exp x) (f_man x). rewrite andb_true_iff, !Z.eqb_eq. reflexivity. Qed.
Lemma num_iff v w : num_eq v w = true <-> (exists u, stands_for v u /\ stands_for w u) \/
  exists x y, v = VFlt x /\ w = VFlt y /\ infinite x /\ infinite y /\ (2 ^ 63 <= x <-> 2 ^ 63 <= y).
Proof.
  unfold num_eq. split.
  - destruct (dyadic v) as [[m e]|] eqn:A; [destruct (dyadic w) as [[m' e']|] eqn:B|].
    + intros H. apply Z.eqb_eq in H. destruct (dyadic_stands _ _ _ A) as [N S]. destruct (dyadic_stands _ _ _ B) as [N' S']. apply (scaled m e m' e' N N') in H. left. rewrite H in S. eauto.
    + intros H. right. destruct v; try discriminate. destruct w; try discriminate. apply andb_prop in H as [H E]. apply andb_prop in H as [X Y]. exists bits, bits0. split; [reflexivity|]. split; [reflexivity|].
      split; [now apply inf_iff|]. split; [now apply inf_iff|]. apply eqb_prop in E. unfold f_sign in E. destruct (Z.leb_spec (2 ^ 63) bits), (Z.leb_spec (2 ^ 63) bits0); try discriminate; split; lia.
    + intros H. right. destruct v; try discriminate. destruct w; try discriminate. apply andb_prop in H as [H E]. apply andb_prop in H as [X Y]. exists bits, bits0. split; [reflexivity|]. split; [reflexivity|].
      split; [now apply inf_iff|]. split; [now apply inf_iff|]. apply eqb_prop in E. unfold f_sign in E. destruct (Z.leb_spec (2 ^ 63) bits), (Z.leb_spec (2 ^ 63) bits0); try discriminate; split; lia.
  - intros [(u & S & S')|(x & y & -> & -> & X & Y & E)].
    + destruct (stands_dyadic _ _ S) as (m & e & -> & N & U). destruct (stands_dyadic _ _ S') as (m' & e' & -> & N' & U'). cbv beta iota zeta. apply Z.eqb_eq. apply (scaled m e m' e' N N'). congruence.
    + apply inf_iff in X. apply inf_iff in Y. cbn [dyadic]. rewrite X, Y, !orb_true_r. cbn [andb]. unfold f_sign. destruct (Z.leb_spec (2 ^ 63) x), (Z.leb_spec (2 ^ 63) y); try reflexivity; exfalso; lia.
Qed.
Lemma stands_leaf v u : stands_for v u -> leaf v = true.
Proof. now destruct 1. Qed.

Lemma list_eqb_iff a b : list_Zeqb a b = true <-> a = b.
Proof.
  revert b. induction a as [|x a IH]; intros [|y b]; cbn [list_Zeqb]; try (split; [discriminate|discriminate]); [split; reflexivity|]. rewrite andb_true_iff, Z.eqb_eq, IH. split; [intros [-> ->]; reflexivity|]. intros E. injection E as -> ->. auto.
Qed.
Lemma all_iff l : Forall (fun x => forall y, py_eq x y = true <-> same x y) l -> forall m, all_eq l m = true <-> Forall2 same l m.
Proof.
  induction 1 as [|x l H F IH]; intros [|y m]; cbn [all_eq].
  - split; [constructor|reflexivity].
  - split; [discriminate|]. intros X. inversion X.
  - split; [discriminate|]. intros X. inversion X.
  - rewrite andb_true_iff, H, IH. split; [intros [A B]; now constructor|]. intros X. inversion X. auto.
Qed.
Lemma num_same v w : leaf v = true -> (num_eq v w = true <-> same v w).
Proof.
  intros L. rewrite num_iff. split.
  - intros [(u & A & B)|(x & y & -> & -> & X & Y & E)]; [exact (same_number _ _ _ A B)|now constructor].
  - intros S. destruct S; try discriminate L; [left; eauto|right; do 2 eexists; repeat split; try reflexivity; try apply H; try apply H0; apply H1].
Qed.
Theorem eq_same : forall v w, py_eq v w = true <-> same v w.
Proof.
  apply (val_deep (fun v => forall w, py_eq v w = true <-> same v w)).
  - intros v H w. destruct (leaf v) eqn:L.
    + rewrite <- (num_same v w L). destruct v; try discriminate L; reflexivity.
    + destruct v; try discriminate L; try (destruct H).
      * destruct w; cbn [py_eq]; try (split; [discriminate|intros X; inversion X; subst; match goal with S : stands_for VNone _ |- _ => inversion S end]). split; [constructor|reflexivity].
      * destruct w; cbn [py_eq]; try (split; [discriminate|intros X; inversion X; subst; match goal with S : stands_for (VBytes _) _ |- _ => inversion S end]).
        rewrite list_eqb_iff. split; [intros ->; constructor|]. intros X. inversion X; subst; [match goal with S : stands_for (VBytes _) _ |- _ => inversion S end|reflexivity].
      * destruct w; cbn [py_eq]; try (split; [discriminate|intros X; inversion X; subst; match goal with S : stands_for (VStr _) _ |- _ => inversion S end]).
        rewrite list_eqb_iff. split; [intros ->; constructor|]. intros X. inversion X; subst; [match goal with S : stands_for (VStr _) _ |- _ => inversion S end|reflexivity].
  - intros l F w. destruct w; try (split; [discriminate|intros X; inversion X; subst; match goal with S : stands_for (VList _) _ |- _ => inversion S end]).
    rewrite py_list, (all_iff l F). split; [now constructor|]. intros X. inversion X; subst; [match goal with S : stands_for (VList _) _ |- _ => inversion S end|assumption].
  - intros l F w. destruct w; try (split; [discriminate|intros X; inversion X; subst; match goal with S : stands_for (VTup _) _ |- _ => inversion S end]).
    rewrite py_tup, (all_iff l F). split; [now constructor|]. intros X. inversion X; subst; [match goal with S : stands_for (VTup _) _ |- _ => inversion S end|assumption].
  - intros d F w. destruct w as [| | | | | | | | |e]; try (split; [discriminate|intros X; inversion X; subst; match goal with S : stands_for (VDict _) _ |- _ => inversion S end]).
    rewrite py_dict, andb_true_iff, covered_iff, present_iff. rewrite Forall_forall in F. split.
    + intros [A B]. constructor; [|exact B]. intros n x I PU. destruct (A n x I PU) as (y & E & Q). exists y. split; [exact E|]. now apply (F _ I).
    + intros X. inversion X; subst; [match goal with S : stands_for (VDict _) _ |- _ => inversion S end|]. split; [|assumption].
      intros n x I PU. destruct (H1 n x I PU) as (y & E & Q). exists y. split; [exact E|]. now apply (F _ I).
Qed.

(* ------------------------------------------------------------ an equivalence *)

Lemma dget_unique (d : list (string * val)) n x : NoDup (map fst d) -> In (n, x) d -> dget d n = Some x.
Proof.
  induction d as [|[k y] d IH]; intros N I; [destruct I|]. cbn [map fst] in N. inversion N as [|? ? A B]. subst. cbn [dget]. destruct I as [E|I].
  - injection E as -> ->. now rewrite String.eqb_refl.
  - destruct (String.eqb_spec k n) as [->|]; [|exact (IH B I)]. exfalso. apply A. apply in_map_iff. exists (n, x). auto.
Qed.
Lemma dget_member (d : list (string * val)) n x : dget d n = Some x -> In (n, x) d.
Proof.
  induction d as [|[k y] d IH]; intros E; [discriminate|]. cbn [dget] in E. destruct (String.eqb_spec k n) as [->|]; [injection E as ->; now left|right; exact (IH E)].
Qed.
Lemma stands_fun v u u' : stands_for v u -> stands_for v u' -> u = u'.
Proof. intros A B. destruct A; inversion B; reflexivity. Qed.
Lemma infinite_number x u : infinite x -> stands_for (VFlt x) u -> False.
Proof. intros [A _] B. inversion B. lia. Qed.

Lemma plain_refl v : match v with VList _ | VTup _ | VDict _ => False | _ => True end -> (same v v <-> comparable v).
Proof.
  intros H. destruct v; try destruct H.
  - split; constructor.
  - split; [constructor|]. intros _. destruct b; eapply same_number; constructor.
  - split; [constructor|]. intros _. eapply same_number; constructor.
  - split; [constructor|]. intros _. eapply same_number; constructor.
  - split.
    + intros X. constructor. intros [A B]. inversion X; subst; [match goal with S : stands_for _ _ |- _ => inversion S end; lia|]. match goal with S : infinite _ |- _ => destruct S as [_ C] end. contradiction.
    + intros X. inversion X as [| | | |x N| | | | |]. subst. pose proof (exp_range bits) as R. unfold f_exp in R. destruct (Z.ltb_spec ((bits / 2 ^ 52) mod 2048) 2047) as [L|L].
      * eapply same_number; now constructor.
      * assert (E : (bits / 2 ^ 52) mod 2048 = 2047) by lia. destruct (Z.eq_dec (bits mod 2 ^ 52) 0) as [Q|Q]; [|exfalso; apply N; split; assumption].
        apply same_infinity; [split; assumption|split; assumption|reflexivity].
  - split; constructor.
  - split; constructor.
Qed.
(* a value that is read a second time is the same if and only if no NaN is compared *)
Theorem same_refl : forall v, proper v -> (same v v <-> comparable v).
Proof.
  apply (val_deep (fun v => proper v -> (same v v <-> comparable v))).
  - intros v H _. now apply plain_refl.
  - intros l F P. inversion P as [? B|? P'| |]; subst; [destruct B|]. split.
    + intros X. inversion X as [|? ? ? SF| | | |? ? F2| |]; subst; [inversion SF|]. constructor. clear - F P' F2. induction l as [|x l IH]; constructor; inversion F; inversion P'; inversion F2; subst; [now apply H1|now apply IH].
    + intros X. inversion X as [| | | | | | |? C| |]; subst. constructor. clear - F P' C. induction l as [|x l IH]; constructor; inversion F; inversion P'; inversion C; subst; [now apply H1|now apply IH].
  - intros l F P. inversion P as [? B| |? P'|]; subst; [destruct B|]. split.
    + intros X. inversion X as [|? ? ? SF| | | | |? ? F2|]; subst; [inversion SF|]. constructor. clear - F P' F2. induction l as [|x l IH]; constructor; inversion F; inversion P'; inversion F2; subst; [now apply H1|now apply IH].
    + intros X. inversion X as [| | | | | | | |? C|]; subst. constructor. clear - F P' C. induction l as [|x l IH]; constructor; inversion F; inversion P'; inversion C; subst; [now apply H1|now apply IH].
  - intros d F P. inversion P as [? B| | |? N P']; subst; [destruct B|]. rewrite Forall_forall in F, P'. split.
    + intros X. inversion X as [|? ? ? SF| | | | | |? ? A B]; subst; [inversion SF|]. constructor. intros n x I PU. destruct (A n x I PU) as (y & E & Q). rewrite (dget_unique d n x N I) in E. injection E as <-. apply (F _ I (P' _ I)). exact Q.
    + intros X. inversion X as [| | | | | | | | |? C]; subst. constructor.
      * intros n x I PU. exists x. split; [now apply dget_unique|]. apply (F _ I (P' _ I)). exact (C n x I PU).
      * intros n x I PU. exists x. now apply dget_unique.
Qed.
Theorem same_sym : forall v w, proper v -> proper w -> same v w -> same w v.
Proof.
  apply (val_deep (fun v => forall w, proper v -> proper w -> same v w -> same w v)).
  - intros v H w _ _ S. destruct S; try destruct H; try (constructor; fail); [eapply same_number; eassumption|apply same_infinity; [assumption|assumption|tauto]].
  - intros l F w P P2 S. inversion P as [? B|? P'| |]; subst; [destruct B|]. inversion S as [|? ? ? SF| | | |? m F2| |]; subst; [inversion SF|]. inversion P2 as [? B|? P2'| |]; subst; [destruct B|].
    constructor. clear - F P' P2' F2. induction F2 as [|x y l m Q F2 IH]; constructor; inversion F; inversion P'; inversion P2'; subst; [now apply H1|now apply IH].
  - intros l F w P P2 S. inversion P as [? B| |? P'|]; subst; [destruct B|]. inversion S as [|? ? ? SF| | | | |? m F2|]; subst; [inversion SF|]. inversion P2 as [? B| |? P2'|]; subst; [destruct B|].
    constructor. clear - F P' P2' F2. induction F2 as [|x y l m Q F2 IH]; constructor; inversion F; inversion P'; inversion P2'; subst; [now apply H1|now apply IH].
  - intros d F w P P2 S. inversion P as [? B| | |? N P']; subst; [destruct B|]. inversion S as [|? ? ? SF| | | | | |? e A B]; subst; [inversion SF|]. inversion P2 as [? C| | |? N2 P2']; subst; [destruct C|].
    rewrite Forall_forall in F, P', P2'. constructor.
    + intros n y I PU. destruct (B n y I PU) as (x & E). exists x. split; [exact E|]. apply dget_member in E. destruct (A n x E PU) as (y' & E' & Q). rewrite (dget_unique e n y N2 I) in E'. injection E' as <-.
      exact (F _ E y (P' _ E) (P2' _ I) Q).
    + intros n x I PU. destruct (A n x I PU) as (y & E & _). eauto.
Qed.
Theorem same_trans : forall v w x, proper v -> same v w -> same w x -> same v x.
Proof.
  apply (val_deep (fun v => forall w x, proper v -> same v w -> same w x -> same v x)).
  - intros v H w x _ A B. destruct A as [|v w u S1 S2|a b I1 I2 I3| | | | |]; try destruct H; try exact B.
    + destruct B as [|w x u' S3 S4|a b I1 I2 I3| | | | |]; try (inversion S2; fail).
      * rewrite (stands_fun _ _ _ S2 S3) in S1. exact (same_number _ _ _ S1 S4).
      * exfalso. exact (infinite_number _ _ I1 S2).
    + inversion B as [|? ? u S1 S2|? c I4 I5 I6| | | | |]; subst; [exfalso; exact (infinite_number _ _ I2 S1)|]. apply same_infinity; tauto.
  - intros l F w x P A B. inversion P as [? C|? P'| |]; subst; [destruct C|]. inversion A as [|? ? ? SF| | | |? m F1| |]; subst; [inversion SF|]. inversion B as [|? ? ? SF| | | |? k F2| |]; subst; [inversion SF|].
    constructor. clear - F P' F1 F2. revert k F2. induction F1 as [|a b l m Q F1 IH]; intros k F2; inversion F2; subst; constructor; inversion F; inversion P'; subst; [eapply H2; eassumption|now apply IH].
  - intros l F w x P A B. inversion P as [? C| |? P'|]; subst; [destruct C|]. inversion A as [|? ? ? SF| | | | |? m F1|]; subst; [inversion SF|]. inversion B as [|? ? ? SF| | | | |? k F2|]; subst; [inversion SF|].
    constructor. clear - F P' F1 F2. revert k F2. induction F1 as [|a b l m Q F1 IH]; intros k F2; inversion F2; subst; constructor; inversion F; inversion P'; subst; [eapply H2; eassumption|now apply IH].
  - intros d F w x P A B. inversion P as [? C| | |? N P']; subst; [destruct C|]. inversion A as [|? ? ? SF| | | | | |? e A1 A2]; subst; [inversion SF|]. inversion B as [|? ? ? SF| | | | | |? g B1 B2]; subst; [inversion SF|].
    rewrite Forall_forall in F, P'. constructor.
    + intros n a I PU. destruct (A1 n a I PU) as (b & E & Q). destruct (B1 n b (dget_member _ _ _ E) PU) as (c & E' & Q'). exists c. split; [exact E'|]. exact (F _ I b c (P' _ I) Q Q').
    + intros n c I PU. destruct (B2 n c I PU) as (b & E). exact (A2 n b (dget_member _ _ _ E) PU).
Qed.

(* ------------------------------------------------------------ values read from a file *)

Definition gives (c : con) : Prop := forall cx bs v r, cparse c cx bs = Ok (v, r) -> proper v.

Lemma dset_keys (d : list (string * val)) n v : map fst (dset d n v) = map fst d \/ (~ In n (map fst d) /\ map fst (dset d n v) = map fst d ++ [n]).
Proof.
  induction d as [|[k x] d IH]; [right; split; [intros []|reflexivity]|]. cbn [dset map fst]. destruct (String.eqb_spec k n) as [->|N]; [left; reflexivity|].
  destruct IH as [E|[A E]]; cbn [map fst]; rewrite E; [left; reflexivity|]. right. split; [|reflexivity]. intros [X|X]; congruence.
Qed.
Lemma dset_unique (d : list (string * val)) n v : NoDup (map fst d) -> NoDup (map fst (dset d n v)).
Proof.
  intros N. destruct (dset_keys d n v) as [->|[A ->]]; [exact N|]. apply (Permutation.Permutation_NoDup (l := n :: map fst d)); [apply Permutation.Permutation_cons_append|]. constructor; assumption.
Qed.
Lemma dset_proper (d : list (string * val)) n v : proper v -> Forall (fun x => proper (snd x)) d -> Forall (fun x => proper (snd x)) (dset d n v).
Proof. intros P F. induction F as [|[k x] d H F IH]; cbn [dset]; [constructor; [exact P|constructor]|]. destruct (String.eqb k n); constructor; assumption. Qed.

Lemma struct_proper cx : forall fs acc bs d r, Forall (fun f => gives (snd f)) fs -> NoDup (map fst acc) -> Forall (fun x => proper (snd x)) acc ->
  struct_parse fs cx acc bs = Ok (d, r) -> NoDup (map fst d) /\ Forall (fun x => proper (snd x)) d.
Proof.
  induction fs as [|[n c] fs IH]; intros acc bs d r G N F H; cbn [struct_parse] in H; [injection H as <- <-; auto|]. inversion G as [|? ? G1 G2]; subst. cbn [snd] in G1.
  destruct (cparse c (cx_with_fields cx acc) bs) as [[v bs']|[]] eqn:E; try discriminate H; [|injection H as <- <-; auto].
  assert (P : proper v) by exact (G1 _ _ _ _ E). unfold put in H. destruct (String.eqb n ""); [exact (IH _ _ _ _ G2 N F H)|].
  refine (IH _ _ _ _ G2 _ _ H); [now apply dset_unique|now apply dset_proper].
Qed.
Lemma g_struct fs : Forall (fun f => gives (snd f)) fs -> gives (Struct fs).
Proof.
  intros G cx bs v r H. cbn [Struct cparse] in H. inv_bind H. destruct x as [d r']. injection H as <- <-.
  destruct (struct_proper cx fs [] bs d r' G (NoDup_nil _) (Forall_nil _) E) as [A B]. now constructor.
Qed.
Lemma g_optional c : gives c -> gives (Optional c).
Proof. intros G cx bs v r H. cbn [Optional cparse] in H. destruct (cparse c cx bs) as [[w q]|] eqn:E; [injection H as <- <-; exact (G _ _ _ _ E)|injection H as <- <-; now constructor]. Qed.
Lemma g_if cond c : gives c -> gives (If_ cond c).
Proof. intros G cx bs v r H. cbn [If_ cparse] in H. destruct (cond cx); [exact (G _ _ _ _ H)|injection H as <- <-; now constructor]. Qed.
Lemma g_stop cond : gives (StopIf cond).
Proof. intros cx bs v r H. cbn [StopIf cparse] in H. destruct (cond cx); [discriminate|injection H as <- <-; now constructor]. Qed.
Lemma g_uint n : gives (c_uint n).
Proof. intros cx bs v r H. cbn [c_uint cparse] in H. inv_bind H. destruct x. injection H as <- <-. now constructor. Qed.
Lemma g_sint n : gives (c_sint n).
Proof. intros cx bs v r H. cbn [c_sint cparse] in H. inv_bind H. destruct x. injection H as <- <-. now constructor. Qed.
Lemma g_f64 : gives Float64l.
Proof. intros cx bs v r H. cbn [Float64l cparse] in H. inv_bind H. destruct x. injection H as <- <-. now constructor. Qed.
Lemma g_f32 : gives Float32l.
Proof. intros cx bs v r H. cbn [Float32l cparse] in H. inv_bind H. destruct x. injection H as <- <-. now constructor. Qed.
Lemma g_flag : gives Flag.
Proof. intros cx bs v r H. cbn [Flag cparse] in H. inv_bind H. destruct x. injection H as <- <-. now constructor. Qed.
Lemma g_bytes n : gives (Bytes n).
Proof. intros cx bs v r H. cbn [Bytes cparse] in H. inv_bind H. destruct x. injection H as <- <-. now constructor. Qed.
Lemma g_rest : gives GreedyBytes.
Proof. intros cx bs v r H. injection H as <- <-. now constructor. Qed.
Lemma g_varint : gives VarInt.
Proof. intros cx bs v r H. cbn [VarInt cparse] in H. inv_bind H. destruct x. injection H as <- <-. now constructor. Qed.
Lemma g_padded len : gives (PaddedString16 len).
Proof.
  intros cx bs v r H. cbn [PaddedString16 cparse] in H. inv_bind H. destruct (x <? 0); [discriminate|]. destruct (zlen bs <? x); [discriminate|].
  destruct (utf16_dec _); [injection H as <- <-; now constructor|discriminate].
Qed.
Lemma g_adapter dec enc c : (forall cx v w, proper v -> dec cx v = Ok w -> proper w) -> gives c -> gives (Adapter dec enc c).
Proof. intros D G cx bs v r H. cbn [Adapter cparse] in H. inv_bind H. destruct x as [w q]. inv_bind H. injection H as <- <-. exact (D _ _ _ (G _ _ _ _ E) E0). Qed.
Lemma g_computed f : (forall cx v, Forall (fun x => proper (snd x)) (cx_fields cx) -> f cx = Ok v -> proper v) ->
  forall cx bs v r, Forall (fun x => proper (snd x)) (cx_fields cx) -> cparse (Computed f) cx bs = Ok (v, r) -> proper v.
Proof. intros D cx bs v r F H. cbn [Computed cparse] in H. inv_bind H. injection H as <- <-. exact (D _ _ F E). Qed.
Lemma g_switch sel : (forall cx, gives (sel cx)) -> gives (Switch sel).
Proof. intros G cx bs v r H. exact (G _ _ _ _ _ H). Qed.
Lemma g_prefixed len c : gives c -> gives (Prefixed len c).
Proof.
  intros G cx bs v r H. cbn [Prefixed cparse] in H. inv_bind H. destruct x as [n q]. destruct (as_int n); [|discriminate]. destruct (_ <? _); [discriminate|].
  cbv zeta in H. inv_bind H. destruct x as [w q']. injection H as <- <-. exact (G _ _ _ _ E0).
Qed.
Lemma g_range c : gives c -> gives (GreedyRange c).
Proof.
  intros G cx bs v r H. cbn [GreedyRange cparse] in H. inv_bind H. destruct x as [vs q]. injection H as <- <-. apply pr_list.
  remember (S (length bs)) as n eqn:N. clear N. revert bs vs q E. generalize 0 as i. induction n as [|n IH]; intros i bs vs q E; [discriminate|]. cbn [greedy_parse] in E.
  destruct (cparse c (cx_with_index cx i) bs) as [[v bs']|] eqn:P; [|injection E as <- <-; constructor]. inv_bind E. destruct x as [ws q']. injection E as <- <-. constructor; [exact (G _ _ _ _ P)|exact (IH _ _ _ _ E0)].
Qed.
Lemma g_array n c : gives c -> gives (Array n c).
Proof.
  intros G cx bs v r H. cbn [Array cparse] in H. inv_bind H. destruct x as [vs q]. injection H as <- <-. apply pr_list.
  revert bs vs q E. generalize 0 as i. induction n as [|n IH]; intros i bs vs q E; cbn [array_parse] in E; [injection E as <- <-; constructor|].
  inv_bind E. destruct x as [v bs']. inv_bind E. destruct x as [ws q']. injection E as <- <-. constructor; [exact (G _ _ _ _ E0)|exact (IH _ _ _ _ E1)].
Qed.
Lemma g_parray cnt c : gives c -> gives (PrefixedArray cnt c).
Proof.
  intros G cx bs v r H. cbn [PrefixedArray cparse] in H. inv_bind H. destruct x as [m bs']. destruct (as_int m) as [k|]; [|discriminate]. inv_bind H. destruct x as [vs q]. injection H as <- <-. apply pr_list.
  remember (S (length bs')) as n eqn:N. clear N E. revert bs' vs q E0. generalize 0 as i. induction n as [|n IH]; intros i bs' vs q E; cbn [parray_parse] in E; (destruct (k <=? i); [injection E as <- <-; constructor|]); [discriminate|].
  inv_bind E. destruct x as [v bs2]. inv_bind E. destruct x as [ws q']. injection E as <- <-. constructor; [exact (G _ _ _ _ E0)|exact (IH _ _ _ _ E1)].
Qed.
Ltac flat := let cx := fresh in let v := fresh "v" in let w := fresh "w" in let P := fresh "P" in let H := fresh "H" in intros cx v w P H;
  repeat (first [discriminate H | injection H as <-; repeat match goal with |- proper (match ?x with _ => _ end) => destruct x end; repeat constructor; fail | match type of H with
    | match ?x with _ => _ end = _ => destruct x eqn:? | (if ?x then _ else _) = _ => destruct x | bind _ _ = _ => inv_bind H | (let _ := _ in _) = _ => cbv zeta in H end]).
Lemma g_list2 c : gives c -> gives (List2Tuple c).
Proof.
  apply g_adapter. intros cx v w P H. destruct v; try discriminate. destruct l as [|a [|b [|]]]; try discriminate. injection H as <-. inversion P as [? F|? F| |]; subst; [destruct F|]. now constructor.
Qed.
Lemma g_color : gives Color.
Proof.
  apply g_adapter; [|apply g_bytes]. intros cx v w P H. destruct v; try discriminate. destruct (_ =? _)%nat; [|discriminate]. injection H as <-. apply pr_tuple. apply Forall_forall. intros x I.
  apply in_map_iff in I as (c & <- & _). now constructor.
Qed.
Lemma g_tuple : gives U16Tuple.
Proof.
  apply g_adapter; [|apply g_array, g_uint]. intros cx v w P H. destruct v; try discriminate. injection H as <-. inversion P as [? F|? F| |]; subst; [destruct F|]. now constructor.
Qed.
Lemma g_text dec enc : gives (text_con dec enc).
Proof. apply g_adapter; [flat|]. apply g_adapter; [flat|]. apply g_rest. Qed.
Lemma g_point : gives auto_point.
Proof.
  intros cx bs v r H. unfold auto_point, Struct in H. cbn [cparse] in H. inv_bind H. destruct x as [d q]. injection H as <- <-. cbn [struct_parse] in E.
  destruct (cparse Float64l _ bs) as [[v1 b1]|e] eqn:E1; [|destruct e; try discriminate E; injection E as <- <-; apply pr_record; constructor]. pose proof (g_f64 _ _ _ _ E1) as P1.
  match type of E with (match ?c with _ => _ end) = _ => destruct c as [[v2 b2]|e] eqn:E2; [|destruct e; try discriminate E; injection E as <- <-; unfold put; cbn; apply pr_record; cbn; [repeat constructor; intros []|constructor; [exact P1|constructor]]] end.
  assert (P2 : proper v2).
  { cbn [Computed cparse] in E2. inv_bind E2. injection E2 as <- <-. destruct (0 <? _); [inv_bind E0; injection E0 as <-; now constructor|]. cbn in E0. injection E0 as <-. exact P1. }
  destruct (struct_proper cx [("value"%string, Float64l); ("tension"%string, Float32l); ("_u1"%string, Bytes 4)] (put (put [] "_offset" v1) "position" v2) b2 d q) as [A B].
  - constructor; [apply g_f64|]. constructor; [apply g_f32|]. constructor; [apply g_bytes|constructor].
  - unfold put. cbn. repeat constructor; [intros [X|[]]; discriminate|intros []].
  - unfold put. cbn. constructor; [exact P1|]. constructor; [exact P2|constructor].
  - exact E.
  - now apply pr_record.
Qed.
Ltac given := first
  [ apply g_uint | apply g_sint | apply g_f64 | apply g_f32 | apply g_flag | apply g_bytes | apply g_rest | apply g_varint | apply g_padded | apply g_stop | apply g_point
  | apply g_color | apply g_tuple | apply g_text
  | apply g_optional; given | apply g_if; given | apply g_range; given | apply g_array; given | apply g_list2; given | apply g_parray; given
  | apply g_struct; repeat (apply Forall_cons; [cbn [snd]; given|]); apply Forall_nil
  | apply g_adapter; [flat; fail|given] ].
Lemma g_vst_data cx : gives (vst_switch cx).
Proof.
  unfold vst_switch. destruct (dget _ _) as [v|]; [|given]. destruct (as_int v) as [z|]; [|given].
  repeat match goal with |- gives (match ?x with _ => _ end) => destruct x end; first [given|unfold vst_midi; given|unfold vst_flags; unfold StdFlag; given|unfold GreedyString; given].
Qed.
Lemma g_kind k : gives (kcon k).
Proof.
  destruct k; cbn [kcon]; try (given; fail);
    unfold AutomationS, DelayS, EnvelopeLFOS, LevelAdjustsS, LevelsS, ParametersS, PolyphonyS, TrackingS, BooBassS, FruitKickS, FruityBalanceS, FruityBloodOverdriveS, FruityCenterS,
      FruityFastDistS, FruityNotebook2S, notebook_page, FruitySendS, FruitySoftClipperS, FruityStereoEnhancerS, PluckedS, SoundgoodizerS, WrapperS, PLSelectionS, PlaylistS, playlist_item, TrackS,
      InsertFlagsS, InsertRoutingS, MixerParamsS, mixer_param, ControllerS, controller_item, NotesS, note_item, MIDIControllerS, RemoteControllerS, TimestampS,
      FourByteBool, LinearMusical, Log2, LogNormal, StdEnum, StdFlag, HeightAdapter, Enum, musical_dec; try (given; fail).
  unfold VSTPluginS, vst_event, StdEnum. apply g_struct. constructor; [given|]. constructor; [|constructor]. apply g_range, g_struct. constructor; [given|]. constructor; [|constructor]. apply g_prefixed, g_switch, g_vst_data.
Qed.
