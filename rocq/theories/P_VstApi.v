(* Any bytes of VST plugin data that load, split into parts; the options read from them. *)
From Coq Require Import String ZArith List Bool Lia Arith.
From Verif Require Import M_Base M_Float M_Text M_Construct M_Structs M_Events M_Parse M_Tree M_Prop M_Project M_Items M_VstApi.
From Verif Require Import S_Canon S_File S_Domain S_Tree S_Prop S_Project S_Items S_Layout S_Vst S_VstApi.
From Verif Require Import P_Base P_Codec P_Text P_RT P_Cells P_Special P_Payload P_File P_Null P_Save P_Domain.
From Verif Require Import P_TreeBase P_Tree P_TreeEdit P_Prop P_Edit P_Rewrite P_Layout P_Items P_Vst.
Import ListNotations.
Open Scope Z_scope.

(* ------------------------------------------------------------------ bits of bytes *)

Lemma nth_firstn A : forall n (l : list A) i, (i < n)%nat -> nth_error (firstn n l) i = nth_error l i.
Proof. induction n as [|n IH]; intros [|x l] [|i] L; try lia; try reflexivity. cbn. apply IH. lia. Qed.
Lemma nth_skipn A : forall n (l : list A) i, nth_error (skipn n l) i = nth_error l (n + i).
Proof. induction n as [|n IH]; intros [|x l] i; try reflexivity; [destruct i; reflexivity|]. cbn. apply IH. Qed.
Lemma u_le_bit x b : 0 <= b < 8 -> forall j l, is_bytes l -> nth_error l j = Some x -> Z.testbit (u_le l) (8 * Z.of_nat j + b) = Z.testbit x b.
Proof.
  intros B. assert (STEP : forall y, 0 <= y < 256 -> forall z, (y + 256 * z) mod 2 ^ 8 = y /\ (y + 256 * z) / 2 ^ 8 = z).
  { intros y Y z. change (2 ^ 8) with 256. split; lia. }
  induction j as [|j IH]; intros [|y l] BY N; try discriminate; apply is_bytes_cons in BY as [HY BY]; cbn [nth_error] in N; cbn [u_le fold_right]; fold (u_le l); destruct (STEP y HY (u_le l)) as [S1 S2].
  - injection N as ->. replace (8 * Z.of_nat 0 + b) with b by lia. rewrite <- S1 at 2. symmetry. apply Z.mod_pow2_bits_low. lia.
  - rewrite <- (IH l BY N). rewrite <- S2 at 2. rewrite Z.div_pow2_bits by lia. f_equal. lia.
Qed.
Lemma one_bit z n : 0 <= n -> (Z.land z (2 ^ n) =? 2 ^ n) = Z.testbit z n.
Proof.
  intros N. destruct (Z.testbit z n) eqn:T.
  - apply Z.eqb_eq. apply Z.bits_inj'. intros i I. rewrite Z.land_spec, Z.pow2_bits_eqb by lia. destruct (Z.eqb_spec n i) as [<-|]; [now rewrite T|apply andb_false_r].
  - apply Z.eqb_neq. intros E. apply (f_equal (fun v => Z.testbit v n)) in E. rewrite Z.land_spec, T, Z.pow2_bits_true in E by lia. discriminate.
Qed.

(* ------------------------------------------------------------------ parts *)

Lemma means_of id p cx x r : is_bytes p -> cparse (inner_con id) cx p = Ok (x, r) -> sub_means id p x.
Proof.
  intros B H. destruct (id_cases id) as [-> | -> |E N1 N2 EC |E N1 N2 EC].
  - assert (M : sub_means 1 p (VDict (opt_fields midi_fields p))) by now apply sm_midi. destruct (sub_parse 1 p _ B M cx) as (r' & X). rewrite X in H. injection H as <- _. exact M.
  - assert (M : sub_means 2 p (VDict (opt_fields flag_fields p))) by now apply sm_flags. destruct (sub_parse 2 p _ B M cx) as (r' & X). rewrite X in H. injection H as <- _. exact M.
  - rewrite EC in H. cbn [GreedyString Adapter cparse GreedyBytes bind] in H. destruct (utf8_dec p) as [s|] eqn:D; [|discriminate]. cbn [bind] in H. injection H as <- _.
    apply sm_text; [|exact D]. rewrite !orb_true_iff, !Z.eqb_eq in E. unfold text_sub. cbn [In]. destruct E as [[[->| ->]| ->]| ->]; tauto.
  - rewrite EC in H. cbn [GreedyBytes cparse] in H. injection H as <- _. apply sm_raw. rewrite !orb_false_iff, !Z.eqb_neq in E. unfold raw_sub. cbn [In]. intuition congruence.
Qed.
Lemma uint_inv n cx bs v r : is_bytes bs -> cparse (c_uint n) cx bs = Ok (v, r) ->
  exists z, v = VInt z /\ 0 <= z < 256 ^ Z.of_nat n /\ bs = le n z ++ r /\ is_bytes r.
Proof.
  intros B H. pose proof (tk_uint n cx bs B) as T. destruct (Nat.leb_spec n (length bs)) as [L|L]; [|destruct T as (e & X & _); congruence].
  rewrite T in H. injection H as <- <-. unfold unsigned. rewrite (u_le_dec (firstn n bs)). assert (BF : is_bytes (firstn n bs)) by now apply is_bytes_firstn.
  assert (LF : length (firstn n bs) = n) by now apply firstn_length_le. eexists. split; [reflexivity|]. pose proof (le_dec_bound _ BF) as R. rewrite LF in R. split; [exact R|].
  split; [|now apply is_bytes_skipn]. rewrite le_spec. pose proof (le_enc_dec _ BF) as Q. rewrite LF in Q. rewrite Q. symmetry. apply firstn_skipn.
Qed.
Lemma uint_err n cx bs er : is_bytes bs -> cparse (c_uint n) cx bs = Err er -> er <> StopFieldError.
Proof.
  intros B H. pose proof (tk_uint n cx bs B) as T. destruct (n <=? length bs)%nat; [congruence|]. destruct T as (e & X & N). congruence.
Qed.
Lemma inner_err id cx p er : is_bytes p -> cparse (inner_con id) cx p = Err er -> er <> StopFieldError.
Proof.
  intros B H. destruct (id_cases id) as [-> | -> |E N1 N2 EC |E N1 N2 EC].
  - destruct (sub_parse 1 p _ B (sm_midi 1 p eq_refl) cx) as (r' & X). congruence.
  - destruct (sub_parse 2 p _ B (sm_flags 2 p eq_refl) cx) as (r' & X). congruence.
  - rewrite EC in H. cbn [GreedyString Adapter cparse GreedyBytes bind] in H. destruct (utf8_dec p); [discriminate|]. cbn [bind] in H. injection H as <-. discriminate.
  - rewrite EC in H. discriminate.
Qed.
Lemma part_inv cx bs v r : is_bytes bs -> cparse vst_event cx bs = Ok (v, r) ->
  exists id p, bs = sub_bytes id p ++ r /\ part_means (id, p) v /\ is_bytes p /\ is_bytes r.
Proof.
  intros B H. unfold vst_event in H. cbn [Struct cparse struct_parse] in H.
  cbn [StdEnum Adapter cparse] in H. unfold Int32ul in H.
  match type of H with context [cparse (c_uint 4) ?c bs] => destruct (cparse (c_uint 4) c bs) as [[v1 r1]|er] eqn:E1; [|apply uint_err in E1; [|exact B]; cbn [bind] in *; destruct er; try discriminate; congruence] end.
  destruct (uint_inv _ _ _ _ _ B E1) as (id & -> & I & EB & B1). cbn [bind as_int] in H.
  cbn [Prefixed cparse] in H. unfold Int64ul in H.
  match type of H with context [cparse (c_uint 8) ?c r1] => destruct (cparse (c_uint 8) c r1) as [[v2 r2]|er] eqn:E2; [|apply uint_err in E2; [|exact B1]; cbn [bind] in *; destruct er; try discriminate; congruence] end.
  destruct (uint_inv _ _ _ _ _ B1 E2) as (n & -> & N & EB1 & B2). cbn [bind as_int] in H.
  destruct (zlen r2 <? n) eqn:ZN; [discriminate|]. cbv zeta in H.
  cbn [Switch cparse M_Construct.put String.eqb Ascii.eqb Bool.eqb dset] in H. erewrite vst_switch_id in H by reflexivity.
  set (p := firstn (Z.to_nat n) r2) in *. assert (BP : is_bytes p) by (apply is_bytes_firstn; exact B2).
  assert (LP : zlen p = n) by (unfold p, zlen in *; rewrite firstn_length_le; lia).
  match type of H with context [cparse (inner_con id) ?c p] => destruct (cparse (inner_con id) c p) as [[x q]|er] eqn:E3; [|apply inner_err in E3; [|exact BP]; cbn [bind] in *; destruct er; try discriminate; congruence] end.
  apply means_of in E3; [|exact BP]. cbn [bind] in H. injection H as <- <-. exists id, p.
  split; [|split; [|split; [exact BP|now apply is_bytes_skipn]]].
  - rewrite EB, EB1. unfold sub_bytes. rewrite <- !app_assoc, LP. unfold p. now rewrite firstn_skipn.
  - split; [exact I|]. cbn [fst snd]. split; [rewrite LP; exact (proj2 N)|]. exists x. split; [reflexivity|exact E3].
Qed.
Lemma parts_inv : forall f cx i bs l r, is_bytes bs -> greedy_parse f vst_event cx i bs = Ok (l, r) ->
  exists ps, bs = parts_bytes ps ++ r /\ Forall2 part_means ps l /\ no_part r /\ Forall (fun x => is_bytes (snd x)) ps.
Proof.
  induction f as [|f IH]; intros cx i bs l r B H; cbn [greedy_parse] in H; [discriminate|].
  destruct (cparse vst_event (cx_with_index cx i) bs) as [[v b']|er] eqn:E.
  - destruct (part_inv _ _ _ _ B E) as (id & p & EB & M & BP & B'). inv_bind H. destruct x as [vs q]. injection H as <- <-.
    destruct (IH _ _ _ _ _ B' E0) as (ps & EP & F & NP & BS). exists ((id, p) :: ps). unfold parts_bytes in *. cbn [map concat fst snd].
    split; [rewrite EB, EP, app_assoc; reflexivity|]. split; [now constructor|]. split; [exact NP|now constructor].
  - injection H as <- <-. exists []. split; [reflexivity|]. split; [constructor|]. split; [|constructor].
    intros id p y r I Z M EB. rewrite EB in B. pose proof (proj1 (is_bytes_app _ _) B) as [BS BR]. unfold sub_bytes in BS. apply is_bytes_app in BS as [_ BS]. apply is_bytes_app in BS as [_ BP].
    rewrite EB, (sub_event_parse id p y I BP Z M) in E by exact BR. discriminate.
Qed.
Lemma greedy_err c cx : forall f i bs er, greedy_parse f c cx i bs = Err er -> er = OutOfFuel.
Proof.
  induction f as [|f IH]; intros i bs er H; cbn [greedy_parse] in H; [congruence|]. destruct (cparse c (cx_with_index cx i) bs) as [[v b']|]; [|discriminate].
  destruct (greedy_parse f c cx (i + 1) b') as [[vs q]|x] eqn:E; [discriminate|]. cbn [bind] in H. injection H as <-. exact (IH _ _ _ E).
Qed.
(* any plugin data that load *)
Lemma vst_data_inv en id b e : is_bytes b -> mk_event en KVSTPlugin id b = Ok e ->
  exists ty ps l r, e_val e = VDict [("type"%string, VInt ty); ("events"%string, VList l)] /\ 0 <= ty < 2 ^ 32 /\
    b = le 4 ty ++ parts_bytes ps ++ r /\ Forall2 part_means ps l /\ no_part r /\ Forall (fun x => is_bytes (snd x)) ps.
Proof.
  intros B H. destruct (mk_event_inv _ _ _ _ _ H) as (v & r & P & -> & _). cbn [kcon e_val] in *. unfold VSTPluginS in P. cbn [Struct cparse struct_parse] in P.
  unfold Int32ul in P. match type of P with context [cparse (c_uint 4) ?c b] => destruct (cparse (c_uint 4) c b) as [[v1 r1]|er] eqn:E1; [|apply uint_err in E1; [|exact B]; cbn [bind] in *; destruct er; try discriminate; congruence] end.
  destruct (uint_inv _ _ _ _ _ B E1) as (ty & -> & I & EB & B1). cbn [bind] in P. cbn [GreedyRange cparse] in P.
  match type of P with context [greedy_parse ?a ?b ?c ?d r1] => destruct (greedy_parse a b c d r1) as [[l r2]|er] eqn:E2; [|apply greedy_err in E2; subst er; discriminate] end.
  cbn [bind] in P. destruct (parts_inv _ _ _ _ _ _ B1 E2) as (ps & EP & F & NP & BS). injection P as <- <-.
  exists ty, ps, l, r2. split; [reflexivity|]. split; [exact I|]. split; [now rewrite EB, EP|]. auto.
Qed.

(* the first part with an id is the one found *)
Lemma part_find id : forall ps l n, Forall2 part_means ps l ->
  match part id ps with
  | None => sub_find l id n = None
  | Some p => exists i y, sub_find l id n = Some (i, y) /\ sub_means id p y
  end.
Proof.
  intros ps l n F. revert n. induction F as [|[i p] v ps l (I & Z & y & -> & M) F IH]; intros n; [reflexivity|]. cbn [fst snd] in *. cbn [part sub_find].
  assert (SI : sub_id (sub_dict i y) id = (i =? id)).
  { unfold sub_id, sub_dict. cbn [dget String.eqb Ascii.eqb Bool.eqb as_int]. reflexivity. }
  rewrite SI. destruct (Z.eqb_spec i id) as [->|NE]; [|exact (IH (S n))]. unfold sub_dict. cbn [dget String.eqb Ascii.eqb Bool.eqb]. eauto.
Qed.

(* ------------------------------------------------------------------ options *)

Definition base_of (key : string) : nat := if String.eqb key "flags2" then 13 else 9.
Lemma flags_at p key : (key = "flags" \/ key = "flags2")%string -> (base_of key + 4 <= length p)%nat ->
  dget (opt_fields flag_fields p) key = Some (VEnum (u_le (firstn 4 (skipn (base_of key) p)))).
Proof.
  intros K L. unfold flag_fields. cbn [opt_fields].
  destruct K as [-> | ->]; unfold base_of in *; cbn [String.eqb Ascii.eqb Bool.eqb] in *; replace (9 <=? length p)%nat with true by (symmetry; apply Nat.leb_le; lia);
    rewrite !skipn_length; replace (4 <=? length p - 9)%nat with true by (symmetry; apply Nat.leb_le; lia); cbn [dget String.eqb Ascii.eqb Bool.eqb]; [reflexivity|].
  replace (4 <=? length p - 9 - 4)%nat with true by (symmetry; apply Nat.leb_le; lia). cbn [dget String.eqb Ascii.eqb Bool.eqb].
  unfold flag_set. now rewrite skipn_skipn.
Qed.
Lemma idle_at p x : (23 <= length p)%nat -> nth_error p 22 = Some x -> dget (opt_fields flag_fields p) "fast_idle" = Some (VBool (negb (x =? 0))).
Proof.
  intros L N. do 22 (destruct p as [|? p]; [discriminate|]). destruct p as [|y p]; [discriminate|]. cbn in N. injection N as ->.
  unfold flag_fields. cbn. unfold truth. do 3 f_equal. cbn [u_le firstn fold_right]. destruct (Z.eqb_spec x 0), (Z.eqb_spec (x + 256 * 0) 0); lia || reflexivity.
Qed.
Lemma midi_at p : let get n := dget (opt_fields midi_fields p) n in
  get "input"%string = Some (if (4 <=? length p)%nat then signed (firstn 4 p) else VNone) /\
  get "output"%string = Some (if (8 <=? length p)%nat then signed (firstn 4 (skipn 4 p)) else VNone) /\
  get "pb_range"%string = Some (if (12 <=? length p)%nat then unsigned (firstn 4 (skipn 8 p)) else VNone).
Proof.
  cbv zeta. unfold midi_fields. cbn [opt_fields]. destruct (Nat.leb_spec 4 (length p)) as [L|L].
  - rewrite !skipn_length. destruct (Nat.leb_spec 4 (length p - 4)) as [L2|L2].
    + replace (8 <=? length p)%nat with true by (symmetry; apply Nat.leb_le; lia). cbn [dget String.eqb Ascii.eqb Bool.eqb].
      destruct (Nat.leb_spec 4 (length p - 4 - 4)) as [L3|L3]; cbn [dget String.eqb Ascii.eqb Bool.eqb].
      * replace (12 <=? length p)%nat with true by (symmetry; apply Nat.leb_le; lia). rewrite skipn_skipn. auto.
      * replace (12 <=? length p)%nat with false by (symmetry; apply Nat.leb_gt; lia). auto.
    + replace (8 <=? length p)%nat with false by (symmetry; apply Nat.leb_gt; lia). replace (12 <=? length p)%nat with false by (symmetry; apply Nat.leb_gt; lia).
      replace (4 <=? length p - 4)%nat with false by (symmetry; apply Nat.leb_gt; lia). cbn. auto.
  - replace (8 <=? length p)%nat with false by (symmetry; apply Nat.leb_gt; lia). replace (12 <=? length p)%nat with false by (symmetry; apply Nat.leb_gt; lia).
    replace (4 <=? length p)%nat with false by (symmetry; apply Nat.leb_gt; lia). cbn. auto.
Qed.

(* declarations and places agree *)
Definition agree (n : string) (d : vst_decl) (pl : place) : bool :=
  match d, pl with
  | VFlag key f inv, ABit k b c => (String.eqb key "flags" || String.eqb key "flags2") && (base_of key <=? k)%nat && (k <? base_of key + 4)%nat && (0 <=? b) && (b <? 8) &&
      (f =? 2 ^ (8 * Z.of_nat (k - base_of key) + b)) && Bool.eqb inv c && (needed k =? base_of key + 4)%nat
  | VProp i, ATruth k => (i =? 2) && (k =? 22)%nat && String.eqb n "fast_idle"
  | VProp i, ASigned k => (i =? 1) && ((k =? 0)%nat && String.eqb n "input" || (k =? 4)%nat && String.eqb n "output")
  | VProp i, AUnsigned k => (i =? 1) && (k =? 8)%nat && String.eqb n "pb_range"
  | VProp i, AText j => (i =? j) && ((i =? 51) || (i =? 54) || (i =? 55) || (i =? 56))
  | VProp i, ARaw j => (i =? j) && negb ((i =? 1) || (i =? 2) || (i =? 51) || (i =? 54) || (i =? 55) || (i =? 56))
  | _, _ => false
  end.
Definition sub_of (d : vst_decl) : Z := match d with VProp id => id | VFlag _ _ _ => 2 end.
Definition value_of (n : string) (d : vst_decl) (x : val) : res val :=
  match d with
  | VProp _ => vst_field n x
  | VFlag key f inv => match x with
                       | VDict fd => let* v := dindex fd key in
                                     match v with VEnum z => Ok (VBool (xorb inv (Z.land z f =? f))) | _ => Err TypeError end
                       | _ => Err TypeError
                       end
  end.
Lemma option_get_of en h t n d : option_get en h t n d = vst_get h t (sub_of d) (value_of n d).
Proof. destruct d; reflexivity. Qed.
Ltac conj := repeat match goal with H : _ && _ = true |- _ => apply andb_prop in H as [? ?] | H : (_ =? _) = true |- _ => apply Z.eqb_eq in H | H : (_ =? _)%nat = true |- _ => apply Nat.eqb_eq in H
  | H : String.eqb _ _ = true |- _ => apply String.eqb_eq in H | H : (_ <=? _)%nat = true |- _ => apply Nat.leb_le in H | H : (_ <? _)%nat = true |- _ => apply Nat.ltb_lt in H | H : Bool.eqb _ _ = true |- _ => apply Bool.eqb_prop in H end.
Lemma agree_sub n d pl : agree n d pl = true -> sub_of d = part_of pl.
Proof. destruct d as [id|key f inv]; destruct pl; cbn [agree sub_of part_of]; try discriminate; try reflexivity; intros H; conj; assumption. Qed.

(* what an option reads is what its place says *)
Lemma agree_value n d pl p x v : agree n d pl = true -> is_bytes p -> sub_means (part_of pl) p x -> says pl p v -> value_of n d x = Ok v.
Proof.
  intros A B M S. destruct S as [k b c p y L N|k p y L N|k p L|k p L|k p L|k p L|id p s D|id p]; destruct d as [i|key f inv]; cbn [agree part_of] in *; try discriminate; conj.
  - inversion M as [E1|E2|s T D|R]; try lia; [|unfold text_sub in T; cbn [In] in T; lia|exfalso; apply R; cbn; tauto]. subst x. cbn [value_of]. unfold dindex.
    rewrite flags_at; [|match goal with H : _ || _ = true |- _ => apply orb_prop in H as [H|H]; apply String.eqb_eq in H; tauto end|lia]. cbn [bind].
    do 3 f_equal; [assumption|]. subst f. rewrite one_bit by lia. apply u_le_bit; [lia|now apply is_bytes_firstn, is_bytes_skipn|].
    rewrite nth_firstn by lia. rewrite nth_skipn. rewrite <- N. f_equal. lia.
  - inversion M as [E1|E2|s T D|R]; try lia; [|unfold text_sub in T; cbn [In] in T; lia|exfalso; apply R; cbn; tauto]. subst. cbn [value_of vst_field]. unfold dindex. now rewrite (idle_at p y L N).
  - inversion M as [E1|E2|s T D|R]; try lia; [|unfold text_sub in T; cbn [In] in T; lia|exfalso; apply R; cbn; tauto]. destruct (midi_at p) as (M1 & M2 & _). cbn [value_of vst_field]. unfold dindex.
    match goal with H : _ || _ = true |- _ => apply orb_prop in H as [H|H]; conj; subst end; rewrite ?M1, ?M2; (match goal with |- context [(?a <=? ?b)%nat] => replace (a <=? b)%nat with true by (symmetry; apply Nat.leb_le; lia) end; reflexivity).
  - inversion M as [E1|E2|s T D|R]; try lia; [|unfold text_sub in T; cbn [In] in T; lia|exfalso; apply R; cbn; tauto]. destruct (midi_at p) as (_ & _ & M3). cbn [value_of vst_field]. unfold dindex. subst.
    rewrite M3. (match goal with |- context [(?a <=? ?b)%nat] => replace (a <=? b)%nat with true by (symmetry; apply Nat.leb_le; lia) end; reflexivity).
  - inversion M as [E1|E2|s T D|R]; try lia; [|unfold text_sub in T; cbn [In] in T; lia|exfalso; apply R; cbn; tauto]. destruct (midi_at p) as (M1 & M2 & _). cbn [value_of vst_field]. unfold dindex.
    match goal with H : _ || _ = true |- _ => apply orb_prop in H as [H|H]; conj; subst end; rewrite ?M1, ?M2; (match goal with |- context [(?a <=? ?b)%nat] => replace (a <=? b)%nat with false by (symmetry; apply Nat.leb_gt; lia) end; reflexivity).
  - inversion M as [E1|E2|s T D|R]; try lia; [|unfold text_sub in T; cbn [In] in T; lia|exfalso; apply R; cbn; tauto]. destruct (midi_at p) as (_ & _ & M3). cbn [value_of vst_field]. unfold dindex. subst.
    rewrite M3. (match goal with |- context [(?a <=? ?b)%nat] => replace (a <=? b)%nat with false by (symmetry; apply Nat.leb_gt; lia) end; reflexivity).
  - inversion M as [E1|E2|s' T D'|R]; subst; try discriminate; [|exfalso; apply R; rewrite !orb_true_iff, !Z.eqb_eq in *; cbn [In]; intuition]. cbn [value_of vst_field]. congruence.
  - inversion M as [E1|E2|s' T D'|R]; subst; try discriminate; [|reflexivity]. exfalso. unfold text_sub in T. cbn [In] in T. destruct T as [<-|[<-|[<-|[<-|[]]]]]; discriminate.
Qed.

(* the part found, as a sub-event *)
Lemma part_sub id : forall ps l p, Forall2 part_means ps l -> part id ps = Some p ->
  exists i y, sub l id i [("id"%string, VEnum id); ("data"%string, y)] y /\ sub_means id p y.
Proof.
  intros ps l p F. induction F as [|[i q] v ps l (I & Z & y & -> & M) F IH]; intros H; [discriminate|]. cbn [fst snd part] in *.
  assert (HS : forall a b, has_sub_id a (sub_dict b y) <-> a = b).
  { intros a b. split; [intros X; symmetry; exact (sub_dict_id _ _ _ _ eq_refl X)|]. intros ->. eexists _, _. split; [reflexivity|]. split; [reflexivity|right; now left]. }
  destruct (Z.eqb_spec i id) as [->|NE].
  - injection H as ->. exists 0%nat, y. split; [|exact M]. split; [reflexivity|]. split; [now apply HS|]. split; [reflexivity|]. intros j w J. lia.
  - destruct (IH H) as (j & z & (S1 & S2 & S3 & S4) & M'). exists (S j), z. split; [|exact M']. split; [exact S1|]. split; [exact S2|]. split; [exact S3|].
    intros [|k] w K W; [cbn in W; injection W as <-; intros X; apply HS in X; congruence|]. apply (S4 k); [lia|exact W].
Qed.
