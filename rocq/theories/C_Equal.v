(* C82 which events are equal. *)
From Coq Require Import String ZArith List Bool Lia Arith.
From Verif Require Import M_Base M_Float M_Text M_Construct M_Structs M_Events M_Parse M_Equal.
From Verif Require Import S_Canon S_File S_Domain S_Real S_Equal.
From Verif Require Import P_Base P_Codec P_Cells P_Special P_Payload P_File P_Null P_Text P_Domain P_Round P_Values P_Api P_Equal.
From Verif Require Import C_Samples C_Event.
Import ListNotations.
Local Open Scope string_scope.
Open Scope Z_scope.

(* Two events are equal if they have the same id and hold the same value: the same numbers, bytes
   and texts, member by member, where members that start with an underscore do not count.  [!=] is
   the opposite.  Anything that is no event raises TypeError. *)
Theorem C82_equal : forall a b,
  (event_eq a (Some b) = Ok true <-> e_id a = e_id b /\ same (e_val a) (e_val b)) /\
  (exists r, event_eq a (Some b) = Ok r /\ event_ne a (Some b) = Ok (negb r)) /\
  event_eq a None = Err TypeError /\ event_ne a None = Err TypeError.
Proof.
  intros a b. cbn [event_eq event_ne]. split; [|split; [|split; reflexivity]].
  - rewrite <- eq_same, <- Z.eqb_eq, <- andb_true_iff. split; [intros H; now injection H as ->|now intros ->].
  - eexists. split; [reflexivity|]. now rewrite negb_andb.
Qed.
Print Assumptions C82_equal.

Lemma made_proper en e : made en e -> proper (e_val e).
Proof. intros ((b & B & M) & _). destruct (mk_event_inv _ _ _ _ _ M) as (v & r & P & -> & _). exact (g_kind _ _ _ _ _ P). Qed.

(* Among events of any files that load, an event and the one read from the same bytes again are
   equal unless NaN is among what is compared; == is symmetric and transitive. *)
Theorem C82_laws : forall en f p g q i j k l, is_bytes f -> is_bytes g -> parse en f = Ok p -> parse en g = Ok q ->
  In i (pr_events p) -> In j (pr_events q) -> In k (pr_events p) -> In l (pr_events q) ->
  (event_eq i (Some i) = Ok true <-> comparable (e_val i)) /\
  (event_eq i (Some j) = event_eq j (Some i)) /\
  (event_eq i (Some j) = Ok true -> event_eq j (Some k) = Ok true -> event_eq i (Some k) = Ok true) /\
  (event_eq i (Some j) = Ok true -> event_eq j (Some l) = Ok true -> event_eq i (Some l) = Ok true).
Proof.
  intros en f p g q i j k l B B' P P' I J K L.
  pose proof (proj1 (parse_made _ _ _ B P)) as F. pose proof (proj1 (parse_made _ _ _ B' P')) as G. rewrite Forall_forall in F, G.
  pose proof (made_proper _ _ (F _ I)) as PI. pose proof (made_proper _ _ (G _ J)) as PJ.
  assert (TR : forall x, event_eq i (Some j) = Ok true -> event_eq j (Some x) = Ok true -> event_eq i (Some x) = Ok true).
  { intros x X Y. apply C82_equal in X. apply C82_equal in Y. apply C82_equal. split; [destruct X, Y; congruence|]. exact (same_trans _ _ _ PI (proj2 X) (proj2 Y)). }
  split; [|split; [|split; [exact (TR k)|exact (TR l)]]].
  - rewrite (proj1 (C82_equal i i)), (same_refl _ PI). tauto.
  - assert (X : event_eq i (Some j) = Ok true <-> event_eq j (Some i) = Ok true).
    { rewrite (proj1 (C82_equal i j)), (proj1 (C82_equal j i)). split; intros [A S]; (split; [congruence|]); now apply same_sym. }
    destruct (proj1 (proj2 (C82_equal i j))) as (r & R & _). destruct (proj1 (proj2 (C82_equal j i))) as (s & S & _). rewrite R, S in *.
    destruct r, s; try reflexivity; destruct X as [X Y]; [discriminate (X eq_refl)|discriminate (Y eq_refl)].
Qed.
Print Assumptions C82_laws.

(* the classes of single values, but floats *)
Definition single (k : kind) : bool := scalar_kind k && match k with KF32 => false | _ => true end.

Lemma rstrip_enc (dec : bytes -> option pystr) (enc : pystr -> option bytes) s b :
  (forall x y, enc (x ++ y)%list = match enc x, enc y with Some p, Some q => Some (p ++ q)%list | _, _ => None end) -> enc s = Some b -> exists c, enc (rstrip0 s) = Some c.
Proof. intros A E. destruct (rstrip0_spec s) as [n N]. rewrite N, A in E. destruct (enc (rstrip0 s)); [eauto|discriminate]. Qed.
Lemma made_domain en k id b e : is_bytes b -> single k = true -> mk_event en k id b = Ok e -> domain k (e_val e).
Proof.
  intros B S M. destruct (mk_event_inv _ _ _ _ _ M) as (v & r & P & -> & _). cbn [e_val]. destruct k; try discriminate S; cbn [kcon domain] in *.
  - cbn [Flag cparse] in P. inv_bind P. destruct x as [d r']. injection P as <- <-. eauto.
  - refine (proj1 (reads_sint 1 128 _ _) _ _ _ _ B P); [lia|reflexivity].
  - refine (proj1 (reads_uint 1 256 _) _ _ _ _ B P). reflexivity.
  - refine (proj1 (reads_sint 2 32768 _ _) _ _ _ _ B P); [lia|reflexivity].
  - refine (proj1 (reads_uint 2 65536 _) _ _ _ _ B P). reflexivity.
  - refine (proj1 (reads_sint 4 2147483648 _ _) _ _ _ _ B P); [lia|reflexivity].
  - refine (proj1 (reads_uint 4 4294967296 _) _ _ _ _ B P). reflexivity.
  - unfold U16Tuple in P. cbn [Adapter cparse] in P. inv_bind P. destruct x as [x r'].
    destruct (plain_inv _ _ _ _ _ _ _ (plain_array2 _ _ _ (plain_uint 2)) B E) as (d & _ & Hl & Hd & ->).
    cbn [bind] in P. injection P as <- <-. exists (le_dec (firstn 2 d)), (le_dec (skipn 2 d)). split; [reflexivity|].
    pose proof (le_dec_bound (firstn 2 d) (is_bytes_firstn 2 d Hd)) as B1. pose proof (le_dec_bound (skipn 2 d) (is_bytes_skipn 2 d Hd)) as B2.
    rewrite firstn_length_le in B1 by lia. rewrite skipn_length, Hl in B2.
    change (256 ^ Z.of_nat (4 - 2)) with 65536 in B2. change (256 ^ Z.of_nat 2) with 65536 in B1. split; assumption.
  - unfold Color in P. cbn [Adapter cparse] in P. inv_bind P. destruct x as [x r'].
    destruct (plain_inv _ _ _ _ _ _ _ (plain_bytes 4) B E) as (d & _ & Hl & Hd & ->). rewrite Hl in P. cbn [Nat.eqb bind] in P.
    injection P as <- <-. destruct d as [|x [|y [|z [|w [|]]]]]; try discriminate Hl. exists x, y, z, w. split; [reflexivity|exact Hd].
  - cbn [AsciiText text_con Adapter GreedyString GreedyBytes cparse bind] in P. destruct (ascii_dec b) as [s|] eqn:E; [|discriminate]. cbn [bind] in P. injection P as <- <-.
    exists (rstrip0 s). split; [reflexivity|]. split; [intros t; apply rstrip0_no_trail|]. apply ascii_enc_iff. exact (rstrip_enc ascii_dec ascii_enc s b ascii_enc_app (ascii_dec_enc _ _ B E)).
  - cbn [UnicodeText text_con Adapter GreedyString GreedyBytes cparse bind] in P. destruct (utf16_dec b) as [s|] eqn:E; [|discriminate]. cbn [bind] in P. injection P as <- <-.
    exists (rstrip0 s). split; [reflexivity|]. split; [intros t; apply rstrip0_no_trail|]. apply utf16_enc_iff. exact (rstrip_enc utf16_dec utf16_enc s b utf16_enc_app (utf16_dec_enc _ _ B E)).
  - cbn [GreedyBytes cparse] in P. injection P as <- <-. eauto.
Qed.

Lemma one_pos : 0 < one.
Proof. reflexivity. Qed.
Lemma int_same a b : same (VInt a) (VInt b) -> a = b.
Proof.
  intros S. inversion S as [|? ? u A B| | | | | |]; subst. inversion A as [z E1 E2| | | |]. inversion B as [z' E3 E4| | | |]. subst. pose proof one_pos as O. set (o := one) in *. clearbody o. symmetry. apply Z.mul_reg_r with o; [lia|assumption].
Qed.
Lemma amount_units x : 0 <= x < 2 ^ 64 -> amount x = units x.
Proof.
  intros H. unfold amount, units. cbv zeta. destruct (Z.leb_spec (2 ^ 63) x) as [L|L].
  - replace (x / 2 ^ 63) with 1; [reflexivity|]. change (2 ^ 64) with (2 * 2 ^ 63) in H. set (P := 2 ^ 63) in *. assert (0 < P) by reflexivity. clearbody P.
    apply Z.div_unique with (r := x - P); lia.
  - rewrite (Z.div_small x (2 ^ 63)) by (split; [apply H|exact L]). reflexivity.
Qed.
Lemma channel_same a b : 0 <= a < 256 -> 0 <= b < 256 -> same (VFlt (int_div a 255)) (VFlt (int_div b 255)) -> a = b.
Proof.
  intros A B S. destruct (channel_value a A) as [[[FA EA] WA] _]. destruct (channel_value b B) as [[[FB EB] WB] _].
  inversion S as [|? ? u X Y|? ? [X _] _ _| | | | |]; subst; [|lia]. inversion X as [| | | |x XF E1 E2]. inversion Y as [| | | |y YF E3 E4]. subst. rewrite (amount_units _ FA), (amount_units _ FB) in E4.
  rewrite E4 in WB. set (U := units (int_div a 255)) in *. clearbody U. pose proof one_pos as O. set (o := one) in *. clearbody o. change (2 ^ 53) with 9007199254740992 in *. clear - A B O WA WB.
  assert (X : forall x y, x < y -> Z.abs (U * 255 - x * o) * 9007199254740992 <= 1 * o * 255 -> Z.abs (U * 255 - y * o) * 9007199254740992 <= 1 * o * 255 -> False).
  { intros x y L P Q. assert (D : o <= y * o - x * o) by nia. set (m := x * o) in *. set (n := y * o) in *. clearbody m n. lia. }
  destruct (Z.lt_trichotomy a b) as [L|[L|L]]; [exfalso; exact (X _ _ L WA WB)|exact L|exfalso; exact (X _ _ L WB WA)].
Qed.
(* equal values of the same class are identical *)
Lemma single_same k v w : single k = true -> domain k v -> domain k w -> same v w -> v = w.
Proof.
  intros S A B E. destruct k; try discriminate S; cbn [domain] in A, B.
  - destruct A as (a & ->), B as (b & ->). inversion E as [|? ? u X Y| | | | | |]; subst. inversion X; inversion Y; subst; try reflexivity; exfalso; pose proof one_pos; lia.
  - destruct A as (a & -> & _), B as (b & -> & _). now rewrite (int_same _ _ E).
  - destruct A as (a & -> & _), B as (b & -> & _). now rewrite (int_same _ _ E).
  - destruct A as (a & -> & _), B as (b & -> & _). now rewrite (int_same _ _ E).
  - destruct A as (a & -> & _), B as (b & -> & _). now rewrite (int_same _ _ E).
  - destruct A as (a & -> & _), B as (b & -> & _). now rewrite (int_same _ _ E).
  - destruct A as (a & -> & _), B as (b & -> & _). now rewrite (int_same _ _ E).
  - destruct A as (a & b & -> & _), B as (c & d & -> & _). inversion E as [|? ? u X Y| | | | |? ? F|]; subst; [inversion X|]. inversion F as [|? ? ? ? E1 F1]; subst. inversion F1 as [|? ? ? ? E2 F2]; subst.
    now rewrite (int_same _ _ E1), (int_same _ _ E2).
  - destruct A as (a & b & c & d & -> & A), B as (a' & b' & c' & d' & -> & B). cbn [map] in *. inversion E as [|? ? u X Y| | | | |? ? F|]; subst; [inversion X|].
    inversion F as [|? ? ? ? E1 F1]; subst. inversion F1 as [|? ? ? ? E2 F2]; subst. inversion F2 as [|? ? ? ? E3 F3]; subst. inversion F3 as [|? ? ? ? E4 F4]; subst.
    apply is_bytes_cons in A as [A1 A]. apply is_bytes_cons in A as [A2 A]. apply is_bytes_cons in A as [A3 A]. apply is_bytes_cons in A as [A4 _].
    apply is_bytes_cons in B as [B1 B]. apply is_bytes_cons in B as [B2 B]. apply is_bytes_cons in B as [B3 B]. apply is_bytes_cons in B as [B4 _].
    now rewrite (channel_same _ _ A1 B1 E1), (channel_same _ _ A2 B2 E2), (channel_same _ _ A3 B3 E3), (channel_same _ _ A4 B4 E4).
  - destruct A as (a & -> & _), B as (b & -> & _). inversion E as [|? ? u X Y| | | | | |]; subst; [inversion X|reflexivity].
  - destruct A as (a & -> & _), B as (b & -> & _). inversion E as [|? ? u X Y| | | | | |]; subst; [inversion X|reflexivity].
  - destruct A as (a & -> & _), B as (b & -> & _). inversion E as [|? ? u X Y| | | | | |]; subst; [inversion X|reflexivity].
Qed.
(* what is written determines the value *)
Lemma single_payload en k id v : single k = true -> 0 <= id < 256 -> allowed_id k id = true -> domain k v ->
  exists p, (forall L w, payload en (Event id k L w v) = Ok p) /\ (k = KUnknown -> v = VBytes p) /\ (k <> KUnknown -> exists e, mk_event en k id p = Ok e /\ e_val e = v).
Proof.
  intros S I A D. assert (SK : scalar_kind k = true) by (unfold single in S; now apply andb_prop in S as [S _]).
  assert (U : k = KUnknown \/ k <> KUnknown) by (destruct k; first [left; reflexivity|right; discriminate]). destruct U as [->|U].
  - destruct D as (b & -> & _). exists b. split; [reflexivity|]. split; [reflexivity|]. intros X; congruence.
  - destruct (proj2 (domain_exact en k id v SK I A ltac:(intros X; congruence)) D) as (L & w & p & e & P & _ & M & V). exists p. split; [|split; [congruence|eauto]].
    intros L' w'. rewrite <- P. now apply scalar_payload.
Qed.
Lemma loaded_id en f p e : is_bytes f -> parse en f = Ok p -> In e (pr_events p) -> 0 <= e_id e < 256.
Proof.
  intros Hb HP HI. destruct (parse_ok _ _ _ Hb HP) as (fmt & ch & q & body & es & Ef & HG & HB & HL & ->).
  cbn [pr_events] in HI. destruct (loop_any _ _ _ _ _ _ st_ok_init HB HL) as (cs & HF & HR).
  assert (HC : Forall (fun c => 0 <= fst c < 256) cs).
  { clear - HF. assert (X : forall cs0 bs, framed false cs0 bs -> Forall (fun c => 0 <= fst c < 256) cs0).
    { induction 1 as [|c cs2 b2 bs Hc HF2 IH]; constructor; [apply (chunk_id _ _ _ Hc)|exact IH]. }
    destruct HF as [cs1 bs HF|cs1 bs c b1 HF Hc]; [eauto|]. apply Forall_app. split; [eauto|].
    constructor; [|constructor]. destruct Hc. cbn [fst]. lia. }
  pose proof (reads_fixed _ _ _ _ HR HC) as HA. rewrite Forall_forall in HA. apply (HA e HI).
Qed.
Lemma prefix_same a b : (varint_enc (zlen a) ++ a = varint_enc (zlen b) ++ b)%list -> a = b.
Proof.
  intros E. apply (f_equal varint_dec) in E. rewrite !varint_dec_enc in E by apply zlen_nonneg. now injection E.
Qed.
Lemma single_comparable k v : single k = true -> domain k v -> comparable v.
Proof.
  intros S D. destruct k; try discriminate S; cbn [domain] in D.
  - destruct D as (a & ->). constructor.
  - destruct D as (a & -> & _). constructor.
  - destruct D as (a & -> & _). constructor.
  - destruct D as (a & -> & _). constructor.
  - destruct D as (a & -> & _). constructor.
  - destruct D as (a & -> & _). constructor.
  - destruct D as (a & -> & _). constructor.
  - destruct D as (a & b & -> & _). repeat constructor.
  - destruct D as (r & g & b & a & -> & D). constructor. apply Forall_forall. intros x I. apply in_map_iff in I as (c & <- & I). constructor. intros [N _].
    unfold is_bytes in D. rewrite Forall_forall in D. destruct (channel_value c) as [[[_ F] _] _]; [exact (D _ I)|]. lia.
  - destruct D as (a & -> & _). constructor.
  - destruct D as (a & -> & _). constructor.
  - destruct D as (a & -> & _). constructor.
Qed.

(* Events of single values (numbers, pairs, colours, texts, unknown data) of files that load, and
   of the same class, are equal if and only if they are saved as the same bytes. *)
Theorem C82_single : forall en f p g q a b, is_bytes f -> is_bytes g -> parse en f = Ok p -> parse en g = Ok q -> In a (pr_events p) -> In b (pr_events q) ->
  single (e_kind a) = true -> e_kind a = e_kind b ->
  (event_eq a (Some b) = Ok true <-> event_bytes en a = event_bytes en b) /\ exists x, event_bytes en a = Ok x.
Proof.
  intros en f p g q a b B B' P P' IA IB S K.
  pose proof (proj1 (parse_made _ _ _ B P)) as F. pose proof (proj1 (parse_made _ _ _ B' P')) as G. rewrite Forall_forall in F, G.
  destruct (F _ IA) as ((x & X & MA) & _). destruct (G _ IB) as ((y & Y & MB) & _). pose proof (loaded_id _ _ _ _ B P IA) as RA. pose proof (loaded_id _ _ _ _ B' P' IB) as RB.
  pose proof (made_domain _ _ _ _ _ X S MA) as DA. rewrite <- K in MB. pose proof (made_domain _ _ _ _ _ Y S MB) as DB.
  assert (AA : allowed_id (e_kind a) (e_id a) = true) by (destruct (mk_event_inv _ _ _ _ _ MA) as (v & r & _ & _ & H & _); exact H).
  assert (AB : allowed_id (e_kind a) (e_id b) = true) by (destruct (mk_event_inv _ _ _ _ _ MB) as (v & r & _ & _ & H & _); exact H).
  destruct (single_payload en _ _ _ S RA AA DA) as (pa & PA & UA & NA). destruct (single_payload en _ _ _ S RB AB DB) as (pb & PB & UB & NB).
  assert (QA : payload en a = Ok pa) by (rewrite <- (PA (e_len a) (e_new a)); destruct a; reflexivity).
  assert (QB : payload en b = Ok pb) by (rewrite <- (PB (e_len b) (e_new b)), K; destruct b; reflexivity).
  rewrite (event_bytes_eq en a RA), (event_bytes_eq en b RB), QA, QB. cbn [bind]. split; [|eauto]. rewrite (proj1 (C82_equal a b)). split.
  - intros [I E]. pose proof (single_same _ _ _ S DA DB E) as EV. assert (pa = pb).
    { specialize (PA 0 false). specialize (PB 0 false). rewrite I, EV in PA. congruence. }
    subst. now rewrite I.
  - intros E. injection E as E. assert (I : e_id a = e_id b) by (destruct (e_id a <? 192), (e_id b <? 192); now injection E). split; [exact I|]. rewrite I in E.
    assert (EP : pa = pb).
    { destruct (e_id b <? 192); injection E as E; [exact E|]. now apply prefix_same. }
    subst pb. assert (EV : e_val a = e_val b).
    { assert (U : e_kind a = KUnknown \/ e_kind a <> KUnknown) by (destruct (e_kind a); first [left; reflexivity|right; discriminate]). destruct U as [U|U].
      - now rewrite (UA U), (UB U).
      - destruct (NA U) as (ea & M1 & <-), (NB U) as (eb & M2 & <-). rewrite I in M1. congruence. }
    rewrite EV. apply same_refl; [rewrite <- EV; exact (made_proper _ _ (F _ IA))|]. exact (single_comparable _ _ S DB).
Qed.
Print Assumptions C82_single.

(* Records that are equal read the same in every member whose name has no underscore in front. *)
Theorem C82_members : forall a b d d', e_val a = VDict d -> e_val b = VDict d' -> event_eq a (Some b) = Ok true ->
  forall n, public n -> match dget d n, dget d' n with Some x, Some y => same x y | None, None => True | _, _ => False end.
Proof.
  intros a b d d' A B E n PU. apply C82_equal in E as [_ E]. rewrite A, B in E. inversion E as [|? ? u X Y| | | | | |? ? F G]; subst; [inversion X|].
  destruct (dget d n) as [x|] eqn:DX.
  - destruct (F n x (dget_member _ _ _ DX) PU) as (y & -> & S). exact S.
  - destruct (dget d' n) as [y|] eqn:DY; [|exact I]. destruct (G n y (dget_member _ _ _ DY) PU) as (x & X). congruence.
Qed.
Print Assumptions C82_members.

(* That what is saved differs does not follow from != : events that differ in members with an
   underscore only are equal; and an event with NaN differs from what the same bytes read as. *)
Definition hid_cs (x : Z) : list chunk := [(199, ver20); (64, [1; 0]); (212, x :: repeat 0 51)%list].
Definition nan_cs : list chunk := [(199, ver20); (237, [0; 0; 0; 0; 0; 0; 248; 127; 0; 0; 0; 0; 0; 0; 0; 0])].
Definition nth_ev (k : nat) (f : bytes) : event := nth k (pr_events (load f)) (Event 0 KUnknown 0 false VNone).
Theorem C82_bytes_refuted :
  (exists en f p g q a b x y, is_bytes f /\ is_bytes g /\ parse en f = Ok p /\ parse en g = Ok q /\ In a (pr_events p) /\ In b (pr_events q) /\
     event_eq a (Some b) = Ok true /\ event_bytes en a = Ok x /\ event_bytes en b = Ok y /\ x <> y) /\
  (exists en f p e, is_bytes f /\ parse en f = Ok p /\ In e (pr_events p) /\ event_eq e (Some e) = Ok false).
Proof.
  split.
  - exists en0, (sample (hid_cs 1)), (load (sample (hid_cs 1))), (sample (hid_cs 2)), (load (sample (hid_cs 2))), (nth_ev 2 (sample (hid_cs 1))), (nth_ev 2 (sample (hid_cs 2))).
    eexists. eexists. split; [apply bytes_check; vm_compute; reflexivity|]. split; [apply bytes_check; vm_compute; reflexivity|]. split; [vm_compute; reflexivity|]. split; [vm_compute; reflexivity|].
    split; [apply nth_In; apply Nat.ltb_lt; vm_compute; reflexivity|]. split; [apply nth_In; apply Nat.ltb_lt; vm_compute; reflexivity|].
    split; [vm_compute; reflexivity|]. split; [vm_compute; reflexivity|]. split; [vm_compute; reflexivity|]. discriminate.
  - exists en0, (sample nan_cs), (load (sample nan_cs)), (nth_ev 1 (sample nan_cs)). split; [apply bytes_check; vm_compute; reflexivity|]. split; [vm_compute; reflexivity|].
    split; [apply nth_In; apply Nat.ltb_lt; vm_compute; reflexivity|]. vm_compute. reflexivity.
Qed.
Print Assumptions C82_bytes_refuted.

(* two files with equal and different events *)
Definition eq_cs (t : bytes) (c : Z) : list chunk := [(199, ver20); (194, t); (64, [1; 0]); (128, [c; 20; 30; 40]); (212, repeat c 52)].
Definition eq_f : bytes := sample (eq_cs title16 10).
Definition eq_g : bytes := sample (eq_cs (title16 ++ [0; 0])%list 11).
Example C82_case : is_bytes eq_f /\ is_bytes eq_g /\ parse en0 eq_f = Ok (load eq_f) /\ parse en0 eq_g = Ok (load eq_g) /\
  map e_kind (pr_events (load eq_f)) = [KAscii; KUnicode; KU16; KColor; KWrapper] /\ forallb single (map e_kind (firstn 4 (pr_events (load eq_f)))) = true /\
  map (fun k => event_eq (nth_ev k eq_f) (Some (nth_ev k eq_g))) [0; 1; 2; 3; 4]%nat = [Ok true; Ok true; Ok true; Ok false; Ok false] /\
  comparable (e_val (nth_ev 4 eq_f)) /\ event_eq (nth_ev 4 eq_f) (Some (nth_ev 4 eq_f)) = Ok true /\
  event_eq (nth_ev 2 eq_f) (Some (nth_ev 0 eq_f)) = Ok false /\ public "width" /\ ~ public "_u1".
Proof.
  split; [apply bytes_check; vm_compute; reflexivity|]. split; [apply bytes_check; vm_compute; reflexivity|]. split; [vm_compute; reflexivity|]. split; [vm_compute; reflexivity|].
  split; [vm_compute; reflexivity|]. split; [vm_compute; reflexivity|]. split; [vm_compute; reflexivity|].
  split; [vm_compute; constructor; intros n x I _; cbn [In] in I; repeat (destruct I as [I|I]; [injection I as <- <-; constructor|]); destruct I|].
  split; [vm_compute; reflexivity|]. split; [vm_compute; reflexivity|]. split; [intros s; discriminate|]. intros H. exact (H _ eq_refl).
Qed.
