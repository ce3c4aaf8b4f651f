(* VST plugin data: what they mean, and assigned values saved and loaded again. *)
From Coq Require Import String ZArith List Bool Lia Arith.
From Verif Require Import M_Base M_Float M_Text M_Construct M_Structs M_Events M_Parse M_Tree M_Prop M_Project M_Items.
From Verif Require Import S_Canon S_File S_Domain S_Tree S_Prop S_Project S_Items S_Layout S_Vst.
From Verif Require Import P_Base P_Codec P_Text P_RT P_Cells P_Special P_Payload P_File P_Null P_Save P_Domain.
From Verif Require Import P_TreeBase P_Tree P_TreeEdit P_Prop P_Edit P_Rewrite P_Layout P_Items.
Import ListNotations.
Open Scope Z_scope.

(* ------------------------------------------------------------------ the inner data *)

(* a construct that reads n bytes, whatever the context *)
Definition takes (c : con) (n : nat) (f : bytes -> val) : Prop :=
  forall cx bs, is_bytes bs -> if (n <=? length bs)%nat then cparse c cx bs = Ok (f (firstn n bs), skipn n bs) else ok_err (cparse c cx bs).
Lemma tk_sint n : takes (c_sint n) n signed.
Proof.
  intros cx bs _. cbn [c_sint cparse]. unfold take. destruct (Nat.leb_spec n (length bs)); cbn [bind].
  - unfold signed. rewrite s_le_spec with (n := n) by now apply firstn_length_le. reflexivity.
  - eexists. split; [reflexivity|discriminate].
Qed.
Lemma tk_uint n : takes (c_uint n) n unsigned.
Proof.
  intros cx bs _. cbn [c_uint cparse]. unfold take. destruct (Nat.leb_spec n (length bs)); cbn [bind].
  - unfold unsigned. now rewrite (u_le_dec (firstn n bs)).
  - eexists. split; [reflexivity|discriminate].
Qed.
Lemma tk_bytes n : takes (Bytes n) n VBytes.
Proof.
  intros cx bs _. cbn [Bytes cparse]. unfold take. destruct (Nat.leb_spec n (length bs)); cbn [bind]; [reflexivity|].
  eexists. split; [reflexivity|discriminate].
Qed.
Lemma tk_flag : takes Flag 1 truth.
Proof.
  intros cx bs _. cbn [Flag cparse]. unfold take. destruct (Nat.leb_spec 1 (length bs)); cbn [bind].
  - unfold truth. now rewrite (u_le_dec (firstn 1 bs)).
  - eexists. split; [reflexivity|discriminate].
Qed.
Lemma tk_flags m n : takes (StdFlag m (c_uint n)) n flag_set.
Proof.
  intros cx bs B. cbn [StdFlag Adapter cparse c_uint]. unfold take. destruct (Nat.leb_spec n (length bs)); cbn [bind as_int].
  - unfold flag_set. rewrite (u_le_dec (firstn n bs)), intflag_norm_nonneg; [reflexivity|]. apply le_dec_bound. now apply is_bytes_firstn.
  - eexists. split; [reflexivity|discriminate].
Qed.

Lemma opt_step n c k f r cx acc bs : takes c k f -> is_bytes bs ->
  struct_parse ((n, Optional c) :: r) cx acc bs =
  if (k <=? length bs)%nat then struct_parse r cx (M_Construct.put acc n (f (firstn k bs))) (skipn k bs) else struct_parse r cx (M_Construct.put acc n VNone) bs.
Proof.
  intros T B. cbn [struct_parse Optional cparse]. specialize (T (cx_with_fields cx acc) bs B).
  destruct (k <=? length bs)%nat; [now rewrite T|]. destruct T as (e & -> & _). reflexivity.
Qed.
Inductive opt_struct : list (string * con) -> list (string * nat * (bytes -> val)) -> Prop :=
| os_nil : opt_struct [("_extra"%string, GreedyBytes)] []
| os_cons n c k f r ts : takes c k f -> opt_struct r ts -> opt_struct ((n, Optional c) :: r) ((n, k, f) :: ts).
Lemma opt_parse fs ts : opt_struct fs ts -> NoDup (map fst fs) -> ~ In ""%string (map fst fs) ->
  forall cx acc bs, is_bytes bs -> (forall n, In n (map fst acc) -> ~ In n (map fst fs)) ->
  struct_parse fs cx acc bs = Ok (acc ++ opt_fields ts bs, []).
Proof.
  assert (PUT : forall acc n v (fs : list (string * con)), n <> ""%string -> (forall m, In m (map fst acc) -> ~ In m (n :: map fst fs)) -> M_Construct.put acc n v = acc ++ [(n, v)]).
  { intros acc n v fs0 N HA. unfold M_Construct.put. destruct (String.eqb_spec n ""); [congruence|]. apply dset_new.
    intros X. apply (HA n X). left. reflexivity. }
  induction 1 as [|n c k f r ts T O IH]; intros ND NE cx acc bs B HA.
  - cbn [struct_parse GreedyBytes cparse]. rewrite (PUT acc "_extra"%string (VBytes bs) [] ltac:(discriminate) HA). reflexivity.
  - cbn [map fst] in *. inversion ND as [|? ? N1 N2]; subst. rewrite (opt_step _ _ _ _ _ _ _ _ T B).
    assert (NN : n <> ""%string) by (intros E; apply NE; left; exact E).
    assert (NE' : ~ In ""%string (map fst r)) by (intros X; apply NE; now right).
    rewrite !(PUT acc n _ r NN HA). cbn [opt_fields].
    assert (HA' : forall v m, In m (map fst (acc ++ [(n, v)])) -> ~ In m (map fst r)).
    { intros v m I. rewrite map_app, in_app_iff in I. destruct I as [I|[<-|[]]]; [|exact N1]. intros X. apply (HA m I). now right. }
    destruct (k <=? length bs)%nat; (rewrite IH; [rewrite <- app_assoc; reflexivity|auto|auto|auto using is_bytes_skipn|apply HA']).
Qed.
Lemma opt_cparse fs ts cx bs : opt_struct fs ts -> P_Kinds.names_ok fs = true -> is_bytes bs ->
  cparse (Struct fs) cx bs = Ok (VDict (opt_fields ts bs), []).
Proof.
  intros O N B. destruct (P_Kinds.names_ok_spec _ N) as [N1 N2]. cbn [Struct cparse].
  rewrite (opt_parse fs ts O N1 N2 cx [] bs B); [reflexivity|intros n []].
Qed.
Lemma midi_struct : exists fs, vst_midi = Struct fs /\ opt_struct fs midi_fields /\ P_Kinds.names_ok fs = true.
Proof. eexists. split; [reflexivity|]. split; [|reflexivity]. repeat (apply os_cons; [apply tk_sint || apply tk_uint|]). apply os_nil. Qed.
Lemma flags_struct : exists fs, vst_flags = Struct fs /\ opt_struct fs flag_fields /\ P_Kinds.names_ok fs = true.
Proof.
  eexists. split; [reflexivity|]. split; [|reflexivity].
  repeat (apply os_cons; [first [apply tk_bytes | apply tk_flags | apply tk_flag]|]). apply os_nil.
Qed.

Lemma sub_parse id p x : is_bytes p -> sub_means id p x -> forall cx, exists r, cparse (inner_con id) cx p = Ok (x, r).
Proof.
  intros B M cx. destruct M as [E1|E2|s T D|R]; [subst id|subst id| |].
  - destruct midi_struct as (fs & E & O & N). change (inner_con 1) with vst_midi. rewrite E, (opt_cparse _ _ _ _ O N B). eauto.
  - destruct flags_struct as (fs & E & O & N). change (inner_con 2) with vst_flags. rewrite E, (opt_cparse _ _ _ _ O N B). eauto.
  - assert (E : inner_con id = GreedyString utf8_dec utf8_enc) by (destruct T as [<-|[<-|[<-|[<-|[]]]]]; reflexivity).
    rewrite E. cbn [GreedyString Adapter cparse GreedyBytes bind]. rewrite D. cbn [bind]. eauto.
  - destruct (id_cases id) as [-> | -> |E N1 N2 _ |E N1 N2 ->].
    + exfalso. apply R. now left.
    + exfalso. apply R. right. now left.
    + exfalso. apply R. rewrite !orb_true_iff, !Z.eqb_eq in E. cbn [In]. destruct E as [[[->| ->]| ->]| ->]; tauto.
    + cbn [GreedyBytes cparse]. eauto.
Qed.
Lemma data_means id p : is_bytes p -> vst_data id p = true -> exists x, sub_means id p x /\ forall cx, cbuild (inner_con id) cx x = Ok p.
Proof.
  intros B V. assert (X : exists x, sub_means id p x).
  { unfold vst_data in V. destruct (Z.eqb_spec id 1) as [E|N1]; [eexists; now apply sm_midi|].
    destruct (Z.eqb_spec id 2) as [E|N2]; [eexists; now apply sm_flags|].
    destruct ((id =? 51) || (id =? 54) || (id =? 55) || (id =? 56)) eqn:T.
    - destruct (utf8_dec p) as [s|] eqn:D; [|discriminate]. exists (VStr s). apply sm_text; [|exact D].
      rewrite !orb_true_iff, !Z.eqb_eq in T. unfold text_sub. cbn [In]. destruct T as [[[->| ->]| ->]| ->]; tauto.
    - exists (VBytes p). apply sm_raw. rewrite !orb_false_iff, !Z.eqb_neq in T. unfold raw_sub. cbn [In]. intuition congruence. }
  destruct X as (x & M). exists x. split; [exact M|]. intros cx.
  pose proof (inner_rt id cx p B) as R. destruct (sub_parse id p x B M cx) as (r & E). rewrite E in R.
  destruct (R cx) as (o & -> & O). f_equal. now apply O.
Qed.

(* ------------------------------------------------------------------ one sub-event *)

Lemma sub_event_parse id p x : 0 <= id < 2 ^ 32 -> is_bytes p -> zlen p < 2 ^ 64 -> sub_means id p x -> forall cx rest, is_bytes rest ->
  cparse vst_event cx (sub_bytes id p ++ rest) = Ok (sub_dict id x, rest).
Proof.
  intros I B Z M cx rest BR. unfold sub_bytes. rewrite !le_spec, <- !app_assoc. unfold vst_event. cbn [Struct cparse struct_parse].
  cbn [StdEnum Adapter cparse]. unfold Int32ul.
  rewrite (proj1 (proj2 (plain_uint 4))) by (try apply le_enc_length; apply le_enc_bytes). cbn [bind as_int].
  rewrite le_dec_enc by lia. cbn [Prefixed cparse]. unfold Int64ul.
  rewrite (proj1 (proj2 (plain_uint 8))) by (try apply le_enc_length; apply le_enc_bytes). cbn [bind as_int].
  pose proof (zlen_nonneg _ p). pose proof (zlen_nonneg _ rest). rewrite le_dec_enc by lia. rewrite zlen_app.
  replace (zlen p + zlen rest <? zlen p) with false by lia.
  replace (Z.to_nat (zlen p)) with (length p) by (unfold zlen; lia). rewrite firstn_app_exact, skipn_app_exact.
  cbn [Switch cparse M_Construct.put String.eqb Ascii.eqb Bool.eqb dset]. erewrite vst_switch_id by reflexivity.
  match goal with |- context [cparse (inner_con id) ?c p] => destruct (sub_parse id p x B M c) as (r & ->) end.
  reflexivity.
Qed.
Lemma sub_event_build id p x : 0 <= id < 2 ^ 32 -> zlen p < 2 ^ 64 -> (forall cx, cbuild (inner_con id) cx x = Ok p) -> forall cx,
  cbuild vst_event cx (sub_dict id x) = Ok (sub_bytes id p).
Proof.
  intros I Z M cx. unfold vst_event, sub_dict. cbn [Struct cbuild]. cbn [struct_build dget String.eqb Ascii.eqb Bool.eqb bind].
  cbn [StdEnum Adapter cbuild bind]. unfold Int32ul. cbn [c_uint cbuild as_int].
  replace ((0 <=? id) && (id <? 256 ^ Z.of_nat 4)) with true by (change (256 ^ Z.of_nat 4) with (2 ^ 32); lia). cbn [bind].
  cbn [Prefixed cbuild Switch]. erewrite vst_switch_id by reflexivity. rewrite M. cbn [bind]. unfold Int64ul. cbn [c_uint cbuild as_int].
  pose proof (zlen_nonneg _ p).
  replace ((0 <=? zlen p) && (zlen p <? 256 ^ Z.of_nat 8)) with true by (change (256 ^ Z.of_nat 8) with (2 ^ 64); lia).
  cbn [bind]. unfold sub_bytes. rewrite !le_spec, app_nil_r. reflexivity.
Qed.
Lemma sub_bytes_ok id p : is_bytes p -> is_bytes (sub_bytes id p).
Proof. intros B. unfold sub_bytes. rewrite !le_spec, !is_bytes_app. repeat split; auto using le_enc_bytes. Qed.
Lemma sub_bytes_length id p : length (sub_bytes id p) = (12 + length p)%nat.
Proof. unfold sub_bytes. rewrite !le_spec, !app_length, !le_enc_length. lia. Qed.

Lemma event_empty cx : exists e, cparse vst_event cx [] = Err e.
Proof. eexists. reflexivity. Qed.

(* ------------------------------------------------------------------ all of them *)

Lemma subs_bytes b l : subs_mean b l -> is_bytes b.
Proof. induction 1; [constructor|]. apply is_bytes_app. split; [now apply sub_bytes_ok|assumption]. Qed.
Lemma subs_parse b l : subs_mean b l -> forall fuel cx i, (length b < fuel)%nat -> greedy_parse fuel vst_event cx i b = Ok (l, []).
Proof.
  induction 1 as [|id p x b l I B Z M S IH]; intros [|fuel] cx i L; try lia; cbn [greedy_parse].
  - destruct (event_empty (cx_with_index cx i)) as (e & ->). reflexivity.
  - rewrite (sub_event_parse id p x I B Z M _ b (subs_bytes _ _ S)). rewrite app_length, sub_bytes_length in L.
    rewrite IH by lia. reflexivity.
Qed.
Lemma vst_parse b ty l cx : vst_means b ty l -> cparse VSTPluginS cx b = Ok (VDict [("type"%string, VInt ty); ("events"%string, VList l)], []).
Proof.
  intros M. inversion M as [ty0 b0 l0 T S]; subst ty0 l0 b. unfold VSTPluginS. cbn [Struct cparse struct_parse]. unfold Int32ul. rewrite le_spec.
  rewrite (proj1 (proj2 (plain_uint 4))) by (try apply le_enc_length; apply le_enc_bytes). rewrite le_dec_enc by lia.
  cbn [GreedyRange cparse]. rewrite (subs_parse _ _ S) by lia. reflexivity.
Qed.
Lemma vst_bytes b ty l : vst_means b ty l -> is_bytes b /\ b <> [].
Proof.
  intros M. inversion M as [ty0 b0 l0 T S]; subst ty0 l0 b. split.
  - rewrite le_spec, is_bytes_app. split; [apply le_enc_bytes|now apply subs_bytes in S].
  - rewrite le_spec. discriminate.
Qed.
Theorem vst_event_means en b ty l id : vst_means b ty l -> allowed_id KVSTPlugin id = true -> 192 <= id ->
  mk_event en KVSTPlugin id b = Ok (Event id KVSTPlugin (zlen b) (new_of b) (VDict [("type"%string, VInt ty); ("events"%string, VList l)])).
Proof.
  intros M A I. unfold mk_event. pose proof (vst_bytes _ _ _ M) as [_ NE].
  destruct b as [|b0 b1] eqn:E; [congruence|]. rewrite <- E in *. cbn [bind]. rewrite A. cbn [negb].
  replace (id <? 192) with false by lia. cbn [negb kcon]. rewrite (vst_parse _ _ _ _ M). reflexivity.
Qed.

(* ... and written the same *)
Inductive subs_kept : bytes -> list val -> Prop :=
| sk_nil : subs_kept [] []
| sk_cons id p x b l : 0 <= id < 2 ^ 32 -> is_bytes p -> zlen p < 2 ^ 64 -> sub_means id p x ->
    (forall cx, cbuild (inner_con id) cx x = Ok p) -> subs_kept b l -> subs_kept (sub_bytes id p ++ b) (sub_dict id x :: l).
Lemma kept_mean b l : subs_kept b l -> subs_mean b l.
Proof. induction 1; constructor; assumption. Qed.
Lemma kept_build b l : subs_kept b l -> forall cx i, items_build vst_event cx i l = Ok b.
Proof.
  induction 1 as [|id p x b l I B Z M C K IH]; intros cx i; [reflexivity|]. cbn [items_build].
  rewrite (sub_event_build id p x I Z C). cbn [bind]. now rewrite IH.
Qed.

(* every canonical payload means something, and is written the same *)
Lemma canonical_subs : forall f b, is_bytes b -> zlen b < 2 ^ 64 -> vst_events f b = true ->
  exists l, subs_kept b l.
Proof.
  induction f as [|f IH]; intros b B ZB V.
  - destruct b; [|discriminate]. exists []. constructor.
  - destruct b as [|b0 b1] eqn:E; [exists []; constructor|]. rewrite <- E in *. clear E b0 b1. cbn [vst_events] in V.
    assert (NB : b <> [] -> exists l, subs_kept b l); [|destruct b; [exists []; constructor|apply NB; discriminate]].
    intros NE. destruct b as [|b0 b1] eqn:E; [congruence|]. rewrite <- E in *. clear E b0 b1.
    rewrite !andb_true_iff in V. destruct V as [[[H12 Hn] Hv] V]. apply Nat.leb_le in H12.
    set (d1 := firstn 4 b) in *. set (d2 := firstn 8 (skipn 4 b)) in *. set (b3 := skipn 12 b) in *.
    assert (EB : b = d1 ++ d2 ++ b3) by (unfold d1, d2, b3; change 12%nat with (8 + 4)%nat; rewrite <- skipn_skipn, !firstn_skipn; reflexivity).
    assert (L1 : length d1 = 4%nat) by (apply firstn_length_le; lia).
    assert (L2 : length d2 = 8%nat) by (apply firstn_length_le; rewrite skipn_length; lia).
    rewrite EB in B, ZB. apply is_bytes_app in B as [B1 B]. apply is_bytes_app in B as [B2 B3]. rewrite !zlen_app in ZB.
    rewrite (u_le_dec d1), (u_le_dec d2) in *. pose proof (le_dec_bound _ B1) as R1. pose proof (le_dec_bound _ B2) as R2. rewrite L1 in R1. rewrite L2 in R2.
    pose proof (zlen_nonneg _ d1). pose proof (zlen_nonneg _ d2).
    set (n := le_dec d2) in *. set (p := firstn (Z.to_nat n) b3) in *. set (b4 := skipn (Z.to_nat n) b3) in *.
    assert (LP : zlen p = n) by (unfold p, zlen in *; rewrite firstn_length_le; lia).
    assert (E3 : b3 = p ++ b4) by (symmetry; apply firstn_skipn).
    destruct (data_means (le_dec d1) p (is_bytes_firstn _ _ B3) Hv) as (x & M & BD).
    destruct (IH b4 (is_bytes_skipn _ _ B3)) as (l & S); [rewrite E3, zlen_app in ZB; pose proof (zlen_nonneg _ p); lia|exact V|].
    assert (ES : b = sub_bytes (le_dec d1) p ++ b4).
    { rewrite EB, E3. unfold sub_bytes. rewrite !le_spec, LP, <- !app_assoc. unfold n. f_equal; [|f_equal].
      - rewrite <- L1. symmetry. now apply le_enc_dec.
      - rewrite <- L2. symmetry. now apply le_enc_dec. }
    exists (sub_dict (le_dec d1) x :: l). rewrite ES.
    constructor; [exact R1|now apply is_bytes_firstn|rewrite LP; exact (proj2 R2)|exact M|exact BD|exact S].
Qed.

(* other data in one sub-event *)
Lemma sub_dict_id id' x s id : sub_dict id' x = VDict s -> has_sub_id id (VDict s) -> id' = id.
Proof.
  unfold sub_dict. intros E (s' & n & E' & G & N). injection E' as <-. injection E as <-. cbn [dget String.eqb Ascii.eqb Bool.eqb] in G.
  injection G as <-. destruct N as [N|[N|(b & N & _)]]; congruence.
Qed.
Lemma kept_replace id p' y s : is_bytes p' -> zlen p' < 2 ^ 64 -> sub_means id p' y -> (forall cx, cbuild (inner_con id) cx y = Ok p') ->
  has_sub_id id (VDict s) ->
  forall b l i, subs_kept b l -> nth_error l i = Some (VDict s) ->
  exists b', subs_kept b' (lset l i (VDict (dset s "data" y))) /\ zlen b' <= zlen b + zlen p'.
Proof.
  intros B' Z' M' C' HS b l i K. revert i. induction K as [|id0 p x b l I B Z M C K IH]; intros [|i] N; try discriminate; cbn [nth_error lset] in *.
  - apply Some_inj in N. pose proof (sub_dict_id _ _ _ _ N HS). subst id0. unfold sub_dict in N. injection N as <-.
    exists (sub_bytes id p' ++ b). split; [now constructor|]. rewrite !zlen_app. unfold zlen at 1 3. rewrite !sub_bytes_length. unfold zlen. lia.
  - destruct (IH i N) as (b' & K' & L). exists (sub_bytes id0 p ++ b'). split; [now constructor|]. rewrite !zlen_app. lia.
Qed.
Lemma kept_broken id y s er : (forall cx, cbuild (inner_con id) cx y = Err er) -> er <> StopFieldError -> has_sub_id id (VDict s) ->
  forall b l i, subs_kept b l -> nth_error l i = Some (VDict s) ->
  forall cx j, items_build vst_event cx j (lset l i (VDict (dset s "data" y))) = Err er.
Proof.
  intros C' NS HS b l i K. revert i. induction K as [|id0 p x b l I B Z M C K IH]; intros [|i] N cx j; try discriminate; cbn [nth_error lset items_build] in *.
  - apply Some_inj in N. pose proof (sub_dict_id _ _ _ _ N HS). subst id0. unfold sub_dict in N. injection N as <-.
    assert (X : cbuild vst_event (cx_with_index cx j) (VDict (dset [("id"%string, VEnum id); ("data"%string, x)] "data" y)) = Err er); [|now rewrite X].
    cbn [dset String.eqb Ascii.eqb Bool.eqb]. unfold vst_event. cbn [Struct cbuild]. cbn [struct_build dget String.eqb Ascii.eqb Bool.eqb bind].
    cbn [StdEnum Adapter cbuild bind]. unfold Int32ul. cbn [c_uint cbuild as_int].
    replace ((0 <=? id) && (id <? 256 ^ Z.of_nat 4)) with true by (change (256 ^ Z.of_nat 4) with (2 ^ 32); lia). cbn [bind].
    cbn [Prefixed cbuild Switch]. erewrite vst_switch_id by reflexivity. rewrite C'. cbn [bind]. destruct er; try reflexivity; congruence.
  - rewrite (sub_event_build id0 p x I Z C). cbn [bind]. now rewrite (IH i N).
Qed.

(* ------------------------------------------------------------------ the event *)

Lemma vst_canonical en id b e : is_bytes b -> zlen b < 2 ^ 64 -> mk_event en KVSTPlugin id b = Ok e -> canonical_payload en KVSTPlugin b = true ->
  exists ty b0 l, 0 <= ty < 2 ^ 32 /\ b = le 4 ty ++ b0 /\ subs_kept b0 l /\ e = Event id KVSTPlugin (zlen b) (new_of b) (VDict [("type"%string, VInt ty); ("events"%string, VList l)]).
Proof.
  intros B ZB HM HC. cbn [canonical_payload] in HC. apply andb_true_iff in HC as [L4 V]. apply Nat.leb_le in L4.
  pose proof (firstn_skipn 4 b) as EB. assert (L1 : length (firstn 4 b) = 4%nat) by now apply firstn_length_le.
  pose proof (is_bytes_firstn 4 b B) as B1. pose proof (le_dec_bound _ B1) as R. rewrite L1 in R.
  destruct (canonical_subs (length b) (skipn 4 b) (is_bytes_skipn _ _ B)) as (l & K); [|exact V|].
  { rewrite <- EB, zlen_app in ZB. pose proof (zlen_nonneg _ (firstn 4 b)). lia. }
  exists (le_dec (firstn 4 b)), (skipn 4 b), l. split; [exact R|].
  assert (E : b = le 4 (le_dec (firstn 4 b)) ++ skipn 4 b).
  { rewrite le_spec. rewrite <- EB at 1. f_equal. rewrite <- L1 at 2. symmetry. now apply le_enc_dec. }
  split; [exact E|]. split; [exact K|].
  assert (M : vst_means b (le_dec (firstn 4 b)) l) by (rewrite E at 1; constructor; [exact R|now apply kept_mean]).
  destruct (mk_event_inv _ _ _ _ _ HM) as (v & r & P & -> & _). cbn [kcon] in P. rewrite (vst_parse _ _ _ _ M) in P. congruence.
Qed.
Lemma vst_payload_of en id len w ty b l : 0 <= ty < 2 ^ 32 -> subs_kept b l ->
  payload en (Event id KVSTPlugin len w (VDict [("type"%string, VInt ty); ("events"%string, VList l)])) = Ok (le 4 ty ++ b).
Proof.
  intros T K. unfold payload. cbn [e_kind e_len e_new e_val kcon]. unfold VSTPluginS. cbn [Struct cbuild]. cbn [struct_build dget String.eqb Ascii.eqb Bool.eqb bind].
  unfold Int32ul. cbn [c_uint cbuild as_int].
  replace ((0 <=? ty) && (ty <? 256 ^ Z.of_nat 4)) with true by (change (256 ^ Z.of_nat 4) with (2 ^ 32); lia). cbn [bind].
  cbn [GreedyRange cbuild seq_of bind]. rewrite (kept_build _ _ K). cbn [bind]. rewrite le_spec, app_nil_r. reflexivity.
Qed.
Lemma vst_payload_broken en id len w ty l er : 0 <= ty < 2 ^ 32 -> er <> StopFieldError -> (forall cx j, items_build vst_event cx j l = Err er) ->
  payload en (Event id KVSTPlugin len w (VDict [("type"%string, VInt ty); ("events"%string, VList l)])) = Err er.
Proof.
  intros T NS K. unfold payload. cbn [e_kind e_len e_new e_val kcon]. unfold VSTPluginS. cbn [Struct cbuild]. cbn [struct_build dget String.eqb Ascii.eqb Bool.eqb bind].
  unfold Int32ul. cbn [c_uint cbuild as_int].
  replace ((0 <=? ty) && (ty <? 256 ^ Z.of_nat 4)) with true by (change (256 ^ Z.of_nat 4) with (2 ^ 32); lia). cbn [bind].
  cbn [GreedyRange cbuild seq_of bind]. rewrite K. cbn [bind]. destruct er; try reflexivity; congruence.
Qed.

(* a project whose VST data got other data in one sub-event *)
Lemma vst_read en f p h t k e d l : is_bytes f -> parse en f = Ok p -> canonical_file en f ->
  views (parsed (pr_events p)) h -> (t < nt h)%nat -> vst_at h t k e d l -> e_kind e = KVSTPlugin ->
  exists r b ty b0, nth_error (refs h t) k = Some r /\ ev_of h r = e /\ nth_error (pr_events p) r = Some e /\ e_id e = 213 /\
    is_bytes b /\ payload en e = Ok b /\ 0 <= ty < 2 ^ 32 /\ b = le 4 ty ++ b0 /\ subs_kept b0 l /\ d = [("type"%string, VInt ty); ("events"%string, VList l)] /\
    mk_event en KVSTPlugin 213 b = Ok e /\ zlen b < zlen f.
Proof.
  intros Hb H HC V L A EK.
  destruct (canonical_encodes en f p Hb H HC) as (cs & HE & HI & _ & _ & _ & _ & (Hz & Hz') & NE).
  destruct (vst_at_ref _ _ _ _ _ _ A) as (r & N & _ & E & _).
  destruct (views_tree _ _ t NE V L) as (W & ND & FF). rewrite Forall_forall in FF. pose proof (FF r (nth_error_In _ _ N)) as FR. rewrite E in FR.
  destruct A as (CH & K & SK & EV & EL).
  assert (ID : e_id e = 213).
  { inversion CH as [i1 ii i2 k0 e0 EQ _ N0 EI J|]; subst. destruct i1 as [|? [|? ?]]; cbn in EQ; try discriminate. congruence. }
  pose proof (canonical_read en f p Hb H HC) as CR. rewrite Forall_forall in CR.
  destruct (CR e (nth_error_In _ _ FR)) as (b & B0 & B1 & B2 & B3). rewrite EK, ID in *.
  assert (ZB : zlen b < zlen f).
  { rewrite Hz. clear - HE FR B2 HI. enough (zlen b <= chunks_size cs) by lia. remember [] as hh eqn:X. clear X. revert r FR.
    induction HE as [|h e0 es q cs e' HP HB HK HV HM HS HE IH]; intros [|r] FR; try discriminate; inversion HI; subst; cbn [nth_error] in FR.
    - injection FR as ->. assert (q = b) by congruence. subst q. change (chunks_size ((e_id e, b) :: cs)) with (chunk_size (e_id e, b) + chunks_size cs).
      assert (0 <= chunks_size cs).
      { clear. unfold chunks_size. induction cs as [|c cs IH]; cbn [map fold_right]; [lia|]. pose proof (chunk_size_pos c). lia. }
      assert (zlen b <= chunk_size (e_id e, b)); [|lia]. unfold chunk_size, prefix_size. cbn [fst snd]. pose proof (Z.log2_nonneg (zlen b)).
      assert (0 <= Z.log2 (zlen b) / 7) by (apply Z.div_pos; lia). destruct (e_id e <? 192) eqn:C192; [|lia].
      destruct (mk_event_inv _ _ _ _ _ HM) as (v' & r' & _ & _ & _ & HW). specialize (HW ltac:(lia)). unfold width.
      destruct (e_id e <? 64); destruct (e_id e <? 128); lia.
    - specialize (IH ltac:(assumption) r FR). change (chunks_size ((e_id e0, q) :: cs)) with (chunk_size (e_id e0, q) + chunks_size cs). pose proof (chunk_size_pos (e_id e0, q)). lia. }
  destruct (vst_canonical en 213 b e B0 ltac:(lia) B1 B3) as (ty & b0 & l0 & T & EB & KP & EE).
  assert (d = [("type"%string, VInt ty); ("events"%string, VList l0)]) by (rewrite EE in EV; cbn [e_val] in EV; congruence).
  subst d. cbn [dget String.eqb Ascii.eqb Bool.eqb] in EL. injection EL as ->.
  exists r, b, ty, b0. repeat (split; [assumption || reflexivity|]). exact ZB.
Qed.

Theorem vst_saved en f p h t k e d l id i s x y p' h' r : is_bytes f -> parse en f = Ok p -> canonical_file en f ->
  views (parsed (pr_events p)) h -> (t < nt h)%nat -> vst_at h t k e d l -> e_kind e = KVSTPlugin -> sub l id i s x ->
  is_bytes p' -> sub_means id p' y -> (forall cx, cbuild (inner_con id) cx y = Ok p') ->
  2 * zlen f + zlen p' + 6 < 2 ^ 32 -> nth_error (refs h t) k = Some r -> only_value h r (with_sub d l i s y) h' ->
  exists f' p2, serialise en (Project (root_events h') (pr_channel_count p) (pr_format p) (pr_ppq p)) = Ok f' /\
    parse en f' = Ok p2 /\ nth_error (pr_events p) r = Some e /\ reloaded (pr_events p) r (with_sub d l i s y) (pr_events p2) /\
    pr_channel_count p2 = pr_channel_count p /\ pr_format p2 = pr_format p /\ pr_ppq p2 = pr_ppq p.
Proof.
  intros Hb H HC V L A EK S B' M' C' SZ NR O.
  destruct (vst_read en f p h t k e d l Hb H HC V L A EK) as (r0 & b & ty & b0 & N & EE & FR & ID & Bb & PB & T & EB & KP & ED & HM & ZB).
  assert (r0 = r) by congruence. subst r0.
  destruct (canonical_encodes en f p Hb H HC) as (cs & _ & _ & _ & _ & _ & _ & (Hz & Hz') & NE).
  pose proof (zlen_nonneg _ f). pose proof (zlen_nonneg _ p').
  destruct S as (S1 & S2 & S3 & S4).
  destruct (kept_replace id p' y s B' ltac:(lia) M' C' S2 b0 l i KP S1) as (b1 & K1 & L1).
  set (v := with_sub d l i s y) in *.
  assert (EV : v = VDict [("type"%string, VInt ty); ("events"%string, VList (lset l i (VDict (dset s "data" y))))]) by (unfold v, with_sub; rewrite ED; reflexivity).
  pose proof (vst_bytes (le 4 ty ++ b1) ty _ ltac:(constructor; [exact T|apply kept_mean; exact K1])) as [BB _].
  destruct (mk_event_inv _ _ _ _ _ HM) as (v0 & r0 & P0 & EE0 & HA & _).
  assert (HM' : mk_event en KVSTPlugin 213 (le 4 ty ++ b1) = Ok (Event 213 KVSTPlugin (zlen (le 4 ty ++ b1)) (new_of (le 4 ty ++ b1)) v)).
  { rewrite EV. apply vst_event_means; [constructor; [exact T|now apply kept_mean]|exact HA|lia]. }
  assert (WV : with_val e v = Event 213 KVSTPlugin (e_len e) (e_new e) v) by (rewrite EE0; reflexivity).
  assert (PW : forall a w, payload en (Event 213 KVSTPlugin a w v) = Ok (le 4 ty ++ b1)) by (intros a w; rewrite EV; now apply vst_payload_of).
  assert (LT : (r < length (pr_events p))%nat) by (apply nth_error_Some; congruence).
  rewrite (only_value_root _ _ _ _ _ NE V LT O), EE.
  destruct (edit_saved en f p r e (with_val e v) (le 4 ty ++ b1) (Event 213 KVSTPlugin (zlen (le 4 ty ++ b1)) (new_of (le 4 ty ++ b1)) v) Hb H HC FR) as (f' & p2 & X1 & X2 & X3 & X4).
  - rewrite ID. unfold steering. lia.
  - reflexivity.
  - reflexivity.
  - rewrite WV. apply PW.
  - exact BB.
  - rewrite EK, ID. exact HM'.
  - apply PW.
  - left. rewrite EB, zlen_app in ZB. rewrite zlen_app. lia.
  - exists f', p2. split; [exact X1|]. split; [exact X2|]. split; [exact FR|]. split; [|exact X4].
    eapply reloaded_lset; [exact FR| | | |exact X3]; cbn [e_id e_kind e_val]; auto.
Qed.

Theorem vst_unsavable en f p h t k e d l id i s x y er h' r : is_bytes f -> parse en f = Ok p -> canonical_file en f ->
  views (parsed (pr_events p)) h -> (t < nt h)%nat -> vst_at h t k e d l -> e_kind e = KVSTPlugin -> sub l id i s x ->
  (forall cx, cbuild (inner_con id) cx y = Err er) -> er <> StopFieldError ->
  nth_error (refs h t) k = Some r -> only_value h r (with_sub d l i s y) h' ->
  exists er', serialise en (Project (root_events h') (pr_channel_count p) (pr_format p) (pr_ppq p)) = Err er'.
Proof.
  intros Hb H HC V L A EK S C' NS NR O.
  destruct (vst_read en f p h t k e d l Hb H HC V L A EK) as (r0 & b & ty & b0 & N & EE & FR & ID & Bb & PB & T & EB & KP & ED & HM & ZB).
  assert (r0 = r) by congruence. subst r0.
  destruct (canonical_encodes en f p Hb H HC) as (cs & HE & HI & _ & _ & _ & _ & _ & NE).
  destruct S as (S1 & S2 & S3 & S4).
  set (v := with_sub d l i s y) in *.
  assert (EV : v = VDict [("type"%string, VInt ty); ("events"%string, VList (lset l i (VDict (dset s "data" y))))]) by (unfold v, with_sub; rewrite ED; reflexivity).
  destruct (mk_event_inv _ _ _ _ _ HM) as (v0 & r0 & P0 & EE0 & HA & _).
  assert (PW : payload en (with_val e v) = Err er).
  { rewrite EE0. unfold with_val. cbn [e_id e_kind e_len e_new]. rewrite EV. apply vst_payload_broken; [exact T|exact NS|]. intros cx j. eapply kept_broken; eauto. }
  assert (LT : (r < length (pr_events p))%nat) by (apply nth_error_Some; congruence).
  rewrite (only_value_root _ _ _ _ _ NE V LT O), EE.
  assert (X : events_bytes en (lset (pr_events p) r (with_val e v)) = Err er).
  { clear - HE FR PW ID HI. remember [] as hh eqn:X. clear X. revert r FR.
    induction HE as [|h e0 es q cs e' HP HB HK HV HM HS HE IH]; intros [|r] FR; try discriminate; inversion HI; subst; cbn [nth_error lset events_bytes] in *.
    - injection FR as ->. unfold event_bytes at 1. rewrite PW. cbn [e_id with_val]. rewrite ID. reflexivity.
    - specialize (IH ltac:(assumption) r FR). rewrite IH.
      assert (X : exists o, event_bytes en e0 = Ok o).
      { unfold event_bytes. cbn [Byte c_uint cbuild as_int]. match goal with HH : 0 <= e_id e0 < 256 |- _ => replace ((0 <=? e_id e0) && (e_id e0 <? 256 ^ Z.of_nat 1)) with true by (change (256 ^ Z.of_nat 1) with 256; lia) end.
        cbn [bind]. rewrite HP. cbn [bind]. destruct (e_id e0 <? 192); [eauto|]. cbn [VarInt cbuild as_int]. pose proof (zlen_nonneg _ q).
        replace (0 <=? zlen q) with true by lia. cbn [bind]. eauto. }
      destruct X as (o & ->). reflexivity. }
  unfold serialise. cbn [pr_events pr_format pr_ppq]. rewrite X. destruct (num_channels _); cbn [bind]; [|eauto].
  repeat match goal with |- context [if ?c then _ else _] => destruct c; [eauto|] end. eauto.
Qed.

(* ------------------------------------------------------------------ flags *)

Inductive edit_in (n : string) (k : nat) (f : bytes -> val) : list (string * nat * (bytes -> val)) -> list item -> Prop :=
| ei_here ts its : edit_in n k f ((n, k, f) :: ts) (May (any k) :: its)
| ei_later m j g ts its : m <> n -> edit_in n k f ts its -> edit_in n k f ((m, j, g) :: ts) (May (any j) :: its).
Lemma opt_edit n k f ts its : edit_in n k f ts its -> forall p v, dget (opt_fields ts p) n = Some v -> v <> VNone ->
  exists a m r, p = a ++ m ++ r /\ length m = k /\ v = f m /\ forall m', length m' = k ->
    opt_fields ts (a ++ m' ++ r) = dset (opt_fields ts p) n (f m') /\ canon its (a ++ m' ++ r) = canon its p.
Proof.
  induction 1 as [ts its|m0 j g ts its NM ED IH]; intros p v D NV; cbn [opt_fields] in D.
  - destruct (Nat.leb_spec k (length p)) as [L|L]; cbn [dget] in D; rewrite String.eqb_refl in D; [|congruence]. apply Some_inj in D.
    exists [], (firstn k p), (skipn k p). split; [symmetry; apply firstn_skipn|]. split; [now apply firstn_length_le|]. split; [congruence|].
    intros m' L'. cbn [app opt_fields]. rewrite app_length, L'. replace (k <=? k + length (skipn k p))%nat with true by (symmetry; apply Nat.leb_le; lia).
    pose proof L as LL. apply Nat.leb_le in LL. rewrite LL. cbn [dset]. rewrite String.eqb_refl. subst k. rewrite firstn_app_exact, skipn_app_exact.
    split; [reflexivity|]. cbn [canon any c_size c_reads c_ok]. rewrite app_length, LL, skipn_app_exact.
    replace (length m' <=? length m' + length (skipn (length m') p))%nat with true by (symmetry; apply Nat.leb_le; lia). reflexivity.
  - cbn [opt_fields]. destruct (Nat.leb_spec j (length p)) as [L|L]; cbn [dget] in D; apply String.eqb_neq in NM; rewrite NM in D.
    + destruct (IH _ _ D NV) as (a & m & r & E & LM & EV & HR). exists (firstn j p ++ a), m, r.
      split; [rewrite <- app_assoc, <- E; symmetry; apply firstn_skipn|]. split; [exact LM|]. split; [exact EV|]. intros m' L'. destruct (HR m' L') as [H1 H2].
      assert (LF : length (firstn j p) = j) by now apply firstn_length_le. rewrite <- app_assoc.
      assert (X1 : firstn j (firstn j p ++ a ++ m' ++ r) = firstn j p) by (rewrite <- LF at 1; apply firstn_app_exact).
      assert (X2 : skipn j (firstn j p ++ a ++ m' ++ r) = a ++ m' ++ r) by (rewrite <- LF at 1; apply skipn_app_exact).
      assert (X3 : (j <=? length (firstn j p ++ a ++ m' ++ r))%nat = true) by (apply Nat.leb_le; rewrite app_length; lia).
      rewrite X3, X1, X2. cbn [dset]. rewrite NM, H1. split; [reflexivity|]. cbn [canon any c_size c_reads c_ok]. rewrite X3, X2, H2.
      apply Nat.leb_le in L. rewrite L. reflexivity.
    + destruct (IH _ _ D NV) as (a & m & r & E & LM & EV & HR). exists a, m, r. split; [exact E|]. split; [exact LM|]. split; [exact EV|].
      intros m' L'. destruct (HR m' L') as [H1 H2].
      assert (X3 : (j <=? length (a ++ m' ++ r))%nat = false) by (apply Nat.leb_gt; rewrite E in L; rewrite !app_length in *; lia).
      rewrite X3. cbn [dset]. rewrite NM, H1. split; [reflexivity|]. cbn [canon any c_size c_reads c_ok]. rewrite X3, H2.
      apply Nat.leb_gt in L. rewrite L. reflexivity.
Qed.
Lemma flag_edit name : In name ["flags"; "flags2"]%string -> edit_in name 4 flag_set flag_fields vst_flag_items.
Proof. intros [<-|[<-|[]]]; repeat first [apply ei_here | apply ei_later; [discriminate|]]. Qed.
Lemma flags_written p fd name z w : is_bytes p -> vst_data 2 p = true -> sub_means 2 p (VDict fd) -> In name ["flags"; "flags2"]%string ->
  dget fd name = Some (VEnum z) -> 0 <= w < 2 ^ 32 ->
  exists p', is_bytes p' /\ zlen p' = zlen p /\ sub_means 2 p' (VDict (dset fd name (VEnum w))) /\
    (forall cx, cbuild (inner_con 2) cx (VDict (dset fd name (VEnum w))) = Ok p') /\ 0 <= z < 2 ^ 32.
Proof.
  intros B V M IN D W.
  assert (E : fd = opt_fields flag_fields p).
  { inversion M; try discriminate. reflexivity. }
  subst fd.
  destruct (opt_edit _ _ _ _ _ (flag_edit name IN) p (VEnum z) D ltac:(discriminate)) as (a & m & r & EP & LM & EV & HR).
  destruct (HR (le_enc 4 w) (le_enc_length _ _)) as [H1 H2].
  assert (FW : flag_set (le_enc 4 w) = VEnum w) by (unfold flag_set; rewrite u_le_dec, le_dec_enc; [reflexivity|exact W]).
  rewrite FW in H1. rewrite EP in B. apply is_bytes_app in B as [Ba B]. apply is_bytes_app in B as [Bm Br].
  assert (B' : is_bytes (a ++ le_enc 4 w ++ r)) by (rewrite !is_bytes_app; auto using le_enc_bytes).
  exists (a ++ le_enc 4 w ++ r). split; [exact B'|]. split.
  { rewrite EP. rewrite !zlen_app. unfold zlen at 2 5. now rewrite le_enc_length, LM. }
  assert (M' : sub_means 2 (a ++ le_enc 4 w ++ r) (VDict (dset (opt_fields flag_fields p) name (VEnum w)))) by (rewrite <- H1; now apply sm_flags).
  split; [exact M'|]. split.
  - intros cx. assert (V' : vst_data 2 (a ++ le_enc 4 w ++ r) = true) by (unfold vst_data in *; cbn [Z.eqb Pos.eqb] in *; now rewrite H2).
    destruct (data_means 2 _ B' V') as (x & MX & C). inversion MX as [E0 E|E0 E|s T U E|R E]; try discriminate.
    + rewrite H1 in E. rewrite E. apply C.
    + destruct T as [T|[T|[T|[T|[]]]]]; discriminate.
    + exfalso. apply R. right. now left.
  - unfold flag_set in EV. injection EV as ->. rewrite u_le_dec. pose proof (le_dec_bound _ Bm) as X. rewrite LM in X. exact X.
Qed.

(* ------------------------------------------------------------------ texts, raw data *)

Lemma utf8_enc1_scalar c : scalar c <-> utf8_enc1 c <> None.
Proof.
  unfold scalar, utf8_enc1, is_hi, is_lo. repeat match goal with |- context [if ?b then _ else _] => destruct b eqn:? end; split; intros; try congruence; try lia.
Qed.
Lemma utf8_enc_scalar s : Forall scalar s <-> utf8_enc s <> None.
Proof.
  induction s as [|c s IH]; cbn [utf8_enc]; [split; [discriminate|constructor]|]. rewrite Forall_cons_iff, IH, utf8_enc1_scalar.
  destruct (utf8_enc1 c), (utf8_enc s); split; intuition congruence.
Qed.
Lemma utf8_enc_room s : forall b, utf8_enc s = Some b -> zlen b <= 4 * zlen s.
Proof.
  induction s as [|c s IH]; intros b H; cbn [utf8_enc] in H; [injection H as <-; vm_compute; discriminate|].
  destruct (utf8_enc1 c) as [x|] eqn:E; [|discriminate]. destruct (utf8_enc s) as [y|]; [|discriminate].
  injection H as <-. specialize (IH _ eq_refl). rewrite zlen_app, zlen_cons.
  assert (zlen x <= 4); [|lia]. unfold utf8_enc1 in E.
  repeat match type of E with context [if ?b then _ else _] => destruct b end; try discriminate; apply Some_inj in E; subst x; unfold zlen; cbn [length]; lia.
Qed.
Lemma text_con id : text_sub id -> inner_con id = GreedyString utf8_dec utf8_enc.
Proof. intros [<-|[<-|[<-|[<-|[]]]]]; reflexivity. Qed.
Lemma raw_con id : raw_sub id -> inner_con id = GreedyBytes.
Proof.
  intros R. destruct (id_cases id) as [-> | -> |E N1 N2 _ |E N1 N2 ->]; [| | |reflexivity]; exfalso; apply R.
  - now left.
  - right. now left.
  - rewrite !orb_true_iff, !Z.eqb_eq in E. cbn [In]. destruct E as [[[->| ->]| ->]| ->]; tauto.
Qed.
Lemma text_written id s : text_sub id -> Forall scalar s ->
  exists p, is_bytes p /\ zlen p <= 4 * zlen s /\ sub_means id p (VStr s) /\ forall cx, cbuild (inner_con id) cx (VStr s) = Ok p.
Proof.
  intros T S. apply utf8_enc_scalar in S. destruct (utf8_enc s) as [p|] eqn:E; [|congruence].
  destruct (utf8_enc_dec _ _ E) as [D B]. exists p. split; [exact B|]. split; [now apply utf8_enc_room|]. split; [now apply sm_text|].
  intros cx. rewrite (text_con _ T). cbn [GreedyString Adapter cbuild GreedyBytes]. now rewrite E.
Qed.
Lemma raw_written id p : raw_sub id -> is_bytes p -> sub_means id p (VBytes p) /\ forall cx, cbuild (inner_con id) cx (VBytes p) = Ok p.
Proof. intros T B. split; [now apply sm_raw|]. intros cx. now rewrite (raw_con _ T). Qed.
Lemma unfit_err id y : unfit id y -> exists er, (forall cx, cbuild (inner_con id) cx y = Err er) /\ er <> StopFieldError.
Proof.
  intros [[T U]|[[T U]|[T U]]].
  - exists StringError. split; [|discriminate]. intros cx. rewrite (text_con _ T). cbn [GreedyString Adapter cbuild GreedyBytes].
    destruct y; try reflexivity. specialize (U s eq_refl). rewrite utf8_enc_scalar in U. destruct (utf8_enc s); [exfalso; apply U; discriminate|reflexivity].
  - exists StreamError. split; [|discriminate]. intros cx. rewrite (raw_con _ T). destruct y; try reflexivity. now destruct (U b).
  - destruct y as [|b|z|z|x|b|s|l|l|d].
    2-9: exists TypeError; split; [|discriminate]; intros cx; destruct T as [-> | ->]; reflexivity.
    + exists KeyError. split; [|discriminate]. intros cx. destruct T as [-> | ->]; reflexivity.
    + now destruct (U d).
Qed.

(* the bytes of one of the sub-events *)
Lemma kept_nth b l i s x id : subs_kept b l -> sub l id i s x ->
  exists p, is_bytes p /\ vst_data id p = true /\ sub_means id p x /\ zlen p <= zlen b.
Proof.
  intros K (N & HS & D & _). revert i N. induction K as [|id0 p x0 b l I B Z M C K IH]; intros [|i] N; try discriminate; cbn [nth_error] in N.
  - apply Some_inj in N. pose proof (sub_dict_id _ _ _ _ N HS). subst id0. unfold sub_dict in N. injection N as <-.
    cbn [dget String.eqb Ascii.eqb Bool.eqb] in D. apply Some_inj in D. subst x0. exists p. split; [exact B|]. split; [|split; [exact M|]].
    + assert (cx : ctx) by exact (Ctx true (fun x => Ok x) (fun x => Ok x) 0 true 0 [] []).
      pose proof (inner_rt id cx p B) as R. destruct (sub_parse id p x B M cx) as (r & E). rewrite E in R.
      destruct (R cx) as (o & E1 & E2). apply E2. rewrite C in E1. congruence.
    + rewrite zlen_app. unfold zlen at 2. rewrite sub_bytes_length. pose proof (zlen_nonneg _ b). unfold zlen in *. lia.
  - destruct (IH i N) as (q & Q1 & Q2 & Q3 & Q4). exists q. repeat (split; [assumption|]). rewrite zlen_app. pose proof (zlen_nonneg _ (sub_bytes id0 p)). lia.
Qed.
