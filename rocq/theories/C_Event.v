(* Properties of single events and of their classes: C06-C10, C55-C58. *)
From Coq Require Import String ZArith List Bool Lia.
From Verif Require Import M_Base M_Text M_Construct M_Structs M_Events M_Parse.
From Verif Require Import S_Canon S_File S_Domain P_Base P_Codec P_Cells P_Special P_Payload P_File P_Null P_Err P_Save P_Domain P_Class.
From Verif Require Import C_Samples.
Import ListNotations.
Open Scope Z_scope.

(* ---- C06 ---- *)
(* an event whose value has been replaced *)
Definition with_value (e : event) (v : val) : event := Event (e_id e) (e_kind e) (e_len e) (e_new e) v.
Lemma reads_fixed en : forall h cs es, reads en h cs es -> Forall (fun c => 0 <= fst c < 256) cs -> Forall (fun e => 0 <= e_id e < 256 /\
  (e_id e < 192 -> fixed_kind (e_kind e) = true /\ kind_width (e_kind e) = width (e_id e))) es.
Proof.
  induction 1 as [h|h id p cs k e es H1 H2 H3 H4 IH]; intros HF; [constructor|]. inversion HF as [|c cs' Hc HF' E1]; subst.
  cbn [fst] in Hc. constructor; [|auto]. destruct (mk_event_inv _ _ _ _ _ H3) as (v & r & _ & -> & _). cbn [e_id e_kind].
  split; [exact Hc|]. intros Hl. refine (class_fixed _ _ _ _ _ _ H1). lia.
Qed.
Theorem C06_size en f p e v b : is_bytes f -> parse en f = Ok p -> In e (pr_events p) ->
  event_bytes en (with_value e v) = Ok b -> event_size en (with_value e v) = Ok (zlen b).
Proof.
  intros Hb HP HI HE. destruct (parse_ok _ _ _ Hb HP) as (fmt & ch & q & body & es & Ef & HG & HB & HL & ->).
  cbn [pr_events] in HI. destruct (loop_any _ _ _ _ _ _ st_ok_init HB HL) as (cs & HF & HR).
  assert (HC : Forall (fun c => 0 <= fst c < 256) cs).
  { clear - HF. assert (X : forall cs0 bs, framed false cs0 bs -> Forall (fun c => 0 <= fst c < 256) cs0).
    { induction 1 as [|c cs2 b2 bs Hc HF2 IH]; constructor; [apply (chunk_id _ _ _ Hc)|exact IH]. }
    destruct HF as [cs1 bs HF|cs1 bs c b1 HF Hc]; [eauto|]. apply Forall_app. split; [eauto|].
    constructor; [|constructor]. destruct Hc. cbn [fst]. lia. }
  pose proof (reads_fixed _ _ _ _ HR HC) as HA. rewrite Forall_forall in HA. destruct (HA e HI) as [A1 A2].
  apply (size_exact en (with_value e v) b A1 A2 HE).
Qed.
Print Assumptions C06_size.
(* the saved file: header and the events' sizes *)
Theorem C06_total en p f : (forall e, In e (pr_events p) -> 0 <= e_id e < 256 /\
    (e_id e < 192 -> fixed_kind (e_kind e) = true /\ kind_width (e_kind e) = width (e_id e))) ->
  serialise en p = Ok f ->
  exists ns, mapr (event_size en) (pr_events p) = Ok ns /\ zlen f = 22 + fold_right Z.add 0 ns.
Proof.
  intros Hk H. rewrite serialise_eq in H. inv_bind H. destruct (_ && _); [|discriminate]. cbn [negb] in H.
  destruct (x <? 65536); [|discriminate]. cbn [negb] in H. destruct (_ && _); [|discriminate]. cbn [negb] in H.
  inv_bind H. destruct (_ <? _); [|discriminate]. injection H as <-.
  assert (HL : zlen (file_bytes (pr_format p) x (pr_ppq p) x0) = 22 + zlen x0).
  { unfold file_bytes. rewrite !le_spec, !zlen_app. unfold zlen. rewrite !le_enc_length. cbn [length magic_header magic_data]. lia. }
  rewrite HL. clear HL E. revert x0 E0. induction (pr_events p) as [|e es IH]; intros body E.
  - cbn [events_bytes] in E. injection E as <-. exists []. auto.
  - cbn [events_bytes] in E. inv_bind E. inv_bind E. injection E as <-.
    destruct (IH ltac:(intros; apply Hk; right; assumption) _ E1) as (ns & N1 & N2). cbn [mapr].
    destruct (Hk e (or_introl eq_refl)) as [K1 K2]. rewrite (size_exact _ _ _ K1 K2 E0). cbn [bind]. rewrite N1. cbn [bind].
    eexists. split; [reflexivity|]. cbn [fold_right]. rewrite zlen_app. lia.
Qed.
Print Assumptions C06_total.
Example C06_case : exists p e b, parse en0 f0 = Ok p /\ nth_error (pr_events p) 3 = Some e /\
  event_bytes en0 (with_value e (VStr (repeat 65 63))) = Ok b /\ event_size en0 (with_value e (VStr (repeat 65 63))) = Ok 131.
Proof.
  do 3 eexists. split; [vm_compute; reflexivity|]. split; [vm_compute; reflexivity|].
  split; [vm_compute; reflexivity|]. vm_compute. reflexivity.
Qed.
(* beyond what parse produces: a struct class called with an id below 192 *)
Example C06_limit : exists e b, mk_event en0 KDelay 5 [7] = Ok e /\ event_bytes en0 e = Ok b /\
  event_size en0 e = Ok 2 /\ zlen b = 1.
Proof. do 2 eexists. split; [vm_compute; reflexivity|]. split; [vm_compute; reflexivity|]. split; vm_compute; reflexivity. Qed.

(* ---- C07 ---- *)
(* ids accepted by the classes: lowest and highest *)
Definition id_ranges : list (kind * (Z * Z)) :=
  [(KBool, (0, 63)); (KI8, (0, 63)); (KU8, (0, 63)); (KI16, (64, 127)); (KU16, (64, 127));
   (KF32, (128, 191)); (KI32, (128, 191)); (KU32, (128, 191)); (KU16Tuple, (128, 191)); (KColor, (128, 191))].
Theorem C07_numeric en k lo hi id data : In (k, (lo, hi)) id_ranges -> is_bytes data ->
  match mk_event en k id data with
  | Ok e => lo <= id <= hi /\ zlen data = (if lo =? 0 then 1 else if lo =? 64 then 2 else 4) /\ e_id e = id /\ e_kind e = k
  | Err EventIDOutOfRange => id < lo \/ hi < id
  | Err InvalidEventChunkSize => lo <= id <= hi /\ zlen data <> (if lo =? 0 then 1 else if lo =? 64 then 2 else 4)
  | Err _ => False
  end.
Proof.
  intros HI Hb.
  assert (HR : forall lo hi w, allowed_id k id = (lo <=? id) && (id <? hi + 1) -> (lo <= id <= hi -> id < 192 /\ width id = w) ->
     (zlen data = w -> exists e, mk_event en k id data = Ok e \/ allowed_id k id = false) ->
     match mk_event en k id data with
     | Ok e => lo <= id <= hi /\ zlen data = w /\ e_id e = id /\ e_kind e = k
     | Err EventIDOutOfRange => id < lo \/ hi < id
     | Err InvalidEventChunkSize => lo <= id <= hi /\ zlen data <> w
     | Err _ => False
     end).
  { intros l h w HA HW HOK. destruct (mk_event_errs en k id data) as [N|[[N1 N2]|(N1 & N2 & N3 & N4)]].
    - destruct (mk_event en k id data) as [e|e] eqn:E.
      + destruct (mk_event_inv _ _ _ _ _ E) as (v & r & _ & -> & Ha & Hs). cbn [e_id e_kind]. rewrite HA in Ha.
        assert (l <= id <= h) by lia. destruct (HW H) as [W1 W2]. split; [exact H|]. split; [rewrite <- W2; apply Hs; exact W1|]. auto.
      + exfalso. destruct (allowed_id k id) eqn:Ha.
        * assert (l <= id <= h) by lia. destruct (HW H) as [W1 W2]. destruct (Z.eq_dec (zlen data) w) as [Ez|Ez].
          -- destruct (HOK Ez) as (e' & [X|X]); discriminate X.
          -- revert E. unfold mk_event. replace (match k, data with KVSTPlugin, [] => Err IndexError | _, _ => Ok tt end) with (@Ok unit tt)
               by (destruct k, data; try reflexivity; cbn [In id_ranges] in HI; repeat (destruct HI as [HI|HI]; [discriminate HI|]); destruct HI).
             cbn [bind]. rewrite Ha. cbn [negb]. replace (id <? 192) with true by lia. unfold width in W2. rewrite W2.
             replace (zlen data =? w) with false by lia. cbn [negb]. intros X. injection X as <-. cbn [nhd api] in N. discriminate N.
        * revert E. unfold mk_event. replace (match k, data with KVSTPlugin, [] => Err IndexError | _, _ => Ok tt end) with (@Ok unit tt)
            by (destruct k, data; try reflexivity; cbn [In id_ranges] in HI; repeat (destruct HI as [HI|HI]; [discriminate HI|]); destruct HI).
          cbn [bind]. rewrite Ha. cbn [negb]. intros X. injection X as <-. cbn [nhd api] in N. discriminate N.
    - rewrite N1. rewrite HA in N2. lia.
    - rewrite N1. rewrite HA in N2. assert (l <= id <= h) by lia. destruct (HW H) as [W1 W2]. split; [exact H|]. congruence. }
  assert (HT : forall n, (forall cx d, is_bytes d -> length d = n -> exists v, cparse (kcon k) cx d = Ok (v, [])) ->
     scalar_kind k = true -> (allowed_id k id = true -> id < 192 /\ width id = Z.of_nat n) -> zlen data = Z.of_nat n ->
     exists e, mk_event en k id data = Ok e \/ allowed_id k id = false).
  { intros n HC Hs HW Hz. destruct (allowed_id k id) eqn:Ha; [|exists (Event 0 KU8 0 false VNone); auto].
    destruct (HW eq_refl) as [W1 W2]. destruct (HC (mkctx en (zlen data) (new_of data) data) data Hb ltac:(unfold zlen in Hz; lia)) as [v Hv].
    eexists. left. apply (mk_scalar en k id data v [] Hs Ha ltac:(intros; lia) Hv). }
  cbn [In id_ranges] in HI.
  repeat (destruct HI as [HI|HI]; [injection HI as <- <- <-|]); try destruct HI;
    change (0 =? 0) with true; change (64 =? 0) with false; change (64 =? 64) with true; change (128 =? 0) with false; change (128 =? 64) with false; cbn iota.
  all: apply HR; [cbn [allowed_id]; lia|intros; unfold width; destruct (Z.ltb_spec id 64), (Z.ltb_spec id 128); lia|].
  all: first [apply (HT 1%nat) | apply (HT 2%nat) | apply (HT 4%nat)]; try reflexivity;
    try (cbn [allowed_id]; unfold width; destruct (Z.ltb_spec id 64), (Z.ltb_spec id 128); lia).
  all: intros cx d Hd Hl; repeat (destruct d as [|? d]; try discriminate Hl); eexists; reflexivity.
Qed.
Print Assumptions C07_numeric.
(* every class: nothing is created for a refused id or a wrong size, and those
   two exceptions have no other cause *)
Definition text_ids (id : Z) : Prop := 192 <= id < 208 \/ id = 231 \/ id = 239 \/ id = 241.
Definition accepts (k : kind) (id : Z) : Prop :=
  (forall lo hi, In (k, (lo, hi)) id_ranges -> lo <= id <= hi) /\ ((k = KAscii \/ k = KUnicode) -> text_ids id).
Theorem C07_all en k id data : k <> KVSTPlugin \/ data <> [] ->
  (mk_event en k id data = Err EventIDOutOfRange <-> ~ accepts k id) /\
  (mk_event en k id data = Err InvalidEventChunkSize <-> accepts k id /\ id < 192 /\ zlen data <> width id).
Proof.
  intros HV.
  assert (HA : allowed_id k id = true <-> accepts k id).
  { unfold accepts, text_ids. destruct k; cbn [In id_ranges allowed_id]; unfold mem_Z, new_text_ids; cbn [existsb];
      (split; [intros H; split; [intros lo hi HI; repeat (destruct HI as [HI|HI]; [try discriminate HI; injection HI as <- <-; lia|]); destruct HI
                               |intros [X|X]; try discriminate X; lia]|]);
      intros [H1 H2]; try reflexivity;
      first [specialize (H2 ltac:(auto)); lia
            |match type of H1 with context [(_, (?a, ?b)) = _] => idtac end;
             first [specialize (H1 0 63 ltac:(auto 20)) | specialize (H1 64 127 ltac:(auto 20)) | specialize (H1 128 191 ltac:(auto 20))]; lia]. }
  assert (HE : allowed_id k id = false <-> ~ accepts k id) by (rewrite <- HA; destruct (allowed_id k id); split; congruence).
  rewrite <- HE, <- HA.
  destruct (mk_event_errs en k id data) as [N|[[N1 N2]|(N1 & N2 & N3 & N4)]].
  - assert (HN : (match k, data with KVSTPlugin, [] => Err IndexError | _, _ => Ok tt end) = @Ok unit tt)
      by (destruct k; try reflexivity; destruct data; try reflexivity; destruct HV; congruence).
    assert (allowed_id k id = true).
    { destruct (allowed_id k id) eqn:E; [reflexivity|]. exfalso. revert N. unfold mk_event. rewrite HN. cbn [bind]. rewrite E. discriminate. }
    assert (id < 192 -> zlen data = width id).
    { intros Hl. destruct (Z.eq_dec (zlen data) (width id)) as [E|E]; [exact E|]. exfalso. revert N. unfold mk_event. rewrite HN. cbn [bind].
      rewrite H. cbn [negb]. replace (id <? 192) with true by lia. fold (width id). replace (zlen data =? width id) with false by lia. discriminate. }
    split; (split; [intros X; rewrite X in N; discriminate N|]); [congruence|]. intros (_ & X1 & X2). exfalso. auto.
  - rewrite N1. split; split; try congruence. intros (X & _). congruence.
  - rewrite N1. split; split; try congruence. auto.
Qed.
Print Assumptions C07_all.
Example C07_cases : mk_event en0 KU8 64 [1] = Err EventIDOutOfRange /\ mk_event en0 KU16 64 [1] = Err InvalidEventChunkSize /\
  (exists e, mk_event en0 KU16 64 [1; 2] = Ok e /\ e_val e = VInt 513) /\
  mk_event en0 KUnicode 208 [] = Err EventIDOutOfRange /\ mk_event en0 KVSTPlugin 213 [] = Err IndexError.
Proof. repeat split; try reflexivity. eexists. split; reflexivity. Qed.

(* ---- C08 ---- *)
Theorem C08_round_trip cx n b rest : cbuild VarInt cx (VInt n) = Ok b ->
  cparse VarInt cx (b ++ rest) = Ok (VInt n, rest) /\ is_bytes b /\ zlen b = 1 + Z.log2 n / 7.
Proof.
  cbn [VarInt cbuild as_int]. destruct (Z.leb_spec 0 n); [|discriminate]. intros H0. apply Ok_inj in H0. subst b.
  cbn [VarInt cparse]. rewrite varint_dec_enc by assumption. split; [reflexivity|]. split; [apply varint_enc_bytes; assumption|].
  apply varint_len. assumption.
Qed.
Print Assumptions C08_round_trip.
Theorem C08_total cx n : 0 <= n -> exists b, cbuild VarInt cx (VInt n) = Ok b.
Proof. intros H. cbn [VarInt cbuild as_int]. replace (0 <=? n) with true by lia. eauto. Qed.
Print Assumptions C08_total.
Theorem C08_shortest cx n b pre rest : is_bytes (pre ++ rest) -> cbuild VarInt cx (VInt n) = Ok b ->
  cparse VarInt cx (pre ++ rest) = Ok (VInt n, rest) -> zlen b <= zlen pre /\ (zlen b = zlen pre -> b = pre).
Proof.
  intros Hb HB HP. cbn [VarInt cbuild as_int] in HB. destruct (Z.leb_spec 0 n); [|discriminate]. apply Ok_inj in HB. subst b.
  cbn [VarInt cparse] in HP. inv_bind HP. destruct x as [n' r']. injection HP as -> ->.
  assert (HD := varint_dec_app _ _ _ [] E). rewrite app_nil_r in HD. apply is_bytes_app in Hb. destruct Hb as [Hb _].
  clear E rest. revert n H HD. induction pre as [|x pre IH]; intros n Hn HD; [discriminate|]. cbn [varint_dec] in HD.
  apply is_bytes_cons in Hb. destruct Hb as [Hx Hb]. unfold is_byte in Hx. destruct (Z.ltb_spec x 128).
  - injection HD as <- ->. rewrite varint_enc_small by lia. split; [lia|reflexivity].
  - inv_bind HD. destruct x0 as [m r]. injection HD as <- ->.
    assert (Hm : 0 <= m).
    { destruct (varint_dec_split pre m [] Hb E) as (used & _ & Hm & _). exact Hm. }
    destruct (IH Hb m Hm E) as [I1 I2]. rewrite !zlen_cons.
    destruct (Z.eq_dec m 0) as [->|Hm0].
    + pose proof (zlen_nonneg _ pre). assert (pre <> []) by (intros ->; discriminate E).
      destruct pre as [|y pre]; [congruence|]. rewrite zlen_cons. pose proof (zlen_nonneg _ pre).
      rewrite varint_enc_small by lia. rewrite zlen_cons, zlen_nil. split; [lia|]. lia.
    + assert (E1 : (x mod 128 + 128 * m) / 128 = m) by lia. assert (E2 : (x mod 128 + 128 * m) mod 128 = x mod 128) by lia.
      rewrite varint_enc_step by lia. rewrite E1, E2, zlen_cons. split; [lia|]. intros Hz. f_equal; [lia|]. apply I2. lia.
Qed.
Print Assumptions C08_shortest.
Example C08_case : cbuild VarInt (mkctx en0 0 false []) (VInt 300) = Ok [172; 2] /\
  cparse VarInt (mkctx en0 0 false []) [172; 2; 255] = Ok (VInt 300, [255]) /\
  cparse VarInt (mkctx en0 0 false []) [172; 130; 0; 255] = Ok (VInt 300, [255]).
Proof. repeat split; reflexivity. Qed.

(* ---- C09 ---- *)
(* the class of texts for a version given by its components *)
Definition utf16_version (ns : list Z) : Prop :=
  match ns with a :: b :: _ => 11 < a \/ (a = 11 /\ 5 <= b) | [a] => 11 < a | [] => False end.
Lemma utf16_lex ns : lex_le [11; 5] (firstn 2 ns) = true <-> utf16_version ns.
Proof.
  destruct ns as [|a [|b r]]; cbn [firstn lex_le utf16_version].
  - split; [discriminate|tauto].
  - rewrite orb_true_iff, andb_true_iff. split; [intros [H|[_ H]]; [lia|discriminate]|intros H; left; lia].
  - destruct (Z.ltb_spec 11 a), (Z.eqb_spec 11 a), (Z.ltb_spec 5 b), (Z.eqb_spec 5 b); cbn [orb andb]; split; intros HH; try reflexivity; try discriminate HH; lia.
Qed.
Lemma text_value en k id p e : k = KAscii \/ k = KUnicode -> mk_event en k id p = Ok e ->
  exists s, text_of k p = Some s /\ e_val e = VStr s.
Proof.
  intros Hk HM. destruct (mk_event_inv _ _ _ _ _ HM) as (v & r & E & -> & _). cbn [e_val].
  destruct Hk as [-> | ->]; cbn [kcon] in E; unfold AsciiText, UnicodeText, text_con, Adapter, GreedyString in E;
    cbn in E; unfold text_of; cbn iota.
  - destruct (ascii_dec p); cbn in E |- *; [|discriminate E]. injection E as <- <-. eauto.
  - destruct (utf16_dec p); cbn in E |- *; [|discriminate E]. injection E as <- <-. eauto.
Qed.
Theorem C09_text_class en fmt ch q cs1 vp cs2 id p cs3 body pr :
  good_header fmt ch q body -> is_bytes body ->
  framed false (cs1 ++ (199, vp) :: cs2 ++ (id, p) :: cs3) body ->
  ~ In 199 (map fst cs2) -> id <> 199 -> text_ids id ->
  parse en (file_bytes fmt ch q body) = Ok pr ->
  exists e ns s, nth_error (pr_events pr) (length (cs1 ++ (199, vp) :: cs2)) = Some e /\ e_id e = id /\
    version_numbers vp = Some ns /\ e_val e = VStr s /\
    (utf16_version ns -> e_kind e = KUnicode /\ option_map rstrip0 (utf16_dec p) = Some s) /\
    (~ utf16_version ns -> e_kind e = KAscii /\ option_map rstrip0 (ascii_dec p) = Some s).
Proof.
  intros HG HB HF HN Hid Ht HP. apply (parse_chunks en fmt ch q _ body HG HB HF) in HP. destruct HP as (es & HR & ->). cbn [pr_events].
  destruct (reads_nth _ _ _ _ HR) as [_ HN1].
  set (pre := cs1 ++ (199, vp) :: cs2) in *.
  assert (Ecs : cs1 ++ (199, vp) :: cs2 ++ (id, p) :: cs3 = pre ++ (id, p) :: cs3) by (unfold pre; rewrite <- app_assoc; reflexivity).
  rewrite Ecs in *.
  destruct (HN1 (length pre) id p) as (e & k & E1 & E2 & E3 & E4 & E5). { rewrite nth_error_app2, Nat.sub_diag by lia. reflexivity. }
  rewrite app_nil_r, firstn_app, Nat.sub_diag, firstn_all, firstn_O, app_nil_r in E2.
  assert (Hreg : registered en id = None).
  { destruct Ht as [Ht|[->|[->| ->]]]; [|unfold registered; destruct (en_ctrl en); reflexivity..].
    assert (Hall : forallb (fun i => (i =? 199) || match registered en i with None => true | _ => false end) (map Z.of_nat (seq 192 16)) = true)
      by (unfold registered; destruct (en_ctrl en); vm_compute; reflexivity).
    rewrite forallb_forall in Hall. specialize (Hall id). rewrite in_map_iff in Hall.
    assert (X := Hall ltac:(exists (Z.to_nat id); split; [lia|apply in_seq; lia])). replace (id =? 199) with false in X by lia.
    destruct (registered en id); [discriminate X|reflexivity]. }
  assert (Hti : text_id id = true). { unfold text_id, mem_Z. cbn [existsb]. unfold text_ids in Ht. lia. }
  assert (192 <= id) by (unfold text_ids in Ht; lia).
  unfold class_of in E2. rewrite Hreg, Hti in E2. replace (id <? 64) with false in E2 by lia. replace (id <? 128) with false in E2 by lia.
  replace (id <? 192) with false in E2 by lia. unfold text_class in E2.
  assert (EL : last_payload 199 ((id, p) :: rev pre) = Some vp).
  { cbn [last_payload]. replace (id =? 199) with false by lia. unfold pre. rewrite rev_app_distr. cbn [rev]. rewrite <- !app_assoc.
    rewrite last_payload_skip; [reflexivity|]. rewrite map_rev. intros X. apply in_rev in X. exact (HN X). }
  match type of E2 with context [last_payload 199 ?h] => assert (EL' : last_payload 199 h = Some vp) by exact EL; rewrite EL' in E2 end.
  destruct (version_numbers vp) as [ns|]; [|discriminate]. assert (Ek : (if lex_le [11; 5] (firstn 2 ns) then KUnicode else KAscii) = k) by congruence.
  assert (Hk : k = KAscii \/ k = KUnicode) by (rewrite <- Ek; match goal with |- context [if ?c then _ else _] => destruct c end; auto).
  destruct (text_value _ _ _ _ _ Hk E3) as (s & S1 & S2). exists e, ns, s.
  split; [exact E1|]. split; [exact E4|]. split; [reflexivity|]. split; [exact S2|]. rewrite E5. split; intros HV.
  - apply utf16_lex in HV. rewrite HV in Ek. rewrite <- Ek in *. split; [reflexivity|exact S1].
  - destruct (lex_le [11; 5] (firstn 2 ns)) eqn:EV; [exfalso; apply HV, utf16_lex, EV|]. rewrite <- Ek in *. split; [reflexivity|exact S1].
Qed.
Print Assumptions C09_text_class.
(* the version text itself *)
Theorem C09_version_ascii en fmt ch q cs1 vp cs2 body pr :
  good_header fmt ch q body -> is_bytes body -> framed false (cs1 ++ (199, vp) :: cs2) body ->
  parse en (file_bytes fmt ch q body) = Ok pr ->
  exists e s, nth_error (pr_events pr) (length cs1) = Some e /\ e_id e = 199 /\ e_kind e = KAscii /\
    option_map rstrip0 (ascii_dec vp) = Some s /\ e_val e = VStr s.
Proof.
  intros HG HB HF HP. apply (parse_chunks en fmt ch q _ body HG HB HF) in HP. destruct HP as (es & HR & ->). cbn [pr_events].
  destruct (reads_nth _ _ _ _ HR) as [_ HN1].
  destruct (HN1 (length cs1) 199 vp) as (e & k & E1 & E2 & E3 & E4 & E5). { rewrite nth_error_app2, Nat.sub_diag by lia. reflexivity. }
  unfold class_of in E2. assert (registered en 199 = Some KAscii) as Hr by (unfold registered; destruct (en_ctrl en); reflexivity).
  rewrite Hr in E2. injection E2 as <-. destruct (text_value _ _ _ _ _ (or_introl eq_refl) E3) as (s & S1 & S2).
  exists e, s. auto.
Qed.
Print Assumptions C09_version_ascii.
(* saving: the class decides the encoding of whatever text the event holds *)
Theorem C09_saved en id L w s : 
  payload en (Event id KUnicode L w (VStr s)) = match utf16_enc (s ++ [0]) with Some b => Ok b | None => Err StringError end /\
  payload en (Event id KAscii L w (VStr s)) = match ascii_enc (s ++ [0]) with Some b => Ok b | None => Err StringError end.
Proof. unfold payload; split; cbn; [destruct (utf16_enc (s ++ [0]))|destruct (ascii_enc (s ++ [0]))]; reflexivity. Qed.
Print Assumptions C09_saved.
Theorem C09_version_first en fmt ch q cs1 id p b1 b b2 es1 :
  let body := b1 ++ b ++ b2 in
  good_header fmt ch q body -> is_bytes body -> framed false cs1 b1 -> reads en [] cs1 es1 ->
  chunk_bytes false (id, p) b -> text_id id = true -> registered en id = None -> ~ In 199 (map fst cs1) ->
  parse en (file_bytes fmt ch q body) = Err VersionNotDetected.
Proof. exact (version_first en fmt ch q cs1 id p b1 b b2 es1). Qed.
Print Assumptions C09_version_first.
Example C09_cases : utf16_version [20; 8; 3] /\ utf16_version [11; 5] /\ ~ utf16_version [11; 4; 9] /\ ~ utf16_version [11] /\
  version_numbers ver20 = Some [20; 8; 3] /\ nth_error cs0 0 = Some (199, ver20) /\ nth_error cs0 3 = Some (194, title16).
Proof. do 4 (split; [cbn [utf16_version]; lia|]). repeat split; vm_compute; reflexivity. Qed.
Example C09_no_version : parse en0 (file_bytes 0 1 96 [64; 0; 0; 194; 2; 72; 0]) = Err VersionNotDetected.
Proof. vm_compute. reflexivity. Qed.

(* ---- C10 ---- *)
Theorem C10_ascii en id s : 0 <= id < 256 -> text_ids id ->
  ((exists L w p e, payload en (Event id KAscii L w (VStr s)) = Ok p /\ is_bytes p /\ mk_event en KAscii id p = Ok e /\ e_val e = VStr s)
   <-> no_trailing_nul s /\ Forall (fun c => 0 <= c < 128) s).
Proof.
  intros Hid Ht. assert (Ha : allowed_id KAscii id = true).
  { cbn [allowed_id]. unfold mem_Z, new_text_ids. cbn [existsb]. unfold text_ids in Ht. lia. }
  pose proof (domain_exact en KAscii id (VStr s) eq_refl Hid Ha ltac:(discriminate)) as H. unfold stored in H. rewrite H. cbn [domain].
  split; [intros (s' & X & Y); injection X as <-; exact Y|intros Y; exists s; auto].
Qed.
Print Assumptions C10_ascii.
Theorem C10_utf16 en id s : 0 <= id < 256 -> text_ids id ->
  ((exists L w p e, payload en (Event id KUnicode L w (VStr s)) = Ok p /\ is_bytes p /\ mk_event en KUnicode id p = Ok e /\ e_val e = VStr s)
   <-> no_trailing_nul s /\ Forall scalar s).
Proof.
  intros Hid Ht. assert (Ha : allowed_id KUnicode id = true).
  { cbn [allowed_id]. unfold mem_Z, new_text_ids. cbn [existsb]. unfold text_ids in Ht. lia. }
  pose proof (domain_exact en KUnicode id (VStr s) eq_refl Hid Ha ltac:(discriminate)) as H. unfold stored in H. rewrite H. cbn [domain].
  split; [intros (s' & X & Y); injection X as <-; exact Y|intros Y; exists s; auto].
Qed.
Print Assumptions C10_utf16.
Lemma one_nul_iff dec b : one_nul dec b = true <-> exists s, dec b = Some (s ++ [0]) /\ no_trailing_nul s.
Proof.
  unfold one_nul. split.
  - destruct (dec b) as [s|]; [|discriminate]. intros H. assert (E : s = rev (rev s)) by (symmetry; apply rev_involutive).
    destruct (rev s) as [|z t]; [discriminate|]. cbn [rev] in E. destruct z; try discriminate. exists (rev t).
    split; [rewrite E at 1; reflexivity|]. intros u Hu. assert (t = 0 :: rev u) by (rewrite <- (rev_involutive t), Hu, rev_app_distr; reflexivity).
    subst t. discriminate H.
  - intros (s & -> & Hs). rewrite rev_app_distr. cbn [rev app]. destruct (rev s) as [|z t] eqn:E; [reflexivity|].
    destruct z; try reflexivity. exfalso. apply (Hs (rev t)). rewrite <- (rev_involutive s), E. reflexivity.
Qed.
Theorem C10_payload en k id data e : k = KAscii \/ k = KUnicode -> is_bytes data -> mk_event en k id data = Ok e ->
  (payload en e = Ok data <->
   exists s, (if match k with KUnicode => true | _ => false end then utf16_dec data else ascii_dec data) = Some (s ++ [0]) /\ no_trailing_nul s).
Proof.
  intros Hk Hb HM. rewrite (payload_canonical en k id data e Hb HM).
  destruct Hk as [-> | ->]; cbn [canonical_payload]; apply one_nul_iff.
Qed.
Print Assumptions C10_payload.
Example C10_cases : no_trailing_nul [76; 111; 128521] /\ Forall scalar [76; 111; 128521] /\
  payload en0 (Event 194 KUnicode 0 false (VStr [76; 111; 128521])) = Ok [76; 0; 111; 0; 61; 216; 9; 222; 0; 0] /\
  utf16_dec [76; 0; 111; 0; 61; 216; 9; 222; 0; 0] = Some ([76; 111; 128521] ++ [0]).
Proof.
  split; [|split; [|split; reflexivity]].
  - intros t H. apply (f_equal (@rev Z)) in H. rewrite rev_app_distr in H. discriminate H.
  - repeat constructor; unfold scalar; lia.
Qed.

(* ---- C55 ---- *)
Theorem C55_plugin_class en fmt ch q cs1 np cs2 data cs3 body pr :
  good_header fmt ch q body -> is_bytes body ->
  framed false (cs1 ++ (201, np) :: cs2 ++ (213, data) :: cs3) body ->
  ~ In 201 (map fst cs2) ->
  parse en (file_bytes fmt ch q body) = Ok pr ->
  exists en' e name, nth_error (pr_events pr) (length cs1) = Some en' /\ e_val en' = VStr name /\
    nth_error (pr_events pr) (length (cs1 ++ (201, np) :: cs2)) = Some e /\ e_id e = 213 /\ e_kind e = plugin_class name /\
    (e_kind e = KUnknown -> e_val e = VBytes data /\ payload en e = Ok data).
Proof.
  intros HG HB HF HN HP. apply (parse_chunks en fmt ch q _ body HG HB HF) in HP. destruct HP as (es & HR & ->). cbn [pr_events].
  destruct (reads_nth _ _ _ _ HR) as [_ HN1]. set (pre := cs1 ++ (201, np) :: cs2) in *.
  assert (Ecs : cs1 ++ (201, np) :: cs2 ++ (213, data) :: cs3 = pre ++ (213, data) :: cs3) by (unfold pre; rewrite <- app_assoc; reflexivity).
  assert (Hbd : is_bytes data).
  { clear - HF HB. assert (X : forall cs bs, framed false cs bs -> is_bytes bs -> Forall (fun c => is_bytes (snd c)) cs).
    { induction 1 as [|c cs b bs Hc HF0 IH]; intros Hb; [constructor|]. apply is_bytes_app in Hb. destruct Hb as [B1 B2].
      constructor; [apply (chunk_payload_bytes _ _ _ B1 Hc)|exact (IH B2)]. }
    specialize (X _ _ HF HB). rewrite Forall_forall in X. apply (X (213, data)). apply in_or_app. right. right. apply in_or_app. right. left. reflexivity. }
  destruct (HN1 (length cs1) 201 np) as (e1 & k1 & A1 & A2 & A3 & A4 & A5). { rewrite nth_error_app2, Nat.sub_diag by lia. reflexivity. }
  rewrite Ecs in HN1.
  destruct (HN1 (length pre) 213 data) as (e & k & E1 & E2 & E3 & E4 & E5). { rewrite nth_error_app2, Nat.sub_diag by lia. reflexivity. }
  rewrite app_nil_r, firstn_app, Nat.sub_diag, firstn_all, firstn_O, app_nil_r in E2, A2.
  assert (R1 : registered en 201 = None) by (unfold registered; destruct (en_ctrl en); reflexivity).
  assert (R2 : registered en 213 = None) by (unfold registered; destruct (en_ctrl en); reflexivity).
  unfold class_of in A2, E2. rewrite R1 in A2. rewrite R2 in E2. cbn in A2, E2.
  change (text_class ((201, np) :: rev cs1) = Some k1) in A2.
  destruct (text_value _ _ _ _ _ (text_class_kind _ _ A2) A3) as (name & S1 & S2).
  assert (EN : plugin_name (rev pre) = Some name).
  { unfold pre. rewrite rev_app_distr. cbn [rev]. rewrite <- !app_assoc.
    assert (SK : forall h1 h2, ~ In 201 (map fst h1) -> plugin_name (h1 ++ h2) = plugin_name h2).
    { induction h1 as [|[i x] h1 IH]; intros h2 Hn; [reflexivity|]. cbn [app plugin_name map fst In] in *.
      destruct (Z.eqb_spec i 201); [exfalso; apply Hn; left; assumption|]. apply IH. intros X. apply Hn. right. exact X. }
    rewrite SK; [|rewrite map_rev; intros X; apply in_rev in X; exact (HN X)]. cbn [app plugin_name]. change (201 =? 201) with true. cbn iota.
    rewrite A2. exact S1. }
  change (Some (match plugin_name (rev pre) with Some n => plugin_class n | None => KUnknown end) = Some k) in E2.
  rewrite EN in E2. injection E2 as <-.
  exists e1, e, name. split; [exact A1|]. split; [exact S2|]. split; [exact E1|]. split; [exact E4|]. split; [exact E5|].
  intros HU. rewrite E5 in HU. rewrite HU in E3. split.
  - destruct (mk_event_inv _ _ _ _ _ E3) as (v & r & E & -> & _). cbn [kcon GreedyBytes cparse] in E. injection E as <- <-. reflexivity.
  - apply (payload_canonical en KUnknown 213 data e Hbd E3). reflexivity.
Qed.
Print Assumptions C55_plugin_class.
Theorem C55_no_name en fmt ch q cs1 data cs3 body pr :
  good_header fmt ch q body -> is_bytes body -> framed false (cs1 ++ (213, data) :: cs3) body ->
  ~ In 201 (map fst cs1) -> parse en (file_bytes fmt ch q body) = Ok pr ->
  exists e, nth_error (pr_events pr) (length cs1) = Some e /\ e_id e = 213 /\ e_kind e = KUnknown /\ e_val e = VBytes data.
Proof.
  intros HG HB HF HN HP. apply (parse_chunks en fmt ch q _ body HG HB HF) in HP. destruct HP as (es & HR & ->). cbn [pr_events].
  destruct (reads_nth _ _ _ _ HR) as [_ HN1].
  destruct (HN1 (length cs1) 213 data) as (e & k & E1 & E2 & E3 & E4 & E5). { rewrite nth_error_app2, Nat.sub_diag by lia. reflexivity. }
  rewrite app_nil_r, firstn_app, Nat.sub_diag, firstn_all, firstn_O, app_nil_r in E2.
  assert (R2 : registered en 213 = None) by (unfold registered; destruct (en_ctrl en); reflexivity).
  unfold class_of in E2. rewrite R2 in E2. cbn in E2.
  change (Some (match plugin_name (rev cs1) with Some n => plugin_class n | None => KUnknown end) = Some k) in E2.
  assert (plugin_name (rev cs1) = None) as EN.
  { assert (X : forall h, ~ In 201 (map fst h) -> plugin_name h = None).
    { induction h as [|[i x] h IH]; intros Hn; [reflexivity|]. cbn [plugin_name map fst In] in *.
      destruct (Z.eqb_spec i 201); [exfalso; apply Hn; left; assumption|]. apply IH. tauto. }
    apply X. rewrite map_rev. intros Y. apply in_rev in Y. exact (HN Y). }
  rewrite EN in E2. injection E2 as <-. exists e. split; [exact E1|]. split; [exact E4|]. split; [exact E5|].
  destruct (mk_event_inv _ _ _ _ _ E3) as (v & r & E & -> & _). cbn [kcon GreedyBytes cparse] in E. injection E as <- <-. reflexivity.
Qed.
Print Assumptions C55_no_name.
Example C55_case : nth_error cs0 4 = Some (201, boobass16) /\ nth_error cs0 5 = Some (213, boobass_data) /\
  plugin_class (str "BooBass") = KBooBass /\ plugin_class (str "Sytrus") = KUnknown.
Proof. repeat split; vm_compute; reflexivity. Qed.

(* ---- C56 ---- *)
Definition declared (en : env) : list Z := map fst (concat (enum_tables en)).
Theorem C56_declared_once en : NoDup (declared en).
Proof.
  assert (H : forall l, (fix nd (l : list Z) := match l with [] => true | x :: l => negb (mem_Z x l) && nd l end) l = true -> NoDup l).
  { induction l as [|x l IH]; intros H; constructor; apply andb_true_iff in H; destruct H as [H1 H2]; [|auto].
    intros Hin. apply negb_true_iff in H1. assert (mem_Z x l = true); [|congruence]. unfold mem_Z. apply existsb_exists. exists x. split; [exact Hin|lia]. }
  apply H. unfold declared, enum_tables. destruct (en_ctrl en); vm_compute; reflexivity.
Qed.
Print Assumptions C56_declared_once.
(* the class parse picks is the one of the tables in S_File and accepts the id *)
Theorem C56_accepted en id p h k : 0 <= id < 256 -> class_of en ((id, p) :: h) = Some k ->
  lookup_type id (enum_tables en) = registered en id /\ accepts k id.
Proof.
  intros Hid H. split; [apply lookup_registered; exact Hid|]. pose proof (class_allowed _ _ _ _ _ Hid H) as Ha.
  destruct (proj1 (C07_all en k id [0] ltac:(right; discriminate))) as [_ X].
  destruct (mk_event_errs en k id [0]) as [N|[[_ N2]|(N1 & N2 & N3 & N4)]].
  - (* not refused *)
    assert (Hna : ~ ~ accepts k id). { intros Y. apply X in Y. rewrite Y in N. discriminate N. }
    clear - Hna. unfold accepts in *. split.
    + intros lo hi HI. destruct (Z_le_dec lo id), (Z_le_dec id hi); try lia; exfalso; apply Hna; intros [Y _]; specialize (Y _ _ HI); lia.
    + intros HK. assert (D : text_ids id \/ ~ text_ids id) by (unfold text_ids; lia). destruct D as [D|D]; [exact D|].
      exfalso. apply Hna. intros [_ Y]. apply D, Y, HK.
  - congruence.
  - apply (proj2 (C07_all en k id [0] ltac:(right; discriminate))) in N1. apply N1.
Qed.
Print Assumptions C56_accepted.
Theorem C56_parse_accepts en f : is_bytes f -> parse en f <> Err EventIDOutOfRange.
Proof.
  intros Hb H. destruct (parse_err en f _ Hb H eq_refl) as [[X _]|(? & ? & ? & ? & _ & _ & (? & ? & ? & ? & _ & _ & _ & [[X _]|[X _]]))]; discriminate X.
Qed.
Print Assumptions C56_parse_accepts.
Example C56_case : zlen (declared en0) = 111 /\ lookup_type 64 (enum_tables en0) = Some KU16 /\ lookup_type 63 (enum_tables en0) = None.
Proof. repeat split; vm_compute; reflexivity. Qed.

(* ---- C57 ---- *)
(* pyflp's own exceptions: which inputs they stand for *)
Theorem C57_exceptions en f e : is_bytes f -> parse en f = Err e -> api e = true ->
  (e = HeaderCorrupted /\ ~ valid_file f) \/
  exists fmt ch q body, f = file_bytes fmt ch q body /\ good_header fmt ch q body /\
  exists cs1 es1 b1 b2, body = b1 ++ b2 /\ framed false cs1 b1 /\ reads en [] cs1 es1 /\
   ((e = VersionNotDetected /\ exists id r, b2 = id :: r /\ text_id id = true /\ registered en id = None /\ ~ In 199 (map fst cs1)) \/
    (e = InvalidEventChunkSize /\ exists id cut, b2 = id :: cut /\ id < 192 /\ zlen cut < width id)).
Proof.
  intros Hb H He. destruct (parse_err en f e Hb H He) as [X|(fmt & ch & q & body & E & HG & (cs1 & es1 & b1 & b2 & T1 & T2 & T3 & T4))]; [left; exact X|].
  right. exists fmt, ch, q, body. split; [exact E|]. split; [exact HG|]. exists cs1, es1, b1, b2. split; [exact T1|]. split; [exact T2|]. split; [exact T3|].
  destruct T4 as [[-> (id & r & A & B & C & D)]|T4]; [left|right; exact T4]. split; [reflexivity|]. exists id, r. cbn [map app] in D. rewrite app_nil_r in D. auto.
Qed.
Print Assumptions C57_exceptions.
(* the loops of the model always have enough fuel: parse terminates on every input *)
Theorem C57_terminates en f : is_bytes f -> parse en f <> Err OutOfFuel.
Proof.
  intros Hb H. destruct (parse_err en f _ Hb H eq_refl) as [[X _]|(? & ? & ? & ? & _ & _ & (? & ? & ? & ? & _ & _ & _ & [[X _]|[X _]]))]; discriminate X.
Qed.
Print Assumptions C57_terminates.
Example C57_case : parse en0 (file_bytes 0 1 96 [64; 0; 0; 130; 1; 2]) = Err InvalidEventChunkSize.
Proof. vm_compute. reflexivity. Qed.
