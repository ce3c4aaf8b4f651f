(* The event loop against the chunk grammar. *)
From Coq Require Import String ZArith List Bool Lia Arith.
From Verif Require Import M_Base M_Float M_Text M_Construct M_Structs M_Events M_Parse.
From Verif Require Import S_Canon S_File P_Base P_Codec P_Float P_Text P_RT P_Cells P_Kinds P_Lists P_Special P_Payload.
Import ListNotations.
Open Scope Z_scope.

(* ---------------- class tables ---------------- *)
Definition opt_kind_eqb (a b : option kind) : bool :=
  if (ltac:(decide equality; decide equality) : {a = b} + {a <> b}) then true else false.
Lemma opt_kind_eqb_eq a b : opt_kind_eqb a b = true -> a = b.
Proof. unfold opt_kind_eqb. destruct (_ : {a = b} + {a <> b}); [auto|discriminate]. Qed.

Lemma all_ids id : 0 <= id < 256 -> In id (map Z.of_nat (seq 0 256)).
Proof. intros H. apply in_map_iff. exists (Z.to_nat id). split; [lia|]. apply in_seq. lia. Qed.

Lemma lookup_registered en id : 0 <= id < 256 -> lookup_type id (enum_tables en) = registered en id.
Proof.
  intros H. apply opt_kind_eqb_eq.
  assert (Hall : forallb (fun id => opt_kind_eqb (lookup_type id (enum_tables en)) (registered en id))
           (map Z.of_nat (seq 0 256)) = true).
  { unfold enum_tables, registered. destruct (en_ctrl en); vm_compute; reflexivity. }
  rewrite forallb_forall in Hall. apply (Hall id). apply all_ids. exact H.
Qed.

Definition fixed_kind (k : kind) : bool :=
  match k with
  | KBool | KI8 | KU8 | KI16 | KU16 | KF32 | KI32 | KU32 | KU16Tuple | KColor => true
  | _ => false
  end.
Definition kind_width (k : kind) : Z :=
  match k with KBool | KI8 | KU8 => 1 | KI16 | KU16 => 2 | _ => 4 end.
(* facts about every registered class, checked id by id *)
Definition reg_fact (o : option kind) (id : Z) : bool :=
  match o with
  | None => negb (id =? 199) && negb (id =? 64)
  | Some k => allowed_id k id && (if id <? 192 then fixed_kind k && (kind_width k =? width id) else true)
              && negb (id =? 201) && negb (id =? 213) && (if id =? 199 then opt_kind_eqb o (Some KAscii) else true)
              && (if id =? 64 then opt_kind_eqb o (Some KU16) else true)
  end.
Lemma registered_fact en id : 0 <= id < 256 -> reg_fact (registered en id) id = true.
Proof.
  intros H.
  assert (Hall : forallb (fun id => reg_fact (registered en id) id) (map Z.of_nat (seq 0 256)) = true).
  { unfold registered. destruct (en_ctrl en); vm_compute; reflexivity. }
  rewrite forallb_forall in Hall. apply (Hall id). apply all_ids. exact H.
Qed.

Lemma event_by_name n : event_by_internal_name n = plugin_class n.
Proof.
  unfold event_by_internal_name, plugin_class, internal_names.
  set (l := [(str "Fruity Wrapper", KVSTPlugin); _; _; _; _; _; _; _; _; _; _; _; _]).
  clearbody l. induction l as [|[m k] l IH]; [reflexivity|]. cbn [assoc_name find fst].
  destruct (list_Zeqb m n); [reflexivity|exact IH].
Qed.

(* ---------------- version text ---------------- *)
Lemma version_parts_spec p :
  version_parts p = match version_numbers p with
                    | Some ns => Ok ns
                    | None => Err (match ascii_dec p with None => UnicodeError | Some _ => ValueError end)
                    end.
Proof.
  unfold version_parts, version_numbers. destruct (ascii_dec p) as [s|]; [|reflexivity].
  unfold numbers. induction (split_on 46 (rstrip0 s)) as [|x l IH]; [reflexivity|].
  cbn [mapr fold_right]. destruct (py_int x) as [z|]; [|reflexivity]. cbn [bind].
  rewrite IH. destruct (fold_right _ _ l); reflexivity.
Qed.
Lemma ge_lex ns : ge_11_5 ns = lex_le [11; 5] (firstn 2 ns).
Proof.
  destruct ns as [|a [|b r]]; cbn [ge_11_5 firstn lex_le].
  - reflexivity.
  - destruct (11 <? a); cbn [orb]; [reflexivity|]. destruct (11 =? a); reflexivity.
  - destruct (Z.ltb_spec 11 a); cbn [orb]; [reflexivity|].
    rewrite (Z.eqb_sym a 11). destruct (11 =? a); cbn [andb]; [|reflexivity].
    destruct (Z.ltb_spec 5 b), (Z.eqb_spec 5 b), (Z.leb_spec 5 b); cbn [orb andb]; try lia; reflexivity.
Qed.

(* ---------------- parser state against history ---------------- *)
Definition st_ok (st : pstate) (h : list chunk) : Prop :=
  ps_str st = text_class h /\ ps_plug st = plugin_name h.
Lemma st_ok_init : st_ok (PState None None) [].
Proof. split; reflexivity. Qed.

Lemma text_id_spec id : 192 <= id -> (id <? 208) || mem_Z id new_text_ids = text_id id.
Proof.
  intros H. unfold text_id, new_text_ids, mem_Z. cbn [existsb].
  replace (192 <=? id) with true by lia. cbn [andb].
  destruct (id <? 208); [reflexivity|]. cbn [orb].
  destruct (id =? 241), (id =? 231), (id =? 239); reflexivity.
Qed.

Lemma text_class_kind h k : text_class h = Some k -> k = KAscii \/ k = KUnicode.
Proof.
  unfold text_class. destruct (last_payload 199 h); [|discriminate].
  destruct (version_numbers b); [|discriminate]. intros E. injection E as <-.
  match goal with |- context [if ?c then _ else _] => destruct c end; auto.
Qed.
Lemma text_mk en k p : k = KAscii \/ k = KUnicode -> is_bytes p ->
  match mk_event en k 201 p with
  | Ok e => exists s, e_val e = VStr s /\ text_of k p = Some s
  | Err _ => text_of k p = None
  end.
Proof.
  intros Hk Hb. destruct (mk_event en k 201 p) as [e|er] eqn:E.
  - destruct (mk_event_inv _ _ _ _ _ E) as (v & r & Ep & -> & _).
    cbn [e_val]. destruct Hk as [-> | ->]; cbn [kcon] in Ep.
    + destruct (ascii_rt _ (mkctx en 0 false []) _ _ _ Hb Ep) as (_ & s & Ed & -> & _).
      exists (rstrip0 s). split; [reflexivity|]. unfold text_of. rewrite Ed. reflexivity.
    + destruct (unicode_rt _ (mkctx en 0 false []) _ _ _ Hb Ep) as (_ & s & Ed & -> & _).
      exists (rstrip0 s). split; [reflexivity|]. unfold text_of. rewrite Ed. reflexivity.
  - destruct Hk as [-> | ->]; unfold mk_event in E; cbn in E; unfold text_of.
    + destruct (ascii_dec p); cbn in *; [discriminate|reflexivity].
    + destruct (utf16_dec p); cbn in *; [discriminate|reflexivity].
Qed.

Lemma text_class_skip id p h : id <> 199 -> text_class ((id, p) :: h) = text_class h.
Proof. intros H. unfold text_class. cbn [last_payload]. replace (id =? 199) with false by lia. reflexivity. Qed.
Lemma plugin_name_skip id p h : id <> 201 -> plugin_name ((id, p) :: h) = plugin_name h.
Proof. intros H. cbn [plugin_name]. replace (id =? 201) with false by lia. reflexivity. Qed.

(* what classify computes *)
Lemma classify_spec en st h id p : st_ok st h -> 0 <= id < 256 -> is_bytes p ->
  match classify en st id p with
  | Ok (k, st') => class_of en ((id, p) :: h) = Some k /\ st_ok st' ((id, p) :: h) /\
                   (id = 199 -> version_numbers p <> None)
  | Err _ => (id = 199 /\ version_numbers p = None) \/ class_of en ((id, p) :: h) = None \/
             (id = 201 /\ exists k, class_of en ((id, p) :: h) = Some k /\
               forall e, mk_event en k id p <> Ok e)
  end.
Proof.
  intros [Hs Hp] Hid Hb. unfold classify.
  rewrite lookup_registered by exact Hid. pose proof (registered_fact en id Hid) as HR.
  destruct (Z.eqb_spec id 199) as [->|N199].
  { rewrite version_parts_spec. destruct (version_numbers p) as [ns|] eqn:EV; cbn [bind]; [|left; auto].
    unfold class_of. destruct (registered en 199) as [k|] eqn:ER; [|discriminate HR].
    split; [reflexivity|]. split; [|congruence]. split; cbn [ps_str ps_plug].
    - unfold text_class. cbn [last_payload]. change (199 =? 199) with true. cbn iota. rewrite EV, ge_lex. reflexivity.
    - rewrite plugin_name_skip by lia. exact Hp. }
  cbn [bind]. unfold class_of.
  destruct (registered en id) as [k|] eqn:ER.
  { assert (id <> 201). { unfold reg_fact in HR. rewrite !andb_true_iff in HR. lia. }
    split; [reflexivity|]. split; [|congruence]. split; cbn [ps_str ps_plug].
    - rewrite text_class_skip by lia. exact Hs.
    - rewrite plugin_name_skip by lia. exact Hp. }
  assert (HS : forall st', ps_str st' = ps_str st -> ps_plug st' = ps_plug st -> id <> 201 ->
             st_ok st' ((id, p) :: h)).
  { intros st' H1 H2 H3. split.
    - rewrite text_class_skip by lia. congruence.
    - rewrite plugin_name_skip by lia. congruence. }
  destruct (Z.ltb_spec id 64). { split; [reflexivity|]. split; [|congruence]. apply HS; try reflexivity. lia. }
  destruct (Z.ltb_spec id 128). { split; [reflexivity|]. split; [|congruence]. apply HS; try reflexivity. lia. }
  destruct (Z.ltb_spec id 192). { split; [reflexivity|]. split; [|congruence]. apply HS; try reflexivity. lia. }
  rewrite text_id_spec by lia. destruct (text_id id) eqn:ET.
  { rewrite text_class_skip by lia. rewrite Hs. destruct (text_class h) as [k|] eqn:EC; [|right; left; reflexivity].
    destruct (Z.eqb_spec id 201) as [->|N201].
    - pose proof (text_mk en k p (text_class_kind _ _ EC) Hb) as HT.
      destruct (mk_event en k 201 p) as [e|er] eqn:EM; cbn [bind].
      + destruct HT as (s & Ev & Es). rewrite Ev. split; [reflexivity|]. split; [|congruence].
        split; cbn [ps_str ps_plug].
        * rewrite text_class_skip by lia. symmetry. exact EC.
        * cbn [plugin_name]. change (201 =? 201) with true. cbn iota.
          rewrite text_class_skip by lia. rewrite EC. symmetry. exact Es.
      + right. right. split; [reflexivity|]. exists k. split; [reflexivity|]. congruence.
    - split; [reflexivity|]. split; [|congruence]. apply HS; try reflexivity; [|assumption].
      cbn [ps_str]. congruence. }
  assert (id <> 201) by (intros ->; discriminate ET).
  destruct (Z.eqb_spec id 213) as [->|N213].
  { destruct (ps_plug st) as [n|] eqn:EP.
    - rewrite <- Hp, event_by_name. split; [reflexivity|]. split; [|congruence].
      apply HS; cbn [ps_str ps_plug]; [reflexivity|congruence|lia].
    - rewrite <- Hp. split; [reflexivity|]. split; [|congruence].
      apply HS; cbn [ps_str ps_plug]; [reflexivity|congruence|lia]. }
  split; [reflexivity|]. split; [|congruence]. apply HS; try reflexivity. assumption.
Qed.

(* ---------------- reading one chunk ---------------- *)
Lemma lenprefix_app pre n m r r' : lenprefix pre = Some (n, m, r) -> lenprefix (pre ++ r') = Some (n, m, r ++ r').
Proof.
  revert n m r. induction pre as [|b pre IH]; intros n m r H; [discriminate|].
  cbn [lenprefix app] in *. destruct (b <? 128).
  - injection H as <- <- <-. reflexivity.
  - destruct (lenprefix pre) as [[[n0 m0] r0]|]; [|discriminate].
    injection H as <- <- <-. rewrite (IH n0 m0 r0 eq_refl). reflexivity.
Qed.
Lemma lenprefix_split bs n m r : lenprefix bs = Some (n, m, r) ->
  exists pre, bs = pre ++ r /\ lenprefix pre = Some (n, m, []).
Proof.
  revert n m r. induction bs as [|b bs IH]; intros n m r H; [discriminate|].
  cbn [lenprefix] in H. destruct (b <? 128) eqn:Eb.
  - injection H as <- <- <-. exists [b]. split; [reflexivity|]. cbn [lenprefix]. rewrite Eb. reflexivity.
  - destruct (lenprefix bs) as [[[n0 m0] r0]|]; [|discriminate].
    injection H as <- <- <-. destruct (IH n0 m0 r0 eq_refl) as (pre & -> & E).
    exists (b :: pre). split; [reflexivity|]. cbn [lenprefix]. rewrite Eb, E. reflexivity.
Qed.
Lemma lenprefix_dec bs n m r : is_bytes bs -> lenprefix bs = Some (n, m, r) ->
  varint_dec bs = Ok (n, r) /\ 0 <= n.
Proof. intros Hb H. pose proof (lenprefix_spec bs Hb) as L. rewrite H in L. tauto. Qed.
Lemma lenprefix_min pre n : is_bytes pre -> lenprefix pre = Some (n, true, []) <-> 0 <= n /\ pre = varint_enc n.
Proof.
  intros Hb. pose proof (lenprefix_spec pre Hb) as L. split.
  - intros H. rewrite H in L. destruct L as (_ & Hn & u & Eu & _ & _ & Hi).
    rewrite app_nil_r in Eu. subst u. split; [exact Hn|]. symmetry. apply Hi. reflexivity.
  - intros [Hn E]. assert (V : varint_dec pre = Ok (n, [])).
    { rewrite E, <- (app_nil_r (varint_enc n)). apply varint_dec_enc. exact Hn. }
    destruct (lenprefix pre) as [[[n' m] r]|].
    + destruct L as (V' & _ & u & Eu & _ & _ & Hi). rewrite V in V'. injection V' as <- <-.
      rewrite app_nil_r in Eu. subst u. replace m with true; [reflexivity|].
      symmetry. apply Hi. symmetry. exact E.
    + destruct L as (e & L). congruence.
Qed.

Lemma read_upto_exact n p r : n = zlen p -> n < 2 ^ 63 -> read_upto n (p ++ r) = Ok (p, r).
Proof.
  intros -> H. unfold read_upto. replace (2 ^ 63 <=? zlen p) with false by lia.
  replace (Z.to_nat (zlen p)) with (length p) by (unfold zlen; lia).
  rewrite firstn_app_exact, skipn_app_exact, zlen_app.
  destruct (Z.leb_spec (zlen p + zlen r) (zlen p)); [|reflexivity].
  pose proof (zlen_nonneg _ r). assert (zlen r = 0) by lia. destruct r; [|rewrite zlen_cons in *; pose proof (zlen_nonneg _ r); lia].
  rewrite app_nil_r. reflexivity.
Qed.
Lemma read_upto_short n p : zlen p <= n -> n < 2 ^ 63 -> read_upto n p = Ok (p, []).
Proof.
  intros H1 H2. unfold read_upto. replace (2 ^ 63 <=? n) with false by lia.
  replace (zlen p <=? n) with true by lia. reflexivity.
Qed.
Lemma read_upto_inv n bs v r : 0 <= n -> read_upto n bs = Ok (v, r) ->
  bs = v ++ r /\ n < 2 ^ 63 /\ (zlen v = n \/ (zlen v < n /\ r = [])).
Proof.
  intros Hn. unfold read_upto. destruct (Z.leb_spec (2 ^ 63) n); [discriminate|].
  destruct (Z.leb_spec (zlen bs) n).
  - intros E. injection E as <- <-. rewrite app_nil_r. split; [reflexivity|]. split; [assumption|].
    destruct (Z.eq_dec (zlen bs) n); [left; assumption|right; split; [lia|reflexivity]].
  - intros E. injection E as <- <-. split; [symmetry; apply firstn_skipn|]. split; [assumption|].
    left. unfold zlen in *. rewrite firstn_length_le; lia.
Qed.

Lemma read_framed c b bs : is_bytes b -> zlen (snd c) < 2 ^ 63 -> chunk_bytes false c b ->
  read_chunk (b ++ bs) = Ok (fst c, snd c, bs).
Proof.
  intros Hb Hl H. destruct H as [id p Hid Hw|id p pre m Hid Hpre _]; cbn [fst snd app read_chunk] in *.
  - unfold width in Hw.
    destruct (id <? 64); [cbn [bind]; rewrite (read_upto_exact 1) by (first [lia | reflexivity]); reflexivity|].
    destruct (id <? 128); [cbn [bind]; rewrite (read_upto_exact 2) by (first [lia | reflexivity]); reflexivity|].
    replace (id <? 192) with true by lia. cbn [bind]. rewrite (read_upto_exact 4) by (first [lia | reflexivity]). reflexivity.
  - replace (id <? 64) with false by lia. replace (id <? 128) with false by lia. replace (id <? 192) with false by lia.
    apply is_bytes_cons in Hb. destruct Hb as [_ Hb]. apply is_bytes_app in Hb. destruct Hb as [Hb _].
    apply lenprefix_dec in Hpre; [|exact Hb]. destruct Hpre as [V Hn].
    rewrite <- app_assoc. rewrite <- (app_nil_r pre) in V. rewrite (varint_dec_app _ _ _ (p ++ bs) V). cbn [bind].
    rewrite (read_upto_exact (zlen p)) by (first [lia | reflexivity]). reflexivity.
Qed.
Lemma read_cut c b : is_bytes b -> cut_chunk c b -> 
  (exists n, read_chunk b = Ok (fst c, snd c, []) /\ n < 2 ^ 63) \/ read_chunk b = Err OverflowError.
Proof.
  intros Hb H. destruct H as [id cut pre n m Hid Hpre Hlt]. cbn [fst snd read_chunk].
  replace (id <? 64) with false by lia. replace (id <? 128) with false by lia. replace (id <? 192) with false by lia.
  apply is_bytes_cons in Hb. destruct Hb as [_ Hb]. apply is_bytes_app in Hb. destruct Hb as [Hb _].
  apply lenprefix_dec in Hpre; [|exact Hb]. destruct Hpre as [V Hn].
  rewrite <- (app_nil_r pre) in V. rewrite (varint_dec_app _ _ _ cut V). cbn [bind].
  destruct (Z.ltb_spec n (2 ^ 63)).
  - left. exists n. rewrite read_upto_short by lia. split; [reflexivity|assumption].
  - right. unfold read_upto. replace (2 ^ 63 <=? n) with true by lia. reflexivity.
Qed.

Lemma read_chunk_inv bs id p rest : is_bytes bs -> read_chunk bs = Ok (id, p, rest) ->
  exists b, bs = b ++ rest /\ b <> [] /\ 0 <= id < 256 /\
   (chunk_bytes false (id, p) b \/
    (rest = [] /\ cut_chunk (id, p) b) \/
    (rest = [] /\ id < 192 /\ zlen p < width id /\ b = id :: p)).
Proof.
  intros Hb H. destruct bs as [|b0 bs]; [discriminate|]. cbn [read_chunk] in H.
  apply is_bytes_cons in Hb. destruct Hb as [B0 Hb]. unfold is_byte in B0.
  inv_bind H. destruct x as [n r]. inv_bind H. destruct x as [v r'].
  injection H as <- <- <-.
  destruct (Z.ltb_spec b0 192).
  - assert (n = width b0 /\ r = bs) as [-> ->].
    { unfold width. destruct (b0 <? 64); [injection E; auto|]. destruct (b0 <? 128); [injection E; auto|].
      replace (b0 <? 192) with true in E by lia. injection E; auto. }
    assert (0 <= width b0) by (unfold width; destruct (b0 <? 64); [lia|]; destruct (b0 <? 128); lia).
    destruct (read_upto_inv (width b0) _ _ _ ltac:(assumption) E0) as (-> & _ & Hc).
    exists (b0 :: v). split; [reflexivity|]. split; [discriminate|]. split; [lia|].
    destruct Hc as [Hc|[Hc ->]].
    + left. apply CFixed; [lia|exact Hc].
    + right. right. auto.
  - replace (b0 <? 64) with false in E by lia. replace (b0 <? 128) with false in E by lia.
    replace (b0 <? 192) with false in E by lia.
    pose proof (lenprefix_spec bs Hb) as L. destruct (lenprefix bs) as [[[n0 m] r0]|] eqn:EL.
    2: { destruct L as (e & L). congruence. }
    destruct L as (V & Hn & _). rewrite V in E. injection E as <- <-.
    destruct (lenprefix_split _ _ _ _ EL) as (pre & -> & Epre).
    destruct (read_upto_inv _ _ _ _ Hn E0) as (-> & _ & Hc).
    exists (b0 :: pre ++ v). cbn [app]. rewrite <- !app_assoc. split; [reflexivity|].
    split; [discriminate|]. split; [lia|]. destruct Hc as [Hc|[Hc ->]].
    + left. apply CVar with m; [lia|congruence|discriminate].
    + right. left. split; [reflexivity|]. apply Cut with n0 m; auto. lia.
Qed.

(* ---------------- the loop ---------------- *)
Lemma chunk_nonempty s c b : chunk_bytes s c b -> b <> [].
Proof. intros H. destruct H; discriminate. Qed.
Lemma chunk_id s c b : chunk_bytes s c b -> 0 <= fst c < 256.
Proof. intros H. destruct H; cbn [fst]; lia. Qed.
Lemma chunk_payload_bytes s c b : is_bytes b -> chunk_bytes s c b -> is_bytes (snd c).
Proof.
  intros Hb H. destruct H; cbn [snd]; apply is_bytes_cons in Hb; destruct Hb as [_ Hb]; [exact Hb|].
  apply is_bytes_app in Hb. apply Hb.
Qed.
Lemma chunk_payload_len s c b : chunk_bytes s c b -> zlen (snd c) <= zlen b.
Proof.
  intros H. destruct H as [|id p pre m]; cbn [snd]; rewrite zlen_cons, ?zlen_app; [lia|].
  pose proof (zlen_nonneg _ pre). lia.
Qed.

Lemma loop_step en st h bs id p rest f es :
  st_ok st h -> 0 <= id < 256 -> is_bytes p -> bs <> [] ->
  read_chunk bs = Ok (id, p, rest) ->
  (parse_loop (S f) en st bs = Ok es <->
   exists k e es' st', class_of en ((id, p) :: h) = Some k /\ (id = 199 -> version_numbers p <> None) /\
     mk_event en k id p = Ok e /\ st_ok st' ((id, p) :: h) /\ parse_loop f en st' rest = Ok es' /\ es = e :: es').
Proof.
  intros Hst Hid Hb Hne HR. destruct bs as [|b0 bs0]; [congruence|]. cbn [parse_loop]. rewrite HR. cbn [bind].
  pose proof (classify_spec en st h id p Hst Hid Hb) as HC.
  destruct (classify en st id p) as [[k st']|er]; cbn [bind].
  - destruct HC as (H1 & H2 & H3). split.
    + intros H. inv_bind H. inv_bind H. injection H as <-. exists k, x, x0, st'.
      split; [exact H1|]. split; [exact H3|]. split; [exact E|]. split; [exact H2|]. split; [exact E0|reflexivity].
    + intros (k' & e & es' & st2 & E1 & E2 & E3 & E4 & E5 & ->). rewrite H1 in E1. injection E1 as <-.
      rewrite E3. cbn [bind]. destruct H2 as [A1 A2], E4 as [B1 B2].
      assert (st' = st2) as ->.
      { destruct st' as [a b], st2 as [a' b']. cbn [ps_str ps_plug] in A1, A2, B1, B2. congruence. }
      rewrite E5. reflexivity.
  - split; [discriminate|]. intros (k' & e & es' & st2 & E1 & E2 & E3 & _). exfalso.
    destruct HC as [[-> V]|[V|(-> & k2 & V1 & V2)]].
    + apply E2; [reflexivity|exact V].
    + congruence.
    + rewrite E1 in V1. injection V1 as <-. apply (V2 e). exact E3.
Qed.

Lemma loop_framed en : forall cs st h bs f es, st_ok st h -> is_bytes bs -> zlen bs < 2 ^ 63 ->
  (length bs <= f)%nat -> framed false cs bs ->
  (parse_loop f en st bs = Ok es <-> reads en h cs es).
Proof.
  induction cs as [|[id p] cs IH]; intros st h bs f es Hst Hb Hl Hf H; inversion H as [E0|c' cs' b bs0 H3 H5 E0 E1]; subst.
  - destruct f; cbn [parse_loop].
    + split; [intros E; injection E as <-; constructor|intros E; inversion E; reflexivity].
    + split; [intros E; injection E as <-; constructor|intros E; inversion E; reflexivity].
  - apply is_bytes_app in Hb. destruct Hb as [Hb1 Hb2]. rewrite zlen_app in Hl. rewrite app_length in Hf.
    assert (Hpl := chunk_payload_len _ _ _ H3). cbn [snd] in Hpl. pose proof (zlen_nonneg _ bs0).
    pose proof (chunk_nonempty _ _ _ H3). destruct f as [|f]; [destruct b; [congruence|cbn [length] in Hf; lia]|].
    assert (Hrd := read_framed (id, p) b bs0 Hb1 ltac:(cbn [snd]; lia) H3). cbn [fst snd] in Hrd.
    assert (Hid : 0 <= id < 256) by apply (chunk_id _ _ _ H3).
    assert (Hp : is_bytes p) by apply (chunk_payload_bytes _ _ _ Hb1 H3).
    rewrite (loop_step en st h (b ++ bs0) id p bs0 f es Hst Hid Hp);
      [|destruct b; [congruence|discriminate]|exact Hrd].
    assert (Hfl : (length bs0 <= f)%nat) by (destruct b; [congruence|cbn [length] in Hf; lia]).
    pose proof (zlen_nonneg _ b). split.
    + intros (k & e & es' & st' & E1 & E2 & E3 & E4 & E5 & ->). apply RCons with k; auto.
      apply (IH st' _ bs0 f es' E4 Hb2 ltac:(lia) Hfl H5). exact E5.
    + intros R. inversion R as [|h' id' p' cs' k e es0 R1 R2 R3 R4]; subst.
      pose proof (classify_spec en st h id p Hst Hid Hp) as HC.
      destruct (classify en st id p) as [[k' st']|er].
      * destruct HC as (C1 & C2 & C3). exists k, e, es0, st'. repeat split; auto; try apply C2.
        apply (IH st' _ bs0 f es0 C2 Hb2 ltac:(lia) Hfl H5). assumption.
      * exfalso. destruct HC as [[-> V]|[V|(-> & k2 & V1 & V2)]].
        -- match goal with H : 199 = 199 -> _ |- _ => apply H; [reflexivity|exact V] end.
        -- congruence.
        -- replace k2 with k in V2 by congruence. eapply V2. eassumption.
Qed.

Lemma loop_any en : forall f st h bs es, st_ok st h -> is_bytes bs ->
  parse_loop f en st bs = Ok es -> exists cs, framed_cut cs bs /\ reads en h cs es.
Proof.
  induction f as [|f IH]; intros st h bs es Hst Hb H.
  - destruct bs; [|discriminate]. injection H as <-. exists []. split; [apply FWhole; constructor|constructor].
  - destruct bs as [|b0 bs0]; [injection H as <-; exists []; split; [apply FWhole; constructor|constructor]|].
    set (bs := b0 :: bs0) in *. assert (Hne : bs <> []) by discriminate. 
    assert (Hrc : exists id p rest, read_chunk bs = Ok (id, p, rest)).
    { unfold bs in *. cbn [parse_loop] in H. destruct (read_chunk (b0 :: bs0)) as [[[id p] rest]|]; [eauto|discriminate]. }
    clearbody bs. destruct Hrc as (id & p & rest & Hrc).
    destruct (read_chunk_inv _ _ _ _ Hb Hrc) as (b & -> & Hbne & Hid & Hcase).
    apply is_bytes_app in Hb. destruct Hb as [Hb1 Hb2].
    assert (Hp : is_bytes p).
    { destruct Hcase as [Hc|[[-> Hc]|(-> & _ & _ & ->)]].
      - apply (chunk_payload_bytes _ _ _ Hb1 Hc).
      - inversion Hc; subst. apply is_bytes_cons in Hb1. destruct Hb1 as [_ Hb1]. apply is_bytes_app in Hb1. apply Hb1.
      - apply is_bytes_cons in Hb1. apply Hb1. }
    rewrite (loop_step en st h _ _ _ _ f es Hst Hid Hp Hne Hrc) in H.
    destruct H as (k & e & es' & st' & E1 & E2 & E3 & E4 & E5 & ->).
    destruct (IH _ _ _ _ E4 Hb2 E5) as (cs & HF & HR).
    exists ((id, p) :: cs). split; [|apply RCons with k; assumption].
    destruct Hcase as [Hc|[[-> Hc]|(-> & Hlt & Hlen & ->)]].
    + destruct HF as [cs bs HF|cs bs c b' HF Hcut].
      * apply FWhole. constructor; assumption.
      * rewrite app_assoc. change ((id, p) :: cs ++ [c]) with (((id, p) :: cs) ++ [c]).
        apply FCut; [constructor; assumption|exact Hcut].
    + assert (cs = []) as ->.
      { destruct f; cbn [parse_loop] in E5; injection E5 as <-; inversion HR; reflexivity. }
      rewrite app_nil_r. change [(id, p)] with ([] ++ [(id, p)]). change b with ([] ++ b).
      apply FCut; [constructor|exact Hc].
    + exfalso. destruct (mk_event_inv _ _ _ _ _ E3) as (_ & _ & _ & _ & _ & Hsz).
      specialize (Hsz Hlt). unfold width in Hlen. lia.
Qed.
