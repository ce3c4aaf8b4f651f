(* Where the exceptions of pyflp.exceptions come from: never from a struct. *)
From Coq Require Import String ZArith List Bool Lia Arith.
From Verif Require Import M_Base M_Float M_Text M_Construct M_Structs M_Events M_Parse.
From Verif Require Import S_Canon S_File P_Base P_Codec P_RT P_Cells P_Payload P_Special P_File P_Null.
Import ListNotations.
Open Scope Z_scope.

(* the exceptions declared by pyflp itself that no struct raises, and the model's
   own out-of-fuel marker *)
Definition api (e : exn) : bool :=
  match e with
  | HeaderCorrupted | EventIDOutOfRange | InvalidEventChunkSize | VersionNotDetected | NoModelsFound
  | OutOfFuel => true
  | _ => false
  end.
Definition nhd {A} (r : res A) : Prop := match r with Ok _ => True | Err e => api e = false end.
Definition nh (c : con) : Prop := forall cx bs, nhd (cparse c cx bs).
Ltac disc := intros; first [exact I | reflexivity | discriminate].
Lemma nhd_bind A B (m : res A) (k : A -> res B) : nhd m -> (forall x, nhd (k x)) -> nhd (bind m k).
Proof. intros H1 H2. destruct m; cbn [bind]; [apply H2|exact H1]. Qed.
Lemma nhd_ok A (x : A) : nhd (Ok x). Proof. disc. Qed.
Lemma nhd_take n bs : nhd (take n bs).
Proof. unfold take. destruct (n <=? length bs)%nat; disc. Qed.
Ltac nhd := repeat (first
  [ apply nhd_ok | apply nhd_take | apply nhd_bind; [|intros] | disc
  | match goal with
    | |- nhd (match ?x with _ => _ end) => destruct x
    | |- nhd (let* _ := _ in _) => apply nhd_bind; [|intros]
    end ]).

Lemma nh_uint n : nh (c_uint n). Proof. intros cx bs. cbn [c_uint cparse]. nhd. Qed.
Lemma nh_sint n : nh (c_sint n). Proof. intros cx bs. cbn [c_sint cparse]. nhd. Qed.
Lemma nh_bytes n : nh (Bytes n). Proof. intros cx bs. cbn [Bytes cparse]. nhd. Qed.
Lemma nh_f64 : nh Float64l. Proof. intros cx bs. cbn [Float64l cparse]. nhd. Qed.
Lemma nh_f32 : nh Float32l. Proof. intros cx bs. cbn [Float32l cparse]. nhd. Qed.
Lemma nh_flag : nh Flag. Proof. intros cx bs. cbn [Flag cparse]. nhd. Qed.
Lemma nh_greedy : nh GreedyBytes. Proof. intros cx bs. disc. Qed.
Lemma nhd_varint bs : nhd (varint_dec bs).
Proof. induction bs as [|b bs IH]; cbn [varint_dec]; nhd. exact IH. Qed.
Lemma nh_varint : nh VarInt.
Proof. intros cx bs. cbn [VarInt cparse]. apply nhd_bind; [apply nhd_varint|]. intros []. nhd. Qed.
Lemma nh_optional c : nh (Optional c).
Proof. intros cx bs. cbn [Optional cparse]. destruct (cparse c cx bs); disc. Qed.
Lemma nh_if cond c : nh c -> nh (If_ cond c).
Proof. intros H cx bs. cbn [If_ cparse]. destruct (cond cx); [apply H|disc]. Qed.
Lemma nh_stopif cond : nh (StopIf cond).
Proof. intros cx bs. cbn [StopIf cparse]. destruct (cond cx); disc. Qed.
Lemma nh_struct fs : Forall (fun f => nh (snd f)) fs -> nh (Struct fs).
Proof.
  intros H cx bs. cbn [Struct cparse]. apply nhd_bind; [|intros []; nhd].
  generalize (@nil (string * val)) as acc. revert bs.
  induction H as [|[n c] fs Hc H IH]; intros bs acc; cbn [struct_parse]; [disc|].
  specialize (Hc (cx_with_fields cx acc) bs). cbn [snd] in Hc.
  destruct (cparse c (cx_with_fields cx acc) bs) as [[]|e]; [apply IH|]. destruct e; try disc; discriminate Hc.
Qed.
(* Items of the greedy lists always use up bytes, so the loops over them end. *)
Definition shr (c : con) : Prop := forall cx bs v r, cparse c cx bs = Ok (v, r) -> (length r <= length bs)%nat.
Definition eats (c : con) : Prop := forall cx bs v r, cparse c cx bs = Ok (v, r) -> (length r < length bs)%nat.
Lemma take_len n bs a r : take n bs = Ok (a, r) -> length bs = (n + length r)%nat.
Proof. intros H. apply take_inv in H. destruct H as [-> H]. rewrite app_length. lia. Qed.
Lemma eats_uint n : (0 < n)%nat -> eats (c_uint n).
Proof. intros Hn cx bs v r H. cbn [c_uint cparse] in H. inv_bind H. destruct x. injection H as _ <-. apply take_len in E. lia. Qed.
Lemma eats_sint n : (0 < n)%nat -> eats (c_sint n).
Proof. intros Hn cx bs v r H. cbn [c_sint cparse] in H. inv_bind H. destruct x. injection H as _ <-. apply take_len in E. lia. Qed.
Lemma eats_flag : eats Flag.
Proof. intros cx bs v r H. cbn [Flag cparse] in H. inv_bind H. destruct x. injection H as _ <-. apply take_len in E. lia. Qed.
Lemma shr_bytes n : shr (Bytes n).
Proof. intros cx bs v r H. cbn [Bytes cparse] in H. inv_bind H. destruct x. injection H as _ <-. apply take_len in E. lia. Qed.
Lemma shr_f32 : shr Float32l.
Proof. intros cx bs v r H. cbn [Float32l cparse] in H. inv_bind H. destruct x. injection H as _ <-. apply take_len in E. lia. Qed.
Lemma varint_shr : forall bs n r, varint_dec bs = Ok (n, r) -> (length r <= length bs)%nat.
Proof.
  induction bs as [|b bs IH]; intros n r H; cbn [varint_dec] in H; [discriminate|]. cbn [length]. destruct (b <? 128).
  - injection H as _ <-. lia.
  - inv_bind H. destruct x. injection H as _ <-. apply IH in E. lia.
Qed.
Lemma shr_varint : shr VarInt.
Proof. intros cx bs v r H. cbn [VarInt cparse] in H. inv_bind H. destruct x. injection H as _ <-. apply varint_shr in E. exact E. Qed.
Lemma shr_if cond c : shr c -> shr (If_ cond c).
Proof. intros Hc cx bs v r H. cbn [If_ cparse] in H. destruct (cond cx); [eapply Hc; exact H|]. injection H as _ <-. lia. Qed.
Lemma shr_stopif cond : shr (StopIf cond).
Proof. intros cx bs v r H. cbn [StopIf cparse] in H. destruct (cond cx); [discriminate|]. injection H as _ <-. lia. Qed.
Lemma shr_padded len : shr (PaddedString16 len).
Proof.
  intros cx bs v r H. cbn [PaddedString16 cparse] in H. inv_bind H.
  destruct (x <? 0); [discriminate|]. destruct (_ <? x); [discriminate|]. cbv zeta in H.
  destruct (utf16_dec _); [|discriminate]. injection H as _ <-. rewrite skipn_length. lia.
Qed.
Lemma eats_bytes n : (0 < n)%nat -> eats (Bytes n).
Proof. intros Hn cx bs v r H. cbn [Bytes cparse] in H. inv_bind H. destruct x. injection H as _ <-. apply take_len in E. lia. Qed.
Lemma eats_f64 : eats Float64l.
Proof. intros cx bs v r H. cbn [Float64l cparse] in H. inv_bind H. destruct x. injection H as _ <-. apply take_len in E. lia. Qed.
Lemma shr_computed f : shr (Computed f).
Proof. intros cx bs v r H. cbn [Computed cparse] in H. inv_bind H. injection H as _ <-. lia. Qed.
Lemma shr_optional c : shr c -> shr (Optional c).
Proof.
  intros Hc cx bs v r H. cbn [Optional cparse] in H. destruct (cparse c cx bs) as [[a b]|] eqn:E; injection H as <- <-; [|lia].
  eapply Hc. exact E.
Qed.
Lemma shr_adapter d e c : shr c -> shr (Adapter d e c).
Proof. intros Hc cx bs v r H. cbn [Adapter cparse] in H. inv_bind H. destruct x. inv_bind H. injection H as _ <-. eapply Hc. exact E. Qed.
Lemma eats_adapter d e c : eats c -> eats (Adapter d e c).
Proof. intros Hc cx bs v r H. cbn [Adapter cparse] in H. inv_bind H. destruct x. inv_bind H. injection H as _ <-. eapply Hc. exact E. Qed.
Lemma shr_prefixed l c : shr l -> shr (Prefixed l c).
Proof.
  intros Hl cx bs v r H. cbn [Prefixed cparse] in H. inv_bind H. destruct x as [n b]. apply Hl in E.
  destruct (as_int n); [|discriminate]. destruct (_ <? _); [discriminate|]. inv_bind H. destruct x. injection H as _ <-.
  rewrite skipn_length. lia.
Qed.
Lemma eats_shr c : eats c -> shr c.
Proof. intros H cx bs v r E. apply H in E. lia. Qed.
Lemma shr_fields fs : Forall (fun f => shr (snd f)) fs -> forall cx acc bs a r,
  struct_parse fs cx acc bs = Ok (a, r) -> (length r <= length bs)%nat.
Proof.
  induction 1 as [|[n c] fs Hc HF IH]; intros cx acc bs a r H; cbn [struct_parse] in H; [injection H as _ <-; lia|].
  cbn [snd] in Hc. destruct (cparse c (cx_with_fields cx acc) bs) as [[v b]|e] eqn:E.
  - apply Hc in E. apply IH in H. lia.
  - destruct e; try discriminate. injection H as _ <-. lia.
Qed.
Lemma eats_struct n c fs : eats c -> (forall cx bs, cparse c cx bs <> Err StopFieldError) -> Forall (fun f => shr (snd f)) fs -> eats (Struct ((n, c) :: fs)).
Proof.
  intros Hc Hs HF cx bs v r H. cbn [Struct cparse] in H. inv_bind H. destruct x as [a b]. injection H as _ <-. cbn [struct_parse] in E.
  specialize (Hs (cx_with_fields cx []) bs).
  destruct (cparse c (cx_with_fields cx []) bs) as [[v0 b0]|e] eqn:E0.
  - apply Hc in E0. apply (shr_fields _ HF) in E. lia.
  - destruct e; try discriminate. congruence.
Qed.
Lemma nh_range c : eats c -> nh (GreedyRange c).
Proof.
  intros Hc cx bs. cbn [GreedyRange cparse]. apply nhd_bind; [|intros []; nhd].
  assert (Hf : (length bs < S (length bs))%nat) by lia.
  generalize 0 as i. revert Hf. generalize (S (length bs)) as f. intros f. revert bs.
  induction f as [|f IH]; intros bs Hf i; [lia|]. cbn [greedy_parse].
  destruct (cparse c _ bs) as [[v b]|] eqn:E; [|exact I]. apply Hc in E. apply nhd_bind; [apply IH; lia|intros []; nhd].
Qed.
Lemma nh_parray cnt c : nh cnt -> eats c -> nh c -> nh (PrefixedArray cnt c).
Proof.
  intros H1 He H2 cx bs. cbn [PrefixedArray cparse]. apply nhd_bind; [apply H1|]. intros [v b].
  destruct (as_int v); [|disc]. apply nhd_bind; [|intros []; nhd].
  assert (Hf : (length b < S (length b))%nat) by lia.
  generalize 0 as i. revert Hf. generalize (S (length b)) as f. intros f. revert b.
  induction f as [|f IH]; intros b Hf i; cbn [parray_parse]; destruct (z <=? i); try disc; try lia.
  pose proof (H2 (cx_with_index cx i) b) as N. destruct (cparse c (cx_with_index cx i) b) as [[v' b']|] eqn:E; cbn [bind]; [|exact N].
  apply He in E. apply nhd_bind; [apply IH; lia|intros []; nhd].
Qed.
Ltac head t := lazymatch t with ?f _ => head f | _ => t end.
Ltac shr := lazymatch goal with
  | |- shr (Bytes _) => apply shr_bytes
  | |- shr Float32l => apply shr_f32
  | |- shr Float64l => apply eats_shr, eats_f64
  | |- shr VarInt => apply shr_varint
  | |- shr (StopIf _) => apply shr_stopif
  | |- shr (If_ _ _) => apply shr_if; shr
  | |- shr (PaddedString16 _) => apply shr_padded
  | |- shr (Computed _) => apply shr_computed
  | |- shr (Adapter _ _ _) => apply shr_adapter; shr
  | |- shr (Optional _) => apply shr_optional; shr
  | |- shr (Prefixed _ _) => apply shr_prefixed; shr
  | |- shr (c_uint _) => apply eats_shr, eats_uint; apply Nat.lt_0_succ
  | |- shr (c_sint _) => apply eats_shr, eats_sint; apply Nat.lt_0_succ
  | |- shr Flag => apply eats_shr, eats_flag
  | |- shr ?c => let h := head c in unfold h; shr
  end.
Ltac eats := lazymatch goal with
  | |- eats (Bytes _) => apply eats_bytes; apply Nat.lt_0_succ
  | |- eats Float64l => apply eats_f64
  | |- eats (c_uint _) => apply eats_uint; apply Nat.lt_0_succ
  | |- eats (c_sint _) => apply eats_sint; apply Nat.lt_0_succ
  | |- eats Flag => apply eats_flag
  | |- eats (Adapter _ _ _) => apply eats_adapter; eats
  | |- eats (Struct _) => apply eats_struct; [eats|nostop|repeat (apply Forall_cons || apply Forall_nil); cbn [snd]; shr]
  | |- eats ?c => let h := head c in unfold h; eats
  end with nostop := intros; cbn [StdEnum Adapter cparse Int32ul Int32sl c_uint c_sint Bytes Float64l]; unfold take;
    repeat match goal with
    | |- context [if ?c then _ else _] => destruct c; cbn [bind]
    | |- context [match ?c with _ => _ end] => destruct c; cbn [bind]
    end; discriminate.
Lemma nh_array n c : nh c -> nh (Array n c).
Proof.
  intros H cx bs. cbn [Array cparse]. apply nhd_bind; [|intros []; nhd].
  generalize 0 as i. revert bs. induction n as [|n IH]; intros bs i; cbn [array_parse]; [disc|].
  apply nhd_bind; [apply H|]. intros []. apply nhd_bind; [apply IH|intros []; nhd].
Qed.
Lemma nh_prefixed len c : nh len -> nh c -> nh (Prefixed len c).
Proof.
  intros H1 H2 cx bs. cbn [Prefixed cparse]. apply nhd_bind; [apply H1|]. intros [v b].
  destruct (as_int v); [|disc]. destruct (_ <? _); [disc|].
  apply nhd_bind; [apply H2|intros []; nhd].
Qed.
Lemma nh_switch sel : (forall cx, nh (sel cx)) -> nh (Switch sel).
Proof. intros H cx bs. cbn [Switch cparse]. apply H. Qed.
Lemma nh_adapter dec enc c : nh c -> (forall cx v, nhd (dec cx v)) -> nh (Adapter dec enc c).
Proof.
  intros H1 H2 cx bs. cbn [Adapter cparse]. apply nhd_bind; [apply H1|]. intros [v b].
  apply nhd_bind; [apply H2|intros; nhd].
Qed.
Lemma nh_computed f : (forall cx, nhd (f cx)) -> nh (Computed f).
Proof. intros H cx bs. cbn [Computed cparse]. apply nhd_bind; [apply H|intros; nhd]. Qed.
Lemma nh_padded len : (forall cx, nhd (len cx)) -> nh (PaddedString16 len).
Proof. intros H cx bs. cbn [PaddedString16 cparse]. apply nhd_bind; [apply H|]. intros n. nhd. Qed.
Lemma nhd_offsets k : forall i pos s, nhd (sum_offsets k i pos s).
Proof. induction k as [|k IH]; intros; cbn [sum_offsets]; [disc|]. apply nhd_bind; [nhd|]. intros []. apply IH. Qed.

Ltac nh := lazymatch goal with
  | |- nh (c_uint _) => apply nh_uint
  | |- nh (c_sint _) => apply nh_sint
  | |- nh (Bytes _) => apply nh_bytes
  | |- nh Float64l => apply nh_f64
  | |- nh Float32l => apply nh_f32
  | |- nh Flag => apply nh_flag
  | |- nh GreedyBytes => apply nh_greedy
  | |- nh VarInt => apply nh_varint
  | |- nh (Optional _) => apply nh_optional
  | |- nh (If_ _ _) => apply nh_if; nh
  | |- nh (StopIf _) => apply nh_stopif
  | |- nh (GreedyRange _) => apply nh_range; eats
  | |- nh (Array _ _) => apply nh_array; nh
  | |- nh (PrefixedArray _ _) => apply nh_parray; [nh|eats|nh]
  | |- nh (Prefixed _ _) => apply nh_prefixed; nh
  | |- nh (Struct _) => apply nh_struct; repeat (apply Forall_cons || apply Forall_nil); cbn [snd]; nh
  | |- nh (Switch _) => apply nh_switch; intros
  | |- nh (PaddedString16 _) => apply nh_padded; intros
  | |- nh (Computed _) => apply nh_computed; intros
  | |- nh (Adapter _ _ _) => apply nh_adapter; [nh|intros; try solve [nhd]]
  | |- nh ?c => let h := head c in unfold h; nh
  | _ => idtac
  end.

Lemma nh_kind k : nh (kcon k).
Proof.
  destruct k; cbn [kcon]; nh.
  (* automation positions *)
  unfold get_position. nhd. apply nhd_offsets.
Qed.

Definition err_in {A} (l : list exn) (r : res A) : Prop :=
  match r with Ok _ => True | Err e => api e = false \/ In e l end.
Lemma err_in_nhd A l (r : res A) : nhd r -> err_in l r.
Proof. destruct r; cbn; auto. Qed.
Lemma err_in_bind A B l (m : res A) (k : A -> res B) : err_in l m -> (forall x, err_in l (k x)) -> err_in l (bind m k).
Proof. intros H1 H2. destruct m; cbn [bind]; [apply H2|exact H1]. Qed.
Lemma err_in_bind' A B l (m : res A) (k : A -> res B) : err_in l m -> (forall x, m = Ok x -> err_in l (k x)) -> err_in l (bind m k).
Proof. intros H1 H2. destruct m; cbn [bind]; [apply H2; reflexivity|exact H1]. Qed.

Lemma mk_event_errs en k id p : nhd (mk_event en k id p) \/
  (mk_event en k id p = Err EventIDOutOfRange /\ allowed_id k id = false) \/
  (mk_event en k id p = Err InvalidEventChunkSize /\ allowed_id k id = true /\ id < 192 /\ zlen p <> width id).
Proof.
  unfold mk_event, width. destruct (match k, p with KVSTPlugin, [] => Err IndexError | _, _ => Ok tt end) as [[]|e] eqn:E.
  2:{ left. cbn [bind]. destruct k; try discriminate E. destruct p; [|discriminate E]. injection E as <-. reflexivity. }
  cbn [bind]. destruct (allowed_id k id); cbn [negb]; [|right; left; auto].
  destruct (Z.ltb_spec id 192).
  - destruct (Z.eqb_spec (zlen p) (if id <? 64 then 1 else if id <? 128 then 2 else 4)); cbn [negb].
    + left. apply nhd_bind; [apply nh_kind|]. intros []. exact I.
    + right. right. auto.
  - left. cbn [negb]. apply nhd_bind; [apply nh_kind|]. intros []. exact I.
Qed.
Lemma text_201 k : k = KAscii \/ k = KUnicode -> allowed_id k 201 = true.
Proof. intros [-> | ->]; reflexivity. Qed.
Definition vers_ok (h : list chunk) : Prop := forall p, In (199, p) h -> version_numbers p <> None.
Lemma no_version_none h : vers_ok h -> text_class h = None -> ~ In 199 (map fst h).
Proof.
  unfold text_class. intros HV H. induction h as [|[i p] h IH]; [intros []|]. cbn [last_payload map fst In] in *.
  destruct (Z.eqb_spec i 199) as [->|N].
  - exfalso. apply (HV p); [left; reflexivity|]. destruct (version_numbers p); [discriminate|reflexivity].
  - intros [->|Hin]; [congruence|]. apply IH; [|exact H|exact Hin]. intros q Hq. apply HV. right. exact Hq.
Qed.
Lemma classify_errs en st h id p : st_ok st h -> vers_ok h -> 0 <= id < 256 -> is_bytes p ->
  err_in [VersionNotDetected] (classify en st id p) /\
  (classify en st id p = Err VersionNotDetected -> text_id id = true /\ registered en id = None /\ ~ In 199 (map fst h)).
Proof.
  intros [Hs Hp] HV Hid Hb. unfold classify. destruct (Z.eqb_spec id 199) as [->|Hv].
  { rewrite version_parts_spec. destruct (version_numbers p); cbn [bind].
    - rewrite (lookup_registered en 199) by lia. assert (registered en 199 = Some KAscii) as -> by (unfold registered; destruct (en_ctrl en); reflexivity).
      split; [exact I|discriminate].
    - destruct (ascii_dec p); cbn [bind]; split; [left; reflexivity|discriminate|left; reflexivity|discriminate]. }
  cbn [bind]. rewrite (lookup_registered en id) by exact Hid. destruct (registered en id) as [k|] eqn:Hr; [split; [exact I|discriminate]|].
  destruct (Z.ltb_spec id 64); [split; [exact I|discriminate]|]. destruct (Z.ltb_spec id 128); [split; [exact I|discriminate]|].
  destruct (Z.ltb_spec id 192); [split; [exact I|discriminate]|]. rewrite text_id_spec by lia. destruct (text_id id) eqn:Ht.
  - rewrite Hs. destruct (text_class h) as [k|] eqn:Hc.
    + destruct (Z.eqb_spec id 201) as [->|]; [|split; [exact I|discriminate]]. apply text_class_kind in Hc.
      destruct (mk_event_errs en k 201 p) as [N|[[_ N]|[_ [_ [N _]]]]]; [|rewrite (text_201 k Hc) in N; discriminate|lia].
      destruct (mk_event en k 201 p) as [e|e]; cbn [bind nhd] in *; (split; [|discriminate || (intros X; injection X as ->; discriminate N)]); [exact I|left; exact N].
    + split; [right; left; reflexivity|]. intros _. split; [reflexivity|]. split; [reflexivity|].
      intros Hin. apply (no_version_none h HV Hc Hin).
  - destruct (id =? 213); [destruct (ps_plug st)|]; (split; [exact I|discriminate]).
Qed.

Lemma class_allowed en id p h k : 0 <= id < 256 -> class_of en ((id, p) :: h) = Some k -> allowed_id k id = true.
Proof.
  intros Hid H. unfold class_of in H. destruct (registered en id) as [k'|] eqn:E.
  { injection H as <-.
    assert (Hall : forallb (fun id => match registered en id with Some k => allowed_id k id | None => true end)
                     (map Z.of_nat (seq 0 256)) = true).
    { unfold registered. destruct (en_ctrl en); vm_compute; reflexivity. }
    rewrite forallb_forall in Hall. specialize (Hall id (all_ids id Hid)). rewrite E in Hall. exact Hall. }
  destruct (Z.ltb_spec id 64); [injection H as <-; cbn [allowed_id]; lia|].
  destruct (Z.ltb_spec id 128); [injection H as <-; cbn [allowed_id]; lia|].
  destruct (Z.ltb_spec id 192); [injection H as <-; cbn [allowed_id]; lia|].
  destruct (text_id id) eqn:Ht.
  { apply text_class_kind in H. rewrite <- text_id_spec in Ht by lia.
    destruct H as [-> | ->]; cbn [allowed_id]; replace (192 <=? id) with true by lia; exact Ht. }
  destruct (id =? 213).
  { destruct (plugin_name h) as [n|]; injection H as <-; [|reflexivity].
    unfold plugin_class. match goal with |- context [find ?f ?l] => destruct (find f l) as [[m k]|] eqn:F; [|reflexivity] end.
    apply find_some in F. destruct F as [F _]. cbn [In] in F.
    repeat (destruct F as [F|F]; [injection F as <- <-; reflexivity|]). destruct F. }
  injection H as <-. reflexivity.
Qed.

(* which bytes make the event loop raise one of pyflp's own exceptions *)
Definition trouble (en : env) (h : list chunk) (bs : bytes) (e : exn) : Prop :=
  exists cs1 es1 b1 b2, bs = b1 ++ b2 /\ framed false cs1 b1 /\ reads en h cs1 es1 /\
   ((e = VersionNotDetected /\ exists id r, b2 = id :: r /\ text_id id = true /\ registered en id = None /\
       ~ In 199 (map fst cs1 ++ map fst h)) \/
    (e = InvalidEventChunkSize /\ exists id cut, b2 = id :: cut /\ id < 192 /\ zlen cut < width id)).

Lemma loop_err en : forall f st h bs e, st_ok st h -> vers_ok h -> is_bytes bs -> (length bs <= f)%nat ->
  parse_loop f en st bs = Err e -> api e = true -> trouble en h bs e.
Proof.
  induction f as [|f IH]; intros st h bs e Hst HV Hb Hlf H He.
  { destruct bs; [discriminate|]. cbn [length] in Hlf. lia. }
  destruct bs as [|b0 bs0]; [discriminate|]. set (bs := b0 :: bs0) in *.
  cbn [parse_loop] in H. change (match bs with [] => _ | _ :: _ => ?x end) with x in H.
  unfold bs in H. destruct (read_chunk (b0 :: bs0)) as [[[id p] rest]|e0] eqn:Hrc; cbn [bind] in H.
  2:{ injection H as ->. exfalso. assert (N : nhd (read_chunk (b0 :: bs0))).
      { cbn [read_chunk]. apply nhd_bind.
        - destruct (b0 <? 64); [exact I|]. destruct (b0 <? 128); [exact I|]. destruct (b0 <? 192); [exact I|]. apply nhd_varint.
        - intros []. apply nhd_bind; [|intros []; exact I]. unfold read_upto. nhd. }
      rewrite Hrc in N. cbn [nhd] in N. congruence. }
  fold bs in Hrc. destruct (read_chunk_inv bs _ _ _ Hb Hrc) as (b & Ebs & Hbne & Hid & Hcase).
  assert (Ehd : b0 = id). { unfold bs in Hrc. cbn [read_chunk] in Hrc. inv_bind Hrc. destruct x. inv_bind Hrc. destruct x. congruence. }
  assert (Hb' := Hb). rewrite Ebs in Hb'. apply is_bytes_app in Hb'. destruct Hb' as [Hb1 Hb2].
  assert (Hp : is_bytes p).
  { destruct Hcase as [Hc|[[-> Hc]|(-> & _ & _ & ->)]].
    - apply (chunk_payload_bytes _ _ _ Hb1 Hc).
    - inversion Hc; subst. apply is_bytes_cons in Hb1. destruct Hb1 as [_ Hb1]. apply is_bytes_app in Hb1. apply Hb1.
    - apply is_bytes_cons in Hb1. apply Hb1. }
  destruct (classify_errs en st h id p Hst HV Hid Hp) as [HC1 HC2].
  pose proof (classify_spec en st h id p Hst Hid Hp) as HC.
  destruct (classify en st id p) as [[k st']|e0]; cbn [bind] in H.
  2:{ injection H as ->. destruct HC1 as [HC1|[<-|[]]]; [congruence|]. destruct (HC2 eq_refl) as (T1 & T2 & T3).
      exists [], [], [], bs. split; [reflexivity|]. split; [constructor|]. split; [constructor|]. left. split; [reflexivity|].
      exists id, bs0. split; [unfold bs; congruence|]. auto. }
  destruct HC as (C1 & C2 & C3).
  destruct (mk_event_errs en k id p) as [N|[[_ N]|(N1 & _ & N2 & N3)]].
  - destruct (mk_event en k id p) as [ev|e0] eqn:EM; cbn [bind] in H; [|cbn [nhd] in N; injection H as ->; congruence].
    destruct (parse_loop f en st' rest) as [es|e0] eqn:EL; cbn [bind] in H; [discriminate|]. injection H as ->.
    assert (HV' : vers_ok ((id, p) :: h)).
    { intros q [Eq|Hq]; [injection Eq as -> ->; apply C3; reflexivity|apply HV; exact Hq]. }
    assert (Hlr : (length rest <= f)%nat).
    { rewrite Ebs, app_length in Hlf. destruct b; [congruence|cbn [length] in Hlf; lia]. }
    destruct (IH _ _ _ _ C2 HV' Hb2 Hlr EL He) as (cs1 & es1 & b1 & b2 & -> & F1 & R1 & HT).
    destruct Hcase as [Hc|[[Er _]|(Er & Hlt & Hlen & ->)]].
    + exists ((id, p) :: cs1), (ev :: es1), (b ++ b1), b2. split; [rewrite Ebs, app_assoc; reflexivity|].
      split; [constructor; assumption|]. split; [apply RCons with k; assumption|].
      destruct HT as [[-> (i & r & T1 & T2 & T3 & T4)]|HT]; [left|right; exact HT]. split; [reflexivity|]. exists i, r.
      split; [exact T1|]. split; [exact T2|]. split; [exact T3|]. cbn [map fst app In] in *. intros X. apply T4.
      destruct X as [X|X]; [apply in_or_app; right; left; exact X|]. apply in_app_or in X. apply in_or_app. cbn [In]. tauto.
    + rewrite Er in EL. destruct f; discriminate EL.
    + rewrite Er in EL. destruct f; discriminate EL.
  - rewrite (class_allowed _ _ _ _ _ Hid C1) in N. discriminate.
  - rewrite N1 in H. cbn [bind] in H. injection H as <-. exists [], [], [], bs.
    split; [reflexivity|]. split; [constructor|]. split; [constructor|]. right. split; [reflexivity|].
    destruct Hcase as [Hc|[[_ Hc]|(-> & Hlt & Hlen & Eb)]].
    + inversion Hc; subst; [congruence|lia].
    + inversion Hc; subst. lia.
    + exists id, p. split; [rewrite Ebs, Eb, app_nil_r; reflexivity|]. auto.
Qed.
Lemma read_chunk_nhd bs : nhd (read_chunk bs).
Proof.
  destruct bs as [|b0 bs]; [reflexivity|]. cbn [read_chunk]. apply nhd_bind.
  - destruct (b0 <? 64); [exact I|]. destruct (b0 <? 128); [exact I|]. destruct (b0 <? 192); [exact I|]. apply nhd_varint.
  - intros []. apply nhd_bind; [|intros []; exact I]. unfold read_upto. nhd.
Qed.
(* whatever the bytes: no HeaderCorrupted once the header is accepted *)
Lemma mk_event_nh en k id p : mk_event en k id p <> Err HeaderCorrupted.
Proof. intros H. destruct (mk_event_errs en k id p) as [N|[[N _]|[N _]]]; rewrite H in N; discriminate N. Qed.
Lemma bind_nh A B (m : res A) (k : A -> res B) : m <> Err HeaderCorrupted -> (forall x, k x <> Err HeaderCorrupted) ->
  bind m k <> Err HeaderCorrupted.
Proof. intros H1 H2. destruct m; cbn [bind]; [apply H2|congruence]. Qed.
Lemma classify_nh en st id p : classify en st id p <> Err HeaderCorrupted.
Proof.
  unfold classify. apply bind_nh.
  { destruct (id =? 199); [|discriminate]. rewrite version_parts_spec.
    destruct (version_numbers p); [discriminate|]. destruct (ascii_dec p); discriminate. }
  intros o. destruct (lookup_type id (enum_tables en)); [discriminate|].
  destruct (id <? 64); [discriminate|]. destruct (id <? 128); [discriminate|]. destruct (id <? 192); [discriminate|].
  destruct ((id <? 208) || mem_Z id new_text_ids).
  - destruct o; [|discriminate]. destruct (id =? 201); [|discriminate].
    apply bind_nh; [apply mk_event_nh|]. discriminate.
  - destruct (id =? 213); [destruct (ps_plug st)|]; discriminate.
Qed.
Lemma loop_nh en : forall f st bs, parse_loop f en st bs <> Err HeaderCorrupted.
Proof.
  induction f as [|f IH]; intros st bs; destruct bs as [|b bs]; cbn [parse_loop]; try discriminate.
  apply bind_nh. { pose proof (read_chunk_nhd (b :: bs)) as N. intros H. rewrite H in N. discriminate N. }
  intros [[id v] r]. apply bind_nh; [apply classify_nh|]. intros [k st'].
  apply bind_nh; [apply mk_event_nh|]. intros e. apply bind_nh; [apply IH|]. discriminate.
Qed.

Lemma parse_good_header en fmt ch q body : good_header fmt ch q body -> parse en (file_bytes fmt ch q body) <> Err HeaderCorrupted.
Proof.
  intros HG. rewrite (parse_good en _ _ _ _ HG). unfold run. intros H.
  destruct (parse_loop _ en _ body) eqn:E in H; [discriminate|]. injection H as ->. revert E. apply loop_nh.
Qed.
Theorem header_exact en f : is_bytes f -> (parse en f = Err HeaderCorrupted <-> ~ valid_file f).
Proof.
  intros Hb. split.
  - intros H (fmt & ch & q & body & -> & HG). rewrite (parse_good en _ _ _ _ HG) in H. unfold run in H.
    destruct (parse_loop _ en _ body) eqn:E in H; [discriminate|]. injection H as ->. apply (loop_nh _ _ _ _ E).
  - intros HN. destruct (parse_cases en f Hb) as [(fmt & ch & q & body & -> & HG & _)|E]; [|exact E].
    exfalso. apply HN. exists fmt, ch, q, body. auto.
Qed.

(* the exceptions of pyflp that parse can raise *)
Theorem parse_err en f e : is_bytes f -> parse en f = Err e -> api e = true ->
  (e = HeaderCorrupted /\ ~ valid_file f) \/
  exists fmt ch q body, f = file_bytes fmt ch q body /\ good_header fmt ch q body /\ trouble en [] body e.
Proof.
  intros Hb H He. destruct (parse_cases en f Hb) as [(fmt & ch & q & body & -> & HG & _)|E].
  - right. exists fmt, ch, q, body. split; [reflexivity|]. split; [exact HG|].
    rewrite (parse_good en _ _ _ _ HG) in H. unfold run in H.
    assert (HB : is_bytes body). { unfold file_bytes in Hb. rewrite !is_bytes_app in Hb. apply Hb. }
    destruct (parse_loop _ en _ body) eqn:E in H; [discriminate|]. injection H as ->.
    refine (loop_err _ _ _ _ _ _ st_ok_init _ HB _ E He); [intros ? []|lia].
  - left. rewrite H in E. injection E as ->. split; [reflexivity|]. apply (header_exact en f Hb). exact H.
Qed.
