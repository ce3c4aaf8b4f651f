(* The table of declared properties. *)
From Coq Require Import String ZArith List Bool Lia Arith.
From Verif Require Import M_Base M_Float M_Text M_Construct M_Structs M_Events M_Parse M_Tree M_Prop M_Api.
From Verif Require Import S_Canon S_File S_Tree S_Prop S_Api.
From Verif Require Import P_Base P_Codec P_Payload P_File P_Special P_TreeBase P_Tree P_TreeEdit P_Prop P_Edit P_Session P_Views.
Import ListNotations.
Open Scope Z_scope.

(* ------------------------------------------------------------------ members of records *)

Definition never_stops (c : con) : Prop := forall cx bs, cparse c cx bs <> Err StopFieldError.

Lemma take_stops n bs : take n bs <> Err StopFieldError.
Proof. unfold take. destruct (_ <=? _)%nat; discriminate. Qed.
Lemma bind_stops A B (x : res A) (f : A -> res B) : x <> Err StopFieldError -> (forall a, f a <> Err StopFieldError) -> bind x f <> Err StopFieldError.
Proof. intros X F. destruct x as [a|e]; cbn [bind]; [apply F|]. intros E. apply X. congruence. Qed.

Lemma ns_uint n : never_stops (c_uint n).
Proof. intros cx bs. cbn [c_uint cparse]. apply bind_stops; [apply take_stops|]. intros [d r]. discriminate. Qed.
Lemma ns_sint n : never_stops (c_sint n).
Proof. intros cx bs. cbn [c_sint cparse]. apply bind_stops; [apply take_stops|]. intros [d r]. discriminate. Qed.
Lemma ns_f64 : never_stops Float64l.
Proof. intros cx bs. cbn [Float64l cparse]. apply bind_stops; [apply take_stops|]. intros [d r]. discriminate. Qed.
Lemma ns_f32 : never_stops Float32l.
Proof. intros cx bs. cbn [Float32l cparse]. apply bind_stops; [apply take_stops|]. intros [d r]. discriminate. Qed.
Lemma ns_flag : never_stops Flag.
Proof. intros cx bs. cbn [Flag cparse]. apply bind_stops; [apply take_stops|]. intros [d r]. discriminate. Qed.
Lemma ns_bytes n : never_stops (Bytes n).
Proof. intros cx bs. cbn [Bytes cparse]. apply bind_stops; [apply take_stops|]. intros [d r]. discriminate. Qed.
Lemma ns_greedy : never_stops GreedyBytes.
Proof. intros cx bs. discriminate. Qed.
Lemma ns_optional c : never_stops (Optional c).
Proof. intros cx bs. cbn [Optional cparse]. destruct (cparse c cx bs); discriminate. Qed.
Lemma ns_if f c : never_stops c -> never_stops (If_ f c).
Proof. intros H cx bs. cbn [If_ cparse]. destruct (f cx); [apply H|discriminate]. Qed.
Lemma ns_adapter d e c : never_stops c -> (forall cx v, d cx v <> Err StopFieldError) -> never_stops (Adapter d e c).
Proof.
  intros H D cx bs. cbn [Adapter cparse]. apply bind_stops; [apply H|]. intros [v r]. apply bind_stops; [apply D|]. discriminate.
Qed.
Lemma ns_fourbytes : never_stops FourByteBool.
Proof. apply ns_adapter; [apply ns_uint|discriminate]. Qed.
Lemma ns_enum m c : never_stops c -> never_stops (Enum m c).
Proof. intros H. apply ns_adapter; [exact H|]. intros _ v. destruct (as_int v); discriminate. Qed.
Lemma ns_stdenum c : never_stops c -> never_stops (StdEnum c).
Proof. intros H. apply ns_adapter; [exact H|]. intros _ v. destruct (as_int v); discriminate. Qed.
Lemma ns_stdflag m c : never_stops c -> never_stops (StdFlag m c).
Proof. intros H. apply ns_adapter; [exact H|]. intros cx v. destruct (as_int v); discriminate. Qed.
Lemma ns_range c : never_stops (GreedyRange c).
Proof.
  intros cx bs. cbn [GreedyRange cparse]. apply bind_stops; [|intros []; discriminate].
  generalize (S (length bs)) as f. intros f. generalize 0 as i. revert bs. induction f as [|f IH]; intros bs i; cbn [greedy_parse]; [discriminate|].
  destruct (cparse c (cx_with_index cx i) bs) as [[v r]|]; [|discriminate]. apply bind_stops; [apply IH|]. intros []. discriminate.
Qed.
Lemma ns_struct fs : never_stops (Struct fs).
Proof.
  intros cx bs. cbn [Struct cparse]. apply bind_stops; [|intros []; discriminate].
  generalize (@nil (string * val)) as acc. revert bs. induction fs as [|[n c] fs IH]; intros bs acc; cbn [struct_parse]; [discriminate|].
  destruct (cparse c (cx_with_fields cx acc) bs) as [[v r]|[]]; try discriminate. apply IH.
Qed.
Lemma ns_parray n c : never_stops n -> never_stops c -> never_stops (PrefixedArray n c).
Proof.
  intros N C cx bs. cbn [PrefixedArray cparse]. apply bind_stops; [apply N|]. intros [v r]. destruct (as_int v) as [z|]; [|discriminate].
  apply bind_stops; [|intros []; discriminate]. generalize (S (length r)) as f. intros f. generalize 0 as i. revert r.
  induction f as [|f IH]; intros r i; cbn [parray_parse]; destruct (z <=? i); try discriminate.
  apply bind_stops; [apply C|]. intros [a b]. apply bind_stops; [apply IH|]. intros []. discriminate.
Qed.
Lemma ns_computed f : (forall cx, f cx <> Err StopFieldError) -> never_stops (Computed f).
Proof. intros H cx bs. cbn [Computed cparse]. apply bind_stops; [apply H|]. discriminate. Qed.
Lemma position_stops s : forall k i p, sum_offsets k i p s <> Err StopFieldError.
Proof.
  induction k as [|k IH]; intros i p; cbn [sum_offsets]; [discriminate|]. apply bind_stops; [apply take_stops|]. intros []. apply IH.
Qed.

Ltac never_stop :=
  repeat match goal with
  | |- Forall _ [] => constructor
  | |- Forall _ (_ :: _) => constructor; cbn [snd]
  | |- never_stops (Optional _) => apply ns_optional
  | |- never_stops (Bytes _) => apply ns_bytes
  | |- never_stops GreedyBytes => apply ns_greedy
  | |- never_stops Flag => apply ns_flag
  | |- never_stops FourByteBool => apply ns_fourbytes
  | |- never_stops (Enum _ _) => apply ns_enum
  | |- never_stops (StdEnum _) => apply ns_stdenum
  | |- never_stops (StdFlag _ _) => apply ns_stdflag
  | |- never_stops (GreedyRange _) => apply ns_range
  | |- never_stops (PrefixedArray _ _) => apply ns_parray
  | |- never_stops (If_ _ _) => apply ns_if
  | |- never_stops Float32l => apply ns_f32
  | |- never_stops Float64l => apply ns_f64
  | |- never_stops auto_point => apply ns_struct
  | |- never_stops (Struct _) => apply ns_struct
  | |- never_stops Int8ul => apply ns_uint
  | |- never_stops Byte => apply ns_uint
  | |- never_stops Int16ul => apply ns_uint
  | |- never_stops Int32ul => apply ns_uint
  | |- never_stops Int32sl => apply ns_sint
  end.

Definition named (fs : list (string * con)) : Prop :=
  Forall (fun f => never_stops (snd f)) fs /\ NoDup (map fst fs) /\ ~ In ""%string (map fst fs).

Lemma dget_in d n v : dget d n = Some v -> In n (map fst d).
Proof.
  induction d as [|[k w] d IH]; cbn [dget map fst]; [discriminate|]. destruct (String.eqb_spec k n) as [->|N]; [now left|]. right. now apply IH.
Qed.
Lemma dget_notin d n : ~ In n (map fst d) -> dget d n = None.
Proof. intros H. destruct (dget d n) eqn:E; [|reflexivity]. exfalso. apply H. eapply dget_in. exact E. Qed.
Lemma in_dget d n : In n (map fst d) -> exists v, dget d n = Some v.
Proof.
  induction d as [|[k w] d IH]; cbn [map fst dget]; [intros []|]. intros [->|I]; [rewrite String.eqb_refl; eauto|].
  destruct (String.eqb k n); [eauto|]. now apply IH.
Qed.
Lemma dset_new d n v : ~ In n (map fst d) -> dset d n v = d ++ [(n, v)].
Proof.
  induction d as [|[k w] d IH]; cbn [dset map fst app]; [reflexivity|]. intros H. destruct (String.eqb_spec k n) as [->|N]; [exfalso; apply H; now left|].
  rewrite IH; [reflexivity|]. intros I. apply H. now right.
Qed.

(* what a parsed record holds *)
Lemma struct_members cx : forall fs acc bs d r, Forall (fun f => never_stops (snd f)) fs -> NoDup (map fst acc ++ map fst fs) ->
  ~ In ""%string (map fst fs) -> struct_parse fs cx acc bs = Ok (d, r) ->
  map fst d = map fst acc ++ map fst fs /\
  (forall n v, dget acc n = Some v -> dget d n = Some v) /\
  (forall n c, In (n, c) fs -> exists v a b b', dget d n = Some v /\ cparse c (cx_with_fields cx a) b = Ok (v, b')).
Proof.
  induction fs as [|[n c] fs IH]; intros acc bs d r F ND NE H.
  - cbn [struct_parse] in H. injection H as <- <-. cbn [map app]. rewrite app_nil_r. split; [reflexivity|]. split; [auto|intros ? ? []].
  - cbn [struct_parse] in H. inversion F as [|x y FC FS]; subst. cbn [snd] in FC. specialize (FC (cx_with_fields cx acc) bs).
    cbn [map fst] in *. assert (NA : ~ In n (map fst acc)).
    { intros I. apply NoDup_remove_2 in ND. apply ND. apply in_or_app. now left. }
    assert (NN : String.eqb n "" = false) by (apply String.eqb_neq; intros ->; apply NE; now left).
    destruct (cparse c (cx_with_fields cx acc) bs) as [[v b']|e] eqn:E.
    + assert (P : M_Construct.put acc n v = acc ++ [(n, v)]) by (unfold M_Construct.put; rewrite NN; now apply dset_new).
      rewrite P in H. destruct (IH (acc ++ [(n, v)]) b' d r FS) as (A & B & C); [| |exact H|].
      * rewrite map_app. cbn [map fst]. rewrite <- app_assoc. exact ND.
      * intros I. apply NE. now right.
      * rewrite map_app in A. cbn [map fst] in A. rewrite <- app_assoc in A. split; [exact A|].
        assert (GA : forall m w, dget acc m = Some w -> dget (acc ++ [(n, v)]) m = Some w).
        { intros m w G. rewrite <- (dset_new acc n v NA). destruct (String.eqb_spec m n) as [->|M]; [|now rewrite dget_dset_other].
          exfalso. apply NA. eapply dget_in. exact G. }
        split; [intros m w G; apply B, GA, G|]. intros m c' [X|I].
        -- injection X as <- <-. exists v, acc, bs, b'. split; [|exact E]. apply B. rewrite <- (dset_new acc n v NA). apply dget_dset.
        -- now apply C.
    + exfalso. destruct e; try discriminate. apply FC. reflexivity.
Qed.

(* the record classes *)
Definition struct_fields (k : kind) (fs : list (string * con)) : Prop := kcon k = Struct fs /\ named fs /\ map fst fs = record_names k.
Fixpoint distinctb (l : list string) : bool :=
  match l with [] => true | x :: r => negb (existsb (String.eqb x) r) && negb (String.eqb x "") && distinctb r end.
Lemma existsb_eqb n l : existsb (String.eqb n) l = true <-> In n l.
Proof.
  rewrite existsb_exists. split; [intros (x & I & E); apply String.eqb_eq in E; now subst|]. intros I. exists n. split; [exact I|apply String.eqb_refl].
Qed.
Lemma distinctb_ok l : distinctb l = true -> NoDup l /\ ~ In ""%string l.
Proof.
  induction l as [|x l IH]; intros H; [split; [constructor|intros []]|]. cbn [distinctb] in H. apply andb_prop in H. destruct H as [H D]. apply andb_prop in H. destruct H as [A B].
  destruct (IH D) as [N E]. split.
  - constructor; [|exact N]. intros I. apply existsb_eqb in I. now rewrite I in A.
  - intros [->|I]; [now rewrite String.eqb_refl in B|now apply E].
Qed.
Lemma named_ok fs : Forall (fun f => never_stops (snd f)) fs -> distinctb (map fst fs) = true -> named fs.
Proof. intros F D. split; [exact F|]. now apply distinctb_ok. Qed.
Ltac fields := eexists; split; [reflexivity|]; split; [|reflexivity]; apply named_ok; [never_stop; intros; try discriminate|vm_compute; reflexivity].
Lemma struct_kinds k : is_struct_kind k = true -> exists fs, struct_fields k fs.
Proof. destruct k; try discriminate; intros _; unfold struct_fields; cbn [kcon]; fields. Qed.

(* ------------------------------------------------------------------ loaded events *)

(* an event as the parser makes it *)
Definition made (en : env) (e : event) : Prop :=
  (exists b, is_bytes b /\ mk_event en (e_kind e) (e_id e) b = Ok e) /\
  (forall k, lookup_type (e_id e) (enum_tables en) = Some k -> e_kind e = k).

Lemma mk_event_kind en k id b e : mk_event en k id b = Ok e -> e_kind e = k /\ e_id e = id.
Proof.
  unfold mk_event. intros H. inv_bind H. destruct (negb (allowed_id k id)); [discriminate|].
  destruct (negb _); [discriminate|]. inv_bind H. destruct x0 as [v r]. injection H as <-. split; reflexivity.
Qed.
Lemma classify_kind en st id b k st' k' : classify en st id b = Ok (k, st') -> lookup_type id (enum_tables en) = Some k' -> k = k'.
Proof. unfold classify. intros H L. inv_bind H. rewrite L in H. congruence. Qed.

Lemma loop_made en : forall f st bs es, is_bytes bs -> parse_loop f en st bs = Ok es -> Forall (made en) es.
Proof.
  induction f as [|f IH]; intros st bs es B H.
  - destruct bs; [|discriminate]. injection H as <-. constructor.
  - destruct bs as [|b0 bs0]; [injection H as <-; constructor|]. cbn [parse_loop] in H.
    destruct (read_chunk (b0 :: bs0)) as [[[id p] rest]|] eqn:R; [|discriminate]. cbn [bind] in H.
    inv_bind H. destruct x as [k st']. inv_bind H. inv_bind H. injection H as <-.
    destruct (read_chunk_inv _ _ _ _ B R) as (b & EB & Hbne & Hid & Hcase). rewrite EB in B. apply is_bytes_app in B. destruct B as [Hb1 Hb2].
    assert (Hp : is_bytes p).
    { destruct Hcase as [Hc|[[-> Hc]|(-> & _ & _ & ->)]].
      - apply (chunk_payload_bytes _ _ _ Hb1 Hc).
      - inversion Hc; subst. apply is_bytes_cons in Hb1. destruct Hb1 as [_ Hb1]. apply is_bytes_app in Hb1. apply Hb1.
      - apply is_bytes_cons in Hb1. apply Hb1. }
    constructor; [|exact (IH _ _ _ Hb2 E1)]. destruct (mk_event_kind _ _ _ _ _ E0) as [K I].
    split; [exists p; split; [exact Hp|]; now rewrite K, I|].
    intros k' L. rewrite I in L. rewrite K. exact (classify_kind _ _ _ _ _ _ _ E L).
Qed.
Lemma parse_made en f p : is_bytes f -> parse en f = Ok p -> Forall (made en) (pr_events p) /\ pr_events p <> [].
Proof.
  intros B H. unfold parse in H. repeat match type of H with (if ?c then _ else _) = _ => destruct c eqn:?; try discriminate end.
  cbv zeta in H. inv_bind H. injection H as <-. cbn [pr_events].
  assert (B2 : is_bytes (skipn 22 f)) by now apply is_bytes_skipn. split; [exact (loop_made _ _ _ _ _ B2 E)|].
  intros ->. destruct (skipn 22 f) as [|x l] eqn:S.
  - apply (f_equal (@length Z)) in S. rewrite skipn_length in S. cbn [length] in S.
    pose proof (le_dec_bound (slice 18 4 f) ltac:(unfold slice; now apply is_bytes_firstn, is_bytes_skipn)) as [L _].
    unfold zlen in *. set (z := le_dec (slice 18 4 f)) in *. clearbody z. lia.
  - cbn [length parse_loop] in E. destruct (read_chunk (x :: l)) as [[[id q] rest]|]; [|discriminate]. cbn [bind] in E.
    inv_bind E. destruct x0. inv_bind E. inv_bind E. discriminate.
Qed.

Lemma norm_pos mask v : 0 < mask -> 0 <= intflag_norm true mask v.
Proof.
  intros M. unfold intflag_norm. cbv zeta. set (B := 2 ^ (Z.log2 mask + 1)). assert (PB : 0 < B) by (apply Z.pow_pos_nonneg; [lia|pose proof (Z.log2_nonneg mask); lia]).
  clearbody B. set (x := negb _ || negb _). set (P := 2 ^ _).
  assert (HP : v < 0 -> - v <= P).
  { intros N. subst P. replace (Z.abs v =? 0) with false by lia. replace (Z.abs v) with (- v) by lia.
    pose proof (proj2 (Z.log2_spec (- v) ltac:(lia))) as X. rewrite <- Z.add_1_r in X. lia. }
  clearbody P. destruct x eqn:X; subst x.
  - destruct (v <? 0) eqn:N.
    + specialize (HP ltac:(lia)). replace (Z.max (B - 1 + 1) P + v <? 0) with false by lia. lia.
    + rewrite N. lia.
  - apply orb_false_elim in X. destruct X as [X _]. apply negb_false_iff in X. apply andb_prop in X. destruct (v <? 0) eqn:N; lia.
Qed.

(* a value of a flags member *)
Definition flag_number (en : env) (v : val) : Prop := exists z, number v z /\ (en_py311 en = true -> 0 <= z).

Definition flag_members : list (kind * string) :=
  [(KParameters, "delay.flags"%string); (KWrapper, "flags"%string); (KEnvelopeLFO, "flags"%string); (KPolyphony, "flags"%string); (KInsertFlags, "flags"%string)].

Lemma stdflag_value en m c cx b v r : 0 < m -> cx_py311 cx = en_py311 en -> cparse (StdFlag m c) cx b = Ok (v, r) -> flag_number en v.
Proof.
  intros M P H. cbn [StdFlag Adapter cparse] in H. inv_bind H. destruct x as [w r']. inv_bind H. injection H as <- <-.
  destruct (as_int w) as [z|]; [|discriminate]. injection E0 as <-. rewrite P. exists (intflag_norm (en_py311 en) m z). split; [right; now left|].
  intros Q. rewrite Q. now apply norm_pos.
Qed.
Lemma optflag_value en m c cx b v r : 0 < m -> cx_py311 cx = en_py311 en -> cparse (Optional (StdFlag m c)) cx b = Ok (v, r) -> v = VNone \/ flag_number en v.
Proof.
  intros M P H. cbn [Optional cparse] in H. destruct (cparse (StdFlag m c) cx b) as [[w q]|] eqn:E; injection H as <- <-; [|now left].
  right. exact (stdflag_value _ _ _ _ _ _ _ M P E).
Qed.

Lemma struct_value c cx b v r : forall fs, c = Struct fs -> cparse c cx b = Ok (v, r) -> exists d, v = VDict d /\ struct_parse fs cx [] b = Ok (d, r).
Proof. intros fs -> H. cbn [Struct cparse] in H. inv_bind H. destruct x as [d r']. injection H as <- <-. eauto. Qed.

Lemma flag_case en k fs m c n cx b d r : kcon k = Struct fs -> Forall (fun f => never_stops (snd f)) fs -> distinctb (map fst fs) = true ->
  In (n, Optional (StdFlag m c)) fs -> 0 < m -> cx_py311 cx = en_py311 en -> cparse (kcon k) cx b = Ok (VDict d, r) ->
  exists v, dget d n = Some v /\ (v = VNone \/ flag_number en v).
Proof.
  intros F NS DI IN M PY P. destruct (named_ok _ NS DI) as (_ & ND & NE). destruct (struct_value _ _ _ _ _ _ F P) as (d' & X & SP). injection X as <-.
  destruct (struct_members _ fs [] _ _ _ NS ND NE SP) as (A & _ & C). destruct (C _ _ IN) as (v & a & b1 & b2 & D & Q). exists v. split; [exact D|].
  eapply optflag_value; [exact M| |exact Q]. exact PY.
Qed.

(* a loaded record holds exactly the members of its class *)
Lemma made_record en e : made en e -> is_struct_kind (e_kind e) = true ->
  exists d, e_val e = VDict d /\ map fst d = record_names (e_kind e) /\
    (forall n, In (e_kind e, n) flag_members -> exists v, dget d n = Some v /\ (v = VNone \/ flag_number en v)).
Proof.
  intros ((b & B & H) & _) K. destruct (mk_event_inv _ _ _ _ _ H) as (v & r & P & -> & _). cbn [e_kind e_val] in *.
  destruct (struct_kinds _ K) as (fs & F & (NS & ND & NE) & NM). destruct (struct_value _ _ _ _ _ _ F P) as (d & -> & SP).
  destruct (struct_members _ fs [] _ _ _ NS ND NE SP) as (A & _ & C). exists d. split; [reflexivity|]. split; [now rewrite <- NM|].
  clear NS ND NE NM SP A C F fs. generalize dependent (e_kind e). intros k K H P n I. cbn [flag_members In] in I.
  destruct I as [I|[I|[I|[I|[I|[]]]]]]; injection I as <- <-.
  all: refine (flag_case en _ _ _ _ _ _ _ _ _ _ _ _ _ _ _ P); [reflexivity|never_stop|vm_compute; reflexivity|cbn [In]; repeat (try (left; reflexivity); right)|vm_compute; reflexivity|reflexivity].
Qed.

(* elements of lists *)
Lemma greedy_items c cx : forall f i bs l r, greedy_parse f c cx i bs = Ok (l, r) ->
  Forall (fun v => exists j b b', cparse c (cx_with_index cx j) b = Ok (v, b')) l.
Proof.
  induction f as [|f IH]; intros i bs l r H; cbn [greedy_parse] in H; [discriminate|].
  destruct (cparse c (cx_with_index cx i) bs) as [[v b']|] eqn:E; [|injection H as <- <-; constructor].
  inv_bind H. destruct x as [vs q]. injection H as <- <-. constructor; [eauto|]. exact (IH _ _ _ _ E0).
Qed.
Lemma parray_items c cx n : forall f i bs l r, parray_parse f n c cx i bs = Ok (l, r) ->
  Forall (fun v => exists j b b', cparse c (cx_with_index cx j) b = Ok (v, b')) l.
Proof.
  induction f as [|f IH]; intros i bs l r H; cbn [parray_parse] in H; (destruct (n <=? i); [injection H as <- <-; constructor|]); [discriminate|].
  inv_bind H. destruct x as [v b']. inv_bind H. destruct x as [vs q]. injection H as <- <-. constructor; [eauto|]. exact (IH _ _ _ _ E0).
Qed.

Definition item_con (k : kind) : con :=
  match k with KPlaylist => playlist_item | KNotes => note_item | KController => controller_item | _ => auto_point end.
Definition has_elements (k : kind) : bool := match k with KPlaylist | KNotes | KController | KAutomation => true | _ => false end.
Lemma item_named k : has_elements k = true -> exists fs, item_con k = Struct fs /\ named fs /\ map fst fs = item_names k.
Proof.
  destruct k; try discriminate; intros _; cbn [item_con]; eexists; (split; [reflexivity|]); (split; [|reflexivity]); (apply named_ok; [never_stop|vm_compute; reflexivity]).
  apply ns_computed. intros cx. destruct (0 <? cx_index cx); [|destruct (dget _ _); discriminate]. apply bind_stops; [apply position_stops|discriminate].
Qed.
Lemma made_item en e i v : made en e -> has_elements (e_kind e) = true -> nth_error (items e) i = Some v ->
  exists d, v = VDict d /\ map fst d = item_names (e_kind e) /\
    (e_kind e = KNotes -> exists w, dget d "flags" = Some w /\ flag_number en w).
Proof.
  intros ((b & B & H) & _) K N. destruct (mk_event_inv _ _ _ _ _ H) as (w & r & P & EE & _).
  assert (IT : exists cx j b1 b2, cx_py311 cx = en_py311 en /\ cparse (item_con (e_kind e)) (cx_with_index cx j) b1 = Ok (v, b2)).
  { assert (EV : e_val e = w) by now rewrite EE. unfold items in N. rewrite EV in N. clear H EE EV.
    destruct (e_kind e) eqn:KK; try discriminate; cbn [item_con kcon] in *.
    - destruct (struct_value _ _ _ _ _ _ eq_refl P) as (d & -> & SP).
      assert (NF : exists fs, AutomationS = Struct fs /\ named fs /\ map fst fs = record_names KAutomation /\ struct_parse fs (mkctx en (zlen b) (new_of b) b) [] b = Ok (d, r) /\ In ("points"%string, PrefixedArray Int32ul auto_point) fs).
      { eexists. split; [reflexivity|]. split; [apply named_ok; [never_stop|vm_compute; reflexivity]|]. split; [reflexivity|]. split; [exact SP|]. cbn [In]. repeat (try (left; reflexivity); right). }
      destruct NF as (fs & _ & (NS & ND & NE) & _ & SP' & IN). destruct (struct_members _ fs [] _ _ _ NS ND NE SP') as (_ & _ & C).
      destruct (C _ _ IN) as (w & a & b1 & b2 & D & Q). rewrite D in N. cbn [PrefixedArray cparse] in Q. inv_bind Q. destruct x as [cn q]. destruct (as_int cn); [|discriminate].
      inv_bind Q. destruct x as [vs q2]. injection Q as <- <-. pose proof (parray_items _ _ _ _ _ _ _ _ E0) as FI. rewrite Forall_forall in FI.
      destruct (FI v (nth_error_In _ _ N)) as (j & b3 & b4 & Z). eexists _, j, b3, b4. split; [|exact Z]. reflexivity.
    - cbn [PlaylistS GreedyRange cparse] in P. inv_bind P. destruct x as [vs q]. injection P as <- <-. pose proof (greedy_items _ _ _ _ _ _ _ E) as FI. rewrite Forall_forall in FI.
      destruct (list_usable e); [|now destruct i]. destruct (FI v (nth_error_In _ _ N)) as (j & b3 & b4 & Z). eexists _, j, b3, b4. split; [|exact Z]. reflexivity.
    - cbn [ControllerS GreedyRange cparse] in P. inv_bind P. destruct x as [vs q]. injection P as <- <-. pose proof (greedy_items _ _ _ _ _ _ _ E) as FI. rewrite Forall_forall in FI.
      destruct (list_usable e); [|now destruct i]. destruct (FI v (nth_error_In _ _ N)) as (j & b3 & b4 & Z). eexists _, j, b3, b4. split; [|exact Z]. reflexivity.
    - cbn [NotesS GreedyRange cparse] in P. inv_bind P. destruct x as [vs q]. injection P as <- <-. pose proof (greedy_items _ _ _ _ _ _ _ E) as FI. rewrite Forall_forall in FI.
      destruct (list_usable e); [|now destruct i]. destruct (FI v (nth_error_In _ _ N)) as (j & b3 & b4 & Z). eexists _, j, b3, b4. split; [|exact Z]. reflexivity. }
  destruct IT as (cx & j & b1 & b2 & PY & Q). destruct (item_named _ K) as (fs & F & (NS & ND & NE) & NM).
  destruct (struct_value _ _ _ _ _ _ F Q) as (d & -> & SP). destruct (struct_members _ fs [] _ _ _ NS ND NE SP) as (A & _ & C).
  exists d. split; [reflexivity|]. split; [now rewrite <- NM|]. intros KN. rewrite KN in Q. cbn [item_con] in Q. clear F NS ND NE NM SP A C fs.
  assert (NF : exists fs, note_item = Struct fs /\ named fs /\ In ("flags"%string, StdFlag NoteFlags_mask Int16ul) fs).
  { eexists. split; [reflexivity|]. split; [apply named_ok; [never_stop|vm_compute; reflexivity]|]. cbn [In]. repeat (try (left; reflexivity); right). }
  destruct NF as (fs & F & (NS & ND & NE) & IN). destruct (struct_value _ _ _ _ _ _ F Q) as (d' & X & SP). injection X as <-.
  destruct (struct_members _ fs [] _ _ _ NS ND NE SP) as (A & _ & C). destruct (C _ _ IN) as (w2 & a & b3 & b4 & D & Z). exists w2. split; [exact D|].
  eapply stdflag_value; [|  |exact Z]; [vm_compute; reflexivity|]. exact PY.
Qed.

(* ------------------------------------------------------------------ what a property finds *)

Definition memb (n : string) (l : list string) : bool := existsb (String.eqb n) l.
Definition good_flagb (mask f : Z) : bool := (0 <? mask) && (0 <? f) && (Z.land f mask =? f).
Lemma good_flagb_ok mask f : good_flagb mask f = true -> good_flag mask f.
Proof. unfold good_flagb, good_flag. intros H. apply andb_prop in H. destruct H as [H L]. apply andb_prop in H. destruct H. lia. Qed.

(* the class of an id, the same in every environment *)
Definition fixed_kind (id : Z) : option kind := lookup_type id (enum_tables (Env false (fun _ => Err ValueError) (fun _ => Err ValueError) false)).
Lemma lookup_app id k b : forall a, lookup_type id a = Some k -> lookup_type id (a ++ b) = Some k.
Proof. induction a as [|t a IH]; cbn [lookup_type app]; [discriminate|]. destruct (enum_find id t); [auto|exact IH]. Qed.
Lemma fixed_kind_ok en id k : fixed_kind id = Some k -> lookup_type id (enum_tables en) = Some k.
Proof. unfold fixed_kind, enum_tables. cbn [en_ctrl]. rewrite app_nil_r. apply lookup_app. Qed.

Definition kind_flag (k : kind) (n : string) : bool :=
  match k with
  | KParameters => String.eqb n "delay.flags"
  | KWrapper | KEnvelopeLFO | KPolyphony | KInsertFlags => String.eqb n "flags"
  | KU16 | KU32 => true
  | _ => false
  end.
Definition suited (k : kind) (p : pkind) : bool :=
  match p with
  | PEvent => true
  | PStruct n => is_struct_kind k && memb n (record_names k)
  | PFlag n f mask _ => good_flagb mask f && kind_flag k n
  end.
Definition suited_id (hm : home) (p : pkind) (id : Z) : bool :=
  match p with
  | PEvent => true
  | _ => if id =? 213 then match hm with HPlugin k => suited k p | _ => false end
         else match fixed_kind id with Some k => suited k p | None => false end
  end.
Definition readable (hm : home) (p : prop) : bool :=
  match hm with
  | HItems k => has_elements k &&
      match p_kind p with
      | PEvent => false
      | PStruct n => memb n (item_names k)
      | PFlag n f mask _ => match k with KNotes => String.eqb n "flags" && good_flagb mask f | _ => false end
      end
  | HOne id => match p_ids p with [] => suited_id hm (p_kind p) id | _ => false end
  | _ => match p_ids p with [] => false | _ => forallb (suited_id hm (p_kind p)) (p_ids p) end
  end.

(* the thing found can be read *)
Definition good_target (en : env) (h : heap) (p : pkind) (g : target) : Prop :=
  target_ok h g /\
  match p with
  | PEvent => exists r, g = TEvent r
  | PStruct n => exists v, tg_get h g n = Ok v
  | PFlag n f mask _ => good_flag mask f /\ exists v, flags_get h g n = Ok v /\ (v = VNone \/ flag_number en v)
  end.

Lemma made_number en e : made en e -> e_kind e = KU16 \/ e_kind e = KU32 -> flag_number en (e_val e).
Proof.
  intros ((b & B & H) & _) K. destruct (mk_event_inv _ _ _ _ _ H) as (w & r & P & EE & _). assert (EV : e_val e = w) by now rewrite EE. rewrite EV.
  clear EE EV H. assert (X : exists n, kcon (e_kind e) = c_uint n) by (destruct K as [->| ->]; [exists 2%nat|exists 4%nat]; reflexivity).
  destruct X as [n X]. rewrite X in P. cbn [c_uint cparse] in P. inv_bind P. destruct x as [d q]. injection P as <- <-.
  exists (le_dec d). split; [now left|]. intros _. apply le_dec_bound. unfold take in E. destruct (_ <=? _)%nat; [|discriminate]. injection E as <- <-. now apply is_bytes_firstn.
Qed.
Lemma memb_in n l : memb n l = true <-> In n l. Proof. apply existsb_eqb. Qed.

Lemma suited_target en h r p : (r < length (h_evs h))%nat -> made en (ev_of h r) -> suited (e_kind (ev_of h r)) p = true -> good_target en h p (TEvent r).
Proof.
  intros L M S. split; [exact L|]. destruct p as [|n|n f mask inv]; [eauto| |]; cbn [suited] in S; apply andb_prop in S; destruct S as [S1 S2].
  - destruct (made_record _ _ M S1) as (d & V & N & _). cbn [tg_get]. unfold struct_get. rewrite S1, V. unfold dindex. apply memb_in in S2. rewrite <- N in S2.
    destruct (in_dget _ _ S2) as (v & ->). eauto.
  - split; [now apply good_flagb_ok|]. unfold flags_get. cbn [has_items].
    destruct (is_struct_kind (e_kind (ev_of h r))) eqn:K.
    + destruct (made_record _ _ M K) as (d & V & N & F). cbn [tg_get]. unfold struct_get. rewrite K, V. unfold dindex.
      destruct (F n) as (v & D & Q); [|rewrite D; eauto]. unfold flag_members.
      destruct (e_kind (ev_of h r)); try discriminate; cbn [kind_flag] in S2; apply String.eqb_eq in S2; subst n; cbn [In]; tauto.
    + exists (e_val (ev_of h r)). split; [reflexivity|]. right. apply (made_number _ _ M). destruct (e_kind (ev_of h r)); try discriminate; tauto.
Qed.

Lemma found h t ids : ids <> [] ->
  (exists k c, chosen ids (events h t) (Some k) /\ nth_error (lst_of h t) k = Some c /\
     get_event h ids (EvModel t) = Ok (Some (TEvent (ref_of h c))) /\ nth_error (events h t) k = Some (ev_of h (ref_of h c)) /\
     In (e_id (ev_of h (ref_of h c))) ids) \/
  (chosen ids (events h t) None /\ get_event h ids (EvModel t) = Ok None).
Proof.
  intros NE. destruct (get_event_spec h t ids NE) as [A B]. destruct (chosen_total ids (events h t)) as [[k|] H].
  - left. destruct (A k H) as (c & N & G). exists k, c. split; [exact H|]. split; [exact N|]. split; [exact G|].
    assert (X : nth_error (events h t) k = Some (ev_of h (ref_of h c))) by (rewrite nth_error_events, N; reflexivity). split; [exact X|].
    inversion H as [ids1 id ids2 k' e EI _ NK ID _ E0|]; subst. rewrite X in NK. injection NK as ->. apply in_or_app. right. now left.
  - right. split; [exact H|]. now apply B.
Qed.
Lemma in_refs h t k c : nth_error (lst_of h t) k = Some c -> In (ref_of h c) (refs h t).
Proof. intros N. unfold refs. change (ref_of h c) with ((fun c => c_e (cell_of h c)) c). apply in_map. eapply nth_error_In. exact N. Qed.

Definition loaded (en : env) (evs : list event) (h : heap) : Prop := evs <> [] /\ Forall (made en) evs /\ views (parsed evs) h.
Lemma loaded_ref en evs h t r : loaded en evs h -> (t < nt h)%nat -> In r (refs h t) -> (r < length (h_evs h))%nat /\ made en (ev_of h r).
Proof.
  intros (NE & F & V) L I. destruct (views_tree _ _ t NE V L) as (_ & _ & W). rewrite Forall_forall in W, F. specialize (W r I).
  rewrite (views_evs _ _ V). split; [apply nth_error_Some; congruence|]. apply F. eapply nth_error_In. exact W.
Qed.
Lemma suited_by_id en h evs t r p hm : loaded en evs h -> (t < nt h)%nat -> In r (refs h t) ->
  (e_id (ev_of h r) = 213 -> forall k, hm = HPlugin k -> e_kind (ev_of h r) = k) ->
  suited_id hm p (e_id (ev_of h r)) = true -> good_target en h p (TEvent r).
Proof.
  intros LD L I PL S. destruct (loaded_ref _ _ _ _ _ LD L I) as [LR M]. apply (suited_target _ _ _ _ LR M).
  unfold suited_id in S. destruct p as [|n|n f mask inv]; [reflexivity| |].
  - destruct (Z.eqb_spec (e_id (ev_of h r)) 213) as [E|E].
    + destruct hm as [| | |k]; try discriminate. now rewrite (PL E k eq_refl).
    + destruct (fixed_kind (e_id (ev_of h r))) as [k|] eqn:FK; [|discriminate]. destruct M as [_ M]. now rewrite (M k (fixed_kind_ok _ _ _ FK)).
  - destruct (Z.eqb_spec (e_id (ev_of h r)) 213) as [E|E].
    + destruct hm as [| | |k]; try discriminate. now rewrite (PL E k eq_refl).
    + destruct (fixed_kind (e_id (ev_of h r))) as [k|] eqn:FK; [|discriminate]. destruct M as [_ M]. now rewrite (M k (fixed_kind_ok _ _ _ FK)).
Qed.

(* either there is nothing to read, or what is found can be read *)
Lemma home_target en evs h hm m p : loaded en evs h -> at_home h hm m -> readable hm p = true ->
  (exists g, get_event h (p_ids p) m = Ok (Some g) /\ good_target en h (p_kind p) g /\ present h m (p_ids p)) \/
  (get_event h (p_ids p) m = Ok None /\ ~ present h m (p_ids p)).
Proof.
  intros LD AH RD.
  assert (TREE : forall t, m = EvModel t -> (t < nt h)%nat -> p_ids p <> [] -> forallb (suited_id hm (p_kind p)) (p_ids p) = true ->
     (forall k j e, hm = HPlugin k -> chosen [213] (events h t) (Some j) -> nth_error (events h t) j = Some e -> e_kind e = k) ->
     (exists g, get_event h (p_ids p) m = Ok (Some g) /\ good_target en h (p_kind p) g /\ present h m (p_ids p)) \/
     (get_event h (p_ids p) m = Ok None /\ ~ present h m (p_ids p))).
  { intros t -> L NI FA PL. rewrite forallb_forall in FA. destruct (found h t (p_ids p) NI) as [(k & c & CH & N & G & X & I)|[CH G]].
    - left. exists (TEvent (ref_of h c)). split; [exact G|]. split.
      + eapply suited_by_id; [exact LD|exact L|eapply in_refs; exact N| |apply FA, I]. intros E kk HK. eapply (PL kk k); [exact HK| |exact X].
        inversion CH as [ids1 id ids2 k' e EI N1 NK ID FST E0|]; subst. rewrite X in NK. injection NK as <-.
        eapply (ch_some _ _ [] 213 [] k); [reflexivity|intros ? _ []|exact X|exact E|]. intros j e' Hj HN. rewrite <- E. exact (FST j e' Hj HN).
      + right. exists (ev_of h (ref_of h c)). split; [eapply nth_error_In; exact X|exact I].
    - right. split; [exact G|]. cbn [present]. intros [E|(e & IE & ID)]; [congruence|]. inversion CH as [|H0]; subst. exact (H0 e IE ID). }
  destruct AH as [t L|id t e L EV ID|k r i LR K LI|k t L PL]; cbn [readable] in RD.
  - apply (TREE t); [reflexivity|exact L|intros E; rewrite E in RD; discriminate|destruct (p_ids p); [discriminate|exact RD]|intros k j e X; discriminate X].
  - left. destruct (p_ids p) eqn:E; [|discriminate]. unfold events in EV. destruct (lst_of h t) as [|c [|c2 l]] eqn:EL; try discriminate.
    exists (TEvent (ref_of h c)). cbn [get_event]. rewrite EL. split; [reflexivity|]. cbn [map] in EV.
    assert (X : e_id (ev_of h (ref_of h c)) = id) by (injection EV as <-; exact ID).
    split; [|left; reflexivity]. eapply (suited_by_id en h evs t _ (p_kind p) (HOne id)); [exact LD|exact L| |intros _ k; discriminate|rewrite X; exact RD].
    apply (in_refs h t 0%nat). now rewrite EL.
  - left. exists (TItem r i). cbn [get_event present]. split; [reflexivity|]. split; [|exact I]. split; [exact LR|].
    apply andb_prop in RD. destruct RD as [HE RD]. destruct LD as (NE & F & V).
    assert (M : made en (ev_of h r)). { rewrite Forall_forall in F. apply F. unfold ev_of. rewrite (views_evs _ _ V) in LR |- *. now apply nth_In. }
    destruct (nth_error (items (ev_of h r)) i) as [v|] eqn:N; [|apply nth_error_None in N; lia]. rewrite <- K in HE, RD.
    destruct (made_item _ _ _ _ M HE N) as (d & -> & NM & FL). destruct (p_kind p) as [|n|n f mask inv]; [discriminate| |].
    + cbn [tg_get]. rewrite N. unfold dindex. apply memb_in in RD. rewrite <- NM in RD. destruct (in_dget _ _ RD) as (w & ->). eauto.
    + destruct (e_kind (ev_of h r)) eqn:KK; try discriminate. apply andb_prop in RD. destruct RD as [RN RG]. apply String.eqb_eq in RN. subst n.
      split; [now apply good_flagb_ok|]. destruct (FL eq_refl) as (w & D & Q). exists w. split; [|now right].
      unfold flags_get. cbn [has_items tg_get]. rewrite N. unfold dindex. now rewrite D.
  - apply (TREE t); [reflexivity|exact L|intros E; rewrite E in RD; discriminate|destruct (p_ids p); [discriminate|exact RD]|].
    intros k' j e X. injection X as <-. apply PL.
Qed.

(* ------------------------------------------------------------------ reading *)

Lemma flag_number_int en v : flag_number en v -> v <> VNone /\ exists z, as_int v = Some z.
Proof. intros (z & [->|[->|(b & -> & ->)]] & _); split; try discriminate; cbn [as_int]; eauto. Qed.
Lemma good_read en h p g : good_target en h p g -> exists v, target_read en h p g = Ok v /\
  match p with PFlag _ _ _ _ => v = VNone \/ exists b, v = VBool b | _ => True end.
Proof.
  intros [T G]. destruct p as [|n|n f mask inv]; cbn [target_read].
  - destruct G as [r ->]. eauto.
  - destruct G as [v ->]. eauto.
  - destruct G as [_ (v & -> & Q)]. cbn [bind]. destruct Q as [->|Q]; [eauto|]. destruct (flag_number_int _ _ Q) as (NN & z & AI).
    unfold flag_in. rewrite AI. cbn [bind]. destruct v; try congruence; cbn [bind]; eauto.
Qed.
Lemma good_prop_get en h m p g : get_event h (p_ids p) m = Ok (Some g) -> prop_get en h m p = target_read en h (p_kind p) g.
Proof. intros E. unfold prop_get. now rewrite E. Qed.

(* ------------------------------------------------------------------ writing *)

Lemma tg_struct h r n v : tg_get h (TEvent r) n = Ok v -> is_struct_kind (e_kind (ev_of h r)) = true.
Proof. cbn [tg_get]. unfold struct_get. destruct (is_struct_kind _); [reflexivity|discriminate]. Qed.
Lemma tg_set_ok h g n old v : tg_get h g n = Ok old -> old <> VNone -> exists h', tg_set h g n v = (h', Ok tt).
Proof.
  intros G N. destruct g as [r|r i]; cbn [tg_get tg_set] in *.
  - unfold struct_get, struct_set in *. destruct (is_struct_kind _); [|discriminate]. destruct (e_val (ev_of h r)) as [| | | | | | | | |d]; try discriminate.
    unfold dindex in G. destruct (dget d n) as [o|]; [|discriminate]. injection G as ->. destruct old; try congruence; eauto.
  - destruct (nth_error (items (ev_of h r)) i) as [[| | | | | | | | |d]|]; try discriminate. eauto.
Qed.

(* one assignment, as seen by every member of the same thing *)
Definition other_members (h h' : heap) (g : target) (p : pkind) : Prop :=
  match p with
  | PEvent => True
  | PStruct n => forall n', n' <> n -> tg_get h' g n' = tg_get h g n'
  | PFlag n f mask inv => (has_items h g = true -> forall n', n' <> n -> tg_get h' g n' = tg_get h g n')
  end.
Lemma good_write en h m p g v w : good_target en h (p_kind p) g -> get_event h (p_ids p) m = Ok (Some g) -> p_readonly p = false ->
  target_read en h (p_kind p) g = Ok w -> w <> VNone ->
  exists h' u, prop_set en h m p v = (h', Ok tt) /\ only_value h (target_ref g) u h' /\
    prop_get en h' m p = Ok (reads_back (p_kind p) v) /\ other_members h h' g (p_kind p) /\
    (forall n f mask inv, p_kind p = PFlag n f mask inv -> exists old z new y, flags_get h g n = Ok old /\ number old z /\ flags_get h' g n = Ok new /\ number new y /\
       (en_py311 en = true -> 0 <= z /\ 0 <= y) /\
       (forall i, 0 <= i -> Z.testbit mask i = true -> Z.testbit f i = false -> Z.testbit y i = Z.testbit z i)).
Proof.
  intros [T G] E RO R NW. unfold prop_set. rewrite RO, E. destruct (p_kind p) as [|n|n f mask inv] eqn:K; cbn [target_write target_read] in *.
  - destruct G as [r ->]. cbn [target_ref]. pose proof (set_val_only h r v T) as O. exists (set_val h r v), v. split; [reflexivity|]. split; [exact O|].
    split; [|split; [exact I|discriminate]]. unfold prop_get. rewrite (only_value_get_event _ _ _ _ _ _ O), E, K. cbn [bind target_read].
    destruct O as (_ & _ & _ & _ & O). now rewrite O.
  - destruct (tg_set_ok h g n w v R NW) as [h' S]. destruct (tg_set_spec _ _ _ _ _ _ T S) as [(_ & x & D)|(u & O & GG & OT & _)]; [discriminate|].
    exists h', u. split; [exact S|]. split; [exact O|]. split; [|split; [exact OT|discriminate]].
    unfold prop_get. rewrite (only_value_get_event _ _ _ _ _ _ O), E, K. cbn [bind target_read]. exact GG.
  - destruct G as [GF (old & F & Q)]. rewrite F in R. cbn [bind] in R. destruct Q as [->|(z & N & P)]; [congruence|].
    destruct (flag_write_spec (en_py311 en) mask f old z (xorb inv (truthy v)) GF N P) as (nv & y & W & NY & B & IN & PY).
    rewrite F. cbn [bind]. rewrite W.
    assert (OLD : old <> VNone) by (destruct N as [->|[->|(b & -> & _)]]; discriminate).
    assert (ST : exists h', flags_set h g n nv = (h', Ok tt)).
    { unfold flags_set. unfold flags_get in F. destruct (has_items h g); [eapply tg_set_ok; eauto|]. destruct g; [eauto|discriminate]. }
    destruct ST as [h' S]. destruct (flags_set_spec _ _ _ _ _ T S) as (u & O & GG). exists h', u. split; [exact S|]. split; [exact O|]. split; [|split].
    + unfold prop_get. rewrite (only_value_get_event _ _ _ _ _ _ O), E, K. cbn [bind target_read]. rewrite GG. cbn [bind]. rewrite IN. cbn [bind].
      assert (X : xorb inv (xorb inv (truthy v)) = truthy v) by (destruct inv, (truthy v); reflexivity). rewrite X. cbn [reads_back].
      destruct NY as [->|[->|(c & -> & _)]]; reflexivity.
    + cbn [other_members]. intros HI. unfold flags_set in S. rewrite HI in S.
      destruct (tg_set_spec _ _ _ _ _ _ T S) as [(_ & x & D)|(u' & _ & _ & OT & _)]; [discriminate|exact OT].
    + intros n0 f0 mask0 inv0 X. injection X as <- <- <- <-. exists old, z, nv, y. split; [exact F|]. split; [exact N|]. split; [exact GG|]. split; [exact NY|].
      split; [intros Q; split; auto|]. intros i Hi MI FI. destruct (xorb inv (truthy v)).
      * rewrite (B i Hi), FI. reflexivity.
      * unfold cleared in B. destruct (en_py311 en); rewrite (B i Hi), FI; [|reflexivity].
        destruct (Z.ltb_spec (Z.log2 mask) i) as [L|L]; [|reflexivity]. rewrite Z.bits_above_log2 in MI; [discriminate|destruct GF; lia|exact L].
Qed.

(* ------------------------------------------------------------------ independence *)

Definition disjointb (a b : list Z) : bool := forallb (fun i => negb (mem_Z i b)) a.
Definition apart (hm : home) (p q : prop) : bool :=
  match hm with
  | HItems _ => false
  | _ => match p_ids p, p_ids q with _ :: _, _ :: _ => disjointb (p_ids p) (p_ids q) | _, _ => false end
  end ||
  match p_kind p, p_kind q with
  | PStruct a, PStruct b | PStruct a, PFlag b _ _ _ | PFlag a _ _ _, PStruct b => negb (String.eqb a b)
  | PFlag a f m _, PFlag b f' m' _ => String.eqb a b && (m =? m') && (Z.land f f' =? 0)
  | _, _ => false
  end.

Lemma flag_in_same en mask f f' a b v z w y : good_flag mask f -> good_flag mask f' -> Z.land f f' = 0 -> number v z -> number w y ->
  (en_py311 en = true -> 0 <= z /\ 0 <= y) ->
  (forall i, 0 <= i -> Z.testbit mask i = true -> Z.testbit f i = false -> Z.testbit y i = Z.testbit z i) ->
  flag_in (en_py311 en) mask f' v = Ok a -> flag_in (en_py311 en) mask f' w = Ok b -> a = b.
Proof.
  intros G G' D N N' P B. assert (NN : forall v z, number v z -> as_int v = Some z) by (intros v' z' [->|[->|(c & -> & ->)]]; reflexivity).
  unfold flag_in. rewrite (NN _ _ N), (NN _ _ N'). intros A A'. injection A as <-. injection A' as <-. apply eq_true_iff_eq. rewrite !Z.eqb_eq.
  assert (Z1 : intflag_norm (en_py311 en) mask z = z) by (destruct (en_py311 en); [apply norm_nonneg; [apply G|apply P; reflexivity]|reflexivity]).
  assert (Z2 : intflag_norm (en_py311 en) mask y = y) by (destruct (en_py311 en); [apply norm_nonneg; [apply G|apply P; reflexivity]|reflexivity]).
  rewrite Z1, Z2, !land_flag.
  assert (X : forall i, 0 <= i -> Z.testbit f' i = true -> Z.testbit y i = Z.testbit z i).
  { intros i Hi T. apply B; [exact Hi|exact (good_flag_bit _ _ _ G' T)|]. assert (Q := f_equal (fun x => Z.testbit x i) D). cbn beta in Q. rewrite Z.land_spec, T, Z.bits_0 in Q. now destruct (Z.testbit f i). }
  split; intros H i Hi T; [rewrite X by assumption|rewrite <- X by assumption]; now apply H.
Qed.

Lemma ref_event h g r v h' q : only_value h r v h' -> target_ref g <> r -> forall en, target_read en h' q g = target_read en h q g.
Proof.
  intros O N en. assert (E : ev_of h' (target_ref g) = ev_of h (target_ref g)) by (destruct O as (_ & _ & _ & O & _); now apply O).
  destruct g as [s|s i]; cbn [target_ref] in *; destruct q as [|n|n f mask inv]; cbn [target_read]; unfold flags_get; cbn [tg_get has_items]; now rewrite ?E.
Qed.

Lemma get_event_shape h ids m g : get_event h ids m = Ok (Some g) ->
  match m with EvModel t => exists r, g = TEvent r | ItModel r i => g = TItem r i end.
Proof.
  destruct m as [t|r i]; cbn [get_event]; [|congruence]. destruct ids as [|a ids].
  - destruct (lst_of h t) as [|c [|]]; try discriminate. intros X. injection X as <-. eauto.
  - destruct (first_of h t (a :: ids)); cbn [option_map]; [|discriminate]. intros X. injection X as <-. eauto.
Qed.
Lemma get_event_id h ids t r : ids <> [] -> get_event h ids (EvModel t) = Ok (Some (TEvent r)) -> In (e_id (ev_of h r)) ids.
Proof.
  intros NE G. destruct (found h t ids NE) as [(k & c & _ & _ & G' & _ & I)|[_ G']]; rewrite G in G'; [|discriminate]. injection G' as ->. exact I.
Qed.
Lemma disjointb_ok a b x : disjointb a b = true -> In x a -> In x b -> False.
Proof. unfold disjointb. rewrite forallb_forall. intros H A B. specialize (H x A). apply mem_Z_in in B. now rewrite B in H. Qed.

Lemma apart_kept en evs h hm m p q v w g : loaded en evs h -> at_home h hm m -> readable hm p = true -> readable hm q = true -> apart hm p q = true ->
  get_event h (p_ids p) m = Ok (Some g) -> good_target en h (p_kind p) g -> p_readonly p = false -> prop_get en h m p = Ok w -> w <> VNone ->
  exists h', prop_set en h m p v = (h', Ok tt) /\ prop_get en h' m p = Ok (reads_back (p_kind p) v) /\ prop_get en h' m q = prop_get en h m q.
Proof.
  intros LD AH RP RQ AP GP GT RO R NW. rewrite (good_prop_get _ _ _ _ _ GP) in R.
  destruct (good_write en h m p g v w GT GP RO R NW) as (h' & u & S & O & GB & OM & FL). exists h'. split; [exact S|]. split; [exact GB|].
  destruct (home_target _ _ _ _ _ q LD AH RQ) as [(g' & GQ & GTQ & _)|[GQ _]].
  2: unfold prop_get; now rewrite (only_value_get_event _ _ _ _ _ _ O), GQ.
  assert (GQ' : get_event h' (p_ids q) m = Ok (Some g')) by now rewrite (only_value_get_event _ _ _ _ _ _ O).
  rewrite (good_prop_get _ _ _ _ _ GQ), (good_prop_get _ _ _ _ _ GQ').
  destruct (Nat.eq_dec (target_ref g') (target_ref g)) as [EQ|NQ]; [|now apply (ref_event _ _ _ _ _ _ O)].
  assert (g' = g) as ->.
  { apply get_event_shape in GP. apply get_event_shape in GQ. destruct m as [t|r i]; [|congruence]. destruct GP as [r ->], GQ as [s ->]. cbn [target_ref] in EQ. congruence. }
  unfold apart in AP. apply orb_prop in AP. destruct AP as [AP|AP].
  - exfalso. assert (EV : exists t, m = EvModel t) by (destruct AH; try discriminate; eauto). destruct EV as [t ->].
    assert (NP : p_ids p <> []) by (intros E; rewrite E in AP; destruct hm; discriminate). assert (NQ : p_ids q <> []) by (intros E; rewrite E in AP; destruct hm, (p_ids p); discriminate).
    destruct (get_event_shape _ _ _ _ GP) as [r ->]. pose proof (get_event_id _ _ _ _ NP GP) as I1. pose proof (get_event_id _ _ _ _ NQ GQ) as I2.
    refine (disjointb_ok (p_ids p) (p_ids q) _ _ I1 I2). destruct (p_ids p); [congruence|]. destruct (p_ids q); [congruence|]. destruct hm; try discriminate; exact AP.
  - destruct GT as [_ GT], GTQ as [_ GTQ]. destruct (p_kind p) as [|a|a f mk iv] eqn:KP; [discriminate| |]; destruct (p_kind q) as [|b|b f' mk' iv'] eqn:KQ; try discriminate.
    + apply negb_true_iff, String.eqb_neq in AP. cbn [target_read]. apply OM. congruence.
    + apply negb_true_iff, String.eqb_neq in AP. cbn [target_read]. destruct GT as [w0 GT].
      assert (HI : has_items h g = true) by (destruct g; [exact (tg_struct _ _ _ _ GT)|reflexivity]).
      assert (HI' : has_items h' g = true) by (destruct g; cbn [has_items] in *; [now rewrite (only_value_kind _ _ _ _ _ O)|reflexivity]).
      unfold flags_get. rewrite HI, HI'. cbn [other_members] in OM. rewrite OM by congruence. reflexivity.
    + apply negb_true_iff, String.eqb_neq in AP. cbn [target_read]. destruct GTQ as [w0 GTQ].
      assert (HI : has_items h g = true) by (destruct g; [exact (tg_struct _ _ _ _ GTQ)|reflexivity]).
      cbn [other_members] in OM. rewrite OM by (exact HI || congruence). reflexivity.
    + apply andb_prop in AP. destruct AP as [AP D]. apply andb_prop in AP. destruct AP as [AN AM]. apply String.eqb_eq in AN. apply Z.eqb_eq in AM, D. subst b mk'.
      destruct (FL _ _ _ _ eq_refl) as (old & z & new & y & F1 & N1 & F2 & N2 & P & B). cbn [target_read]. rewrite F1, F2. cbn [bind].
      destruct GT as [G1 _], GTQ as [G2 _].
      assert (NN : forall v z, number v z -> as_int v = Some z /\ v <> VNone) by (intros v' z' [->|[->|(c & -> & ->)]]; split; reflexivity || discriminate).
      destruct (NN _ _ N1) as [A1 V1], (NN _ _ N2) as [A2 V2].
      assert (X : exists c, flag_in (en_py311 en) mk f' old = Ok c) by (unfold flag_in; rewrite A1; eauto). assert (Y : exists c, flag_in (en_py311 en) mk f' new = Ok c) by (unfold flag_in; rewrite A2; eauto).
      destruct X as [c X], Y as [c' Y]. pose proof (flag_in_same en mk f f' c c' old z new y G1 G2 D N1 N2 P B X Y) as ->. rewrite X, Y.
      destruct old; try congruence; destruct new; try congruence; reflexivity.
Qed.

(* ------------------------------------------------------------------ the table *)

Definition in_pairs (c n : string) (l : list (string * string)) : bool := existsb (fun x => String.eqb (fst x) c && String.eqb (snd x) n) l.
Lemma in_pairs_ok c n l : in_pairs c n l = true <-> In (c, n) l.
Proof.
  unfold in_pairs. rewrite existsb_exists. split.
  - intros ([a b] & I & E). cbn [fst snd] in E. apply andb_prop in E. destruct E as [A B]. apply String.eqb_eq in A, B. now subst.
  - intros I. exists (c, n). split; [exact I|]. cbn [fst snd]. now rewrite !String.eqb_refl.
Qed.
Definition aliasb (c a b : string) : bool :=
  (String.eqb c "Slot" && ((String.eqb a "iid" && String.eqb b "index") || (String.eqb a "index" && String.eqb b "iid")))%string.
Lemma aliasb_ok c a b : aliasb c a b = true -> alias c a b.
Proof.
  unfold aliasb, alias. rewrite andb_true_iff, orb_true_iff, !andb_true_iff, !String.eqb_eq. tauto.
Qed.
Definition table_ok : bool :=
  forallb (fun x => let c := fst x in let hm := snd x in
    forallb (fun a => in_pairs c (fst a) broken || (readable hm (snd a) &&
      forallb (fun b => in_pairs c (fst b) broken || String.eqb (fst b) (fst a) || aliasb c (fst a) (fst b) || apart hm (snd a) (snd b)) (properties_of c)))
    (properties_of c)) homes.
Lemma table_fact : table_ok = true.
Proof. vm_compute. reflexivity. Qed.
