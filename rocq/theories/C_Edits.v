(* C75 whole editing sessions, saved and loaded again. *)
From Coq Require Import String ZArith List Bool Lia Arith.
From Verif Require Import M_Base M_Float M_Text M_Construct M_Structs M_Events M_Parse M_Tree M_Prop M_Project M_Items M_Collections M_Models.
From Verif Require Import S_Canon S_File S_Domain S_Tree S_Prop S_Layout S_Real S_Project S_Items S_Collections S_Models S_Vst S_Edits.
From Verif Require Import P_Base P_Float P_Codec P_RT P_Cells P_Kinds P_Lists P_Payload P_File P_Null P_Save P_Domain P_Special.
From Verif Require Import P_TreeBase P_Tree P_TreeEdit P_Prop P_Edit P_Rewrite P_Layout P_Struct P_Records P_EditStruct P_Misfit P_Written P_Round P_Items P_Models P_Notes P_Project P_Session P_Vst P_Edits.
From Verif Require Import C_Samples C_Prop C_Struct C_Items C_Session C_Inserts C_Playlist C_Paths C_Vst.
Import ListNotations.
Open Scope Z_scope.

(* Any number of views and edits: the project can be saved, the file loads, and what is loaded is
   the edited project - every event with the value it had, the same channels, format and ppq; every
   view there was at the end is a view of the loaded project too, with the same events. *)
Theorem C75_saved : forall en f p h, editing en f p h -> (forall n, total_size en (root_events h) n -> n < 2 ^ 32) ->
  exists f' p' h2, serialise en (Project (root_events h) (pr_channel_count p) (pr_format p) (pr_ppq p)) = Ok f' /\ parse en f' = Ok p' /\
    Forall2 alike (root_events h) (pr_events p') /\
    pr_channel_count p' = pr_channel_count p /\ pr_format p' = pr_format p /\ pr_ppq p' = pr_ppq p /\
    views (parsed (pr_events p')) h2 /\ nt h2 = nt h /\
    forall t, (t < nt h)%nat -> refs h2 t = refs h t /\ Forall2 alike (events h t) (events h2 t).
Proof.
  intros en f p h (Hb & H & HC & E) SZ. destruct (edits_saved_all en f p h Hb H HC E SZ) as (f' & p' & A & B & C & D & F & G & V & W).
  exists f', p', (with_evs h (pr_events p')). do 7 (split; [assumption|]). split; [reflexivity|]. intros t L. split; [reflexivity|now apply W].
Qed.
Print Assumptions C75_saved.
(* so the loaded project reads, through that view, what the edited one read *)
Theorem C75_read : forall en f p h t ids d k e v, editing en f p h -> (forall n, total_size en (root_events h) n -> n < 2 ^ 32) ->
  (t < nt h)%nat -> ids <> [] -> chosen ids (events h t) (Some k) -> nth_error (events h t) k = Some e -> e_val e = v -> (forall z, ~ number v z) ->
  exists f' p' h2, serialise en (Project (root_events h) (pr_channel_count p) (pr_format p) (pr_ppq p)) = Ok f' /\ parse en f' = Ok p' /\
    views (parsed (pr_events p')) h2 /\ prop_get en h2 (EvModel t) (MkProp ids d false PEvent) = Ok v.
Proof.
  intros en f p h t ids d k e v ED SZ L NI CH K EV NN. destruct (C75_saved en f p h ED SZ) as (f' & p' & h2 & A & B & _ & _ & _ & _ & V & NT & W).
  exists f', p', h2. split; [exact A|]. split; [exact B|]. split; [exact V|]. destruct (W t L) as [RF F].
  destruct (Forall2_nth_l _ _ _ _ _ _ _ F K) as (e2 & K2 & AE & AK & AV).
  assert (CH2 : chosen ids (events h2 t) (Some k)).
  { eapply chosen_ids; [|exact CH]. clear - F. induction F as [|x y l l' (X & _) F IH]; cbn [map]; congruence. }
  destruct (get_event_spec h2 t ids NI) as [G _]. destruct (G k CH2) as (c & KC & GE). unfold prop_get. cbn [p_ids p_kind p_default]. rewrite GE. cbn [bind target_read].
  assert (EE : ev_of h2 (ref_of h2 c) = e2) by (rewrite nth_error_events, KC in K2; cbn in K2; unfold e_of in K2; unfold ref_of; congruence).
  rewrite EE. destruct AV as [AV|(z & NZ & _)]; [congruence|]. rewrite EV in NZ. now destruct (NN z).
Qed.
Print Assumptions C75_read.

(* Opening a file and looking at it: *)
Theorem C75_open : forall en f p, is_bytes f -> parse en f = Ok p -> canonical_file en f ->
  editing en f p (parsed (pr_events p)) /\
  forall h h', views (parsed (pr_events p)) h -> editing en f p h /\ (editing en f p h -> view_op h h' -> editing en f p h').
Proof.
  intros en f p Hb H HC. assert (E : editing en f p (parsed (pr_events p))) by (repeat (split; [assumption|]); constructor). split; [exact E|].
  intros h h' V. split; [|intros X O; eapply look; eauto]. induction V as [|h0 h1 V IH O]; [exact E|]. eapply look; eauto.
Qed.
Print Assumptions C75_open.

(* ------------------------------------------------------ properties of the models *)

(* the value of an event *)
Theorem C75_property : forall en f p h t ids d k e v, editing en f p h -> (t < nt h)%nat ->
  ids <> [] -> chosen ids (events h t) (Some k) -> nth_error (events h t) k = Some e -> ~ (e_id e = 199 \/ e_id e = 201) ->
  scalar_kind (e_kind e) = true -> domain (e_kind e) v \/ (exists z, number v z /\ domain (e_kind e) (VInt z)) ->
  an_edit en f p (prop_set en h (EvModel t) (MkProp ids d false PEvent) v).
Proof.
  intros en f p h t ids d k e v ED L NI CH K NS SK D. destruct (chosen_ref _ _ _ _ _ _ _ _ ED L NI CH K) as (r & G & E & LR).
  exists (set_val h r v). split; [unfold prop_set; cbn [p_readonly p_ids p_kind]; rewrite G; reflexivity|].
  apply give; [exact ED|rewrite E; exact NS|]. rewrite E. destruct D as [D|(z & NZ & D)]; [now apply fit_value|eapply fit_number; eauto].
Qed.
Print Assumptions C75_property.

(* an unsigned number in a session: it may have become flags *)
Lemma editing_number en f p h r : editing en f p h -> (r < length (h_evs h))%nat -> unsigned_kind (e_kind (ev_of h r)) = true ->
  exists z, number (e_val (ev_of h r)) z /\ 0 <= z < 2 ^ bit_width (e_kind (ev_of h r)).
Proof.
  intros ED L U. destruct (editing_event _ _ _ _ _ ED L) as ((b & e' & B & M & P & C & A & _ & _) & ID & AL & UN & _).
  assert (SK : scalar_kind (e_kind (ev_of h r)) = true) by (destruct (e_kind (ev_of h r)); try discriminate U; reflexivity).
  assert (D : domain (e_kind (ev_of h r)) (e_val e')).
  { apply (proj1 (domain_exact en (e_kind (ev_of h r)) (e_id (ev_of h r)) (e_val e') SK ID AL UN)). destruct A as (A1 & A2 & _).
    exists (e_len e'), (e_new e'), b, e'. split; [|auto]. pose proof (proj2 (payload_canonical en _ _ _ _ B M) C) as P2. rewrite A1, A2. destruct e'; exact P2. }
  assert (D2 : exists z, e_val e' = VInt z /\ 0 <= z < 2 ^ bit_width (e_kind (ev_of h r))) by (destruct (e_kind (ev_of h r)); try discriminate U; exact D).
  destruct D2 as (z & EZ & R). exists z. split; [|exact R]. destruct A as (_ & _ & [A|(z' & NZ & A)]); [left; congruence|]. rewrite EZ in A. injection A as ->. exact NZ.
Qed.
(* a flag of such a number *)
Theorem C75_flag : forall en f p h t ids d n fl mask inv k e v, editing en f p h -> (t < nt h)%nat ->
  ids <> [] -> chosen ids (events h t) (Some k) -> nth_error (events h t) k = Some e ->
  unsigned_kind (e_kind e) = true -> good_flag mask fl -> fl < 2 ^ bit_width (e_kind e) ->
  an_edit en f p (prop_set en h (EvModel t) (MkProp ids d false (PFlag n fl mask inv)) v).
Proof.
  intros en f p h t ids d n fl mask inv k e v ED L NI CH K U G FL. destruct (chosen_ref _ _ _ _ _ _ _ _ ED L NI CH K) as (r & GE & E & LR).
  rewrite <- E in U, FL. destruct (editing_number _ _ _ _ _ ED LR U) as (z & NZ & BZ).
  destruct (editing_event _ _ _ _ _ ED LR) as (_ & ID & AL & UN & _).
  assert (SK : scalar_kind (e_kind (ev_of h r)) = true) by (destruct (e_kind (ev_of h r)); try discriminate U; reflexivity).
  assert (ND : is_struct_kind (e_kind (ev_of h r)) = false) by (destruct (e_kind (ev_of h r)); try discriminate U; reflexivity).
  destruct (flag_write_spec (en_py311 en) mask fl _ z (xorb inv (truthy v)) G NZ ltac:(lia)) as (w & y & WR & NY & BS & _ & Y0).
  assert (W0 : 0 <= bit_width (e_kind (ev_of h r))) by (destruct (e_kind (ev_of h r)); try discriminate U; discriminate).
  assert (YB : y < 2 ^ bit_width (e_kind (ev_of h r))) by (eapply (flag_number_range _ z fl y); [exact W0|exact BZ|destruct G as (_ & G & _); lia|apply Y0; lia|exact BS]).
  exists (set_val h r w). split.
  - unfold prop_set. cbn [p_readonly p_ids p_kind]. rewrite GE. cbn [target_write]. unfold flags_get, flags_set. cbn [has_items]. rewrite ND. cbn [bind]. rewrite WR. reflexivity.
  - apply give; [exact ED| |].
    + destruct (allowed_fits _ _ (proj1 ID) AL) as [_ X]; [destruct (e_kind (ev_of h r)); try discriminate U; reflexivity|]. intros [Y|Y]; lia.
    + eapply fit_number; [exact SK|exact NY|]. assert (Y1 : 0 <= y) by (apply Y0; lia). destruct (e_kind (ev_of h r)); try discriminate U; exists y; (split; [reflexivity|]); (split; [exact Y1|exact YB]).
Qed.
Print Assumptions C75_flag.

(* a field of a struct *)
Theorem C75_struct : forall en f p h t ids df k e b fs i m fd ty d old v c, editing en f p h -> (t < nt h)%nat ->
  ids <> [] -> chosen ids (events h t) (Some k) -> nth_error (events h t) k = Some e -> ~ (e_id e = 199 \/ e_id e = 201) ->
  payload en e = Ok b -> layout (zlen b) (e_kind e) = Some fs -> cut_at fs b i -> readable en fs b i ->
  nth_error fs m = Some fd -> f_type fd = Some ty -> e_val e = VDict d -> dget d (f_name fd) = Some old -> old <> VNone ->
  stored_as ty v c -> is_bytes c -> ft_dec en ty c = Some v ->
  an_edit en f p (prop_set en h (EvModel t) (MkProp ids df false (PStruct (f_name fd))) v).
Proof.
  intros en f p h t ids df k e b fs i m fd ty d old v c ED L NI CH K NS P LY CU RD N T D A NA ST BC DC.
  destruct (chosen_ref _ _ _ _ _ _ _ _ ED L NI CH K) as (r & G & <- & LR).
  destruct (give_field en f p h r b fs i m fd ty d old v c ED NS P LY CU RD N T D A NA ST BC DC) as (h' & S & E & _).
  exists h'. split; [|exact E]. rewrite <- S. unfold prop_set. cbn [p_readonly p_ids p_kind]. rewrite G. reflexivity.
Qed.
Print Assumptions C75_struct.

(* how numbers and flags are stored *)
Lemma unsigned_stored en n z : 0 <= z < 256 ^ Z.of_nat n -> stored_as (TU n) (VInt z) (le n z) /\ is_bytes (le n z) /\ ft_dec en (TU n) (le n z) = Some (VInt z).
Proof.
  intros R. split; [exists z; split; [now left|auto]|]. rewrite le_spec. split; [apply le_enc_bytes|]. cbn [ft_dec]. now rewrite u_le_enc.
Qed.
Lemma le_dec_mod : forall n z, le_dec (le_enc n z) = z mod 256 ^ Z.of_nat n.
Proof.
  induction n as [|n IH]; intros z; [now rewrite Z.mod_1_r|]. cbn [le_enc le_dec]. rewrite IH.
  replace (Z.of_nat (S n)) with (Z.succ (Z.of_nat n)) by lia. rewrite Z.pow_succ_r by lia. rewrite Z.rem_mul_r; [reflexivity|lia|apply Z.pow_pos_nonneg; lia].
Qed.
Lemma signed_stored en z : - 2 ^ 31 <= z < 2 ^ 31 -> stored_as (TS 4) (VInt z) (le 4 z) /\ is_bytes (le 4 z) /\ ft_dec en (TS 4) (le 4 z) = Some (VInt z).
Proof.
  intros R. split; [exists z; split; [now left|]; split; [change (256 ^ Z.of_nat 4) with (2 ^ 32); lia|reflexivity]|]. rewrite le_spec. split; [apply le_enc_bytes|].
  cbn [ft_dec]. rewrite (s_le_spec 4) by apply le_enc_length. do 2 f_equal. unfold to_signed. rewrite le_dec_mod. change (256 ^ Z.of_nat 4) with (2 ^ 32).
  destruct (Z.ltb_spec z 0); [replace (z mod 2 ^ 32) with (z + 2 ^ 32) by (rewrite <- (Z.mod_add z 1 (2 ^ 32)), Z.mod_small; lia)|rewrite Z.mod_small by lia]; match goal with |- context [?a <? ?b] => destruct (Z.ltb_spec a b) end; lia.
Qed.
Lemma flag_write_stored en ty w mask fl z v inv : flag_room ty w -> good_flag mask fl -> fl < 2 ^ w -> 0 <= z < 2 ^ w ->
  exists y c, (if xorb inv (truthy v) then flag_or else flag_andnot) (en_py311 en) mask fl (VEnum z) = Ok (VEnum y) /\
    stored_as ty (VEnum y) c /\ is_bytes c /\ ft_dec en ty c = Some (VEnum y).
Proof.
  intros FR G FL HZ.
  destruct (flag_write_spec (en_py311 en) mask fl (VEnum z) z (xorb inv (truthy v)) G ltac:(right; now left) ltac:(lia)) as (x & y & WR & NY & BS & _ & Y0).
  assert (X : x = VEnum y).
  { assert (exists q, x = VEnum q) as [q ->] by (destruct (xorb inv (truthy v)); [eapply flag_or_enum|eapply flag_andnot_enum]; eauto).
    destruct NY as [NY|[NY|(c & NY & _)]]; congruence. }
  subst x. assert (W0 : 0 <= w) by (destruct FR as [(n & _ & ->)|(m & _ & _ & ->)]; lia).
  assert (YB : y < 2 ^ w) by (eapply (flag_number_range w z fl y); [exact W0|exact HZ|destruct G as (_ & G & _); lia|apply Y0; lia|exact BS]).
  assert (Y1 : 0 <= y) by (apply Y0; lia).
  destruct FR as [(n & -> & ->)|(m & -> & M & ->)].
  - rewrite Z.pow_mul_r in YB by lia. exists y, (le n y). split; [exact WR|]. rewrite le_spec. split; [exists y; rewrite le_spec; auto|]. split; [apply le_enc_bytes|]. cbn [ft_dec]. now rewrite u_le_enc.
  - exists y, (le 4 y). split; [exact WR|]. rewrite le_spec. split; [exists y; rewrite le_spec; split; [reflexivity|split; [change (256 ^ Z.of_nat 4) with (2 ^ 32); lia|reflexivity]]|]. split; [apply le_enc_bytes|].
    cbn [ft_dec]. unfold s_le. rewrite le_enc_length, u_le_enc by (change (256 ^ Z.of_nat 4) with (2 ^ 32); lia). change (256 ^ Z.of_nat 4) with (2 ^ 32).
    replace (2 * y <? 2 ^ 32) with true by lia. do 2 f_equal. destruct (en_py311 en); [now apply norm_nonneg|reflexivity].
Qed.
(* flags kept in a field of a struct *)
Theorem C75_struct_flag : forall en f p h t ids df k e b fs i m fd ty w d z fl mask inv v, editing en f p h -> (t < nt h)%nat ->
  ids <> [] -> chosen ids (events h t) (Some k) -> nth_error (events h t) k = Some e -> ~ (e_id e = 199 \/ e_id e = 201) ->
  payload en e = Ok b -> layout (zlen b) (e_kind e) = Some fs -> cut_at fs b i -> readable en fs b i ->
  nth_error fs m = Some fd -> f_type fd = Some ty -> flag_room ty w -> good_flag mask fl -> fl < 2 ^ w ->
  e_val e = VDict d -> dget d (f_name fd) = Some (VEnum z) -> 0 <= z < 2 ^ w ->
  an_edit en f p (prop_set en h (EvModel t) (MkProp ids df false (PFlag (f_name fd) fl mask inv)) v).
Proof.
  intros en f p h t ids df k e b fs i m fd ty w d z fl mask inv v ED L NI CH K NS P LY CU RD N T FR G FL D A HZ.
  destruct (chosen_ref _ _ _ _ _ _ _ _ ED L NI CH K) as (r & GE & <- & LR).
  destruct (flag_write_stored en ty w mask fl z v inv FR G FL HZ) as (y & c & WR & ST & BC & DC).
  destruct (give_field en f p h r b fs i m fd ty d (VEnum z) (VEnum y) c ED NS P LY CU RD N T D A ltac:(discriminate) ST BC DC) as (h' & S & E & _).
  exists h'. split; [|exact E]. rewrite <- S. unfold prop_set. cbn [p_readonly p_ids p_kind]. rewrite GE. cbn [target_write]. unfold flags_get, flags_set. cbn [has_items]. rewrite (layout_struct _ _ _ LY).
  cbn [tg_get]. unfold struct_get. rewrite (layout_struct _ _ _ LY), D. unfold dindex. rewrite A. cbn [bind]. rewrite WR. reflexivity.
Qed.
Print Assumptions C75_struct_flag.

(* a field, or flags, of an element of a list event: note, controller, playlist item, parameter *)
Theorem C75_item : forall en f p h r i d b rs m fd ty v c ids df, editing en f p h -> ~ (e_id (ev_of h r) = 199 \/ e_id (ev_of h r) = 201) -> element h r i d ->
  payload en (ev_of h r) = Ok b -> record (new_of b) (e_kind (ev_of h r)) = Some rs -> nth_error rs m = Some fd -> f_type fd = Some ty ->
  stored_as ty v c -> is_bytes c -> ft_dec en ty c = Some v ->
  an_edit en f p (prop_set en h (ItModel r i) (MkProp ids df false (PStruct (f_name fd))) v).
Proof.
  intros en f p h r i d b rs m fd ty v c ids df ED NS EL P RC N T ST BC DC.
  destruct (give_item en f p h r i d b rs m fd ty v c ED NS EL P RC N T ST BC DC) as (h' & S & E & _). exists h'. split; [exact S|exact E].
Qed.
Print Assumptions C75_item.
Theorem C75_item_flag : forall en f p h r i d b rs m fd ty w z fl mask inv v ids df, editing en f p h -> ~ (e_id (ev_of h r) = 199 \/ e_id (ev_of h r) = 201) -> element h r i d ->
  payload en (ev_of h r) = Ok b -> record (new_of b) (e_kind (ev_of h r)) = Some rs -> nth_error rs m = Some fd -> f_type fd = Some ty ->
  flag_room ty w -> good_flag mask fl -> fl < 2 ^ w -> dget d (f_name fd) = Some (VEnum z) -> 0 <= z < 2 ^ w ->
  an_edit en f p (prop_set en h (ItModel r i) (MkProp ids df false (PFlag (f_name fd) fl mask inv)) v).
Proof.
  intros en f p h r i d b rs m fd ty w z fl mask inv v ids df ED NS EL P RC N T FR G FL A HZ.
  destruct (flag_write_stored en ty w mask fl z v inv FR G FL HZ) as (y & c & WR & ST & BC & DC).
  destruct (give_item en f p h r i d b rs m fd ty (VEnum y) c ED NS EL P RC N T ST BC DC) as (h' & S & E & _). exists h'. split; [|exact E].
  rewrite <- S. unfold prop_set. cbn [p_readonly p_ids p_kind get_event target_write]. unfold flags_get, flags_set. cbn [has_items]. rewrite (element_get _ _ _ _ _ _ EL A). cbn [bind]. rewrite WR. reflexivity.
Qed.
Print Assumptions C75_item_flag.

(* ------------------------------------------------------ settings with code of their own *)

(* the first event of an id *)
Lemma give_first en f p h t id e m k v : editing en f p h -> (t < nt h)%nat -> filter (fun e => e_id e =? id) (events h t) = e :: m ->
  id <> 199 -> id <> 201 -> registered en id = Some k -> scalar_kind k = true -> domain k v ->
  exists r, set_first h t id v = (set_val h r v, Ok tt) /\ contains h t id = true /\ editing en f p (set_val h r v) /\ e_id (ev_of h r) = id.
Proof.
  intros ED L F N1 N2 RG SK D. destruct (first_ref _ _ _ _ _ _ _ _ ED L F) as (c & l & G & C & E & LR & EI). exists (ref_of h c).
  split; [unfold set_first; now rewrite G|]. split; [exact C|]. split; [|congruence]. rewrite <- E in EI. destruct (editing_event _ _ _ _ _ ED LR) as (_ & _ & _ & _ & KD).
  rewrite EI in KD. specialize (KD k RG). apply give; [exact ED|rewrite EI; intros [X|X]; congruence|]. apply fit_value; rewrite KD; assumption.
Qed.
Lemma set_val_nt h r v : nt (set_val h r v) = nt h.
Proof. reflexivity. Qed.

(* a field of an event all fields of which have four bytes *)
Lemma words_ref en f p h r id k m fs n fd ty d old v c : editing en f p h -> (r < length (h_evs h))%nat -> e_id (ev_of h r) = id ->
  id <> 199 -> id <> 201 -> registered en id = Some k -> (forall L, layout L k = Some fs) -> k <> KParameters -> k <> KTrack ->
  (forall x, In x fs -> exists t, f_type x = Some t /\ ft_size t = 4%nat) ->
  nth_error fs m = Some fd -> f_type fd = Some ty -> f_name fd = n -> e_val (ev_of h r) = VDict d -> dget d n = Some old -> old <> VNone ->
  stored_as ty v c -> is_bytes c -> ft_dec en ty c = Some v ->
  tg_set h (TEvent r) n v = (set_val h r (VDict (dset d n v)), Ok tt) /\ editing en f p (set_val h r (VDict (dset d n v))).
Proof.
  intros ED LR EI N1 N2 RG LY K1 K2 W N T NM D A NA ST BC DC. subst n.
  destruct (editing_event _ _ _ _ _ ED LR) as ((b & e' & B & M & P & _) & _ & _ & _ & KD). rewrite EI in KD. specialize (KD k RG).
  assert (CA : cut_at fs b (Nat.min (length fs) (length b / 4))) by (apply (C29_every_payload (zlen b) k fs 4); [apply LY|lia|exact W]).
  assert (RD : readable en fs b (Nat.min (length fs) (length b / 4))) by (apply (C28_readable en (zlen b) k); [apply LY|exact K1|exact K2]).
  destruct (give_field en f p h r b fs (Nat.min (length fs) (length b / 4)) m fd ty d old v c ED) as (h' & S & E' & HH); try (rewrite ?KD; eauto; fail).
  - rewrite EI. intros [X|X]; congruence.
  - subst h'. auto.
Qed.
Lemma words_field en f p h t id k m fs n fd ty e d old v c mm : editing en f p h -> (t < nt h)%nat -> filter (fun e => e_id e =? id) (events h t) = e :: mm ->
  id <> 199 -> id <> 201 -> registered en id = Some k -> (forall L, layout L k = Some fs) -> k <> KParameters -> k <> KTrack ->
  (forall x, In x fs -> exists t, f_type x = Some t /\ ft_size t = 4%nat) ->
  nth_error fs m = Some fd -> f_type fd = Some ty -> f_name fd = n -> e_val e = VDict d -> dget d n = Some old -> old <> VNone ->
  stored_as ty v c -> is_bytes c -> ft_dec en ty c = Some v ->
  exists c r, get_ie h t [id] = c :: r /\ contains h t id = true /\ ev_of h (ref_of h c) = e /\
    tg_set h (TEvent (ref_of h c)) n v = (set_val h (ref_of h c) (VDict (dset d n v)), Ok tt) /\
    editing en f p (set_val h (ref_of h c) (VDict (dset d n v))).
Proof.
  intros ED L F N1 N2 RG LY K1 K2 W N T NM D A NA ST BC DC. destruct (first_ref _ _ _ _ _ _ _ _ ED L F) as (c0 & l & G & C & E & LR & EI).
  exists c0, l. split; [exact G|]. split; [exact C|]. split; [exact E|]. apply (words_ref en f p h (ref_of h c0) id k m fs n fd ty d old v c); try assumption; congruence.
Qed.
Ltac all_words := let X := fresh in intros ? X; cbn in X; repeat (destruct X as [<-|X]; [eexists; split; reflexivity|]); destruct X.

(* pan and volume of a channel (C63) *)
Theorem C75_levels : forall l en f p h t e m d a z, editing en f p h -> (t < nt h)%nat ->
  filter (fun e => e_id e =? 219) (events h t) = e :: m -> e_val e = VDict d -> dget d (level_key l) = Some a -> a <> VNone -> level_range l z ->
  an_edit en f p (set_level l h t (VInt z)).
Proof.
  intros l en f p h t e m d a z ED L F D A NA R.
  set (fs := match layout 0 KLevels with Some fs => fs | None => [] end).
  assert (X : exists i fd ty c, nth_error fs i = Some fd /\ f_type fd = Some ty /\ f_name fd = level_key l /\ stored_as ty (VInt z) c /\ is_bytes c /\ ft_dec en ty c = Some (VInt z)).
  { destruct l; [exists 0%nat|exists 1%nat]; eexists _, _, (le 4 z); (split; [reflexivity|]); (split; [reflexivity|]); (split; [reflexivity|]); [apply signed_stored; exact R|apply unsigned_stored; change (256 ^ Z.of_nat 4) with (2 ^ 32); exact R]. }
  destruct X as (i & fd & ty & c & N & T & NM & ST & BC & DC).
  destruct (words_field en f p h t 219 KLevels i fs (level_key l) fd ty e d a (VInt z) c m ED L F) as (c0 & r & G & C & E & S & ED'); try assumption; try discriminate; try reflexivity; [all_words|].
  eexists. split; [|exact ED']. rewrite set_level_eq. destruct (first_event _ _ _ _ _ F) as (_ & _ & _ & _ & _ & _ & FI & _).
  assert (SE : struct_event 219 d e).
  { destruct (first_ref _ _ _ _ _ _ _ _ ED L F) as (c1 & l1 & G1 & C1 & E1 & LR & EI). destruct (editing_event _ _ _ _ _ ED LR) as (_ & _ & _ & _ & KD). rewrite E1, EI in KD.
    split; [exact EI|]. split; [rewrite (KD KLevels eq_refl); reflexivity|exact D]. }
  unfold level_set, with_res, level_get. rewrite C, (first_item_get _ _ _ _ _ _ _ F SE), A. unfold set_first_item. rewrite G, S. destruct a; try reflexivity. congruence.
Qed.
Print Assumptions C75_levels.
Theorem C75_pitch : forall en f p h t e m d a z, editing en f p h -> (t < nt h)%nat ->
  filter (fun e => e_id e =? 219) (events h t) = e :: m -> e_val e = VDict d -> dget d "pitch_shift" = Some a -> a <> VNone -> - 2 ^ 31 <= z < 2 ^ 31 ->
  an_edit en f p (pitch_set h t (VInt z)).
Proof.
  intros en f p h t e m d a z ED L F D A NA R. set (fs := match layout 0 KLevels with Some fs => fs | None => [] end).
  destruct (signed_stored en z R) as (ST & BC & DC).
  destruct (words_field en f p h t 219 KLevels 2 fs "pitch_shift" (i32O "pitch_shift") (TS 4) e d a (VInt z) (le 4 z) m ED L F) as (c0 & r & G & C & E & S & ED'); try eassumption; try discriminate; try reflexivity; [all_words|].
  eexists. split; [|exact ED']. unfold pitch_set. rewrite G. exact S.
Qed.
Print Assumptions C75_pitch.
(* the old events of a channel; the byte event has room for less *)
Lemma filter_none id (es : list event) : value_of id es = None -> filter (fun e => e_id e =? id) es = [].
Proof. unfold value_of. induction es as [|e es IH]; cbn [find filter]; [reflexivity|]. destruct (e_id e =? id); [discriminate|exact IH]. Qed.
Lemma filter_some id (es : list event) v : value_of id es = Some v -> exists e m, filter (fun e => e_id e =? id) es = e :: m /\ e_val e = v.
Proof. unfold value_of. induction es as [|e es IH]; cbn [find filter]; [discriminate|]. destruct (e_id e =? id); [intros [= <-]; eauto|exact IH]. Qed.
Theorem C75_levels_old : forall l en f p h t o z, editing en f p h -> (t < nt h)%nat ->
  value_of 219 (events h t) = None -> get_level l h t = Ok o -> o <> VNone -> 0 <= z < 65536 -> (value_of (byte_id l) (events h t) <> None -> z < 256) ->
  an_edit en f p (set_level l h t (VInt z)).
Proof.
  intros l en f p h t o z ED L N G NO R RB. rewrite get_level_eq in G. rewrite set_level_eq. unfold an_edit, level_set. rewrite G. unfold with_res. rewrite contains_value, N.
  assert (X : exists h1, (if contains h t (word_id l) then set_first h t (word_id l) (VInt z) else (h, Ok tt)) = (h1, Ok tt) /\ editing en f p h1 /\ nt h1 = nt h /\ map e_id (events h1 t) = map e_id (events h t)).
  { rewrite contains_value. destruct (value_of (word_id l) (events h t)) as [w|] eqn:W; [|exists h; auto]. destruct (filter_some _ _ _ W) as (e & m & F & _).
    destruct (give_first en f p h t (word_id l) e m KU16 (VInt z) ED L F) as (r & S & C & E & I); try (destruct l; try discriminate; reflexivity); [exists z; auto|].
    exists (set_val h r (VInt z)). split; [exact S|]. split; [exact E|]. split; [reflexivity|].
    destruct (Nat.lt_ge_cases r (length (h_evs h))) as [LR|LR]; [apply (only_value_ids _ _ _ _ t (set_val_only h r (VInt z) LR))|].
    assert (SH : set_val h r (VInt z) = h).
    { exfalso. unfold ev_of in I. rewrite nth_overflow in I by exact LR. destruct l; discriminate. }
    now rewrite SH. }
  destruct X as (h1 & S1 & E1 & NT1 & ID1). unfold and_then. rewrite S1. cbn [fst snd].
  assert (EXB : (value_of (byte_id l) (events h1 t) = None) <-> (value_of (byte_id l) (events h t) = None)).
  { clear - ID1. revert ID1. generalize (events h1 t) as a, (events h t) as b. unfold value_of. induction a as [|x a IH]; intros [|y b] Q; try discriminate; [tauto|]. cbn [map find] in *. injection Q as Q1 Q2. rewrite Q1.
    destruct (e_id y =? byte_id l); [split; discriminate|apply IH; exact Q2]. }
  destruct o; try (now destruct NO); rewrite contains_value; (destruct (value_of (byte_id l) (events h1 t)) as [w|] eqn:W; [|exists h1; auto]);
  (destruct (filter_some _ _ _ W) as (e & m & F & _);
   destruct (give_first en f p h1 t (byte_id l) e m KU8 (VInt z) E1 ltac:(lia) F) as (r & S & C & E & I); [destruct l; discriminate|destruct l; discriminate|destruct l; reflexivity|reflexivity| |];
   [exists z; split; [reflexivity|]; split; [lia|apply RB; intros Q; apply EXB in Q; discriminate]|eexists; split; [exact S|exact E]]).
Qed.
Print Assumptions C75_levels_old.

(* the time selection of an arrangement (C61) *)
Lemma ev_given h r v : (r < length (h_evs h))%nat -> ev_of (set_val h r v) r = with_val (ev_of h r) v.
Proof. intros L. destruct (set_val_only h r v L) as (_ & _ & _ & _ & O). exact O. Qed.
Theorem C75_loop : forall en f p h t e m d a b x y, editing en f p h -> (t < nt h)%nat ->
  filter (fun e => e_id e =? 217) (events h t) = e :: m -> e_val e = VDict d -> dget d "start" = Some a -> dget d "end" = Some b -> a <> VNone -> b <> VNone ->
  0 <= x < 2 ^ 32 -> 0 <= y < 2 ^ 32 -> an_edit en f p (loop_set h t (VInt x) (VInt y)).
Proof.
  intros en f p h t e m d a b x y ED L F D A B NA NB RX RY. set (fs := match layout 0 KPLSelection with Some fs => fs | None => [] end).
  destruct (unsigned_stored en 4 x RX) as (SX & BX & DX). destruct (unsigned_stored en 4 y RY) as (SY & BY & DY).
  destruct (first_ref _ _ _ _ _ _ _ _ ED L F) as (c & l & G & C & E & LR & EI). rewrite <- E in EI, D.
  destruct (words_ref en f p h (ref_of h c) 217 KPLSelection 0 fs "start" (u32O "start") (TU 4) d a (VInt x) (le 4 x) ED LR EI) as [S1 E1]; try assumption; try discriminate; try reflexivity; [all_words|].
  set (h1 := set_val h (ref_of h c) _) in *.
  assert (EV : ev_of h1 (ref_of h c) = with_val (ev_of h (ref_of h c)) (VDict (dset d "start" (VInt x)))) by (apply ev_given; exact LR).
  destruct (words_ref en f p h1 (ref_of h c) 217 KPLSelection 1 fs "end" (u32O "end") (TU 4) (dset d "start" (VInt x)) b (VInt y) (le 4 y) E1) as [S2 E2]; try assumption; try discriminate; try reflexivity.
  - unfold h1, set_val, set_event. cbn [h_evs]. now rewrite lset_length.
  - rewrite EV. exact EI.
  - all_words.
  - now rewrite EV.
  - rewrite dget_dset_other by discriminate. exact B.
  - eexists. split; [|exact E2]. unfold loop_set. rewrite C, G, S1. unfold and_then. cbn [fst snd]. exact S2.
Qed.
Print Assumptions C75_loop.

(* the number of a pattern (C65) *)
Lemma set_all_edit en f p v : domain KU16 v -> forall l h, editing en f p h -> (forall c, In c l -> (ref_of h c < length (h_evs h))%nat /\ e_id (ev_of h (ref_of h c)) = 65) ->
  editing en f p (fold_left (fun h c => set_val h (ref_of h c) v) l h).
Proof.
  intros D. induction l as [|c l IH]; intros h ED X; [exact ED|]. cbn [fold_left]. destruct (X c (or_introl eq_refl)) as [LR EI]. apply IH.
  - destruct (editing_event _ _ _ _ _ ED LR) as (_ & _ & _ & _ & KD). rewrite EI in KD. specialize (KD KU16 eq_refl).
    apply give; [exact ED|rewrite EI; intros [Q|Q]; discriminate|]. apply fit_value; rewrite KD; [reflexivity|exact D].
  - intros c' I. destruct (X c' (or_intror I)) as [LR' EI']. split; [unfold set_val, set_event; cbn [h_evs]; rewrite lset_length; exact LR'|].
    change (ref_of (set_val h (ref_of h c) v) c') with (ref_of h c'). rewrite <- EI'. exact (only_value_id _ _ _ _ (set_val_only h (ref_of h c) v LR) c').
Qed.
Theorem C75_iid : forall en f p h t n, editing en f p h -> (t < nt h)%nat -> 0 <= n < 65536 -> editing en f p (iid_set h t (VInt n)).
Proof.
  intros en f p h t n ED L R. unfold iid_set. apply set_all_edit; [exists n; auto|exact ED|]. intros c I. rewrite get_ie_one in I. apply filter_In in I. destruct I as [I EI].
  split; [eapply editing_in; [exact ED|exact L|]; unfold refs; apply in_map; exact I|]. apply Z.eqb_eq in EI. exact EI.
Qed.
Print Assumptions C75_iid.

(* an element of a list event *)
Definition field_of (k : kind) (n : string) (ty : ftype) : Prop :=
  forall w, exists rs m fd, record w k = Some rs /\ nth_error rs m = Some fd /\ f_type fd = Some ty /\ f_name fd = n.
Lemma element_give en f p h r i d id k n ty v c : editing en f p h -> element h r i d -> e_id (ev_of h r) = id -> id <> 199 -> id <> 201 -> registered en id = Some k ->
  field_of k n ty -> stored_as ty v c -> is_bytes c -> ft_dec en ty c = Some v ->
  exists h', tg_set h (TItem r i) n v = (h', Ok tt) /\ editing en f p h' /\ element h' r i (dset d n v) /\ nt h' = nt h /\ e_id (ev_of h' r) = id.
Proof.
  intros ED EL EI N1 N2 RG FO ST BC DC. pose proof (proj1 EL) as LR. destruct (editing_event _ _ _ _ _ ED LR) as ((b & e' & B & M & P & _) & _ & _ & _ & KD).
  rewrite EI in KD. specialize (KD k RG). destruct (FO (new_of b)) as (rs & m & fd & RC & N & T & <-).
  destruct (give_item en f p h r i d b rs m fd ty v c ED) as (h' & S & E & EL' & NT & EI' & _); try assumption; [rewrite EI; intros [X|X]; congruence|rewrite KD; exact RC|].
  exists h'. repeat (split; [assumption|]). congruence.
Qed.
Ltac field_at j := intros w; eexists _, j, _; (split; [reflexivity|]); (split; [reflexivity|]); (split; reflexivity).

(* the key of a note (C42) *)
Theorem C75_key : forall en f p h r i d k, editing en f p h -> element h r i d -> e_id (ev_of h r) = 224 -> 0 <= k < 132 ->
  an_edit en f p (key_set h (TItem r i) (VInt k)).
Proof.
  intros en f p h r i d k ED EL EI R. destruct (unsigned_stored en 2 k ltac:(change (256 ^ Z.of_nat 2) with 65536; lia)) as (ST & BC & DC).
  destruct (element_give en f p h r i d 224 KNotes "key" (TU 2) (VInt k) (le 2 k) ED EL EI) as (h' & S & E & _); try assumption; try discriminate; try reflexivity; [field_at 4%nat|].
  exists h'. split; [|exact E]. cbn [key_set as_int]. replace ((0 <=? k) && (k <? 132)) with true by lia. exact S.
Qed.
Print Assumptions C75_key.

(* a parameter of an insert, and the equaliser (C47, C67) *)
Theorem C75_param : forall en f p h r n id j d z, editing en f p h -> last_at (own_param n id) (items (ev_of h r)) j -> element h r j d -> e_id (ev_of h r) = 225 ->
  - 2 ^ 31 <= z < 2 ^ 31 -> an_edit en f p (param_set h (Some (PItems r n)) id (VInt z)) /\
  forall b fl, id = eq_id b fl -> an_edit en f p (eq_write h r n b fl (VInt z)).
Proof.
  intros en f p h r n id j d z ED LA EL EI R. destruct (signed_stored en z R) as (ST & BC & DC). pose proof (own_last _ _ _ _ LA) as AS.
  destruct (element_give en f p h r j d 225 KMixerParams "msg" (TS 4) (VInt z) (le 4 z) ED EL EI) as (h' & S & E & _); try assumption; try discriminate; try reflexivity; [field_at 4%nat|].
  split.
  - exists h'. split; [|exact E]. unfold param_set. cbn [kw_params bind own_items]. rewrite AS. exact S.
  - intros b fl ->. exists h'. split; [|exact E]. unfold eq_write, eq_set, eq_record, with_res. cbn [kw_params bind own_items]. rewrite eq_id_of, AS. exact S.
Qed.
Print Assumptions C75_param.

(* playlist items (C64): channel, pattern, offsets *)
Theorem C75_item_index : forall en f p h r i d, editing en f p h -> element h r i d -> e_id (ev_of h r) = 233 ->
  (forall ch z, ev_get en h (ch_tree ch) [64] = Ok (VInt z) -> 0 <= z < 65536 -> an_edit en f p (item_channel_set en h (TItem r i) ch)) /\
  (forall u z base, iid_get h u = Ok (VInt z) -> field (VDict d) "pattern_base" base -> 0 <= z + base < 65536 -> an_edit en f p (item_pattern_set h (TItem r i) u)).
Proof.
  intros en f p h r i d ED EL EI.
  assert (X : forall z, 0 <= z < 65536 -> an_edit en f p (tg_set h (TItem r i) "item_index" (VInt z))).
  { intros z R. destruct (unsigned_stored en 2 z ltac:(change (256 ^ Z.of_nat 2) with 65536; lia)) as (ST & BC & DC).
    destruct (element_give en f p h r i d 233 KPlaylist "item_index" (TU 2) (VInt z) (le 2 z) ED EL EI) as (h' & S & E & _); try assumption; try discriminate; try reflexivity; [field_at 2%nat|].
    exists h'. auto. }
  split.
  - intros ch z G R. unfold item_channel_set, with_res. rewrite G. now apply X.
  - intros u z base G FB R. destruct FB as (d' & w & [= <-] & D & W). unfold item_pattern_set, with_res. rewrite G, (element_get _ _ _ _ _ _ EL D). apply number_as in W. rewrite W. cbn [as_int]. now apply X.
Qed.
Print Assumptions C75_item_index.
(* offsets are numbers a float of four bytes can have *)
Theorem C75_offsets : forall en f p h r i d x y wx wy, editing en f p h -> element h r i d -> e_id (ev_of h r) = 233 ->
  f64_to_32 x = Some wx -> f32_to_64 wx = x -> f64_to_32 y = Some wy -> f32_to_64 wy = y ->
  an_edit en f p (offsets_set h (TItem r i) (VFlt x) (VFlt y)).
Proof.
  intros en f p h r i d x y wx wy ED EL EI X1 X2 Y1 Y2.
  assert (FS : forall x w, f64_to_32 x = Some w -> f32_to_64 w = x -> stored_as TF32 (VFlt x) (le 4 w) /\ is_bytes (le 4 w) /\ ft_dec en TF32 (le 4 w) = Some (VFlt x)).
  { intros x0 w A B. split; [exists x0, w; auto|]. rewrite le_spec. split; [apply le_enc_bytes|]. cbn [ft_dec]. rewrite u_le_enc; [now rewrite B|]. change (256 ^ Z.of_nat 4) with (2 ^ 32). eapply f64_to_32_range; eauto. }
  destruct (FS x wx X1 X2) as (SX & BX & DX). destruct (FS y wy Y1 Y2) as (SY & BY & DY).
  destruct (element_give en f p h r i d 233 KPlaylist "start_offset" TF32 (VFlt x) (le 4 wx) ED EL EI) as (h1 & S1 & E1 & EL1 & _ & EI1); try assumption; try discriminate; try reflexivity; [field_at 9%nat|].
  destruct (element_give en f p h1 r i _ 233 KPlaylist "end_offset" TF32 (VFlt y) (le 4 wy) E1 EL1 EI1) as (h2 & S2 & E2 & _); try assumption; try discriminate; try reflexivity; [field_at 10%nat|].
  exists h2. split; [|exact E2]. unfold offsets_set, and_then. rewrite S1. cbn [fst snd]. exact S2.
Qed.
Print Assumptions C75_offsets.

(* reverb, modulation of the delay, the sample path (C48, C49, C70) *)
Theorem C75_tuples : forall en f p h t, editing en f p h -> (t < nt h)%nat ->
  (forall z ty, value_of 139 (events h t) = Some (VInt z) -> 0 <= z < 2 ^ 32 - 65536 -> ty = 0 \/ ty = 65536 -> an_edit en f p (reverb_type_set h t ty)) /\
  (forall z m, value_of 139 (events h t) = Some (VInt z) -> 0 <= z + m < 2 ^ 32 -> an_edit en f p (reverb_mix_set h t m)) /\
  (forall x y v, value_of 138 (events h t) = Some (VTup [VInt x; VInt y]) -> 0 <= x < 65536 -> 0 <= y < 65536 -> 0 <= v < 65536 ->
     an_edit en f p (mod_x_set h t (VInt v)) /\ an_edit en f p (mod_y_set h t (VInt v))).
Proof.
  intros en f p h t ED L. split; [|split].
  - intros z ty V R HT. destruct (filter_some _ _ _ V) as (e & m & F & _). destruct (reverb_read h t z V) as [_ HM]. unfold an_edit, reverb_type_set, with_res. rewrite HM.
    destruct (give_first en f p h t 139 e m KU32 (VInt (ty + (z - (if reverb_b z then 65536 else 0)))) ED L F) as (r & S & _ & E & _); try discriminate; try reflexivity; [|eauto].
    eexists. split; [reflexivity|]. unfold reverb_b. destruct (Z.leb_spec 65536 z); lia.
  - intros z m V R. destruct (filter_some _ _ _ V) as (e & mm & F & EV). unfold an_edit, reverb_mix_set, with_res. unfold reverb_id. rewrite contains_value, first_val_spec, V. cbn [negb as_int].
    destruct (give_first en f p h t 139 e mm KU32 (VInt (z + m)) ED L F) as (r & S & _ & E & _); try discriminate; try reflexivity; [eexists; split; [reflexivity|lia]|]. eauto.
  - intros x y v V RX RY RV. destruct (filter_some _ _ _ V) as (e & mm & F & EV). destruct (mods_read h t (VInt x) (VInt y) V) as [GX GY].
    split; unfold an_edit, mod_x_set, mod_y_set, with_res; rewrite ?GX, ?GY.
    + destruct (give_first en f p h t 138 e mm KU16Tuple (VTup [VInt v; VInt y]) ED L F) as (r & S & _ & E & _); try discriminate; try reflexivity; [exists v, y; auto|]. eauto.
    + destruct (give_first en f p h t 138 e mm KU16Tuple (VTup [VInt x; VInt v]) ED L F) as (r & S & _ & E & _); try discriminate; try reflexivity; [exists x, v; auto|]. eauto.
Qed.
Print Assumptions C75_tuples.
(* paths (C70) *)
Theorem C75_path : forall en f p h t e m s q, editing en f p h -> (t < nt h)%nat -> e_kind e = KAscii \/ e_kind e = KUnicode -> a_path q ->
  (forall w c, In w (pa_parts q) -> In c w -> text_char (e_kind e) c /\ c <> 0) ->
  (filter (fun e => e_id e =? 196) (events h t) = e :: m -> e_val e = VStr s -> an_edit en f p (sample_path_set h t q)) /\
  (filter (fun e => e_id e =? 202) (events h t) = e :: m -> an_edit en f p (data_path_set h t (inr q))).
Proof.
  intros en f p h t e m s q ED L K A C. pose proof (path_domain _ _ K C) as D.
  assert (SK : scalar_kind (e_kind e) = true) by (destruct K as [-> | ->]; reflexivity).
  assert (X : forall id, id <> 199 -> id <> 201 -> filter (fun e => e_id e =? id) (events h t) = e :: m ->
    contains h t id = true /\ an_edit en f p (set_first h t id (VStr (undot (path_str q))))).
  { intros id N1 N2 F. destruct (first_ref _ _ _ _ _ _ _ _ ED L F) as (c & l & G & CT & E & LR & EI). split; [exact CT|].
    exists (set_val h (ref_of h c) (VStr (undot (path_str q)))). split; [unfold set_first; now rewrite G|].
    apply give; [exact ED|rewrite E, EI; intros [?|?]; congruence|]. rewrite E. now apply fit_value. }
  split.
  - intros F EV. destruct (X 196 ltac:(discriminate) ltac:(discriminate) F) as [CT Y].
    destruct (first_event _ _ _ _ _ F) as (c & r & _ & _ & _ & _ & _ & VF). unfold sample_path_set, path_get, with_res. rewrite CT, first_val_spec, VF, EV. exact Y.
  - intros F. destruct (X 202 ltac:(discriminate) ltac:(discriminate) F) as [CT Y]. unfold data_path_set. rewrite CT. exact Y.
Qed.
Print Assumptions C75_path.

(* texts and raw data of VST plugins (C74) *)
Lemma kept_elements b l : subs_kept b l -> forall i v, nth_error l i = Some v -> exists id x, v = sub_dict id x.
Proof. induction 1 as [|id p x b l I B Z M C K IH]; intros [|i] v N; try discriminate; cbn [nth_error] in N; [apply Some_inj in N; subst v; eauto|eauto]. Qed.
Theorem C75_vst : forall en f p h t k e d l id i s x y, editing en f p h -> (t < nt h)%nat ->
  vst_at h t k e d l -> e_kind e = KVSTPlugin -> sub l id i s x ->
  (text_sub id /\ exists txt, y = VStr txt /\ Forall scalar txt /\ forall b, payload en e = Ok b -> zlen b + 4 * zlen txt < 2 ^ 64) \/
  (raw_sub id /\ exists q, y = VBytes q /\ is_bytes q /\ forall b, payload en e = Ok b -> zlen b + zlen q < 2 ^ 64) ->
  an_edit en f p (vst_prop_set h t id y).
Proof.
  intros en f p h t k e d l id i s x y ED L A EK S Y. destruct (vst_at_ref _ _ _ _ _ _ A) as (r & N & R & E & LL).
  assert (LR : (r < length (h_evs h))%nat) by (eapply editing_in; [exact ED|exact L|]; eapply nth_error_In; eauto).
  destruct (editing_event _ _ _ _ _ ED LR) as ((b & e' & B & M & P & C & AL & FX & Z) & ID & _). rewrite E in *.
  rewrite EK in M, C. destruct (vst_canonical en (e_id e) b e' B (Z EK) M C) as (ty & b0 & l0 & T & EB & KP & EE).
  destruct A as (CH & NK & SK & EV & EL). destruct AL as (_ & _ & AV). rewrite EV, EE in AV. cbn [e_val] in AV. destruct AV as [AV|(z & _ & AV)]; [|discriminate AV].
  injection AV as <-. cbn in EL. injection EL as <-.
  pose proof S as (S1 & S2 & S3 & S4). destruct (kept_elements _ _ KP _ _ S1) as (id' & x' & X).
  assert (II : id' = id) by (rewrite X in S2; eapply sub_dict_id; [reflexivity|exact S2]). subst id'.
  unfold sub_dict in X. injection X as ->. 
  exists (set_val h r (with_sub [("type"%string, VInt ty); ("events"%string, VList l0)] l0 i [("id"%string, VEnum id); ("data"%string, x')] y)). split.
  { unfold vst_prop_set, vst_set. rewrite R. cbn [bind]. rewrite E, LL. cbn [bind]. rewrite (sub_find_spec _ _ _ _ _ 0 S). cbn [Nat.add].
    unfold vst_put. rewrite E, EV. unfold sub_put. rewrite S1. reflexivity. }
  apply give; [exact ED| |].
  - rewrite E. intros Q. inversion CH as [i1 ii i2 k0 e0 EQ _ N0 EI J|]; subst k0. rewrite NK in N0. apply Some_inj in N0. subst e0. destruct i1 as [|? [|? ?]]; cbn [app] in EQ; try discriminate. injection EQ as EQ _. lia.
  - rewrite E. unfold with_sub. cbn [dset String.eqb Ascii.eqb Bool.eqb]. rewrite lset_parts by (apply nth_error_Some; congruence).
    apply (fit_sub en e b ty l0 i id x' y EK P EV S1). destruct Y as [(TS & txt & -> & FS & ZB)|(TS & q & -> & BQ & ZB)]; [left|right]; (split; [exact TS|]); eexists; (split; [reflexivity|]); split; auto.
Qed.
Print Assumptions C75_vst.

(* ------------------------------------------------------------------ a session: the name of a
   plugin changed, a number of its channel, the name again, the GUID *)
Fixpoint size_sum (en : env) (es : list event) : Z :=
  match es with [] => 0 | e :: es => match event_size en e with Ok n => n + size_sum en es | Err _ => 0 end end.
Lemma total_sum en es n : total_size en es n -> n = size_sum en es.
Proof. induction 1 as [|e es n m E T IH]; [reflexivity|]. cbn [size_sum]. rewrite E. lia. Qed.
Definition es_1 : heap := fst (vst_prop_set vp_h 0 54 (VStr [128512; 66])).
Definition es_2 : heap := fst (prop_set en0 es_1 (EvModel 0) (MkProp [64] VNone false PEvent) (VInt 7)).
Definition es_3 : heap := fst (vst_prop_set es_2 0 52 (VBytes [1])).
Definition es_e (h : heap) : event := nth 3 (root_events h) (Event 0 KUnknown 0 false VNone).
Definition es_l (h : heap) : list val :=
  match e_val (es_e h) with VDict [_; (_, VList l)] => l | _ => [] end.
Lemma es_vst (h : heap) d l : map e_id (events h 0) = [199; 64; 201; 213] -> nth_error (events h 0) 3 = Some (es_e h) -> is_struct_kind (e_kind (es_e h)) = true ->
  e_val (es_e h) = VDict d -> dget d "events" = Some (VList l) -> vst_at h 0 3 (es_e h) d l.
Proof.
  intros M N K V D. split; [|repeat split; assumption].
  assert (X : forall j e', nth_error (events h 0) j = Some e' -> nth_error [199; 64; 201; 213] j = Some (e_id e')) by (intros j e' Q; rewrite <- M, nth_error_map, Q; reflexivity).
  eapply (ch_some _ _ [] 213 [] 3%nat); [reflexivity|intros e _ []|exact N|specialize (X _ _ N); cbn in X; congruence|].
  intros [|[|[|j]]] e' J Q; try lia; apply X in Q; cbn in Q; apply Some_inj in Q; lia.
Qed.
Example C75_case : editing en0 (sample vp_cs) vp_p es_3 /\ (forall n, total_size en0 (root_events es_3) n -> n < 2 ^ 32) /\
  vst_prop_get es_3 0 54 "name" = Ok (VStr [128512; 66]) /\ vst_prop_get es_3 0 52 "guid" = Ok (VBytes [1]) /\
  ev_get en0 es_3 0 [64] = Ok (VInt 7).
Proof.
  destruct C74_case as (A & P & B & V & L & AT & EK & S1 & T1 & S2 & T2 & _).
  assert (E0 : editing en0 (sample vp_cs) vp_p vp_h) by exact (proj1 (C75_open en0 _ _ A P B)).
  assert (E1 : editing en0 (sample vp_cs) vp_p es_1).
  { destruct (C75_vst en0 _ _ vp_h 0 3 vp_e vp_d vp_list 54 0 _ _ (VStr [128512; 66]) E0 L AT EK S1) as (h' & X & Y).
    - left. split; [exact T1|]. eexists. split; [reflexivity|]. split; [repeat constructor; unfold scalar; lia|]. intros b Q. vm_compute in Q. apply Ok_inj in Q. subst b. vm_compute. reflexivity.
    - unfold es_1. rewrite X. exact Y. }
  assert (E2 : editing en0 (sample vp_cs) vp_p es_2).
  { destruct (C75_property en0 _ _ es_1 0 [64] VNone 1%nat (nth 1 (root_events es_1) vp_e) (VInt 7) E1) as (h' & X & Y).
    - apply Nat.ltb_lt. vm_compute. reflexivity.
    - discriminate.
    - eapply (ch_some _ _ [] 64 [] 1%nat); [reflexivity|intros e _ []|vm_compute; reflexivity|vm_compute; reflexivity|].
      intros [|j] e' J Q; try lia. vm_compute in Q. apply Some_inj in Q. subst e'. vm_compute. discriminate.
    - vm_compute. reflexivity.
    - vm_compute. intros [Q|Q]; discriminate.
    - vm_compute. reflexivity.
    - left. replace (e_kind (nth 1 (root_events es_1) vp_e)) with KU16 by (vm_compute; reflexivity). exists 7. split; [reflexivity|]. split; [discriminate|reflexivity].
    - unfold es_2. rewrite X. exact Y. }
  assert (E3 : editing en0 (sample vp_cs) vp_p es_3).
  { assert (L2 : (0 < nt es_2)%nat) by (apply Nat.ltb_lt; vm_compute; reflexivity).
    assert (AT2 : vst_at es_2 0 3 (es_e es_2) [("type"%string, VInt 10); ("events"%string, VList (es_l es_2))] (es_l es_2)).
    { apply es_vst; vm_compute; reflexivity. }
    assert (S3 : sub (es_l es_2) 52 2 [("id"%string, VEnum 52); ("data"%string, VBytes [9; 8; 7])] (VBytes [9; 8; 7])).
    { split; [vm_compute; reflexivity|]. split; [eexists; exists (VEnum 52); split; [reflexivity|]; split; [reflexivity|right; left; reflexivity]|]. split; [reflexivity|].
      intros [|[|j]] v J Q (s & n & -> & D & N); try lia; vm_compute in Q; apply Some_inj in Q; injection Q as <-; cbn in D; apply Some_inj in D; subst n; apply number_as in N; discriminate N. }
    destruct (C75_vst en0 _ _ es_2 0 3 (es_e es_2) _ (es_l es_2) 52 2 _ _ (VBytes [1]) E2 L2 AT2 ltac:(vm_compute; reflexivity) S3) as (h' & X & Y).
    - right. split; [exact T2|]. eexists. split; [reflexivity|]. split; [apply bytes_check; vm_compute; reflexivity|]. intros b Q. vm_compute in Q. apply Ok_inj in Q. subst b. vm_compute. reflexivity.
    - unfold es_3. rewrite X. exact Y. }
  split; [exact E3|]. split; [intros n T; rewrite (total_sum _ _ _ T); vm_compute; reflexivity|]. vm_compute. repeat split.
Qed.
(* and loaded again it has the new values *)
Example C75_again :
  match serialise en0 (Project (root_events es_3) 1 0 96) with
  | Ok f' => let h := parsed (pr_events (load f')) in
             [vst_prop_get h 0 54 "name"; vst_prop_get h 0 52 "guid"; ev_get en0 h 0 [64]; vst_prop_get h 0 1 "input"]
  | Err x => [Err x]
  end = [Ok (VStr [128512; 66]); Ok (VBytes [1]); Ok (VInt 7); Ok (VInt (-1))].
Proof. vm_compute. reflexivity. Qed.
