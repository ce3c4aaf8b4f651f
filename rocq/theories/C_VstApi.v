(* C80 the options of VST plugins. *)
From Coq Require Import String ZArith List Bool Lia Arith.
From Verif Require Import M_Base M_Float M_Text M_Construct M_Structs M_Events M_Parse M_Tree M_Prop M_Project M_Items M_VstApi.
From Verif Require Import S_Canon S_File S_Domain S_Tree S_Prop S_Project S_Items S_Layout S_Vst S_VstApi S_Api.
From Verif Require Import P_Base P_Codec P_Special P_TreeBase P_Tree P_TreeEdit P_Prop P_Edit P_Cells P_Layout P_Items P_Vst P_VstApi P_Api.
From Verif Require Import C_Samples C_Items C_Vst C_Api.
Import ListNotations.
Local Open Scope string_scope.
Open Scope Z_scope.

(* [vst_parts h t e ps l]: the plugin data that are read for the tree [t] are the event [e]
   with the parts [ps], read as the values [l] *)
Definition vst_parts (en : env) (h : heap) (t : nat) (e : event) (ps : list (Z * bytes)) (l : list val) : Prop :=
  (exists k, chosen [213] (events h t) (Some k) /\ nth_error (events h t) k = Some e) /\
  exists b ty r, is_bytes b /\ mk_event en KVSTPlugin 213 b = Ok e /\ e_val e = VDict [("type", VInt ty); ("events", VList l)] /\
    0 <= ty < 2 ^ 32 /\ b = (le 4 ty ++ parts_bytes ps ++ r)%list /\ no_part r /\ Forall2 part_means ps l /\ Forall (fun x => is_bytes (snd x)) ps.

(* VST plugin data of any project that loads, canonical or not, are a type, parts as long as
   they can be read, and a rest that is ignored *)
Theorem C80_data : forall en f p h t k e, is_bytes f -> parse en f = Ok p -> views (parsed (pr_events p)) h -> (t < nt h)%nat ->
  chosen [213] (events h t) (Some k) -> nth_error (events h t) k = Some e -> e_kind e = KVSTPlugin ->
  exists ps l, vst_parts en h t e ps l.
Proof.
  intros en f p h t k e B P V L C N K. pose proof (load_made _ _ _ _ B P V) as LD.
  rewrite nth_error_events in N. destruct (nth_error (lst_of h t) k) as [c|] eqn:NC; [|discriminate]. cbn in N. injection N as N.
  assert (I : In (ref_of h c) (refs h t)) by (unfold refs; apply in_map; now apply nth_error_In in NC).
  destruct (loaded_ref _ _ _ _ _ LD L I) as (_ & (b & BB & M) & _). unfold ref_of in M. fold (e_of h c) in M. rewrite N, K in M.
  assert (ID : e_id e = 213).
  { inversion C as [i1 ii i2 k0 e0 EQ _ N0 EI J|]; subst. destruct i1 as [|? [|? ?]]; cbn in EQ; try discriminate. rewrite nth_error_events, NC in N0. cbn in N0. congruence. }
  rewrite ID in M. destruct (vst_data_inv _ _ _ _ BB M) as (ty & ps & l & r & EV & T & EB & F & NP & BS). exists ps, l. split.
  - exists k. split; [exact C|]. rewrite nth_error_events, NC. cbn. now rewrite N.
  - exists b, ty, r. auto 10.
Qed.
Print Assumptions C80_data.

Lemma parts_at en h t e ps l : vst_parts en h t e ps l -> exists k d, vst_at h t k e d l.
Proof.
  intros ((k & C & N) & b & ty & r & B & M & EV & _). exists k, [("type", VInt ty); ("events", VList l)]. split; [exact C|]. split; [exact N|].
  destruct (mk_event_kind _ _ _ _ _ M) as [K _]. rewrite K. split; [reflexivity|]. split; [exact EV|reflexivity].
Qed.

(* places are given for exactly the options there are *)
Theorem C80_options : NoDup (map fst vst_api) /\ NoDup (map fst places) /\ forall o, In o (map fst vst_api) <-> In o (map fst places).
Proof.
  assert (D : forall (l : list (string * string)), P_Kinds.names_ok (map (fun x => (fst x ++ "." ++ snd x, GreedyBytes)) l) = true -> NoDup l) by
    (intros l H; destruct (P_Kinds.names_ok_spec _ H) as [X _]; rewrite map_map in X; cbn [fst] in X; exact (NoDup_map_inv _ _ X)).
  split; [apply D; vm_compute; reflexivity|]. split; [apply D; vm_compute; reflexivity|].
  intros o. split; intros I; cbn [map fst vst_api places In] in *; repeat (destruct I as [<-|I]; [repeat first [left; reflexivity|right]|]); destruct I.
Qed.
Print Assumptions C80_options.

Lemma rows_agree : forallb (fun x => existsb (fun y => String.eqb (fst (fst x)) (fst (fst y)) && String.eqb (snd (fst x)) (snd (fst y)) && agree (snd (fst x)) (snd x) (snd y)) places) vst_api = true.
Proof. vm_compute. reflexivity. Qed.
Lemma row_agrees c n d : In (c, n, d) vst_api -> exists pl, In (c, n, pl) places /\ agree n d pl = true.
Proof.
  intros I. pose proof rows_agree as R. rewrite forallb_forall in R. specialize (R _ I). apply existsb_exists in R as ([[c' n'] pl] & J & R). cbn [fst snd] in R.
  apply andb_prop in R as [R A]. apply andb_prop in R as [R1 R2]. apply String.eqb_eq in R1, R2. subst. eauto.
Qed.

(* every option reads what its place in the plugin data says; without its part, reading it
   raises an AttributeError *)
Theorem C80_read : forall c n d, In (c, n, d) vst_api -> exists pl, In (c, n, pl) places /\
  forall en h t e ps l, vst_parts en h t e ps l ->
    match part (part_of pl) ps with
    | Some q => forall v, says pl q v -> option_get en h t n d = Ok v
    | None => option_get en h t n d = Err AttributeError
    end.
Proof.
  intros c n d I. destruct (row_agrees _ _ _ I) as (pl & J & A). exists pl. split; [exact J|]. intros en h t e ps l VP. destruct (parts_at _ _ _ _ _ _ VP) as (k & dd & AT).
  destruct (vst_at_ref _ _ _ _ _ _ AT) as (r & _ & R & E & LL). rewrite option_get_of. unfold vst_get. rewrite R. cbn [bind]. rewrite E, LL. cbn [bind].
  destruct VP as (_ & b & ty & rr & _ & _ & _ & _ & _ & _ & F & BS). rewrite (agree_sub _ _ _ A). pose proof (part_find (part_of pl) ps l 0 F) as PF.
  destruct (part (part_of pl) ps) as [q|] eqn:EP.
  - intros v S. destruct PF as (i & y & -> & M). refine (agree_value _ _ _ _ _ _ A _ M S).
    clear - EP BS. induction ps as [|[i p] ps IH]; [discriminate|]. inversion BS; subst. cbn [part] in EP. destruct (i =? part_of pl); [now injection EP as <-|auto].
  - now rewrite PF.
Qed.
Print Assumptions C80_read.

(* data of a part of full length say something about each of its options *)
Theorem C80_complete : forall c n pl q, In (c, n, pl) places -> is_bytes q ->
  match pl with ABit _ _ _ | ATruth _ => (23 <= length q)%nat | AText _ => utf8_dec q <> None | _ => True end -> exists v, says pl q v.
Proof.
  intros c n pl q I B L. destruct pl as [k b cl|k|k|k|id|id].
  - assert (K : (k < 17)%nat).
    { clear - I. unfold places in I. cbn [In] in I. repeat (destruct I as [I|I]; [try discriminate I; injection I as <- <- <- <- <-; lia|]). destruct I. }
    destruct (nth_error q k) as [x|] eqn:N; [|apply nth_error_None in N; lia]. eexists. apply SBit; [unfold needed; destruct (k <? 13)%nat; [lia|]; destruct (k <? 17)%nat; lia|exact N].
  - assert (K : k = 22%nat).
    { clear - I. unfold places in I. cbn [In] in I. repeat (destruct I as [I|I]; [try discriminate I; injection I as <- <- <-; reflexivity|]). destruct I. }
    subst k. destruct (nth_error q 22) as [x|] eqn:N; [|apply nth_error_None in N; lia]. eexists. apply STruth; [exact L|exact N].
  - destruct (Nat.le_gt_cases (k + 4) (length q)) as [H|H]; [eexists; apply SSigned; exact H|exists VNone; apply SNone; exact H].
  - destruct (Nat.le_gt_cases (k + 4) (length q)) as [H|H]; [eexists; apply SUnsigned; exact H|exists VNone; apply SNone'; exact H].
  - destruct (utf8_dec q) as [s|] eqn:D; [|congruence]. exists (VStr s). apply SText. exact D.
  - eexists. apply SRaw.
Qed.
Print Assumptions C80_complete.

(* ------------------------------------------------------------------ assigning *)

Definition is_flag (d : vst_decl) : Prop := match d with VFlag _ _ _ => True | VProp _ => False end.
(* Flags are assigned wrongly (C50).  For the options: one that is assigned a boolean reads
   back as assigned only if it read so before, or is one of these two and is switched on. *)
Definition bit0 (c n : string) : Prop := (c, n) = ("midi", "send_pb") \/ (c, n) = ("compatibility", "process_maximum").
Theorem C80_assigned : forall en evs c n d h t e ps l q v, In (c, n, d) vst_api -> is_flag d -> evs <> [] -> views (parsed evs) h -> (t < nt h)%nat ->
  vst_parts en h t e ps l -> part 2 ps = Some q -> (17 <= length q)%nat ->
  exists h', option_set en h t d (VBool v) = (h', Ok tt) /\
    (option_get en h' t n d = Ok (VBool v) <-> option_get en h t n d = Ok (VBool v) \/ (bit0 c n /\ v = true)).
Proof.
  intros en evs c n d h t e ps l q v I FL NE V L VP PQ LQ. destruct d as [|key f inv]; [destruct FL|].
  destruct (parts_at _ _ _ _ _ _ VP) as (k & dd & AT). destruct VP as (_ & b & ty & rr & _ & _ & _ & _ & _ & _ & F & BS).
  destruct (part_sub _ _ _ _ F PQ) as (i & y & S & M). inversion M as [E1|E2|s T D|R]; try lia; [|unfold text_sub in T; cbn [In] in T; lia|exfalso; apply R; cbn; tauto]. subst y.
  assert (BQ : is_bytes q).
  { clear - PQ BS. induction ps as [|[i p] ps IH]; [discriminate|]. inversion BS; subst. cbn [part] in PQ. destruct (i =? 2); [now injection PQ as <-|auto]. }
  assert (ROW : exists m, f = 2 ^ m /\ 0 <= m /\ (key = "flags" \/ key = "flags2") /\ (m = 0 -> inv = false /\ bit0 c n) /\ (bit0 c n -> m = 0 /\ inv = false)).
  { clear - I. unfold vst_api in I. cbn [In] in I.
    repeat (destruct I as [I|I]; [try discriminate I; injection I as <- <- <- <- <-; match goal with |- exists m, 2 ^ ?x = _ /\ _ => exists x end;
      (split; [reflexivity|]); (split; [lia|]); (split; [tauto|]); (split; [intros Q; try lia; (split; [reflexivity|]); unfold bit0; tauto|intros [Q|Q]; try discriminate Q; tauto])|]). destruct I. }
  destruct ROW as (m & -> & M0 & K & RM & MR).
  assert (BO : (base_of key + 4 <= length q)%nat) by (unfold base_of; destruct (String.eqb key "flags2"); lia).
  assert (MK : 0 < key_mask key) by (destruct K as [-> | ->]; reflexivity).
  assert (Z0 : 0 <= u_le (firstn 4 (skipn (base_of key) q))).
  { rewrite (u_le_dec (firstn 4 (skipn (base_of key) q))). apply le_dec_bound. now apply is_bytes_firstn, is_bytes_skipn. }
  destruct (C50_readback en evs h t k e dd l i _ _ key (key_mask key) inv v _ m NE V L AT S (flags_at q key K BO) Z0 MK M0) as (h' & X & Y).
  exists h'. split; [exact X|]. cbn [option_get]. rewrite Y. split; (intros [Q|[Q1 Q2]]; [left; exact Q|right]).
  - destruct (RM Q1) as [-> Q]. split; [exact Q|]. now destruct v.
  - destruct (MR Q1) as [-> ->]. subst v. auto.
Qed.
Print Assumptions C80_assigned.

(* ------------------------------------------------------------------ the plugin of C74 *)

Definition vp_parts : list (Z * bytes) := [(54, [65; 195; 169]); (1, vp_midi); (52, [9; 8; 7]); (2, vp_flags)].
Example C80_case : is_bytes (sample vp_cs) /\ parse en0 (sample vp_cs) = Ok vp_p /\ views (parsed (pr_events vp_p)) vp_h /\ (0 < nt vp_h)%nat /\
  vst_parts en0 vp_h 0 vp_e vp_parts vp_list /\
  map (fun x => option_get en0 vp_h 0 (snd (fst x)) (snd x)) vst_api =
    [Ok (VBool true); Ok (VBool true); Ok (VBool true); Ok (VBool false); Ok (VBool false); Ok (VBool true); Ok (VBool false); Ok (VBool true);
     Ok (VInt (-1)); Ok (VInt 2); Ok (VInt 12); Ok (VBool false); Ok (VBool false); Ok (VBool true);
     Ok (VBool false); Ok (VBool false); Ok (VBool false); Ok (VBool true); Ok (VBool false); Ok (VBool true); Ok (VBool false);
     Ok (VBool false); Ok (VBool false); Ok (VBool false); Ok (VBool false);
     Err AttributeError; Ok (VBytes [9; 8; 7]); Ok (VStr [65; 233]); Err AttributeError; Err AttributeError; Err AttributeError] /\
  says (ABit 9 2 false) vp_flags (VBool true) /\ says (ASigned 0) vp_midi (VInt (-1)).
Proof.
  destruct C74_case as (A & P & B & V & L & AT & K & _). split; [exact A|]. split; [exact P|]. split; [exact V|]. split; [exact L|]. split.
  - split; [destruct AT as (C & N & _); eauto|]. exists vp_data, 10, []. split; [apply bytes_check; vm_compute; reflexivity|]. split; [vm_compute; reflexivity|].
    split; [vm_compute; reflexivity|]. split; [lia|]. split; [vm_compute; reflexivity|]. split.
    + intros id p y r I Zl M E. apply (f_equal (@length Z)) in E. rewrite app_length, sub_bytes_length in E. cbn [length] in E. lia.
    + split; [|repeat (constructor; [apply bytes_check; vm_compute; reflexivity|]); constructor].
      repeat constructor; cbn [fst snd]; try lia; try (vm_compute; reflexivity); (eexists; split; [reflexivity|]).
      * apply sm_text; [right; left; reflexivity|vm_compute; reflexivity].
      * now apply sm_midi.
      * apply sm_raw. unfold raw_sub. cbn [In]. lia.
      * now apply sm_flags.
  - split; [vm_compute; reflexivity|]. split; [apply (SBit 9 2 false vp_flags 4); [vm_compute; lia|reflexivity]|].
    apply (SSigned 0 vp_midi). vm_compute. lia.
Qed.

(* settings that are too short are read from the wrong bytes: with only four of them, none of
   which belongs to an option, options are nevertheless on *)
Definition vq_data : bytes := (le 4 10 ++ sub_bytes 2 [1; 0; 0; 0])%list.
Definition vq_cs : list chunk := [(199, ver20); (64, [1; 0]); (201, wrapper16); (213, vq_data)].
Theorem C80_short_refuted : exists en f p h t d ps l e q, is_bytes f /\ parse en f = Ok p /\ views (parsed (pr_events p)) h /\
  In ("midi", "send_pb", d) vst_api /\ In ("midi", "send_pb", ABit 9 0 false) places /\ vst_parts en h t e ps l /\ part 2 ps = Some q /\ nth_error q 9 = None /\
  option_get en h t "send_pb" d = Ok (VBool true).
Proof.
  assert (A : is_bytes (sample vq_cs)) by (apply bytes_check; vm_compute; reflexivity).
  exists en0, (sample vq_cs), (load (sample vq_cs)), (parsed (pr_events (load (sample vq_cs)))), 0%nat, (VFlag "flags" (2 ^ 0) false), [(2, [1; 0; 0; 0])],
    [sub_dict 2 (VDict (opt_fields flag_fields [1; 0; 0; 0]))], (nth 3 (pr_events (load (sample vq_cs))) (Event 0 KUnknown 0 false VNone)), [1; 0; 0; 0].
  split; [exact A|]. split; [vm_compute; reflexivity|]. split; [apply views_none|]. split; [repeat first [left; reflexivity|right]|]. split; [repeat first [left; reflexivity|right]|].
  split; [|split; [reflexivity|split; [reflexivity|vm_compute; reflexivity]]]. split.
  - exists 3%nat. split; [|vm_compute; reflexivity].
    eapply (ch_some _ _ [] 213 [] 3%nat); [reflexivity|intros e _ []|vm_compute; reflexivity|vm_compute; reflexivity|].
    intros [|[|[|j]]] e' J X; try lia; vm_compute in X; injection X as <-; vm_compute; discriminate.
  - exists vq_data, 10, []. split; [apply bytes_check; vm_compute; reflexivity|]. split; [vm_compute; reflexivity|].
    split; [vm_compute; reflexivity|]. split; [lia|]. split; [vm_compute; reflexivity|]. split.
    + intros id p y r I Zl M E. apply (f_equal (@length Z)) in E. rewrite app_length, sub_bytes_length in E. cbn [length] in E. lia.
    + split; [|repeat (constructor; [apply bytes_check; vm_compute; reflexivity|]); constructor].
      repeat constructor; cbn [fst snd]; try lia; try (vm_compute; reflexivity); (eexists; split; [reflexivity|]). now apply sm_flags.
Qed.
Print Assumptions C80_short_refuted.
