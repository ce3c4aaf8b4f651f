(* C74 VST plugin data: what they mean; texts, raw data and flags assigned, saved and
   loaded again; numbers that can be assigned but neither read nor saved. *)
From Coq Require Import String ZArith List Bool Lia Arith.
From Verif Require Import M_Base M_Float M_Text M_Construct M_Structs M_Events M_Parse M_Tree M_Prop M_Project M_Items.
From Verif Require Import S_Canon S_File S_Domain S_Tree S_Prop S_Project S_Items S_Layout S_Vst.
From Verif Require Import P_Base P_Null P_Special P_TreeBase P_Tree P_TreeEdit P_Prop P_Edit P_Project P_Items P_Vst.
From Verif Require Import C_Samples C_Items.
Import ListNotations.
Open Scope Z_scope.

(* plugin data are read as what they mean *)
Theorem C74_read : forall en b ty l, vst_means b ty l ->
  exists e, mk_event en KVSTPlugin 213 b = Ok e /\ e_val e = VDict [("type"%string, VInt ty); ("events"%string, VList l)].
Proof.
  intros en b ty l M. eexists. split; [apply vst_event_means; [exact M|reflexivity|lia]|reflexivity].
Qed.
Print Assumptions C74_read.

(* and those of a canonical project always mean something *)
Theorem C74_meaning : forall en f p h t k e d l, is_bytes f -> parse en f = Ok p -> canonical_file en f ->
  views (parsed (pr_events p)) h -> (t < nt h)%nat -> vst_at h t k e d l -> e_kind e = KVSTPlugin ->
  exists b ty, payload en e = Ok b /\ vst_means b ty l.
Proof.
  intros en f p h t k e d l Hb H HC V L A EK.
  destruct (vst_read en f p h t k e d l Hb H HC V L A EK) as (r & b & ty & b0 & N & EE & FR & ID & Bb & PB & T & EB & KP & ED & HM & ZB).
  exists b, ty. split; [exact PB|]. rewrite EB. constructor; [exact T|now apply kept_mean].
Qed.
Print Assumptions C74_meaning.

(* a text (name, vendor, path, four character code) *)
Theorem C74_text : forall en f p h t k e d l id i s x txt, is_bytes f -> parse en f = Ok p -> canonical_file en f ->
  views (parsed (pr_events p)) h -> (t < nt h)%nat -> vst_at h t k e d l -> e_kind e = KVSTPlugin -> sub l id i s x ->
  text_sub id -> Forall scalar txt -> 2 * zlen f + 4 * zlen txt + 6 < 2 ^ 32 ->
  exists h' f' p2 r, vst_prop_set h t id (VStr txt) = (h', Ok tt) /\ (forall name, vst_prop_get h' t id name = Ok (VStr txt)) /\
    serialise en (Project (root_events h') (pr_channel_count p) (pr_format p) (pr_ppq p)) = Ok f' /\
    parse en f' = Ok p2 /\ nth_error (pr_events p) r = Some e /\ reloaded (pr_events p) r (with_sub d l i s (VStr txt)) (pr_events p2) /\
    pr_channel_count p2 = pr_channel_count p /\ pr_format p2 = pr_format p /\ pr_ppq p2 = pr_ppq p.
Proof.
  intros en f p h t k e d l id i s x txt Hb H HC V L A EK S T F SZ.
  destruct (canonical_encodes en f p Hb H HC) as (_ & _ & _ & _ & _ & _ & _ & _ & NE).
  destruct (vst_set_spec _ h t k e d l id i s x (VStr txt) (fun _ => Ok (VStr txt)) NE V L A S eq_refl) as (h' & r & X & N & O & _ & A').
  destruct (text_written id txt T F) as (q & BQ & ZQ & M & C).
  destruct (vst_saved en f p h t k e d l id i s x (VStr txt) q h' r Hb H HC V L A EK S BQ M C ltac:(lia) N O) as (f' & p2 & Y).
  exists h', f', p2, r. split; [exact X|]. split; [|exact Y].
  intros name. unfold vst_prop_get. rewrite (vst_get_spec _ _ _ _ _ _ _ _ _ _ _ A' (sub_after _ _ _ _ _ _ S)). reflexivity.
Qed.
Print Assumptions C74_text.

(* raw data (GUID, state) *)
Theorem C74_raw : forall en f p h t k e d l id i s x q, is_bytes f -> parse en f = Ok p -> canonical_file en f ->
  views (parsed (pr_events p)) h -> (t < nt h)%nat -> vst_at h t k e d l -> e_kind e = KVSTPlugin -> sub l id i s x ->
  raw_sub id -> is_bytes q -> 2 * zlen f + zlen q + 6 < 2 ^ 32 ->
  exists h' f' p2 r, vst_prop_set h t id (VBytes q) = (h', Ok tt) /\ (forall name, vst_prop_get h' t id name = Ok (VBytes q)) /\
    serialise en (Project (root_events h') (pr_channel_count p) (pr_format p) (pr_ppq p)) = Ok f' /\
    parse en f' = Ok p2 /\ nth_error (pr_events p) r = Some e /\ reloaded (pr_events p) r (with_sub d l i s (VBytes q)) (pr_events p2) /\
    pr_channel_count p2 = pr_channel_count p /\ pr_format p2 = pr_format p /\ pr_ppq p2 = pr_ppq p.
Proof.
  intros en f p h t k e d l id i s x q Hb H HC V L A EK S T BQ SZ.
  destruct (canonical_encodes en f p Hb H HC) as (_ & _ & _ & _ & _ & _ & _ & _ & NE).
  destruct (vst_set_spec _ h t k e d l id i s x (VBytes q) (fun _ => Ok (VBytes q)) NE V L A S eq_refl) as (h' & r & X & N & O & _ & A').
  destruct (raw_written id q T BQ) as (M & C).
  destruct (vst_saved en f p h t k e d l id i s x (VBytes q) q h' r Hb H HC V L A EK S BQ M C SZ N O) as (f' & p2 & Y).
  exists h', f', p2, r. split; [exact X|]. split; [|exact Y].
  intros name. unfold vst_prop_get. rewrite (vst_get_spec _ _ _ _ _ _ _ _ _ _ _ A' (sub_after _ _ _ _ _ _ S)). reflexivity.
Qed.
Print Assumptions C74_raw.

(* a flag: what is saved is what C50_result describes *)
Theorem C74_flag : forall en f p h t k e d l i s fd name mask inv value z, is_bytes f -> parse en f = Ok p -> canonical_file en f ->
  views (parsed (pr_events p)) h -> (t < nt h)%nat -> vst_at h t k e d l -> e_kind e = KVSTPlugin -> sub l 2 i s (VDict fd) ->
  In name ["flags"; "flags2"]%string -> dget fd name = Some (VEnum z) -> 0 < mask -> 3 * zlen f + 6 < 2 ^ 32 ->
  exists h' f' p2 r, vst_flag_set en h t name mask inv value = (h', Ok tt) /\
    serialise en (Project (root_events h') (pr_channel_count p) (pr_format p) (pr_ppq p)) = Ok f' /\
    parse en f' = Ok p2 /\ nth_error (pr_events p) r = Some e /\
    reloaded (pr_events p) r (with_sub d l i s (VDict (dset fd name (VEnum (if xorb inv value then Z.lor z 1 else z))))) (pr_events p2) /\
    pr_channel_count p2 = pr_channel_count p /\ pr_format p2 = pr_format p /\ pr_ppq p2 = pr_ppq p.
Proof.
  intros en f p h t k e d l i s fd name mask inv value z Hb H HC V L A EK S IN F M SZ.
  destruct (canonical_encodes en f p Hb H HC) as (_ & _ & _ & _ & _ & _ & _ & _ & NE).
  destruct (vst_read en f p h t k e d l Hb H HC V L A EK) as (r0 & b & ty & b0 & N0 & EE & FR & ID & Bb & PB & T & EB & KP & ED & HM & ZB).
  destruct (kept_nth b0 l i s (VDict fd) 2 KP S) as (q & BQ & VQ & MQ & ZQ).
  set (w := if xorb inv value then Z.lor z 1 else z).
  destruct (flags_written q fd name z z BQ VQ MQ IN F) as (_ & _ & _ & _ & _ & RZ).
  { destruct (flags_written q fd name z 0 BQ VQ MQ IN F ltac:(lia)) as (_ & _ & _ & _ & _ & RZ). exact RZ. }
  assert (RW : 0 <= w < 2 ^ 32).
  { unfold w. destruct (xorb inv value); [|exact RZ]. split; [apply Z.lor_nonneg; lia|].
    destruct (Z.eq_dec z 0) as [->|NZ]; [vm_compute; reflexivity|]. apply Z.log2_lt_pow2; [|rewrite Z.log2_lor by lia; pose proof (Z.log2_lt_pow2 z 32 ltac:(lia)); change (Z.log2 1) with 0; lia].
    assert (0 <= Z.lor z 1) by (apply Z.lor_nonneg; lia). assert (Z.lor z 1 <> 0); [|lia]. intros X. apply Z.lor_eq_0_iff in X. lia. }
  destruct (flags_written q fd name z w BQ VQ MQ IN F RW) as (q' & BQ' & ZQ' & M' & C' & _).
  unfold vst_flag_set.
  assert (W : intflag_norm (en_py311 en) mask (if if inv then negb value else value then Z.lor z (Z.b2z (if inv then negb value else value)) else Z.land z (Z.lnot (Z.b2z (if inv then negb value else value)))) = w).
  { unfold w. destruct inv, value; cbn [xorb negb Z.b2z]; rewrite ?Z.land_m1_r, norm_nonneg; try reflexivity; try exact M; try lia; try (apply Z.lor_nonneg; lia). }
  match goal with |- context [vst_set h t 2 ?g] => destruct (vst_set_spec _ h t k e d l 2 i s (VDict fd) (VDict (dset fd name (VEnum w))) g NE V L A S) as (h' & r & X & N & O & _ & A') end.
  { cbv zeta. unfold dindex. rewrite F. cbn [bind]. rewrite W. reflexivity. }
  destruct (vst_saved en f p h t k e d l 2 i s (VDict fd) (VDict (dset fd name (VEnum w))) q' h' r Hb H HC V L A EK S BQ' M' C') as (f' & p2 & Y).
  - rewrite EB, zlen_app in ZB. pose proof (zlen_nonneg _ (le 4 ty)). lia.
  - exact N.
  - exact O.
  - exists h', f', p2, r. split; [exact X|exact Y].
Qed.
Print Assumptions C74_flag.

(* A value that does not suit the sub-event - so every number for the MIDI ports, the pitch
   bend range and fast idle: accepted without an error, but the project cannot be saved
   any more; a number cannot even be read again. *)
Theorem C74_unfit : forall en f p h t k e d l id i s x y, is_bytes f -> parse en f = Ok p -> canonical_file en f ->
  views (parsed (pr_events p)) h -> (t < nt h)%nat -> vst_at h t k e d l -> e_kind e = KVSTPlugin -> sub l id i s x ->
  unfit id y ->
  exists h' er, vst_prop_set h t id y = (h', Ok tt) /\
    serialise en (Project (root_events h') (pr_channel_count p) (pr_format p) (pr_ppq p)) = Err er /\
    ((exists z, number y z) -> forall name, vst_prop_get h' t id name = Err TypeError).
Proof.
  intros en f p h t k e d l id i s x y Hb H HC V L A EK S U.
  destruct (canonical_encodes en f p Hb H HC) as (_ & _ & _ & _ & _ & _ & _ & _ & NE).
  destruct (vst_set_spec _ h t k e d l id i s x y (fun _ => Ok y) NE V L A S eq_refl) as (h' & r & X & N & O & _ & A').
  destruct (unfit_err id y U) as (er & C & NS).
  destruct (vst_unsavable en f p h t k e d l id i s x y er h' r Hb H HC V L A EK S C NS N O) as (er' & Y).
  exists h', er'. split; [exact X|]. split; [exact Y|]. intros (z & NZ) name.
  unfold vst_prop_get. rewrite (vst_get_spec _ _ _ _ _ _ _ _ _ _ _ A' (sub_after _ _ _ _ _ _ S)).
  destruct NZ as [->|[->|(b & -> & _)]]; reflexivity.
Qed.
Print Assumptions C74_unfit.

(* without such a sub-event the assignment is lost, and reading raises AttributeError *)
Theorem C74_absent : forall h t k e d l id y, vst_at h t k e d l -> (forall v, In v l -> ~ has_sub_id id v) ->
  vst_prop_set h t id y = (h, Ok tt) /\ forall name, vst_prop_get h t id name = Err AttributeError.
Proof.
  intros h t k e d l id y A N. destruct (vst_at_ref _ _ _ _ _ _ A) as (r & _ & R & E & L).
  unfold vst_prop_set, vst_prop_get, vst_set, vst_get. rewrite R. cbn [bind]. rewrite E, L. cbn [bind].
  now rewrite (sub_find_none id l 0 N).
Qed.
Print Assumptions C74_absent.

(* ------------------------------------------------------------------ a plugin with a name, MIDI
   settings, a GUID and flags *)
Definition vp_midi : bytes := [255; 255; 255; 255; 2; 0; 0; 0; 12; 0; 0; 0; 7].
Definition vp_flags : bytes := [1; 2; 3; 4; 5; 6; 7; 8; 9; 4; 0; 0; 0; 2; 0; 0; 0; 1; 2; 3; 4; 5; 1].
Definition vp_subs : bytes := sub_bytes 54 [65; 195; 169] ++ sub_bytes 1 vp_midi ++ sub_bytes 52 [9; 8; 7] ++ sub_bytes 2 vp_flags ++ [].
Definition vp_data : bytes := le 4 10 ++ vp_subs.
Definition vp_list : list val :=
  [sub_dict 54 (VStr [65; 233]); sub_dict 1 (VDict (opt_fields midi_fields vp_midi)); sub_dict 52 (VBytes [9; 8; 7]);
   sub_dict 2 (VDict (opt_fields flag_fields vp_flags))].
Example C74_read_case : vst_means vp_data 10 vp_list /\
  opt_fields midi_fields vp_midi = [("input"%string, VInt (-1)); ("output"%string, VInt 2); ("pb_range"%string, VInt 12); ("_extra"%string, VBytes [7])] /\
  dget (opt_fields flag_fields vp_flags) "flags2" = Some (VEnum 2).
Proof.
  split; [|vm_compute; split; reflexivity]. constructor; [lia|]. unfold vp_subs, vp_list.
  repeat (constructor; [lia|apply bytes_check; vm_compute; reflexivity|vm_compute; reflexivity| |]); [..|constructor].
  - apply sm_text; [right; left; reflexivity|vm_compute; reflexivity].
  - now apply sm_midi.
  - apply sm_raw. cbn. unfold raw_sub. cbn [In]. lia.
  - now apply sm_flags.
Qed.
Definition vp_cs : list chunk := [(199, ver20); (64, [1; 0]); (201, wrapper16); (213, vp_data)].
Definition vp_p : project := load (sample vp_cs).
Definition vp_h : heap := parsed (pr_events vp_p).
Definition vp_e : event := nth 3 (pr_events vp_p) (Event 0 KUnknown 0 false VNone).
Definition vp_d : list (string * val) := [("type"%string, VInt 10); ("events"%string, VList vp_list)].
Definition vp_sub (id : Z) (x : val) : list (string * val) := [("id"%string, VEnum id); ("data"%string, x)].
Example C74_case : is_bytes (sample vp_cs) /\ parse en0 (sample vp_cs) = Ok vp_p /\ canonical_file en0 (sample vp_cs) /\
  views (parsed (pr_events vp_p)) vp_h /\ (0 < nt vp_h)%nat /\ vst_at vp_h 0 3 vp_e vp_d vp_list /\ e_kind vp_e = KVSTPlugin /\
  sub vp_list 54 0 (vp_sub 54 (VStr [65; 233])) (VStr [65; 233]) /\ text_sub 54 /\
  sub vp_list 52 2 (vp_sub 52 (VBytes [9; 8; 7])) (VBytes [9; 8; 7]) /\ raw_sub 52 /\
  sub vp_list 2 3 (vp_sub 2 (VDict (opt_fields flag_fields vp_flags))) (VDict (opt_fields flag_fields vp_flags)) /\
  sub vp_list 1 1 (vp_sub 1 (VDict (opt_fields midi_fields vp_midi))) (VDict (opt_fields midi_fields vp_midi)) /\ unfit 1 (VInt 5) /\
  2 * zlen (sample vp_cs) + 4 * 1000 + 6 < 2 ^ 32 /\ (forall v, In v vp_list -> ~ has_sub_id 55 v).
Proof.
  destruct (sample_ok vp_cs ltac:(vm_compute; reflexivity)) as [A B].
  assert (HN : forall id i s, has_sub_id id (sub_dict i s) -> id = i).
  { intros id i s H. symmetry. eapply sub_dict_id; [reflexivity|exact H]. }
  assert (HS : forall id s, has_sub_id id (VDict (vp_sub id s))).
  { intros id s. exists (vp_sub id s), (VEnum id). split; [reflexivity|]. split; [reflexivity|right; left; reflexivity]. }
  assert (FIRST : forall id i x, nth_error vp_list i = Some (sub_dict id x) -> (forall j y z, (j < i)%nat -> nth_error vp_list j = Some (sub_dict z y) -> z <> id) ->
    sub vp_list id i (vp_sub id x) x).
  { intros id i x N J. split; [exact N|]. split; [apply HS|]. split; [reflexivity|]. intros j v LJ NJ X.
    assert (Y : exists z y, v = sub_dict z y) by (do 4 (destruct j as [|j]; [cbn [vp_list nth_error] in NJ; assert (NJ2 := f_equal (fun o => match o with Some a => a | None => v end) NJ); cbn beta iota in NJ2; rewrite <- NJ2; eauto|]); destruct j; discriminate).
    destruct Y as (z & y & ->). apply (J j y z LJ NJ). symmetry. now apply HN in X. }
  split; [exact A|]. split; [vm_compute; reflexivity|]. split; [exact B|]. split; [apply views_none|]. split; [apply Nat.ltb_lt; vm_compute; reflexivity|]. split.
  { split; [|split; [vm_compute; reflexivity|split; [vm_compute; reflexivity|split; vm_compute; reflexivity]]].
    eapply (ch_some _ _ [] 213 [] 3%nat); [reflexivity|intros e _ []|vm_compute; reflexivity|vm_compute; reflexivity|].
    intros [|[|[|j]]] e' J X; try lia; vm_compute in X; injection X as <-; vm_compute; discriminate. }
  split; [vm_compute; reflexivity|].
  split; [apply FIRST; [reflexivity|lia]|]. split; [right; left; reflexivity|].
  split; [apply FIRST; [reflexivity|intros [|[|j]] y z J X; try lia; cbn in X; unfold sub_dict in X; injection X as <- _; lia]|]. split; [unfold raw_sub; cbn [In]; lia|].
  split; [apply FIRST; [reflexivity|intros [|[|[|j]]] y z J X; try lia; cbn in X; unfold sub_dict in X; injection X as <- _; lia]|].
  split; [apply FIRST; [reflexivity|intros [|j] y z J X; try lia; cbn in X; unfold sub_dict in X; injection X as <- _; lia]|].
  split; [right; right; split; [now left|discriminate]|]. split; [vm_compute; reflexivity|].
  intros v I X. destruct I as [<-|[<-|[<-|[<-|[]]]]]; apply HN in X; discriminate.
Qed.

(* assigned, saved, loaded and read again *)
Definition vp_again (r : heap * res unit) (g : heap -> res val) : list (res val) :=
  match r with
  | (h, Ok tt) => match serialise en0 (Project (root_events h) 1 0 96) with
                  | Ok f' => [g h; g (parsed (pr_events (load f')))] | Err x => [g h; Err x] end
  | (_, Err x) => [Err x]
  end.
Example C74_again :
  vp_again (vst_prop_set vp_h 0 54 (VStr [128512; 66])) (fun h => vst_prop_get h 0 54 "name") = [Ok (VStr [128512; 66]); Ok (VStr [128512; 66])] /\
  vp_again (vst_prop_set vp_h 0 52 (VBytes [1])) (fun h => vst_prop_get h 0 52 "guid") = [Ok (VBytes [1]); Ok (VBytes [1])] /\
  vp_again (vst_prop_set vp_h 0 54 (VStr [66])) (fun h => vst_prop_get h 0 1 "input") = [Ok (VInt (-1)); Ok (VInt (-1))] /\
  vp_again (vst_prop_set vp_h 0 1 (VInt 5)) (fun h => vst_prop_get h 0 1 "input") = [Err TypeError; Err TypeError] /\
  vp_again (vst_flag_set en0 vp_h 0 "flags2" VSTFlags2_mask false true) (fun h => vst_flag_get en0 h 0 "flags2" VSTFlags2_mask 1 false) = [Ok (VBool true); Ok (VBool true)].
Proof. vm_compute. repeat split. Qed.

(* so what a user expects of a number - assigned, saved and read again - fails *)
Theorem C74_refuted : exists en f p h t v, is_bytes f /\ parse en f = Ok p /\ canonical_file en f /\ views (parsed (pr_events p)) h /\ (t < nt h)%nat /\
  vst_prop_get h t 1 "input" = Ok (VInt (-1)) /\ 0 <= v < 256 /\
  vst_prop_get (fst (vst_prop_set h t 1 (VInt v))) t 1 "input" <> Ok (VInt v) /\
  exists x, serialise en (Project (root_events (fst (vst_prop_set h t 1 (VInt v)))) (pr_channel_count p) (pr_format p) (pr_ppq p)) = Err x.
Proof.
  destruct C74_case as (A & P & B & V & L & _). exists en0, (sample vp_cs), vp_p, vp_h, 0%nat, 5. do 5 (split; [assumption|]).
  split; [vm_compute; reflexivity|]. split; [lia|]. split; [vm_compute; discriminate|]. exists TypeError. vm_compute. reflexivity.
Qed.
Print Assumptions C74_refuted.
