(* C76 The properties a user sees.  Every property that pyflp's classes declare with
   EventProp, StructProp or FlagProp ([api], M_Api) works as declared on
   every project that can be loaded - read, assigned, refused - except for the listed
   ones, which never do. *)
From Coq Require Import String ZArith List Bool Lia Arith.
From Verif Require Import M_Base M_Float M_Text M_Construct M_Structs M_Events M_Parse M_Tree M_Prop M_Api.
From Verif Require Import S_Canon S_File S_Tree S_Prop S_Api.
From Verif Require Import P_Base P_Codec P_Special P_TreeBase P_Tree P_TreeEdit P_Prop P_Edit P_Session P_Api P_Nested.
From Verif Require Import C_Samples.
Import ListNotations.
Local Open Scope string_scope.
Open Scope Z_scope.

(* the table covers every declaration *)
Theorem C76_table : length api = 243%nat /\ forall c n pr, In ((c, n), pr) api -> exists hm, In (c, hm) homes /\ In (n, pr) (properties_of c).
Proof.
  split; [reflexivity|].
  assert (H : forallb (fun x => let c := fst (fst x) in existsb (fun y => String.eqb (fst y) c) homes) api = true) by (vm_compute; reflexivity).
  intros c n pr I. rewrite forallb_forall in H. specialize (H _ I). cbn [fst] in H. apply existsb_exists in H. destruct H as ([c' hm] & J & E). apply String.eqb_eq in E. cbn [fst] in E. subst c'.
  exists hm. split; [exact J|]. unfold properties_of. apply in_flat_map. exists c. split; [cbn [ancestors]; now left|].
  apply in_flat_map. exists ((c, n), pr). split; [exact I|]. cbn [fst snd]. rewrite String.eqb_refl. now left.
Qed.
Print Assumptions C76_table.

Lemma load_made en f p h : is_bytes f -> parse en f = Ok p -> views (parsed (pr_events p)) h -> loaded en (pr_events p) h.
Proof. intros B P V. destruct (parse_made _ _ _ B P) as [F NE]. split; [exact NE|]. now split. Qed.
Lemma table_row c hm n pr : In (c, hm) homes -> In (n, pr) (properties_of c) -> ~ In (c, n) broken -> readable hm pr = true /\
  forall n' q, In (n', q) (properties_of c) -> n' <> n -> ~ In (c, n') broken -> ~ alias c n n' -> apart hm pr q = true.
Proof.
  intros C I NB. pose proof table_fact as T. unfold table_ok in T. rewrite forallb_forall in T. specialize (T _ C). cbn [fst snd] in T. rewrite forallb_forall in T.
  specialize (T _ I). cbn [fst snd] in T. apply orb_prop in T. destruct T as [T|T]; [apply in_pairs_ok in T; contradiction|]. apply andb_prop in T. destruct T as [R T].
  split; [exact R|]. intros n' q J NN NB' NA. rewrite forallb_forall in T. specialize (T _ J). cbn [fst snd] in T.
  apply orb_prop in T. destruct T as [T|T]; [|exact T]. apply orb_prop in T. destruct T as [T|T].
  - apply orb_prop in T. destruct T as [T|T]; [apply in_pairs_ok in T; contradiction|]. apply String.eqb_eq in T. contradiction.
  - apply aliasb_ok in T. contradiction.
Qed.

(* the records of a loaded project, and the elements of its lists, have exactly the
   members pyflp lists for them *)
Theorem C76_record : forall en f p e, is_bytes f -> parse en f = Ok p -> In e (pr_events p) ->
  (is_struct_kind (e_kind e) = true -> exists d, e_val e = VDict d /\ map fst d = record_names (e_kind e)) /\
  (In (e_kind e) [KPlaylist; KNotes; KController; KAutomation] -> forall i v, nth_error (items e) i = Some v ->
     exists d, v = VDict d /\ map fst d = item_names (e_kind e)).
Proof.
  intros en f p e B P I. destruct (parse_made _ _ _ B P) as [F _]. rewrite Forall_forall in F. specialize (F _ I). split.
  - intros K. destruct (made_record _ _ F K) as (d & V & N & _). eauto.
  - intros K i v N. destruct (made_item en e i v F) as (d & V & NM & _); [|exact N|eauto]. cbn [In] in K. intuition congruence || (destruct (e_kind e); intuition congruence).
Qed.
Print Assumptions C76_record.

(* reading: never an exception; flags read None, True or False; where there is no
   event to read from, the default *)
Theorem C76_read : forall en f p h c hm n pr m, is_bytes f -> parse en f = Ok p -> views (parsed (pr_events p)) h ->
  In (c, hm) homes -> In (n, pr) (properties_of c) -> ~ In (c, n) broken -> at_home h hm m ->
  exists v, prop_get en h m pr = Ok v /\
    (~ present h m (p_ids pr) -> v = p_default pr) /\
    (present h m (p_ids pr) -> forall mem flag mask inv, p_kind pr = PFlag mem flag mask inv -> v = VNone \/ exists b, v = VBool b).
Proof.
  intros en f p h c hm n pr m B P V C I NB AH. pose proof (load_made _ _ _ _ B P V) as LD. destruct (table_row _ _ _ _ C I NB) as [R _].
  destruct (home_target _ _ _ _ _ _ LD AH R) as [(g & GE & GT & PR)|[GE NP]].
  - rewrite (good_prop_get _ _ _ _ _ GE). destruct (good_read _ _ _ _ GT) as (v & E & F). exists v. split; [exact E|]. split; [contradiction|].
    intros _ mem flag mask inv K. now rewrite K in F.
  - exists (p_default pr). split; [unfold prop_get; now rewrite GE|]. split; [reflexivity|contradiction].
Qed.
Print Assumptions C76_read.

(* assigning: where the property is there and reads anything but None, any assignment
   is accepted, reads back, and leaves every other property of the model as it was *)
Theorem C76_write : forall en f p h c hm n pr m v w, is_bytes f -> parse en f = Ok p -> views (parsed (pr_events p)) h ->
  In (c, hm) homes -> In (n, pr) (properties_of c) -> ~ In (c, n) broken -> at_home h hm m ->
  p_readonly pr = false -> present h m (p_ids pr) -> prop_get en h m pr = Ok w -> w <> VNone ->
  exists h', prop_set en h m pr v = (h', Ok tt) /\ prop_get en h' m pr = Ok (reads_back (p_kind pr) v) /\
    forall n' q, In (n', q) (properties_of c) -> n' <> n -> ~ In (c, n') broken -> ~ alias c n n' ->
      prop_get en h' m q = prop_get en h m q.
Proof.
  intros en f p h c hm n pr m v w B P V C I NB AH RO PR G NW. pose proof (load_made _ _ _ _ B P V) as LD. destruct (table_row _ _ _ _ C I NB) as [R T].
  destruct (home_target _ _ _ _ _ _ LD AH R) as [(g & GE & GT & _)|[_ NP]]; [|contradiction].
  pose proof G as G'. rewrite (good_prop_get _ _ _ _ _ GE) in G'. destruct (good_write en h m pr g v w GT GE RO G' NW) as (h' & u & S & _ & GB & _).
  exists h'. split; [exact S|]. split; [exact GB|]. intros n' q J NN NB' NA. destruct (table_row _ _ _ _ C J NB') as [RQ _].
  destruct (apart_kept en _ h hm m pr q v w g LD AH R RQ (T _ _ J NN NB' NA) GE GT RO G NW) as (h2 & S2 & _ & K). rewrite S in S2. injection S2 as <-. exact K.
Qed.
Print Assumptions C76_write.

(* refused: where there is no event; where the record of the event is too short to
   hold the member (reads None); and read-only properties.  Nothing is changed. *)
Theorem C76_refused : forall en f p h c hm n pr t v, is_bytes f -> parse en f = Ok p -> views (parsed (pr_events p)) h ->
  In (c, hm) homes -> In (n, pr) (properties_of c) -> ~ In (c, n) broken -> at_home h hm (EvModel t) ->
  (p_readonly pr = true \/ ~ present h (EvModel t) (p_ids pr) -> prop_set en h (EvModel t) pr v = (h, Err PropertyCannotBeSet)) /\
  (p_readonly pr = false -> present h (EvModel t) (p_ids pr) -> prop_get en h (EvModel t) pr = Ok VNone -> p_kind pr <> PEvent ->
     prop_set en h (EvModel t) pr v = (h, Err (match p_kind pr with PStruct _ => PropertyCannotBeSet | _ => TypeError end))).
Proof.
  intros en f p h c hm n pr t v B P V C I NB AH. pose proof (load_made _ _ _ _ B P V) as LD. destruct (table_row _ _ _ _ C I NB) as [R _]. unfold prop_set.
  destruct (home_target _ _ _ _ _ _ LD AH R) as [(g & GE & GT & PR)|[GE NP]]; rewrite GE.
  - split; [intros [->|NP]; [reflexivity|contradiction]|]. intros -> _ G NE. rewrite (good_prop_get _ _ _ _ _ GE) in G.
    destruct (get_event_shape _ _ _ _ GE) as [r ->]. destruct GT as [_ GT]. destruct (p_kind pr) as [|mem|mem flag mask inv]; [congruence| |]; cbn [target_read target_write] in *.
    + cbn [tg_get tg_set] in *. unfold struct_get, struct_set in *. destruct (is_struct_kind _); [|discriminate]. destruct (e_val (ev_of h r)) as [| | | | | | | | |d]; try discriminate.
      unfold dindex in G. destruct (dget d mem) as [o|]; [|discriminate]. injection G as ->. reflexivity.
    + destruct GT as [_ (o & F & Q)]. rewrite F in G |- *. cbn [bind] in *. destruct Q as [->|Q].
      * destruct (xorb inv (truthy v)); reflexivity.
      * destruct (flag_number_int _ _ Q) as (NN & z & AI). unfold flag_in in G. rewrite AI in G. cbn [bind] in G. destruct o; congruence || discriminate.
  - split; [intros _; now destruct (p_readonly pr)|]. intros _ PR. contradiction.
Qed.
Print Assumptions C76_refused.

(* ------------------------------------------------------------------ nested models *)

(* A nested model sees exactly the events of its ids, and each of its properties is one
   of the events of the model it is nested in: reading and assigning through it is
   reading and assigning there.  Classes of a single event raise IndexError when the
   event is not there, LookupError when there are several. *)
Theorem C76_nested : forall en f p h t c a k ids h' u, is_bytes f -> parse en f = Ok p -> views (parsed (pr_events p)) h -> (t < nt h)%nat ->
  In (c, a, k, ids) nested_api -> nested h t ids = (h', u) ->
  views (parsed (pr_events p)) h' /\ (u < nt h')%nat /\ events h' t = events h t /\
  events h' u = filter (fun e => existsb (Z.eqb (e_id e)) ids) (events h t) /\
  match home_of k with
  | HOne id => ids = [id] /\
      (forall e, events h' u = [e] -> at_home h' (HOne id) (EvModel u)) /\
      (forall n pr, In (n, pr) (properties_of k) ->
         (events h' u = [] -> prop_get en h' (EvModel u) pr = Err IndexError) /\
         (1 < length (events h' u) -> prop_get en h' (EvModel u) pr = Err LookupError)%nat)
  | hm => hm = HTree /\ at_home h' hm (EvModel u) /\
      forall n pr v, In (n, pr) (properties_of k) ->
        prop_get en h' (EvModel u) pr = prop_get en h (EvModel t) pr /\
        prop_set en h' (EvModel u) pr v = prop_set en h' (EvModel t) pr v
  end.
Proof.
  intros en f p h t c a k ids h' u B P V L I N. pose proof (load_made _ _ _ _ B P V) as (NE & _ & _).
  destruct (views_synced _ _ NE V) as (AS & _). pose proof (synced_ordered _ _ (AS t L)) as O.
  destruct (nested_spec _ _ _ _ _ O L N) as (EU & X & NT & LU & EV & GT & GU).
  assert (V' : views (parsed (pr_events p)) h').
  { eapply views_more; [exact V|]. unfold nested in N. replace h' with (fst (subtree h t (fun (s : unit) e => (s, Some (mem_Z (e_id e) ids))) tt)) by now rewrite N. now apply op_subtree. }
  split; [exact V'|]. split; [lia|]. split; [|split; [exact EV|]].
  { unfold events, lst_of. rewrite (extends_tree _ _ _ X L). apply map_ext. intros cc. now apply P_Rack.extends_e. }
  pose proof nested_fact as T. unfold nested_ok in T. rewrite forallb_forall in T. specialize (T _ I). cbn beta iota in T.
  destruct (home_of k) as [|id|?|?]; try discriminate.
  - split; [reflexivity|]. split; [constructor; lia|]. intros n pr v J. rewrite forallb_forall in T. specialize (T _ J). cbn [snd] in T.
    assert (NI : p_ids pr <> []) by (intros E; rewrite E in T; discriminate).
    assert (SUB : incl (p_ids pr) ids).
    { destruct (p_ids pr) as [|i l]; [congruence|]. rewrite forallb_forall in T. intros z Z. apply mem_Z_in. now apply T. }
    pose proof (GU _ NI SUB) as E1. pose proof (GT _ SUB) as E2. split.
    + unfold prop_get. rewrite E1, E2. destruct (get_event h (p_ids pr) (EvModel t)) as [[g|]|]; [|reflexivity|reflexivity]. cbn [bind]. now apply extends_read.
    + unfold prop_set. now rewrite E1.
  - apply andb_prop in T. destruct T as [TI T]. destruct ids as [|i [|]]; try discriminate. apply Z.eqb_eq in TI. subst i. split; [reflexivity|]. split.
    + intros e E. apply (AtOne h' id u e); [lia|exact E|]. assert (J : In e (events h' u)) by (rewrite E; now left). rewrite EV in J. apply filter_In in J. destruct J as [_ J]. apply mem_Z_in in J. cbn [In] in J. intuition congruence.
    + intros n pr J. rewrite forallb_forall in T. specialize (T _ J). cbn [snd] in T. destruct (p_ids pr) eqn:PI; [|discriminate].
      unfold prop_get. rewrite PI. cbn [get_event]. unfold events. rewrite map_length. split.
      * intros E. apply map_eq_nil in E. now rewrite E.
      * intros E. destruct (lst_of h' u) as [|c1 [|c2 l]]; cbn [length] in E; [lia|lia|reflexivity].
Qed.
Print Assumptions C76_nested.

(* ------------------------------------------------------------------ what never works *)

(* the arpeggiator: every property of every instrument and sampler raises KeyError *)
Theorem C76_arp_refuted : forall en f p h n pr m v, is_bytes f -> parse en f = Ok p -> views (parsed (pr_events p)) h ->
  In (n, pr) (properties_of "Arp") -> at_home h (HOne 215) m ->
  prop_get en h m pr = Err KeyError /\ prop_set en h m pr v = (h, Err KeyError).
Proof.
  intros en f p h n pr m v B P V I AH. pose proof (load_made _ _ _ _ B P V) as LD. inversion AH as [|id t e L EV ID| |]; subst id m.
  unfold events in EV. destruct (lst_of h t) as [|c [|c2 l]] eqn:EL; try discriminate. cbn [map] in EV.
  assert (J : In (ref_of h c) (refs h t)) by (apply (in_refs h t 0%nat); now rewrite EL).
  destruct (loaded_ref _ _ _ _ _ LD L J) as [LR M].
  assert (K : e_kind (ev_of h (ref_of h c)) = KParameters).
  { destruct M as [_ M]. apply M. apply fixed_kind_ok. assert (X : e_id (ev_of h (ref_of h c)) = 215) by (injection EV as <-; exact ID). rewrite X. reflexivity. }
  destruct (made_record _ _ M) as (d & VD & NM & _); [now rewrite K|]. rewrite K in NM.
  assert (G : forall mem, In mem ["chord"; "direction"; "gate"; "range"; "repeat"; "slide"; "time"] -> dget d mem = None).
  { intros mem Q. apply dget_notin. rewrite NM. intros W. cbn [In] in Q. repeat (destruct Q as [<-|Q]; [cbn [record_names In] in W; intuition discriminate|]). destruct Q. }
  assert (S : exists mem, In mem ["chord"; "direction"; "gate"; "range"; "repeat"; "slide"; "time"] /\ pr = MkProp [] VNone false (PStruct mem)).
  { change (properties_of "Arp") with [("chord", MkProp [] VNone false (PStruct "chord")); ("direction", MkProp [] VNone false (PStruct "direction"));
      ("gate", MkProp [] VNone false (PStruct "gate")); ("range", MkProp [] VNone false (PStruct "range")); ("repeat", MkProp [] VNone false (PStruct "repeat"));
      ("slide", MkProp [] VNone false (PStruct "slide")); ("time", MkProp [] VNone false (PStruct "time"))] in I.
    cbn [In] in I. repeat (destruct I as [E|I]; [injection E as <- <-; eexists; split; [|reflexivity]; cbn [In]; tauto|]). destruct I. }
  destruct S as (mem & Q & ->). unfold prop_get, prop_set. cbn [p_ids p_readonly p_kind get_event]. rewrite EL. cbn [bind target_read target_write tg_get tg_set].
  unfold struct_get, struct_set. rewrite K, VD. cbn [is_struct_kind]. unfold dindex. now rewrite (G _ Q).
Qed.
Print Assumptions C76_arp_refuted.

(* whether a playlist item is muted: reading raises KeyError; assigning is accepted and
   reads back, but the file saved is the same as without *)
Theorem C76_muted_refuted : forall en f p h pr m v, is_bytes f -> parse en f = Ok p -> views (parsed (pr_events p)) h ->
  In ("muted", pr) (properties_of "PLItemBase") -> at_home h (HItems KPlaylist) m ->
  prop_get en h m pr = Err KeyError /\
  exists h', prop_set en h m pr v = (h', Ok tt) /\ prop_get en h' m pr = Ok v /\
    forall n a q, serialise en (Project (root_events h') n a q) = serialise en (Project (root_events h) n a q).
Proof.
  intros en f p h pr m v B P V I AH. pose proof (load_made _ _ _ _ B P V) as (NE & F & _). inversion AH as [| |k r i LR K LI|]; subst k m.
  assert (pr = MkProp [] VNone false (PStruct "muted")) as ->.
  { vm_compute in I. repeat (destruct I as [E|I]; [try discriminate E; injection E as <-; reflexivity|]). destruct I. }
  assert (M : made en (ev_of h r)). { rewrite Forall_forall in F. apply F. unfold ev_of. rewrite (views_evs _ _ V) in LR |- *. now apply nth_In. }
  destruct (nth_error (items (ev_of h r)) i) as [w|] eqn:N; [|apply nth_error_None in N; lia].
  destruct (made_item _ _ _ _ M ltac:(now rewrite K) N) as (d & -> & NM & _). rewrite K in NM.
  assert (NI : ~ In "muted" (item_names KPlaylist)) by (cbn [item_names In]; intuition discriminate).
  unfold prop_get, prop_set. cbn [p_ids p_readonly p_kind get_event bind target_read target_write]. split.
  - cbn [tg_get]. rewrite N. unfold dindex. rewrite dget_notin; [reflexivity|]. now rewrite NM.
  - destruct (playlist_member en h r i d "muted" v LR K N NI) as (h' & S & G & SV). exists h'. split; [exact S|]. split; [exact G|].
    intros n a q. apply (SV 0%nat).
Qed.
Print Assumptions C76_muted_refuted.

(* whether a plugin is a DirectX plugin: no project that can be loaded says so *)
Theorem C76_directx : forall en f p h pr t, is_bytes f -> parse en f = Ok p -> views (parsed (pr_events p)) h ->
  In ("directx", pr) (properties_of "_PluginBase") -> (t < nt h)%nat ->
  prop_get en h (EvModel t) pr = Ok VNone \/ prop_get en h (EvModel t) pr = Ok (VBool false).
Proof.
  intros en f p h pr t B P V I L. pose proof (load_made _ _ _ _ B P V) as LD.
  assert (pr = MkProp [212] VNone false (PFlag "flags" 65536 197623 false)) as ->.
  { vm_compute in I. repeat (destruct I as [E|I]; [try discriminate E; injection E as <-; reflexivity|]). destruct I. }
  unfold prop_get. cbn [p_ids p_kind p_default].
  destruct (found h t [212] ltac:(discriminate)) as [(k & c & _ & N & G & _ & J)|[_ G]]; rewrite G; cbn [bind]; [|now left].
  destruct (loaded_ref _ _ _ _ _ LD L (in_refs _ _ _ _ N)) as [_ M]. destruct J as [J|[]].
  assert (K : e_kind (ev_of h (ref_of h c)) = KWrapper) by (destruct M as [_ M]; apply M, fixed_kind_ok; rewrite <- J; reflexivity).
  destruct M as [(b & BB & M) _]. rewrite K in M. destruct (wrapper_flags _ _ _ _ BB M) as (d & VD & Q).
  cbn [target_read]. unfold flags_get. cbn [has_items tg_get]. unfold struct_get. rewrite K, VD. cbn [is_struct_kind is_list_kind negb]. unfold dindex.
  destruct Q as [Q|(z & Q & ZB)]; rewrite Q; cbn [bind]; [now left|]. right. change (flag_in (en_py311 en) 197623 65536 (VEnum z)) with (Ok (Z.land (intflag_norm (en_py311 en) 197623 z) 65536 =? 65536)). cbn [bind].
  assert (Z1 : intflag_norm (en_py311 en) 197623 z = z) by (destruct (en_py311 en); [apply norm_nonneg; lia|reflexivity]). rewrite Z1.
  assert (Z2 : Z.land z 65536 = 0).
  { apply Z.bits_inj'. intros i Hi. rewrite Z.land_spec, Z.bits_0. change 65536 with (2 ^ 16). rewrite Z.pow2_bits_eqb by lia. destruct (Z.eqb_spec 16 i) as [<-|]; [|apply andb_false_r].
    rewrite andb_true_r. destruct (Z.eq_dec z 0) as [->|]; [apply Z.bits_0|]. apply Z.bits_above_log2; [lia|]. apply Z.log2_lt_pow2; lia. }
  rewrite Z2. reflexivity.
Qed.
Print Assumptions C76_directx.

(* and a plugin that is said to be one loses the flags when saved: everything after is
   read from bytes of its successors, the width from the height's *)
Definition wrapper0 : bytes := (repeat 0 16 ++ [1; 0; 0; 0; 2] ++ repeat 0 23 ++ [88; 2; 0; 0; 144; 1; 0; 0])%list.
Definition wrapper_file : bytes := sample [(199, ver20); (64, [0; 0]); (212, wrapper0)].
Theorem C76_directx_refuted : exists p pr h' f' p' d d', parse en0 wrapper_file = Ok p /\ serialise en0 p = Ok wrapper_file /\
  In ("directx", pr) (properties_of "_PluginBase") /\ p_readonly pr = false /\
  prop_set en0 (parsed (pr_events p)) (EvModel 0) pr (VBool true) = (h', Ok tt) /\ prop_get en0 h' (EvModel 0) pr = Ok (VBool true) /\
  serialise en0 (Project (root_events h') 1 0 96) = Ok f' /\ parse en0 f' = Ok p' /\
  prop_get en0 (parsed (pr_events p')) (EvModel 0) pr = Ok (VBool false) /\
  map e_val (skipn 2 (pr_events p)) = [VDict d] /\ map e_val (skipn 2 (pr_events p')) = [VDict d'] /\
  dget d "flags" = Some (VEnum 1) /\ dget d' "flags" = Some (VEnum 0) /\
  dget d "page" = Some (VEnum 2) /\ dget d' "page" = Some (VEnum 0) /\
  dget d "width" = Some (VInt 600) /\ dget d' "width" = Some (VInt (400 * 65536)) /\ dget d "height" = Some (VInt 400) /\ dget d' "height" = Some VNone.
Proof.
  exists (load wrapper_file), (MkProp [212] VNone false (PFlag "flags" 65536 197623 false)). do 5 eexists. split; [vm_compute; reflexivity|].
  split; [vm_compute; reflexivity|]. split; [vm_compute; tauto|]. do 15 (split; [vm_compute; reflexivity|]). vm_compute; reflexivity.
Qed.
Print Assumptions C76_directx_refuted.

(* ------------------------------------------------------------------ cases *)

Definition api_file : bytes := sample
  [(199, ver20); (64, [0; 0]); (21, [2]); (212, wrapper0); (135, [62; 0; 0; 0]);
   (65, [1; 0]); (224, [0; 0; 0; 0; 0; 64; 0; 0; 96; 0; 0; 0; 60; 0; 0; 0; 120; 0; 64; 0; 64; 100; 128; 128])].
Definition api_p : project := load api_file.
Definition api_h : heap := parsed (pr_events api_p).
Example C76_case : is_bytes api_file /\ parse en0 api_file = Ok api_p /\ views (parsed (pr_events api_p)) api_h /\
  (exists pr, In ("generator", pr) (properties_of "_PluginBase") /\ In ("_PluginBase", HTree) homes /\ ~ In ("_PluginBase", "generator") broken /\
     at_home api_h HTree (EvModel 0) /\ present api_h (EvModel 0) (p_ids pr) /\ p_readonly pr = false /\
     prop_get en0 api_h (EvModel 0) pr = Ok (VBool false)) /\
  (exists pr, In ("width", pr) (properties_of "VSTPlugin") /\ prop_get en0 api_h (EvModel 0) pr = Ok (VInt 600)) /\
  (exists h' u pr, In ("Channel", "keyboard", "Keyboard", [142; 135; 215]) nested_api /\ nested api_h 0 [142; 135; 215] = (h', u) /\
     In ("root_note", pr) (properties_of "Keyboard") /\ prop_get en0 h' (EvModel u) pr = Ok (VInt 62) /\ length (events h' u) = 1%nat) /\
  (exists pr, In ("length", pr) (properties_of "Note") /\ at_home api_h (HItems KNotes) (ItModel 6 0) /\ prop_get en0 api_h (ItModel 6 0) pr = Ok (VInt 96)).
Proof.
  split; [apply bytes_check; vm_compute; reflexivity|]. split; [vm_compute; reflexivity|]. split; [apply views_none|]. split; [|split; [|split]].
  - eexists. split; [vm_compute; tauto|].
    split; [vm_compute; tauto|]. split; [vm_compute; intuition discriminate|]. split; [constructor; apply Nat.ltb_lt; vm_compute; reflexivity|].
    split; [right; eexists; split; [do 3 right; left; reflexivity|left; reflexivity]|]. split; [reflexivity|vm_compute; reflexivity].
  - eexists. split; [vm_compute; tauto|vm_compute; reflexivity].
  - do 3 eexists. split; [vm_compute; tauto|]. split; [vm_compute; reflexivity|]. split; [vm_compute; tauto|]. split; vm_compute; reflexivity.
  - eexists. split; [vm_compute; tauto|]. split; [|vm_compute; reflexivity]. constructor; [apply Nat.ltb_lt| |apply Nat.ltb_lt]; vm_compute; reflexivity.
Qed.
