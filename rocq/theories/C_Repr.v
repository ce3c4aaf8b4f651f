(* C81 which models can be printed. *)
From Coq Require Import String ZArith List Bool Lia Arith.
From Verif Require Import M_Base M_Float M_Text M_Construct M_Structs M_Events M_Parse M_Tree M_Prop M_Items M_Api M_Repr.
From Verif Require Import S_Canon S_File S_Tree S_Prop S_Project S_Api.
From Verif Require Import P_Base P_Codec P_Payload P_File P_Special P_TreeBase P_Tree P_TreeEdit P_Prop P_Edit P_Session P_Project P_Api P_Nested.
From Verif Require Import C_Samples C_Api.
Import ListNotations.
Local Open Scope string_scope.
Open Scope Z_scope.

(* the classes printed by listing their attributes: those that always can be ... *)
Definition printable : list string :=
  ["TimeSignature"; "DisplayGroup"; "Filter"; "LevelAdjusts"; "Time"; "Reverb"; "FX"; "Envelope"; "SamplerLFO"; "Polyphony"; "Tracking"; "Keyboard"; "Playback";
   "TimeStretching"; "Content"; "AutomationLFO"; "AutomationPoint"; "Controller"; "BooBass"; "FruitKick"; "FruityBalance"; "FruityBloodOverdrive"; "FruityCenter";
   "FruityFastDist"; "FruityNotebook2"; "FruitySend"; "FruitySoftClipper"; "FruityStereoEnhancer"; "Plucked"; "Soundgoodizer"; "TimeMarker"].

Lemma show_ok : forall l, (forall n r, In (n, r) l -> exists v, r = Ok v) -> exists vs, show_all l = Ok vs /\ Forall2 (fun x y => fst x = fst y /\ snd x = Ok (snd y)) l vs.
Proof.
  induction l as [|[n r] l IH]; intros H; [exists []; split; [reflexivity|constructor]|]. destruct (H n r (or_introl eq_refl)) as (v & ->).
  destruct IH as (vs & E & F); [intros n' r' I; apply (H n' r'); now right|]. exists ((n, v) :: vs). cbn [show_all shown bind]. rewrite E. split; [reflexivity|]. constructor; [split; reflexivity|exact F].
Qed.
Lemma show_err n e : e <> AttributeError -> forall l, In (n, Err e) l -> (forall n' r, In (n', r) l -> r = Err e \/ exists v, r = Ok v) -> show_all l = Err e.
Proof.
  intros NA. induction l as [|[m r] l IH]; intros I H; [destruct I|]. cbn [show_all]. destruct (H m r (or_introl eq_refl)) as [->|(v & ->)].
  - cbn [shown]. destruct e; try reflexivity. congruence.
  - cbn [shown bind]. destruct I as [I|I]; [discriminate|]. rewrite IH; [reflexivity|exact I|]. intros n' r' J. apply (H n' r'). now right.
Qed.

Lemma own_in c n pr : In (n, pr) (own_declared c) -> In (c, n, pr) api /\ In (n, pr) (properties_of c).
Proof.
  unfold own_declared. rewrite in_flat_map. intros ([[c' n'] p'] & I & J). cbn [fst snd] in J. destruct (String.eqb_spec c' c) as [->|]; [|destruct J]. destruct J as [J|[]]. injection J as -> ->.
  split; [exact I|]. unfold properties_of. apply in_flat_map. exists c. split; [cbn [ancestors]; now left|]. apply in_flat_map. exists (c, n, pr). split; [exact I|]. cbn [fst snd]. rewrite String.eqb_refl. now left.
Qed.

Lemma loaded_value en evs h t id v k : loaded en evs h -> (t < nt h)%nat -> fixed_kind id = Some k -> value_of id (events h t) = Some v ->
  exists e, e_val e = v /\ made en e /\ e_kind e = k.
Proof.
  intros LD L FK V. assert (X : exists e, In e (events h t) /\ e_id e = id /\ e_val e = v).
  { clear - V. induction (events h t) as [|e es IH]; [discriminate|]. cbn [value_of] in V. destruct (Z.eqb_spec (e_id e) id) as [E|E]; [injection V as <-; exists e; split; [now left|auto]|].
    destruct (IH V) as (x & I & R). exists x. split; [now right|exact R]. }
  destruct X as (e & I & E & EV). exists e. split; [exact EV|]. unfold events in I. apply in_map_iff in I as (c & <- & I).
  assert (R : In (ref_of h c) (refs h t)) by (unfold refs; now apply in_map). destruct (loaded_ref _ _ _ _ _ LD L R) as (_ & M). unfold ref_of in M. fold (e_of h c) in M.
  split; [exact M|]. destruct M as (_ & M). apply M. rewrite E. now apply fixed_kind_ok.
Qed.
Lemma loaded_number en evs h t id : loaded en evs h -> (t < nt h)%nat -> fixed_kind id = Some KU32 -> forall v, value_of id (events h t) = Some v -> exists z, as_int v = Some z.
Proof.
  intros LD L FK v V. destruct (loaded_value _ _ _ _ _ _ _ LD L FK V) as (e & <- & M & K). destruct (made_number _ _ M (or_intror K)) as (z & N & _). exists z.
  destruct N as [->|[->|(b & -> & ->)]]; reflexivity.
Qed.
Lemma coded_ok en evs h t c n r : loaded en evs h -> (t < nt h)%nat -> c <> "Delay" -> In (n, r) (own_coded h t c) -> exists v, r = Ok v.
Proof.
  intros LD L ND I. unfold own_coded in I. destruct (String.eqb_spec c "Delay"); [contradiction|]. pose proof (loaded_number en evs h t 139 LD L eq_refl) as N1. pose proof (loaded_number en evs h t 148 LD L eq_refl) as N2.
  destruct (String.eqb c "Reverb"); [|destruct (String.eqb c "TimeMarker"); [|destruct I]];
    cbn [In] in I; destruct I as [I|[I|[]]]; injection I as <- <-;
    unfold reverb_type_get, reverb_mix_get, marker_position, marker_type, reverb_id; rewrite contains_value, first_val_spec;
    match goal with |- context [value_of ?i ?l] => destruct (value_of i l) as [w|] eqn:E; [|eauto] end; cbn [bind].
  1-2: destruct (N1 w eq_refl) as (z & ->); eauto.
  1-2: destruct (N2 w eq_refl) as (z & ->); try (destruct (z <? Signature)); eauto.
Qed.

Lemma printable_rows : forallb (fun c => existsb (fun x => String.eqb (fst x) c) homes && forallb (fun x => negb (existsb (fun b => String.eqb (fst b) c && String.eqb (snd b) (fst x)) broken)) (own_declared c)) printable = true.
Proof. vm_compute. reflexivity. Qed.

(* ... in every project that loads, wherever such a model may be: each attribute is shown
   with the value it reads *)
Theorem C81_printed : forall en f p h c hm m, is_bytes f -> parse en f = Ok p -> views (parsed (pr_events p)) h ->
  In c printable -> In (c, hm) homes -> at_home h hm m ->
  exists vs, repr en h m c = Ok vs /\ forall n pr, In (n, pr) (own_declared c) -> exists v, In (n, v) vs /\ prop_get en h m pr = Ok v.
Proof.
  intros en f p h c hm m B P V PR HM AH. pose proof (load_made _ _ _ _ B P V) as LD. pose proof printable_rows as T. rewrite forallb_forall in T. specialize (T _ PR). apply andb_prop in T as [_ T]. rewrite forallb_forall in T.
  assert (OWN : forall n pr, In (n, pr) (own_declared c) -> exists v, prop_get en h m pr = Ok v).
  { intros n pr I. assert (NB : ~ In (c, n) broken).
    { intros J. specialize (T _ I). apply negb_true_iff in T. rewrite <- not_true_iff_false in T. apply T. apply existsb_exists. exists (c, n). split; [exact J|]. cbn [fst snd]. now rewrite !String.eqb_refl. }
    destruct (own_in _ _ _ I) as [_ I']. destruct (C76_read en f p h c hm n pr m B P V HM I' NB AH) as (v & R & _). eauto. }
  assert (TR : forall t, m = EvModel t -> (t < nt h)%nat) by (intros t ->; inversion AH; assumption).
  assert (ND : c <> "Delay") by (clear - PR; unfold printable in PR; intros ->; cbn [In] in PR; repeat (destruct PR as [PR|PR]; [discriminate PR|]); exact PR).
  assert (SH : exists vs, show en h m c = Ok vs /\ forall n pr, In (n, pr) (own_declared c) -> exists v, In (n, v) vs /\ prop_get en h m pr = Ok v).
  { unfold show. match goal with |- context [show_all ?l] => destruct (show_ok l) as (vs & E & F) end.
    - intros n r I. apply in_app_iff in I as [I|I].
      + apply in_map_iff in I as ([n' pr] & J & I). cbn [fst snd] in J. injection J as <- <-. exact (OWN _ _ I).
      + destruct m as [t|]; [|destruct I]. exact (coded_ok _ _ _ _ _ _ _ LD (TR t eq_refl) ND I).
    - exists vs. split; [exact E|]. intros n pr I. assert (J : In (n, prop_get en h m pr) (map (fun x => (fst x, prop_get en h m (snd x))) (own_declared c))) by (apply in_map_iff; exists (n, pr); auto).
      apply Forall2_app_inv_l in F as (v1 & v2 & F & _ & ->). clear - F J. induction F as [|x y l vs [A C] F IH]; [destruct J|]. destruct J as [->|J].
      + destruct y as [n' v]. cbn [fst snd] in *. subst n'. exists v. split; [now left|exact C].
      + destruct (IH J) as (v & I & R). exists v. split; [now right|exact R]. }
  destruct SH as (vs & S & SV). destruct m as [t|r i]; [|exists vs; split; [exact S|exact SV]]. cbn [repr]. destruct (String.eqb_spec c "FX") as [->|]; [|exists vs; split; [exact S|exact SV]].
  rewrite S. cbn [bind]. destruct (nested h t [139]) as [h' u] eqn:N.
  destruct (C76_nested en f p h t "FX" "reverb" "Reverb" [139] h' u B P V (TR t eq_refl) ltac:(repeat first [left; reflexivity|right]) N) as (V' & U & _).
  pose proof (load_made _ _ _ _ B P V') as LD'. unfold show. match goal with |- context [show_all ?l] => destruct (show_ok l) as (rs & E & F) end.
  { intros n r I. apply in_app_iff in I as [I|I]; [destruct I|]. exact (coded_ok _ _ _ _ "Reverb" _ _ LD' U ltac:(discriminate) I). }
  rewrite E. cbn [bind]. eexists. split; [reflexivity|]. intros n pr I. destruct (SV n pr I) as (v & J & R). exists v. split; [apply in_app_iff; now left|exact R].
Qed.
Print Assumptions C81_printed.

Lemma shown_in l vs : Forall2 (fun x y => fst x = fst y /\ snd x = Ok (snd y)) l vs -> forall (n : string) (v : val), In (n, Ok v) l -> In (n, v) vs.
Proof.
  induction 1 as [|x y l vs [A C] F IH]; intros n v I; [destruct I|]. destruct I as [->|I]; [|right; now apply IH]. left. destruct y as [m w]. cbn [fst snd] in *. congruence.
Qed.

(* ... also the attributes of Reverb and TimeMarker that have code of their own *)
Theorem C81_own : forall en f p h t, is_bytes f -> parse en f = Ok p -> views (parsed (pr_events p)) h -> (t < nt h)%nat ->
  (exists vs ty mx, repr en h (EvModel t) "Reverb" = Ok vs /\ reverb_type_get h t = Ok ty /\ reverb_mix_get h t = Ok mx /\ In ("type", ty) vs /\ In ("mix", mx) vs) /\
  (exists vs ps ty, repr en h (EvModel t) "TimeMarker" = Ok vs /\ marker_position h t = Ok ps /\ marker_type h t = Ok ty /\ In ("position", ps) vs /\ In ("type", ty) vs).
Proof.
  intros en f p h t B P V L. pose proof (load_made _ _ _ _ B P V) as LD.
  assert (K : forall c a x b y, c <> "Delay" -> (String.eqb c "FX") = false -> In c printable -> In (c, HTree) homes -> own_coded h t c = [(a, x); (b, y)] ->
    exists vs v w, repr en h (EvModel t) c = Ok vs /\ x = Ok v /\ y = Ok w /\ In (a, v) vs /\ In (b, w) vs).
  { intros c a x b y ND NF PR HM OC. destruct (coded_ok en (pr_events p) h t c a x LD L ND ltac:(rewrite OC; now left)) as (v & ->).
    destruct (coded_ok en (pr_events p) h t c b y LD L ND ltac:(rewrite OC; right; now left)) as (w & ->).
    destruct (C81_printed en f p h c HTree (EvModel t) B P V PR HM (AtTree h t L)) as (vs & R & _). exists vs, v, w. split; [exact R|]. split; [reflexivity|]. split; [reflexivity|].
    cbn [repr] in R. rewrite NF in R. unfold show in R. rewrite OC in R.
    assert (F : forall l us, show_all l = Ok us -> forall n u, In (n, Ok u) l -> In (n, u) us).
    { clear. induction l as [|[m r] l IH]; intros us E n u I; [destruct I|]. cbn [show_all] in E. inv_bind E. inv_bind E. injection E as <-.
      destruct I as [I|I]; [injection I as -> ->; left; cbn [shown] in E0; congruence|right; now apply IH]. }
    split; apply (F _ _ R); apply in_app_iff; right; cbn [In]; auto. }
  split; (apply K; [discriminate|reflexivity|repeat first [left; reflexivity|right]|repeat first [left; reflexivity|right]|reflexivity]).
Qed.
Print Assumptions C81_own.

(* a Delay can be printed exactly if it has its event of modulation, and then shows both values *)
Theorem C81_delay : forall en f p h t, is_bytes f -> parse en f = Ok p -> views (parsed (pr_events p)) h -> (t < nt h)%nat ->
  if existsb (fun e => e_id e =? 138) (events h t) then
    exists vs x y, repr en h (EvModel t) "Delay" = Ok vs /\ value_of 138 (events h t) = Some (VTup [x; y]) /\ In ("mod_x", x) vs /\ In ("mod_y", y) vs /\
      forall n pr, In (n, pr) (own_declared "Delay") -> exists v, In (n, v) vs /\ prop_get en h (EvModel t) pr = Ok v
  else repr en h (EvModel t) "Delay" = Err KeyError.
Proof.
  intros en f p h t B P V L. pose proof (load_made _ _ _ _ B P V) as LD.
  assert (OWN : forall n pr, In (n, pr) (own_declared "Delay") -> exists v, prop_get en h (EvModel t) pr = Ok v).
  { intros n pr I. assert (NB : ~ In ("Delay", n) broken) by (unfold broken; cbn [In]; intros J; repeat (destruct J as [J|J]; [discriminate J|]); exact J).
    destruct (own_in _ _ _ I) as [_ I']. destruct (C76_read en f p h "Delay" HTree n pr (EvModel t) B P V ltac:(repeat first [left; reflexivity|right]) I' NB (AtTree h t L)) as (v & R & _). eauto. }
  assert (EX : existsb (fun e => e_id e =? 138) (events h t) = match value_of 138 (events h t) with Some _ => true | None => false end).
  { clear. induction (events h t) as [|e es IH]; [reflexivity|]. cbn [existsb value_of]. destruct (e_id e =? 138); [reflexivity|exact IH]. }
  rewrite EX. cbn [repr String.eqb Ascii.eqb Bool.eqb]. unfold show. destruct (value_of 138 (events h t)) as [v|] eqn:E.
  - destruct (loaded_value en (pr_events p) h t 138 v KU16Tuple LD L eq_refl E) as (e & EV & ((b & BB & M) & _) & K). destruct (mk_event_inv _ _ _ _ _ M) as (w & q & PA & EE & _). rewrite K in PA. cbn [kcon] in PA.
    assert (XY : exists x y, v = VTup [x; y]).
    { assert (w = v) by (rewrite EE in EV; exact EV). subst w. clear - PA. unfold U16Tuple, Adapter, Array in PA. cbn [cparse array_parse] in PA.
      destruct (cparse Int16ul _ _) as [[x r1]|]; [|discriminate]. cbn [bind] in PA. destruct (cparse Int16ul _ _) as [[y r2]|]; [|discriminate]. cbn [bind] in PA. injection PA as <- _. eauto. }
    destruct XY as (x & y & ->). match goal with |- context [show_all ?l] => destruct (show_ok l) as (vs & S & F) end; cycle 1.
    { exists vs, x, y. split; [exact S|]. split; [reflexivity|]. split; [|split].
      - apply (shown_in _ _ F). apply in_app_iff. right. left. unfold mod_x_get, delay_mod_id. now rewrite first_val_spec, E.
      - apply (shown_in _ _ F). apply in_app_iff. right. right. left. unfold mod_y_get, delay_mod_id. now rewrite first_val_spec, E.
      - intros n pr I. destruct (OWN n pr I) as (v & R). exists v. split; [|exact R]. apply (shown_in _ _ F). apply in_app_iff. left. apply in_map_iff. exists (n, pr). cbn [fst snd]. now rewrite R. }
    intros n r I. apply in_app_iff in I as [I|I]; [apply in_map_iff in I as ([n' pr] & J & I); cbn [fst snd] in J; injection J as <- <-; exact (OWN _ _ I)|].
    unfold own_coded in I. cbn [String.eqb Ascii.eqb Bool.eqb In] in I. unfold mod_x_get, mod_y_get, delay_mod_id in I. rewrite first_val_spec, E in I. destruct I as [I|[I|[]]]; injection I as <- <-; cbn; eauto.
  - apply (show_err "mod_x"); [discriminate| |].
    + apply in_app_iff. right. unfold own_coded. cbn [String.eqb Ascii.eqb Bool.eqb]. left. unfold mod_x_get, delay_mod_id. now rewrite first_val_spec, E.
    + intros n r I. apply in_app_iff in I as [I|I]; [apply in_map_iff in I as ([n' pr] & J & I); cbn [fst snd] in J; injection J as <- <-; right; exact (OWN _ _ I)|].
      unfold own_coded in I. cbn [String.eqb Ascii.eqb Bool.eqb In] in I. unfold mod_x_get, mod_y_get, delay_mod_id in I. rewrite first_val_spec, E in I. destruct I as [I|[I|[]]]; injection I as <- <-; left; reflexivity.
Qed.
Print Assumptions C81_delay.

(* ... and the object of arpeggio settings never: all its attributes name missing members *)
Theorem C81_arp_refuted : forall en f p h m, is_bytes f -> parse en f = Ok p -> views (parsed (pr_events p)) h -> at_home h (HOne 215) m -> repr en h m "Arp" = Err KeyError.
Proof.
  intros en f p h m B P V AH. pose proof (load_made _ _ _ _ B P V) as LD. inversion AH as [|i t e L E EI| |]. subst. cbn [repr String.eqb Ascii.eqb Bool.eqb]. unfold show.
  unfold events in E. destruct (lst_of h t) as [|c [|]] eqn:LS; try discriminate E. cbn [map] in E. injection E as E. 
  assert (R : In (ref_of h c) (refs h t)) by (unfold refs; rewrite LS; now left). destruct (loaded_ref _ _ _ _ _ LD L R) as (_ & M). unfold ref_of in M. fold (e_of h c) in M. rewrite E in M.
  assert (K : e_kind e = KParameters) by (apply M; rewrite EI; now apply fixed_kind_ok).
  destruct (made_record _ _ M ltac:(now rewrite K)) as (d & D & DN & _). rewrite K in DN.
  assert (X : forall n pr, In (n, pr) (own_declared "Arp") -> prop_get en h (EvModel t) pr = Err KeyError).
  { intros n pr I. assert (Y : exists k, pr = MkProp [] VNone false (PStruct k) /\ existsb (String.eqb k) (record_names KParameters) = false).
    { vm_compute in I. repeat (destruct I as [I|I]; [injection I as <- <-; eexists; split; [reflexivity|vm_compute; reflexivity]|]). destruct I. }
    destruct Y as (k & -> & NI). unfold prop_get. cbn [p_ids get_event]. rewrite LS. cbn [bind p_kind target_read tg_get]. unfold struct_get, ref_of. fold (ev_of h (c_e (cell_of h c))).
    change (ev_of h (c_e (cell_of h c))) with (e_of h c). rewrite E, K, D. 
    unfold dindex. assert (dget d k = None) as ->; [|reflexivity]. rewrite <- DN in NI. clear - NI. induction d as [|[a v] d IH]; [reflexivity|]. cbn [map fst existsb] in NI. apply orb_false_iff in NI as [A NI]. cbn [dget]. try rewrite String.eqb_sym. rewrite A. exact (IH NI). }
  apply (show_err "chord"); [discriminate| |].
  - apply in_app_iff. left. apply in_map_iff. exists ("chord", MkProp [] VNone false (PStruct "chord")). split; [cbn [fst snd]; f_equal; apply (X "chord")|]; vm_compute; tauto.
  - intros n r I. apply in_app_iff in I as [I|I]; [|destruct I]. apply in_map_iff in I as ([n' pr] & J & I). injection J as <- <-. left. exact (X _ _ I).
Qed.
Print Assumptions C81_arp_refuted.

(* a file with a channel that has parameters, a reverb and modulation of its delay, and
   one that has none of them *)
Definition repr_file : bytes := sample
  [(199, ver20); (64, [0; 0]); (21, [2]); (135, [62; 0; 0; 0]); (139, [5; 0; 1; 0]); (138, [7; 0; 9; 0]); (215, repeat 0 60); (65, [1; 0])].
Definition repr_p : project := load repr_file.
Definition repr_h : heap := parsed (pr_events repr_p).
Example C81_case : is_bytes repr_file /\ parse en0 repr_file = Ok repr_p /\ views (parsed (pr_events repr_p)) repr_h /\
  at_home repr_h HTree (EvModel 0) /\ (exists vs, repr en0 repr_h (EvModel 0) "Keyboard" = Ok vs /\ In ("root_note", VInt 62) vs) /\
  (exists vs, repr en0 repr_h (EvModel 0) "FX" = Ok vs /\ In ("reverb.type", VEnum 65536) vs /\ In ("reverb.mix", VInt 5) vs) /\
  (exists vs, repr en0 repr_h (EvModel 0) "Delay" = Ok vs /\ In ("mod_x", VInt 7) vs /\ In ("mod_y", VInt 9) vs) /\
  repr en0 api_h (EvModel 0) "Delay" = Err KeyError /\
  (exists h' u, nested repr_h 0 [215] = (h', u) /\ at_home h' (HOne 215) (EvModel u) /\ repr en0 h' (EvModel u) "Arp" = Err KeyError).
Proof.
  split; [apply bytes_check; vm_compute; reflexivity|]. split; [vm_compute; reflexivity|]. split; [apply views_none|]. split; [constructor; apply Nat.ltb_lt; vm_compute; reflexivity|].
  split; [eexists; split; [vm_compute; reflexivity|cbn [In]; tauto]|]. split; [eexists; split; [vm_compute; reflexivity|cbn [In]; tauto]|].
  split; [eexists; split; [vm_compute; reflexivity|cbn [In]; tauto]|]. split; [vm_compute; reflexivity|].
  do 2 eexists. split; [vm_compute; reflexivity|]. split; [eapply AtOne; [apply Nat.ltb_lt; vm_compute; reflexivity|vm_compute; reflexivity|reflexivity]|vm_compute; reflexivity].
Qed.
