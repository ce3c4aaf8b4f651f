(* C85 what projects, versions, patterns, notes, controllers, markers and time signatures
   are printed as. *)
From Coq Require Import String ZArith List Bool Lia Arith.
From Verif Require Import M_Base M_Float M_Text M_Construct M_Structs M_Events M_Parse M_Tree M_Prop M_Project M_Items M_Collections M_Models M_Api M_Print.
From Verif Require Import S_Canon S_File S_Domain S_Tree S_Prop S_Layout S_Project S_Items S_Collections S_Notes S_Api.
From Verif Require Import P_Base P_Codec P_Payload P_File P_Special P_TreeBase P_Tree P_TreeEdit P_Prop P_Edit P_Session P_Project P_Header P_Items P_Patterns P_Rack P_Views P_Plugins P_Api P_Nested P_Models P_Notes.
From Verif Require Import C_Samples C_Mixer C_Plugins C_Api C_Struct C_Items C_Project C_Notes C_Objects.
Import ListNotations.
Local Open Scope string_scope.
Open Scope Z_scope.

(* ---------------------------------------------------------------------- versions *)

Lemma version_text v : version_str v = ver_text (parts_of v).
Proof.
  destruct v as [a b c [d|]]; unfold version_str, ver_text, parts_of; cbn [v_major v_minor v_patch v_build app map join_with]; repeat (rewrite <- app_assoc; cbn [app]); reflexivity.
Qed.
Lemma parts_inj v w : parts_of v = parts_of w -> v = w.
Proof. destruct v as [a b c [d|]], w as [a' b' c' [d'|]]; unfold parts_of; cbn [v_major v_minor v_patch v_build app]; intros E; try discriminate; congruence. Qed.

(* str(version) has the numbers of the version between dots: assigning the text is the same as
   assigning the version, and different versions have different texts. *)
Theorem C85_version : forall v, Forall (fun n => 0 <= n) (parts_of v) ->
  numbers (version_str v) = Some (parts_of v) /\
  (forall h, version_set h (AText (version_str v)) = version_set h (AVersion v)) /\
  forall w, Forall (fun n => 0 <= n) (parts_of w) -> version_str v = version_str w -> v = w.
Proof.
  intros v F. assert (N : forall v, Forall (fun n => 0 <= n) (parts_of v) -> numbers (version_str v) = Some (parts_of v)).
  { clear. intros v F. rewrite version_text. apply numbers_ver_text; [|exact F]. destruct v as [a b c [d|]]; discriminate. }
  split; [exact (N v F)|]. split; [intros h; exact (proj2 (C37_forms h v F) _ (N v F))|].
  intros w G E. apply parts_inj. pose proof (N v F) as A. rewrite E, (N w G) in A. congruence.
Qed.
Print Assumptions C85_version.

(* the kinds of files *)
Inductive format_called : Z -> string -> Prop :=
| fc_none : format_called (-1) "None_"
| fc_project : format_called 0 "Project"
| fc_score : format_called 16 "Score"
| fc_automation : format_called 24 "Automation"
| fc_channel : format_called 32 "ChannelState"
| fc_plugin : format_called 48 "PluginState"
| fc_generator : format_called 49 "GeneratorState"
| fc_effect : format_called 50 "FXState"
| fc_insert : format_called 64 "InsertState"
| fc_patcher : format_called 80 "_ProbablyPatcher".

Lemma parse_format en f p : parse en f = Ok p -> In (pr_format p) file_formats.
Proof.
  intros H. unfold parse in H. destruct (zlen f <? 14); [discriminate|]. cbv zeta in H. destruct (list_Zeqb (M_Parse.slice 0 4 f) FLhd); cbn [negb] in H; [|discriminate].
  destruct (le_dec (M_Parse.slice 4 4 f) =? 6); cbn [negb] in H; [|discriminate]. destruct (mem_Z (to_signed 2 (le_dec (M_Parse.slice 8 2 f))) file_formats) eqn:E2; cbn [negb] in H; [|discriminate].
  repeat match type of H with (if ?c then _ else _) = _ => destruct c; try discriminate end. inv_bind H. injection H as <-. now apply mem_Z_In.
Qed.

(* str(project) of a project just loaded: its version, with at least three numbers, and the
   kind of file. *)
Theorem C85_project : forall en f p s ns, is_bytes f -> parse en f = Ok p ->
  value_of 199 (pr_events p) = Some (VStr s) -> numbers s = Some ns -> Forall (fun n => 0 <= n) ns -> (length ns <= 4)%nat ->
  exists v n, project_str (opened p) = Ok (str "FL Studio v" ++ v ++ str " " ++ str n)%list /\
    numbers v = Some (ns ++ repeat 0 (3 - length ns))%list /\ format_called (pr_format p) n.
Proof.
  intros en f p s ns B P V N F L. destruct (parse_made _ _ _ B P) as [_ NE]. assert (W : views (parsed (pr_events p)) (parsed (pr_events p))) by constructor.
  destruct (C37_get (pr_events p) (parsed (pr_events p)) NE W) as [_ G]. specialize (G s V). rewrite N in G. rewrite (proj2 (Nat.leb_le _ _) L) in G.
  destruct G as (v & G & A & Bm & C & D).
  assert (FN : exists n, format_name format_names (pr_format p) = Ok n /\ format_called (pr_format p) n).
  { pose proof (parse_format _ _ _ P) as I. cbn [file_formats In] in I. repeat (destruct I as [<-|I]; [eexists; split; [reflexivity|constructor]|]). destruct I. }
  destruct FN as (n & FN & FC). exists (version_str v), n. split; [|split; [|exact FC]].
  - unfold project_str, opened. cbn [pj_heap pj_format]. rewrite G. cbn [bind]. now rewrite FN.
  - assert (E : parts_of v = (ns ++ repeat 0 (3 - length ns))%list).
    { destruct v as [a b c d]. cbn [v_major v_minor v_patch v_build] in *. unfold parts_of. cbn [v_major v_minor v_patch v_build]. subst b c d.
      destruct ns as [|n0 [|n1 [|n2 [|n3 [|n4 ns]]]]]; cbn [nth_error nth length repeat app Nat.sub] in *; try discriminate; try (injection A as ->); try reflexivity. exfalso. lia. }
    rewrite <- E. apply C85_version. rewrite E. apply Forall_app. split; [exact F|]. apply Forall_forall. intros x I. apply repeat_spec in I. lia.
Qed.
Print Assumptions C85_project.

(* ------------------------------------------------------------- markers, signatures *)

Definition or_none (o : option val) : val := match o with Some v => v | None => VNone end.

Lemma ev_get_value en h t id : ev_get en h t [id] = Ok (or_none (value_of id (events h t))).
Proof. rewrite ev_get_one. unfold or_none. destruct (value_of id (events h t)); reflexivity. Qed.

(* str() of the time signature of a project *)
Theorem C85_signature : forall en h t,
  signature_str en h t = Ok [Lit "Global time signature: "; Str (or_none (value_of 17 (events h t))); Lit "/"; Str (or_none (value_of 18 (events h t)))].
Proof. intros en h t. unfold signature_str. rewrite !ev_get_value. reflexivity. Qed.
Print Assumptions C85_signature.

Lemma text_205 en f p e : parse en f = Ok p -> In e (pr_events p) -> e_id e = 205 -> exists s, e_val e = VStr s.
Proof.
  intros H. unfold parse in H. repeat match type of H with (if ?c then _ else _) = _ => destruct c eqn:?; try discriminate end.
  cbv zeta in H. inv_bind H. injection H as <-. cbn [pr_events]. intros I J. apply (loop_text en _ (PState None None) _ _ ltac:(intros k; discriminate) E e I); rewrite J; [|lia].
  unfold enum_tables. destruct (en_ctrl en); reflexivity.
Qed.

(* str() of a marker never fails: up to 2^27 the number of its event is the position of a
   marker, from there on that of a signature; without the event it is printed as a signature
   at None. *)
Theorem C85_marker : forall en f p h t, is_bytes f -> parse en f = Ok p -> views (parsed (pr_events p)) h -> (t < nt h)%nat ->
  exists name, value_of 205 (events h t) = option_map VStr name /\
  let a := or_none (value_of 33 (events h t)) in let b := or_none (value_of 34 (events h t)) in
  let signature p := match name with
                     | Some (c :: s) => [Lit "Signature "; Rep (VStr (c :: s)); Lit " ("; Str a; Lit "/"; Str b; Lit ") @ "; Rep p]
                     | _ => [Lit "Unnamed "; Str a; Lit "/"; Str b; Lit " signature @ "; Rep p]
                     end in
  match value_of 148 (events h t) with
  | Some v => exists z, as_int v = Some z /\ marker_str en h t = Ok
      (if z <? 2 ^ 27 then match name with
                           | Some (c :: s) => [Lit "Marker "; Rep (VStr (c :: s)); Lit " @ "; Rep v]
                           | _ => [Lit "Unnamed marker @ "; Rep v]
                           end
       else signature (VInt (z - 2 ^ 27)))
  | None => marker_str en h t = Ok (signature VNone)
  end.
Proof.
  intros en f p h t B P V L.
  assert (NM : exists name, value_of 205 (events h t) = option_map VStr name).
  { destruct (value_of 205 (events h t)) as [v|] eqn:E; [|now exists None]. destruct (loaded_value _ _ _ _ _ _ _ B P V L E) as (e & I & _ & EI & <-).
    destruct (text_205 _ _ _ _ P I EI) as (s & ->). now exists (Some s). }
  destruct NM as (name & NM). exists name. split; [exact NM|]. cbv zeta.
  change (2 ^ 27) with Signature. unfold marker_str, marker_type, marker_position. rewrite !ev_get_value, contains_value, first_val_spec, NM.
  destruct (value_of 148 (events h t)) as [v|] eqn:E; cbn [bind].
  - destruct (loaded_value _ _ _ _ _ _ _ B P V L E) as (e & _ & M & EI & EV).
    assert (K : e_kind e = KU32) by (apply (proj2 M), fixed_kind_ok; rewrite EI; reflexivity).
    destruct (made_number _ _ M (or_intror K)) as (z & N & _). rewrite EV in N. assert (AZ : as_int v = Some z) by (destruct N as [->|[->|(b & -> & ->)]]; reflexivity).
    exists z. split; [exact AZ|]. rewrite AZ. cbn [bind]. rewrite Z.leb_antisym. destruct (z <? Signature); cbn [negb].
    + change (Marker =? Marker) with true. cbv iota. cbn [bind]. destruct name as [[|c s]|]; reflexivity.
    + change (Signature =? Marker) with false. cbv iota. cbn [bind]. destruct name as [[|c s]|]; reflexivity.
  - destruct name as [[|c s]|]; reflexivity.
Qed.
Print Assumptions C85_marker.

(* ----------------------------------------------------------------------- patterns *)

Lemma len_elements en f p h t k id s tb : is_bytes f -> parse en f = Ok p -> views (parsed (pr_events p)) h -> (t < nt h)%nat -> element_kind k id s tb ->
  exists l, elements h t id = Ok l /\ len_first h t id = Ok (zlen l).
Proof.
  intros B P V L K. unfold elements, len_first. destruct (get_ie h t [id]) as [|c cs] eqn:G; [exists []; split; reflexivity|].
  assert (X : In c (lst_of h t) /\ e_id (e_of h c) = id).
  { assert (I : In c (get_ie h t [id])) by (rewrite G; now left). unfold get_ie in I. apply filter_In in I as [I J]. split; [exact I|]. unfold mem_Z in J. cbn [existsb] in J. apply Bool.orb_true_iff in J as [J|J]; [apply Z.eqb_eq in J; exact J|discriminate]. }
  destruct X as [I EI]. pose proof (load_made _ _ _ _ B P V) as LD.
  assert (R : In (ref_of h c) (refs h t)) by (unfold refs; now apply in_map). destruct (loaded_ref _ _ _ _ _ LD L R) as (_ & M).
  change (ev_of h (ref_of h c)) with (e_of h c) in M. destruct M as [(b & Hb & HM) KK].
  assert (KE : e_kind (e_of h c) = k) by (apply KK, fixed_kind_ok; rewrite EI; destruct K; reflexivity). rewrite EI, KE in HM.
  unfold event_items. assert (LU : list_usable (e_of h c) = true).
  { destruct (mk_event_inv _ _ _ _ _ HM) as (? & ? & _ & -> & _). destruct K; reflexivity. }
  rewrite LU. cbn [bind]. eexists. split; [reflexivity|]. unfold zlen. now rewrite map_length, seq_length.
Qed.

(* repr() of a pattern shows its number, its name and how many notes and controllers going
   through them yields; without an event for its number it raises KeyError. *)
Theorem C85_pattern : forall en f p h t, is_bytes f -> parse en f = Ok p -> views (parsed (pr_events p)) h -> (t < nt h)%nat ->
  match value_of 65 (events h t) with
  | Some i => exists ns cs, elements h t 224 = Ok ns /\ elements h t 223 = Ok cs /\
      pattern_repr en h t = Ok [Lit "Pattern(iid="; Str i; Lit ", name="; Rep (or_none (value_of 193 (events h t))); Lit ",";
                                Str (VInt (zlen ns)); Lit " notes, "; Str (VInt (zlen cs)); Lit " controllers)"]
  | None => pattern_repr en h t = Err KeyError
  end.
Proof.
  intros en f p h t B P V L. destruct (len_elements _ _ _ _ _ _ _ _ _ B P V L ek_notes) as (ns & E1 & L1). destruct (len_elements _ _ _ _ _ _ _ _ _ B P V L ek_controllers) as (cs & E2 & L2).
  unfold pattern_repr, iid_get. rewrite L1, L2, ev_get_value, first_val_spec. cbn [bind].
  destruct (value_of 65 (events h t)) as [i|]; cbn [bind]; [|reflexivity]. exists ns, cs. auto.
Qed.
Print Assumptions C85_pattern.

(* Notes and controllers: where the numbers shown are in the payload of the event. *)
Theorem C85_note : forall en h t b e m, is_bytes b -> mk_event en KNotes 224 b = Ok e -> filter (fun e => e_id e =? 224) (events h t) = e :: m ->
  exists r, elements h t 224 = Ok (map (ItModel r) (seq 0 (length b / 24))) /\
    forall i, (i < length b / 24)%nat -> u_le (S_Layout.slice b (i * 24 + 12) 2) < 132 ->
      let key := VStr (str (key_name (u_le (S_Layout.slice b (i * 24 + 12) 2)))) in
      let position := VInt (u_le (S_Layout.slice b (i * 24) 4)) in
      let len := VInt (u_le (S_Layout.slice b (i * 24 + 8) 4)) in
      note_repr h (TItem r i) = Ok [Lit "Note(key="; Str key; Lit ", position="; Str position; Lit ", length="; Str len;
                                    Lit ", channel="; Str (VInt (u_le (S_Layout.slice b (i * 24 + 6) 2))); Lit ")"] /\
      note_str h (TItem r i) = Ok [Str key; Lit " note @ "; Str position; Lit " of "; Str len].
Proof.
  intros en h t b e m Hb HM F. destruct (C73_elements en h t b e m KNotes 224 24 _ ek_notes Hb HM F) as (r & E & EV & _ & G).
  exists r. split; [exact E|]. intros i L K. cbv zeta. destruct (C73_note en h r b e i Hb HM EV L) as [KN _].
  assert (T : forall n o z, In (n, (o, z)) note_numbers -> tg_get h (TItem r i) n = Ok (VInt (u_le (S_Layout.slice b (i * 24 + o) z)))) by (intros n o z I; exact (G i L n o z I)).
  unfold note_repr, note_str. rewrite (KN K), (T "position" 0%nat 4%nat), (T "length" 8%nat 4%nat), (T "rack_channel" 6%nat 2%nat) by (cbn [In note_numbers]; tauto).
  rewrite Nat.add_0_r. split; reflexivity.
Qed.
Print Assumptions C85_note.
Theorem C85_controller : forall en h t b e m, is_bytes b -> mk_event en KController 223 b = Ok e -> filter (fun e => e_id e =? 223) (events h t) = e :: m ->
  exists r, elements h t 223 = Ok (map (ItModel r) (seq 0 (length b / 12))) /\
    forall i, (i < length b / 12)%nat ->
      controller_str h (TItem r i) = Ok [Lit "Controller @ "; Str (VInt (u_le (S_Layout.slice b (i * 12) 4))); Lit " of channel #"; Str (VInt (u_le (S_Layout.slice b (i * 12 + 6) 1)))].
Proof.
  intros en h t b e m Hb HM F. destruct (C73_elements en h t b e m KController 223 12 _ ek_controllers Hb HM F) as (r & E & EV & _ & G).
  exists r. split; [exact E|]. intros i L.
  assert (T : forall n o z, In (n, (o, z)) controller_numbers -> tg_get h (TItem r i) n = Ok (VInt (u_le (S_Layout.slice b (i * 12 + o) z)))) by (intros n o z I; exact (G i L n o z I)).
  unfold controller_str. rewrite (T "position" 0%nat 4%nat), (T "channel" 6%nat 1%nat) by (cbn [In controller_numbers]; tauto).
  now rewrite Nat.add_0_r.
Qed.
Print Assumptions C85_controller.

(* Channels: the class, the name shown and the number. *)
Theorem C85_channel : forall en f p h t class, is_bytes f -> parse en f = Ok p -> views (parsed (pr_events p)) h -> (t < nt h)%nat ->
  exists n, display_name en h t = Ok n /\
    channel_repr en h class t = Ok [Lit class; Lit " (name="; Rep n; Lit ", iid="; Str (or_none (value_of 64 (events h t))); Lit ")"].
Proof.
  intros en f p h t class B P V L.
  assert (X : exists n, display_name en h t = Ok n).
  { destruct (C78_name en f p h t B P V L) as [(a & s & _ & E)|[_ E]]; [eauto|]. destruct (value_of 201 (events h t)); [destruct E as (s & _ & E)|]; eauto. }
  destruct X as (n & E). exists n. split; [exact E|]. unfold channel_repr. rewrite E, ev_get_value. reflexivity.
Qed.
Print Assumptions C85_channel.

(* a file with a pattern of two notes, a marker and the name of a score *)
Definition print_file : bytes := sample [(199, ver20); (64, [0; 0]); (65, [3; 0]); (193, [65; 0; 0; 0]); (224, repeat 0 12 ++ [60; 0] ++ repeat 0 10 ++ repeat 0 24); (148, [96; 0; 0; 8]); (33, [3]); (34, [4]); (205, [66; 0; 0; 0])]%list.
Example C85_case : is_bytes print_file /\ exists p, parse en0 print_file = Ok p /\ exists v, project_str (opened p) = Ok (str "FL Studio v" ++ v ++ str " Project")%list /\ v <> [] /\
  pattern_repr en0 (parsed (pr_events p)) 0 =
    Ok [Lit "Pattern(iid="; Str (VInt 3); Lit ", name="; Rep (VStr [65]); Lit ","; Str (VInt 2); Lit " notes, "; Str (VInt 0); Lit " controllers)"] /\
  marker_str en0 (parsed (pr_events p)) 0 = Ok [Lit "Signature "; Rep (VStr [66]); Lit " ("; Str (VInt 3); Lit "/"; Str (VInt 4); Lit ") @ "; Rep (VInt 96)] /\
  note_str (parsed (pr_events p)) (TItem 4 0) = Ok [Str (VStr (str "C5")); Lit " note @ "; Str (VInt 0); Lit " of "; Str (VInt 0)].
Proof.
  split; [apply sample_ok; vm_compute; reflexivity|]. exists (load print_file). split; [vm_compute; reflexivity|]. exists (ver_text [20; 8; 3]). split; [vm_compute; reflexivity|]. split; [vm_compute; discriminate|].
  split; [vm_compute; reflexivity|]. split; [vm_compute; reflexivity|]. vm_compute. reflexivity.
Qed.
