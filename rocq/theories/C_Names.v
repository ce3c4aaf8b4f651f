(* C79 properties are named for what they read. *)
From Coq Require Import String ZArith List Bool Lia Arith.
From Verif Require Import M_Base M_Float M_Text M_Construct M_Structs M_Events M_Parse M_Tree M_Prop M_Api.
From Verif Require Import S_Canon S_File S_Tree S_Prop S_Api.
From Verif Require Import P_Base P_Codec P_Special P_TreeBase P_Tree P_TreeEdit P_Prop P_Edit P_Session P_Api P_Nested.
From Verif Require Import S_Names.
From Verif Require Import C_Samples C_Api.
Import ListNotations.
Local Open Scope string_scope.
Open Scope Z_scope.

Definition named_forb (c n x : string) : bool := String.eqb (snake x) n || existsb (fun r => String.eqb (fst (fst r)) c && String.eqb (snd (fst r)) n && String.eqb (snd r) (snake x)) renamed.
Lemma named_forb_ok c n x : named_forb c n x = true -> named_for c n x.
Proof.
  unfold named_forb, named_for. intros H. apply orb_prop in H. destruct H as [H|H]; [left; now apply String.eqb_eq|]. right.
  apply existsb_exists in H. destruct H as ([[a b] d] & I & H). cbn [fst snd] in H. apply andb_prop in H. destruct H as [H H3]. apply andb_prop in H. destruct H as [H1 H2].
  apply String.eqb_eq in H1, H2, H3. now subst.
Qed.
Definition find_member (l : list (string * list (string * Z))) (es : list string) (i : Z) (f : string -> bool) : bool :=
  existsb (fun r => existsb (String.eqb (fst r)) es && existsb (fun x => (snd x =? i) && f (fst x)) (snd r)) l.
Lemma find_member_ok l es i f : find_member l es i f = true -> exists e x, In e es /\ member_of l e x i /\ f x = true.
Proof.
  unfold find_member. intros H. apply existsb_exists in H. destruct H as ([e ms] & I & H). cbn [fst snd] in H. apply andb_prop in H. destruct H as [H1 H2].
  apply existsb_exists in H1. destruct H1 as (e' & J & E). apply String.eqb_eq in E. subst e'. apply existsb_exists in H2. destruct H2 as ([x j] & K & H2). cbn [fst snd] in H2.
  apply andb_prop in H2. destruct H2 as [Q F]. exists e, x. split; [exact J|]. split; [|exact F]. exists ms. split; [exact I|]. assert (j = i) by lia. now subst.
Qed.
Definition row_ok (x : string * string * prop) : bool :=
  let '(c, n, pr) := x in
  match p_kind pr with
  | PEvent => match p_ids pr with [] => false | _ => true end && forallb (fun id => find_member event_names (enums_of c) id (named_forb c n)) (p_ids pr)
  | PStruct mem => String.eqb (last_part mem) n
  | PFlag mem f mask inv => String.eqb (last_part mem) "flags" && (mask =? all_flags (flags_of c)) && find_member flag_names [flags_of c] f (named_forb c n)
  end.
Lemma rows_ok : forallb row_ok api = true.
Proof. vm_compute. reflexivity. Qed.

(* every declared property: an event property reads events of its class's enumerations whose
   members have its name; a property of a record the member with its name; a flag property the
   bit with its name, known among exactly the bits of its enumeration - but for the 29
   properties listed in [renamed] *)
Theorem C79_names : forall c n pr, In ((c, n), pr) api ->
  match p_kind pr with
  | PEvent => p_ids pr <> [] /\ forall id, In id (p_ids pr) -> exists e x, In e (enums_of c) /\ member_of event_names e x id /\ named_for c n x
  | PStruct mem => last_part mem = n
  | PFlag mem f mask inv => last_part mem = "flags" /\ mask = all_flags (flags_of c) /\ exists x, member_of flag_names (flags_of c) x f /\ named_for c n x
  end.
Proof.
  intros c n pr I. pose proof rows_ok as R. rewrite forallb_forall in R. specialize (R _ I). unfold row_ok in R. destruct (p_kind pr) as [|mem|mem f mask inv].
  - apply andb_prop in R. destruct R as [NE R]. split; [intros E; now rewrite E in NE|]. intros id J. rewrite forallb_forall in R. specialize (R _ J).
    destruct (find_member_ok _ _ _ _ R) as (e & x & E & M & F). exists e, x. split; [exact E|]. split; [exact M|now apply named_forb_ok].
  - now apply String.eqb_eq.
  - apply andb_prop in R. destruct R as [R F]. apply andb_prop in R. destruct R as [L M]. apply String.eqb_eq in L. split; [exact L|]. split; [lia|].
    destruct (find_member_ok _ _ _ _ F) as (e & x & [<-|[]] & ME & Q). exists x. split; [exact ME|now apply named_forb_ok].
Qed.
Print Assumptions C79_names.

(* what a property reads from: the event its ids choose, the only event of the model, or the
   element of a list *)
Inductive source (h : heap) : model -> list Z -> val -> Prop :=
| SEvent t ids k e : ids <> [] -> chosen ids (events h t) (Some k) -> nth_error (events h t) k = Some e -> source h (EvModel t) ids (e_val e)
| SOne t e : events h t = [e] -> source h (EvModel t) [] (e_val e)
| SItem r i ids v : nth_error (items (ev_of h r)) i = Some v -> source h (ItModel r i) ids v.
Lemma source_target h m ids s g : source h m ids s -> get_event h ids m = Ok (Some g) ->
  match g with TEvent r => s = e_val (ev_of h r) | TItem r i => nth_error (items (ev_of h r)) i = Some s end.
Proof.
  intros S G. destruct S as [t ids k e NE C N|t e E|r i ids v N].
  - destruct (found h t ids NE) as [(k' & c & C' & N' & G' & X & _)|[C' G']]; [|congruence]. rewrite G' in G. injection G as <-. pose proof (chosen_fun _ _ _ C _ C') as Q. injection Q as <-. rewrite X in N. now injection N as <-.
  - cbn [get_event] in G. unfold events in E. destruct (lst_of h t) as [|c [|c2 l]]; try discriminate. cbn [map] in E. injection E as <-. injection G as <-. reflexivity.
  - cbn [get_event] in G. injection G as <-. exact N.
Qed.

(* what is read: the value of the event; the member of the record; whether all bits of the
   flag are set (not set, for an inverted one), None where the flags are absent *)
Theorem C79_value : forall en f p h c hm n pr m s, is_bytes f -> parse en f = Ok p -> views (parsed (pr_events p)) h ->
  In (c, hm) homes -> In (n, pr) (properties_of c) -> ~ In (c, n) broken -> at_home h hm m -> source h m (p_ids pr) s ->
  match p_kind pr with
  | PEvent => prop_get en h m pr = Ok s
  | PStruct mem => exists d v, s = VDict d /\ dget d mem = Some v /\ prop_get en h m pr = Ok v
  | PFlag mem fl mask inv => exists w, (s = w \/ exists d, s = VDict d /\ dget d mem = Some w) /\
      ((w = VNone /\ prop_get en h m pr = Ok VNone) \/
       exists z, number w z /\ prop_get en h m pr = Ok (VBool (xorb inv (Z.land z fl =? fl))))
  end.
Proof.
  intros en f p h c hm n pr m s B P V C I NB AH S. pose proof (load_made _ _ _ _ B P V) as LD. destruct (table_row _ _ _ _ C I NB) as [R _].
  destruct (home_target _ _ _ _ _ _ LD AH R) as [(g & GE & GT & PR)|[GE NP]].
  - rewrite (good_prop_get _ _ _ _ _ GE). pose proof (source_target _ _ _ _ _ S GE) as SV. destruct GT as [T G].
    assert (MEM : forall mem v, tg_get h g mem = Ok v -> exists d, s = VDict d /\ dget d mem = Some v).
    { intros mem v E. destruct g as [r|r i]; cbn [tg_get] in E.
      - unfold struct_get in E. destruct (is_struct_kind _); [|discriminate]. rewrite SV. destruct (e_val (ev_of h r)) as [| | | | | | | | |d]; try discriminate.
        exists d. split; [reflexivity|]. unfold dindex in E. destruct (dget d mem); congruence.
      - rewrite SV in E. destruct s as [| | | | | | | | |d]; try discriminate. exists d. split; [reflexivity|]. unfold dindex in E. destruct (dget d mem); congruence. }
    destruct (p_kind pr) as [|mem|mem fl mask inv]; cbn [target_read].
    + destruct G as [r ->]. now rewrite SV.
    + destruct G as [v E]. destruct (MEM _ _ E) as (d & SD & D). exists d, v. now rewrite E.
    + destruct G as [GF (w & E & Q)]. exists w. split.
      { unfold flags_get in E. destruct (has_items h g); [right; now apply MEM|]. left. destruct g; [|discriminate]. congruence. }
      rewrite E. cbn [bind]. destruct Q as [->|Q]; [left; split; reflexivity|]. right. destruct Q as (z & NZ & PZ). exists z. split; [exact NZ|].
      assert (AI : as_int w = Some z) by (destruct NZ as [->|[->|(b & -> & ->)]]; [reflexivity|reflexivity|destruct b; reflexivity]).
      assert (NR : intflag_norm (en_py311 en) mask z = z) by (destruct (en_py311 en); [apply norm_nonneg; [apply GF|auto]|reflexivity]).
      unfold flag_in. rewrite AI, NR. destruct w; try discriminate; reflexivity.
  - exfalso. apply NP. destruct S as [t ids k e NE CH N|t e E|r i ids v N]; cbn [present]; [|now left|exact Logic.I]. right. exists e. split; [eapply nth_error_In; exact N|].
    inversion CH as [ids1 id ids2 k' e' EI N1 NK ID FST E0|]; subst. rewrite N in NK. injection NK as <-. apply in_or_app. right. now left.
Qed.
Print Assumptions C79_value.

Definition all_members : list (Z * (string * string)) := flat_map (fun r => map (fun y => (snd y, (fst r, fst y))) (snd r)) event_names.
Lemma member_all e x i : member_of event_names e x i <-> In (i, (e, x)) all_members.
Proof.
  unfold all_members, member_of. rewrite in_flat_map. split.
  - intros (ms & I & J). exists (e, ms). split; [exact I|]. apply in_map_iff. exists (x, i). now split.
  - intros ([e' ms] & I & J). apply in_map_iff in J. destruct J as ([x' i'] & E & J). cbn [fst snd] in *. injection E as -> -> ->. now exists ms.
Qed.
Fixpoint distinct_Z (l : list Z) : bool := match l with [] => true | x :: r => negb (existsb (Z.eqb x) r) && distinct_Z r end.
Lemma distinct_keys {A} : forall (l : list (Z * A)), distinct_Z (map fst l) = true -> forall i a b, In (i, a) l -> In (i, b) l -> a = b.
Proof.
  assert (N : forall (l : list (Z * A)) i a, In (i, a) l -> existsb (Z.eqb i) (map fst l) = true).
  { intros l i a I. apply existsb_exists. exists i. split; [|apply Z.eqb_refl]. apply in_map_iff. exists (i, a). now split. }
  induction l as [|[j c] l IH]; [intros _ i a b []|]. cbn [map fst distinct_Z]. intros H. apply andb_prop in H. destruct H as [H1 H2].
  intros i a b [E|I] [F|J].
  - congruence.
  - injection E as -> ->. rewrite (N _ _ _ J) in H1. discriminate.
  - injection F as -> ->. rewrite (N _ _ _ I) in H1. discriminate.
  - exact (IH H2 _ _ _ I J).
Qed.
Lemma ids_unique : forall e x e' x' i, member_of event_names e x i -> member_of event_names e' x' i -> e = e' /\ x = x'.
Proof.
  intros e x e' x' i A B. apply member_all in A, B. assert (D : distinct_Z (map fst all_members) = true) by (vm_compute; reflexivity).
  pose proof (distinct_keys _ D _ _ _ A B) as E. injection E as -> ->. now split.
Qed.
Lemma same_Z (a b : list Z) : forallb (fun i => existsb (Z.eqb i) b) a = true -> forall i, In i a -> In i b.
Proof. intros H i I. rewrite forallb_forall in H. specialize (H _ I). apply existsb_exists in H. destruct H as (j & J & E). apply Z.eqb_eq in E. now subst. Qed.

(* No two members of the enumerations share an id, and the events with a meaning are exactly
   those the enumerations list. *)
Theorem C79_ids : (forall e x e' x' i, member_of event_names e x i -> member_of event_names e' x' i -> e = e' /\ x = x') /\
  forall en i, (exists t k, In t (enum_tables en) /\ In (i, k) t) <->
    exists e x, member_of event_names e x i /\ (en_ctrl en = false -> e <> "ControllerID").
Proof.
  split; [exact ids_unique|]. intros en i.
  assert (LEFT : (exists t k, In t (enum_tables en) /\ In (i, k) t) <-> In i (flat_map (map fst) (enum_tables en))).
  { rewrite in_flat_map. split.
    - intros (t & k & T & I). exists t. split; [exact T|]. apply in_map_iff. exists (i, k). now split.
    - intros (t & T & I). apply in_map_iff in I. destruct I as ([j k] & <- & I). now exists t, k. }
  rewrite LEFT. clear LEFT.
  assert (RIGHT : (exists e x, member_of event_names e x i /\ (en_ctrl en = false -> e <> "ControllerID")) <->
                  In i (map fst (filter (fun r => en_ctrl en || negb (String.eqb (fst (snd r)) "ControllerID")) all_members))).
  { rewrite in_map_iff. split.
    - intros (e & x & M & N). exists (i, (e, x)). split; [reflexivity|]. apply filter_In. split; [now apply member_all|]. cbn [fst snd]. destruct (en_ctrl en); [reflexivity|]. cbn [orb].
      destruct (String.eqb_spec e "ControllerID"); [exfalso; now apply N|reflexivity].
    - intros ([j [e x]] & <- & I). apply filter_In in I. destruct I as [I F]. cbn [fst snd] in *. exists e, x. split; [now apply member_all|]. intros E. rewrite E in F. cbn [orb] in F.
      intros ->. discriminate. }
  rewrite RIGHT. clear RIGHT. unfold enum_tables. destruct (en_ctrl en).
  - split; apply same_Z; vm_compute; reflexivity.
  - split; apply same_Z; vm_compute; reflexivity.
Qed.
Print Assumptions C79_ids.

Example C79_case : snake "_FitToSteps" = "fit_to_steps" /\ snake "IsEnabled" = "is_enabled" /\ last_part "fx.start" = "start" /\
  (exists pr, In (("Channel", "enabled"), pr) api /\ p_kind pr = PEvent /\ named_for "Channel" "enabled" "IsEnabled") /\
  is_bytes api_file /\ parse en0 api_file = Ok api_p /\ views (parsed (pr_events api_p)) api_h /\
  (exists pr s, In ("generator", pr) (properties_of "_PluginBase") /\ at_home api_h HTree (EvModel 0) /\ source api_h (EvModel 0) (p_ids pr) s /\
     prop_get en0 api_h (EvModel 0) pr = Ok (VBool false)) /\
  (exists pr s, In ("length", pr) (properties_of "Note") /\ at_home api_h (HItems KNotes) (ItModel 6 0) /\ source api_h (ItModel 6 0) (p_ids pr) s /\
     prop_get en0 api_h (ItModel 6 0) pr = Ok (VInt 96)).
Proof.
  split; [reflexivity|]. split; [reflexivity|]. split; [reflexivity|]. split.
  { exists (MkProp [0] VNone false PEvent). split; [unfold api; repeat first [left; reflexivity|right]|]. split; [reflexivity|]. right. cbn [renamed In]. tauto. }
  destruct C76_case as (B & P & V & _). split; [exact B|]. split; [exact P|]. split; [exact V|]. split.
  - exists (MkProp [212] VNone false (PFlag "flags" 16 197623 false)). eexists. split; [vm_compute; tauto|]. split; [constructor; apply Nat.ltb_lt; vm_compute; reflexivity|]. split; [|vm_compute; reflexivity].
    eapply (SEvent _ _ _ 3%nat); [discriminate| |vm_compute; reflexivity]. eapply (ch_some _ _ [] 212 [] 3%nat); [reflexivity|intros ? _ []|vm_compute; reflexivity|reflexivity|].
    intros j e' L N. destruct j as [|[|[|j]]]; [vm_compute in N; injection N as <-; discriminate..|lia].
  - exists (MkProp [] VNone false (PStruct "length")). eexists. split; [vm_compute; tauto|]. split; [constructor; [apply Nat.ltb_lt| |apply Nat.ltb_lt]; vm_compute; reflexivity|]. split; [|vm_compute; reflexivity].
    apply SItem. vm_compute. reflexivity.
Qed.
