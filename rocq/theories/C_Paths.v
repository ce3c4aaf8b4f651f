(* C70 sample path of a channel, data path of a project. *)
From Coq Require Import String ZArith List Bool Lia Arith.
From Verif Require Import M_Base M_Float M_Text M_Construct M_Structs M_Events M_Parse M_Tree M_Prop M_Project M_Items M_Collections M_Models.
From Verif Require Import S_Canon S_File S_Domain S_Tree S_Prop S_Project S_Items S_Collections S_Models.
From Verif Require Import P_Base P_TreeBase P_Tree P_TreeEdit P_Prop P_Edit P_EditStruct P_Project P_Puts P_File P_Header P_Items P_Patterns P_Session P_Models.
From Verif Require Import C_Samples C_Prop C_Session.
Import ListNotations.
Open Scope Z_scope.

Lemma no_name_slash w : no_name w -> ~ In 47 w.
Proof. intros [-> | ->]; [intros []|intros [X|[]]; discriminate X]. Qed.
Lemma is_part_name w : ~ In 47 w -> (is_part w = true <-> plain_name w) /\ (is_part w = false <-> no_name w).
Proof.
  intros N. unfold plain_name, no_name. destruct w as [|c [|c2 w]]; cbn [is_part].
  - split; split; intros H; try discriminate; try reflexivity; [now destruct H|now left].
  - destruct (Z.eqb_spec c 46) as [->|NE]; cbn [negb]; (split; split; intros H); try discriminate; try reflexivity.
    + destruct H as (_ & H & _). congruence.
    + now right.
    + split; [discriminate|]. split; [congruence|exact N].
    + destruct H as [H|H]; [discriminate|congruence].
  - split; split; intros H; try discriminate; try reflexivity; [|destruct H; discriminate]. split; [discriminate|]. split; [discriminate|exact N].
Qed.
Lemma split_word w : ~ In 47 w -> split_slash w = [w].
Proof.
  induction w as [|c w IH]; intros N; cbn [split_slash]; [reflexivity|]. destruct (Z.eqb_spec c slash) as [->|]; [exfalso; apply N; now left|].
  rewrite IH; [reflexivity|]. intros I. apply N. now right.
Qed.
Lemma split_app w s : ~ In 47 w -> split_slash (w ++ 47 :: s) = w :: split_slash s.
Proof.
  induction w as [|c w IH]; intros N; cbn [app split_slash]; [reflexivity|]. destruct (Z.eqb_spec c slash) as [->|]; [exfalso; apply N; now left|].
  rewrite IH; [reflexivity|]. intros I. apply N. now right.
Qed.
Lemma words_split s l : words s l -> filter is_part (split_slash s) = l.
Proof.
  intros W. induction W as [w N|w N|w s l N W IH|w s l N W IH].
  - pose proof (no_name_slash w N) as S. rewrite (split_word w S). cbn [filter]. apply (is_part_name w S) in N. now rewrite N.
  - pose proof (proj2 (proj2 N)) as S. rewrite (split_word w S). cbn [filter]. apply (is_part_name w S) in N. now rewrite N.
  - pose proof (no_name_slash w N) as S. rewrite (split_app w s S). cbn [filter]. apply (is_part_name w S) in N. now rewrite N.
  - pose proof (proj2 (proj2 N)) as S. rewrite (split_app w s S). cbn [filter]. apply (is_part_name w S) in N. now rewrite N, IH.
Qed.
Lemma slashes_repeat n s : (forall r, s <> 47 :: r) -> slashes (repeat 47 n ++ s) = n /\ skipn n (repeat 47 n ++ s) = s.
Proof.
  intros N. induction n as [|n [IH1 IH2]]; cbn [repeat app slashes skipn].
  - split; [|reflexivity]. destruct s as [|c s]; [reflexivity|]. cbn [slashes]. destruct (Z.eqb_spec c slash) as [->|]; [|reflexivity]. exfalso. now apply (N s).
  - split; [|exact IH2]. change (47 =? slash) with true. cbn iota. now rewrite IH1.
Qed.
Lemma says_path_of s r l : says s r l -> path_of s = Path r l.
Proof.
  intros [n w k W N]. unfold path_of. destruct (slashes_repeat n w N) as [-> ->]. rewrite (words_split _ _ W). destruct n as [|[|[|n]]]; reflexivity.
Qed.

(* Every text is some path ... *)
Lemma first_word s : (~ In 47 s) \/ exists w r, s = w ++ 47 :: r /\ ~ In 47 w.
Proof.
  induction s as [|c s IH]; [left; intros []|]. destruct (Z.eq_dec c 47) as [->|N]; [right; exists [], s; split; [reflexivity|intros []]|].
  destruct IH as [IH|(w & r & -> & IH)]; [left; intros [X|X]; [congruence|contradiction]|]. right. exists (c :: w), r. split; [reflexivity|]. intros [X|X]; [congruence|contradiction].
Qed.
Lemma words_ex : forall n s, (length s <= n)%nat -> exists l, words s l.
Proof.
  induction n as [|n IH]; intros s L; [destruct s; [|cbn in L; lia]; exists []; constructor; now left|].
  destruct (first_word s) as [N|(w & r & -> & N)]; [|rewrite app_length in L; cbn [length] in L; destruct (IH r ltac:(lia)) as (l & W)];
    destruct (is_part_name _ N) as [A B]; destruct (is_part _).
  - exists [s]. apply wo_last. now apply A.
  - exists []. apply wo_none. now apply B.
  - exists (w :: l). apply wo_name; [now apply A|exact W].
  - exists l. apply wo_skip; [now apply B|exact W].
Qed.
Lemma says_ex s : exists r l, says s r l.
Proof.
  assert (X : exists n w, s = repeat 47 n ++ w /\ forall r, w <> 47 :: r).
  { induction s as [|c s (n & w & E & N)]; [exists 0%nat, []; split; [reflexivity|discriminate]|].
    destruct (Z.eq_dec c 47) as [->|NE]; [exists (S n), w; rewrite E; split; [reflexivity|exact N]|]. exists 0%nat, (c :: s). split; [reflexivity|congruence]. }
  destruct X as (n & w & -> & N). destruct (words_ex (length w) w ltac:(lia)) as (l & W). exists (root_of n), l. now constructor.
Qed.
(* ... and only one *)
Lemma says_fun s r l r' l' : says s r l -> says s r' l' -> r = r' /\ l = l'.
Proof. intros A B. apply says_path_of in A, B. rewrite A in B. now injection B as <- <-. Qed.

(* the normal paths: those a text can say *)
Definition a_path (p : path) : Prop := (pa_root p <= 2)%nat /\ Forall plain_name (pa_parts p).
Lemma words_names s l : words s l -> Forall plain_name l.
Proof. induction 1; auto. Qed.
Lemma says_a_path s r l : says s r l -> a_path (Path r l).
Proof. intros [n w k W _]. split; [destruct n as [|[|[|n]]]; cbn; lia|now apply words_names in W]. Qed.
Lemma join_words : forall l, Forall plain_name l -> words (join_slash l) l.
Proof.
  induction l as [|w l IH]; intros F; [constructor; now left|]. inversion F as [|? ? F1 F2]; subst. cbn [join_slash]. destruct l as [|w2 l]; [now constructor|].
  apply wo_name; [exact F1|now apply IH].
Qed.
Lemma join_start l : Forall plain_name l -> forall r, join_slash l <> 47 :: r.
Proof.
  intros F r. destruct l as [|w l]; [discriminate|]. inversion F as [|? ? (NE & _ & NS) _]; subst. destruct w as [|c w]; [congruence|]. cbn [join_slash].
  assert (c <> 47) by (intros ->; apply NS; now left). destruct l; cbn [app]; congruence.
Qed.
Lemma path_text p : a_path p -> says (undot (path_str p)) (pa_root p) (pa_parts p).
Proof.
  intros [R F]. destruct p as [r l]. cbn [pa_root pa_parts] in *. pose proof (join_words l F) as W. pose proof (join_start l F) as S.
  assert (K : says (repeat 47 r ++ join_slash l) r l).
  { assert (E : root_of r = r) by (destruct r as [|[|[|r]]]; [reflexivity|reflexivity|reflexivity|lia]). rewrite <- E at 2. now constructor. }
  unfold path_str. cbn [pa_root pa_parts]. unfold slash. set (s := repeat 47 r ++ join_slash l) in *. destruct s as [|c s0] eqn:E; [exact K|].
  unfold undot, str_eqb. destruct (list_eq_dec Z.eq_dec (c :: s0) [46]) as [D|_]; [|exact K].
  exfalso. rewrite D in E. unfold s in E. destruct r as [|r]; [|discriminate E]. destruct l as [|w [|w2 l]]; [discriminate E| |].
  - cbn in E. inversion F as [|? ? (_ & N & _) _]; subst. congruence.
  - cbn [repeat app join_slash] in E. destruct w as [|c1 [|c2 w]]; discriminate E.
Qed.

(* Sample path and data path are the path that the stored text says, None without the event. *)
Definition path_id (b : bool) : Z := if b then 196 else 202.
Theorem C70_shown : forall b h t, (value_of (path_id b) (events h t) = None -> path_get h t (path_id b) = Ok None) /\
  forall s r l, value_of (path_id b) (events h t) = Some (VStr s) -> says s r l -> path_get h t (path_id b) = Ok (Some (Path r l)).
Proof.
  intros b h t. unfold path_get. rewrite contains_value, first_val_spec. split; [intros ->; reflexivity|]. intros s r l -> S. cbn [bind]. now rewrite (says_path_of _ _ _ S).
Qed.
Print Assumptions C70_shown.

(* Assigning the path p: it is shown afterwards; the event holds a text that says p - the empty
   one for the empty path - and nothing else in the project changes. *)
Theorem C70_sample : forall evs h t s p, evs <> [] -> session evs h -> (t < nt h)%nat -> value_of 196 (events h t) = Some (VStr s) -> a_path p ->
  exists h' j x, sample_path_set h t p = (h', Ok tt) /\ session evs h' /\ path_get h' t 196 = Ok (Some p) /\
    says x (pa_root p) (pa_parts p) /\ x <> [46] /\ changed 196 (VStr x) (root_events h) (root_events h') j /\ events h' t = put 196 (VStr x) (events h t).
Proof.
  intros evs h t s p NE S L V A. pose proof (path_text p A) as K. unfold sample_path_set, with_res, path_get. rewrite contains_value, first_val_spec, V. cbn [bind].
  destruct (session_set_first evs h t 196 (VStr (undot (path_str p))) NE S L ltac:(congruence)) as (h' & j & E & S' & _ & CH & EV & _).
  exists h', j, (undot (path_str p)). split; [exact E|]. split; [exact S'|]. rewrite contains_value, first_val_spec, EV, value_put, V. cbn [bind].
  rewrite (says_path_of _ _ _ K). split; [destruct p; reflexivity|]. split; [exact K|]. split; [|split; [exact CH|reflexivity]].
  unfold undot, str_eqb. destruct (list_eq_dec Z.eq_dec (path_str p) [46]); [discriminate|assumption].
Qed.
Print Assumptions C70_sample.
(* The same for the data path; a text may be assigned to it as well and is stored as it is,
   except "." which becomes the empty text. *)
Theorem C70_data : forall evs h v s r l, evs <> [] -> session evs h -> value_of 202 (events h 0) = Some (VStr s) ->
  match v with inl x => says x r l | inr p => a_path p /\ p = Path r l end ->
  exists h' j x, data_path_set h 0 v = (h', Ok tt) /\ session evs h' /\ path_get h' 0 202 = Ok (Some (Path r l)) /\
    says x r l /\ x <> [46] /\ (forall y, v = inl y -> y <> [46] -> x = y) /\ changed 202 (VStr x) (root_events h) (root_events h') j /\ events h' 0 = put 202 (VStr x) (events h 0).
Proof.
  intros evs h v s r l NE S V A. set (y := match v with inl s => s | inr p => path_str p end).
  assert (K : says (undot y) r l).
  { subst y. destruct v as [y|p]; [|destruct A as [A ->]; exact (path_text _ A)]. unfold undot, str_eqb. destruct (list_eq_dec Z.eq_dec y [46]) as [->|]; [|exact A].
    apply says_path_of in A. vm_compute in A. injection A as <- <-. apply (says_path 0 [] []); [constructor; now left|discriminate]. }
  assert (L : (0 < nt h)%nat). { destruct (Nat.lt_ge_cases 0 (nt h)) as [Y|Y]; [exact Y|]. exfalso. unfold events, lst_of, tree_of in V. rewrite nth_overflow in V by exact Y. discriminate V. }
  unfold data_path_set. rewrite contains_value, V. fold y.
  destruct (session_set_first evs h 0%nat 202 (VStr (undot y)) NE S L ltac:(congruence)) as (h' & j & E & S' & _ & CH & EV & _).
  exists h', j, (undot y). split; [exact E|]. split; [exact S'|]. unfold path_get. rewrite contains_value, first_val_spec, EV, value_put, V. cbn [bind].
  rewrite (says_path_of _ _ _ K). split; [reflexivity|]. split; [exact K|].
  split; [unfold undot, str_eqb; destruct (list_eq_dec Z.eq_dec y [46]); [discriminate|assumption]|].
  split; [|split; [exact CH|reflexivity]]. intros x -> N. subst y. cbn. unfold undot, str_eqb. destruct (list_eq_dec Z.eq_dec x [46]); [contradiction|reflexivity].
Qed.
Print Assumptions C70_data.
Theorem C70_none : forall h t p v, (value_of 196 (events h t) = None -> sample_path_set h t p = (h, Err PropertyCannotBeSet)) /\
  (value_of 202 (events h t) = None -> data_path_set h t v = (h, Err PropertyCannotBeSet)).
Proof. intros h t p v. unfold sample_path_set, data_path_set, path_get, with_res. rewrite !contains_value. split; intros ->; reflexivity. Qed.
Print Assumptions C70_none.

(* Saving and loading again: the file loads, the path is the one assigned, every other event is as
   before.  The names must be storable as text of that file: not ending in a NUL character. *)
Lemma set_first_prop en h t id v : contains h t id = true -> set_first h t id v = prop_set en h (EvModel t) (MkProp [id] VNone false PEvent) v.
Proof.
  intros C. unfold set_first, prop_set. cbn [p_readonly p_ids p_kind get_event first_of]. rewrite C. pose proof (contains_get_ie h t id) as G. rewrite C in G.
  destruct (get_ie h t [id]); [discriminate|reflexivity].
Qed.
Lemma value_filter id es v : value_of id es = Some v -> exists e m, filter (fun e => e_id e =? id) es = e :: m /\ e_val e = v.
Proof. rewrite value_of_filter. destruct (filter _ es) as [|e m]; [discriminate|]. intros [= <-]. eauto. Qed.
Lemma path_saved : forall b en f p h t e m y, is_bytes f -> parse en f = Ok p -> canonical_file en f ->
  views (parsed (pr_events p)) h -> (t < nt h)%nat ->
  filter (fun e => e_id e =? path_id b) (events h t) = e :: m -> domain (e_kind e) (VStr y) -> zlen f + 4 * zlen y + 10 < 2 ^ 32 ->
  exists h' f' p' j, set_first h t (path_id b) (VStr y) = (h', Ok tt) /\
    serialise en (Project (root_events h') (pr_channel_count p) (pr_format p) (pr_ppq p)) = Ok f' /\ parse en f' = Ok p' /\
    nth_error (pr_events p) j = Some e /\ reloaded (pr_events p) j (VStr y) (pr_events p').
Proof.
  intros b en f p h t e m y Hb H HC V L F D SZ. destruct (first_chosen_event _ _ _ _ F) as (k & CH & K).
  assert (EI : e_id e = path_id b) by (assert (I : In e (e :: m)) by (left; reflexivity); rewrite <- F in I; apply filter_In in I as [_ I]; now apply Z.eqb_eq).
  assert (SK : scalar_kind (e_kind e) = true) by (destruct (e_kind e); cbn in D; try reflexivity; destruct D).
  destruct (C25_event_property en f p h t [path_id b] VNone k e (VStr y) Hb H HC V L ltac:(discriminate) CH K ltac:(rewrite EI; destruct b; intros [X|X]; discriminate) SK D)
    as (h' & f' & p' & j & E & S & P & J & R & _); [cbn [room]; lia|].
  exists h', f', p', j. split; [|repeat (split; [assumption|]); assumption]. rewrite <- E. apply set_first_prop. destruct (first_event _ _ _ _ _ F) as (c & r & _ & _ & _ & C & _). exact C.
Qed.
(* the characters a text event of a file can hold: ASCII, or all but surrogates *)
Definition text_char (k : kind) (c : Z) : Prop := match k with KAscii => 0 <= c < 128 | KUnicode => scalar c | _ => False end.
Lemma join_in l c : In c (join_slash l) -> c = 47 \/ exists w, In w l /\ In c w.
Proof.
  induction l as [|w [|w2 l] IH]; [intros []|cbn [join_slash]; right; exists w; split; [now left|assumption]|]. intros I. change (In c (w ++ 47 :: join_slash (w2 :: l))) in I.
  apply in_app_or in I. destruct I as [I|[<-|I]]; [right; exists w; split; [now left|exact I]|now left|]. destruct (IH I) as [->|(x & X & Y)]; [now left|]. right. exists x. split; [now right|exact Y].
Qed.
Lemma path_domain k q : k = KAscii \/ k = KUnicode -> (forall w c, In w (pa_parts q) -> In c w -> text_char k c /\ c <> 0) -> domain k (VStr (undot (path_str q))).
Proof.
  intros K C. assert (X : forall c, In c (undot (path_str q)) -> text_char k c /\ c <> 0).
  { assert (SL : text_char k 47 /\ 47 <> 0) by (destruct K as [-> | ->]; cbn; unfold scalar; lia). intros c. unfold undot, str_eqb. destruct (list_eq_dec Z.eq_dec (path_str q) [46]) as [|N]; [intros []|].
    unfold path_str in *. destruct (repeat slash (pa_root q) ++ join_slash (pa_parts q)) as [|c0 s0] eqn:E; [congruence|]. rewrite <- E. intros I. apply in_app_or in I. destruct I as [I|I].
    - apply repeat_spec in I. subst c. exact SL.
    - destruct (join_in _ _ I) as [->|(w & W & CW)]; [exact SL|]. exact (C w c W CW). }
  set (s := undot (path_str q)) in *. clearbody s.
  assert (NT : no_trailing_nul s) by (intros t ->; destruct (X 0 ltac:(apply in_or_app; right; now left)) as [_ N]; congruence).
  destruct K as [-> | ->]; exists s; (split; [reflexivity|]); (split; [exact NT|]); apply Forall_forall; intros c I; exact (proj1 (X c I)).
Qed.
Lemma undot_length s : zlen (undot s) <= zlen s.
Proof. unfold undot, str_eqb. destruct (list_eq_dec Z.eq_dec s [46]) as [->|]; [vm_compute; discriminate|lia]. Qed.
Lemma text_kind en f p h t e m b : is_bytes f -> parse en f = Ok p -> canonical_file en f -> views (parsed (pr_events p)) h -> (t < nt h)%nat ->
  filter (fun e => e_id e =? path_id b) (events h t) = e :: m -> e_kind e = KAscii \/ e_kind e = KUnicode.
Proof.
  intros Hb H HC V L F. destruct (canonical_encodes en f p Hb H HC) as (cs & HE & _ & _ & _ & _ & _ & _ & NE).
  assert (I : In e (e :: m)) by (left; reflexivity). rewrite <- F in I. apply filter_In in I as [I EI]. apply Z.eqb_eq in EI.
  assert (IP : In e (pr_events p)) by (eapply in_view; [exact NE|exact V|exact L|exact I]).
  destruct (encodes_kind _ _ _ _ _ HE IP) as (pl & h0 & CL). rewrite EI in CL.
  assert (X : text_class ((path_id b, pl) :: h0) = Some (e_kind e)).
  { revert CL. generalize (e_kind e). intros k CL. rewrite <- CL. unfold class_of.
    replace (registered en (path_id b)) with (@None kind) by (unfold registered; destruct (en_ctrl en), b; vm_compute; reflexivity). destruct b; reflexivity. }
  eapply text_class_kind; eauto.
Qed.
Theorem C70_saved : forall en f p h t e m s q, is_bytes f -> parse en f = Ok p -> canonical_file en f ->
  views (parsed (pr_events p)) h -> (t < nt h)%nat ->
  filter (fun e => e_id e =? 196) (events h t) = e :: m -> e_val e = VStr s -> a_path q ->
  (forall w c, In w (pa_parts q) -> In c w -> text_char (e_kind e) c /\ c <> 0) -> zlen f + 4 * zlen (path_str q) + 10 < 2 ^ 32 ->
  exists h' f' p' j x, sample_path_set h t q = (h', Ok tt) /\
    serialise en (Project (root_events h') (pr_channel_count p) (pr_format p) (pr_ppq p)) = Ok f' /\ parse en f' = Ok p' /\
    nth_error (pr_events p) j = Some e /\ says x (pa_root q) (pa_parts q) /\ reloaded (pr_events p) j (VStr x) (pr_events p').
Proof.
  intros en f p h t e m s q Hb H HC V L F EV A C SZ. pose proof (undot_length (path_str q)) as UL.
  pose proof (text_kind en f p h t e m true Hb H HC V L F) as K.
  destruct (path_saved true en f p h t e m (undot (path_str q)) Hb H HC V L F (path_domain _ _ K C) ltac:(lia)) as (h' & f' & p' & j & E & S & P & J & R).
  exists h', f', p', j, (undot (path_str q)). split; [|split; [exact S|]; split; [exact P|]; split; [exact J|]; split; [now apply path_text|exact R]].
  destruct (first_event _ _ _ _ _ F) as (c & r & _ & _ & _ & CT & _ & VF). rewrite <- E. unfold sample_path_set, path_get, with_res. rewrite CT, first_val_spec, VF. rewrite EV. reflexivity.
Qed.
Print Assumptions C70_saved.
Theorem C70_saved_data : forall en f p h e m v r l, is_bytes f -> parse en f = Ok p -> canonical_file en f ->
  views (parsed (pr_events p)) h -> (0 < nt h)%nat ->
  filter (fun e => e_id e =? 202) (events h 0) = e :: m ->
  match v with
  | inl x => says x r l /\ (forall c, In c x -> text_char (e_kind e) c /\ c <> 0) /\ zlen f + 4 * zlen x + 10 < 2 ^ 32
  | inr q => q = Path r l /\ a_path q /\ (forall w c, In w l -> In c w -> text_char (e_kind e) c /\ c <> 0) /\ zlen f + 4 * zlen (path_str q) + 10 < 2 ^ 32
  end ->
  exists h' f' p' j x, data_path_set h 0 v = (h', Ok tt) /\
    serialise en (Project (root_events h') (pr_channel_count p) (pr_format p) (pr_ppq p)) = Ok f' /\ parse en f' = Ok p' /\
    nth_error (pr_events p) j = Some e /\ says x r l /\ reloaded (pr_events p) j (VStr x) (pr_events p').
Proof.
  intros en f p h e m v r l Hb H HC V L F A. pose proof (text_kind en f p h 0 e m false Hb H HC V L F) as K.
  set (y := match v with inl s => s | inr p => path_str p end). pose proof (undot_length y) as UL.
  assert (X : domain (e_kind e) (VStr (undot y)) /\ zlen f + 4 * zlen y + 10 < 2 ^ 32 /\ says (undot y) r l).
  { subst y. destruct v as [y|q].
    - destruct A as (S & C & SZ). split; [|split; [exact SZ|]].
      + assert (CU : forall c, In c (undot y) -> text_char (e_kind e) c /\ c <> 0) by (intros c; unfold undot, str_eqb; destruct (list_eq_dec Z.eq_dec y [46]); [intros []|apply C]).
        set (s := undot y) in *. clearbody s.
        assert (NT : no_trailing_nul s) by (intros t ->; destruct (CU 0 ltac:(apply in_or_app; right; now left)) as [_ N]; congruence).
        destruct K as [K|K]; rewrite K in *; exists s; (split; [reflexivity|]); (split; [exact NT|]); apply Forall_forall; intros c I; exact (proj1 (CU c I)).
      + unfold undot, str_eqb. destruct (list_eq_dec Z.eq_dec y [46]) as [->|]; [|exact S].
        apply says_path_of in S. vm_compute in S. injection S as <- <-. apply (says_path 0 [] []); [constructor; now left|discriminate].
    - destruct A as (-> & A & C & SZ). split; [apply path_domain; assumption|]. split; [exact SZ|]. exact (path_text _ A). }
  destruct X as (D & SZ & S).
  destruct (path_saved false en f p h 0 e m (undot y) Hb H HC V L F D ltac:(lia)) as (h' & f' & p' & j & E & SE & P & J & R).
  exists h', f', p', j, (undot y). split; [|split; [exact SE|]; split; [exact P|]; split; [exact J|]; split; [exact S|exact R]].
  destruct (first_event _ _ _ _ _ F) as (c & r0 & _ & _ & _ & CT & _ & VF). rewrite <- E. unfold data_path_set. now rewrite CT.
Qed.
Print Assumptions C70_saved_data.

(* --------------------------------------------------------------------- examples *)

Definition utext (s : pystr) : bytes := flat_map (fun c => [c; 0]) (s ++ [0]).
Definition path_chunks : list chunk := [(199, ver20); (64, [0; 0]); (196, utext (str "/a//b/./c.wav")); (202, utext (str "."))].
Definition path_file : bytes := sample path_chunks.
Definition path_h : heap := parsed (pr_events (load path_file)).
(* the path /a/b/c.wav is shown; assigning it back stores the text "/a/b/c.wav" *)
Definition path_q : path := Path 1 [str "a"; str "b"; str "c.wav"].
Example C70_case : is_bytes path_file /\ parse en0 path_file = Ok (load path_file) /\
  value_of 196 (events path_h 0) = Some (VStr (str "/a//b/./c.wav")) /\ says (str "/a//b/./c.wav") 1 [str "a"; str "b"; str "c.wav"] /\ a_path path_q /\
  path_get path_h 0 196 = Ok (Some path_q) /\ path_get path_h 0 202 = Ok (Some (Path 0 [])) /\
  (exists h', sample_path_set path_h 0 path_q = (h', Ok tt) /\ value_of 196 (events h' 0) = Some (VStr (str "/a/b/c.wav"))) /\
  (exists h', data_path_set path_h 0 (inr (Path 0 [])) = (h', Ok tt) /\ value_of 202 (events h' 0) = Some (VStr [])) /\
  (exists h', data_path_set path_h 0 (inl (str "//x/")) = (h', Ok tt) /\ value_of 202 (events h' 0) = Some (VStr (str "//x/")) /\ path_get h' 0 202 = Ok (Some (Path 2 [str "x"]))).
Proof.
  destruct (sample_ok path_chunks ltac:(vm_compute; reflexivity)) as [B _]. split; [exact B|]. split; [vm_compute; reflexivity|]. split; [vm_compute; reflexivity|].
  split.
  { apply (says_path 1 (str "a//b/./c.wav")); [|discriminate].
    assert (N : forall w, is_part w = true -> (forallb (fun c => negb (c =? 47)) w = true) -> plain_name w).
    { intros w P F. apply is_part_name; [|exact P]. intros I. rewrite forallb_forall in F. apply F in I. discriminate I. }
    apply (wo_name (str "a") (str "/b/./c.wav")); [apply N; reflexivity|]. apply (wo_skip [] (str "b/./c.wav")); [now left|]. apply (wo_name (str "b") (str "./c.wav")); [apply N; reflexivity|].
    apply (wo_skip (str ".") (str "c.wav")); [right; reflexivity|]. apply wo_last. apply N; reflexivity. }
  split. { split; [cbn; lia|]. repeat constructor; try discriminate; intros I; cbn in I; repeat (destruct I as [I|I]; [discriminate I|]); exact I. }
  split; [vm_compute; reflexivity|]. split; [vm_compute; reflexivity|].
  split; [eexists; split; vm_compute; reflexivity|]. split; [eexists; split; vm_compute; reflexivity|].
  eexists. split; [vm_compute; reflexivity|]. split; vm_compute; reflexivity.
Qed.
