(* Nested models of the property table; the declarations that do not work. *)
From Coq Require Import String ZArith List Bool Lia Arith.
From Verif Require Import M_Base M_Float M_Text M_Construct M_Structs M_Events M_Parse M_Tree M_Prop M_Api.
From Verif Require Import S_Canon S_File S_Tree S_Prop S_Layout S_Api.
From Verif Require Import P_Base P_Codec P_Payload P_File P_Special P_TreeBase P_Tree P_TreeEdit P_Prop P_Edit P_Session P_Rack P_Views P_Plugins P_Layout P_Struct P_Api.
Import ListNotations.
Open Scope Z_scope.

(* ------------------------------------------------------------------ nested models *)

Lemma filter_filter A (f g : A -> bool) l : (forall x, g x = true -> f x = true) -> filter g (filter f l) = filter g l.
Proof.
  intros H. induction l as [|x l IH]; [reflexivity|]. cbn [filter]. destruct (f x) eqn:F; cbn [filter].
  - now rewrite IH.
  - rewrite IH. destruct (g x) eqn:G; [|reflexivity]. rewrite (H x G) in F. discriminate.
Qed.
Lemma first_of_ie h t : forall ids, first_of h t ids = match find (fun id => contains h t id) ids with
  | Some id => match get_ie h t [id] with c :: _ => Some (ref_of h c) | [] => None end | None => None end.
Proof. induction ids as [|i ids IH]; [reflexivity|]. cbn [first_of find]. destruct (contains h t i); [reflexivity|exact IH]. Qed.

Lemma nested_spec h t ids h' u : ordered h t -> (t < nt h)%nat -> nested h t ids = (h', u) ->
  u = nt h /\ extends h h' /\ nt h' = S (nt h) /\ lst_of h' u = filter (fun c => mem_Z (id_of h c) ids) (lst_of h t) /\
  events h' u = filter (fun e => mem_Z (e_id e) ids) (events h t) /\
  (forall l, incl l ids -> get_event h' l (EvModel t) = get_event h l (EvModel t)) /\
  (forall l, l <> [] -> incl l ids -> get_event h' l (EvModel u) = get_event h' l (EvModel t)).
Proof.
  intros O L N. unfold nested in N. destruct (subtree_spec _ _ _ _ _ _ _ O N) as (-> & X & NT & LU & _).
  rewrite (select_plain h _ (fun e => mem_Z (e_id e) ids)) in LU by (intros e; cbn [snd yes]; now destruct (mem_Z (e_id e) ids)).
  split; [reflexivity|]. split; [exact X|]. split; [exact NT|]. split; [exact LU|].
  assert (LT : lst_of h' t = lst_of h t) by (unfold lst_of; now rewrite (extends_tree _ _ _ X L)).
  assert (EO : forall c, e_of h' c = e_of h c) by (intros c; now apply extends_e).
  assert (RO : forall c, ref_of h' c = ref_of h c) by (intros c; unfold ref_of, cell_of; destruct X as (_ & -> & _); reflexivity).
  assert (GI : forall l, incl l ids -> get_ie h' (nt h) l = get_ie h t l /\ get_ie h' t l = get_ie h t l).
  { intros l I. unfold get_ie. rewrite LU, LT. assert (Y : forall l', filter (fun c => mem_Z (id_of h' c) l) l' = filter (fun c => mem_Z (id_of h c) l) l').
    { intros l'. apply filter_ext. intros c. unfold id_of. now rewrite EO. }
    rewrite !Y. split; [|reflexivity]. rewrite filter_filter; [reflexivity|]. intros c M. unfold id_of in *. apply mem_Z_in. apply mem_Z_in in M. now apply I. }
  split.
  { unfold events. rewrite LU. erewrite map_ext by (intros; apply EO). clear. induction (lst_of h t) as [|c l IH]; [reflexivity|].
    cbn [filter map]. unfold id_of. destruct (mem_Z (e_id (e_of h c)) ids); cbn [map]; unfold id_of in IH; now rewrite IH. }
  assert (FO : forall l, incl l ids -> first_of h' (nt h) l = first_of h t l /\ first_of h' t l = first_of h t l).
  { induction l as [|i l IH]; intros I; [split; reflexivity|]. cbn [first_of]. rewrite !contains_get_ie.
    destruct (GI [i]) as [-> ->]; [intros z [<-|[]]; apply I; now left|]. destruct (IH ltac:(intros z Z; apply I; now right)) as [-> ->].
    destruct (get_ie h t [i]) as [|c r]; [split; reflexivity|]. rewrite RO. split; reflexivity. }
  split.
  - intros l I. cbn [get_event]. rewrite LT. destruct l as [|i l].
    + destruct (lst_of h t) as [|c [|]]; try reflexivity. now rewrite RO.
    + now rewrite (proj2 (FO _ I)).
  - intros l NL I. cbn [get_event]. destruct l as [|i l]; [congruence|]. destruct (FO _ I) as [-> ->]. reflexivity.
Qed.

Lemma extends_read en h h' p g : extends h h' -> target_read en h' p g = target_read en h p g.
Proof.
  intros X. assert (E : forall r, ev_of h' r = ev_of h r) by (intros r; unfold ev_of; destruct X as (-> & _); reflexivity).
  destruct p as [|n|n f mask inv], g as [r|r i]; cbn [target_read]; unfold flags_get; cbn [tg_get has_items]; now rewrite ?E.
Qed.

(* every nested model gets the events of all its properties *)
Definition nested_ok : bool :=
  forallb (fun x => let '(c, a, k, ids) := x in
    match home_of k with
    | HTree => forallb (fun q => match p_ids (snd q) with [] => false | _ => forallb (fun i => mem_Z i ids) (p_ids (snd q)) end) (properties_of k)
    | HOne id => (match ids with [i] => i =? id | _ => false end) && forallb (fun q => match p_ids (snd q) with [] => true | _ => false end) (properties_of k)
    | _ => false
    end) nested_api.
Lemma nested_fact : nested_ok = true.
Proof. vm_compute. reflexivity. Qed.

(* ------------------------------------------------------------------ directx *)

Lemma dec_step en f r bs : is_bytes bs -> exists v bs', is_bytes bs' /\ dec_fields en (f :: r) bs = (f_name f, v) :: dec_fields en r bs' /\
  (forall n, f = Opt n (TFlags 2) -> v = VNone \/ exists z, v = VEnum z /\ 0 <= z < 65536).
Proof.
  intros B. cbn [dec_fields]. destruct f as [n t|n t|n|n]; cbn [f_name].
  - destruct (if (ft_size t <=? length bs)%nat then ft_dec en t (firstn (ft_size t) bs) else None) as [v|].
    + exists v, (skipn (ft_size t) bs). split; [now apply is_bytes_skipn|]. split; [reflexivity|intros m X; discriminate X].
    + exists VNone, bs. split; [exact B|]. split; [reflexivity|intros m X; discriminate X].
  - destruct (if (ft_size t <=? length bs)%nat then ft_dec en t (firstn (ft_size t) bs) else None) as [v|] eqn:E.
    + exists v, (skipn (ft_size t) bs). split; [now apply is_bytes_skipn|]. split; [reflexivity|]. intros m X. injection X as _ ->. right.
      destruct (ft_size (TFlags 2) <=? length bs)%nat eqn:L; [|discriminate]. cbn [ft_dec] in E. injection E as <-. eexists. split; [reflexivity|].
      cbn [ft_size] in *. destruct bs as [|x [|y bs]]; try discriminate. apply is_bytes_cons in B. destruct B as [X B]. apply is_bytes_cons in B. destruct B as [Y _].
      cbn [firstn u_le fold_right]. unfold is_byte in *. lia.
    + exists VNone, bs. split; [exact B|]. split; [reflexivity|]. intros m X. now left.
  - exists VNone, bs. split; [exact B|]. split; [reflexivity|intros m X; discriminate X].
  - exists (VBytes bs), []. split; [constructor|]. split; [reflexivity|intros m X; discriminate X].
Qed.
Lemma wrapper_flags en id b e : is_bytes b -> mk_event en KWrapper id b = Ok e ->
  exists d, e_val e = VDict d /\ (dget d "flags" = Some VNone \/ exists z, dget d "flags" = Some (VEnum z) /\ 0 <= z < 65536).
Proof.
  intros B M. destruct (struct_event_dec en KWrapper id b e _ B M eq_refl) as (E & _ & _). rewrite E. clear M E. cbn [e_val]. eexists. split; [reflexivity|].
  match goal with |- context [dec_fields en (?f :: ?r) b] => destruct (dec_step en f r b B) as (v1 & b1 & B1 & E1 & _) end. rewrite E1.
  match goal with |- context [dec_fields en (?f :: ?r) b1] => destruct (dec_step en f r b1 B1) as (v2 & b2 & B2 & E2 & X) end. rewrite E2.
  change (dget (_ :: _) "flags") with (Some v2).
  destruct (X _ eq_refl) as [->|(z & -> & L)]; [now left|]. right. exists z. now split.
Qed.

(* ------------------------------------------------------------------ muted *)

Lemma struct_extra cx d n v : forall fs, Forall (fun f : string * con => forall cx d d' w, cbuild (snd f) (cx_with_fields cx d) w = cbuild (snd f) (cx_with_fields cx d') w) fs ->
  ~ In n (map fst fs) -> struct_build fs cx (dset d n v) = struct_build fs cx d.
Proof.
  induction 1 as [|[m c] fs F FS IH]; intros NI; [reflexivity|]. cbn [map fst In] in NI. cbn [struct_build snd] in *.
  rewrite dget_dset_other by (intros ->; apply NI; now left). rewrite IH by tauto.
  destruct (match dget d m with Some v0 => Ok v0 | None => if cnone c then Ok VNone else Err KeyError end) as [w|x]; [|reflexivity]. cbn [bind]. now rewrite (F cx (dset d n v) d).
Qed.
Lemma playlist_extra cx d n v : ~ In n (item_names KPlaylist) -> cbuild playlist_item cx (VDict (dset d n v)) = cbuild playlist_item cx (VDict d).
Proof.
  intros NI. unfold playlist_item. cbn [Struct cbuild]. apply struct_extra; [repeat constructor|exact NI].
Qed.
Lemma items_build_same c v v' : (forall cx, cbuild c cx v' = cbuild c cx v) -> forall vs i cx j, nth_error vs i = Some v ->
  items_build c cx j (lset vs i v') = items_build c cx j vs.
Proof.
  intros H. induction vs as [|x vs IH]; intros [|i] cx j N; try discriminate; cbn [lset items_build].
  - injection N as ->. now rewrite H.
  - now rewrite (IH i cx (j + 1) N).
Qed.

Lemma same_saved en h h' : h_cells h' = h_cells h -> h_trees h' = h_trees h ->
  (forall r, e_id (ev_of h' r) = e_id (ev_of h r) /\ payload en (ev_of h' r) = payload en (ev_of h r)) ->
  forall t a b c, serialise en (Project (events h' t) a b c) = serialise en (Project (events h t) a b c).
Proof.
  intros C T E t a b c.
  assert (X : exists l, events h' t = map (ev_of h') l /\ events h t = map (ev_of h) l).
  { exists (refs h t). rewrite !events_refs. split; [|reflexivity]. f_equal. unfold refs, ref_of, lst_of, cell_of, tree_of. now rewrite C, T. }
  destruct X as (l & -> & ->).
  assert (B : events_bytes en (map (ev_of h') l) = events_bytes en (map (ev_of h) l)).
  { induction l as [|r l IH]; [reflexivity|]. cbn [map events_bytes]. rewrite IH. unfold event_bytes. destruct (E r) as [-> ->]. reflexivity. }
  assert (N : count_id 64 (map (ev_of h') l) = count_id 64 (map (ev_of h) l)).
  { unfold count_id, zlen. clear B. induction l as [|r l IH]; [reflexivity|]. cbn [map filter]. rewrite (proj1 (E r)). destruct (e_id (ev_of h r) =? 64); cbn [length]; lia. }
  unfold serialise, num_channels. cbn [pr_events pr_format pr_ppq]. now rewrite B, N.
Qed.

Lemma playlist_member en h r i d n v : (r < length (h_evs h))%nat -> e_kind (ev_of h r) = KPlaylist -> nth_error (items (ev_of h r)) i = Some (VDict d) ->
  ~ In n (item_names KPlaylist) ->
  exists h', tg_set h (TItem r i) n v = (h', Ok tt) /\ tg_get h' (TItem r i) n = Ok v /\
    forall t a b c, serialise en (Project (events h' t) a b c) = serialise en (Project (events h t) a b c).
Proof.
  intros L K N NI. cbn [tg_set]. rewrite N. eexists. split; [reflexivity|].
  assert (S : tg_set h (TItem r i) n v = (set_event h r (set_items (ev_of h r) (lset (items (ev_of h r)) i (VDict (dset d n v)))), Ok tt)) by (cbn [tg_set]; now rewrite N).
  destruct (tg_set_spec _ _ _ _ _ _ (L : target_ok h (TItem r i)) S) as [(_ & x & X)|(w & O & G & _)]; [discriminate|]. split; [exact G|].
  destruct O as (OC & OT & _ & OO & _). apply (same_saved en h _ OC OT). intros s. destruct (Nat.eq_dec s r) as [->|NS]; [|now rewrite OO].
  assert (EV : ev_of (set_event h r (set_items (ev_of h r) (lset (items (ev_of h r)) i (VDict (dset d n v))))) r = set_items (ev_of h r) (lset (items (ev_of h r)) i (VDict (dset d n v)))).
  { unfold ev_of at 1, set_event. cbn [h_evs]. rewrite nth_lset, Nat.eqb_refl. apply Nat.ltb_lt in L. now rewrite L. }
  rewrite EV. clear EV G S. set (e := ev_of h r) in *. split; [unfold set_items, with_val; reflexivity|].
  unfold payload. unfold set_items, with_val. cbn [e_kind e_len e_new e_val]. rewrite K. cbn [kcon].
  unfold items in *. destruct (e_val e) as [| | | | | | |l| |dd] eqn:V; try (destruct i; discriminate N); [|].
  - destruct (list_usable e); [|destruct i; discriminate N]. unfold PlaylistS. cbn [GreedyRange cbuild seq_of bind].
    apply (items_build_same _ (VDict d)); [|exact N]. intros cx. now apply playlist_extra.
  - reflexivity.
Qed.
