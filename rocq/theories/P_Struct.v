(* Reading, saving and editing struct events. *)
From Coq Require Import String ZArith List Bool Lia Arith.
From Verif Require Import M_Base M_Float M_Text M_Construct M_Structs M_Events.
From Verif Require Import S_Canon S_Prop S_Layout P_Base P_Codec P_Float P_Text P_RT P_Cells P_Kinds P_Lists P_Payload P_Layout.
Import ListNotations.
Open Scope Z_scope.

Lemma dget_app_first d n v r : ~ In n (map fst d) -> dget (d ++ (n, v) :: r) n = Some v.
Proof.
  induction d as [|[m w] d IH]; intros H; cbn [app dget].
  - now rewrite String.eqb_refl.
  - destruct (String.eqb_spec m n) as [->|]; [exfalso; apply H; now left|]. apply IH. intros X. apply H. now right.
Qed.

Section Enc.
  Variables (P : ctx -> Prop) (en : env).
  Hypothesis Pf : forall cx d, P cx -> P (cx_with_fields cx d).

  (* one field that was read is written back *)
  Lemma field_back c t b v cx : cell_rt P c (ft_cell en t) -> reads_as P en c t -> ft_wf t = true ->
    (exists cx0, P cx0) -> is_bytes b -> length b = ft_size t -> ft_dec en t b = Some v -> c_ok (ft_cell en t) b = true ->
    P cx -> cbuild c cx v = Ok b.
  Proof.
    intros HC HR W (cx0 & P0) Hb L D K Hcx. specialize (HC cx0 b P0 Hb).
    assert (F : fits (ft_cell en t) b = true).
    { rewrite (fits_dec en t b W), L, Nat.leb_refl, <- L, firstn_all, D. reflexivity. }
    rewrite F in HC. destruct HC as (v' & E & B).
    pose proof (HR cx0 b [] v P0 Hb L D) as E'. rewrite app_nil_r in E'.
    assert (v' = v) by congruence. subst v'. specialize (B cx Hcx). unfold built in B.
    rewrite (ft_size_cell en t W), <- L, firstn_all in B.
    destruct (cbuild c cx v) as [o|e]; [|destruct B; congruence].
    destruct B as [_ B]. f_equal. now apply B.
  Qed.

  (* [d]: any dict that has the fields read from [b] *)
  Definition has (d : list (string * val)) (l : list (string * val)) : Prop :=
    forall n v, In (n, v) l -> dget d n = Some v.
  Lemma has_cons d n v l : has d ((n, v) :: l) -> dget d n = Some v /\ has d l.
  Proof. intros H. split; [apply H; now left|]. intros m w I. apply H. now right. Qed.

  Lemma enc_0 : forall fs tb, Forall2 (fld_ok P en) fs tb -> forallb f_wf tb = true ->
    wf_items (map (f_item en) tb) = true ->
    forall cx d b, P cx -> is_bytes b -> cut_at tb b 0 -> required tb 0 -> has d (dec_fields en tb b) ->
    struct_build fs cx d = Ok ((if catch_all tb then b else []) ++ repeat 0 (missing_flags tb 0)).
  Proof.
    induction 1 as [|[n c] f fs tb [Hn Hf] HF IH]; intros W WI cx d b Hcx Hb C Q HD; [reflexivity|].
    destruct (wf_tail en f tb WI) as [WI' TL]. cbn [forallb] in W. apply andb_true_iff in W as [W0 W].
    destruct (cut_0 f tb b C) as [Z C']. destruct (required_0 f tb Q) as [NQ Q'].
    cbn [fst snd] in *. subst n. cbn [struct_build]. unfold f_wf in W0.
    unfold missing_flags, catch_all. cbn [skipn filter existsb].
    destruct f as [n t|n t|n|n]; cbn [f_name f_type is_tail is_flag orb] in *.
    - exfalso. exact (NQ n t eq_refl).
    - destruct Hf as (c0 & -> & HC & HR & RJ & HN).
      destruct Z as [Z|Z]; unfold f_size in Z; cbn [f_type] in Z; [pose proof (ft_size_pos _ W0); lia|].
      cbn [dec_fields] in HD. replace (ft_size t <=? length b)%nat with false in HD by (symmetry; now apply Nat.leb_gt).
      apply has_cons in HD as [G HD]. rewrite G. cbn [bind Optional cbuild].
      rewrite (IH W WI' cx d b Hcx Hb C' Q' HD). cbn [bind].
      assert (NF : t <> TFlag -> none_fails c0) by (intros NE; destruct t; first [exact HN | congruence]).
      assert (FL : t = TFlag \/ t <> TFlag) by (destruct t; auto; right; discriminate).
      destruct FL as [->|NE].
      + cbn in HN. subst c0. cbn [Flag cbuild truthy bind length repeat]. cbn [ft_size] in Z.
        destruct b; [|cbn [length] in Z; lia]. unfold catch_all. destruct (existsb is_tail tb); reflexivity.
      + destruct (NF NE (cx_with_fields cx d)) as [x ->].
        destruct t; try congruence; reflexivity.
    - destruct Hf as (_ & HB & HN0). cbn [dec_fields] in HD. apply has_cons in HD as [G HD]. rewrite G. cbn [bind].
      rewrite HB by (apply Pf; exact Hcx). rewrite (IH W WI' cx d b Hcx Hb C' Q' HD). reflexivity.
    - rewrite (TL eq_refl) in *. inversion HF; subst. cbn [dec_fields] in HD. apply has_cons in HD as [G HD]. rewrite G. cbn [bind struct_build].
      assert (E : cbuild c (cx_with_fields cx d) (VBytes b) = Ok b) by (destruct Hf as [-> | ->]; reflexivity).
      rewrite E. reflexivity.
  Qed.

  Lemma enc_cut : forall fs tb, Forall2 (fld_ok P en) fs tb -> forallb f_wf tb = true ->
    wf_items (map (f_item en) tb) = true ->
    forall cx d b i, P cx -> is_bytes b -> cut_at tb b i -> readable en tb b i -> kept en tb b i -> required tb i ->
    has d (dec_fields en tb b) ->
    struct_build fs cx d = Ok ((if catch_all tb then b else firstn (offset tb i) b) ++ repeat 0 (missing_flags tb i)).
  Proof.
    induction 1 as [|[n c] f fs tb [Hn Hf] HF IH]; intros W WI cx d b i Hcx Hb C R K Q HD.
    - destruct C as (A & _). cbn [length] in A. replace i with O by lia. reflexivity.
    - destruct i as [|i].
      { rewrite offset_0. cbn [firstn]. eapply enc_0; try eassumption. now constructor. }
      destruct (wf_tail en f tb WI) as [WI' TL]. cbn [forallb] in W. apply andb_true_iff in W as [W0 W].
      destruct (cut_S f tb b i C) as [Z C']. pose proof (required_S _ _ _ Q) as Q'.
      destruct (readable_S en f tb b i R) as [R0 R']. destruct (kept_S en f tb b i K) as [K0 K'].
      cbn [fst snd] in *. subst n. cbn [struct_build]. unfold f_wf in W0.
      unfold missing_flags, catch_all. cbn [skipn existsb]. rewrite offset_S.
      specialize (IH W WI' cx d (skipn (f_size f) b) i Hcx (is_bytes_skipn _ _ Hb) C' R' K' Q').
      assert (J : is_tail f = false ->
        firstn (f_size f) b ++ (if catch_all tb then skipn (f_size f) b else firstn (offset tb i) (skipn (f_size f) b)) =
        if existsb is_tail tb then b else firstn (f_size f + offset tb i) b).
      { intros _. unfold catch_all. destruct (existsb is_tail tb); [apply firstn_skipn|].
        clear. rewrite <- (firstn_skipn (f_size f) b) at 3. rewrite firstn_app, firstn_firstn.
        rewrite Nat.min_r by lia. f_equal. rewrite firstn_length.
        destruct (Nat.le_gt_cases (f_size f) (length b)) as [G|G].
        - f_equal. lia.
        - rewrite skipn_all2 by lia. now rewrite !firstn_nil. }
      destruct f as [n t|n t|n|n]; cbn [f_name f_type is_tail orb] in *;
        try change (f_size (Req n t)) with (ft_size t) in *; try change (f_size (Opt n t)) with (ft_size t) in *;
        try specialize (R0 t eq_refl); try specialize (K0 t eq_refl).
      + destruct Hf as (FX & HC & HR & _). cbn [dec_fields] in HD. pose proof Z as Z'. apply Nat.leb_le in Z'. rewrite Z' in HD.
        destruct (ft_dec en t (firstn (ft_size t) b)) as [v|] eqn:D; [|congruence].
        apply has_cons in HD as [G HD]. rewrite G. cbn [bind].
        rewrite (field_back c t (firstn (ft_size t) b) v (cx_with_fields cx d) HC HR W0 ltac:(eauto) (is_bytes_firstn _ _ Hb) (firstn_length_le _ Z) D K0 (Pf _ _ Hcx)).
        rewrite (IH HD). cbn [bind]. rewrite app_assoc, J by reflexivity. reflexivity.
      + destruct Hf as (c0 & -> & HC & HR & RJ & HN). cbn [dec_fields] in HD. pose proof Z as Z'. apply Nat.leb_le in Z'. rewrite Z' in HD.
        destruct (ft_dec en t (firstn (ft_size t) b)) as [v|] eqn:D; [|congruence].
        apply has_cons in HD as [G HD]. rewrite G. cbn [bind Optional cbuild].
        rewrite (field_back c0 t (firstn (ft_size t) b) v (cx_with_fields cx d) HC HR W0 ltac:(eauto) (is_bytes_firstn _ _ Hb) (firstn_length_le _ Z) D K0 (Pf _ _ Hcx)).
        rewrite (IH HD). cbn [bind]. rewrite app_assoc, J by reflexivity. reflexivity.
      + destruct Hf as (_ & HB & HN0). cbn [dec_fields] in HD. apply has_cons in HD as [G HD]. rewrite G. cbn [bind].
        rewrite HB by (apply Pf; exact Hcx). rewrite (IH HD). reflexivity.
      + rewrite (TL eq_refl) in *. inversion HF; subst. cbn [dec_fields] in HD. apply has_cons in HD as [G HD]. rewrite G. cbn [bind struct_build].
        assert (E : cbuild c (cx_with_fields cx d) (VBytes b) = Ok b) by (destruct Hf as [-> | ->]; reflexivity).
        rewrite E. cbn [bind]. replace (skipn i (@nil field)) with (@nil field) by (destruct i; reflexivity). reflexivity.
  Qed.
End Enc.

Lemma NoDup_dget d : NoDup (map fst d) -> has d d.
Proof.
  induction d as [|[n v] d IH]; intros ND m w I; [destruct I|].
  cbn [map fst] in ND. inversion ND as [|? ? N1 N2]; subst. cbn [dget].
  destruct I as [[= -> ->]|I]; [now rewrite String.eqb_refl|].
  destruct (String.eqb_spec n m) as [->|]; [|now apply IH].
  exfalso. apply N1. apply (in_map fst) in I. exact I.
Qed.

(* ---------------------------------------------------------------- struct events *)

Section Event.
  Variables (en : env) (k : kind) (id : Z) (b : bytes) (e : event) (fs : list field).
  Hypothesis Hb : is_bytes b.
  Hypothesis HM : mk_event en k id b = Ok e.
  Hypothesis HL : layout (zlen b) k = Some fs.

  Lemma struct_event_dec : e = Event id k (zlen b) (new_of b) (VDict (dec_fields en fs b)) /\
    (exists r, leftover (map (f_item en) fs) b = Some r) /\ NoDup (map f_name fs).
  Proof.
    destruct (mk_event_inv _ _ _ _ _ HM) as (v & r & E & EE & _).
    destruct (layout_ok en (zlen b) (new_of b) k fs HL) as (cs & KC & F & NM & W & WI & FI).
    destruct (names_ok_spec _ NM) as [ND NE]. rewrite KC in E. cbn [Struct cparse] in E. inv_bind E. destruct x as [d r'].
    injection E as <- <-.
    assert (HI := flat_rt en (zlen b) (new_of b) k _ FI).
    pose proof (HI (mkctx en (zlen b) (new_of b) b) b (cxp_mk _ _ _ _) Hb) as X. rewrite KC in X.
    cbn [Struct cparse] in X. rewrite E0 in X. cbn [bind] in X.
    destruct (leftover (map (f_item en) fs) b) as [rest|] eqn:LO; [|destruct X; discriminate].
    pose proof (struct_dec (cxp en (zlen b) (new_of b)) en ltac:(auto) cs fs F W WI ND NE (mkctx en (zlen b) (new_of b) b) [] b rest (cxp_mk _ _ _ _) Hb ltac:(intros n []) LO) as SD.
    rewrite E0 in SD. cbn [app] in SD. injection SD as -> ->. split; [exact EE|]. split; [eauto|].
    assert (EN : map fst cs = map f_name fs).
    { clear - F. induction F as [|x y l l' [H _] F IH]; [reflexivity|]. cbn [map]. now rewrite H, IH. }
    now rewrite <- EN.
  Qed.

  Lemma struct_event_field i : cut_at fs b i -> readable en fs b i ->
    exists d, e_val e = VDict d /\ map fst d = map f_name fs /\
    forall m f, nth_error fs m = Some f ->
      exists v, nth_error d m = Some (f_name f, v) /\ field_value en fs b i m f = Some v /\ dget d (f_name f) = Some v.
  Proof.
    intros C R. destruct struct_event_dec as (-> & _ & ND). cbn [e_val]. eexists. split; [reflexivity|].
    destruct (layout_ok en (zlen b) (new_of b) k fs HL) as (cs & KC & F & NM & W & WI & FI).
    split; [apply dec_names|]. intros m f N.
    destruct (dec_nth en fs b i WI W C R m f N) as (v & V1 & V2). exists v. split; [exact V1|]. split; [exact V2|].
    apply NoDup_dget; [rewrite dec_names; exact ND|]. eapply nth_error_In; eauto.
  Qed.

  Lemma struct_event_saved i : cut_at fs b i -> readable en fs b i -> kept en fs b i ->
    payload en e = Ok ((if catch_all fs then b else firstn (offset fs i) b) ++ repeat 0 (missing_flags fs i)).
  Proof.
    intros C R K. destruct struct_event_dec as (-> & (r & LO) & ND).
    destruct (layout_ok en (zlen b) (new_of b) k fs HL) as (cs & KC & F & NM & W & WI & FI).
    unfold payload. cbn [e_kind e_len e_new e_val]. rewrite KC. cbn [Struct cbuild].
    eapply (enc_cut (cxp en (zlen b) (new_of b))); eauto.
    - eapply leftover_required; eauto.
    - apply NoDup_dget. now rewrite dec_names.
  Qed.
End Event.

(* ---------------------------------------------------------------- one field replaced *)

Lemma offset_le fs : forall m i f, nth_error fs m = Some f -> (m < i)%nat -> (offset fs m + f_size f <= offset fs i)%nat.
Proof.
  induction fs as [|g fs IH]; intros m i f N L; [destruct m; discriminate|].
  destruct i as [|i]; [lia|]. destruct m as [|m].
  - injection N as <-. rewrite offset_0, offset_S. lia.
  - rewrite !offset_S. specialize (IH m i f N ltac:(lia)). lia.
Qed.

Lemma splice_length b o c : (o + length c <= length b)%nat -> length (splice b o c) = length b.
Proof. intros H. unfold splice. rewrite !app_length, firstn_length, skipn_length. lia. Qed.
Lemma splice_same b o c : (o + length c <= length b)%nat -> slice (splice b o c) o (length c) = c.
Proof.
  intros H. unfold slice, splice. rewrite skipn_app, firstn_length, Nat.min_l by lia.
  rewrite skipn_all2 by (rewrite firstn_length; lia). rewrite Nat.sub_diag. cbn [skipn app].
  rewrite firstn_app, Nat.sub_diag, firstn_all. cbn [firstn]. apply app_nil_r.
Qed.
Lemma slice_splice b o c p n : (o + length c <= length b)%nat -> (p + n <= o \/ o + length c <= p)%nat ->
  slice (splice b o c) p n = slice b p n.
Proof.
  intros H D. unfold slice, splice. destruct D as [D|D].
  - rewrite <- (firstn_skipn o b) at 3. rewrite !skipn_app, !firstn_app.
    f_equal. rewrite !skipn_length, firstn_length, Nat.min_l by lia.
    replace (n - (o - p))%nat with O by lia. reflexivity.
  - rewrite !skipn_app. rewrite skipn_all2 by (rewrite firstn_length; lia).
    rewrite (skipn_all2 c) by (rewrite firstn_length; lia). cbn [app].
    rewrite skipn_skipn, firstn_length. do 2 f_equal. lia.
Qed.
Lemma skipn_splice b o c p : (o + length c <= length b)%nat -> (o + length c <= p)%nat -> skipn p (splice b o c) = skipn p b.
Proof.
  intros H D. unfold splice. rewrite !skipn_app. rewrite skipn_all2 by (rewrite firstn_length; lia).
  rewrite (skipn_all2 c) by (rewrite firstn_length; lia). cbn [app].
  rewrite skipn_skipn, firstn_length. f_equal. lia.
Qed.
Lemma is_bytes_splice b o c : is_bytes b -> is_bytes c -> is_bytes (splice b o c).
Proof.
  intros Hb Hc. unfold splice. rewrite !is_bytes_app.
  split; [now apply is_bytes_firstn|]. split; [exact Hc|now apply is_bytes_skipn].
Qed.

Lemma dset_nth d : forall n v, NoDup (map fst d) -> In n (map fst d) -> forall m x w, nth_error d m = Some (x, w) ->
  nth_error (dset d n v) m = Some (x, if String.eqb x n then v else w).
Proof.
  induction d as [|[y u] d IH]; intros n v ND I m x w N; [destruct m; discriminate|].
  cbn [map fst] in ND, I. inversion ND as [|? ? N1 N2]; subst. cbn [dset].
  destruct (String.eqb_spec y n) as [->|E].
  - destruct m as [|m].
    + injection N as -> ->. now rewrite String.eqb_refl.
    + cbn [nth_error] in *. rewrite N. destruct (String.eqb_spec x n) as [->|]; [|reflexivity].
      exfalso. apply N1. apply nth_error_In in N. apply (in_map fst) in N. exact N.
  - destruct I as [I|I]; [congruence|]. destruct m as [|m].
    + injection N as -> ->. apply String.eqb_neq in E. now rewrite E.
    + cbn [nth_error] in *. now apply IH.
Qed.
Lemma dset_len d n v : In n (map fst d) -> length (dset d n v) = length d.
Proof.
  induction d as [|[y u] d IH]; intros I; [destruct I|]. cbn [dset]. destruct (String.eqb_spec y n) as [->|E]; [reflexivity|].
  destruct I as [I|I]; [cbn [fst] in I; congruence|]. cbn [length]. now rewrite IH.
Qed.
Lemma nth_error_ext A (a b : list A) : length a = length b -> (forall i x, nth_error a i = Some x -> nth_error b i = Some x) -> a = b.
Proof.
  revert b. induction a as [|x a IH]; intros [|y b] L H; try discriminate; [reflexivity|].
  pose proof (H 0%nat x eq_refl) as X. injection X as ->. f_equal. apply IH; [cbn in L; lia|].
  intros i z N. exact (H (S i) z N).
Qed.

Lemma nodup_nth A (l : list A) i j x : NoDup l -> nth_error l i = Some x -> nth_error l j = Some x -> i = j.
Proof. intros ND A1 A2. eapply NoDup_nth_error; eauto; [apply nth_error_Some; congruence|congruence]. Qed.

Section Replace.
  Variables (en : env) (fs : list field) (b : bytes) (i m : nat) (f : field) (t : ftype) (c : bytes) (v : val).
  Hypothesis HC : cut_at fs b i.
  Hypothesis HR : readable en fs b i.
  Hypothesis HN : nth_error fs m = Some f.
  Hypothesis HT : f_type f = Some t.
  Hypothesis Hm : (m < i)%nat.
  Hypothesis Lc : length c = ft_size t.
  Hypothesis Dc : ft_dec en t c = Some v.

  Let b' := splice b (offset fs m) c.
  Lemma replace_room : (offset fs m + length c <= offset fs i)%nat.
  Proof. rewrite Lc, <- (f_size_type _ _ HT). now apply (offset_le fs m i f). Qed.
  Lemma replace_room' : (offset fs m + length c <= length b)%nat.
  Proof. pose proof replace_room. destruct HC as (_ & H0 & _). lia. Qed.
  Lemma replace_cut : cut_at fs b' i.
  Proof. pose proof replace_room'. unfold cut_at, b'. rewrite splice_length by assumption. exact HC. Qed.

  Lemma replace_slice j g u : nth_error fs j = Some g -> f_type g = Some u -> 
    slice b' (offset fs j) (ft_size u) = if (j =? m)%nat then c else slice b (offset fs j) (ft_size u).
  Proof.
    intros N T. pose proof replace_room'. destruct (Nat.eqb_spec j m) as [->|NE].
    - assert (g = f) by congruence. subst g. assert (u = t) by congruence. subst u.
      unfold b'. rewrite <- Lc. now apply splice_same.
    - unfold b'. apply slice_splice; [assumption|].
      destruct (Nat.lt_ge_cases j m) as [L|L].
      + left. rewrite <- (f_size_type _ _ T). now apply (offset_le fs j m g).
      + right. rewrite Lc, <- (f_size_type _ _ HT). apply (offset_le fs m j f); [exact HN|lia].
  Qed.
  Lemma replace_readable : readable en fs b' i.
  Proof.
    intros j g u L N T. rewrite (replace_slice j g u N T). destruct (Nat.eqb_spec j m) as [->|]; [|now apply (HR j g u)].
    assert (g = f) by congruence. subst g. assert (u = t) by congruence. subst u. congruence.
  Qed.
  Lemma replace_kept : kept en fs b i -> c_ok (ft_cell en t) c = true -> kept en fs b' i.
  Proof.
    intros K Kc j g u L N T. rewrite (replace_slice j g u N T). destruct (Nat.eqb_spec j m) as [->|]; [|now apply (K j g u)].
    assert (g = f) by congruence. subst g. assert (u = t) by congruence. now subst u.
  Qed.
  Lemma replace_value j g : nth_error fs j = Some g ->
    field_value en fs b' i j g = if (j =? m)%nat then Some v else field_value en fs b i j g.
  Proof.
    intros N. pose proof replace_room. pose proof replace_room'.
    destruct g as [n u|n u|n|n]; cbn [field_value].
    1,2: rewrite (replace_slice j _ u N eq_refl); destruct (Nat.eqb_spec j m) as [->|]; [|reflexivity];
         assert (Some u = Some t) by (rewrite <- HT; replace (Some f) with (nth_error fs m) in N by congruence; 
           assert (X : Some f = nth_error fs m) by congruence; rewrite N in X; injection X as ->; reflexivity);
         apply Nat.ltb_lt in Hm; rewrite Hm; congruence.
    - destruct (Nat.eqb_spec j m) as [->|]; [|reflexivity]. rewrite HN in N. injection N as ->. discriminate.
    - destruct (Nat.eqb_spec j m) as [->|]; [rewrite HN in N; injection N as ->; discriminate|].
      unfold b'. now rewrite skipn_splice.
  Qed.

  Lemma replace_dec : wf_items (map (f_item en) fs) = true -> forallb f_wf fs = true -> NoDup (map f_name fs) ->
    dec_fields en fs b' = dset (dec_fields en fs b) (f_name f) v.
  Proof.
    intros WI W ND.
    assert (I : In (f_name f) (map fst (dec_fields en fs b))).
    { rewrite dec_names. apply in_map. eapply nth_error_In; eauto. }
    assert (LD : forall x, length (dec_fields en fs x) = length fs).
    { intros x. rewrite <- (map_length fst), dec_names. apply map_length. }
    apply nth_error_ext; [rewrite dset_len by exact I; now rewrite !LD|].
    intros j [x w] N.
    assert (J : exists g, nth_error fs j = Some g).
    { destruct (nth_error fs j) as [g|] eqn:E; [eauto|]. apply nth_error_None in E.
      assert (j < length (dec_fields en fs b'))%nat by (apply nth_error_Some; congruence). rewrite LD in *. lia. }
    destruct J as [g G].
    destruct (dec_nth en fs b' i WI W replace_cut replace_readable j g G) as (w1 & A1 & B1).
    destruct (dec_nth en fs b i WI W HC HR j g G) as (w0 & A0 & B0).
    rewrite (replace_value j g G) in B1. rewrite A1 in N. injection N as <- <-.
    rewrite (dset_nth _ (f_name f) v ltac:(rewrite dec_names; exact ND) I j _ _ A0).
    destruct (Nat.eqb_spec j m) as [->|NE].
    - assert (g = f) by congruence. subst g. rewrite String.eqb_refl. congruence.
    - destruct (String.eqb_spec (f_name g) (f_name f)) as [E|]; [|congruence].
      exfalso. apply NE. apply (nodup_nth _ (map f_name fs) j m (f_name f) ND); rewrite nth_error_map.
      + rewrite G. cbn [option_map]. now rewrite E.
      + now rewrite HN.
  Qed.
End Replace.

(* The event after one field was given a value that [c] stands for is the event
   read from the payload with [c] in that field's place. *)
Lemma struct_event_edit en k id b e fs i m f t c v d :
  is_bytes b -> mk_event en k id b = Ok e -> layout (zlen b) k = Some fs ->
  cut_at fs b i -> readable en fs b i -> nth_error fs m = Some f -> f_type f = Some t -> (m < i)%nat ->
  is_bytes c -> length c = ft_size t -> ft_dec en t c = Some v -> e_val e = VDict d ->
  mk_event en k id (splice b (offset fs m) c) =
    Ok (Event id k (e_len e) (e_new e) (VDict (dset d (f_name f) v))).
Proof.
  intros Hb HM HL C R N T Lm Bc Lc Dc EV.
  destruct (struct_event_dec en k id b e fs Hb HM HL) as (EE & (r & LO) & ND).
  destruct (layout_ok en (zlen b) (new_of b) k fs HL) as (cs & KC & F & NM & W & WI & FI).
  pose proof (leftover_required en fs b i r WI W C R LO) as RQ.
  pose proof (replace_cut fs b i m f t c C N T Lm Lc) as C'.
  pose proof (replace_readable en fs b i m f t c v C R N T Lm Lc Dc) as R'.
  pose proof (leftover_cut en fs _ i WI W C' R' RQ) as LO'.
  assert (ZL : zlen (splice b (offset fs m) c) = zlen b).
  { unfold zlen. f_equal. apply splice_length. now apply (replace_room' fs b i m f t c). }
  destruct (mk_event_inv _ _ _ _ _ HM) as (v0 & r0 & _ & _ & HA & HW).
  assert (NW : new_of (splice b (offset fs m) c) = new_of b) by (unfold new_of; now rewrite ZL).
  unfold mk_event. rewrite ZL, NW.
  assert (VX : (match k, splice b (offset fs m) c with KVSTPlugin, [] => Err IndexError | _, _ => Ok tt end) = Ok tt).
  { destruct k; try reflexivity. discriminate HL. }
  rewrite VX. cbn [bind]. rewrite HA. cbn [negb].
  assert (SZ : (if id <? 192 then zlen b =? (if id <? 64 then 1 else if id <? 128 then 2 else 4) else true) = true).
  { destruct (Z.ltb_spec id 192) as [L|]; [|reflexivity]. specialize (HW L). lia. }
  rewrite SZ. cbn [negb]. rewrite KC. cbn [Struct cparse].
  destruct (names_ok_spec _ NM) as [ND' NE].
  rewrite (struct_dec (cxp en (zlen b) (new_of b)) en ltac:(auto) cs fs F W WI ND' NE (mkctx en (zlen b) (new_of b) (splice b (offset fs m) c)) [] (splice b (offset fs m) c) _ (cxp_mk _ _ _ _)
     (is_bytes_splice _ _ _ Hb Bc) ltac:(intros n []) LO').
  cbn [bind app]. subst e. cbn [e_len e_new e_val] in *. do 3 f_equal. injection EV as <-.
  f_equal. now apply (replace_dec en fs b i m f t c v).
Qed.
