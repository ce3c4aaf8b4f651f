(* The serialised payload equals the payload it was parsed from exactly when
   that payload is canonical, for every event class. *)
From Coq Require Import String ZArith List Bool Lia Arith.
From Verif Require Import M_Base M_Float M_Text M_Construct M_Structs M_Events.
From Verif Require Import S_Canon P_Base P_Codec P_Float P_Text P_RT P_Cells P_Kinds P_Lists P_Special.
Import ListNotations.
Open Scope Z_scope.

Lemma mk_event_inv en k id data e : mk_event en k id data = Ok e ->
  exists v r, cparse (kcon k) (mkctx en (zlen data) (new_of data) data) data = Ok (v, r) /\
    e = Event id k (zlen data) (new_of data) v /\ allowed_id k id = true /\
    (id < 192 -> zlen data = if id <? 64 then 1 else if id <? 128 then 2 else 4).
Proof.
  unfold mk_event. intros H. inv_bind H. destruct (allowed_id k id); [|discriminate].
  cbn [negb] in H.
  destruct (if id <? 192 then _ else _) eqn:Es; [|discriminate]. cbn [negb] in H.
  inv_bind H. destruct x0 as [v r]. injection H as <-. exists v, r.
  split; [exact E0|]. split; [reflexivity|]. split; [reflexivity|].
  intros Hid. replace (id <? 192) with true in Es by lia. lia.
Qed.

Lemma flat_bridge en b k its : flat_items en (zlen b) k = Some its ->
  canon its b = canonical_payload en k b.
Proof.
  intros H; destruct k; try discriminate H; apply Some_inj in H; subst its;
  cbn [canonical_payload]; try reflexivity.
  all: try (match goal with |- context [?l =? ?n] => destruct (Z.eqb_spec l n) end).
  all: try (cbn [need map repeat]; rewrite ?canon_any_zero; merge; unfold zlen in *;
    repeat match goal with |- context [(?a =? ?b)%nat] => destruct (Nat.eqb_spec a b) end;
    repeat match goal with |- context [?a =? ?b] => destruct (Z.eqb_spec a b) end;
    first [reflexivity | exfalso; lia]).
  all: cbn [need map repeat]; rewrite ?canon_any_zero; try reflexivity.
Qed.

Theorem payload_canonical en k id data e : is_bytes data -> mk_event en k id data = Ok e ->
  (payload en e = Ok data <-> canonical_payload en k data = true).
Proof.
  intros Hb H. destruct (mk_event_inv _ _ _ _ _ H) as (v & r & E & -> & _ & _). clear H.
  unfold payload. cbn [e_kind e_len e_new e_val].
  set (cx := mkctx en (zlen data) (new_of data) data) in *.
  set (cx' := mkctx en (zlen data) (new_of data) []).
  assert (Hcx : cxp en (zlen data) (new_of data) cx) by apply cxp_mk.
  assert (Hcx' : cxp en (zlen data) (new_of data) cx') by apply cxp_mk.
  destruct (flat_items en (zlen data) k) as [its|] eqn:EF.
  { rewrite <- (flat_bridge _ _ _ _ EF).
    pose proof (flat_rt en (zlen data) (new_of data) k its EF cx data Hcx Hb) as HR.
    destruct (leftover its data) as [rest|]; [|destruct HR as (er & ER); congruence].
    destruct HR as (v' & Ev & HR). rewrite Ev in E. injection E as -> ->.
    destruct (HR cx' Hcx') as (out & -> & _ & Ho). rewrite <- Ho. split; [congruence|intros ->; reflexivity]. }
  destruct (item_cells (new_of data) k) as [[c ks]|] eqn:EI.
  { destruct (item_rt_list en (zlen data) (new_of data) k c ks EI)
      as (cl & Hc & Hf & Hpos & Hrd & Hsz & Hok & Hk).
    rewrite Hk in *. cbn [GreedyRange cparse cbuild] in *.
    destruct (greedy_rt (cxp en (zlen data) (new_of data)) (fun cx i H => H) c cl Hc Hf Hpos Hrd
                (S (length data)) cx 0 data Hcx Hb (Nat.lt_succ_diag_r _))
      as (vs & rest & Eg & _ & _ & _ & Hbd).
    rewrite Eg in E. cbn [bind] in E. injection E as <- <-. cbn [seq_of bind].
    destruct (Hbd cx' 0 Hcx') as (out & -> & _ & Ho). specialize (Ho (length data) (le_n _)).
    assert (Hrec : records (length data) (c_size cl) (c_ok cl) data = canonical_payload en k data).
    { rewrite (records_ext _ _ _ (canon (need ks)) _ Hok), Hsz.
      destruct k; try discriminate EF; try discriminate EI; apply Some_inj in EI; injection EI as <- <-;
      cbn [canonical_payload].
      - fold (new_of data). unfold all_records. destruct (new_of data);
        apply records_ext; intros b _; cbn [need map]; rewrite ?canon_any_zero.
        + repeat rewrite canon_any_merge. reflexivity.
        + repeat rewrite canon_any_merge. reflexivity.
      - rewrite <- (records_flag (length data)) by lia. apply records_ext. intros b Hl.
        destruct b as [|x [|]]; try discriminate Hl.
        cbn [need map canon c_size c_flag length Nat.leb c_reads firstn skipn andb].
        rewrite andb_true_r. reflexivity.
      - change 12 with (Z.of_nat 12). rewrite <- (records_len (length data) 12 data) by lia.
        apply records_ext. intros b Hl. merge. reflexivity.
      - unfold all_records. apply records_ext. intros b _. cbn [need map]. repeat rewrite canon_any_merge. reflexivity.
      - change 24 with (Z.of_nat 24). rewrite <- (records_len (length data) 24 data) by lia.
        apply records_ext. intros b Hl. merge. reflexivity. }
    rewrite <- Hrec, <- Ho. split; [congruence|intros ->; reflexivity]. }
  destruct k; try discriminate EF; try discriminate EI; cbn [kcon canonical_payload] in *.
  - destruct (ascii_rt cx cx' _ _ _ Hb E) as (_ & s & _ & _ & out & -> & _ & Ho).
    rewrite <- Ho. split; [congruence|intros ->; reflexivity].
  - destruct (unicode_rt cx cx' _ _ _ Hb E) as (_ & s & _ & _ & out & -> & _ & Ho).
    rewrite <- Ho. split; [congruence|intros ->; reflexivity].
  - cbn [GreedyBytes cparse cbuild] in *. injection E as <- <-. tauto.
  - destruct (automation_rt cx cx' _ _ _ Hb E) as (_ & out & -> & _ & Ho).
    rewrite <- Ho. split; [congruence|intros ->; reflexivity].
  - destruct (notebook_rt cx cx' _ _ _ Hb E) as (out & -> & _ & Ho).
    rewrite <- Ho. split; [congruence|intros ->; reflexivity].
  - apply (vst_rt cx cx' _ _ _ Hb E).
Qed.
