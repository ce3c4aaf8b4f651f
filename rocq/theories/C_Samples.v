(* Small concrete files used in the examples of the property files. *)
From Coq Require Import String ZArith List Bool Lia.
From Verif Require Import M_Base M_Text M_Events M_Parse S_Canon S_File.
Import ListNotations.
Open Scope Z_scope.

Lemma bytes_check b : forallb (fun x => (0 <=? x) && (x <? 256)) b = true -> is_bytes b.
Proof. intros H. rewrite forallb_forall in H. apply Forall_forall. intros x Hx. specialize (H x Hx). unfold is_byte. lia. Qed.

(* Python 3.11, some math.log2 and 2 ** x, pyflp.controller not imported *)
Definition en0 : env := Env true (fun x => Ok x) (fun x => Ok x) false.
Definition en310 : env := Env false (fun x => Ok x) (fun x => Ok x) false.

Definition ver20 : bytes := [50; 48; 46; 56; 46; 51; 0].           (* "20.8.3\0" *)
Definition ver11 : bytes := [49; 49; 46; 49; 46; 49; 0].           (* "11.1.1\0" *)
Definition title16 : bytes := [72; 0; 105; 0; 61; 216; 9; 222; 0; 0].  (* "Hi", U+1F609, NUL *)
Definition boobass16 : bytes :=
  [66; 0; 111; 0; 111; 0; 66; 0; 97; 0; 115; 0; 115; 0; 0; 0].
Definition boobass_data : bytes := [1; 0; 0; 0; 2; 0; 0; 0; 3; 0; 0; 255].

(* version, channel, volume, title, internal name, plugin data, delay, unknown *)
Definition cs0 : list chunk :=
  [(199, ver20); (64, [1; 0]); (21, [2]); (194, title16); (201, boobass16);
   (213, boobass_data); (209, [1; 0; 0; 0; 255; 255; 255; 255]); (180, [1; 2; 3; 4]);
   (222, [9; 8; 7])].
Definition chunk_enc (c : chunk) : bytes :=
  if fst c <? 192 then fst c :: snd c
  else if zlen (snd c) <? 128 then fst c :: zlen (snd c) :: snd c
  else fst c :: (zlen (snd c) mod 128 + 128) :: zlen (snd c) / 128 :: snd c.
Definition body0 : bytes := concat (map chunk_enc cs0).
Definition f0 : bytes := file_bytes 0 1 96 body0.

Lemma enc_framed cs :
  forallb (fun c => (0 <=? fst c) && (fst c <? 256) && (if fst c <? 192 then zlen (snd c) =? width (fst c) else zlen (snd c) <? 16384)) cs = true ->
  framed true cs (concat (map chunk_enc cs)).
Proof.
  induction cs as [|[id p] cs IH]; intros H; [constructor|]. cbn [forallb fst snd] in H.
  apply andb_true_iff in H. destruct H as [H1 H2]. cbn [map concat]. constructor; [|auto].
  unfold chunk_enc. cbn [fst snd]. destruct (Z.ltb_spec id 192).
  - apply CFixed; lia.
  - destruct (Z.ltb_spec (zlen p) 128).
    + change (id :: zlen p :: p) with (id :: [zlen p] ++ p). apply CVar with true; [lia| |reflexivity].
      cbn [lenprefix]. replace (zlen p <? 128) with true by lia. reflexivity.
    + change (id :: ?a :: ?b :: p) with (id :: [a; b] ++ p). apply CVar with true; [lia| |reflexivity].
      set (n := zlen p) in *. clearbody n. cbn [lenprefix]. pose proof (Z.mod_pos_bound n 128 eq_refl). pose proof (Z.div_mod n 128 ltac:(lia)).
      replace (n mod 128 + 128 <? 128) with false by lia. replace (n / 128 <? 128) with true by lia.
      replace (n / 128 =? 0) with false by lia. cbn [negb andb]. do 3 f_equal. lia.
Qed.
Lemma framed0 : framed true cs0 body0.
Proof. apply enc_framed. reflexivity. Qed.
Lemma bytes0 : is_bytes f0. Proof. apply bytes_check. vm_compute. reflexivity. Qed.
Lemma header0 : good_header 0 1 96 body0.
Proof.
  split; [right; left; reflexivity|]. split; [do 3 right; left; reflexivity|].
  assert (zlen body0 = 78) as -> by reflexivity. lia.
Qed.
Lemma canonical0 : canonical_file en0 f0.
Proof.
  exists 0, 1, 96, body0, cs0. split; [reflexivity|]. split; [exact header0|]. split; [exact framed0|].
  split; [|split; [reflexivity|discriminate]].
  cbn [payloads_canonical cs0]. repeat (split; [eexists; split; [vm_compute; reflexivity|vm_compute; reflexivity]|]). exact I.
Qed.

(* any other list of chunks *)
Definition sample (cs : list chunk) : bytes :=
  file_bytes 0 (count_chunks 64 cs) 96 (concat (map chunk_enc cs)).
Fixpoint canon_check (h cs : list chunk) : bool :=
  match cs with
  | [] => true
  | (id, p) :: r => match class_of en0 ((id, p) :: h) with
                    | Some k => canonical_payload en0 k p && canon_check ((id, p) :: h) r
                    | None => false
                    end
  end.
Definition sample_check (cs : list chunk) : bool :=
  forallb (fun c => (0 <=? fst c) && (fst c <? 256) && (if fst c <? 192 then zlen (snd c) =? width (fst c) else zlen (snd c) <? 16384)) cs &&
  canon_check [] cs && (0 <? count_chunks 64 cs) && (count_chunks 64 cs <? 65536) &&
  (0 <? zlen (concat (map chunk_enc cs))) && (zlen (concat (map chunk_enc cs)) <? 2 ^ 32) &&
  forallb (fun x => (0 <=? x) && (x <? 256)) (sample cs).
Lemma sample_ok cs : sample_check cs = true -> is_bytes (sample cs) /\ canonical_file en0 (sample cs).
Proof.
  unfold sample_check. rewrite !andb_true_iff. intros ((((((F & C) & N1) & N2) & Z1) & Z2) & B).
  split; [now apply bytes_check|].
  exists 0, (count_chunks 64 cs), 96, (concat (map chunk_enc cs)), cs. split; [reflexivity|]. split.
  { split; [right; left; reflexivity|]. split; [do 3 right; left; reflexivity|]. lia. }
  split; [now apply enc_framed|]. split; [|split; [reflexivity|lia]].
  clear - C. revert C. generalize (@nil chunk). induction cs as [|[id p] cs IH]; intros h C; cbn [payloads_canonical canon_check] in *; [exact I|].
  destruct (class_of en0 ((id, p) :: h)) as [k|]; [|discriminate]. apply andb_true_iff in C as [C1 C2]. eauto.
Qed.
Definition load (f : bytes) : project := match parse en0 f with Ok p => p | Err _ => Project [] 0 0 0 end.
