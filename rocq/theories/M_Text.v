(* Strict text codecs of CPython used by construct.GreedyString: ascii,
   utf-16-le and utf8.  [None] = UnicodeDecodeError / UnicodeEncodeError.
   No proofs. *)
From Coq Require Import ZArith List Bool.
From Verif Require Import M_Base.
Import ListNotations.
Open Scope Z_scope.

(* bytes.decode("ascii") / str.encode("ascii") *)
Definition ascii_dec (b : bytes) : option pystr :=
  if forallb (fun c => c <? 128) b then Some b else None.
Definition ascii_enc (s : pystr) : option bytes :=
  if forallb (fun c => (0 <=? c) && (c <? 128)) s then Some s else None.

Definition is_hi (u : Z) : bool := (55296 <=? u) && (u <? 56320).
Definition is_lo (u : Z) : bool := (56320 <=? u) && (u <? 57344).
Definition ocons {A} (x : A) (o : option (list A)) : option (list A) :=
  option_map (cons x) o.

(* bytes.decode("utf-16-le") *)
Fixpoint utf16_dec (b : bytes) : option pystr :=
  match b with
  | [] => Some []
  | [_] => None
  | b0 :: b1 :: r =>
      let u := b0 + 256 * b1 in
      if is_lo u then None
      else if is_hi u then
        match r with
        | b2 :: b3 :: r' =>
            let w := b2 + 256 * b3 in
            if is_lo w
            then ocons (65536 + (u - 55296) * 1024 + (w - 56320)) (utf16_dec r')
            else None
        | _ => None
        end
      else ocons u (utf16_dec r)
  end.

(* str.encode("utf-16-le") *)
Definition le16 (u : Z) : bytes := [u mod 256; u / 256].
Definition utf16_enc1 (c : Z) : option bytes :=
  if (c <? 0) || (1114111 <? c) || is_hi c || is_lo c then None
  else if c <? 65536 then Some (le16 c)
  else Some (le16 (55296 + (c - 65536) / 1024) ++ le16 (56320 + (c - 65536) mod 1024)).
Fixpoint utf16_enc (s : pystr) : option bytes :=
  match s with
  | [] => Some []
  | c :: r =>
      match utf16_enc1 c, utf16_enc r with
      | Some a, Some b => Some (a ++ b)
      | _, _ => None
      end
  end.

(* bytes.decode("utf8") *)
Definition is_cont (b : Z) : bool := (128 <=? b) && (b <? 192).
Fixpoint utf8_dec (b : bytes) : option pystr :=
  match b with
  | [] => Some []
  | b0 :: r =>
      if b0 <? 128 then ocons b0 (utf8_dec r)
      else if (194 <=? b0) && (b0 <? 224) then
        match r with
        | b1 :: r' =>
            if is_cont b1 then ocons ((b0 - 192) * 64 + (b1 - 128)) (utf8_dec r')
            else None
        | _ => None
        end
      else if (224 <=? b0) && (b0 <? 240) then
        match r with
        | b1 :: b2 :: r' =>
            let c := (b0 - 224) * 4096 + (b1 - 128) * 64 + (b2 - 128) in
            if is_cont b1 && is_cont b2 && (2048 <=? c) && negb (is_hi c) && negb (is_lo c)
            then ocons c (utf8_dec r')
            else None
        | _ => None
        end
      else if (240 <=? b0) && (b0 <? 245) then
        match r with
        | b1 :: b2 :: b3 :: r' =>
            let c := (b0 - 240) * 262144 + (b1 - 128) * 4096 + (b2 - 128) * 64 + (b3 - 128) in
            if is_cont b1 && is_cont b2 && is_cont b3 && (65536 <=? c) && (c <=? 1114111)
            then ocons c (utf8_dec r')
            else None
        | _ => None
        end
      else None
  end.

(* str.encode("utf8") *)
Definition utf8_enc1 (c : Z) : option bytes :=
  if (c <? 0) || (1114111 <? c) || is_hi c || is_lo c then None
  else if c <? 128 then Some [c]
  else if c <? 2048 then Some [192 + c / 64; 128 + c mod 64]
  else if c <? 65536 then Some [224 + c / 4096; 128 + (c / 64) mod 64; 128 + c mod 64]
  else Some [240 + c / 262144; 128 + (c / 4096) mod 64; 128 + (c / 64) mod 64; 128 + c mod 64].
Fixpoint utf8_enc (s : pystr) : option bytes :=
  match s with
  | [] => Some []
  | c :: r =>
      match utf8_enc1 c, utf8_enc r with
      | Some a, Some b => Some (a ++ b)
      | _, _ => None
      end
  end.
