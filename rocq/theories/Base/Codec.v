(** Encodings of text as bytes (CPython 3.11, error handler "strict"). *)
From Coq Require Import NArith List Bool.
From Verif Require Import Base.PyBase.
Import ListNotations.
Local Open Scope N_scope.

(** Bytes are numbers below 256. *)
Definition bytes : Type := list N.

(** A pair of [str.encode] and [bytes.decode]; [None]: UnicodeError. *)
Record codec : Type := mk_codec { cd_enc : pystr -> option bytes; cd_dec : bytes -> option pystr }.

Fixpoint enc_all (f : N -> option bytes) (s : pystr) : option bytes :=
  match s with
  | [] => Some []
  | c :: r => match f c, enc_all f r with
              | Some b, Some bs => Some (b ++ bs)
              | _, _ => None
              end
  end.

(** UTF-8: no surrogates, shortest forms only. *)
Definition surrogate (c : N) : bool := (55296 <=? c) && (c <=? 57343).
Definition utf8_char (c : N) : option bytes :=
  if c <? 128 then Some [c]
  else if c <? 2048 then Some [192 + c / 64; 128 + c mod 64]
  else if c <? 65536 then
    if surrogate c then None else Some [224 + c / 4096; 128 + c / 64 mod 64; 128 + c mod 64]
  else if c <? 1114112 then
    Some [240 + c / 262144; 128 + c / 4096 mod 64; 128 + c / 64 mod 64; 128 + c mod 64]
  else None.
Definition continuation (b : N) : bool := (128 <=? b) && (b <? 192).
Fixpoint utf8_decode (b : bytes) : option pystr :=
  match b with
  | [] => Some []
  | b0 :: r0 =>
      if b0 <? 128 then option_map (cons b0) (utf8_decode r0)
      else if (192 <=? b0) && (b0 <? 224) then
        match r0 with
        | b1 :: r1 => let c := (b0 - 192) * 64 + (b1 - 128) in
                      if continuation b1 && (128 <=? c)
                      then option_map (cons c) (utf8_decode r1) else None
        | _ => None
        end
      else if (224 <=? b0) && (b0 <? 240) then
        match r0 with
        | b1 :: b2 :: r2 => let c := (b0 - 224) * 4096 + (b1 - 128) * 64 + (b2 - 128) in
                            if continuation b1 && continuation b2 && (2048 <=? c) && negb (surrogate c)
                            then option_map (cons c) (utf8_decode r2) else None
        | _ => None
        end
      else if (240 <=? b0) && (b0 <? 248) then
        match r0 with
        | b1 :: b2 :: b3 :: r3 =>
            let c := (b0 - 240) * 262144 + (b1 - 128) * 4096 + (b2 - 128) * 64 + (b3 - 128) in
            if continuation b1 && continuation b2 && continuation b3 && (65536 <=? c) && (c <? 1114112)
            then option_map (cons c) (utf8_decode r3) else None
        | _ => None
        end
      else None
  end.
Definition utf8 : codec := mk_codec (enc_all utf8_char) utf8_decode.

(** ISO 8859-1 and ASCII. *)
Definition below (n : N) : codec :=
  mk_codec (enc_all (fun c => if c <? n then Some [c] else None))
           (fun b => if forallb (fun c => c <? n) b then Some b else None).
Definition latin1 : codec := below 256.
Definition ascii : codec := below 128.
