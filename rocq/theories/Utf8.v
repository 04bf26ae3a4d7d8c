(** UTF-8 as used by [open(..., encoding='utf-8')] (strict encoder) and by
    [bytes.decode('utf-8', errors='replace')] (pyuff.py:399, dataset_58.py). *)
From Verif Require Import PyBase.
Open Scope N_scope.

(** Encoder of one code point; surrogates are rejected (UnicodeEncodeError). *)
Definition enc1 (c : N) : option bytes :=
  if c <? 128 then Some [c]
  else if c <? 2048 then Some [192 + c / 64; 128 + c mod 64]
  else if (55296 <=? c) && (c <=? 57343) then None
  else if c <? 65536 then Some [224 + c / 4096; 128 + (c / 64) mod 64; 128 + c mod 64]
  else if c <? 1114112 then
    Some [240 + c / 262144; 128 + (c / 4096) mod 64; 128 + (c / 64) mod 64; 128 + c mod 64]
  else None.

Fixpoint utf8_enc (s : str) : option bytes :=
  match s with
  | [] => Some []
  | c :: r => match enc1 c, utf8_enc r with
              | Some b, Some t => Some (b ++ t)
              | _, _ => None
              end
  end.
Definition utf8_encode (s : str) : result bytes := of_option UnicodeError (utf8_enc s).

Definition is_cont (b : N) : bool := (128 <=? b) && (b <=? 191).
(** Second byte allowed after a three- or four-byte lead (CPython: excludes
    overlong forms, surrogates and values above U+10FFFF). *)
Definition ok2_3 (b0 b1 : N) : bool :=
  is_cont b1 && (if b0 =? 224 then 160 <=? b1 else true) && (if b0 =? 237 then b1 <? 160 else true).
Definition ok2_4 (b0 b1 : N) : bool :=
  is_cont b1 && (if b0 =? 240 then 144 <=? b1 else true) && (if b0 =? 244 then b1 <? 144 else true).
Definition REPL : N := 65533.

(** Decoder with errors='replace': every maximal invalid part becomes U+FFFD. *)
Fixpoint utf8_decode (s : bytes) : str :=
  match s with
  | [] => []
  | b0 :: r0 =>
      if b0 <? 128 then b0 :: utf8_decode r0
      else if (194 <=? b0) && (b0 <=? 223) then
        match r0 with
        | [] => [REPL]
        | b1 :: r1 => if is_cont b1 then ((b0 - 192) * 64 + (b1 - 128)) :: utf8_decode r1
                      else REPL :: utf8_decode r0
        end
      else if (224 <=? b0) && (b0 <=? 239) then
        match r0 with
        | [] => [REPL]
        | b1 :: r1 =>
            if ok2_3 b0 b1 then
              match r1 with
              | [] => [REPL]
              | b2 :: r2 =>
                  if is_cont b2
                  then ((b0 - 224) * 4096 + (b1 - 128) * 64 + (b2 - 128)) :: utf8_decode r2
                  else REPL :: utf8_decode r1
              end
            else REPL :: utf8_decode r0
        end
      else if (240 <=? b0) && (b0 <=? 244) then
        match r0 with
        | [] => [REPL]
        | b1 :: r1 =>
            if ok2_4 b0 b1 then
              match r1 with
              | [] => [REPL]
              | b2 :: r2 =>
                  if is_cont b2 then
                    match r2 with
                    | [] => [REPL]
                    | b3 :: r3 =>
                        if is_cont b3
                        then ((b0 - 240) * 262144 + (b1 - 128) * 4096 + (b2 - 128) * 64 + (b3 - 128))
                               :: utf8_decode r3
                        else REPL :: utf8_decode r2
                    end
                  else REPL :: utf8_decode r1
              end
            else REPL :: utf8_decode r0
        end
      else REPL :: utf8_decode r0
  end.
