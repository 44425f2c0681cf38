(** UTF-8 as CPython's codec implements it: [str.encode("utf-8")], [bytes.decode("utf-8")]
    (strict, as used at src/psion/webtools.py 32-81) and [bytes.decode("utf-8", "replace")]
    (as used by urllib.parse.unquote, reached from src/psion/webtools.py 225-236). *)
From Coq Require Import List NArith Bool.
From Verif Require Import Base.
Import ListNotations.
Open Scope N_scope.

(** Unicode scalar value: a code point that is no surrogate. *)
Definition is_scalar (c : N) : bool := (c <? 55296) || ((57344 <=? c) && (c <? 1114112)).
Definition scalar_str (s : str) : Prop := Forall (fun c => is_scalar c = true) s.

(** Bytes of one code point; [None] stands for UnicodeEncodeError (surrogates). *)
Definition enc1 (c : N) : option bytes :=
  if c <? 128 then Some [c]
  else if c <? 2048 then Some [192 + c / 64; 128 + c mod 64]
  else if negb (is_scalar c) then None
  else if c <? 65536 then Some [224 + c / 4096; 128 + (c / 64) mod 64; 128 + c mod 64]
  else Some [240 + c / 262144; 128 + (c / 4096) mod 64; 128 + (c / 64) mod 64; 128 + c mod 64].

(** [s.encode("utf-8")] *)
Fixpoint utf8_encode (s : str) : result bytes :=
  match s with
  | [] => Ok []
  | c :: r =>
      match enc1 c with
      | None => Err UnicodeEncodeError
      | Some b => let! t := utf8_encode r in Ok (b ++ t)
      end
  end.

Definition is_cont (b : N) : bool := (128 <=? b) && (b <? 192).
(** Second byte range of a three-byte sequence: no overlong forms, no surrogates. *)
Definition cont3 (b0 b1 : N) : bool :=
  is_cont b1 && negb ((b0 =? 224) && (b1 <? 160)) && negb ((b0 =? 237) && (160 <=? b1)).
(** Second byte range of a four-byte sequence: no overlong forms, at most U+10FFFF. *)
Definition cont4 (b0 b1 : N) : bool :=
  is_cont b1 && negb ((b0 =? 240) && (b1 <? 144)) && negb ((b0 =? 244) && (144 <=? b1)).

Definition lead2 (b : N) : bool := (194 <=? b) && (b <? 224).
Definition lead3 (b : N) : bool := (224 <=? b) && (b <? 240).
Definition lead4 (b : N) : bool := (240 <=? b) && (b <? 245).

Definition cp2 (b0 b1 : N) : N := (b0 - 192) * 64 + (b1 - 128).
Definition cp3 (b0 b1 b2 : N) : N := (b0 - 224) * 4096 + (b1 - 128) * 64 + (b2 - 128).
Definition cp4 (b0 b1 b2 b3 : N) : N :=
  (b0 - 240) * 262144 + (b1 - 128) * 4096 + (b2 - 128) * 64 + (b3 - 128).

Definition ocons {A} (x : A) (o : option (list A)) : option (list A) :=
  match o with Some l => Some (x :: l) | None => None end.

(** [b.decode("utf-8")]; [None] stands for UnicodeDecodeError. *)
Fixpoint utf8_decode (b : bytes) : option str :=
  match b with
  | [] => Some []
  | b0 :: t0 =>
      if b0 <? 128 then ocons b0 (utf8_decode t0)
      else match t0 with
      | [] => None
      | b1 :: t1 =>
          if lead2 b0 then if is_cont b1 then ocons (cp2 b0 b1) (utf8_decode t1) else None
          else match t1 with
          | [] => None
          | b2 :: t2 =>
              if lead3 b0 then
                if cont3 b0 b1 && is_cont b2 then ocons (cp3 b0 b1 b2) (utf8_decode t2) else None
              else match t2 with
              | [] => None
              | b3 :: t3 =>
                  if lead4 b0 then
                    if cont4 b0 b1 && is_cont b2 && is_cont b3
                    then ocons (cp4 b0 b1 b2 b3) (utf8_decode t3) else None
                  else None
              end
          end
      end
  end.

Definition FFFD : N := 65533.

(** [b.decode("utf-8", "replace")]: one U+FFFD per maximal ill-formed prefix. *)
Fixpoint utf8_replace (b : bytes) : str :=
  match b with
  | [] => []
  | b0 :: t0 =>
      if b0 <? 128 then b0 :: utf8_replace t0
      else if lead2 b0 then
        match t0 with
        | [] => [FFFD]
        | b1 :: t1 => if is_cont b1 then cp2 b0 b1 :: utf8_replace t1 else FFFD :: utf8_replace t0
        end
      else if lead3 b0 then
        match t0 with
        | [] => [FFFD]
        | b1 :: t1 =>
            if cont3 b0 b1 then
              match t1 with
              | [] => [FFFD]
              | b2 :: t2 => if is_cont b2 then cp3 b0 b1 b2 :: utf8_replace t2 else FFFD :: utf8_replace t1
              end
            else FFFD :: utf8_replace t0
        end
      else if lead4 b0 then
        match t0 with
        | [] => [FFFD]
        | b1 :: t1 =>
            if cont4 b0 b1 then
              match t1 with
              | [] => [FFFD]
              | b2 :: t2 =>
                  if is_cont b2 then
                    match t2 with
                    | [] => [FFFD]
                    | b3 :: t3 =>
                        if is_cont b3 then cp4 b0 b1 b2 b3 :: utf8_replace t3
                        else FFFD :: utf8_replace t2
                    end
                  else FFFD :: utf8_replace t1
              end
            else FFFD :: utf8_replace t0
        end
      else FFFD :: utf8_replace t0
  end.

(** [s.encode("ascii")] *)
Definition ascii_encode (s : str) : result bytes :=
  if forallb (fun c => c <? 128) s then Ok s else Err UnicodeEncodeError.
