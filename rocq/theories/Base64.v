(** Base64 as the CPython standard library implements it: [base64.b64encode] /
    [base64.urlsafe_b64encode] and the non-strict decoder [binascii.a2b_base64] behind
    [base64.b64decode] / [base64.urlsafe_b64decode], reached from
    src/psion/webtools.py 84-110 and 256-259. *)
From Coq Require Import List NArith Bool.
From Verif Require Import Base.
Import ListNotations.
Open Scope N_scope.

(** Alphabet of RFC 4648 section 4; [url] selects section 5 ("-" and "_" for 62 and 63). *)
Definition b64char (url : bool) (v : N) : N :=
  if v <? 26 then 65 + v
  else if v <? 52 then 97 + (v - 26)
  else if v <? 62 then 48 + (v - 52)
  else if v =? 62 then (if url then 45 else 43)
  else (if url then 95 else 47).

Definition PAD : N := 61.

(** [base64.b64encode] / [base64.urlsafe_b64encode] *)
Fixpoint b64encode (url : bool) (l : bytes) : bytes :=
  match l with
  | [] => []
  | [a] => [b64char url (a / 4); b64char url ((a mod 4) * 16); PAD; PAD]
  | [a; b] =>
      [b64char url (a / 4); b64char url ((a mod 4) * 16 + b / 16); b64char url ((b mod 16) * 4); PAD]
  | a :: b :: c :: r =>
      b64char url (a / 4) :: b64char url ((a mod 4) * 16 + b / 16)
        :: b64char url ((b mod 16) * 4 + c / 64) :: b64char url (c mod 64) :: b64encode url r
  end.

(** binascii's table_a2b_base64: value of an alphabet character, [None] for any other byte. *)
Definition b64val (c : N) : option N :=
  if (65 <=? c) && (c <? 91) then Some (c - 65)
  else if (97 <=? c) && (c <? 123) then Some (c - 97 + 26)
  else if (48 <=? c) && (c <? 58) then Some (c - 48 + 52)
  else if c =? 43 then Some 62
  else if c =? 47 then Some 63
  else None.

(** binascii.a2b_base64 with strict_mode off: characters outside of the alphabet are skipped;
    a pad that completes the quantum ends decoding and ignores the rest of the input.
    [qp] is quad_pos, [left] leftchar, [pads] the number of pads seen since the last data character. *)
Fixpoint a2b (l : bytes) (qp left pads : N) : result bytes :=
  match l with
  | [] => if qp =? 0 then Ok [] else Err BinasciiError
  | c :: r =>
      if c =? PAD then
        if 2 <=? qp then
          if 4 <=? qp + (pads + 1) then Ok [] else a2b r qp left (pads + 1)
        else a2b r qp left pads
      else match b64val c with
      | None => a2b r qp left pads
      | Some v =>
          if qp =? 0 then a2b r 1 v 0
          else if qp =? 1 then let! t := a2b r 2 (v mod 16) 0 in Ok ((left * 4 + v / 16) :: t)
          else if qp =? 2 then let! t := a2b r 3 (v mod 4) 0 in Ok ((left * 16 + v / 4) :: t)
          else let! t := a2b r 0 0 0 in Ok ((left * 64 + v) :: t)
      end
  end.

(** [base64.b64decode(data)] for [bytes] data *)
Definition b64decode (l : bytes) : result bytes := a2b l 0 0 0.

(** [base64.urlsafe_b64decode(data)]: translates "-" and "_" first. *)
Definition url_to_std (c : N) : N := if c =? 45 then 43 else if c =? 95 then 47 else c.
Definition urlsafe_b64decode (l : bytes) : result bytes := b64decode (map url_to_std l).

(** [data.rstrip(b"=")] *)
Fixpoint rstrip_pad (l : bytes) : bytes :=
  match l with
  | [] => []
  | c :: r => match rstrip_pad r with
              | [] => if c =? PAD then [] else [c]
              | t => c :: t
              end
  end.

(** webtools.py 84-96 [base64url_decode] *)
Definition base64url_decode (data : bytes) : result bytes :=
  urlsafe_b64decode (data ++ repeat PAD (Nat.modulo (length data) 4)).

(** webtools.py 99-110 [base64url_encode] (for [bytes] data) *)
Definition base64url_encode (data : bytes) : bytes := rstrip_pad (b64encode true data).
