(** Model of the helpers of src/psion/webtools.py for every argument that Python lets through: bytes, None, bool, int, float,
    str, list and dict.  Webtools.v has the same functions for the arguments that the rest of the library gives them. *)
From Coq Require Import String Ascii List NArith ZArith Bool.
From Verif Require Import Base Utf8 Base64 Json Webtools.
Import ListNotations.
Open Scope N_scope.

(** An argument of type [Any].  Objects of other types are not modelled. *)
Inductive parg : Type :=
| ABytes (b : bytes)
| AVal (v : pyval).

Section Any.
(** [str(x)] of a float, given by its JSON text (oracle) *)
Variable float_text : str -> str.

(** [str(v)] of the numbers that [to_bytes] writes, and a str itself *)
Definition any_text (v : pyval) : option str :=
  match v with
  | PStr s => Some s
  | PInt z => Some (dec_Z z)
  | PBool b => Some (if b then lit "True" else lit "False")
  | PFloat l => Some (float_text l)
  | _ => None
  end.

(** webtools.py 32-55 [to_bytes] with the default encoding; [None] is Python's None.  bool is a subclass of int;
    [bytes(x, encoding=...)] of a list or a dict raises TypeError. *)
Definition to_bytes_any (a : parg) : result (option bytes) :=
  match a with
  | ABytes b => Ok (Some b)
  | AVal PNone => Ok None
  | AVal v => match any_text v with Some t => let! b := utf8_encode t in Ok (Some b) | None => Err TypeError end
  end.

(** webtools.py 58-81 [to_string] with the default encoding.  [str(x, encoding=...)] of something else than bytes raises
    TypeError. *)
Definition to_string_any (a : parg) : result (option str) :=
  match a with
  | AVal (PStr s) => Ok (Some s)
  | AVal PNone => Ok None
  | ABytes b => Ok (Some (to_string b))
  | AVal _ => Err TypeError
  end.

(** webtools.py 84-96 [base64url_decode]: [data += b"=" * n] raises TypeError for None, numbers, str and dict; a list is
    extended and then refused by [base64.urlsafe_b64decode] with TypeError. *)
Definition base64url_decode_any (a : parg) : result bytes :=
  match a with
  | ABytes b => base64url_decode b
  | AVal _ => Err TypeError
  end.

(** webtools.py 99-110 [base64url_encode]: [base64.urlsafe_b64encode(None)] raises TypeError. *)
Definition base64url_encode_any (a : parg) : result bytes :=
  let! r := to_bytes_any a in
  match r with
  | Some b => Ok (base64url_encode b)
  | None => Err TypeError
  end.

(** webtools.py 113-135 [b64_to_int]: [to_bytes(data, "ascii")] returns bytes as they are. *)
Definition b64_to_int_any (a : parg) : result (option N) :=
  match a with
  | AVal v => b64_to_int v
  | ABytes b => let! n := b64_to_int_bytes b in Ok (Some n)
  end.

(** webtools.py 138-159 [int_to_b64]; [isinstance(True, int)] *)
Definition int_to_b64_any (a : parg) : result bytes :=
  match a with
  | AVal (PInt z) => int_to_b64 z
  | AVal (PBool b) => int_to_b64 (if b then 1 else 0)%Z
  | _ => Err ValueError
  end.

(** webtools.py 176-192 [json_loads] *)
Definition json_loads_any (a : parg) : result pyval :=
  match a with
  | ABytes b => json_loads b
  | AVal (PStr s) => loads s
  | AVal _ => Err TypeError
  end.

(** webtools.py 195-207 [secret_token(size)]; the [i]-th choice is [choose i].  [range] raises TypeError for what is not
    an integer. *)
Definition secret_token_any (choose : nat -> nat) (size : parg) : result str :=
  let sized z := secret_token (map choose (seq 0 (Z.to_nat z))) in
  match size with
  | AVal (PInt z) => sized z
  | AVal (PBool b) => sized (if b then 1 else 0)%Z
  | _ => Err TypeError
  end.
End Any.
