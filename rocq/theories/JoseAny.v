(** Model of src/psion/jose/jws.py and jwt.py for tokens and payloads of every type that WebAny.v knows.  Jws.v and Jwt.v have the
    same functions for bytes and str. *)
From Coq Require Import String Ascii List NArith ZArith Bool.
From Verif Require Import Base Utf8 Base64 Json Webtools WebAny Crypto Jwk Jws Jwt.
Import ListNotations.
Open Scope N_scope.

Section Any.
Variable C : crypto.
Variable float_text : str -> str.

(** jws.py 306-309: [token.split(b".")] of a str raises TypeError, which is not caught; None, numbers, lists and dicts have no
    [split], and AttributeError is. *)
Definition deserialize_any (token : parg) (key : option jwk) (algorithm : pyval) (validate : bool) : result jws :=
  match token with
  | ABytes b => deserialize C b key algorithm validate
  | AVal (PStr _) => Err TypeError
  | AVal _ => Err InvalidJWSSerialization
  end.
(** jwt.py 229-234 [decode]; [to_bytes(None)] is None *)
Definition jwt_decode_any (now1 now2 : Z) (token : parg) (key : option jwk) (algorithm : pyval) (validate : bool) (options : pyval) : result jwt :=
  let! b := WebAny.to_bytes_any float_text token in
  match b with
  | Some b => jwt_decode C now1 now2 b key algorithm validate options
  | None => rbind (deserialize_any (AVal PNone) key algorithm validate) (fun _ => Err InvalidJWSSerialization)
  end.
(** jws.py 222-229 and 231-266: the payload is kept as it is given and encoded when the token is made. *)
Definition serialize_any (rand : bytes) (h : header) (payload : parg) (key : option jwk) : result bytes :=
  let! _ := validate_key key h in
  let! hb := to_bytes (json_dumps (PDict (hdict h))) in
  let! p := base64url_encode_any float_text payload in
  let message := base64url_encode hb ++ 46 :: p in
  let! signature := alg_sign C rand (halg h) message key in
  Ok (message ++ 46 :: signature).
End Any.
