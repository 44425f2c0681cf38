(** Model of src/psion/jose/jwa/jws.py and src/psion/jose/jws.py. *)
From Coq Require Import String Ascii List NArith ZArith Bool.
From Verif Require Import Base Utf8 Base64 Json Url Webtools SpecCodec Crypto Jwk.
Import ListNotations.
Open Scope N_scope.

(** ** jwa/jws.py *)

(** The classes of jwa/jws.py: [none] 89-98, HS* 123-135, RS* 161-173, ES* 208-223, PS* 249-261. *)
Inductive alg :=
| Anone
| HS (h : hash) | RS (h : hash) | ES (h : hash) | PS (h : hash).

(** [__algorithm__] of each class *)
Definition alg_name (a : alg) : str :=
  match a with
  | Anone => lit "none"
  | HS SHA256 => lit "HS256" | HS SHA384 => lit "HS384" | HS SHA512 => lit "HS512"
  | RS SHA256 => lit "RS256" | RS SHA384 => lit "RS384" | RS SHA512 => lit "RS512"
  | ES SHA256 => lit "ES256" | ES SHA384 => lit "ES384" | ES SHA512 => lit "ES512"
  | PS SHA256 => lit "PS256" | PS SHA384 => lit "PS384" | PS SHA512 => lit "PS512"
  end.
(** [__key_type__]; that of [none] is not used *)
Definition alg_kty (a : alg) : str :=
  match a with Anone => [] | HS _ => lit "oct" | RS _ | PS _ => lit "RSA" | ES _ => lit "EC" end.
(** [__curve__] of ES256, ES384, ES512 *)
Definition alg_curve (a : alg) : option str :=
  match a with
  | ES SHA256 => Some (lit "P-256") | ES SHA384 => Some (lit "P-384") | ES SHA512 => Some (lit "P-521")
  | _ => None
  end.
(** [__hash_name__] and [__padding__] *)
Definition alg_hash (a : alg) : hash := match a with Anone => SHA256 | HS h | RS h | ES h | PS h => h end.
Definition alg_padding (a : alg) : option padding :=
  match a with RS _ => Some PKCS1v15 | PS _ => Some (PSS SaltMax) | _ => None end.

Section WithCrypto.
Variable C : crypto.

(** jwa/jws.py 28-50 [JWSAlgorithm.validate_key] and 180-186 [_EC.validate_key];
    [None] stands for an object that is not a JsonWebKey. *)
Definition alg_validate_key (a : alg) (key : option jwk) : result jwk :=
  match key with
  | None => Err InvalidKey
  | Some k =>
      let d := jdata k in
      if truthy (dget (lit "alg") d) && negb (py_eq (dget (lit "alg") d) (PStr (alg_name a))) then Err InvalidKey
      else if negb (py_eq (dget (lit "kty") d) (PStr (alg_kty a))) then Err InvalidKey
      else match alg_curve a with
           | Some c => if negb (py_eq (dget (lit "crv") d) (PStr c)) then Err InvalidKey else Ok k
           | None => Ok k
           end
  end.

(** [sign]: jwa/jws.py 93-94, 105-108, 143-146, 189-192, 231-234 *)
Definition alg_sign (rand : bytes) (a : alg) (data : bytes) (key : option jwk) : result bytes :=
  match a with
  | Anone => Ok []
  | _ =>
      let! k := alg_validate_key a key in
      let! sig := mat_sign C rand (jmat k) data (alg_hash a) (alg_padding a) in
      Ok (base64url_encode sig)
  end.

(** [verify]: jwa/jws.py 97-98, 111-120, 149-158, 195-205, 237-246 *)
Definition alg_verify (a : alg) (signature data : bytes) (key : option jwk) : result unit :=
  match a with
  | Anone => Ok tt
  | _ =>
      let! k := alg_validate_key a key in
      match base64url_decode signature with
      | Err BinasciiError => Err InvalidSignature
      | Err e => Err e
      | Ok raw => mat_verify C (jmat k) raw data (alg_hash a) (alg_padding a)
      end
  end.

(** ** jws.py: JsonWebSignatureHeader *)

(** jws.py 57-71 [__algorithms__] *)
Definition algorithms : list alg :=
  [Anone; HS SHA256; HS SHA384; HS SHA512; RS SHA256; RS SHA384; RS SHA512;
   ES SHA256; ES SHA384; ES SHA512; PS SHA256; PS SHA384; PS SHA512].
Definition alg_of (s : str) : option alg := find (fun a => eqs s (alg_name a)) algorithms.

(** A header object: the dict it is, and [self.algorithm]. *)
Record header := { hdict : pdict; halg : alg }.

(** jws.py 92-107 [validate_alg], and 84-87 (the same test) with the lookup of the class.
    [in] of a dict view raises TypeError for an unhashable value. *)
Definition validate_alg (h : pdict) : result alg :=
  if negb (has (lit "alg") h) then Err InvalidJWSHeader
  else match dget (lit "alg") h with
       | PStr s => of_opt UnsupportedAlgorithm (alg_of s)
       | v => if hashable v then Err UnsupportedAlgorithm else Err TypeError
       end.
(** jws.py 115-128, 142-155, 157-170: [validate_kid], [validate_typ], [validate_cty] *)
Definition validate_text (name : string) (h : pdict) : result unit :=
  if has (lit name) h then
    let v := dget (lit name) h in raise_if (negb (truthy v) || negb (is_str v)) InvalidJWSHeader
  else Ok tt.
(** jws.py 172-195 [validate_crit] *)
Definition validate_crit (h : pdict) : result unit :=
  if has (lit "crit") h then
    match dget (lit "crit") h with
    | PList [] => Err InvalidJWSHeader
    | PList l =>
        if existsb (fun v => negb (truthy v) || negb (is_str v)) l then Err InvalidJWSHeader
        else if existsb (fun v => match v with PStr s => negb (truthy (dget s h)) | _ => false end) l
        then Err InvalidJWSHeader
        else Ok tt
    | _ => Err InvalidJWSHeader
    end
  else Ok tt.

(** jws.py 73-90 [__init__]; the validators run in the order of their names (inspect.getmembers sorts);
    those of jku, jwk, x5u, x5c, x5t, x5tS256 do nothing. *)
Definition JsonWebSignatureHeader (h : pyval) : result header :=
  match h with
  | PDict ((_ :: _) as d) =>
      let! a := validate_alg d in
      let! _ := validate_crit d in
      let! _ := validate_text "cty" d in
      let! _ := validate_text "kid" d in
      let! _ := validate_text "typ" d in
      Ok {| hdict := FullDict d []; halg := a |}
  | _ => Err InvalidJWSHeader
  end.

(** ** jws.py: JsonWebSignature *)

(** jws.py 327-360 [_validate_key] *)
Definition validate_key (key : option jwk) (h : header) : result unit :=
  match key with
  | None => Err InvalidKey
  | Some k =>
      let d := jdata k in
      let! _ := raise_if (truthy (dget (lit "alg") d) && negb (py_eq (dget (lit "alg") d) (dget (lit "alg") (hdict h)))) InvalidKey in
      let! _ := raise_if (truthy (dget (lit "kid") (hdict h)) && negb (py_eq (dget (lit "kid") d) (dget (lit "kid") (hdict h)))) InvalidKey in
      let! _ := raise_if (truthy (dget (lit "use") d) && negb (py_eq (dget (lit "use") d) (PStr (lit "sig")))) InvalidKey in
      if truthy (dget (lit "key_ops") d) then
        let! ops := iter_val (dget (lit "key_ops") d) in
        raise_if (existsb (fun op => negb (py_in op [PStr (lit "sign"); PStr (lit "verify")])) ops) InvalidKey
      else Ok tt
  end.

(** The object: jws.py 222-229 *)
Record jws := { jheader : header; jpayload : bytes }.

(** jws.py 231-266 [serialize]; [b".".join] *)
Definition serialize (rand : bytes) (j : jws) (key : option jwk) : result bytes :=
  let! _ := validate_key key (jheader j) in
  let! hb := to_bytes (json_dumps (PDict (hdict (jheader j)))) in
  let message := base64url_encode hb ++ 46 :: base64url_encode (jpayload j) in
  let! signature := alg_sign rand (halg (jheader j)) message key in
  Ok (message ++ 46 :: signature).

(** jws.py 268-324 [deserialize]; [algorithm] is any value, [PNone] when not given. *)
Definition deserialize (token : bytes) (key : option jwk) (algorithm : pyval) (validate : bool) : result jws :=
  match split_on 46 token with
  | [hs; ps; ss] =>
      let! hb := base64url_decode hs in
      let! hv := json_loads hb in
      let! h := JsonWebSignatureHeader hv in
      let! _ := raise_if (truthy algorithm && negb (py_eq (dget (lit "alg") (hdict h)) algorithm)) InvalidJWSSerialization in
      let! _ := (if validate then
                   let! _ := validate_key key h in
                   alg_verify (halg h) ss (hs ++ 46 :: ps) key
                 else Ok tt) in
      let! payload := base64url_decode ps in
      Ok {| jheader := h; jpayload := payload |}
  | _ => Err InvalidJWSSerialization
  end.

End WithCrypto.
