(** Model of src/psion/jose/jwt.py and src/psion/oidc/claims.py. *)
From Coq Require Import String Ascii List NArith ZArith Bool.
From Verif Require Import Base Utf8 Base64 Json Url Webtools SpecCodec Crypto Jwk Jws.
Import ListNotations.
Open Scope N_scope.

(** jwt.py 43: [int(datetime.utcnow().timestamp())].  [utc_us] is the true time in microseconds since the
    epoch.  [timestamp()] of a naive datetime reads it as local time, so the local UTC offset [off_us]
    is subtracted; [int] truncates towards 0.  Float rounding is not modelled. *)
Definition utcnow_timestamp (utc_us off_us : Z) : Z := Z.quot (utc_us - off_us) 1000000.

(** [if x := claims.get(name): if type(x) is not int: raise; if late(x): raise e] *)
Definition check_time (name : string) (bad : Z -> bool) (e : exn) (claims : pdict) : result unit :=
  let v := dget (lit name) claims in
  if truthy v then
    match v with
    | PInt z => raise_if (bad z) e
    | _ => Err InvalidJWTClaim
    end
  else Ok tt.
(** [if claims.get(name) is not None and not isinstance(claims.get(name), str): raise] *)
Definition check_str (name : string) (claims : pdict) : result unit :=
  let v := dget (lit name) claims in raise_if (negb (is_none v) && negb (is_str v)) InvalidJWTClaim.
(** jwt.py 46-52 *)
Definition check_aud (claims : pdict) : result unit :=
  let v := dget (lit "aud") claims in
  if truthy v then
    match v with
    | PStr _ => Ok tt
    | PList l => raise_if (existsb (fun x => negb (is_str x)) l) InvalidJWTClaim
    | _ => Err InvalidJWTClaim
    end
  else Ok tt.

(** jwt.py 41-88 [_validate_default_claims] *)
Definition validate_default_claims (now : Z) (claims : pdict) : result unit :=
  let! _ := check_aud claims in
  let! _ := check_time "exp" (fun z => (z <=? now)%Z) ExpiredToken claims in
  let! _ := check_time "iat" (fun z => (now <? z)%Z) InvalidJWTClaim claims in
  let! _ := check_str "iss" claims in
  let! _ := check_str "jti" claims in
  let! _ := check_time "nbf" (fun z => (now <? z)%Z) NotYetValidToken claims in
  check_str "sub" claims.

(** jwt.py 90-130 [_validate_claims]: the loop over the options.  The [break] of line 122 leaves this
    loop, so the options that follow are not looked at. *)
Fixpoint validate_claims (options : pdict) (claims : pdict) : result unit :=
  match options with
  | [] => Ok tt
  | (claim, PDict option) :: rest =>
      let value := dget claim claims in
      let! _ := raise_if (truthy (dget (lit "essential") option) && is_none value) InvalidJWTClaim in
      let! _ := raise_if (truthy (dget (lit "value") option) && negb (py_eq value (dget (lit "value") option))) InvalidJWTClaim in
      let vs := dget (lit "values") option in
      if truthy vs then
        match vs with
        | PList l =>
            if match value with PList items => existsb (fun x => py_in x l) items | _ => false end
            then Ok tt
            else let! _ := raise_if (negb (py_in value l)) InvalidJWTClaim in
                 validate_claims rest claims
        | _ => Err InvalidJWTClaim
        end
      else validate_claims rest claims
  | _ :: rest => validate_claims rest claims
  end.

(** jwt.py 28-39 [JsonWebTokenClaims.__init__], with the [_validate_default_claims] of the class;
    [options] is any value, [PNone] when not given. *)
Definition claims_init (defaults : pdict -> result unit) (claims : pyval) (options : pyval) : result pdict :=
  match claims with
  | PDict ((_ :: _) as c) =>
      let! _ := defaults c in
      let! _ := match options with PDict o => validate_claims o c | _ => Ok tt end in
      Ok (FullDict c [])
  | _ => Err InvalidJWTClaim
  end.
Definition JsonWebTokenClaims (now : Z) (claims options : pyval) : result pdict :=
  claims_init (validate_default_claims now) claims options.

(** A token object: jwt.py 165-168.  [_jws] is built from the same header and claims. *)
Record jwt := { tclaims : pdict; tjws : jws }.

(** jwt.py 165-168 [JsonWebToken.__init__(claims, header)] *)
Definition JsonWebToken (now : Z) (claims header : pyval) : result jwt :=
  let! h := JsonWebSignatureHeader header in
  let! c := JsonWebTokenClaims now claims PNone in
  let! payload := to_bytes (json_dumps (PDict c)) in
  Ok {| tclaims := c; tjws := {| jheader := h; jpayload := payload |} |}.

Section WithCrypto.
Variable C : crypto.

(** jwt.py 173-185 [encode] *)
Definition jwt_encode (rand : bytes) (t : jwt) (key : option jwk) : result str :=
  let! b := serialize C rand (tjws t) key in Ok (to_string b).

(** jwt.py 187-234 [decode] for a token given as bytes; [now1], [now2] are the two readings of the clock. *)
Definition jwt_decode (now1 now2 : Z) (token : bytes) (key : option jwk) (algorithm : pyval) (validate : bool) (options : pyval) : result jwt :=
  let! j := deserialize C token key algorithm validate in
  let! v := json_loads (jpayload j) in
  let! c := JsonWebTokenClaims now1 v (if validate then options else PNone) in
  JsonWebToken now2 (PDict c) (PDict (hdict (jheader j))).
(** The same for a token given as str: [to_bytes(token)] *)
Definition jwt_decode_str (now1 now2 : Z) (token : str) (key : option jwk) (algorithm : pyval) (validate : bool) (options : pyval) : result jwt :=
  let! b := to_bytes token in jwt_decode now1 now2 b key algorithm validate options.

End WithCrypto.

(** ** oidc/claims.py: IDToken *)

(** oidc/claims.py 50-57 [_validate_auth_time] *)
Definition validate_auth_time (claims : pdict) : result unit :=
  let auth_time := dget (lit "max_age") claims in
  let! _ := raise_if (truthy (dget (lit "max_age") claims) && negb (truthy auth_time)) InvalidJWTClaim in
  raise_if (negb (is_none auth_time) && negb (match auth_time with PInt _ => true | _ => false end)) InvalidJWTClaim.
(** oidc/claims.py 59-62 [_validate_nonce]; [self.options] is [options or {}] *)
Definition validate_nonce (options : pyval) (claims : pdict) : result unit :=
  let opts := if truthy options then options else PDict [] in
  match opts with
  | PDict o =>
      let nonce := dget (lit "nonce") o in
      raise_if (truthy nonce && negb (py_eq nonce (dget (lit "nonce") claims))) InvalidJWTClaim
  | _ => Err AttributeError
  end.
(** oidc/claims.py 41-48 *)
Definition IDToken (now : Z) (claims options : pyval) : result pdict :=
  claims_init (fun c => let! _ := validate_default_claims now c in
                        let! _ := validate_auth_time c in
                        validate_nonce options c) claims options.
