(** Tokens that were issued, and forgeries: for the statement of C149. *)
From Coq Require Import String Ascii List NArith ZArith Bool.
From Verif Require Import Base SpecCodec Webtools Json Crypto Jwk SpecKey Jws SpecJws Jwt SpecReaders Prog Http OAuth SpecOAuth.
Import ListNotations.
Open Scope N_scope.

(** [token] was made of [j] with the key [k]. *)
Definition issued (C : crypto) (k : jwk) (j : jws) (token : bytes) : Prop :=
  exists rand d, json_wf (PDict d) = true /\ bytes_ok (jpayload j) /\
    JsonWebSignatureHeader (PDict d) = Ok (jheader j) /\ serialize C rand j (Some k) = Ok token.
(** [token] was made of the claims and the header of [t]. *)
Definition issued_jwt (C : crypto) (k : jwk) (t : jwt) (token : str) : Prop :=
  exists rand now c d, json_wf (PDict c) = true /\ json_wf (PDict d) = true /\
    JsonWebToken now (PDict c) (PDict d) = Ok t /\ jwt_encode C rand t (Some k) = Ok token.
(** A forgery: [token] has a signature for the key [m] over a text that none of the [tokens] was signed over. *)
Definition forgery (C : crypto) (m : kmat) (tokens : list bytes) (token : bytes) : Prop :=
  exists hs ps ss sig name, segments token hs ps ss /\ url_octets ss sig /\ accepts C m name sig (hs ++ 46 :: ps) /\
    forall t hs' ps' ss', In t tokens -> segments t hs' ps' ss' -> hs' ++ 46 :: ps' <> hs ++ 46 :: ps.
(** The caller or the key names an algorithm other than none (see C25). *)
Definition algorithm_stated (algorithm : pyval) (k : jwk) : Prop :=
  (~ false_value algorithm /\ algorithm <> PStr (chars "none")) \/
  (~ false_value (dget (chars "alg") (jdata k)) /\ dget (chars "alg") (jdata k) <> PStr (chars "none")).

(** ** ID tokens: for C150 *)
(** [t] is the ID token of one of the [answers] of the token endpoint (request, calls and response). *)
Definition answered_id_token (answers : list (request * list obs * response)) (t : str) : Prop :=
  exists r tr x d, In (r, tr, x) answers /\ json_body x d /\ lookup (chars "id_token") d = Some (PStr t).
(** The response [x] to [r] exchanged a code, which was stored for a user, with the client that authenticated;
    [claims] tell about this user, are for this client, and are bound to the access token of the response. *)
Definition exchanged_for (E : env) (hs : hooks) (r : request) (tr : list obs) (x : response) (claims : pdict) : Prop :=
  exists i c code ac u a d h alg info utc off at_hash scopes,
    authenticates r i c /\ data_has r "grant_type" (chars "authorization_code") /\ data_has r "code" code /\
    In (OGetCode code (V (Some ac))) tr /\ In (OFindUser (ac_user ac) (V (Some u))) tr /\
    json_body x d /\ lookup (chars "access_token") d = Some (PStr a) /\ In h (hk_response hs) /\
    In (OGetUserinfo (hk_adapter h) u scopes (V info)) tr /\ In (ONow (V (utc, off))) tr /\ half_hash (e_hashlib E) a alg at_hash /\
    id_claims (cf_issuer (hk_config h)) (cl_id c) at_hash (utcnow_timestamp utc off) (cf_id_token_lifespan (hk_config h)) info claims.
