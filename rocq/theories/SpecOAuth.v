(** Specifications used by the statements of PropsOAuth*: OAuth 2.1 (draft-parecki-oauth-v2-1-03), RFC 7636,
    RFC 6749, RFC 7009 in terms of requests, traces of calls to the application, and responses. *)
From Coq Require Import String Ascii List NArith ZArith Bool.
From Verif Require Import Base Utf8 Base64 Json Url Webtools SpecCodec SpecReaders SpecUrl SpecWrite Jwk Prog Http OAuth.
Import ListNotations.
Open Scope N_scope.

(** ** Credentials of a request *)

(** RFC 7617: the Authorization header is "Basic" (in any case) followed by the base64 of the UTF-8 of
    [i ++ ":" ++ s], where [i] has no colon. *)
Definition basic_credentials (headers : pdict) (i s : str) : Prop :=
  exists auth m t b, carries headers auth /\ In 32 auth /\ scheme_and_token auth m t /\ same_letters m (chars "basic") /\
    Forall (fun c => c < 128) t /\ base64_text std_values t b /\ rfc3629_str (i ++ 58 :: s) = Some b /\ ~ In 58 i.
Definition form_has (r : request) (k : string) (v : str) : Prop := lookup (lit k) (form r) = Some v.
Definition form_lacks (r : request) (k : string) : Prop := lookup (lit k) (form r) = None.
Definition data_has (r : request) (k : string) (v : str) : Prop := lookup (lit k) (rq_data r) = Some v.
Definition data_lacks (r : request) (k : string) : Prop := lookup (lit k) (rq_data r) = None.

(** The request [r] proves to be the client [c], named [i] in it, by the method that [c] is registered for. *)
Definition authenticates (r : request) (i : str) (c : client) : Prop :=
  i <> [] /\
  ((exists s, s <> [] /\ basic_credentials (rq_headers r) i s /\ cl_secret c = Some s /\
      cl_auth_method c = lit "client_secret_basic") \/
   (exists s, s <> [] /\ form_has r "client_id" i /\ form_has r "client_secret" s /\ cl_secret c = Some s /\
      cl_auth_method c = lit "client_secret_post") \/
   (form_has r "client_id" i /\ form_lacks r "client_secret" /\ cl_secret c = None /\
      cl_auth_method c = lit "none")).

(** The method is among those that the grant accepts (an empty list: all). *)
Definition allowed_method (methods : list str) (name : str) : Prop := methods = [] \/ In name methods.
(** There is no Authorization header with a space, or it is one of another scheme. *)
Definition no_basic (headers : pdict) : Prop :=
  (forall auth, carries headers auth -> ~ In 32 auth) \/
  exists auth m t, carries headers auth /\ scheme_and_token auth m t /\ ~ same_letters m (chars "basic").
(** RFC 7617 in canonical form: one space and padded base64 *)
Definition basic_header (headers : pdict) (i s : str) : Prop :=
  exists m b, same_letters m (chars "basic") /\ ~ In 58 i /\ i <> [] /\ s <> [] /\ scalar_str i /\ scalar_str s /\
    rfc3629_str (i ++ 58 :: s) = Some b /\ carries headers (m ++ 32 :: rfc4648 b).
(** The request carries the credentials of [c] by exactly one method, the one [c] is registered for, in
    canonical form. *)
Inductive presents (r : request) (i : str) (c : client) : Prop :=
| by_basic : forall s, basic_header (rq_headers r) i s ->
    cl_secret c = Some s -> cl_auth_method c = lit "client_secret_basic" -> presents r i c
| by_post : forall s, no_basic (rq_headers r) -> i <> [] -> s <> [] ->
    form_has r "client_id" i -> form_has r "client_secret" s ->
    cl_secret c = Some s -> cl_auth_method c = lit "client_secret_post" -> presents r i c
| by_none : no_basic (rq_headers r) -> i <> [] ->
    form_has r "client_id" i -> form_lacks r "client_secret" ->
    cl_secret c = None -> cl_auth_method c = lit "none" -> presents r i c.
(** An Authorization header with a space but without two words, or a Basic one that is not ASCII *)
Definition bad_basic (r : request) : Prop :=
  exists auth, carries (rq_headers r) auth /\ In 32 auth /\
    ((~ exists m t, scheme_and_token auth m t) \/
     exists m t c, scheme_and_token auth m t /\ same_letters m (chars "basic") /\ In c t /\ 128 <= c).
(** The values of the parameters have no lone surrogates. *)
Definition scalar_data (data : params) : Prop := Forall (fun kv => scalar_str (snd kv)) data.
(** A Python set keeps its elements, in some order. *)
Definition order_ok (E : env) : Prop := forall l x, In x (e_set_order E l) <-> In x l.

(** ** Traces *)

(** The exception that a call raised, if any *)
Definition raised (o : obs) : option oexn :=
  let f {A} (r : res A) := match r with V _ => None | X e => Some e end in
  match o with
  | OFindClient _ r => f r | OFindUser _ r => f r | OSaveCode _ _ _ _ r => f r | OGetCode _ r => f r
  | ODeleteCode _ r => f r | OCreateAT _ _ _ r => f r | OCreateRT _ _ _ r => f r | OGetRT _ r => f r
  | ORevokeToken _ _ _ r => f r | OGetUserinfo _ _ _ r => f r | OGetKeyInfo _ r => f r
  | ONow r => f r | OSecretToken _ r => f r | OSignRand r => f r
  end.
(** No call of the trace raised. *)
Definition no_raise (tr : list obs) : Prop := forall o, In o tr -> raised o = None.
(** No call of the trace raised an OAuth2Error: the application only fails with exceptions of its own. *)
Definition no_oauth_raise (tr : list obs) : Prop := forall o e, In o tr -> raised o <> Some (OA e).
(** The headers of an OAuth2Error that the application raises form a dict. *)
Definition dict_errors (tr : list obs) : Prop := forall o e, In o tr -> raised o = Some (OA e) -> NoDup (keys (oe_headers e)).

(** [before a b tr]: [b] occurs in [tr] and at each of its occurrences [a] occurred earlier. *)
Definition precedes (a b : obs) (tr : list obs) : Prop :=
  forall t1 t2, tr = t1 ++ b :: t2 -> In a t1.

Definition creates_at (o : obs) : bool := match o with OCreateAT _ _ _ _ => true | _ => false end.
Definition creates_rt (o : obs) : bool := match o with OCreateRT _ _ _ _ => true | _ => false end.
Definition saves (o : obs) : bool := match o with OSaveCode _ _ _ _ _ => true | _ => false end.
Definition deletes (o : obs) : bool := match o with ODeleteCode _ _ => true | _ => false end.
Definition revokes (o : obs) : bool := match o with ORevokeToken _ _ _ _ => true | _ => false end.
Definition count (f : obs -> bool) (tr : list obs) : nat := length (filter f tr).

(** ** PKCE: RFC 7636 section 4.6 *)
Definition pkce_ok (sha256 : bytes -> bytes) (method challenge verifier : str) : Prop :=
  (method = lit "plain" /\ challenge = verifier) \/
  (method = lit "S256" /\ Forall (fun c => c < 128) verifier /\ challenge = rfc4648_url (sha256 verifier)).

(** ** Responses *)

(** The response sends the user agent to [uri] followed by a question mark and the query [q]; [l] is [uri]
    made safe for a header (C13: it is [uri] itself when that is a URI). *)
Definition sends (x : response) (uri q : str) : Prop :=
  exists l, rs_status x = 303 /\ header_text uri l /\ lookup (lit "Location") (rs_headers x) = Some (PStr (l ++ 63 :: q)).
(** ... and the query holds exactly the parameters [ps]. *)
Definition redirects (x : response) (uri : str) (ps : params) : Prop := exists q, sends x uri q /\ query_text ps q.
(** The request was made by the constructor [Request(..)]. *)
Definition made (r : request) : Prop := exists m url h b u, make_request m url h b u = Ok r.
Definition state_params (state : option str) : params := match state with Some s => [(lit "state", s)] | None => [] end.
(** The body of a response is the JSON text of the object [d], as RFC 8259 has it and as [json.dumps] writes it. *)
Definition json_body (x : response) (d : pdict) : Prop :=
  exists t, rfc3629_str t = Some (rs_body x) /\ written (PDict d) t /\ json_text false t (PDict d).
Definition header_is (x : response) (k v : string) : Prop := lookup (lit k) (rs_headers x) = Some (PStr (lit v)).
(** RFC 6749 section 5.2: the error codes of the token endpoint *)
Definition token_error_codes : list str :=
  map lit ["invalid_request"; "invalid_client"; "invalid_grant"; "unauthorized_client"; "unsupported_grant_type"; "invalid_scope"]%string.
(** No member is null. *)
Definition no_null (d : pdict) : Prop := Forall (fun kv => snd kv <> PNone) d.

(** The contract of [ClientMixin.get_allowed_scopes] (oauth2/mixins.py 150-162): of the requested scopes,
    those the client may use. *)
Definition restricts (c : client) : Prop := forall l x, In x (cl_allowed c (Some l)) -> In x l.

(** [w] is one of the tokens of [s] separated by white space (RFC 6749 section 3.3: scope-token). *)
Definition token_of (w s : str) : Prop :=
  w <> [] /\ Forall (fun c => ~ In c white) w /\
  exists a b, s = a ++ w ++ b /\ (a = [] \/ exists a' c, a = a' ++ [c] /\ In c white) /\
    (b = [] \/ exists c b', b = c :: b' /\ In c white).
(** The request asks for the scope [x]. *)
Definition requested (r : request) (x : str) : Prop := exists s, data_has r "scope" s /\ token_of x s.
(** The tokens and scopes that the application gives have no lone surrogates, so that they have a UTF-8 encoding. *)
Definition texts_ok (tr : list obs) : Prop :=
  (forall c o sc a, In (OCreateAT c o sc (V a)) tr -> scalar_str a /\ Forall scalar_str sc) /\
  (forall c o sc a, In (OCreateRT c o sc (V (Some a))) tr -> scalar_str a).
(** The codes that [secret_token] gives are not empty (C09). *)
Definition tokens_ok (tr : list obs) : Prop := forall n, ~ In (OSecretToken n (V [])) tr.

(** The claims of an ID token of [issuer] for [aud], issued at [now]: those that the application gives as user
    information, and where it is silent those of OpenID Connect Core sections 2 and 3.1.3.6. *)
Definition id_claims (issuer aud at_hash : str) (now life : Z) (info c : pdict) : Prop :=
  forall k, lookup k c =
    match lookup k info with
    | Some PNone => None
    | Some v => Some v
    | None => if eqs k (lit "iss") then Some (PStr issuer) else if eqs k (lit "aud") then Some (PStr aud)
              else if eqs k (lit "exp") then Some (PInt (now + life)%Z) else if eqs k (lit "iat") then Some (PInt now)
              else if eqs k (lit "at_hash") then Some (PStr at_hash) else None
    end.
(** The base64url of the left half of the digest of [token] under the hash of the algorithm [alg] *)
Definition half_hash (hashlib : str -> option (bytes -> bytes)) (token alg at_hash : str) : Prop :=
  exists h b, hashlib (lit "sha" ++ skipn 2 alg) = Some h /\ rfc3629_str token = Some b /\
    (bytes_ok (h b) -> at_hash = rfc4648_url (firstn (Nat.div (length (h b)) 2) (h b))).
