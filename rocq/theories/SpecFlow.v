(** Specifications for the properties C80 onwards: cooperating applications, refresh tokens in histories, the texts
    of responses, the example application. *)
From Coq Require Import String Ascii List NArith ZArith Bool.
From Verif Require Import Base Utf8 SpecCodec Json Webtools Jwk Prog Http OAuth SpecOAuth SpecHistory.
Import ListNotations.
Open Scope N_scope.

(** ** What the application finds during a request *)
Definition finds_client (i : str) (c : client) (tr : list obs) : Prop := forall y, In (OFindClient i y) tr -> y = V (Some c).
Definition finds_code (code : str) (ac : auth_code) (tr : list obs) : Prop := forall y, In (OGetCode code y) tr -> y = V (Some ac).
Definition finds_refresh (t : str) (rt : refresh_token) (tr : list obs) : Prop := forall y, In (OGetRT t y) tr -> y = V (Some rt).
Definition finds_user (i : str) (u : user) (tr : list obs) : Prop := forall y, In (OFindUser i y) tr -> y = V (Some u).
(** Every reading of the clock is before [t]. *)
Definition before (t : Z) (tr : list obs) : Prop := forall now off, In (ONow (V (now, off))) tr -> (now < t)%Z.

(** The stored code belongs to this client and redirect URI, matches the verifier, and has not expired. *)
Definition matching_code (E : env) (c : client) (uri v : str) (tr : list obs) (ac : auth_code) : Prop :=
  ac_redirect ac = uri /\ ac_client ac = cl_id c /\ pkce_ok (e_sha256 E) (ac_method ac) (ac_challenge ac) v /\
  exists t, ac_exp ac = Naive t /\ before t tr.
(** The token request of RFC 6749 section 4.1.3 with RFC 7636 section 4.5 *)
Definition exchange_request (p : provider) (r : request) (i : str) (c : client) (code uri v : str) : Prop :=
  In GCode (pv_grants p) /\ In (lit "authorization_code") (cl_grants c) /\ presents r i c /\
  data_has r "grant_type" (lit "authorization_code") /\ data_has r "code" code /\ data_has r "redirect_uri" uri /\ data_has r "code_verifier" v /\
  code <> [] /\ uri <> [] /\ v <> [] /\ In uri (cl_redirects c).

(** RFC 6749 section 5.1: a token response for the access token [a] valid for [life] seconds, with the scopes [sc] (not
    repeated where they are as requested: [None]) and the refresh token [rt]. *)
Definition token_answer (x : response) (a : str) (life : Z) (rt : option str) (sc : list str) : Prop :=
  rs_status x = 200 /\ exists d, json_body x d /\
    lookup (lit "access_token") d = Some (PStr a) /\ lookup (lit "token_type") d = Some (PStr (lit "Bearer")) /\
    lookup (lit "expires_in") d = Some (PInt life) /\ lookup (lit "refresh_token") d = option_map PStr rt /\
    lookup (lit "scope") d = match sc with [] => None | _ => Some (PStr (join [32] sc)) end.
(** The refresh token that was created, if any *)
Definition created_refresh (c : client) (o : owner) (sc : list str) (rt : option str) (tr : list obs) : Prop :=
  if ins (lit "refresh_token") (cl_grants c) then In (OCreateRT c o sc (V rt)) tr else rt = None.

(** RFC 6749 section 3.3: the request asks for the scopes [l], in this order, separated by single spaces; or for none. *)
Definition scope_name (w : str) : Prop := w <> [] /\ Forall (fun c => ~ In c SpecReaders.white) w.
Definition asks (r : request) (l : list str) : Prop := l <> [] /\ Forall scope_name l /\ data_has r "scope" (join [32] l).
Definition asks_none (r : request) : Prop := data_lacks r "scope".
(** Decoded parameters of an authorization request that follows RFC 6749 section 4.1.1 and RFC 7636 section 4.3. *)
Definition code_request (p : provider) (r : request) (u : user) (cid uri : str) (scopes : list str) (ch m : str) : Prop :=
  rq_user r = Some u /\ data_has r "response_type" (lit "code") /\ data_has r "client_id" cid /\ data_has r "redirect_uri" uri /\
  asks r scopes /\ data_has r "code_challenge" ch /\ (43 <= length ch <= 128)%nat /\ data_has r "code_challenge_method" m /\
  (m = lit "plain" \/ m = lit "S256") /\ In GCode (pv_grants p) /\ incl scopes (cf_scopes (pv_config p)).
(** The texts of [secret_token] are not empty and have no lone surrogates. *)
Definition secrets_ok (tr : list obs) : Prop := forall n t, In (OSecretToken n (V t)) tr -> t <> [] /\ scalar_str t.

(** ** Codes are kept: the other half of the contract of the adapter (oauth2/adapter.py 61-111).  A code that was saved and
    not deleted since is found, with these data. *)
Definition touches_code (code : str) (o : obs) : bool :=
  saves_code code o || match o with ODeleteCode k _ => eqs k code | _ => false end.
Definition keeps_codes (tr : list obs) : Prop :=
  forall t1 code ad c u b y t2, tr = t1 ++ OSaveCode code ad c u (V tt) :: b ++ OGetCode code (V y) :: t2 ->
  (forall o, In o b -> touches_code code o = false) -> exists ac, y = Some ac /\ holds ac ad c u.

(** ** Refresh tokens *)
(** Requests interleaving at calls, each of which may have stopped at any point (a crash, or not yet served). *)
Definition running (E : env) (qs : list incoming) (log : list (nat * obs)) : Prop :=
  (forall n o, In (n, o) log -> exists q, nth_error qs n = Some q) /\
  (forall n q, nth_error qs n = Some q -> stopped E q (calls_of n log)).
Definition rt_holds (rt : refresh_token) (c : client) (o : owner) (sc : list str) : Prop :=
  rt_client rt = cl_id c /\ rt_scopes rt = sc /\
  match o with OwnUser u => rt_user rt = us_id u | OwnClient c' => rt_user rt = cl_id c' | OwnNone => True end.
(** The contract of the adapter (oauth2/adapter.py 177-240): a refresh token that is found was created, with these data, and
    not revoked by its client since. *)
Definition honours_rt (tr : list obs) : Prop :=
  forall t1 t rt t2, tr = t1 ++ OGetRT t (V (Some rt)) :: t2 ->
  exists a c o sc b, t1 = a ++ OCreateRT c o sc (V (Some t)) :: b /\ rt_holds rt c o sc /\
    forall c' h, cl_id c' = cl_id c -> ~ In (ORevokeToken c' t h (V tt)) b.
(** No refresh token is created without an owner. *)
Definition owned (tr : list obs) : Prop := forall c sc t, ~ In (OCreateRT c OwnNone sc (V (Some t))) tr.
(** Users are found by their identifier. *)
Definition users_by_id (tr : list obs) : Prop := forall i u, In (OFindUser i (V (Some u))) tr -> us_id u = i.
(** The clients that are found restrict what they are asked for (oauth2/mixins.py 150 [get_allowed_scopes]). *)
Definition clients_restrict (tr : list obs) : Prop := forall i c, In (OFindClient i (V (Some c))) tr -> restricts c.
(** The authorization request [q] was made by the user with the identifier of [u] for the client [c], and asked for all of [sc]. *)
Definition granted_by (q : incoming) (tr : list obs) (c : client) (u : user) (sc : list str) : Prop :=
  in_service q = Authorize /\ (exists u0, rq_user (in_request q) = Some u0 /\ us_id u0 = us_id u) /\
  (exists i0 c0, data_has (in_request q) "client_id" i0 /\ In (OFindClient i0 (V (Some c0))) tr /\ cl_id c0 = cl_id c) /\
  forall w, In w sc -> requested (in_request q) w.
