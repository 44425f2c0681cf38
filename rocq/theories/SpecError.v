(** Which error is sent for which failure: the checks of the endpoints in the order of their precedence. *)
From Coq Require Import String Ascii List NArith ZArith Bool.
From Verif Require Import Base Utf8 SpecCodec Json Webtools Jwk Prog Http OAuth SpecOAuth SpecRfc SpecReaders.
Import ListNotations.
Open Scope N_scope.

(** ** Authentication of clients *)

(** The request has credentials for the method [name]: the client [i] with the secret [s]. *)
Definition sends_credentials (r : request) (name i : str) (s : option str) : Prop :=
  i <> [] /\
  ((name = chars "client_secret_basic" /\ exists s', s = Some s' /\ s' <> [] /\ basic_credentials (rq_headers r) i s') \/
   (name = chars "client_secret_post" /\ form_has r "client_id" i /\ exists s', s = Some s' /\ s' <> [] /\ form_has r "client_secret" s') \/
   (name = chars "none" /\ form_has r "client_id" i /\ s = None /\ form_lacks r "client_secret")).
(** The methods in the order in which they are tried *)
Definition tried_before (name name' : str) : Prop :=
  (name = chars "client_secret_basic" /\ (name' = chars "client_secret_post" \/ name' = chars "none")) \/
  (name = chars "client_secret_post" /\ name' = chars "none").
(** [name] is the first of the methods accepted for which the request has credentials. *)
Definition uses (r : request) (methods : list str) (name i : str) (s : option str) : Prop :=
  sends_credentials r name i s /\ allowed_method methods name /\
  forall name' i' s', tried_before name' name -> allowed_method methods name' -> ~ sends_credentials r name' i' s'.
(** The client [c], found by these credentials, has them and is registered for the method. *)
Definition proved (r : request) (methods : list str) (tr : list obs) (c : client) : Prop :=
  exists name i s, uses r methods name i s /\ In (OFindClient i (V (Some c))) tr /\ cl_secret c = s /\ cl_auth_method c = name.

(** ** What an error says: its description, if it has one *)
Definition wording := option str -> Prop.
Definition nothing : wording := fun d => d = None.
Definition says (t : string) : wording := fun d => d = Some (chars t).
(** The text [a], a word of the request, the text [b] *)
Definition says_of (a : string) (P : str -> Prop) (b : string) : wording := fun d => exists w, P w /\ d = Some (chars a ++ w ++ chars b).

(** The checks of the credentials; [refused] is the outcome with this wording. *)
Definition credential_checks {A} (refused : wording -> A) (r : request) (tr : list obs) (methods : list str) : list (Prop * A) :=
  let used P := exists name i s, uses r methods name i s /\ P name i s in
  [(used (fun _ _ _ => True), refused nothing);
   (used (fun _ i _ => exists c, In (OFindClient i (V (Some c))) tr), refused (says "Client not found."));
   (used (fun _ i s => exists c, In (OFindClient i (V (Some c))) tr /\ cl_secret c = s), refused (says "Mismatching Client Secret."));
   (exists c, proved r methods tr c, refused (says_of "This Client is not allowed to use the method """ (fun name => used (fun n _ _ => n = name)) """."))].

(** ** Token endpoint *)

(** The parameter is present and not empty. *)
Definition supplied (r : request) (k : string) : Prop := exists v, data_has r k v /\ v <> [].
(** The request asks for the scopes [l]. *)
Definition asked (r : request) (l : list str) : Prop := exists s, data_has r "scope" s /\ s <> [] /\ word_list (fun c => In c white) s l.
(** The time that was read first *)
Definition first_time (tr : list obs) (now : Z) : Prop := exists t1 t2 off, tr = t1 ++ ONow (V (now, off)) :: t2 /\ forall y, ~ In (ONow y) t1.
Definition in_time (tr : list obs) (d : dtime) : Prop := exists t now, d = Naive t /\ first_time tr now /\ (now < t)%Z.

Local Open Scope string_scope.
Definition missing (k : string) : wording := says ("Missing required parameter """ ++ k ++ """.").
Definition invalid (k : string) : wording := says ("Invalid parameter """ ++ k ++ """.").
Definition no_parameters : wording := says "Missing request parameters.".
(** The first scope that the provider does not have *)
Definition first_unknown (cfg : config) (r : request) (s : str) : Prop :=
  exists l1 l2, asked r (l1 ++ s :: l2)%list /\ incl l1 (cf_scopes cfg) /\ ~ In s (cf_scopes cfg).
Definition unknown_scope (cfg : config) (r : request) : wording := says_of "Unsupported scope """ (first_unknown cfg r) """.".
Definition not_authorized : wording := says "This client is not authorized to request this scope.".

(** An error with its code and wording, or none *)
Definition refusal : Type := option (string * wording).
Definition type_checks (p : provider) (r : request) : list (Prop * refusal) :=
  [(rq_data r <> [], Some ("invalid_request", no_parameters));
   (supplied r "grant_type", Some ("invalid_request", invalid "grant_type"));
   (exists g, In g (pv_grants p) /\ data_has r "grant_type" (grant_type g), Some ("unsupported_grant_type", says_of "Unsupported grant_type """ (data_has r "grant_type") """."))].
Definition client_checks (r : request) (tr : list obs) (methods : list str) (gt : string) : list (Prop * refusal) :=
  (credential_checks (fun w => Some ("invalid_client", w)) r tr methods ++
  [(exists c, proved r methods tr c /\ In (chars gt) (cl_grants c), Some ("unauthorized_client", nothing))])%list.
Definition code_checks (sha256 : bytes -> bytes) (r : request) (tr : list obs) : list (Prop * refusal) :=
  let found P := exists c code ac, proved r [] tr c /\ data_has r "code" code /\ In (OGetCode code (V (Some ac))) tr /\ P c ac in
  (client_checks r tr [] "authorization_code" ++
  [(supplied r "code", Some ("invalid_request", invalid "code"));
   (supplied r "redirect_uri", Some ("invalid_request", invalid "redirect_uri"));
   (supplied r "code_verifier", Some ("invalid_request", invalid "code_verifier"));
   (found (fun _ _ => True), Some ("invalid_request", says "Invalid Authorization Grant."));
   (exists c uri, proved r [] tr c /\ data_has r "redirect_uri" uri /\ In uri (cl_redirects c), Some ("invalid_grant", says "Invalid Redirect URI."));
   (found (fun c ac => ac_client ac = cl_id c), Some ("invalid_grant", says "Mismatching Client ID."));
   (found (fun c ac => data_has r "redirect_uri" (ac_redirect ac)), Some ("invalid_grant", says "Mismatching Redirect URI."));
   (found (fun c ac => ac_method ac = chars "plain" \/ ac_method ac = chars "S256"), Some ("invalid_request", says "Unknown transform ""None""."));
   (found (fun c ac => exists v, data_has r "code_verifier" v /\ pkce_ok sha256 (ac_method ac) (ac_challenge ac) v), Some ("invalid_grant", says "PKCE challenge failure."));
   (found (fun c ac => in_time tr (ac_exp ac)), Some ("invalid_grant", says "Expired Authorization Code."));
   (found (fun c ac => exists u, In (OFindUser (ac_user ac) (V (Some u))) tr), Some ("invalid_request", says "No user found for this code."))])%list.
Definition scope_checks (cfg : config) (r : request) (tr : list obs) (methods : list str) : list (Prop * refusal) :=
  [(forall l, asked r l -> incl l (cf_scopes cfg), Some ("invalid_scope", unknown_scope cfg r));
   (exists c, proved r methods tr c /\ forall l, asked r l -> incl l (cl_allowed c (Some l)), Some ("invalid_scope", not_authorized))].
Definition credentials_checks (cfg : config) (r : request) (tr : list obs) : list (Prop * refusal) :=
  let methods := [chars "client_secret_basic"; chars "client_secret_post"] in
  (client_checks r tr methods "client_credentials" ++ scope_checks cfg r tr methods)%list.
Definition refresh_checks (cfg : config) (r : request) (tr : list obs) : list (Prop * refusal) :=
  let found P := exists c k t, proved r [] tr c /\ data_has r "refresh_token" k /\ In (OGetRT k (V (Some t))) tr /\ P c t in
  (client_checks r tr [] "refresh_token" ++
  [(supplied r "refresh_token", Some ("invalid_request", invalid "refresh_token"));
   (found (fun _ _ => True), Some ("invalid_request", says "Invalid Refresh Token."));
   (found (fun c t => rt_client t = cl_id c), Some ("invalid_client", nothing));
   (found (fun c t => in_time tr (rt_exp t)), Some ("invalid_request", says "Refresh Token expired."))] ++
  scope_checks cfg r tr [] ++
  [(found (fun c t => forall l, asked r l -> incl l (rt_scopes t)), Some ("invalid_scope", says "Invalid broader scope."))])%list.
(** The members of an error object: the code and the description *)
Definition tells (d : pdict) (code : string) (w : wording) : Prop :=
  lookup (chars "error") d = Some (PStr (chars code)) /\
  exists t, w t /\ lookup (chars "error_description") d = match t with Some s => Some (PStr s) | None => None end.
(** The response is the error named, or a success. *)
Definition token_verdict (z : response) (v : refusal) : Prop :=
  match v with Some (code, w) => rs_status z = 400 /\ exists d, json_body z d /\ tells d code w | None => rs_status z = 200 end.

(** ** Authorization endpoint *)

(** The error page of the provider, the redirect URI of the request with an error, or with a code *)
Inductive outcome := Page (error : string) (w : wording) | Back (error : string) (w : wording) | Granted.
Definition request_checks (r : request) : list (Prop * outcome) :=
  [(rq_data r <> [], Page "invalid_request" no_parameters);
   (supplied r "redirect_uri", Page "invalid_request" (missing "redirect_uri"));
   (supplied r "client_id", Page "invalid_request" (missing "client_id"));
   (supplied r "response_type", Page "invalid_request" (missing "response_type"))].
Definition authorization_checks (p : provider) (r : request) (tr : list obs) : list (Prop * outcome) :=
  let found P := exists cid c, data_has r "client_id" cid /\ In (OFindClient cid (V (Some c))) tr /\ P c in
  let cfg := pv_config p in
  (request_checks r ++
  [(rq_user r <> None, Back "access_denied" nothing);
   (data_has r "response_type" (chars "code") /\ In GCode (pv_grants p), Back "unsupported_response_type" (says_of "Unsupported response_type """ (data_has r "response_type") """."));
   (found (fun _ => True), Page "invalid_request" (says "Invalid client."));
   (found (fun c => exists uri, data_has r "redirect_uri" uri /\ In uri (cl_redirects c)), Page "invalid_request" (says "Invalid Redirect URI."));
   (found (fun c => In (chars "code") (cl_responses c)), Back "unauthorized_client" nothing);
   (supplied r "code_challenge", Back "invalid_request" (says "Invalid code challenge."));
   (exists ch, data_has r "code_challenge" ch /\ (43 <= length ch <= 128)%nat, Back "invalid_request" (says "The length of the code challenge MUST be between [43, 128] bytes long."));
   (data_has r "code_challenge_method" (chars "plain") \/ data_has r "code_challenge_method" (chars "S256"),
      Back "invalid_request" (says_of "Unknown code challenge """ (fun m => data_has r "code_challenge_method" m \/ data_lacks r "code_challenge_method" /\ m = chars "None") """."));
   (supplied r "scope", Back "invalid_request" (invalid "scope"));
   (forall l, asked r l -> incl l (cf_scopes cfg), Back "invalid_scope" (unknown_scope cfg r));
   (found (fun c => forall l, asked r l -> incl l (cl_allowed c (Some l))), Back "invalid_scope" not_authorized)])%list.
(** The parameters of a redirection with an error *)
Definition carries_error (ps : params) (code : string) (w : wording) : Prop :=
  (forall v, In (chars "error", v) ps <-> v = chars code) /\ exists t, w t /\ forall v, In (chars "error_description", v) ps <-> t = Some v.
Definition authorization_verdict (cfg : config) (r : request) (z : response) (v : outcome) : Prop :=
  match v with
  | Page code w => exists ps, redirects z (cf_error_url cfg) ps /\ carries_error ps code w
  | Back code w => exists uri ps, data_has r "redirect_uri" uri /\ redirects z uri ps /\ carries_error ps code w
  | Granted => exists uri code ps, data_has r "redirect_uri" uri /\ redirects z uri ps /\ In (chars "code", code) ps /\ forall w, ~ In (chars "error", w) ps
  end.

(** The data for the consent page: for any response type that the client is registered for *)
Definition consent_checks (r : request) (tr : list obs) : list (Prop * outcome) :=
  let found P := exists cid c, data_has r "client_id" cid /\ In (OFindClient cid (V (Some c))) tr /\ P c in
  (request_checks r ++
  [(found (fun _ => True), Page "invalid_request" (says "Invalid client."));
   (found (fun c => exists uri, data_has r "redirect_uri" uri /\ In uri (cl_redirects c)), Page "invalid_request" (says "Invalid Redirect URI."));
   (found (fun c => exists t, data_has r "response_type" t /\ In t (cl_responses c)), Back "unauthorized_client" nothing);
   (supplied r "scope", Back "invalid_request" (missing "scope"))])%list.
Definition consent_verdict (cfg : config) (r : request) (tr : list obs) (z : consent) (v : outcome) : Prop :=
  match v with
  | Granted => exists cid c s l, z = Consent c (cl_allowed c (Some l)) /\ data_has r "client_id" cid /\ In (OFindClient cid (V (Some c))) tr /\ data_has r "scope" s /\ word_list (fun c => In c white) s l
  | _ => exists q, z = ConsentRedirect q /\ authorization_verdict cfg r q v
  end.

(** ** Revocation endpoint *)

(** An error with its status, no response at all, or success *)
Inductive revocation_outcome := Refused (status : N) (error : string) (w : wording) | NoAnswer | Revoked.
Definition revocation_checks (r : request) (tr : list obs) : list (Prop * revocation_outcome) :=
  (credential_checks (Refused 401 "invalid_client") r tr [] ++
  [(exists k, form_has r "token" k /\ k <> [], NoAnswer);
   (forall h, form_has r "token_type_hint" h -> h <> [] -> h = chars "access_token" \/ h = chars "refresh_token", Refused 400 "unsupported_token_type" nothing)])%list.
Definition revocation_verdict (z : option response) (v : revocation_outcome) : Prop :=
  match v with
  | Refused status code w => exists q d, z = Some q /\ rs_status q = status /\ json_body q d /\ tells d code w
  | NoAnswer => z = None
  | Revoked => exists q, z = Some q /\ rs_status q = 200
  end.
