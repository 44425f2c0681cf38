(** The properties about which error is sent for which failure: C129-C131. *)
From Coq Require Import String Ascii List NArith ZArith Bool.
From Verif Require Import Base Utf8 SpecCodec Json Webtools Crypto Jwk Prog Http OAuth SpecOAuth SpecReaders SpecRfc SpecError Example OAuthRef OAuthWit FlowWit RfcWit ErrorFacts ErrorWit.
Import ListNotations.
Open Scope string_scope.
Open Scope list_scope.
Open Scope N_scope.

(** C129: the error of a token response is that of the first check that fails, with its description; the response is a success
    if all hold.  An unknown or missing grant type: *)
Theorem C129_type : forall E p hs r tr z, exec (token_endpoint E p hs r) tr (V z) -> no_oauth_raise tr ->
  (forall g, In g (pv_grants p) -> ~ data_has r "grant_type" (grant_type g)) ->
  exists v, decided (type_checks p r) None v /\ token_verdict z v.
Proof. exact p_type_checks. Qed.
Print Assumptions C129_type.
Example C129_example_type : Forall unserved type_attempts /\ errors type_attempts = words_of ["invalid_request"; "invalid_request"; "unsupported_grant_type"] /\
  texts type_attempts = texts_of ["Missing request parameters."; "Invalid parameter ""grant_type""."; "Unsupported grant_type ""password""."].
Proof. split; [exact type_attempts_ok|]. wits. Qed.
(** The exchange of a code *)
Theorem C129_code : forall E, (forall b, bytes_ok (e_sha256 E b)) -> forall p hs r tr z, exec (token_endpoint E p hs r) tr (V z) -> no_oauth_raise tr ->
  In GCode (pv_grants p) -> data_has r "grant_type" (chars "authorization_code") ->
  exists v, decided (code_checks (e_sha256 E) r tr) None v /\ token_verdict z v.
Proof. exact p_code_checks. Qed.
Print Assumptions C129_code.
(** One attempt for each check: nothing proved (a wrong secret, no credentials), not registered for the grant, a URI of somebody else (of another
    client, unregistered), the code of another client, issued for another URI, an unknown method, a wrong verifier, expired, no user; then a success *)
Example C129_example_code : (forall b, bytes_ok (e_sha256 ref_env b)) /\ Forall (attempt_ok GCode) (code_attempts ++ missing_attempts) /\
  errors code_attempts = words_of ["invalid_client"; "invalid_client"; "unauthorized_client"; "invalid_grant"; "invalid_grant"; "invalid_grant"; "invalid_grant";
    "invalid_request"; "invalid_grant"; "invalid_grant"; "invalid_request"] ++ [PNone] /\
  errors missing_attempts = words_of ["invalid_request"; "invalid_request"] /\ error_of (result_of unknown_run) = PStr (lit "invalid_request") /\
  texts code_attempts = texts_of ["Mismatching Client Secret."; ""; ""; "Invalid Redirect URI."; "Invalid Redirect URI."; "Mismatching Client ID."; "Mismatching Redirect URI.";
    "Unknown transform ""None""."; "PKCE challenge failure."; "Expired Authorization Code."; "No user found for this code."; ""] /\
  texts missing_attempts = texts_of ["Invalid parameter ""redirect_uri""."; "Invalid parameter ""code_verifier""."] /\ text_of (result_of unknown_run) = PStr (lit "Invalid Authorization Grant.") /\
  text_of (snd other_method) = PStr (lit "This Client is not allowed to use the method ""client_secret_basic"".").
Proof. split; [exact ref_sha|]. split; [apply attempts_ok; [left; reflexivity|wit]|]. wits. Qed.
(** Client credentials *)
Theorem C129_credentials : forall E p hs r tr z, exec (token_endpoint E p hs r) tr (V z) -> no_oauth_raise tr ->
  In GClientCredentials (pv_grants p) -> data_has r "grant_type" (chars "client_credentials") ->
  exists v, decided (credentials_checks (pv_config p) r tr) None v /\ token_verdict z v.
Proof. exact p_credentials_checks. Qed.
Print Assumptions C129_credentials.
(** A wrong secret, a public client, not registered for the grant, a scope that is unknown or not allowed for the client; then a success *)
Example C129_example_credentials : Forall (attempt_ok GClientCredentials) credentials_attempts /\
  errors credentials_attempts = words_of ["invalid_client"; "invalid_client"; "unauthorized_client"; "invalid_scope"; "invalid_scope"] ++ [PNone] /\
  texts credentials_attempts = texts_of ["Mismatching Client Secret."; ""; ""; "Unsupported scope ""admin""."; "This client is not authorized to request this scope."; ""].
Proof. split; [apply attempts_ok; [right; left; reflexivity|wit]|]. wits. Qed.
(** Refresh *)
Theorem C129_refresh : forall E p hs r tr z, exec (token_endpoint E p hs r) tr (V z) -> no_oauth_raise tr ->
  In GRefresh (pv_grants p) -> data_has r "grant_type" (chars "refresh_token") ->
  exists v, decided (refresh_checks (pv_config p) r tr) None v /\ token_verdict z v.
Proof. exact p_refresh_checks. Qed.
Print Assumptions C129_refresh.
(** A wrong secret, not registered for the grant, no token, the token of another client, expired, a scope that is unknown or was not granted; then a success *)
Example C129_example_refresh : Forall (attempt_ok GRefresh) refresh_attempts /\
  errors refresh_attempts = words_of ["invalid_client"; "unauthorized_client"; "invalid_request"; "invalid_client"; "invalid_request"; "invalid_scope"; "invalid_scope"] ++ [PNone] /\
  error_of (result_of unknown_refresh) = PStr (lit "invalid_request") /\
  texts refresh_attempts = texts_of ["Mismatching Client Secret."; ""; "Invalid parameter ""refresh_token""."; ""; "Refresh Token expired."; "Unsupported scope ""admin""."; "Invalid broader scope."; ""].
Proof. split; [apply attempts_ok; [right; right; left; reflexivity|wit]|]. wits. Qed.

(** C130: the same for the authorization endpoint: the error page of the provider, or the client with this error, or with a code *)
Theorem C130_authorization : forall E p hs r tr z, exec (authorization_endpoint E p hs r) tr (V z) -> made r -> no_oauth_raise tr -> tokens_ok tr ->
  exists v, decided (authorization_checks p r tr) Granted v /\ authorization_verdict (pv_config p) r z v.
Proof. exact p_authorization_checks. Qed.
Print Assumptions C130_authorization.
Example C130_example : Forall (fun x => authz_ok (fst x) (snd x)) authz_attempts /\
  map (fun x => sent (result_of (run_authz (fst x) (snd x)))) authz_attempts =
    [page "invalid_request"; page "invalid_request"; page "invalid_request"; back cb "access_denied"; back cb "unsupported_response_type"; page "invalid_request"; page "invalid_request";
     back (lit "https://p.example/cb") "unauthorized_client"; back cb "invalid_request"; back cb "invalid_request"; back cb "invalid_request"; back cb "invalid_request";
     back cb "invalid_scope"; back (lit "https://app.example/cb") "invalid_scope"; (cb, None)] /\
  map (fun x => described (result_of (run_authz (fst x) (snd x)))) authz_attempts =
    told ["Missing required parameter ""redirect_uri""."; "Missing required parameter ""client_id""."; "Missing required parameter ""response_type""."; "";
      "Unsupported response_type ""token""."; "Invalid client."; "Invalid Redirect URI."; ""; "Invalid code challenge.";
      "The length of the code challenge MUST be between [43, 128] bytes long."; "Unknown code challenge ""S512""."; "Invalid parameter ""scope"".";
      "Unsupported scope ""admin""."; "This client is not authorized to request this scope."; ""].
Proof. split; [apply authz_rows; wit|]. wits. Qed.
(** and before the consent of the user *)
Theorem C130_consent : forall p r tr z, exec (get_consent_data p r) tr (V z) -> made r -> no_oauth_raise tr ->
  exists v, decided (consent_checks r tr) Granted v /\ consent_verdict (pv_config p) r tr z v.
Proof. exact p_consent_checks. Qed.
Print Assumptions C130_consent.
Example C130_example_consent : Forall consent_ok (authz_items :: consent_attempts) /\
  map (fun x => consent_sent (result_of (run_consent x))) consent_attempts =
    [page "invalid_request"; page "invalid_request"; page "invalid_request"; page "invalid_request"; page "invalid_request"; back cb "unauthorized_client"; back cb "invalid_request"] /\
  map (fun x => consent_text (result_of (run_consent x))) consent_attempts =
    told ["Missing required parameter ""redirect_uri""."; "Missing required parameter ""client_id""."; "Missing required parameter ""response_type""."; "Invalid client."; "Invalid Redirect URI."; "";
      "Missing required parameter ""scope""."].
Proof. split; [apply consent_rows; wit|]. wits. Qed.

(** C131: the same for the revocation endpoint *)
Theorem C131_revocation : forall r tr z, exec (revocation_endpoint r) tr (V z) -> no_oauth_raise tr ->
  exists v, decided (revocation_checks r tr) Revoked v /\ revocation_verdict z v.
Proof. exact p_revocation_checks. Qed.
Print Assumptions C131_revocation.
Example C131_example : Forall revocation_ok revocation_attempts /\
  map (fun x => revocation_sent (result_of (run_revoke (fst x) (snd x)))) revocation_attempts =
    [Some (401, PStr (lit "invalid_client"), PStr (lit "Mismatching Client Secret.")); None; Some (400, PStr (lit "unsupported_token_type"), PNone); Some (200, PNone, PNone)].
Proof. split; [apply revocation_rows; wit|wit]. Qed.
