(** Properties C169 and C170: what answers tell about secrets, in terms of SpecHide.v. *)
From Coq Require Import String Ascii List NArith ZArith Bool.
From Verif Require Import Base Webtools Jwk Prog Http OAuth SpecOAuth Example OAuthRef App SpecApp AppWit SpecHide HideFacts HideWit.
Import ListNotations.
Open Scope N_scope.

(** C169: give every client another secret and every user other attributes, such that what the request offers is right for the
    same clients as before; then the endpoint makes the same calls and answers the same. *)
Theorem C169_token_hides_secrets : forall E d p hs r tr x, hidden_from d r -> exec (token_endpoint E p hs r) tr x ->
  exec (token_endpoint E p hs (other_request d r)) (map (other_call d) tr) x.
Proof. exact c169_token. Qed.
Print Assumptions C169_token_hides_secrets.
Theorem C169_revocation_hides_secrets : forall d r tr x, hidden_from d r -> exec (revocation_endpoint r) tr x ->
  exec (revocation_endpoint (other_request d r)) (map (other_call d) tr) x.
Proof. exact c169_revocation. Qed.
Print Assumptions C169_revocation_hides_secrets.
Theorem C169_authorization_hides_secrets : forall E d p hs r tr x, exec (authorization_endpoint E p hs r) tr x ->
  exec (authorization_endpoint E p hs (other_request d r)) (map (other_call d) tr) x.
Proof. exact c169_authorization. Qed.
Print Assumptions C169_authorization_hides_secrets.
Theorem C169_consent_hides_secrets : forall d p r tr x, exec (get_consent_data p r) tr x ->
  exec (get_consent_data p (other_request d r)) (map (other_call d) tr) (outcome (other_consent d) x).
Proof. exact c169_consent. Qed.
Print Assumptions C169_consent_hides_secrets.
(** A guess at a secret that is another one, and a request of another client *)
Example C169_example : hidden_from (mask true) guess_req /\ exec (token_endpoint ref_env prov oidc guess_req) (trace_of guess_run) (result_of guess_run) /\
  member "error" (body_of (result_of guess_run)) = PStr (lit "invalid_client") /\ secrets (trace_of guess_run) = [Some (lit "s3cret")] /\
  secrets (map (other_call (mask true)) (trace_of guess_run)) = [Some (lit "0ther")] /\
  hidden_from (mask true) (cc_req []) /\ exec (token_endpoint ref_env prov oidc (cc_req [])) (trace_of other_run) (result_of other_run) /\
  status_of (result_of other_run) = 200 /\ secrets (trace_of other_run) = [Some (lit "hush")].
Proof. exact c169_example. Qed.

(** C170: the same for every interleaved history of the example application, from data bases that differ in the secrets of clients
    and the passwords of users that no request of the history submits. *)
Theorem C170_history_hides_secrets : forall d, (forall u, ds_info d u = us_info u) -> forall E p hs C aware qs log t t',
  (forall n g w, nth_error qs n = Some (g, w) -> hidden_from_web d w) ->
  app_running E p hs qs log -> app_steps C aware t (map snd log) t' ->
  app_running E p hs qs (other_log d log) /\ app_steps C aware (other_tables d t) (map snd (other_log d log)) (other_tables d t') /\
  forall n g w x, nth_error qs n = Some (g, w) -> aexec (application E p hs g w) (acalls_of n log) x -> aexec (application E p hs g w) (acalls_of n (other_log d log)) x.
Proof. exact c170. Qed.
Print Assumptions C170_history_hides_secrets.
(** Wrong guesses at a password and at a secret, then a request of another client *)
Example C170_example : (forall u, ds_info (mask false) u = us_info u) /\ (forall n g w, nth_error wrong_visits n = Some (g, w) -> hidden_from_web (mask false) w) /\
  app_running ref_env prov oidc wrong_visits wrong_log /\ app_steps light false tables0 (map snd wrong_log) (aw_tables (AppWit.after wrong_visits aworld0)) /\
  map a_password (tb_accounts tables0) = [lit "correct horse"] /\ map a_password (tb_accounts (other_tables (mask false) tables0)) = [lit "battery"] /\
  map cl_secret (st_clients (tb_store (other_tables (mask false) tables0))) = [Some (lit "0ther"); Some (lit "hush"); None].
Proof. exact c170_example. Qed.
