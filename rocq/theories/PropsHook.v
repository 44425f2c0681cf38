(** Signing keys, exchanges with the OpenID Connect hook, and the tokens and claims of the example application: C94-C97. *)
From Coq Require Import String Ascii List NArith ZArith Bool.
From Verif Require Import Base BaseFacts SpecCodec SpecKey Utf8 Base64 Json JsonFacts Url Webtools Crypto RefCrypto Jwk Jws SpecJws JwsRef Jwt SpecJwt Prog Http OAuth SpecOAuth SpecHistory Example ExampleFacts OAuthRef OAuthFacts RequestFacts ResponseFacts RaiseFacts OAuthWit HistoryWit SpecFlow FlowWit SpecHook HookFacts ExTokenFacts HookWit.
Import ListNotations.
Open Scope N_scope.
(** C94.  A key makes a token exactly if it permits the header and suits the algorithm. *)
Theorem C94_signing : forall C rand d h alg payload k, constructible C k -> NoDup (keys d) -> JsonWebSignatureHeader (PDict d) = Ok h ->
  lookup (lit "alg") d = Some (PStr alg) -> scalar_val (PDict d) -> signs_always C (jmat k) ->
  ((exists token, serialize C rand {| jheader := h; jpayload := payload |} (Some k) = Ok token) <->
   key_permits k d /\ (alg = lit "none" \/ suits alg (jmat k))).
Proof. exact p_signing. Qed.
Print Assumptions C94_signing.
Example C94_example : exists h, constructible ref SECRET_KEY /\ NoDup (keys sign_header) /\ JsonWebSignatureHeader (PDict sign_header) = Ok h /\
  lookup (lit "alg") sign_header = Some (PStr (lit "HS256")) /\ scalar_val (PDict sign_header) /\ signs_always ref (jmat SECRET_KEY) /\
  key_permits SECRET_KEY sign_header /\ suits (lit "HS256") (jmat SECRET_KEY) /\ ~ suits (lit "RS256") (jmat SECRET_KEY).
Proof.
  eexists. split; [apply secret_key_ok|]. split; [apply nodupb_spec; reflexivity|]. split; [vm_compute; reflexivity|]. split; [reflexivity|]. split; [exact sign_scalar|].
  split; [apply secret_signs|]. split; [exact secret_permits|]. split; [exact secret_suits|exact not_suits_rs].
Qed.

(** C95.  With the hook, too, every conforming exchange is answered with the tokens, and with an ID token exactly if a
    granted scope contains "openid". *)
Theorem C95_exchange : forall E p hs r tr x i c code uri v ac u, (forall b, bytes_ok (e_sha256 E b)) -> hashes E ->
  exec (token_endpoint E p hs r) tr x -> no_raise tr -> texts_ok tr -> hk_response hs <> [] ->
  exchange_request p r i c code uri v -> matching_code E c uri v tr ac -> ac_scopes ac <> [] -> scalar_str (cl_id c) ->
  finds_client i c tr -> finds_code code ac tr -> finds_user (ac_user ac) u tr ->
  (forall h, In h (hk_response hs) -> hook_served E h tr /\ quick (cf_id_token_lifespan (hk_config h)) tr) ->
  exists z a rt d, x = V z /\ In (OCreateAT c (OwnUser u) (ac_scopes ac) (V a)) tr /\ created_refresh c (OwnUser u) (ac_scopes ac) rt tr /\
    token_answer z a (cf_token_lifespan (pv_config p)) rt (ac_scopes ac) /\ json_body z d /\
    ((exists t, lookup (lit "id_token") d = Some (PStr t)) <-> exists s, In s (ac_scopes ac) /\ occurs (lit "openid") s).
Proof. exact p_code_oidc. Qed.
Print Assumptions C95_exchange.
Example C95_example : (forall b, bytes_ok (e_sha256 ref_env b)) /\ hashes ref_env /\
  exec (token_endpoint ref_env prov oidc (code_req the_code)) (trace_of run2) (result_of run2) /\ no_raise (trace_of run2) /\ texts_ok (trace_of run2) /\
  exchange_request prov (code_req the_code) (lit "web") web the_code cb (lit verifier) /\
  matching_code ref_env web cb (lit verifier) (trace_of run2) the_auth_code /\
  finds_client (lit "web") web (trace_of run2) /\ finds_code the_code the_auth_code (trace_of run2) /\ finds_user (ac_user the_auth_code) alice (trace_of run2) /\
  (forall h, In h (hk_response oidc) -> hook_served ref_env h (trace_of run2) /\ quick (cf_id_token_lifespan (hk_config h)) (trace_of run2)) /\
  hk_response oidc = [the_hook] /\ ac_scopes the_auth_code = [lit "openid"; lit "email"] /\ status_of (result_of run2) = 200.
Proof.
  split; [exact ref_sha|]. split; [exact ref_hashes|]. split; [exact HookWit.run2_exec|]. split; [exact HookWit.run2_good|]. split; [exact run2_texts|].
  split; [exact code_exchange_request|]. split; [exact run2_matching|]. split; [exact (proj1 run2_finds)|]. split; [exact (proj1 (proj2 run2_finds))|].
  split; [exact (proj2 (proj2 run2_finds))|]. split; [intros h [<-|[]]; split; [exact run2_served|exact run2_quick]|]. split; [reflexivity|]. split; [reflexivity|]. wit.
Qed.

(** C96.  Access tokens of the example *)
Theorem C96_access_token : forall C aware s c o sc a s', mac_bytes C -> ex_step C aware s (OCreateAT c o sc (V a)) s' ->
  exists now sub, owner_id o = Ok sub /\ access_token C SECRET_KEY now sub c sc a.
Proof. exact p_access_token. Qed.
Print Assumptions C96_access_token.
Theorem C96_access_response : forall E C aware p hs r tr x s s', mac_bytes C -> exec (token_endpoint E p hs r) tr (V x) -> rs_status x = 200 ->
  data_has r "grant_type" (lit "authorization_code") -> ex_steps C aware s tr s' ->
  exists i c code ac u d a now, authenticates r i c /\ In (OFindClient i (V (Some c))) tr /\ data_has r "code" code /\ In (OGetCode code (V (Some ac))) tr /\
    In (OFindUser (ac_user ac) (V (Some u))) tr /\
    json_body x d /\ lookup (lit "access_token") d = Some (PStr a) /\ access_token C SECRET_KEY now (us_id u) c (ac_scopes ac) a.
Proof. exact p_access_response. Qed.
Print Assumptions C96_access_response.
Example C96_example : mac_bytes light /\ exec (token_endpoint ref_env prov oidc (code_req the_code)) (trace_of run2) (V (response_of (result_of run2))) /\
  rs_status (response_of (result_of run2)) = 200 /\ data_has (code_req the_code) "grant_type" (lit "authorization_code") /\
  ex_steps light false (w_store (world_of run1)) (trace_of run2) (w_store (world_of run2)) /\ count_at (trace_of run2) = 1%nat.
Proof.
  split; [exact light_mac|]. split; [exact run2_sent|]. split; [wit|]. split; [wit|]. split; [exact run2_steps|wit].
Qed.

(** C97 is refuted: the example discloses when the account was created, which no scope asks for. *)
Theorem C97_disclosure_refuted : exists u scopes k v, lookup k (ex_userinfo u scopes) = Some v /\ k <> lit "sub" /\ lookup k (us_info u) = Some v /\
  forall s, ~ In k (standard_claims s).
Proof. exact wit_created. Qed.
Print Assumptions C97_disclosure_refuted.
(** Apart from that, it discloses what the granted scopes ask for, and nothing else. *)
Theorem C97_only_partial : forall u scopes k v, lookup k (ex_userinfo u scopes) = Some v -> k <> lit "created_at" ->
  (k = lit "sub" /\ v = PStr (us_id u)) \/ exists s, In s scopes /\ In k (standard_claims s) /\ lookup k (us_info u) = Some v.
Proof. exact p_userinfo_only. Qed.
Print Assumptions C97_only_partial.
Theorem C97_all_partial : forall u scopes s k v, In s scopes -> In k (standard_claims s) -> k <> lit "name" -> lookup k (us_info u) = Some v -> v <> PNone ->
  lookup k (ex_userinfo u scopes) = Some v.
Proof. exact p_userinfo_all. Qed.
Print Assumptions C97_all_partial.
(** In the answer of the token endpoint: whoever decodes the ID token, in whichever way, sees only these claims. *)
Theorem C97_id_token_partial : forall E C aware p hs r tr x s s', mac_bytes (e_crypto E) -> exec (token_endpoint E p hs r) tr (V x) -> rs_status x = 200 ->
  data_has r "grant_type" (lit "authorization_code") -> ex_steps C aware s tr s' ->
  exists code ac u d, data_has r "code" code /\ In (OGetCode code (V (Some ac))) tr /\ In (OFindUser (ac_user ac) (V (Some u))) tr /\ json_body x d /\
    (json_wf (PDict (us_info u)) = true -> Forall scope_name (ac_scopes ac) ->
     forall t C' now1 now2 key algv v options tk, lookup (lit "id_token") d = Some (PStr t) -> jwt_decode_str C' now1 now2 t key algv v options = Ok tk ->
     forall k y, lookup k (tclaims tk) = Some y ->
       In k (lit "created_at" :: token_claims) \/ (k = lit "sub" /\ y = PStr (us_id u)) \/
       exists sc, In sc (ac_scopes ac) /\ In k (standard_claims sc) /\ lookup k (us_info u) = Some y).
Proof. exact p_id_discloses. Qed.
Print Assumptions C97_id_token_partial.
Example C97_example : keys (ex_userinfo bob [lit "openid"; lit "profile"]) = [lit "sub"; lit "given_name"; lit "created_at"] /\
  ex_userinfo alice [lit "openid"; lit "email"] = alice_info /\
  json_wf (PDict (us_info alice)) = true /\ Forall scope_name (ac_scopes the_auth_code) /\
  In (OGetCode the_code (V (Some the_auth_code))) (trace_of run2) /\
  exists t tk, lookup (lit "id_token") (dict_of (result_of run2)) = Some (PStr t) /\
    jwt_decode_str light 1700000000 1700000000 t (Some SECRET_KEY) (PStr (lit "HS256")) true PNone = Ok tk /\
    lookup (lit "email") (tclaims tk) = Some (PStr (lit "a@x.example")) /\ lookup (lit "given_name") (tclaims tk) = None /\
    lookup (lit "given_name") (us_info alice) = Some (PStr (lit "Alice")).
Proof.
  split; [wit|]. split; [wit|]. split; [wit|]. split; [exact the_scope_names|]. split; [apply nth_error_In with (n := 1%nat); wit|exact run2_id_token].
Qed.
