(** The properties of the OpenID Connect hook: C65-C68. *)
From Coq Require Import String Ascii List NArith ZArith Bool.
From Verif Require Import Base SpecCodec SpecKey Utf8 Base64 Json Url Webtools Crypto RefCrypto Jwk Jws SpecJws JwsRef Jwt SpecJwt Prog Http OAuth SpecOAuth SpecHistory Example ExampleFacts OAuthRef OAuthFacts RequestFacts AuthzFacts TokenFacts ResponseFacts IssueFacts RaiseFacts IdTokenFacts HistoryFacts StoreFacts OAuthWit OAuthEx HistoryWit.
Import ListNotations.
Open Scope N_scope.
(** C65 is refuted: a hook added to one provider runs for another one, with the adapter and issuer of the first ... *)
Theorem C65_other_provider_refuted : oidc = add_hook prov (GrantClass GCode) no_hooks /\ pv_adapter other <> pv_adapter prov /\
  exec (token_endpoint ref_env other oidc (code_req the_code)) (fst other_run) (snd other_run) /\
  In (OGetUserinfo (pv_adapter prov) alice [lit "openid"] (V [(lit "sub", PStr (lit "alice"))])) (fst other_run) /\
  id_issuer (snd other_run) = Ok (PStr (cf_issuer (pv_config prov))).
Proof. exact wit_shared_hook. Qed.
Print Assumptions C65_other_provider_refuted.
(** ... a hook added for the refresh token grant runs for the code grant ... *)
Theorem C65_other_grant_refuted : exec (token_endpoint ref_env prov (add_hook prov (GrantClass GRefresh) no_hooks) (code_req the_code)) (fst refresh_run) (snd refresh_run) /\
  id_issuer (snd refresh_run) = Ok (PStr (cf_issuer (pv_config prov))).
Proof. exact wit_hook_other_grant. Qed.
Print Assumptions C65_other_grant_refuted.
(** ... and a hook added by two providers, or twice, runs twice. *)
Theorem C65_twice_refuted : exec (token_endpoint ref_env prov (add_hook prov (GrantClass GCode) oidc) (code_req the_code)) (fst twice_run) (snd twice_run) /\
  length (filter (fun o => match o with OGetUserinfo _ _ _ _ => true | _ => false end) (fst twice_run)) = 2%nat.
Proof. exact wit_hook_twice. Qed.
Print Assumptions C65_twice_refuted.
(** What add_hook does: it appends a hook of this provider, once for each matching grant, to the one table there is. *)
Theorem C65_add_hook_partial : forall p k hs, let n := length (filter (fun g => isinstance g k) (pv_grants p)) in
  let own := repeat {| hk_adapter := pv_adapter p; hk_config := pv_config p |} n in
  hk_request (add_hook p k hs) = hk_request hs ++ own /\ hk_response (add_hook p k hs) = hk_response hs ++ own.
Proof. exact p_add_hook. Qed.
Print Assumptions C65_add_hook_partial.
Example C65_example : oidc = {| hk_request := [{| hk_adapter := 1; hk_config := ref_config |}]; hk_response := [{| hk_adapter := 1; hk_config := ref_config |}] |}.
Proof. reflexivity. Qed.

(** C66 is refuted: openid is looked for as a substring of the scopes joined by spaces ... *)
Theorem C66_substring_refuted : exists ac, ~ In (lit "openid") (ac_scopes ac) /\
  In (OGetCode the_code (V (Some ac))) (fst sub_run) /\
  exec (token_endpoint ref_env prov oidc (code_req the_code)) (fst sub_run) (snd sub_run) /\
  status_of (snd sub_run) = 200 /\ exists t, member "id_token" (body_of (snd sub_run)) = PStr t.
Proof. exact wit_substring. Qed.
Print Assumptions C66_substring_refuted.
(** ... and exactly that decides. *)
Theorem C66_when_partial : forall E p hs r tr x, exec (token_endpoint E p hs r) tr (V x) -> rs_status x = 200 ->
  data_has r "grant_type" (lit "authorization_code") -> hk_response hs <> [] ->
  exists code ac d, data_has r "code" code /\ In (OGetCode code (V (Some ac))) tr /\ json_body x d /\
    ((exists t, lookup (lit "id_token") d = Some (PStr t)) <-> exists s, In s (ac_scopes ac) /\ occurs (lit "openid") s).
Proof. exact p_id_token_when. Qed.
Print Assumptions C66_when_partial.
Theorem C66_no_hook : forall E p hs r tr x, exec (token_endpoint E p hs r) tr (V x) -> rs_status x = 200 ->
  data_has r "grant_type" (lit "authorization_code") -> hk_response hs = [] ->
  exists d, json_body x d /\ lookup (lit "id_token") d = None.
Proof. exact p_no_hook_no_id. Qed.
Print Assumptions C66_no_hook.
Example C66_example : status_of (result_of run2) = 200 /\ hk_response oidc <> [] /\ occurs (lit "openid") (lit "openid") /\
  (exists t, member "id_token" (body_of (result_of run2)) = PStr t) /\
  (let run := scripted (answers web (Some alice) (good_code [lit "email"]) (good_rt [])) (token_endpoint ref_env prov oidc (code_req the_code)) in
   status_of (snd run) = 200 /\ member "id_token" (body_of (snd run)) = PNone).
Proof. split; [wit|]. split; [discriminate|]. split; [exists [], []; reflexivity|]. split; [apply is_str_ex; wit|]. wits. Qed.

(** C67.  Of the ID token: the user information given by the application takes precedence over the claims of the library. *)
Theorem C67_content : forall E p hs r tr x, exec (token_endpoint E p hs r) tr (V x) -> rs_status x = 200 ->
  data_has r "grant_type" (lit "authorization_code") ->
  exists d, json_body x d /\ forall t, lookup (lit "id_token") d = Some (PStr t) ->
    exists i c code ac u a h key alg info utc off utc2 off2 at_hash claims,
      authenticates r i c /\ data_has r "code" code /\ In (OGetCode code (V (Some ac))) tr /\ In (OFindUser (ac_user ac) (V (Some u))) tr /\
      lookup (lit "access_token") d = Some (PStr a) /\ In h (hk_response hs) /\
      In (OGetKeyInfo (hk_adapter h) (V (key, alg))) tr /\
      (exists sc, In (OGetUserinfo (hk_adapter h) u sc (V info)) tr) /\
      In (ONow (V (utc, off))) tr /\ In (ONow (V (utc2, off2))) tr /\
      half_hash (e_hashlib E) a alg at_hash /\
      (NoDup (keys info) -> id_claims (cf_issuer (hk_config h)) (cl_id c) at_hash (utcnow_timestamp utc off) (cf_id_token_lifespan (hk_config h)) info claims) /\
      (json_wf (PDict info) = true -> constructible (e_crypto E) key -> backend_correct (e_crypto E) (jmat key) ->
       forall k' now1 now2, constructible (e_crypto E) k' -> verifying_key key k' ->
         (utcnow_timestamp utc2 off2 <= now1)%Z -> (utcnow_timestamp utc2 off2 <= now2)%Z ->
         (forall z, lookup (lit "exp") claims = Some (PInt z) -> z = 0%Z \/ (now1 < z)%Z /\ (now2 < z)%Z) ->
         exists tk, jwt_decode_str (e_crypto E) now1 now2 t (Some k') (PStr alg) true PNone = Ok tk /\ tclaims tk = claims).
Proof. exact p_id_token_response. Qed.
Print Assumptions C67_content.
Example C67_example : claims_of (result_of run2) =
  Ok [(lit "iss", PStr (lit "https://op.example")); (lit "aud", PStr (lit "web")); (lit "exp", PInt 1700036000); (lit "iat", PInt 1700000000);
      (lit "at_hash", PStr (lit "UvhS-FL4UvhS-FL4UvhS-A")); (lit "sub", PStr (lit "alice")); (lit "email", PStr (lit "a@x.example")); (lit "email_verified", PBool true)] /\
  (* OpenID Connect Core 1.0, appendix A.3 *)
  create_half_hash sha2 (lit "jHkWEdUXMU1BwAsC4vtUsZwnNvTIxEl0z9K3vx5KF0Y") (lit "RS256") = Ok (lit "77QmUPtjPfzWtF2AnpK9RQ").
Proof. wits. Qed.

(** C68 is refuted: the nonce is stored with the code and never read again; unless the user information has one, the ID token has none. *)
Theorem C68_nonce_lost_refuted : forall E p hs r tr x, exec (token_endpoint E p hs r) tr (V x) -> rs_status x = 200 ->
  data_has r "grant_type" (lit "authorization_code") ->
  (forall aid u sc info, In (OGetUserinfo aid u sc (V info)) tr -> json_wf (PDict info) = true /\ lookup (lit "nonce") info = None) ->
  exists d, json_body x d /\ forall t, lookup (lit "id_token") d = Some (PStr t) ->
    exists aid key alg utc off claims, In (OGetKeyInfo aid (V (key, alg))) tr /\ In (ONow (V (utc, off))) tr /\ lookup (lit "nonce") claims = None /\
      (constructible (e_crypto E) key -> backend_correct (e_crypto E) (jmat key) ->
       forall k' now1 now2, constructible (e_crypto E) k' -> verifying_key key k' ->
         (utcnow_timestamp utc off <= now1)%Z -> (utcnow_timestamp utc off <= now2)%Z ->
         (forall z, lookup (lit "exp") claims = Some (PInt z) -> z = 0%Z \/ (now1 < z)%Z /\ (now2 < z)%Z) ->
         exists tk, jwt_decode_str (e_crypto E) now1 now2 t (Some k') (PStr alg) true PNone = Ok tk /\ tclaims tk = claims).
Proof. exact p_nonce_lost. Qed.
Print Assumptions C68_nonce_lost_refuted.
Theorem C68_example_adapter_refuted : forall u sc, lookup (lit "nonce") (ex_userinfo u sc) = None.
Proof. exact ex_userinfo_nonce. Qed.
Print Assumptions C68_example_adapter_refuted.
Theorem C68_nonce_saved_partial : forall E p hs r tr x code ad c u y, exec (authorization_endpoint E p hs r) tr x -> In (OSaveCode code ad c u y) tr -> made r ->
  (hk_request hs <> [] -> ad_nonce ad = lookup (lit "nonce") (rq_data r)) /\ (hk_request hs = [] -> ad_nonce ad = None).
Proof. exact p_nonce_saved. Qed.
Print Assumptions C68_nonce_saved_partial.
Example C68_example : data_has authz_req "nonce" (lit "n1") /\ (exists ad, In (OSaveCode the_code ad web alice (V tt)) (trace_of run1) /\ ad_nonce ad = Some (lit "n1")) /\
  rmap (lookup (lit "nonce")) (claims_of (result_of run2)) = Ok None.
Proof. split; [wit|]. split; [exists run1_data; split; [apply nth_error_In with (n := 2%nat); wit|reflexivity]|wit]. Qed.
