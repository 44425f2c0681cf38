(** A concrete environment, provider, clients, requests and runs, for the examples and the refutations. *)
From Coq Require Import String Ascii List NArith ZArith Bool.
From Verif Require Import Base BaseFacts Utf8 Base64 Json Url Webtools Crypto RefCrypto Jwk Jws Jwt Prog ProgFacts Http OAuth SpecOAuth Example ExampleFacts.
Import ListNotations.
Open Scope N_scope.

(** The runs use the real SHA-256 for code challenges, and for the MAC and the token hashes a checksum in place of
    HMAC and SHA-2: no proof below depends on them being one-way, and [coqchk], which has no virtual machine, would
    otherwise spend most of its time hashing.  Examples with HMAC-SHA-256 proper are in PropsJws and PropsJwt. *)
Definition checksum (acc : N) (m : bytes) : N := fold_left (fun h b => N.land (h * 5 + b + 1) 65535) m acc.
Definition spread (h : N) : bytes := concat (repeat [N.shiftr h 8; N.land h 255] 16).
Definition light_hash (salt : N) (m : bytes) : bytes := spread (checksum salt m).
Definition light : crypto :=
  {| c_hmac := fun h k m => light_hash (checksum 7 k) m;
     c_prime := c_prime ref; c_rsa_recover := c_rsa_recover ref; c_rsa_iqmp := c_rsa_iqmp ref; c_rsa_sign := c_rsa_sign ref;
     c_rsa_verify := c_rsa_verify ref; c_ec_mul := c_ec_mul ref; c_ec_sign := c_ec_sign ref; c_ec_verify := c_ec_verify ref;
     c_pem_private := c_pem_private ref; c_pem_public := c_pem_public ref;
     c_pem_export_private := c_pem_export_private ref; c_pem_export_public := c_pem_export_public ref |}.
Definition light_hashlib (n : str) : option (bytes -> bytes) :=
  if eqs n (lit "sha256") then Some (light_hash 1) else if eqs n (lit "sha384") then Some (light_hash 2)
  else if eqs n (lit "sha512") then Some (light_hash 3) else None.
Definition sha2 (n : str) : option (bytes -> bytes) :=
  if eqs n (lit "sha256") then Some (sha SHA256) else if eqs n (lit "sha384") then Some (sha SHA384)
  else if eqs n (lit "sha512") then Some (sha SHA512) else None.
Definition ref_env : env := {| e_crypto := light; e_hashlib := light_hashlib; e_sha256 := sha SHA256; e_set_order := fun l => l |}.

(** Clients of all kinds *)
Definition cb : str := lit "https://c.example/cb".
Definition all_grants : list str := [lit "authorization_code"; lit "refresh_token"; lit "client_credentials"].
Definition web : client := ex_client (lit "web") (Some (lit "s3cret")) (lit "client_secret_basic") [cb] all_grants [lit "code"] [lit "openid"; lit "profile"; lit "email"].
Definition post : client := ex_client (lit "post") (Some (lit "hush")) (lit "client_secret_post") [lit "https://p.example/cb"] [lit "client_credentials"] [] [lit "openid"; lit "admin"].
Definition app : client := ex_client (lit "app") None (lit "none") [lit "https://app.example/cb"] [lit "authorization_code"] [lit "code"] [lit "openid"].
Definition alice : user := {| us_id := lit "alice"; us_info := [(lit "email", PStr (lit "a@x.example")); (lit "email_verified", PBool true); (lit "given_name", PStr (lit "Alice"))] |}.

Definition ref_config : config :=
  {| cf_issuer := lit "https://op.example"; cf_scopes := [lit "openid"; lit "profile"; lit "email"]; cf_token_lifespan := 3600;
     cf_id_token_lifespan := 36000; cf_error_url := lit "/error" |}.
Definition prov : provider := {| pv_adapter := 1; pv_config := ref_config; pv_grants := [GCode; GClientCredentials; GRefresh] |}.
Definition oidc : hooks := add_hook prov (GrantClass GCode) no_hooks.

(** Requests; [req] is only applied where the constructor succeeds. *)
Definition dummy : request := {| rq_method := []; rq_url := []; rq_headers := []; rq_user := None; rq_body := None; rq_data := [] |}.
Definition req (method : string) (url : str) (headers : pdict) (body : option bytes) (u : option user) : request :=
  match make_request (lit method) url headers body u with Ok r => r | Err _ => dummy end.
Definition query (items : params) : str := match urlencode_ items with Ok q => q | Err _ => [] end.
Definition L (k v : string) : str * str := (lit k, lit v).
Definition authorization_url (items : params) : str := lit "https://op.example/authorize?" ++ query items.
(** RFC 7636 appendix B *)
Definition verifier : string := "dBjftJeZ4CVP-mB92K27uhbUJU1p1r_wW1gFWFOEjXk".
Definition challenge : string := "E9Melhoa2OwvFrEMTJguCHaoeK1t8URWbuGJSstw-cM".
Definition authz_items : params :=
  [L "response_type" "code"; L "client_id" "web"; (lit "redirect_uri", cb); L "scope" "openid email"; L "state" "x y";
   L "code_challenge" challenge; L "code_challenge_method" "S256"; L "nonce" "n1"].
Definition authz_req : request := req "GET" (authorization_url authz_items) [] None (Some alice).
Definition basic (i s : string) : pdict := [(lit "Authorization", PStr (lit "Basic " ++ b64encode false (lit i ++ 58 :: lit s)))].
Definition token_req (headers : pdict) (items : params) : request :=
  req "POST" (lit "https://op.example/token") headers (Some (query items)) None.
Definition code_items (code : str) : params :=
  [L "grant_type" "authorization_code"; (lit "code", code); (lit "redirect_uri", cb); L "code_verifier" verifier].
Definition code_req (code : str) : request := token_req (basic "web" "s3cret") (code_items code).
Definition refresh_req (token : str) : request := token_req (basic "web" "s3cret") [L "grant_type" "refresh_token"; (lit "refresh_token", token)].

(** The store of the example adapter *)
Definition store0 : store := {| st_clients := [web; post; app]; st_users := [alice]; st_codes := []; st_rts := [] |}.
Definition world0 : world := {| w_store := store0; w_count := 0; w_now := 1700000000000000 |}.
Definition go {A} (p : prog A) (w : world) : list obs * res A * world := run (ex_handler light false) p w.
Definition trace_of {A} (x : list obs * res A * world) : list obs := fst (fst x).
Definition result_of {A} (x : list obs * res A * world) : res A := snd (fst x).
Definition world_of {A} (x : list obs * res A * world) : world := snd x.
Lemma go_exec {A} (p : prog A) w : exec p (trace_of (go p w)) (result_of (go p w)).
Proof. unfold go, trace_of, result_of. destruct (run _ p w) as [[tr r] w'] eqn:H. simpl. eapply run_exec; eauto. Qed.
(** A run with given answers, for situations that the example adapter does not produce *)
Definition scripted {A} (H : forall T, eff T -> res T) (p : prog A) : list obs * res A :=
  let '(tr, r, _) := run (fun T e (s : unit) => (H T e, s)) p tt in (tr, r).
Lemma scripted_exec {A} H (p : prog A) : exec p (fst (scripted H p)) (snd (scripted H p)).
Proof. unfold scripted. destruct (run _ p tt) as [[tr r] w'] eqn:E. simpl. eapply run_exec; eauto. Qed.

(** The first run: authorization, exchange, refresh *)
Definition run1 := go (authorization_endpoint ref_env prov oidc authz_req) world0.
Definition the_code : str := lit "tok1".
Definition run2 := go (token_endpoint ref_env prov oidc (code_req the_code)) (world_of run1).
Definition body_of (x : res response) : result pyval := match x with V r => json_loads (rs_body r) | X _ => Err RuntimeError end.
Definition status_of (x : res response) : N := match x with V r => rs_status r | X _ => 0 end.
Definition location_of (x : res response) : pyval := match x with V r => dget (lit "Location") (rs_headers r) | X _ => PNone end.
Definition member (k : string) (x : result pyval) : pyval := match x with Ok (PDict d) => dget (lit k) d | _ => PNone end.

(** The names of the calls of a trace *)
Definition name_of (o : obs) : string :=
  match o with
  | OFindClient _ _ => "find_client" | OFindUser _ _ => "find_user" | OSaveCode _ _ _ _ _ => "save_authorization_code"
  | OGetCode _ _ => "get_authorization_code" | ODeleteCode _ _ => "delete_authorization_code" | OCreateAT _ _ _ _ => "create_access_token"
  | OCreateRT _ _ _ _ => "create_refresh_token" | OGetRT _ _ => "get_refresh_token" | ORevokeToken _ _ _ _ => "revoke_token"
  | OGetUserinfo _ _ _ _ => "get_userinfo" | OGetKeyInfo _ _ => "get_key_info" | ONow _ => "utcnow" | OSecretToken _ _ => "secret_token"
  | OSignRand _ => "sign"
  end%string.
Definition names (tr : list obs) : list string := map name_of tr.
(** More runs: revocation and consent, client credentials, refresh *)
Definition run3 := go (token_endpoint ref_env prov oidc (refresh_req (lit "tok8"))) (world_of run2).
Definition run4 := go (token_endpoint ref_env prov oidc (refresh_req (lit "tok8"))) (world_of run3).
Definition cc_req (items : params) : request :=
  token_req [] (L "grant_type" "client_credentials" :: L "client_id" "post" :: L "client_secret" "hush" :: items).
Definition run_cc (items : params) := go (token_endpoint ref_env prov oidc (cc_req items)) world0.
Definition revoke_req (headers : pdict) (items : params) : request := req "POST" (lit "https://op.example/revoke") headers (Some (query items)) None.
Definition run_revoke (headers : pdict) (items : params) := go (revocation_endpoint (revoke_req headers items)) (world_of run2).
Definition run_consent (items : params) := go (get_consent_data prov (req "GET" (authorization_url items) [] None None)) world0.
Definition run_authz (items : params) (u : option user) := go (authorization_endpoint ref_env prov oidc (req "GET" (authorization_url items) [] None u)) world0.
(** The store is asked for nothing that it refuses: every answer is scripted. *)
Definition answers (c : client) (u : option user) (ac : auth_code) (t : refresh_token) : forall T, eff T -> res T := fun T e =>
  match e in eff T return res T with
  | FindClient _ => V (Some c) | FindUser _ => V u | SaveCode _ _ _ _ => V tt | GetCode _ => V (Some ac) | DeleteCode _ => V tt
  | CreateAT _ _ _ => V (lit "AT") | CreateRT _ _ _ => V (Some (lit "RT")) | GetRT _ => V (Some t) | RevokeToken _ _ _ => V tt
  | GetUserinfo _ u _ => V [(lit "sub", PStr (us_id u))] | GetKeyInfo _ => V (SECRET_KEY, lit "HS256") | Now => V (1700000000000000, 0)%Z
  | SecretToken _ => V (lit "code") | SignRand => V []
  end.
Definition good_code (scopes : list str) : auth_code :=
  {| ac_client := lit "web"; ac_user := lit "alice"; ac_redirect := cb; ac_scopes := scopes; ac_challenge := lit challenge;
     ac_method := lit "S256"; ac_nonce := Some (lit "n1"); ac_exp := Naive 1700000600000000 |}.
Definition good_rt (scopes : list str) : refresh_token :=
  {| rt_client := lit "web"; rt_user := lit "alice"; rt_scopes := scopes; rt_exp := Naive 1700000600000000 |}.
