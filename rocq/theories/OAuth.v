(** Model of src/psion/oauth2 (client authentication, grants, endpoints, provider) and of the hook
    src/psion/oidc/flows/authorization_code.py. *)
From Coq Require Import String Ascii List NArith ZArith Bool.
From Verif Require Import Base Utf8 Base64 Json Url Webtools Crypto Jwk Jws Jwt Prog Http.
Import ListNotations.
Open Scope N_scope.

(** ** Python helpers *)

(** [s.split()] *)
Fixpoint words_aux (s acc : str) : list str :=
  match s with
  | [] => match acc with [] => [] | _ => [acc] end
  | c :: r => if py_space c
              then match acc with [] => words_aux r [] | _ => acc :: words_aux r [] end
              else words_aux r (acc ++ [c])
  end.
Definition words (s : str) : list str := words_aux s [].
(** [sub in s] for two strings *)
Fixpoint prefixb (a s : str) : bool :=
  match a, s with
  | [], _ => true
  | x :: a', y :: s' => (x =? y) && prefixb a' s'
  | _, _ => false
  end.
Fixpoint substr (a s : str) : bool :=
  prefixb a s || match s with [] => false | _ :: r => substr a r end.
(** [" ".join(l)] *)
Definition unwords (l : list str) : str := join [32] l.

(** A parameter when it is truthy.  All values of request.data are str (models/http.py 70-71), so the
    [isinstance(.., str)] tests of the code always succeed. *)
Definition arg (k : string) (d : params) : option str :=
  match lookup (lit k) d with Some [] => None | o => o end.
Definition param (k : string) (d : params) : option str := lookup (lit k) d.

Definition eqo (a b : option str) : bool :=
  match a, b with Some x, Some y => eqs x y | None, None => true | _, _ => false end.
Definition subsetb (a b : list str) : bool := forallb (fun x => ins x b) a.
Fixpoint eql (a b : list str) : bool :=
  match a, b with
  | [], [] => true
  | x :: a', y :: b' => eqs x y && eql a' b'
  | _, _ => false
  end.
(** [set(a).intersection(b)] as a list without duplicates *)
Fixpoint inter (a b : list str) : list str :=
  match a with
  | [] => []
  | x :: a' => if ins x b && negb (ins x a') then x :: inter a' b else inter a' b
  end.

(** What the library computes with but does not define: the cryptography back end, [hashlib], SHA-256,
    and the order in which a [set] of strings is iterated (it depends on the hash seed of the process). *)
Record env := {
  e_crypto : crypto;
  e_hashlib : str -> option (bytes -> bytes);
  e_sha256 : bytes -> bytes;
  e_set_order : list str -> list str
}.

(** A hook object: [AuthorizationCodeFlow(adapter, config)] (oidc/flows/authorization_code.py 24-26), the
    only hook class of the library. *)
Record hook := { hk_adapter : N; hk_config : config }.
(** grants/base.py 52-57 [__hooks__]: the objects registered at the two checkpoints for which
    AuthorizationCodeFlow has a method, in the order of iteration of the set. *)
Record hooks := { hk_request : list hook; hk_response : list hook }.

Section WithEnv.
Variable E : env.

(** ** Client authentication *)

(** authentication/methods/client_secret_basic.py 25-46 *)
Definition auth_basic (r : request) : prog (option client) :=
  do creds <- Ret (lift (get_basic_authorization (rq_headers r))) ;;
  match creds with
  | Some (((_ :: _) as i), ((_ :: _) as s)) =>
      let headers := [(lit "WWW-Authenticate", PStr (lit "Basic"))] in
      do oc <- call (FindClient i) ;;
      match oc with
      | None => throw (oerr InvalidClient (Some (lit "Client not found.")) None headers)
      | Some c =>
          if negb (eqo (cl_secret c) (Some s)) then
            throw (oerr InvalidClient (Some (lit "Mismatching Client Secret.")) None headers)
          else if negb (eqs (cl_auth_method c) (lit "client_secret_basic")) then
            throw (oerr InvalidClient (Some (lit "This Client is not allowed to use the method ""client_secret_basic"".")) None headers)
          else ret (Some c)
      end
  | _ => ret None
  end.

(** authentication/methods/client_secret_post.py 31-52 *)
Definition auth_post (r : request) : prog (option client) :=
  let body := form r in
  match arg "client_id" body, arg "client_secret" body with
  | Some i, Some s =>
      do oc <- call (FindClient i) ;;
      match oc with
      | None => throw (oerr InvalidClient (Some (lit "Client not found.")) None [])
      | Some c =>
          if negb (eqo (cl_secret c) (Some s)) then
            throw (oerr InvalidClient (Some (lit "Mismatching Client Secret.")) None [])
          else if negb (eqs (cl_auth_method c) (lit "client_secret_post")) then
            throw (oerr InvalidClient (Some (lit "This Client is not allowed to use the method ""client_secret_post"".")) None [])
          else ret (Some c)
      end
  | _, _ => ret None
  end.

(** authentication/methods/none.py 29-50 *)
Definition auth_none (r : request) : prog (option client) :=
  let body := form r in
  match arg "client_id" body, param "client_secret" body with
  | Some i, None =>
      do oc <- call (FindClient i) ;;
      match oc with
      | None => throw (oerr InvalidClient (Some (lit "Client not found.")) None [])
      | Some c =>
          if negb (eqo (cl_secret c) None) then
            throw (oerr InvalidClient (Some (lit "Mismatching Client Secret.")) None [])
          else if negb (eqs (cl_auth_method c) (lit "none")) then
            throw (oerr InvalidClient (Some (lit "This Client is not allowed to use the method ""none"".")) None [])
          else ret (Some c)
      end
  | _, _ => ret None
  end.

(** authentication/methods/__init__.py 1-4, client_authentication.py 29-32: the registered methods in the
    order of their definition.  Methods added by the application are in Ext.v. *)
Definition auth_methods : list (str * (request -> prog (option client))) :=
  [(lit "client_secret_basic", auth_basic); (lit "client_secret_post", auth_post); (lit "none", auth_none)].

(** authentication/client_authentication.py 34-65 [ClientAuthentication.__call__];
    [methods] is [None] or a list, an empty list counting as None. *)
Fixpoint authenticate_loop (l : list (str * (request -> prog (option client)))) (methods : list str) (r : request) : prog client :=
  match l with
  | [] => throw (oerr InvalidClient None None [])
  | (name, m) :: rest =>
      if (match methods with [] => false | _ => true end) && negb (ins name methods)
      then authenticate_loop rest methods r
      else do oc <- m r ;;
           match oc with
           | None => authenticate_loop rest methods r
           | Some c => ret c
           end
  end.
Definition authenticate (r : request) (methods : list str) : prog client := authenticate_loop auth_methods methods r.

(** ** Grants: grants/base.py *)

(** grants/base.py 63-107 [_create_token] *)
Definition create_token (access_token : str) (expires_in : Z) (refresh_token : option str) (scopes : list str) : pdict :=
  FullDict [(lit "access_token", PStr access_token);
            (lit "token_type", PStr (lit "Bearer"));
            (lit "expires_in", PInt expires_in);
            (lit "refresh_token", pstr refresh_token);
            (lit "scope", match scopes with [] => PNone | _ => PStr (unwords scopes) end)] [].

(** grants/base.py 151-156: the first unsupported scope *)
Fixpoint check_supported (cfg : config) (scopes : list str) (state : option str) : res unit :=
  match scopes with
  | [] => V tt
  | s :: r => if ins s (cf_scopes cfg) then check_supported cfg r state
              else oraise InvalidScope (lit "Unsupported scope """ ++ s ++ lit """.") state
  end.
(** grants/base.py 128-161 [_validate_requested_scopes] *)
Definition validate_requested_scopes (cfg : config) (scopes : option (list str)) (c : client) (state : option str) : res unit :=
  match scopes with
  | None => V tt
  | Some l =>
      let? _ := check_supported cfg l state in
      if subsetb l (cl_allowed c (Some l)) then V tt
      else oraise InvalidScope (lit "This client is not authorized to request this scope.") state
  end.

(** ** The OpenID Connect hook: oidc/flows/authorization_code.py *)

(** oidc/flows/authorization_code.py 28-33 [authorization_request]: the nonce, when truthy *)
Definition oidc_authorization_request (data : params) : option str := arg "nonce" data.

(** oidc/flows/authorization_code.py 43-88 [_generate_id_token]; [scope] is [token["scope"]].
    The clock is read three times: line 69, in [IDToken] (jwt.py 43) and in [JsonWebToken] (jwt.py 43). *)
Definition generate_id_token (h : hook) (token : pdict) (scope : str) (c : client) (u : user) : prog str :=
  do (key, alg) <- call (GetKeyInfo (hk_adapter h)) ;;
  do info <- call (GetUserinfo (hk_adapter h) u (words scope)) ;;
  do (utc, off) <- call Now ;;
  let now := utcnow_timestamp utc off in
  do access_token <- Ret (match lookup (lit "access_token") token with
                          | Some (PStr s) => V s | Some _ => X (Py TypeError) | None => X (Py KeyError) end) ;;
  do at_hash <- Ret (lift (create_half_hash (e_hashlib E) access_token alg)) ;;
  let claims := dupdate [(lit "iss", PStr (cf_issuer (hk_config h)));
                         (lit "aud", PStr (cl_id c));
                         (lit "exp", PInt (now + cf_id_token_lifespan (hk_config h))%Z);
                         (lit "iat", PInt now);
                         (lit "at_hash", PStr at_hash)] info in
  do (utc1, off1) <- call Now ;;
  do claims1 <- Ret (lift (IDToken (utcnow_timestamp utc1 off1) (PDict claims) PNone)) ;;
  do kid <- Ret (match lookup (lit "kid") (jdata key) with Some v => V v | None => X (Py KeyError) end) ;;
  do (utc2, off2) <- call Now ;;
  do t <- Ret (lift (JsonWebToken (utcnow_timestamp utc2 off2) (PDict claims1)
                 (PDict [(lit "alg", PStr alg); (lit "typ", PStr (lit "JWT")); (lit "kid", kid)]))) ;;
  do rand <- call SignRand ;;
  Ret (lift (jwt_encode (e_crypto E) rand t (Some key))).

(** oidc/flows/authorization_code.py 36-41 [token_response]: what the token dict is updated with *)
Definition oidc_token_response (h : hook) (token : pdict) (c : client) (u : user) : prog pdict :=
  match lookup (lit "scope") token with
  | Some (PStr scope) =>
      if substr (lit "openid") scope then
        do t <- generate_id_token h token scope c u ;;
        ret [(lit "id_token", PStr t)]
      else ret []
  | Some _ => throw (Py TypeError)
  | None => throw (Py KeyError)
  end.
(** grants/base.py 109-126 [_execute_hook] with the loop of grants/authorization_code.py 310-314 *)
Fixpoint run_token_hooks (l : list hook) (token : pdict) (c : client) (u : user) : prog pdict :=
  match l with
  | [] => ret token
  | h :: r => do upd <- oidc_token_response h token c u ;;
              run_token_hooks r (full_update token upd) c u
  end.

(** ** Authorization code grant: grants/authorization_code.py *)

(** grants/authorization_code.py 20-28, 51-54 [_challenges] *)
Definition plain_challenge (challenge verifier : str) : result bool := Ok (eqs challenge verifier).
Definition S256_challenge (challenge verifier : str) : result bool :=
  let! v := ascii_encode verifier in
  Ok (eqs challenge (to_string (base64url_encode (e_sha256 E v)))).
Definition challenges (method : str) : option (str -> str -> result bool) :=
  if eqs method (lit "plain") then Some plain_challenge
  else if eqs method (lit "S256") then Some S256_challenge
  else None.

(** The loop of grants/authorization_code.py 190-192 with the hooks' result: each gives the nonce of the
    request, when there is one. *)
Definition nonce_of (hs : hooks) (data : params) : option str :=
  match hk_request hs with [] => None | _ => oidc_authorization_request data end.

(** grants/authorization_code.py 113-194 [_validate_authorization_request].  Line 160-162 can not raise:
    a truthy str passes. *)
Definition validate_authorization_request (hs : hooks) (data : params) : res auth_data :=
  let state := param "state" data in
  match arg "code_challenge" data with
  | None => oraise InvalidRequest (lit "Invalid code challenge.") state
  | Some ch =>
      if (Nat.ltb (length ch) 43 || Nat.ltb 128 (length ch))%bool then
        oraise InvalidRequest (lit "The length of the code challenge MUST be between [43, 128] bytes long.") state
      else
        let method := param "code_challenge_method" data in
        match match method with Some m => challenges m | None => None end with
        | None => oraise InvalidRequest (lit "Unknown code challenge """ ++ (match method with Some m => m | None => lit "None" end) ++ lit """.") state
        | Some _ =>
            match arg "scope" data with
            | None => oraise InvalidRequest (lit "Invalid parameter ""scope"".") state
            | Some scope =>
                match param "redirect_uri" data with
                | None => X (Py KeyError)
                | Some uri =>
                    V {| ad_challenge := ch; ad_method := match method with Some m => m | None => [] end;
                         ad_redirect := uri; ad_scopes := words scope; ad_state := state;
                         ad_nonce := nonce_of hs data |}
                end
            end
        end
  end.

(** grants/authorization_code.py 470-485 with the response of line 103 *)
Definition authorization_response (uri code : str) (state : option str) : res str :=
  lift (urlencode uri [(lit "code", PStr code); (lit "state", pstr state)]).

(** grants/authorization_code.py 56-111 [authorize] *)
Definition authorize (cfg : config) (hs : hooks) (data : params) (c : client) (u : user) : prog str :=
  do ad <- Ret (validate_authorization_request hs data) ;;
  do _ <- Ret (validate_requested_scopes cfg (Some (ad_scopes ad)) c (ad_state ad)) ;;
  do code <- call (SecretToken 64) ;;
  do _ <- call (SaveCode code ad c u) ;;
  Ret (authorization_response (ad_redirect ad) code (ad_state ad)).

(** [datetime.utcnow() >= d]: comparing with an aware datetime raises TypeError. *)
Definition expired (now : Z) (d : dtime) : result bool :=
  match d with Naive t => Ok (t <=? now)%Z | Aware _ => Err TypeError end.

(** grants/authorization_code.py 322-427 [_validate_token_request]: code, redirect_uri, code_verifier *)
Definition validate_code_request (data : params) : res (str * str * str) :=
  match arg "code" data with
  | None => oraise InvalidRequest (lit "Invalid parameter ""code"".") None
  | Some code =>
      match arg "redirect_uri" data with
      | None => oraise InvalidRequest (lit "Invalid parameter ""redirect_uri"".") None
      | Some uri =>
          match arg "code_verifier" data with
          | None => oraise InvalidRequest (lit "Invalid parameter ""code_verifier"".") None
          | Some v => V (code, uri, v)
          end
      end
  end.

(** grants/authorization_code.py 429-468 [_validate_authorization_code] *)
Definition validate_authorization_code (uri verifier : str) (code : auth_code) (c : client) : prog unit :=
  if negb (ins uri (cl_redirects c)) then Ret (oraise InvalidGrant (lit "Invalid Redirect URI.") None)
  else if negb (eqs (cl_id c) (ac_client code)) then Ret (oraise InvalidGrant (lit "Mismatching Client ID.") None)
  else if negb (eqs uri (ac_redirect code)) then Ret (oraise InvalidGrant (lit "Mismatching Redirect URI.") None)
  else match challenges (ac_method code) with
       | None => Ret (oraise InvalidRequest (lit "Unknown transform ""None"".") None)
       | Some f =>
           do ok <- Ret (lift (f (ac_challenge code) verifier)) ;;
           if negb ok then Ret (oraise InvalidGrant (lit "PKCE challenge failure.") None)
           else do (now, _) <- call Now ;;
                do late <- Ret (lift (expired now (ac_exp code))) ;;
                if late : bool then Ret (oraise InvalidGrant (lit "Expired Authorization Code.") None) else ret tt
       end.

(** [await create_refresh_token(..) if "refresh_token" in client.get_grant_types() else None] *)
Definition maybe_refresh (c : client) (o : owner) (scopes : list str) : prog (option str) :=
  if ins (lit "refresh_token") (cl_grants c) then call (CreateRT c o scopes) else ret None.

(** grants/authorization_code.py 279-316: the body of [try] *)
Definition code_exchange (cfg : config) (hs : hooks) (data : params) (c : client) : prog pdict :=
  do (code, uri, verifier) <- Ret (validate_code_request data) ;;
  do oc <- call (GetCode code) ;;
  match oc with
  | None => Ret (oraise InvalidRequest (lit "Invalid Authorization Grant.") None)
  | Some ac =>
      do _ <- validate_authorization_code uri verifier ac c ;;
      do ou <- call (FindUser (ac_user ac)) ;;
      match ou with
      | None => Ret (oraise InvalidRequest (lit "No user found for this code.") None)
      | Some u =>
          do at_ <- call (CreateAT c (OwnUser u) (ac_scopes ac)) ;;
          do rt <- maybe_refresh c (OwnUser u) (ac_scopes ac) ;;
          run_token_hooks (hk_response hs) (create_token at_ (cf_token_lifespan cfg) rt (ac_scopes ac)) c u
      end
  end.
(** grants/authorization_code.py 196-320 [token].  The validated [data] of line 280 has the same member
    "code"; a request without it makes the [finally] block raise KeyError. *)
Definition code_token (cfg : config) (hs : hooks) (data : params) (c : client) : prog pdict :=
  pfinally (code_exchange cfg hs data c)
    (match param "code" data with Some code => call (DeleteCode code) | None => throw (Py KeyError) end).

(** ** Client credentials grant: grants/client_credentials.py *)

(** grants/client_credentials.py 82-128 [_validate_token_request] *)
Definition cc_scopes (data : params) : option (list str) :=
  match arg "scope" data with Some s => Some (words s) | None => None end.
(** grants/client_credentials.py 28-80 [token] *)
Definition cc_token (cfg : config) (data : params) (c : client) : prog pdict :=
  let requested := cc_scopes data in
  do _ <- Ret (validate_requested_scopes cfg requested c None) ;;
  let scopes := cl_allowed c requested in
  do t <- call (CreateAT c (OwnClient c) scopes) ;;
  ret (create_token t (cf_token_lifespan cfg) None
         (match requested with Some l => if eql scopes l then [] else scopes | None => scopes end)).

(** ** Refresh token grant: grants/refresh_token.py *)

(** grants/refresh_token.py 175-259 [_validate_token_request] *)
Definition validate_refresh_request (data : params) : res (str * option (list str)) :=
  match arg "refresh_token" data with
  | None => oraise InvalidRequest (lit "Invalid parameter ""refresh_token"".") None
  | Some t => V (t, cc_scopes data)
  end.
(** grants/refresh_token.py 261-277 [_validate_refresh_token] *)
Definition validate_refresh_token (t : refresh_token) (c : client) : prog unit :=
  if negb (eqs (rt_client t) (cl_id c)) then throw (oerr InvalidClient None None [])
  else do (now, _) <- call Now ;;
       do late <- Ret (lift (expired now (rt_exp t))) ;;
       if late : bool then Ret (oraise InvalidRequest (lit "Refresh Token expired.") None) else ret tt.
(** grants/refresh_token.py 27-67 [_validate_requested_scopes] *)
Definition validate_refresh_scopes (cfg : config) (t : refresh_token) (scopes : option (list str)) (c : client) : res (list str) :=
  let? _ := validate_requested_scopes cfg scopes c None in
  match scopes with
  | None | Some [] => V (rt_scopes t)
  | Some l => if negb (subsetb l (rt_scopes t)) then oraise InvalidScope (lit "Invalid broader scope.") None
              else V (e_set_order E (inter (rt_scopes t) l))
  end.
(** grants/refresh_token.py 69-173 [token] *)
Definition refresh_grant (cfg : config) (data : params) (c : client) : prog pdict :=
  do (token, requested) <- Ret (validate_refresh_request data) ;;
  do ot <- call (GetRT token) ;;
  match ot with
  | None => Ret (oraise InvalidRequest (lit "Invalid Refresh Token.") None)
  | Some t =>
      do _ <- validate_refresh_token t c ;;
      do sc <- Ret (validate_refresh_scopes cfg t requested c) ;;
      let scopes := cl_allowed c (Some sc) in
      do ou <- call (FindUser (rt_user t)) ;;
      do at_ <- call (CreateAT c (owner_of ou) scopes) ;;
      do rt <- maybe_refresh c (owner_of ou) scopes ;;
      ret (create_token at_ (cf_token_lifespan cfg) rt (if eql scopes (rt_scopes t) then [] else scopes))
  end.

(** ** Endpoints *)

(** The grant classes of the library.  Grants defined by the application are in Ext.v. *)
Inductive grant := GCode | GClientCredentials | GRefresh.
Definition grant_type (g : grant) : str :=
  match g with
  | GCode => lit "authorization_code" | GClientCredentials => lit "client_credentials" | GRefresh => lit "refresh_token"
  end.
(** [__response_type__], None except for the code grant *)
Definition response_type (g : grant) : option str := match g with GCode => Some (lit "code") | _ => None end.
(** [__authentication_methods__]; None is the empty list here *)
Definition grant_methods (g : grant) : list str :=
  match g with GClientCredentials => [lit "client_secret_basic"; lit "client_secret_post"] | _ => [] end.

(** providers/base.py 20-66: what a provider is made of.  The hooks are not a part of it (see below). *)
Record provider := { pv_adapter : N; pv_config : config; pv_grants : list grant }.

(** endpoints/token.py 84-109 [_validate_grant_type] *)
Definition validate_grant_type (p : provider) (gt : option str) : res grant :=
  match gt with
  | None | Some [] => oraise InvalidRequest (lit "Invalid parameter ""grant_type"".") None
  | Some t =>
      match find (fun g => eqs (grant_type g) t) (pv_grants p) with
      | Some g => V g
      | None => oraise UnsupportedGrantType (lit "Unsupported grant_type """ ++ t ++ lit """.") None
      end
  end.

Definition grant_token (cfg : config) (hs : hooks) (g : grant) (data : params) (c : client) : prog pdict :=
  match g with
  | GCode => code_token cfg hs data c
  | GClientCredentials => cc_token cfg data c
  | GRefresh => refresh_grant cfg data c
  end.

(** endpoints/token.py 30 [_headers] *)
Definition token_headers : pdict := [(lit "Cache-Control", PStr (lit "no-store")); (lit "Pragma", PStr (lit "no-cache"))].

(** endpoints/token.py 36-82 [TokenEndpoint.__call__] *)
Definition token_endpoint (p : provider) (hs : hooks) (r : request) : prog response :=
  pexcept
    (do _ <- Ret (match rq_data r with [] => oraise InvalidRequest (lit "Missing request parameters.") None | _ => V tt end) ;;
     do g <- Ret (validate_grant_type p (param "grant_type" (rq_data r))) ;;
     let data := dremove (lit "grant_type") (rq_data r) in
     do c <- authenticate r (grant_methods g) ;;
     if negb (ins (grant_type g) (cl_grants c)) then throw (oerr UnauthorizedClient None None [])
     else do t <- grant_token (pv_config p) hs g data c ;;
          Ret (JSONResponse 200 token_headers (PDict t)))
    (fun e => Ret (JSONResponse 400 (dupdate (oe_headers e) token_headers) (PDict (dump e)))).

(** endpoints/revocation.py 30-126 [RevocationEndpoint.__call__]; [None] is the bare [return] of line 114. *)
Definition supported_tokens : list str := [lit "access_token"; lit "refresh_token"].
Definition revocation_endpoint (r : request) : prog (option response) :=
  pexcept
    (do c <- authenticate r [] ;;
     let data := form r in
     match arg "token" data with
     | None => ret None
     | Some token =>
         let hint := param "token_type_hint" data in
         match arg "token_type_hint" data with
         | Some h =>
             if negb (ins h supported_tokens) then throw (oerr UnsupportedTokenType None None [])
             else do _ <- call (RevokeToken c token hint) ;;
                  do x <- Ret (JSONResponse 200 [] PNone) ;; ret (Some x)
         | None => do _ <- call (RevokeToken c token hint) ;;
                   do x <- Ret (JSONResponse 200 [] PNone) ;; ret (Some x)
         end
     end)
    (fun e => do x <- Ret (JSONResponse (match oe_kind e with InvalidClient => 401 | _ => 400 end) (oe_headers e) (PDict (dump e))) ;;
              ret (Some x)).

(** endpoints/authorization.py 144-178 [_validate_request]: redirect_uri, client_id, response_type *)
Definition fatal {A} (desc : str) : res A := oraise (Fatal (lit "invalid_request")) desc None.
Definition validate_request (data : params) : res (str * str * str) :=
  match data with
  | [] => fatal (lit "Missing request parameters.")
  | _ =>
      match arg "redirect_uri" data with
      | None => fatal (lit "Missing required parameter ""redirect_uri"".")
      | Some uri =>
          match arg "client_id" data with
          | None => fatal (lit "Missing required parameter ""client_id"".")
          | Some cid =>
              match arg "response_type" data with
              | None => fatal (lit "Missing required parameter ""response_type"".")
              | Some rt => V (uri, cid, rt)
              end
          end
      end
  end.
(** endpoints/authorization.py 180-207 [_validate_response_type] *)
Definition validate_response_type (p : provider) (rt : str) (state : option str) : res grant :=
  match find (fun g => match response_type g with Some t => eqs t rt | None => false end) (pv_grants p) with
  | Some g => V g
  | None => oraise UnsupportedResponseType (lit "Unsupported response_type """ ++ rt ++ lit """.") state
  end.
(** endpoints/authorization.py 209-256 [_validate_client] *)
Definition validate_client (cid uri rt : str) (state : option str) : prog client :=
  do oc <- call (FindClient cid) ;;
  match oc with
  | None => Ret (fatal (lit "Invalid client."))
  | Some c =>
      if negb (ins uri (cl_redirects c)) then Ret (fatal (lit "Invalid Redirect URI."))
      else if negb (ins rt (cl_responses c)) then throw (oerr UnauthorizedClient None state [])
      else ret c
  end.

(** [grant.authorize(data, client, user)]; the other grants have no response type and are never chosen
    (their [authorize] is abstract). *)
Definition grant_authorize (cfg : config) (hs : hooks) (g : grant) (data : params) (c : client) (u : user) : prog str :=
  match g with GCode => authorize cfg hs data c u | _ => throw (Py TypeError) end.

(** endpoints/authorization.py 96-101 and 137-142: the [except] clauses.  [data["redirect_uri"]] is read
    again there. *)
Definition error_redirect (cfg : config) (data : params) (e : oauth_error) : res response :=
  match oe_kind e with
  | Fatal _ => let? url := lift (urlencode (cf_error_url cfg) (dump e)) in RedirectResponse url (oe_headers e)
  | _ => match param "redirect_uri" data with
         | None => X (Py KeyError)
         | Some uri => let? url := lift (urlencode uri (dump e)) in RedirectResponse url (oe_headers e)
         end
  end.

(** endpoints/authorization.py 42-101 [AuthorizationEndpoint.__call__].  The error clauses read the
    [data] from which "response_type" may have been popped, which does not matter to them. *)
Definition authorization_endpoint (p : provider) (hs : hooks) (r : request) : prog response :=
  let data := rq_data r in
  pexcept
    (do (uri, cid, rt) <- Ret (validate_request data) ;;
     match rq_user r with
     | None => throw (oerr AccessDenied None None [])
     | Some u =>
         do g <- Ret (validate_response_type p rt (param "state" data)) ;;
         do c <- validate_client cid uri (match response_type g with Some t => t | None => [] end) (param "state" data) ;;
         do url <- grant_authorize (pv_config p) hs g (dremove (lit "response_type") data) c u ;;
         Ret (RedirectResponse url [])
     end)
    (fun e => Ret (error_redirect (pv_config p) data e)).

(** endpoints/authorization.py 103-142 [get_consent_data]: the dict of the client and the scopes (a [Scope]
    is its name: models/scopes.py 23-27), or a redirect. *)
Inductive consent := Consent (c : client) (scopes : list str) | ConsentRedirect (r : response).
Definition get_consent_data (p : provider) (r : request) : prog consent :=
  let data := rq_data r in
  pexcept
    (do (uri, cid, rt) <- Ret (validate_request data) ;;
     do c <- validate_client cid uri rt (param "state" data) ;;
     match arg "scope" data with
     | None => Ret (oraise InvalidRequest (lit "Missing required parameter ""scope"".") None)
     | Some scope => ret (Consent c (cl_allowed c (Some (words scope))))
     end)
    (fun e => do x <- Ret (error_redirect (pv_config p) data e) ;; ret (ConsentRedirect x)).

End WithEnv.

(** ** Registration of hooks *)

(** The class given to [add_hook]; [BaseGrant] is the base class of the others. *)
Inductive grant_class := BaseGrant | GrantClass (g : grant).
Definition isinstance (g : grant) (k : grant_class) : bool :=
  match k, g with
  | BaseGrant, _ => true
  | GrantClass GCode, GCode | GrantClass GClientCredentials, GClientCredentials | GrantClass GRefresh, GRefresh => true
  | _, _ => false
  end.
(** providers/base.py 68-85 [add_hook(grant_cls, AuthorizationCodeFlow)].  [grant.__hooks__] is the attribute
    of the class BaseGrant (grants/base.py 52-57), no subclass or instance has its own: there is one table
    in the process, which every provider reads and writes.  A new hook object is made for each grant and
    checkpoint, so adding again adds another. *)
Definition add_hook (p : provider) (k : grant_class) (hs : hooks) : hooks :=
  fold_left (fun hs g =>
    if isinstance g k then
      let h := {| hk_adapter := pv_adapter p; hk_config := pv_config p |} in
      {| hk_request := hk_request hs ++ [h]; hk_response := hk_response hs ++ [h] |}
    else hs) (pv_grants p) hs.
(** The table when the module is loaded *)
Definition no_hooks : hooks := {| hk_request := []; hk_response := [] |}.
