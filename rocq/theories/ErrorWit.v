(** Runs for C129-C131: one for each failure. *)
From Coq Require Import String Ascii List NArith ZArith Bool.
From Verif Require Import Base BaseFacts Json Url Webtools Crypto Jwk Prog ProgFacts Http OAuth SpecOAuth SpecReaders SpecError Example OAuthRef RequestFacts OAuthWit FlowWit.
Import ListNotations.
Open Scope string_scope.
Open Scope list_scope.
Open Scope N_scope.

Definition drop (k : string) (items : params) : params := filter (fun kv => negb (eqs (fst kv) (lit k))) items.
Definition put (k : string) (v : str) (items : params) : params := (lit k, v) :: drop k items.
Definition error_of (x : res response) : pyval := member "error" (body_of x).

(** ** Token endpoint *)
Definition two : client := {| cl_id := cl_id web; cl_secret := cl_secret web; cl_auth_method := cl_auth_method web; cl_redirects := [cb; lit "https://c.example/other"];
  cl_grants := cl_grants web; cl_responses := cl_responses web; cl_allowed := cl_allowed web |}.
Definition changed_code (who red m : str) (exp : Z) : auth_code :=
  {| ac_client := who; ac_user := lit "alice"; ac_redirect := red; ac_scopes := [lit "openid"]; ac_challenge := lit challenge;
     ac_method := m; ac_nonce := Some (lit "n1"); ac_exp := Naive exp |}.
Definition t_ok : Z := 1700000600000000.
Record attempt := { at_client : client; at_user : option user; at_code : auth_code; at_rt : refresh_token; at_headers : pdict; at_items : params }.
Definition at_req (a : attempt) : request := token_req (at_headers a) (at_items a).
Definition at_run (a : attempt) : list obs * res response :=
  scripted (answers (at_client a) (at_user a) (at_code a) (at_rt a)) (token_endpoint ref_env prov oidc (at_req a)).
Definition attempt_ok (g : grant) (a : attempt) : Prop :=
  exists z, exec (token_endpoint ref_env prov oidc (at_req a)) (fst (at_run a)) (V z) /\ no_oauth_raise (fst (at_run a)) /\
    In g (pv_grants prov) /\ data_has (at_req a) "grant_type" (grant_type g).
Definition answeredb (g : grant) (a : attempt) : bool :=
  match snd (at_run a) with V _ => true | X _ => false end && forallb (fun o => match raised o with None => true | _ => false end) (fst (at_run a)) &&
  match lookup (lit "grant_type") (rq_data (at_req a)) with Some t => eqs t (grant_type g) | None => false end.
Lemma quiet tr : no_raise tr -> no_oauth_raise tr.
Proof. intros H o e Ho. rewrite (H o Ho). discriminate. Qed.
Lemma attempts_ok g l : In g (pv_grants prov) -> forallb (answeredb g) l = true -> Forall (attempt_ok g) l.
Proof.
  intros Hg H. apply Forall_forall. intros a Ha. rewrite forallb_forall in H. specialize (H a Ha). apply andb_prop in H as [H H3]. apply andb_prop in H as [H1 H2].
  unfold attempt_ok. pose proof (scripted_exec (answers (at_client a) (at_user a) (at_code a) (at_rt a)) (token_endpoint ref_env prov oidc (at_req a))) as He. fold (at_run a) in He.
  destruct (snd (at_run a)) as [z|]; [|discriminate]. exists z. split; [exact He|]. split; [apply quiet, no_raise_at; exact H2|]. split; [exact Hg|].
  unfold data_has. destruct (lookup _ _) as [t|]; [|discriminate]. apply eqs_true in H3. congruence.
Qed.
Definition code_attempt (c : client) (u : option user) (ac : auth_code) (items : params) : attempt :=
  {| at_client := c; at_user := u; at_code := ac; at_rt := good_rt []; at_headers := basic "web" "s3cret"; at_items := items |}.
Definition good_items : params := code_items the_code.
Definition code_attempts : list attempt :=
  let ok := good_code [lit "openid"] in
  [{| at_client := web; at_user := Some alice; at_code := ok; at_rt := good_rt []; at_headers := basic "web" "guess"; at_items := good_items |};
   {| at_client := web; at_user := Some alice; at_code := ok; at_rt := good_rt []; at_headers := []; at_items := good_items |};
   {| at_client := post; at_user := Some alice; at_code := ok; at_rt := good_rt []; at_headers := []; at_items := L "client_id" "post" :: L "client_secret" "hush" :: good_items |};
   {| at_client := app; at_user := Some alice; at_code := ok; at_rt := good_rt []; at_headers := []; at_items := L "client_id" "app" :: good_items |};
   code_attempt web (Some alice) ok (put "redirect_uri" (lit "https://evil.example/") good_items);
   code_attempt web (Some alice) (changed_code (lit "other") cb (lit "S256") t_ok) good_items;
   code_attempt two (Some alice) (changed_code (lit "web") (lit "https://c.example/other") (lit "S256") t_ok) good_items;
   code_attempt web (Some alice) (changed_code (lit "web") cb (lit "S512") t_ok) good_items;
   code_attempt web (Some alice) ok (put "code_verifier" (lit "wrong") good_items);
   code_attempt web (Some alice) (changed_code (lit "web") cb (lit "S256") 1700000000000000) good_items;
   code_attempt web None ok good_items;
   code_attempt web (Some alice) ok good_items].
(** The client that is found is registered for another method; there is none. *)
Definition other_method : list obs * res response := at_run (code_attempt (ex_client (lit "web") (Some (lit "s3cret")) (lit "client_secret_post") [cb] [lit "authorization_code"] [] []) (Some alice) (good_code []) good_items).
Definition missing_attempts : list attempt := map (fun k => code_attempt web (Some alice) (good_code []) (drop k good_items)) ["redirect_uri"; "code_verifier"].
Definition errors (l : list attempt) : list pyval := map (fun a => error_of (snd (at_run a))) l.
Definition text_of (x : res response) : pyval := member "error_description" (body_of x).
Definition texts (l : list attempt) : list pyval := map (fun a => text_of (snd (at_run a))) l.
Definition words_of (l : list string) : list pyval := map (fun s => PStr (lit s)) l.
(** The empty text stands for no description. *)
Definition texts_of (l : list string) : list pyval := map (fun s => match s with EmptyString => PNone | _ => PStr (lit s) end) l.
Definition type_attempts : list attempt :=
  [code_attempt web (Some alice) (good_code []) []; code_attempt web (Some alice) (good_code []) (drop "grant_type" good_items); code_attempt web (Some alice) (good_code []) (put "grant_type" (lit "password") good_items)].
Definition unserved (a : attempt) : Prop :=
  exists z, exec (token_endpoint ref_env prov oidc (at_req a)) (fst (at_run a)) (V z) /\ no_oauth_raise (fst (at_run a)) /\
    forall g, In g (pv_grants prov) -> ~ data_has (at_req a) "grant_type" (grant_type g).
Lemma type_attempts_ok : Forall unserved type_attempts.
Proof.
  assert (H : forall a z, snd (at_run a) = V z -> fst (at_run a) = [] ->
    (forall g, In g (pv_grants prov) -> lookup (lit "grant_type") (rq_data (at_req a)) <> Some (grant_type g)) -> unserved a).
  { intros a z Hz Ht Hg. exists z. pose proof (scripted_exec (answers (at_client a) (at_user a) (at_code a) (at_rt a)) (token_endpoint ref_env prov oidc (at_req a))) as He. fold (at_run a) in He.
    rewrite Hz in He. split; [exact He|]. split; [rewrite Ht; intros o e []|]. exact Hg. }
  do 3 (apply Forall_cons; [eapply H; [wit|wit|]; intros g [<-|[<-|[<-|[]]]]; vm_compute; discriminate|]). apply Forall_nil.
Qed.

Definition refresh_attempt (c : client) (t : refresh_token) (items : params) : attempt :=
  {| at_client := c; at_user := Some alice; at_code := good_code []; at_rt := t; at_headers := basic "web" "s3cret"; at_items := items |}.
Definition refresh_items : params := [L "grant_type" "refresh_token"; L "refresh_token" "tok8"].
Definition changed_rt (who : str) (exp : Z) : refresh_token := {| rt_client := who; rt_user := lit "alice"; rt_scopes := [lit "openid"]; rt_exp := Naive exp |}.
Definition refresh_attempts : list attempt :=
  let ok := good_rt [lit "openid"] in
  [{| at_client := web; at_user := Some alice; at_code := good_code []; at_rt := ok; at_headers := basic "web" "guess"; at_items := refresh_items |};
   {| at_client := post; at_user := Some alice; at_code := good_code []; at_rt := ok; at_headers := []; at_items := L "client_id" "post" :: L "client_secret" "hush" :: refresh_items |};
   refresh_attempt web ok (drop "refresh_token" refresh_items);
   refresh_attempt web (changed_rt (lit "other") t_ok) refresh_items;
   refresh_attempt web (changed_rt (lit "web") 1700000000000000) refresh_items;
   refresh_attempt web ok (put "scope" (lit "admin") refresh_items);
   refresh_attempt web ok (put "scope" (lit "openid email") refresh_items);
   refresh_attempt web ok (put "scope" (lit "openid") refresh_items)].
Definition credentials_attempt (c : client) (h : pdict) (items : params) : attempt :=
  {| at_client := c; at_user := Some alice; at_code := good_code []; at_rt := good_rt []; at_headers := h; at_items := L "grant_type" "client_credentials" :: items |}.
Definition credentials_attempts : list attempt :=
  [credentials_attempt web (basic "web" "guess") [];
   credentials_attempt app [] [L "client_id" "app"];
   credentials_attempt (ex_client (lit "web") (Some (lit "s3cret")) (lit "client_secret_basic") [cb] [lit "refresh_token"] [] []) (basic "web" "s3cret") [];
   credentials_attempt post [] [L "client_id" "post"; L "client_secret" "hush"; L "scope" "admin"];
   credentials_attempt post [] [L "client_id" "post"; L "client_secret" "hush"; L "scope" "email"];
   credentials_attempt post [] [L "client_id" "post"; L "client_secret" "hush"; L "scope" "openid"]].

(** ** Authorization endpoint *)
Definition authz_ok (items : params) (u : option user) : Prop :=
  let r := req "GET" (authorization_url items) [] None u in
  exists z, exec (authorization_endpoint ref_env prov oidc r) (trace_of (run_authz items u)) (V z) /\ made r /\ no_oauth_raise (trace_of (run_authz items u)) /\ tokens_ok (trace_of (run_authz items u)).
Definition authz_okb (items : params) (u : option user) : bool :=
  match result_of (run_authz items u) with V _ => true | X _ => false end &&
  match make_request (lit "GET") (authorization_url items) [] None u with Ok _ => true | Err _ => false end &&
  forallb (fun o => match raised o with None => true | _ => false end) (trace_of (run_authz items u)) &&
  forallb (fun o => match o with OSecretToken _ (V []) => false | _ => true end) (trace_of (run_authz items u)).
Lemma authz_rows (l : list (params * option user)) : forallb (fun x => authz_okb (fst x) (snd x)) l = true -> Forall (fun x => authz_ok (fst x) (snd x)) l.
Proof.
  intros H. apply Forall_forall. intros [items u] Hx. rewrite forallb_forall in H. specialize (H _ Hx). cbn [fst snd] in *.
  apply andb_prop in H as [H H4]. apply andb_prop in H as [H H3]. apply andb_prop in H as [H1 H2]. unfold authz_ok.
  pose proof (go_exec (authorization_endpoint ref_env prov oidc (req "GET" (authorization_url items) [] None u)) world0) as He. fold (run_authz items u) in He.
  destruct (result_of (run_authz items u)) as [z|]; [|discriminate]. exists z. split; [exact He|]. split; [apply req_made; exact H2|]. split; [apply quiet, no_raise_at; exact H3|].
  intros n Hi. rewrite forallb_forall in H4. specialize (H4 _ Hi). discriminate.
Qed.
Definition authz_attempts : list (params * option user) :=
  [(drop "redirect_uri" authz_items, Some alice); (drop "client_id" authz_items, Some alice); (drop "response_type" authz_items, Some alice); (authz_items, None);
   (put "response_type" (lit "token") authz_items, Some alice); (put "client_id" (lit "nobody") authz_items, Some alice); (put "redirect_uri" (lit "https://evil.example/") authz_items, Some alice);
   (put "client_id" (lit "post") (put "redirect_uri" (lit "https://p.example/cb") authz_items), Some alice);
   (drop "code_challenge" authz_items, Some alice); (put "code_challenge" (lit "short") authz_items, Some alice); (put "code_challenge_method" (lit "S512") authz_items, Some alice);
   (drop "scope" authz_items, Some alice); (put "scope" (lit "openid admin") authz_items, Some alice);
   (put "client_id" (lit "app") (put "redirect_uri" (lit "https://app.example/cb") authz_items), Some alice); (authz_items, Some alice)].
(** The part of the URL of the redirection before the query, and its error parameter *)
Definition until (c : N) : str -> str := fix f (s : str) := match s with [] => [] | x :: s' => if x =? c then [] else x :: f s' end.
Definition after (c : N) : str -> str := fix f (s : str) := match s with [] => [] | x :: s' => if x =? c then s' else f s' end.
Definition sent (x : res response) : str * option str :=
  match location_of x with
  | PStr u => (until 63 u, lookup (lit "error") (parse_qsl (after 63 u)))
  | _ => ([], None)
  end.
Definition described (x : res response) : option str := match location_of x with PStr u => lookup (lit "error_description") (parse_qsl (after 63 u)) | _ => None end.
Definition consent_text (x : res consent) : option str := match x with V (ConsentRedirect q) => described (V q) | _ => None end.
Definition told (l : list string) : list (option str) := map (fun s => match s with EmptyString => None | _ => Some (lit s) end) l.
Definition consent_sent (x : res consent) : str * option str := match x with V (ConsentRedirect q) => sent (V q) | _ => ([], None) end.
Definition page (e : string) : str * option str := (lit "/error", Some (lit e)).
Definition back (u : str) (e : string) : str * option str := (u, Some (lit e)).

(** ** Consent *)
Definition consent_ok (items : params) : Prop :=
  let r := req "GET" (authorization_url items) [] None None in
  exists z, exec (get_consent_data prov r) (trace_of (run_consent items)) (V z) /\ made r /\ no_oauth_raise (trace_of (run_consent items)).
Definition consent_okb (items : params) : bool :=
  match result_of (run_consent items) with V _ => true | X _ => false end &&
  match make_request (lit "GET") (authorization_url items) [] None None with Ok _ => true | Err _ => false end &&
  forallb (fun o => match raised o with None => true | _ => false end) (trace_of (run_consent items)).
Lemma consent_rows l : forallb consent_okb l = true -> Forall consent_ok l.
Proof.
  intros H. apply Forall_forall. intros items Hx. rewrite forallb_forall in H. specialize (H _ Hx).
  apply andb_prop in H as [H H3]. apply andb_prop in H as [H1 H2]. unfold consent_ok.
  pose proof (go_exec (get_consent_data prov (req "GET" (authorization_url items) [] None None)) world0) as He. fold (run_consent items) in He.
  destruct (result_of (run_consent items)) as [z|]; [|discriminate]. exists z. split; [exact He|]. split; [apply req_made; exact H2|]. apply quiet, no_raise_at; exact H3.
Qed.
Definition consent_attempts : list params :=
  [drop "redirect_uri" authz_items; drop "client_id" authz_items; drop "response_type" authz_items; put "client_id" (lit "nobody") authz_items;
   put "redirect_uri" (lit "https://evil.example/") authz_items; put "response_type" (lit "token") authz_items; drop "scope" authz_items].

(** ** Revocation endpoint *)
Definition revocation_ok (x : pdict * params) : Prop :=
  exists z, exec (revocation_endpoint (revoke_req (fst x) (snd x))) (trace_of (run_revoke (fst x) (snd x))) (V z) /\ no_oauth_raise (trace_of (run_revoke (fst x) (snd x))).
Definition revocation_okb (x : pdict * params) : bool :=
  match result_of (run_revoke (fst x) (snd x)) with V _ => true | X _ => false end && forallb (fun o => match raised o with None => true | _ => false end) (trace_of (run_revoke (fst x) (snd x))).
Lemma revocation_rows l : forallb revocation_okb l = true -> Forall revocation_ok l.
Proof.
  intros H. apply Forall_forall. intros [h items] Hx. rewrite forallb_forall in H. specialize (H _ Hx). apply andb_prop in H as [H1 H2]. cbn [fst snd] in *. unfold revocation_ok. cbn [fst snd].
  pose proof (go_exec (revocation_endpoint (revoke_req h items)) (world_of run2)) as He. fold (run_revoke h items) in He.
  destruct (result_of (run_revoke h items)) as [z|]; [|discriminate]. exists z. split; [exact He|]. apply quiet, no_raise_at; exact H2.
Qed.
Definition revocation_attempts : list (pdict * params) :=
  [(basic "web" "guess", [L "token" "tok8"]); (basic "web" "s3cret", [L "token_type_hint" "refresh_token"]); (basic "web" "s3cret", [L "token" "tok8"; L "token_type_hint" "id_token"]);
   (basic "web" "s3cret", [L "token" "tok8"; L "token_type_hint" "refresh_token"])].
Definition revocation_sent (x : res (option response)) : option (N * pyval * pyval) :=
  match x with V (Some q) => Some (rs_status q, member "error" (json_loads (rs_body q)), member "error_description" (json_loads (rs_body q))) | _ => None end.
