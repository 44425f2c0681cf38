(** Other requests leave a code alone: C178. *)
From Coq Require Import String Ascii List NArith ZArith Bool Arith.
From Verif Require Import Base SpecReaders Utf8 Webtools Crypto Jwk Prog Http OAuth SpecOAuth SpecFlow SpecHook Example OAuthRef OAuthWit FlowWit HookWit App SpecApp AppFacts AppWit SpecKeep SpecWho SpecAvail AvailFacts AvailWit.
Import ListNotations.
Open Scope string_scope.
Open Scope list_scope.
Open Scope N_scope.

(** C178.  In any interleaving of requests to the example application, a code that was saved is found again, with what was
    saved, until another token request names it. *)
Theorem C178_kept : forall E p hs C aware qs log t0 t, app_running E p hs qs log -> app_steps C aware t0 (map snd log) t ->
  forall m k ad c u l1 l2, NoDup (map fst (st_codes (tb_store t0))) -> log = l1 ++ (m, OLib (OSaveCode k ad c u (V tt))) :: l2 ->
  exists row, as_saved ad c u row /\ forall a n y b, l2 = a ++ (n, OLib (OGetCode k (V y))) :: b ->
    (forall j q, acted j a -> j <> n -> nth_error qs j = Some q -> ~ names_code q k) -> y = Some row.
Proof. exact c178_kept. Qed.
Print Assumptions C178_kept.
(** So the client that the code was given to gets its token, whatever the other requests do, when its own request is as
    RFC 6749 and RFC 7636 want it and comes in time; the refresh token in the answer, if any, is the one made for it. *)
Theorem C178_exchange : forall E p hs C aware qs log t0 t, app_running E p hs qs log -> app_steps C aware t0 (map snd log) t ->
  forall m n k ad c u l1 l2 w r x v, (forall b, bytes_ok (e_sha256 E b)) -> hashes E -> hk_response hs <> [] ->
  NoDup (map fst (st_codes (tb_store t0))) -> log = l1 ++ (m, OLib (OSaveCode k ad c u (V tt))) :: l2 -> ~ acted n l1 ->
  (forall j q, acted j l2 -> j <> n -> nth_error qs j = Some q -> ~ names_code q k) ->
  aexec (application E p hs TokenPage w) (acalls_of n log) x -> wb_cookie w = None -> wb_method w = chars "POST" ->
  taken_as w None r -> exchange_request p r (cl_id c) c k (ad_redirect ad) v -> pkce_ok (e_sha256 E) (ad_method ad) (ad_challenge ad) v ->
  ad_scopes ad <> [] -> scalar_str (cl_id c) ->
  no_raise (lib_calls (acalls_of n log)) -> texts_ok (lib_calls (acalls_of n log)) ->
  (forall row e, In (OGetCode k (V (Some row))) (lib_calls (acalls_of n log)) -> ac_exp row = Naive e -> before e (lib_calls (acalls_of n log))) ->
  (forall h, In h (hk_response hs) -> hook_served E h (lib_calls (acalls_of n log)) /\ quick (cf_id_token_lifespan (hk_config h)) (lib_calls (acalls_of n log))) ->
  exists z a rt, x = V (RResponse z) /\ In (n, OLib (OCreateAT c (OwnUser u) (ad_scopes ad) (V a))) log /\ created_refresh c (OwnUser u) (ad_scopes ad) rt (lib_calls (acalls_of n log)) /\
    token_answer z a (cf_token_lifespan (pv_config p)) rt (ad_scopes ad).
Proof. exact c178_exchange. Qed.
Print Assumptions C178_exchange.
(** A code is saved, another token request fails, the user logs out, and the client exchanges the code. *)
Example C178_example : let w := token_visit (plain_code (lit "tok6")) in let l1 := firstn 7 avail_log in let l2 := skipn 8 avail_log in
  (forall b, bytes_ok (e_sha256 ref_env b)) /\ hashes ref_env /\ hk_response oidc = [the_hook] /\
  app_running ref_env prov oidc avail_visits avail_log /\ app_steps light false tables0 (map snd avail_log) (aw_tables (after avail_visits aworld0)) /\
  NoDup (map fst (st_codes (tb_store tables0))) /\ avail_log = l1 ++ (1%nat, OLib (OSaveCode (lit "tok6") avail_data OAuthRef.web alice (V tt))) :: l2 /\ ~ acted 4 l1 /\
  (forall j q, acted j l2 -> j <> 4%nat -> nth_error avail_visits j = Some q -> ~ names_code q (lit "tok6")) /\ acted 2 l2 /\ acted 3 l2 /\
  (exists x, aexec (application ref_env prov oidc TokenPage w) (acalls_of 4 avail_log) x) /\ wb_cookie w = None /\ wb_method w = chars "POST" /\ taken_as w None avail_request /\
  exchange_request prov avail_request (cl_id OAuthRef.web) OAuthRef.web (lit "tok6") (ad_redirect avail_data) (lit verifier) /\
  pkce_ok (e_sha256 ref_env) (ad_method avail_data) (ad_challenge avail_data) (lit verifier) /\ ad_scopes avail_data = [lit "openid"; lit "email"] /\ scalar_str (cl_id OAuthRef.web) /\
  no_raise avail_tr /\ texts_ok avail_tr /\ (forall row e, In (OGetCode (lit "tok6") (V (Some row))) avail_tr -> ac_exp row = Naive e -> before e avail_tr) /\
  (forall h, In h (hk_response oidc) -> hook_served ref_env h avail_tr /\ quick (cf_id_token_lifespan (hk_config h)) avail_tr).
Proof. exact avail_example. Qed.
(** The request in between does not name the code, and one that does is what the theorem excludes. *)
Example C178_example_not : ~ names_code (TokenPage, token_visit (plain_code (lit "tok7"))) (lit "tok6") /\ names_code (TokenPage, token_visit (plain_code (lit "tok6"))) (lit "tok6").
Proof. exact avail_names. Qed.
