(** A refresh token stays until its client revokes it or its user logs out: C179. *)
From Coq Require Import String Ascii List NArith ZArith Bool Arith.
From Verif Require Import Base SpecReaders Utf8 Webtools Crypto Jwk Prog Http OAuth SpecOAuth SpecFlow Example OAuthRef OAuthWit FlowWit HookWit App SpecApp AppFacts AppWit SpecKeep KeepWit SpecWho LastFacts LastWit.
Import ListNotations.
Open Scope string_scope.
Open Scope list_scope.
Open Scope N_scope.

(** C179.  In any interleaving of requests to the example application, a refresh token that was given out is found again,
    always with the same row, until its client revokes it or its user logs out. *)
Theorem C179_kept : forall E p hs C aware qs log t0 t, app_running E p hs qs log -> app_steps C aware t0 (map snd log) t ->
  forall m k c o sc l1 l2, NoDup (map fst (st_rts (tb_store t0))) -> log = l1 ++ (m, OLib (OCreateRT c o sc (V (Some k)))) :: l2 ->
  exists row, rt_client row = cl_id c /\ owner_id o = Ok (rt_user row) /\ forall a n y b, l2 = a ++ (n, OLib (OGetRT k (V y))) :: b ->
    (forall j q, acted j a -> nth_error qs j = Some q -> ~ logs_out log j q (rt_user row) /\ ~ revokes_for t0 log j q (cl_id c) k) -> y = Some row.
Proof. exact c179_kept. Qed.
Print Assumptions C179_kept.
(** So its client gets new tokens for it, for the same user and with the scopes of that row, from a request as RFC 6749
    wants it that comes in time. *)
Theorem C179_refresh : forall E p hs C aware qs log t0 t, app_running E p hs qs log -> app_steps C aware t0 (map snd log) t ->
  forall m n k c o sc l1 l2 w r x, order_ok E -> NoDup (map fst (st_rts (tb_store t0))) ->
  log = l1 ++ (m, OLib (OCreateRT c o sc (V (Some k)))) :: l2 -> ~ acted n l1 ->
  (forall j q uid, owner_id o = Ok uid -> acted j l2 -> nth_error qs j = Some q -> ~ logs_out log j q uid /\ ~ revokes_for t0 log j q (cl_id c) k) ->
  aexec (application E p hs TokenPage w) (acalls_of n log) x -> wb_cookie w = None -> wb_method w = chars "POST" -> taken_as w None r ->
  In GRefresh (pv_grants p) -> In (chars "refresh_token") (cl_grants c) -> presents r (cl_id c) c ->
  data_has r "grant_type" (chars "refresh_token") -> data_has r "refresh_token" k -> k <> [] -> asks_none r ->
  no_raise (lib_calls (acalls_of n log)) -> texts_ok (lib_calls (acalls_of n log)) ->
  (forall row, In (OGetRT k (V (Some row))) (lib_calls (acalls_of n log)) -> exists e, rt_exp row = Naive e /\ before e (lib_calls (acalls_of n log))) ->
  exists row u z a new sc' sc'', In (n, OLib (OGetRT k (V (Some row)))) log /\ rt_client row = cl_id c /\ owner_id o = Ok (us_id u) /\ x = V (RResponse z) /\
    (forall s, In s sc' <-> In s (rt_scopes row)) /\ In (n, OLib (OCreateAT c (OwnUser u) (cl_allowed c (Some sc')) (V a))) log /\
    token_answer z a (cf_token_lifespan (pv_config p)) new sc''.
Proof. exact c179_refresh. Qed.
Print Assumptions C179_refresh.
(** A refresh token is given out; its client revokes another one, a token request fails, and the client uses the token. *)
Example C179_example : let l1 := firstn 13 last_log in let l2 := skipn 14 last_log in
  order_ok ref_env /\ app_running ref_env prov oidc last_visits last_log /\ app_steps light false tables0 (map snd last_log) (aw_tables (after last_visits aworld0)) /\
  NoDup (map fst (st_rts (tb_store tables0))) /\
  last_log = l1 ++ (2%nat, OLib (OCreateRT OAuthRef.web (OwnUser alice) [lit "openid"; lit "email"] (V (Some (lit "tok13"))))) :: l2 /\ ~ acted 5 l1 /\
  (forall j q uid, owner_id (OwnUser alice) = Ok uid -> acted j l2 -> nth_error last_visits j = Some q ->
     ~ logs_out last_log j q uid /\ ~ revokes_for tables0 last_log j q (cl_id OAuthRef.web) (lit "tok13")) /\ acted 3 l2 /\ acted 4 l2 /\
  (exists x, aexec (application ref_env prov oidc TokenPage refresh_visit) (acalls_of 5 last_log) x) /\ wb_cookie refresh_visit = None /\ wb_method refresh_visit = chars "POST" /\
  taken_as refresh_visit None last_request /\ In GRefresh (pv_grants prov) /\ In (chars "refresh_token") (cl_grants OAuthRef.web) /\ presents last_request (cl_id OAuthRef.web) OAuthRef.web /\
  data_has last_request "grant_type" (chars "refresh_token") /\ data_has last_request "refresh_token" (lit "tok13") /\ asks_none last_request /\
  no_raise last_tr /\ texts_ok last_tr /\ (forall row, In (OGetRT (lit "tok13") (V (Some row))) last_tr -> exists e, rt_exp row = Naive e /\ before e last_tr).
Proof. exact last_example. Qed.
