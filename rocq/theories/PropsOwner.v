(** Whose tokens answers hand out: C183. *)
From Coq Require Import String Ascii List NArith ZArith Bool Arith.
From Verif Require Import Base SpecReaders Utf8 Webtools Crypto Jwk Prog Http OAuth SpecOAuth SpecFlow Example OAuthRef OAuthWit FlowWit App SpecApp AppFacts AppWit SpecKeep SpecWho SpecOwner LastWit HandWit OwnerFacts OwnerWit.
Import ListNotations.
Open Scope string_scope.
Open Scope list_scope.
Open Scope N_scope.

(** C183.  In any interleaving, a refresh token that an answer of the example application hands out is stored for the client that
    the request proved to be, and for the user of the code or refresh token of that client which the request presented. *)
Theorem C183_refresh : forall E p hs C aware log t0 t n g w z d v, app_steps C aware t0 (map snd log) t ->
  aexec (application E p hs g w) (acalls_of n log) (V (RResponse z)) -> json_body z d -> lookup (chars "refresh_token") d = Some v ->
  exists ou r i c k l1 l2 t1 row, taken_as w ou r /\ authenticates r i c /\ In (n, OLib (OFindClient i (V (Some c)))) log /\ v = PStr k /\
    log = l1 ++ l2 /\ app_steps C aware t0 (map snd l1) t1 /\ acted n l1 /\ In (k, row) (st_rts (tb_store t1)) /\ rt_client row = cl_id c /\ granted_to r c n log (rt_user row).
Proof. exact c183_refresh. Qed.
Print Assumptions C183_refresh.
(** An access token is made for that user, or for the client itself with the grant type client_credentials. *)
Theorem C183_access : forall E p hs C aware log t0 t n g w z d v, app_steps C aware t0 (map snd log) t ->
  aexec (application E p hs g w) (acalls_of n log) (V (RResponse z)) -> json_body z d -> lookup (chars "access_token") d = Some v ->
  exists ou r i c a ow sc, taken_as w ou r /\ authenticates r i c /\ In (n, OLib (OFindClient i (V (Some c)))) log /\ v = PStr a /\
    In (n, OLib (OCreateAT c ow sc (V a))) log /\
    ((exists u, ow = OwnUser u /\ granted_to r c n log (us_id u)) \/ ow = OwnClient c /\ data_has r "grant_type" (chars "client_credentials")).
Proof. exact c183_access. Qed.
Print Assumptions C183_access.
(** The answers to the code and to the refresh in the log of C179. *)
Example C183_code_example : aexec (application ref_env prov oidc (fst owner_visit) (snd owner_visit)) (acalls_of 2 last_log) (V (RResponse owner_answer)) /\ json_body owner_answer owner_dict /\
  (exists a, lookup (chars "access_token") owner_dict = Some (PStr a)) /\ lookup (chars "refresh_token") owner_dict = Some (PStr (lit "tok13")) /\
  app_steps light false tables0 (map snd last_log) (aw_tables (after last_visits aworld0)).
Proof. exact owner_example. Qed.
Example C183_refresh_example : aexec (application ref_env prov oidc TokenPage refresh_visit) (acalls_of 5 last_log) (V (RResponse hand_answer)) /\ json_body hand_answer hand_dict /\
  (exists a, lookup (chars "access_token") hand_dict = Some (PStr a)) /\ lookup (chars "refresh_token") hand_dict = Some (PStr (lit "tok13")) /\
  app_steps light false tables0 (map snd last_log) (aw_tables (after last_visits aworld0)).
Proof. exact hand_example. Qed.
