(** Which tokens answers hand out: C182. *)
From Coq Require Import String Ascii List NArith ZArith Bool Arith.
From Verif Require Import Base SpecReaders Utf8 Webtools Crypto Jwk Prog Http OAuth SpecOAuth SpecFlow Example OAuthRef OAuthWit FlowWit App SpecApp AppFacts AppWit SpecKeep SpecWho LastWit HandFacts HandWit.
Import ListNotations.
Open Scope string_scope.
Open Scope list_scope.
Open Scope N_scope.

(** C182.  An answer of the example application has an access token or a refresh token only if it is one of the token page,
    the token was made for this very request, and the request proved to be the client that it was made for. *)
Theorem C182_handed : forall E p hs g w tr z d v, aexec (application E p hs g w) tr (V (RResponse z)) -> json_body z d ->
  (lookup (chars "access_token") d = Some v -> g = TokenPage /\ exists ou r i c a ow sc, taken_as w ou r /\ authenticates r i c /\ In (OLib (OFindClient i (V (Some c)))) tr /\
     v = PStr a /\ In (OLib (OCreateAT c ow sc (V a))) tr) /\
  (lookup (chars "refresh_token") d = Some v -> g = TokenPage /\ exists ou r i c k ow sc, taken_as w ou r /\ authenticates r i c /\ In (OLib (OFindClient i (V (Some c)))) tr /\
     v = PStr k /\ In (OLib (OCreateRT c ow sc (V (Some k)))) tr).
Proof. exact c182_handed. Qed.
Print Assumptions C182_handed.
(** In any interleaving, the refresh token is then stored for that client. *)
Theorem C182_stored : forall E p hs C aware log t0 t n g w z d v, app_steps C aware t0 (map snd log) t ->
  aexec (application E p hs g w) (acalls_of n log) (V (RResponse z)) -> json_body z d -> lookup (chars "refresh_token") d = Some v ->
  exists ou r i c k l1 l2 t1 row, taken_as w ou r /\ authenticates r i c /\ In (n, OLib (OFindClient i (V (Some c)))) log /\ v = PStr k /\
    log = l1 ++ l2 /\ app_steps C aware t0 (map snd l1) t1 /\ acted n l1 /\ In (k, row) (st_rts (tb_store t1)) /\ rt_client row = cl_id c.
Proof. exact c182_stored. Qed.
Print Assumptions C182_stored.
(** The answer to the refresh of C179. *)
Example C182_example : aexec (application ref_env prov oidc TokenPage refresh_visit) (acalls_of 5 last_log) (V (RResponse hand_answer)) /\ json_body hand_answer hand_dict /\
  (exists a, lookup (chars "access_token") hand_dict = Some (PStr a)) /\ lookup (chars "refresh_token") hand_dict = Some (PStr (lit "tok13")) /\
  app_steps light false tables0 (map snd last_log) (aw_tables (after last_visits aworld0)).
Proof. exact hand_example. Qed.
