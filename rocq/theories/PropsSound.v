(** The data base of the example application stays consistent: C176. *)
From Coq Require Import String Ascii List NArith ZArith Bool Arith.
From Verif Require Import Base SpecReaders Webtools Crypto Jwk Prog Http OAuth SpecOAuth Example OAuthRef OAuthWit FlowWit SpecLife App SpecApp AppFacts AppWit LifeWit KeepWit WhoWit SpecSound SoundFacts SoundWit.
Import ListNotations.
Open Scope string_scope.
Open Scope list_scope.
Open Scope N_scope.

(** C176.  At every moment of any interleaving of requests, if the data base was consistent at the start: no key twice,
    one refresh token for a client and a user, and every code, refresh token and session has the rows it refers to, with
    no scope that its client may not use. *)
Theorem C176_consistent : forall E p hs, (forall b, bytes_ok (e_sha256 E b)) -> order_ok E -> forall C aware qs t0,
  set_up t0 -> consistent (cf_scopes (pv_config p)) t0 ->
  forall log t, app_running E p hs qs log -> app_steps C aware t0 (map snd log) t -> set_up t /\ consistent (cf_scopes (pv_config p)) t.
Proof. exact c176. Qed.
Print Assumptions C176_consistent.
Example C176_example : (forall b, bytes_ok (e_sha256 ref_env b)) /\ order_ok ref_env /\ set_up tables0 /\ consistent (cf_scopes (pv_config prov)) tables0 /\
  (forall k, (k <= 3)%nat -> app_running ref_env prov oidc early (log_before k ++ log_since k) /\ app_steps light false tables0 (map snd (log_before k)) (tables_at k)) /\
  (exists row, st_codes (tb_store (tables_at 2)) = [(lit "tok6", row)] /\ ac_scopes row = [lit "openid"; lit "email"]) /\
  (exists rt, st_rts (tb_store (tables_at 3)) = [(lit "tok13", rt)] /\ rt_scopes rt = [lit "openid"; lit "email"]) /\
  tb_sessions (tables_at 3) = [(lit "tok2", lit "alice")].
Proof. exact sound_example. Qed.
Example C176_example_not : ~ set_up {| tb_store := {| st_clients := [OAuthRef.web; OAuthRef.web]; st_users := []; st_codes := []; st_rts := [] |}; tb_sessions := []; tb_accounts := [] |}.
Proof. exact not_set_up. Qed.
