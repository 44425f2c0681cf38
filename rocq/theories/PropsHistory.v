(** The properties of histories of requests: C52-C54. *)
From Coq Require Import String Ascii List NArith ZArith Bool.
From Verif Require Import Base SpecCodec SpecKey Utf8 Base64 Json Url Webtools Crypto RefCrypto Jwk Jws SpecJws JwsRef Jwt SpecJwt Prog Http OAuth SpecOAuth SpecHistory Example ExampleFacts OAuthRef OAuthFacts RequestFacts AuthzFacts TokenFacts ResponseFacts IssueFacts RaiseFacts IdTokenFacts HistoryFacts StoreFacts OAuthWit OAuthEx HistoryWit.
Import ListNotations.
Open Scope N_scope.
(** C52.  [honours] is the contract of the adapter, which the example adapter keeps (last theorem), and [fresh] says that
    secret_token has not given the same code twice. *)
Theorem C52_single_use : forall E, (forall b, bytes_ok (e_sha256 E b)) -> forall l code, sequential E l -> honours (all_calls l) -> fresh code (all_calls l) -> (exchanges code l <= 1)%nat.
Proof. exact p_single_use_seq. Qed.
Print Assumptions C52_single_use.
Theorem C52_provenance : forall E, (forall b, bytes_ok (e_sha256 E b)) -> forall l1 e l2 code x, sequential E (l1 ++ e :: l2) -> honours (all_calls (l1 ++ e :: l2)) ->
  ev_answer e = Some x -> exchanged code (ev_in e) (Some x) = true ->
  exists e0, In e0 l1 /\ comes_from E code (ev_in e0) (ev_calls e0) (ev_in e) (ev_calls e) x.
Proof. exact p_provenance_seq. Qed.
Print Assumptions C52_provenance.
Theorem C52_example_adapter : forall C aware s tr s', ex_steps C aware s tr s' -> st_codes s = [] -> honours tr.
Proof. exact p_example_honours. Qed.
Print Assumptions C52_example_adapter.
Example C52_example : (forall b, bytes_ok (e_sha256 ref_env b)) /\ sequential ref_env history /\ (exists s, ex_steps light false store0 (all_calls history) s) /\
  honours (all_calls history) /\ fresh the_code (all_calls history) /\ length history = 3%nat /\ exchanges the_code history = 1%nat.
Proof.
  split; [exact (sha_ok SHA256)|]. split; [exact history_seq|]. split; [exact history_steps|]. split; [exact history_honours|]. split; [exact history_fresh|].
  split; [reflexivity|exact history_exchanges].
Qed.

(** C53 is refuted: between get_authorization_code and delete_authorization_code a second request finds the code, and both
    get a token, with the example adapter. *)
Theorem C53_race_refuted : exists q0 a0 q1 x1 q2 x2 log s, interleaved ref_env [(q0, a0); (q1, Some x1); (q2, Some x2)] log /\
  ex_steps light false store0 (map snd log) s /\ honours (map snd log) /\ fresh the_code (map snd log) /\
  exchanged the_code q1 (Some x1) = true /\ exchanged the_code q2 (Some x2) = true /\
  member "access_token" (json_loads (rs_body x1)) <> member "access_token" (json_loads (rs_body x2)).
Proof. exact wit_race. Qed.
Print Assumptions C53_race_refuted.
(** Where a token response comes from is as before, and when a request that has found a code keeps others from finding it
    until it has deleted it, the code is used once. *)
Theorem C53_provenance_partial : forall E, (forall b, bytes_ok (e_sha256 E b)) -> forall qs log n q x code, interleaved E qs log -> honours (map snd log) ->
  nth_error qs n = Some (q, Some x) -> exchanged code q (Some x) = true ->
  exists m q0 a0, nth_error qs m = Some (q0, a0) /\ comes_from E code q0 (calls_of m log) q (calls_of n log) x.
Proof. exact p_interleaved_provenance. Qed.
Print Assumptions C53_provenance_partial.
Theorem C53_exclusive_partial : forall E, (forall b, bytes_ok (e_sha256 E b)) -> forall qs log code i j qi xi qj xj, interleaved E qs log -> honours (map snd log) -> fresh code (map snd log) -> exclusive code log ->
  nth_error qs i = Some (qi, Some xi) -> exchanged code qi (Some xi) = true ->
  nth_error qs j = Some (qj, Some xj) -> exchanged code qj (Some xj) = true -> i = j.
Proof. exact p_interleaved_exclusive. Qed.
Print Assumptions C53_exclusive_partial.
Example C53_example : names (map snd race_log) =
  ["find_client"; "get_authorization_code"; "utcnow"; "find_user"; "create_access_token";
   "find_client"; "get_authorization_code"; "utcnow"; "find_user"; "create_access_token";
   "create_refresh_token"; "get_key_info"; "get_userinfo"; "utcnow"; "utcnow"; "utcnow"; "sign"; "delete_authorization_code";
   "create_refresh_token"; "get_key_info"; "get_userinfo"; "utcnow"; "utcnow"; "utcnow"; "sign"; "delete_authorization_code"]%string.
Proof. wit. Qed.

(** C54.  Every code gives at most one token response, and each has its provenance, when the process may stop at any call. *)
Theorem C54_single_use : forall E, (forall b, bytes_ok (e_sha256 E b)) -> forall l code, with_crashes E l -> honours (all_calls l) -> fresh code (all_calls l) -> (exchanges code l <= 1)%nat.
Proof. exact p_single_use_fresh. Qed.
Print Assumptions C54_single_use.
Theorem C54_provenance : forall E, (forall b, bytes_ok (e_sha256 E b)) -> forall l1 e l2 code x, with_crashes E (l1 ++ e :: l2) -> honours (all_calls (l1 ++ e :: l2)) ->
  ev_answer e = Some x -> exchanged code (ev_in e) (Some x) = true ->
  exists e0, In e0 l1 /\ comes_from E code (ev_in e0) (ev_calls e0) (ev_in e) (ev_calls e) x.
Proof. exact p_provenance. Qed.
Print Assumptions C54_provenance.
(** Tokens may however be created twice: those of the request that did not finish are never sent. *)
Theorem C54_unsent_tokens : exists l s, with_crashes ref_env l /\ ex_steps light false store0 (all_calls l) s /\ honours (all_calls l) /\ fresh the_code (all_calls l) /\
  exchanges the_code l = 1%nat /\ exists a1 a2, access_tokens (all_calls l) = [a1; a2] /\ a1 <> a2.
Proof. exact wit_crash. Qed.
Print Assumptions C54_unsent_tokens.
Example C54_example : with_crashes ref_env crashed /\ honours (all_calls crashed) /\ exchanges the_code crashed = 1%nat /\
  names crash_calls = ["find_client"; "get_authorization_code"; "utcnow"; "find_user"; "create_access_token"; "create_refresh_token"]%string.
Proof. split; [exact crashed_ok|]. split; [exact (p_example_honours _ _ _ _ _ crashed_steps eq_refl)|]. wits. Qed.
