(** An answer with tokens, for the example of C182. *)
From Coq Require Import String Ascii List NArith ZArith Bool Arith.
From Verif Require Import Base SpecReaders Utf8 Json Webtools Crypto Jwk Prog Http OAuth SpecOAuth SpecFlow ResponseFacts Example OAuthRef OAuthWit FlowWit App SpecApp AppFacts AppWit LastWit.
Import ListNotations.
Open Scope string_scope.
Open Scope list_scope.
Open Scope N_scope.

Definition hand_answer : response := match aresult last_run with V (RResponse z) => z | _ => {| rs_status := 0; rs_headers := []; rs_body := [] |} end.
Definition hand_dict : pdict := match json_loads (rs_body hand_answer) with Ok (PDict d) => d | _ => [] end.
Lemma hand_example : aexec (application ref_env prov oidc TokenPage refresh_visit) (acalls_of 5 last_log) (V (RResponse hand_answer)) /\ json_body hand_answer hand_dict /\
  (exists a, lookup (chars "access_token") hand_dict = Some (PStr a)) /\ lookup (chars "refresh_token") hand_dict = Some (PStr (lit "tok13")) /\
  app_steps light false tables0 (map snd last_log) (aw_tables (after last_visits aworld0)).
Proof.
  split.
  { assert (E1 : acalls_of 5 last_log = atrace last_run) by wit. assert (E2 : aresult last_run = V (RResponse hand_answer)) by wit. rewrite E1, <- E2.
    exact (ago_exec (TokenPage, refresh_visit) (after (firstn 5 last_visits) aworld0)). }
  split; [apply (json_response_V 200 token_headers hand_dict hand_answer); wit|]. split; [eexists; wit|]. split; [wit|]. exact (log_steps last_visits 0 aworld0).
Qed.
