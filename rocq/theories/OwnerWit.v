(** An answer to a code, for the example of C183. *)
From Coq Require Import String Ascii List NArith ZArith Bool Arith.
From Verif Require Import Base SpecReaders Utf8 Json Webtools Crypto Jwk Prog Http OAuth SpecOAuth SpecFlow ResponseFacts Example OAuthRef OAuthWit FlowWit App SpecApp AppFacts AppWit KeepWit LastWit HandWit.
Import ListNotations.
Open Scope string_scope.
Open Scope list_scope.
Open Scope N_scope.

(** The third request of the log of C179 *)
Definition owner_visit : page * App.web := nth 2 last_visits (TokenPage, refresh_visit).
Definition owner_run := ago owner_visit (after (firstn 2 last_visits) aworld0).
Definition owner_answer : response := match aresult owner_run with V (RResponse z) => z | _ => {| rs_status := 0; rs_headers := []; rs_body := [] |} end.
Definition owner_dict : pdict := match json_loads (rs_body owner_answer) with Ok (PDict d) => d | _ => [] end.
Lemma owner_example : aexec (application ref_env prov oidc (fst owner_visit) (snd owner_visit)) (acalls_of 2 last_log) (V (RResponse owner_answer)) /\ json_body owner_answer owner_dict /\
  (exists a, lookup (chars "access_token") owner_dict = Some (PStr a)) /\ lookup (chars "refresh_token") owner_dict = Some (PStr (lit "tok13")) /\
  app_steps light false tables0 (map snd last_log) (aw_tables (after last_visits aworld0)).
Proof.
  split.
  { assert (E1 : acalls_of 2 last_log = atrace owner_run) by wit. assert (E2 : aresult owner_run = V (RResponse owner_answer)) by wit. rewrite E1, <- E2.
    exact (ago_exec owner_visit (after (firstn 2 last_visits) aworld0)). }
  split; [apply (json_response_V 200 token_headers owner_dict owner_answer); wit|]. split; [eexists; wit|]. split; [wit|]. exact (log_steps last_visits 0 aworld0).
Qed.
