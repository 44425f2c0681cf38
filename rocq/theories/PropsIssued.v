(** What is accepted was issued: C149-C151. *)
From Coq Require Import String Ascii List NArith ZArith Bool.
From Verif Require Import Base SpecCodec Utf8 Base64 Json Url Webtools Crypto RefCrypto Jwk SpecKey Jws SpecJws JwsRef Jwt SpecJwt SpecReaders Prog Http OAuth SpecOAuth Example ExampleFacts OAuthRef OAuthFacts OAuthWit HistoryWit SpecHook HookWit SpecIssued IssuedFacts IssuedWit.
Import ListNotations.
Open Scope N_scope.

(** C149.  Of the tokens of [log], each was made with some key of whatever kind; [k'] accepts [token]. *)
Theorem C149_authentic : forall C k' log token algv j, constructible C k' ->
  (forall x t, In (x, t) log -> exists k, constructible C k /\ backend_correct C (jmat k) /\ issued C k x t) ->
  algorithm_stated algv k' -> deserialize C token (Some k') algv true = Ok j ->
  In j (map fst log) \/ forgery C (jmat k') (map snd log) token.
Proof. exact c149. Qed.
Print Assumptions C149_authentic.
Theorem C149_claims : forall C k' log token b now1 now2 algv options t, constructible C k' ->
  (forall x s, In (x, s) log -> exists k, constructible C k /\ backend_correct C (jmat k) /\ issued_jwt C k x s) ->
  algorithm_stated algv k' -> to_bytes token = Ok b -> jwt_decode_str C now1 now2 token (Some k') algv true options = Ok t ->
  In t (map fst log) \/ forgery C (jmat k') (map snd log) b.
Proof. exact c149_jwt. Qed.
Print Assumptions C149_claims.
(** A token of the log; and one that somebody else made, who had the key *)
Example C149_example :
  constructible ref (oct_key []) /\ (forall x t, In (x, t) [(hs_jws, hs_token)] -> exists k, constructible ref k /\ backend_correct ref (jmat k) /\ issued ref k x t) /\
  algorithm_stated (PStr (chars "HS256")) (oct_key []) /\
  deserialize ref hs_token (Some (oct_key [])) (PStr (chars "HS256")) true = Ok hs_jws /\
  deserialize ref other_token (Some (oct_key [])) (PStr (chars "HS256")) true = Ok other_jws /\ ~ In other_jws [hs_jws] /\
  forgery ref (jmat (oct_key [])) [hs_token] other_token.
Proof.
  split; [exact oct_ok|]. split; [exact hs_log|]. split; [exact hs_stated|]. split; [vm_compute; reflexivity|]. split; [exact other_accepted|].
  split; [intros [H|[]]; vm_compute in H; discriminate H|exact other_forged].
Qed.

(** C150.  [answers] are any responses of the token endpoint, with the requests and the calls that led to them. *)
Theorem C150_id_token : forall E p hs answers k' token b now1 now2 algv options tk,
  (forall r tr x, In (r, tr, x) answers -> exec (token_endpoint E p hs r) tr (V x)) ->
  (forall r tr x aid key alg, In (r, tr, x) answers -> In (OGetKeyInfo aid (V (key, alg))) tr -> constructible (e_crypto E) key /\ backend_correct (e_crypto E) (jmat key)) ->
  (forall r tr x aid u sc info, In (r, tr, x) answers -> In (OGetUserinfo aid u sc (V info)) tr -> json_wf (PDict info) = true) ->
  constructible (e_crypto E) k' -> algorithm_stated algv k' ->
  to_bytes token = Ok b -> jwt_decode_str (e_crypto E) now1 now2 token (Some k') algv true options = Ok tk ->
  (exists r tr x, In (r, tr, x) answers /\ exchanged_for E hs r tr x (tclaims tk)) \/
  exists tokens, (forall t, In t tokens <-> answered_id_token answers t) /\ forgery (e_crypto E) (jmat k') tokens b.
Proof. exact c150. Qed.
Print Assumptions C150_id_token.
(** The ID token of an exchange; and the access token beside it, which is no ID token of the answers *)
Example C150_example :
  (forall r tr x, In (r, tr, x) answers1 -> exec (token_endpoint ref_env prov oidc r) tr (V x)) /\
  (forall r tr x aid key alg, In (r, tr, x) answers1 -> In (OGetKeyInfo aid (V (key, alg))) tr -> constructible light key /\ backend_correct light (jmat key)) /\
  (forall r tr x aid u sc info, In (r, tr, x) answers1 -> In (OGetUserinfo aid u sc (V info)) tr -> json_wf (PDict info) = true) /\
  constructible light SECRET_KEY /\ algorithm_stated (PStr (chars "HS256")) SECRET_KEY /\
  rmap (lookup (lit "aud")) (text_claims token_text) = Ok (Some (PStr (lit "web"))) /\
  (exists c, text_claims at_text = Ok c) /\
  (forall tk, text_claims at_text = Ok (tclaims tk) -> ~ exists r tr x, In (r, tr, x) answers1 /\ exchanged_for ref_env oidc r tr x (tclaims tk)).
Proof.
  split; [exact answers1_exec|]. split; [exact answers1_keys|]. split; [exact answers1_info|]. split; [apply ExTokenFacts.secret_key_ok|]. split; [exact secret_stated|].
  split; [vm_compute; reflexivity|]. split; [eexists; vm_compute; reflexivity|]. intros tk H. apply at_exchanged. symmetry. exact H.
Qed.

(** C151 is refuted: the example signs its access tokens with the key and algorithm of the ID tokens, and a client that
    checks an ID token with them accepts the access token beside it, for an hour. *)
Theorem C151_confusion_refuted : forall E C aware p hs r tr x s s', mac_bytes C -> exec (token_endpoint E p hs r) tr (V x) -> rs_status x = 200 ->
  data_has r "grant_type" (lit "authorization_code") -> ex_steps C aware s tr s' ->
  exists d a now, json_body x d /\ lookup (chars "access_token") d = Some (PStr a) /\
    forall now1 now2, (now <= now1 < now + 3600)%Z -> (now <= now2 < now + 3600)%Z ->
      exists tk, jwt_decode_str C now1 now2 a (Some SECRET_KEY) (PStr (chars "HS256")) true PNone = Ok tk.
Proof. exact c151_refuted. Qed.
Print Assumptions C151_confusion_refuted.
(** A client that begins its options with the audience, as required or with a value, refuses it. *)
Theorem C151_audience_partial : forall E C aware p hs r tr x s s', mac_bytes C -> exec (token_endpoint E p hs r) tr (V x) -> rs_status x = 200 ->
  data_has r "grant_type" (lit "authorization_code") -> ex_steps C aware s tr s' ->
  exists d a, json_body x d /\ lookup (chars "access_token") d = Some (PStr a) /\
    forall C' now1 now2 key algv o options tk, ~ false_value (dget (chars "essential") o) \/ (exists y, dget (chars "value") o = PStr y /\ y <> []) ->
      jwt_decode_str C' now1 now2 a key algv true (PDict ((chars "aud", PDict o) :: options)) <> Ok tk.
Proof. exact c151_audience. Qed.
Print Assumptions C151_audience_partial.
Example C151_example : mac_bytes light /\ exec (token_endpoint ref_env prov oidc (code_req the_code)) (trace_of run2) (V (response_of (result_of run2))) /\
  rs_status (response_of (result_of run2)) = 200 /\ data_has (code_req the_code) "grant_type" (lit "authorization_code") /\
  ex_steps light false (w_store (world_of run1)) (trace_of run2) (w_store (world_of run2)) /\
  rmap (lookup (lit "sub")) (text_claims at_text) = Ok (Some (PStr (lit "alice"))) /\
  (let decode t := rmap tclaims (jwt_decode_str light 1700000000 1700000000 t (Some SECRET_KEY) (PStr (chars "HS256")) true
                     (PDict [(chars "aud", PDict [(chars "value", PStr (chars "web"))])])) in
   decode at_text = Err InvalidJWTClaim /\ decode token_text = text_claims token_text).
Proof.
  split; [exact light_mac|]. split; [exact run2_sent|]. split; [vm_compute; reflexivity|]. split; [vm_compute; reflexivity|]. split; [exact run2_steps|].
  split; [vm_compute; reflexivity|]. split; vm_compute; reflexivity.
Qed.
