(** Examples for C149-C151. *)
From Coq Require Import String Ascii List NArith ZArith Bool.
From Verif Require Import Base BaseFacts SpecCodec Utf8 Base64 Json JsonFacts Url Webtools Crypto RefCrypto Jwk SpecKey Jws SpecJws JwsRef Jwt SpecJwt SpecReaders Prog Http OAuth SpecOAuth Example ExampleFacts OAuthRef OAuthFacts OAuthWit HistoryWit SpecHook ExTokenFacts HookWit SpecIssued IssuedFacts.
Import ListNotations.
Open Scope N_scope.

(** Another message, signed with the same key by somebody who knows it *)
Definition other_jws : jws := {| jheader := hs_header; jpayload := lit "Other." |}.
Definition other_token : bytes := Eval vm_compute in match serialize ref [] other_jws (Some (oct_key [])) with Ok t => t | Err _ => [] end.
Lemma oct_ok : constructible ref (oct_key []).
Proof. exists (oct_dict []). split; [apply nodupb_spec; reflexivity|vm_compute; reflexivity]. Qed.
Lemma hs_issued : issued ref (oct_key []) hs_jws hs_token.
Proof. exists [], [(lit "alg", PStr (lit "HS256"))]. split; [reflexivity|]. split; [|split; vm_compute; reflexivity]. apply Forall_forall. intros c Hc. cbn in Hc. repeat (destruct Hc as [<-|Hc]; [reflexivity|]). destruct Hc. Qed.
Lemma hs_log x t : In (x, t) [(hs_jws, hs_token)] -> exists k, constructible ref k /\ backend_correct ref (jmat k) /\ issued ref k x t.
Proof. intros [[= <- <-]|[]]. exists (oct_key []). split; [exact oct_ok|]. split; [apply ref_oct|exact hs_issued]. Qed.
Lemma hs_stated : algorithm_stated (PStr (chars "HS256")) (oct_key []).
Proof. left. split; [intros H; inversion H|discriminate]. Qed.
Lemma other_accepted : deserialize ref other_token (Some (oct_key [])) (PStr (chars "HS256")) true = Ok other_jws.
Proof. vm_compute. reflexivity. Qed.
Lemma other_forged : forgery ref (jmat (oct_key [])) [hs_token] other_token.
Proof.
  destruct (c149 ref (oct_key []) [(hs_jws, hs_token)] other_token _ _ oct_ok hs_log hs_stated other_accepted) as [[H|[]]|H]; [|exact H].
  vm_compute in H. discriminate H.
Qed.

(** The answer of the first exchange, its tokens, and the claims of its ID token *)
Definition answers1 : list (request * list obs * response) := [(code_req the_code, trace_of run2, response_of (result_of run2))].
Definition at_text : str := match member "access_token" (body_of (result_of run2)) with PStr t => t | _ => [] end.
Definition text_claims (t : str) : result pdict := rmap tclaims (jwt_decode_str light 1700000000 1700000000 t (Some SECRET_KEY) (PStr (chars "HS256")) true PNone).
Lemma in_one {A B D} (a a' : A) (b b' : B) (d d' : D) : In (a', b', d') [(a, b, d)] -> a = a' /\ b = b' /\ d = d'.
Proof. intros [[= <- <- <-]|[]]. auto. Qed.
Lemma answers1_exec r tr x : In (r, tr, x) answers1 -> exec (token_endpoint ref_env prov oidc r) tr (V x).
Proof. intros Hin. apply in_one in Hin as (<- & <- & <-). exact run2_sent. Qed.
Lemma answers1_keys r tr x aid key alg : In (r, tr, x) answers1 -> In (OGetKeyInfo aid (V (key, alg))) tr -> constructible light key /\ backend_correct light (jmat key).
Proof.
  intros Hin H. apply in_one in Hin as (<- & <- & <-). assert (key = SECRET_KEY) as ->.
  { vm_compute in H. repeat (destruct H as [H|H]; [try discriminate H; try (injection H as _ <- _; vm_compute; reflexivity)|]). destruct H. }
  split; [apply secret_key_ok|apply secret_key_correct, light_mac].
Qed.
Lemma answers1_info r tr x aid u sc info : In (r, tr, x) answers1 -> In (OGetUserinfo aid u sc (V info)) tr -> json_wf (PDict info) = true.
Proof.
  intros Hin H. apply in_one in Hin as (<- & <- & <-). vm_compute in H. repeat (destruct H as [H|H]; [try discriminate H; try (injection H as _ _ _ <-; vm_compute; reflexivity)|]). destruct H.
Qed.
Lemma secret_stated : algorithm_stated (PStr (chars "HS256")) SECRET_KEY.
Proof. left. split; [intros H; inversion H|discriminate]. Qed.
(** The access token is accepted too, though no ID token of the answers has its signed text. *)
Lemma at_exchanged tk : rmap tclaims (Ok tk) = text_claims at_text -> ~ exists r tr x, In (r, tr, x) answers1 /\ exchanged_for ref_env oidc r tr x (tclaims tk).
Proof.
  intros Hc (r & tr & x & Hin & i & c & code & ac & u & a & d & h & alg & info & utc & off & ah & sc & _ & _ & _ & _ & _ & _ & _ & Hh & Hi & _ & _ & Hcl).
  assert (Ht : tclaims tk = match text_claims at_text with Ok c => c | Err _ => [] end) by (rewrite <- Hc; reflexivity).
  assert (Hn : lookup (lit "aud") (tclaims tk) = None) by (rewrite Ht; vm_compute; reflexivity).
  unfold id_claims in Hcl. specialize (Hcl (lit "aud")). cbv beta in Hcl.
  rewrite Hn in Hcl. clear Ht Hn. apply in_one in Hin as (<- & <- & <-).
  assert (Hnone : lookup (lit "aud") info = None).
  { vm_compute in Hi. repeat (destruct Hi as [Hi|Hi]; [try discriminate Hi; try (injection Hi as _ _ _ <-; vm_compute; reflexivity)|]). destruct Hi. }
  rewrite Hnone in Hcl. vm_compute in Hcl. discriminate Hcl.
Qed.
