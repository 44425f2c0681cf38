(** Reference runs for C94-C97. *)
From Coq Require Import String Ascii List NArith ZArith Bool Arith Lia.
From Verif Require Import Base BaseFacts SpecPy PyFacts Utf8 Base64 SpecCodec SpecKey Json JsonFacts Webtools Crypto RefCrypto Jwk Jws SpecJws JwsRef Jwt SpecJwt Prog ProgFacts Http OAuth SpecOAuth SpecHistory SpecFlow Example ExampleFacts OAuthRef OAuthFacts RequestFacts ResponseFacts RaiseFacts OAuthWit HistoryWit FlowWit SpecHook HookFacts ExTokenFacts.
Import ListNotations.
Open Scope N_scope.

Lemma checksum_lt m : forall acc, acc < 65536 -> checksum acc m < 65536.
Proof.
  induction m as [|b m IH]; intros acc H; [exact H|]. unfold checksum in *. cbn [fold_left]. apply IH. change 65535 with (N.ones 16). rewrite N.land_ones. apply N.mod_lt. discriminate.
Qed.
Lemma spread_ok h : h < 65536 -> bytes_ok (spread h).
Proof.
  intros H. unfold spread. apply Forall_forall. intros b Hb. apply in_concat in Hb as (l & Hl & Hb). apply repeat_spec in Hl. subst l.
  destruct Hb as [<-|[<-|[]]].
  - rewrite N.shiftr_div_pow2. apply N.div_lt_upper_bound; [discriminate|exact H].
  - change 255 with (N.ones 8). rewrite N.land_ones. apply N.mod_lt. discriminate.
Qed.
Lemma light_mac : mac_bytes light.
Proof. intros h k data. apply spread_ok. apply checksum_lt. apply checksum_lt. reflexivity. Qed.
Lemma ref_hashes : hashes ref_env.
Proof.
  intros n Hn. destruct Hn as [<-|[<-|[<-|[]]]]; (eexists; split; [reflexivity|intros b; apply spread_ok; apply checksum_lt; reflexivity]).
Qed.

(** ** Signing *)
Definition sign_header : pdict := [(lit "alg", PStr (lit "HS256")); (lit "kid", PStr (lit "secret_key_id"))].
Lemma secret_permits : key_permits SECRET_KEY sign_header.
Proof.
  assert (N : ~ ~ false_value PNone) by (intros F; apply F; constructor).
  split; [intros F; destruct (N F)|]. split; [reflexivity|]. split; [intros F; destruct (N F)|]. intros F. destruct (N F).
Qed.
Lemma secret_suits : suits (lit "HS256") (jmat SECRET_KEY).
Proof. eapply suits_hs. left. reflexivity. Qed.
Lemma secret_signs C : signs_always C (jmat SECRET_KEY). Proof. discriminate. Qed.
Lemma sign_scalar : scalar_val (PDict sign_header).
Proof. cbn [scalar_val sign_header fold_right fst snd]. repeat split; slit. Qed.
Lemma not_suits_rs : ~ suits (lit "RS256") (jmat SECRET_KEY).
Proof. intros H. inversion H as [s h Hin E| | |]. cbn [hs_names In] in Hin. repeat destruct Hin as [Hin|Hin]; try discriminate Hin; destruct Hin. Qed.

(** ** The exchange of the reference run, with the hook *)
Definition the_hook : hook := {| hk_adapter := 1; hk_config := ref_config |}.
Lemma run2_exec : exec (token_endpoint ref_env prov oidc (code_req the_code)) (trace_of run2) (result_of run2). Proof. unfold run2. apply go_exec. Qed.
Lemma run2_good : no_raise (trace_of run2). Proof. apply no_raise_at. wit. Qed.
Lemma run2_texts : texts_ok (trace_of run2).
Proof.
  split.
  - intros c o sc a H. assert (E : forallb (fun o => match o with OCreateAT _ _ sc (V a) => scalar_b a && forallb scalar_b sc | _ => true end) (trace_of run2) = true) by wit.
    rewrite forallb_forall in E. apply E in H. apply andb_true_iff in H as [H1 H2]. split; [apply scalar_b_ok; auto|]. apply Forall_forall. rewrite forallb_forall in H2. intros w Hw. apply scalar_b_ok. auto.
  - intros c o sc a H. assert (E : forallb (fun o => match o with OCreateRT _ _ sc (V (Some a)) => scalar_b a | _ => true end) (trace_of run2) = true) by wit.
    rewrite forallb_forall in E. apply E in H. apply scalar_b_ok; auto.
Qed.
Lemma run2_matching : matching_code ref_env web cb (lit verifier) (trace_of run2) the_auth_code.
Proof.
  split; [reflexivity|]. split; [reflexivity|]. split; [exact the_pkce|]. eexists. split; [reflexivity|]. intros now off H.
  assert (E : forallb (fun o => match o with ONow (V (n, _)) => (n <? 1700086400000000)%Z | _ => true end) (trace_of run2) = true) by wit.
  rewrite forallb_forall in E. apply E in H. apply Z.ltb_lt. exact H.
Qed.
Lemma run2_finds : finds_client (lit "web") web (trace_of run2) /\ finds_code the_code the_auth_code (trace_of run2) /\ finds_user (lit "alice") alice (trace_of run2).
Proof. split; [intros y H; scan H|]. split; intros y H; scan H. Qed.
Lemma secret_signing : signing_key light SECRET_KEY (lit "HS256").
Proof.
  split; [apply secret_key_ok|]. split; [apply secret_key_correct, light_mac|]. split; [apply secret_signs|]. split; [exact secret_suits|].
  exists (lit "secret_key_id"). split; [reflexivity|]. split; [discriminate|]. split; [slit|exact secret_permits].
Qed.
Definition alice_info : pdict := [(lit "sub", PStr (lit "alice")); (lit "email", PStr (lit "a@x.example")); (lit "email_verified", PBool true)].
Lemma alice_user_claims : user_claims alice_info.
Proof.
  split; [apply nodupb_spec; reflexivity|]. split; [cbn [scalar_val alice_info fold_right fst snd]; repeat split; slit|].
  split; [intros v Hv; injection Hv as <-; right; eexists; reflexivity|]. intros k Hk Hi.
  assert (E : forallb (fun k => negb (ins k (keys alice_info))) token_claims = true) by wit. rewrite forallb_forall in E. apply E in Hk.
  apply ins_In in Hi. rewrite Hi in Hk. discriminate.
Qed.
Lemma run2_served : hook_served ref_env the_hook (trace_of run2).
Proof.
  split; [|split].
  - intros y H. exists SECRET_KEY, (lit "HS256"). split; [|exact secret_signing]. scan H.
  - intros u sc y H. exists alice_info. split; [|exact alice_user_claims]. vm_compute in H. repeat (destruct H as [H|H]; [try discriminate H; try (injection H as <- <- <-; vm_compute; reflexivity)|]). destruct H.
  - slit.
Qed.
Lemma run2_quick : quick 36000 (trace_of run2).
Proof.
  intros t1 a oa t2 b ob t3 H.
  assert (E : forallb (fun o => match o with ONow (V (n, off)) => (n =? 1700000000000000)%Z && (off =? 0)%Z | _ => true end) (trace_of run2) = true) by wit.
  rewrite forallb_forall in E. rewrite H in E.
  assert (Ha := E (ONow (V (a, oa)))). assert (Hb := E (ONow (V (b, ob)))).
  assert (Ha' : ((a =? 1700000000000000) && (oa =? 0))%Z = true) by (apply Ha; apply in_app_iff; right; left; reflexivity).
  assert (Hb' : ((b =? 1700000000000000) && (ob =? 0))%Z = true) by (apply Hb; apply in_app_iff; right; right; apply in_app_iff; right; left; reflexivity).
  apply andb_true_iff in Ha' as [A1 A2]. apply andb_true_iff in Hb' as [B1 B2]. apply Z.eqb_eq in A1, A2, B1, B2. subst. lia.
Qed.

(** ** Claims that the example gives away *)
Definition bob : user := {| us_id := lit "bob"; us_info := [(lit "name", PStr (lit "Bob Roe")); (lit "given_name", PStr (lit "Bob")); (lit "created_at", PInt 1600000000); (lit "phone_number", PStr (lit "+15550100"))] |}.
Lemma wit_created : exists u scopes k v, lookup k (ex_userinfo u scopes) = Some v /\ k <> lit "sub" /\ lookup k (us_info u) = Some v /\
  forall s, ~ In k (standard_claims s).
Proof.
  exists bob, [lit "openid"; lit "profile"], (lit "created_at"), (PInt 1600000000). split; [wit|]. split; [discriminate|]. split; [wit|].
  intros s H. apply ins_In in H. unfold standard_claims in H. repeat destruct (eqs _ _) in H; discriminate.
Qed.
Definition count_at (tr : list obs) : nat := count (fun o => match o with OCreateAT _ _ _ _ => true | _ => false end) tr.
Lemma run2_sent : exec (token_endpoint ref_env prov oidc (code_req the_code)) (trace_of run2) (V (response_of (result_of run2))).
Proof. assert (E : result_of run2 = V (response_of (result_of run2))) by wit. rewrite <- E. exact run2_exec. Qed.
Lemma the_scope_names : Forall scope_name (ac_scopes the_auth_code).
Proof.
  cbn [ac_scopes the_auth_code]. constructor; [|constructor; [|constructor]]; (split; [discriminate|]; apply AuthzFacts.nowhite, Forall_forall; intros c Hc; cbn in Hc; repeat destruct Hc as [<-|Hc]; try reflexivity; destruct Hc).
Qed.
Definition token_text : str := match member "id_token" (body_of (result_of run2)) with PStr t => t | _ => [] end.
Lemma run2_id_token : exists t tk, lookup (lit "id_token") (dict_of (result_of run2)) = Some (PStr t) /\
    jwt_decode_str light 1700000000 1700000000 t (Some SECRET_KEY) (PStr (lit "HS256")) true PNone = Ok tk /\
    lookup (lit "email") (tclaims tk) = Some (PStr (lit "a@x.example")) /\ lookup (lit "given_name") (tclaims tk) = None /\
    lookup (lit "given_name") (us_info alice) = Some (PStr (lit "Alice")).
Proof. exists token_text. eexists. split; [wit|]. split; [wit|]. split; [wit|]. split; wit. Qed.
