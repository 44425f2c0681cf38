(** Concrete runs for the examples of C104 and C111. *)
From Coq Require Import String Ascii List NArith ZArith Bool.
From Verif Require Import Base BaseFacts SpecCodec Json Webtools Prog Http OAuth SpecOAuth SpecHistory SpecFlow Example OAuthRef OAuthWit HistoryWit FlowWit SpecLife LifeWit.
Import ListNotations.
Open Scope N_scope.

Lemma texts_ok_at tr : forallb (fun o => match o with OCreateAT _ _ sc (V a) => scalar_b a && forallb scalar_b sc | OCreateRT _ _ _ (V (Some a)) => scalar_b a | _ => true end) tr = true -> texts_ok tr.
Proof.
  intros E. rewrite forallb_forall in E. split.
  - intros c o sc a H. apply E in H. apply andb_true_iff in H as [H1 H2]. split; [apply scalar_b_ok; auto|]. apply Forall_forall. rewrite forallb_forall in H2. intros w Hw. apply scalar_b_ok. auto.
  - intros c o sc a H. apply E in H. apply scalar_b_ok; auto.
Qed.
Lemma before_at t tr : forallb (fun o => match o with ONow (V (n, _)) => (n <? t)%Z | _ => true end) tr = true -> before t tr.
Proof. intros E now off H. rewrite forallb_forall in E. apply E in H. apply Z.ltb_lt. exact H. Qed.

(** A code exchanged a second before it is a day old, without hooks *)
Definition last_second := go (token_endpoint ref_env prov no_hooks (code_req the_code)) (LifeWit.later 86399 (world_of run1)).
Lemma last_second_premises : let tr := trace_of last_second in
  exec (token_endpoint ref_env prov no_hooks (code_req the_code)) tr (result_of last_second) /\
  ex_steps light false (w_store (world_of run1)) tr (w_store (world_of last_second)) /\ no_raise tr /\ texts_ok tr /\
  exchange_request prov (code_req the_code) (lit "web") web the_code (ad_redirect ad1) (lit verifier) /\
  pkce_ok (e_sha256 ref_env) (ad_method ad1) (ad_challenge ad1) (lit verifier) /\
  finds_client (lit "web") web tr /\ finds_user (us_id alice) alice tr /\ before (ch_now choice1 + seconds 86400) tr /\ status_of (result_of last_second) = 200.
Proof.
  cbv zeta. split; [unfold last_second; apply go_exec|]. split; [exact (go_steps _ (LifeWit.later 86399 (world_of run1)))|]. split; [apply no_raise_at; wit|]. split; [apply texts_ok_at; wit|].
  split; [replace (ad_redirect ad1) with cb by wit; exact code_exchange_request|]. split; [replace (ad_method ad1) with (lit "S256") by wit; replace (ad_challenge ad1) with (lit challenge) by wit; exact the_pkce|].
  split; [intros y H; scan H|]. split; [intros y H; scan H|]. split; [apply before_at; wit|wit].
Qed.

(** A refresh token used a second before it is two weeks old *)
Definition choice_rt : choice := w_choice {| w_store := store0; w_count := 8; w_now := 1700000000000000 |}.
Definition store_rt : store := snd (ex_do light false choice_rt (CreateRT web (OwnUser alice) [lit "openid"; lit "email"]) store0).
Definition world_rt (secs : Z) : world := {| w_store := store_rt; w_count := 20; w_now := 1700000000000000 + secs * 1000000 |}.
Definition last_refresh := go (token_endpoint ref_env prov no_hooks (refresh_req (lit "tok8"))) (world_rt 1209599).
Definition late_refresh := go (token_endpoint ref_env prov no_hooks (refresh_req (lit "tok8"))) (world_rt 1209600).
Lemma last_refresh_premises : let tr := trace_of last_refresh in
  ex_do light false choice_rt (CreateRT web (OwnUser alice) [lit "openid"; lit "email"]) store0 = (V (Some (lit "tok8")), store_rt) /\
  exec (token_endpoint ref_env prov no_hooks (refresh_req (lit "tok8"))) tr (result_of last_refresh) /\
  ex_steps light false store_rt tr (w_store (world_of last_refresh)) /\ no_raise tr /\ texts_ok tr /\
  In GRefresh (pv_grants prov) /\ In (lit "refresh_token") (cl_grants web) /\ presents (refresh_req (lit "tok8")) (lit "web") web /\
  data_has (refresh_req (lit "tok8")) "grant_type" (lit "refresh_token") /\ data_has (refresh_req (lit "tok8")) "refresh_token" (lit "tok8") /\ lit "tok8" <> [] /\ asks_none (refresh_req (lit "tok8")) /\
  finds_client (lit "web") web tr /\ (forall uid y, owned_by (OwnUser alice) uid -> In (OFindUser uid y) tr -> y = V (Some alice)) /\ before (ch_now choice_rt + seconds 1209600) tr /\
  status_of (result_of last_refresh) = 200 /\ status_of (result_of late_refresh) = 400.
Proof.
  cbv zeta. split; [wit|]. split; [unfold last_refresh; apply go_exec|]. split; [exact (go_steps _ (world_rt 1209599))|]. split; [apply no_raise_at; wit|]. split; [apply texts_ok_at; wit|].
  split; [vm_compute; auto|]. split; [apply ins_In; wit|]. split; [apply basic_web; wit|]. split; [wit|]. split; [wit|]. split; [discriminate|]. split; [wit|].
  split; [intros y H; scan H|]. split; [intros uid y <- H; scan H|]. split; [apply before_at; wit|]. split; wit.
Qed.
