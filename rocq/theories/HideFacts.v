(** The endpoints and the example application with other secrets: lemmas for C169 and C170. *)
From Coq Require Import String Ascii List NArith ZArith Bool.
From Verif Require Import Base BaseFacts Webtools Jwk Prog ProgFacts Http OAuth SpecOAuth HeaderFacts Example App SpecApp AppFacts SpecHide.
Import ListNotations.
Open Scope N_scope.

Section Sim.
Variable d : disguise.
Notation oc := (other_client d).
Notation ou := (other_user d).
Definition other_eff {T} (e : eff T) : eff T :=
  match e in eff T return eff T with
  | SaveCode code data c u => SaveCode code data (oc c) (ou u)
  | CreateAT c o sc => CreateAT (oc c) (other_owner d o) sc
  | CreateRT c o sc => CreateRT (oc c) (other_owner d o) sc
  | RevokeToken c t h => RevokeToken (oc c) t h
  | GetUserinfo a u sc => GetUserinfo a (ou u) sc
  | e => e
  end.
Definition other_val {T} (e : eff T) : T -> T :=
  match e in eff T return T -> T with
  | FindClient _ => option_map oc
  | FindUser _ => option_map ou
  | _ => fun x => x
  end.
Definition same_val {A} : A -> A := fun x => x.
Lemma outcome_same {A} (x : res A) : outcome (fun a => a) x = x. Proof. destruct x; reflexivity. Qed.
Lemma other_observe {T} (e : eff T) x : observe (other_eff e) (outcome (other_val e) x) = other_call d (observe e x).
Proof. destruct e; cbn [other_eff other_val observe other_call]; rewrite ?outcome_same; reflexivity. Qed.

Definition sim {A} (m : A -> A) (p q : prog A) : Prop := forall tr x, exec p tr x -> exec q (map (other_call d) tr) (outcome m x).
Lemma sim_ret {A} (m : A -> A) x : sim m (Ret x) (Ret (outcome m x)).
Proof. intros tr y H. apply exec_Ret in H as [-> ->]. apply exec_Ret. auto. Qed.
Lemma sim_same {A} (x : res A) : sim (fun a => a) (Ret x) (Ret x).
Proof. intros tr y H. apply exec_Ret in H as [-> ->]. apply exec_Ret. rewrite outcome_same. auto. Qed.
Lemma sim_throw {A} (m : A -> A) e : sim m (Ret (X e)) (Ret (X e)).
Proof. exact (sim_ret m (X e)). Qed.
Lemma sim_call {T} (e : eff T) : sim (other_val e) (call e) (call (other_eff e)).
Proof. intros tr x H. apply exec_call in H as ->. apply exec_call. cbn [map]. rewrite other_observe. reflexivity. Qed.
Lemma sim_ptry {A B} (m : A -> A) (n : B -> B) p q f g : sim m p q -> (forall x, sim n (f x) (g (outcome m x))) -> sim n (ptry p f) (ptry q g).
Proof.
  intros Hp Hf tr x H. apply exec_ptry in H as (y & t1 & t2 & -> & H1 & H2). apply exec_ptry. rewrite map_app.
  exists (outcome m y), (map (other_call d) t1), (map (other_call d) t2). split; [reflexivity|]. split; [apply Hp, H1|apply Hf, H2].
Qed.
Lemma sim_bind {A B} (m : A -> A) (n : B -> B) p q f g : sim m p q -> (forall a, sim n (f a) (g (m a))) -> sim n (pbind p f) (pbind q g).
Proof. intros Hp Hf. apply (sim_ptry m); [exact Hp|]. intros [a|e]; cbn [outcome]; [apply Hf|apply sim_throw]. Qed.
Lemma sim_except {A} (m : A -> A) p q f g : sim m p q -> (forall e, sim m (f e) (g e)) -> sim m (pexcept p f) (pexcept q g).
Proof. intros Hp Hf. apply (sim_ptry m); [exact Hp|]. intros [a|[e|e]]; cbn [outcome]; [exact (sim_ret m (V a))|apply Hf|apply sim_throw]. Qed.
Lemma sim_finally {A} (m : A -> A) p q f g : sim m p q -> sim (fun u => u) f g -> sim m (pfinally p f) (pfinally q g).
Proof.
  intros Hp Hf. apply (sim_ptry m); [exact Hp|]. intros x. apply (sim_ptry (fun u => u)); [exact Hf|]. intros [a|e]; cbn [outcome]; [apply sim_ret|apply sim_throw].
Qed.

(** The clients that the request tells from one another are told from one another after it. *)
Lemma alike_some known a b s : alike known a b -> known s -> eqo a (Some s) = eqo b (Some s).
Proof.
  intros [_ H] Hs. specialize (H s Hs). destruct (eqo a (Some s)) eqn:Ea, (eqo b (Some s)) eqn:Eb; try reflexivity; exfalso.
  - destruct a; [|discriminate]. apply eqs_true in Ea. subst. destruct H as [H _]. rewrite H in Eb by reflexivity. cbn [eqo] in Eb. rewrite eqs_refl in Eb. discriminate.
  - destruct b; [|discriminate]. apply eqs_true in Eb. subst. destruct H as [_ H]. rewrite H in Ea by reflexivity. cbn [eqo] in Ea. rewrite eqs_refl in Ea. discriminate.
Qed.
Lemma alike_none known a b : alike known a b -> eqo a None = eqo b None.
Proof. intros [H _]. destruct a, b; try reflexivity; destruct H as [H1 H2]; exfalso; [specialize (H2 eq_refl)|specialize (H1 eq_refl)]; discriminate. Qed.

Ltac bind_call := match goal with |- sim ?n (pbind (call ?e) ?f) (pbind _ ?g) => refine (sim_bind (other_val e) n (call e) (call (other_eff e)) f g (sim_call e) _); cbn [other_val]; intros ? end.
Ltac bind_ret := match goal with |- sim _ (pbind (Ret ?x) _) (pbind (Ret ?x) _) => apply (sim_bind (fun a => a)); [apply sim_same|intros ?; cbv beta] end.
Ltac by_cases := match goal with |- sim _ (if ?b then _ else _) (if ?b then _ else _) => destruct b | |- sim _ (match ?b with _ => _ end) (match ?b with _ => _ end) => destruct b end.
Ltac go := repeat (cbv beta zeta; first [exact (sim_throw _ _) | exact (sim_same _) | apply sim_throw | apply sim_same | bind_call | bind_ret | by_cases]).

Lemma sim_bind_ret {A B} (n : B -> B) (x : res A) f g : (forall a, x = V a -> sim n (f a) (g a)) -> sim n (pbind (Ret x) f) (pbind (Ret x) g).
Proof. intros H. destruct x as [a|e]; [exact (H a eq_refl)|apply sim_throw]. Qed.
Lemma arg_lookup k l s : arg k l = Some s -> lookup (lit k) l = Some s.
Proof. unfold arg. destruct (lookup (lit k) l) as [[|]|]; congruence. Qed.

Lemma sim_basic r : hidden_from d r -> sim (option_map oc) (auth_basic r) (auth_basic (other_request d r)).
Proof.
  intros H. unfold auth_basic. cbn [rq_headers other_request]. apply sim_bind_ret. intros o Ho.
  destruct o as [[[|a i] [|b s]]|]; try exact (sim_ret _ (V None)). bind_call. destruct a0 as [c|]; cbn [option_map]; [|apply sim_throw].
  assert (K : offers r (b :: s)). { left. eexists. apply basic_iff. apply ProgFacts.lift_V in Ho. exact Ho. }
  cbn [cl_secret other_client cl_auth_method]. rewrite <- (alike_some _ _ _ _ (H c) K).
  destruct (negb _); [apply sim_throw|]. destruct (negb _); [apply sim_throw|]. exact (sim_ret _ (V (Some c))).
Qed.
Lemma sim_post r : hidden_from d r -> sim (option_map oc) (auth_post r) (auth_post (other_request d r)).
Proof.
  intros H. unfold auth_post. change (form (other_request d r)) with (form r). cbv zeta.
  destruct (arg "client_id" (form r)) as [i|]; [|exact (sim_ret _ (V None))]. destruct (arg "client_secret" (form r)) as [s|] eqn:E; [|exact (sim_ret _ (V None))].
  bind_call. destruct a as [c|]; cbn [option_map]; [|apply sim_throw].
  assert (K : offers r s). { right. apply arg_lookup, E. }
  cbn [cl_secret other_client cl_auth_method]. rewrite <- (alike_some _ _ _ _ (H c) K).
  destruct (negb _); [apply sim_throw|]. destruct (negb _); [apply sim_throw|]. exact (sim_ret _ (V (Some c))).
Qed.
Lemma sim_none r : hidden_from d r -> sim (option_map oc) (auth_none r) (auth_none (other_request d r)).
Proof.
  intros H. unfold auth_none. change (form (other_request d r)) with (form r). cbv zeta.
  destruct (arg "client_id" (form r)) as [i|]; [|exact (sim_ret _ (V None))]. destruct (param "client_secret" (form r)) as [s|] eqn:E; [exact (sim_ret _ (V None))|].
  bind_call. destruct a as [c|]; cbn [option_map]; [|apply sim_throw].
  cbn [cl_secret other_client cl_auth_method]. rewrite <- (alike_none _ _ _ (H c)).
  destruct (negb _); [apply sim_throw|]. destruct (negb _); [apply sim_throw|]. exact (sim_ret _ (V (Some c))).
Qed.
Lemma sim_loop r ms : hidden_from d r -> forall l, (forall n m, In (n, m) l -> sim (option_map oc) (m r) (m (other_request d r))) ->
  sim oc (authenticate_loop l ms r) (authenticate_loop l ms (other_request d r)).
Proof.
  intros H. induction l as [|[n m] l IH]; intros Hl; cbn [authenticate_loop]; [apply sim_throw|].
  destruct (_ && _); [apply IH; intros; eapply Hl; right; eauto|].
  apply (sim_bind (option_map oc)); [eapply Hl; left; reflexivity|]. intros [c|]; cbn [option_map]; [exact (sim_ret oc (V c))|]. apply IH. intros; eapply Hl; right; eauto.
Qed.
Lemma sim_authenticate r ms : hidden_from d r -> sim oc (authenticate r ms) (authenticate (other_request d r) ms).
Proof.
  intros H. apply sim_loop; [exact H|]. intros n m [E|[E|[E|[]]]]; injection E as <- <-; [apply sim_basic|apply sim_post|apply sim_none]; exact H.
Qed.

Section Env.
Variable E : env.
Lemma sim_id_token h token scope c u : sim (fun a => a) (generate_id_token E h token scope c u) (generate_id_token E h token scope (oc c) (ou u)).
Proof. unfold generate_id_token. cbn [cl_id other_client]. go. Qed.
Lemma sim_hooks c u : forall l token, sim (fun a => a) (run_token_hooks E l token c u) (run_token_hooks E l token (oc c) (ou u)).
Proof.
  induction l as [|h l IH]; intros token; cbn [run_token_hooks]; [apply sim_same|]. apply (sim_bind (fun a => a)); [|intros; apply IH].
  unfold oidc_token_response. destruct (lookup _ token) as [[| | | |s| |]|]; try apply sim_throw. destruct (substr _ s); [|apply sim_same].
  apply (sim_bind (fun a => a)); [apply sim_id_token|]. intros; apply sim_same.
Qed.
Lemma sim_check_code uri v ac c : sim (fun a => a) (validate_authorization_code E uri v ac c) (validate_authorization_code E uri v ac (oc c)).
Proof. unfold validate_authorization_code. cbn [cl_redirects cl_id other_client]. go. Qed.
Lemma sim_maybe c o sc : sim (fun a => a) (maybe_refresh c o sc) (maybe_refresh (oc c) (other_owner d o) sc).
Proof. unfold maybe_refresh. cbn [cl_grants other_client]. destruct (ins _ _); [exact (sim_call (CreateRT c o sc))|apply sim_same]. Qed.
Lemma sim_code cfg hs data c : sim (fun a => a) (code_token E cfg hs data c) (code_token E cfg hs data (oc c)).
Proof.
  unfold code_token. apply sim_finally; [|destruct (param "code" data); [exact (sim_call (DeleteCode _))|apply sim_throw]].
  unfold code_exchange. bind_ret. destruct a as [[code uri] v]. bind_call. destruct a as [ac|]; [|apply sim_same].
  apply (sim_bind (fun a => a)); [apply sim_check_code|intros _]. bind_call. destruct a as [u|]; cbn [option_map]; [|apply sim_same].
  bind_call. apply (sim_bind (fun a => a)); [exact (sim_maybe c (OwnUser u) (ac_scopes ac))|]. intros rt. apply sim_hooks.
Qed.
Lemma sim_cc cfg data c : sim (fun a => a) (cc_token cfg data c) (cc_token cfg data (oc c)).
Proof. unfold cc_token. cbv zeta. change (validate_requested_scopes cfg (cc_scopes data) (oc c) None) with (validate_requested_scopes cfg (cc_scopes data) c None). cbn [cl_allowed other_client]. go. Qed.
Lemma sim_refresh cfg data c : sim (fun a => a) (refresh_grant E cfg data c) (refresh_grant E cfg data (oc c)).
Proof.
  unfold refresh_grant. bind_ret. destruct a as [token requested]. bind_call. destruct a as [t|]; [|apply sim_same].
  apply (sim_bind (fun a => a)). { unfold validate_refresh_token. cbn [cl_id other_client]. go. }
  intros _. change (validate_refresh_scopes E cfg t requested (oc c)) with (validate_refresh_scopes E cfg t requested c). bind_ret. cbn [cl_allowed other_client]. cbv zeta.
  bind_call. assert (O : owner_of (option_map ou a0) = other_owner d (owner_of a0)) by (destruct a0; reflexivity). rewrite O.
  bind_call. apply (sim_bind (fun a => a)); [apply sim_maybe|]. intros. apply sim_same.
Qed.
Lemma sim_token p hs r : hidden_from d r -> sim (fun a => a) (token_endpoint E p hs r) (token_endpoint E p hs (other_request d r)).
Proof.
  intros H. unfold token_endpoint. cbn [rq_data other_request]. apply sim_except; [|intros; apply sim_same].
  bind_ret. bind_ret. apply (sim_bind oc); [apply sim_authenticate, H|]. intros c. cbn [cl_grants other_client]. destruct (negb _); [apply sim_throw|].
  apply (sim_bind (fun a => a)); [|intros; apply sim_same]. unfold grant_token. destruct a0; [apply sim_code|apply sim_cc|apply sim_refresh].
Qed.
Lemma sim_revocation r : hidden_from d r -> sim (fun a => a) (revocation_endpoint r) (revocation_endpoint (other_request d r)).
Proof.
  intros H. unfold revocation_endpoint. apply sim_except; [|intros; go]. apply (sim_bind oc); [apply sim_authenticate, H|]. intros c.
  change (form (other_request d r)) with (form r). go.
Qed.
Lemma sim_client cid uri rt state : sim oc (validate_client cid uri rt state) (validate_client cid uri rt state).
Proof.
  unfold validate_client. bind_call. destruct a as [c|]; cbn [option_map]; [|apply sim_throw]. cbn [cl_redirects cl_responses other_client].
  destruct (negb _); [apply sim_throw|]. destruct (negb _); [apply sim_throw|]. exact (sim_ret oc (V c)).
Qed.
Lemma sim_authorization p hs r : sim (fun a => a) (authorization_endpoint E p hs r) (authorization_endpoint E p hs (other_request d r)).
Proof.
  unfold authorization_endpoint. cbn [rq_data rq_user other_request]. cbv zeta. apply sim_except; [|intros; apply sim_same].
  bind_ret. destruct a as [[uri cid] rt]. destruct (rq_user r) as [u|]; cbn [option_map]; [|apply sim_throw]. bind_ret.
  apply (sim_bind oc); [apply sim_client|]. intros c. apply (sim_bind (fun a => a)); [|intros; apply sim_same].
  unfold grant_authorize. destruct a; try apply sim_throw. unfold authorize. bind_ret.
  change (validate_requested_scopes (pv_config p) (Some (ad_scopes a)) (oc c) (ad_state a)) with (validate_requested_scopes (pv_config p) (Some (ad_scopes a)) c (ad_state a)). go.
Qed.
End Env.
Lemma sim_consent p r : sim (other_consent d) (get_consent_data p r) (get_consent_data p (other_request d r)).
Proof.
  unfold get_consent_data. cbn [rq_data other_request]. cbv zeta. apply sim_except.
  - bind_ret. destruct a as [[uri cid] rt]. apply (sim_bind oc); [apply sim_client|]. intros c. destruct (arg "scope" _); [|apply sim_throw]. exact (sim_ret (other_consent d) (V (Consent c _))).
  - intros e. bind_ret. exact (sim_ret (other_consent d) (V (ConsentRedirect a))).
Qed.
End Sim.

(** ** The statements about the library *)
Lemma same_outcome {A} d (p q : prog A) : sim d (fun a => a) p q -> forall tr x, exec p tr x -> exec q (map (other_call d) tr) x.
Proof. intros H tr x Hx. apply H in Hx. rewrite outcome_same in Hx. exact Hx. Qed.
Lemma c169_token E d p hs r tr x : hidden_from d r -> exec (token_endpoint E p hs r) tr x ->
  exec (token_endpoint E p hs (other_request d r)) (map (other_call d) tr) x.
Proof. intros H. apply same_outcome, sim_token, H. Qed.
Lemma c169_revocation d r tr x : hidden_from d r -> exec (revocation_endpoint r) tr x ->
  exec (revocation_endpoint (other_request d r)) (map (other_call d) tr) x.
Proof. intros H. apply same_outcome, sim_revocation, H. Qed.
Lemma c169_authorization E d p hs r tr x : exec (authorization_endpoint E p hs r) tr x ->
  exec (authorization_endpoint E p hs (other_request d r)) (map (other_call d) tr) x.
Proof. apply same_outcome, sim_authorization. Qed.
Lemma c169_consent d p r tr x : exec (get_consent_data p r) tr x ->
  exec (get_consent_data p (other_request d r)) (map (other_call d) tr) (outcome (other_consent d) x).
Proof. apply sim_consent. Qed.

(** ** The example application *)
Section App.
Variable d : disguise.
Variable keep : forall u, ds_info d u = us_info u.
Lemma same_user u : other_user d u = u. Proof. unfold other_user. rewrite keep. destruct u; reflexivity. Qed.
Lemma same_user_opt o : option_map (other_user d) o = o. Proof. destruct o as [u|]; cbn [option_map]; rewrite ?same_user; reflexivity. Qed.

Definition asim {A} (p q : aprog A) : Prop := forall tr x, aexec p tr x -> aexec q (map (other_app_call d) tr) x.
Lemma asim_ret {A} (x : res A) : asim (ARet x) (ARet x).
Proof. intros tr y H. apply aexec_ARet in H as [-> ->]. apply aexec_ARet. auto. Qed.
Lemma asim_try {A B} (p q : aprog A) (f g : res A -> aprog B) : asim p q -> (forall x, asim (f x) (g x)) -> asim (atry p f) (atry q g).
Proof.
  intros Hp Hf tr x H. apply aexec_atry in H as (y & t1 & t2 & -> & H1 & H2). apply aexec_atry. rewrite map_app. exists y, (map (other_app_call d) t1), (map (other_app_call d) t2).
  split; [reflexivity|]. split; [apply Hp, H1|apply Hf, H2].
Qed.
Lemma asim_bind {A B} (p q : aprog A) (f g : A -> aprog B) : asim p q -> (forall a, asim (f a) (g a)) -> asim (abind p f) (abind q g).
Proof. intros Hp Hf. apply asim_try; [exact Hp|]. intros [a|e]; [apply Hf|apply asim_ret]. Qed.
Lemma asim_library {A} (p q : prog A) : sim d (fun a => a) p q -> asim (library p) (library q).
Proof.
  intros H tr x Hx. apply aexec_library in Hx as (t & -> & Hx). apply aexec_library. exists (map (other_call d) t). split; [rewrite !map_map; reflexivity|].
  eapply same_outcome; eauto.
Qed.
(** A call whose outcome is the same *)
Lemma asim_call {T} (e : aeff T) : (forall x, other_app_call d (aobserve e x) = aobserve e x) -> asim (acall e) (acall e).
Proof. intros H tr x Hx. apply aexec_acall in Hx as ->. apply aexec_acall. cbn [map]. rewrite H. reflexivity. Qed.
Lemma asim_session sid uid : asim (acall (GetSession sid uid)) (acall (GetSession sid uid)).
Proof. apply asim_call. intros [[[u|]|]|e]; cbn [aobserve other_app_call outcome option_map]; rewrite ?same_user; reflexivity. Qed.
Lemma asim_redirect url c : asim (redirect url c) (redirect url c). Proof. apply asim_ret. Qed.
Lemma other_request_same r : other_request d r = r.
Proof. destruct r. unfold other_request. cbn. rewrite same_user_opt. reflexivity. Qed.

Section Web.
Variable w : web.
Variable hidden : hidden_from_web d w.
Lemma asim_login u : asim (login_post w u) (login_post w u).
Proof.
  unfold login_post. destruct u as [u|]; [apply asim_redirect|]. cbv zeta. destruct (negb (form_ok _)); [apply asim_ret|].
  intros tr x H. apply aexec_abind in H as [(a & t1 & t2 & -> & H1 & H2)|(e & -> & H1)]; apply aexec_acall in H1 as ->; apply aexec_abind.
  2: { right. exists e. split; [reflexivity|]. apply aexec_acall. reflexivity. }
  left. exists (option_map (other_account d) a), [OFindAccount (lf_email (wb_form w)) (V (option_map (other_account d) a))], (map (other_app_call d) t2).
  split; [rewrite map_app; reflexivity|]. split; [apply aexec_acall; reflexivity|]. revert H2. apply (fun H : asim _ _ => H t2 x). clear t2 x.
  destruct a as [a|]; cbn [option_map]; [|apply asim_ret]. cbn [a_password a_id other_account].
  replace (eqs (ds_password d a) (lf_password (wb_form w))) with (eqs (a_password a) (lf_password (wb_form w))).
  2: { destruct hidden as [P _]. specialize (P a). destruct (eqs (a_password a) _) eqn:E1, (eqs (ds_password d a) _) eqn:E2; try reflexivity; exfalso.
       - apply eqs_true in E1. apply P in E1. rewrite E1, eqs_refl in E2. discriminate.
       - apply eqs_true in E2. apply P in E2. rewrite E2, eqs_refl in E1. discriminate. }
  destruct (negb _); [apply asim_ret|]. apply asim_bind; [apply asim_call; reflexivity|]. intros s. apply asim_bind; [|intros; apply asim_redirect].
  destruct s as [s|]; [apply asim_ret|]. apply asim_bind; [apply asim_call; reflexivity|]. intros t. apply asim_bind; [apply asim_call; reflexivity|]. intros; apply asim_ret.
Qed.
Lemma asim_logout u : asim (logout_get w u) (logout_get w u).
Proof.
  unfold logout_get. destruct u as [u|]; [|apply asim_redirect]. destruct (wb_cookie w) as [[uid sid]|]; [|apply asim_ret].
  apply asim_try; [apply asim_call; reflexivity|]. intros x. apply asim_try; [apply asim_call; reflexivity|]. intros y. destruct x; [|apply asim_ret]. destruct y; [apply asim_redirect|apply asim_ret].
Qed.
Lemma asim_request {B} u (f g : request -> aprog B) :
  (forall r, make_request (wb_method w) (wb_url w) (wb_headers w) (Some (wb_body w)) u = Ok r -> asim (f r) (g r)) -> asim (abind (create_request w u) f) (abind (create_request w u) g).
Proof. intros H. unfold create_request. destruct (make_request _ _ _ _ _) as [r|e]; [exact (H r eq_refl)|apply asim_ret]. Qed.
Lemma asim_view E p hs g u : asim (view E p hs g w u) (view E p hs g w u).
Proof.
  destruct g; cbn [view]; repeat match goal with |- asim (if ?b then _ else _) _ => destruct b end; try apply asim_ret.
  - unfold login_get. destruct u; [apply asim_redirect|apply asim_ret].
  - apply asim_login.
  - apply asim_logout.
  - unfold authorize_get. destruct u as [u|].
    + apply asim_request. intros r _. apply asim_bind; [|intros; apply asim_ret]. apply asim_library. pose proof (sim_authorization d E p hs r) as S. rewrite other_request_same in S. exact S.
    + apply asim_bind; [apply asim_ret|]. intros. apply asim_redirect.
  - unfold revoke_post. apply asim_request. intros r Hr. apply asim_bind; [|intros [x|]; apply asim_ret]. apply asim_library.
    pose proof (sim_revocation d r (proj2 hidden u r Hr)) as S. rewrite other_request_same in S. exact S.
  - unfold token_post. apply asim_request. intros r Hr. apply asim_bind; [|intros; apply asim_ret]. apply asim_library.
    pose proof (sim_token d E p hs r (proj2 hidden u r Hr)) as S. rewrite other_request_same in S. exact S.
Qed.
Lemma asim_application E p hs g : asim (application E p hs g w) (application E p hs g w).
Proof.
  unfold application. apply asim_bind.
  - unfold session_user. destruct (wb_cookie w) as [[uid sid]|]; [|apply asim_ret]. apply asim_bind; [apply asim_session|]. intros [[u|]|]; apply asim_ret.
  - intros [u|]; [apply asim_view|apply asim_ret].
Qed.
End Web.

(** The data base *)
Lemma find_map {A} (f : A -> A) (q : A -> bool) l : (forall a, q (f a) = q a) -> find q (map f l) = option_map f (find q l).
Proof. intros H. induction l as [|a l IH]; cbn [map find]; [reflexivity|]. rewrite H. destruct (q a); [reflexivity|exact IH]. Qed.
Lemma other_owner_id o : owner_id (other_owner d o) = owner_id o. Proof. destruct o; reflexivity. Qed.
Lemma ex_do_other C aware ch T (e : eff T) s :
  ex_do C aware ch (other_eff d e) (other_store d s) = (outcome (other_val d e) (fst (ex_do C aware ch e s)), other_store d (snd (ex_do C aware ch e s))).
Proof.
  destruct e; cbn [other_eff other_val ex_do fst snd outcome]; try reflexivity.
  - cbn [st_clients other_store]. rewrite find_map by reflexivity. reflexivity.
  - cbn [st_users other_store]. rewrite find_map by reflexivity. reflexivity.
  - destruct (ad_nonce data); [|reflexivity]. cbn [st_codes other_store]. destruct (has _ _); reflexivity.
  - unfold ex_access_token. rewrite other_owner_id. cbn [cl_id other_client]. rewrite outcome_same. reflexivity.
  - rewrite other_owner_id. destruct (owner_id o) as [u|x]; [|reflexivity]. cbn [st_rts other_store cl_id other_client]. destruct (find _ _) as [[t z]|]; [reflexivity|]. destruct (has _ _); reflexivity.
  - rewrite same_user. reflexivity.
Qed.
Definition other_aeff {T} (e : aeff T) : aeff T := match e in aeff T return aeff T with Lib e => Lib (other_eff d e) | e => e end.
Lemma other_aobserve {T} (e : aeff T) x : exists y, other_app_call d (aobserve e x) = aobserve (other_aeff e) y /\ forall z, x = X z -> y = X z.
Proof.
  destruct e; cbn [aobserve other_app_call other_aeff]; try (eexists; split; [reflexivity|intros ? ->; reflexivity]).
  rewrite <- other_observe. eexists; split; [reflexivity|intros ? ->; reflexivity].
Qed.
Lemma app_step_other C aware t o t' : app_step C aware t o t' -> app_step C aware (other_tables d t) (other_app_call d o) (other_tables d t').
Proof.
  intros H. destruct H as [ch T e t|T e x t].
  - assert (K : other_app_call d (aobserve e (fst (app_do C aware ch e t))) = aobserve (other_aeff e) (fst (app_do C aware ch (other_aeff e) (other_tables d t))) /\
               other_tables d (snd (app_do C aware ch e t)) = snd (app_do C aware ch (other_aeff e) (other_tables d t))); [|destruct K as [-> ->]; apply app_ok].
    destruct e; cbn [other_aeff app_do aobserve other_app_call fst snd]; try (split; reflexivity).
    + cbn [tb_sessions tb_store other_tables st_users other_store]. rewrite find_map by reflexivity. destruct (existsb _ _); split; reflexivity.
    + cbn [tb_accounts other_tables]. rewrite find_map by reflexivity. split; reflexivity.
    + cbn [tb_sessions other_tables]. destruct (existsb _ _); split; reflexivity.
    + cbn [tb_store other_tables]. rewrite ex_do_other. destruct (ex_do C aware ch e (tb_store t)) as [x s]. cbn [fst snd aobserve]. rewrite other_observe. split; reflexivity.
  - destruct (other_aobserve e (X (Py x))) as (y & -> & Hy). rewrite (Hy _ eq_refl). apply app_raise.
Qed.
Lemma app_steps_other C aware : forall tr t t', app_steps C aware t tr t' -> app_steps C aware (other_tables d t) (map (other_app_call d) tr) (other_tables d t').
Proof. intros tr t t' H. induction H as [t|t o t1 tr t2 Ho H IH]; cbn [map]; [constructor|]. econstructor; [apply app_step_other; eauto|exact IH]. Qed.
Lemma acalls_other n log : acalls_of n (other_log d log) = map (other_app_call d) (acalls_of n log).
Proof. unfold acalls_of, other_log. induction log as [|[k o] log IH]; cbn [map filter fst]; [reflexivity|]. destruct (Nat.eqb k n); cbn [map]; rewrite IH; reflexivity. Qed.
Lemma c170 E p hs C aware qs log t t' :
  (forall n g w, nth_error qs n = Some (g, w) -> hidden_from_web d w) ->
  app_running E p hs qs log -> app_steps C aware t (map snd log) t' ->
  app_running E p hs qs (other_log d log) /\ app_steps C aware (other_tables d t) (map snd (other_log d log)) (other_tables d t') /\
  forall n g w x, nth_error qs n = Some (g, w) -> aexec (application E p hs g w) (acalls_of n log) x -> aexec (application E p hs g w) (acalls_of n (other_log d log)) x.
Proof.
  intros Hh (R1 & R2) Hs. split; [split|split].
  - intros n o Hin. apply in_map_iff in Hin as ([k o'] & Eo & Hin). injection Eo as -> _. eauto.
  - intros n g w Hq. destruct (R2 n g w Hq) as (tr & x & Hx). exists (map (other_app_call d) tr), x. rewrite acalls_other, <- map_app. eapply asim_application; eauto.
  - apply app_steps_other in Hs. unfold other_log. rewrite map_map in *. cbn [snd]. exact Hs.
  - intros n g w x Hq Hx. rewrite acalls_other. eapply asim_application; eauto.
Qed.
End App.
