(** The token endpoint: lemmas for C49-C51, C55-C63 and C70. *)
From Coq Require Import String Ascii List NArith ZArith Bool Lia.
From Verif Require Import Base BaseFacts Utf8 Utf8Facts Base64 Base64Facts SpecCodec Json JsonFacts Url UrlFacts Webtools WebtoolsFacts Crypto Jwk Jws Jwt Prog ProgFacts Http OAuth SpecOAuth OAuthFacts GrantFacts EndpointFacts RequestFacts AuthzFacts.
Import ListNotations.
Open Scope N_scope.

Section WithEnv.
Variable E : env.

Lemma is_find_quiet tr : Forall is_find tr -> Forall quiet tr.
Proof. apply Forall_impl. intros o (i & x & ->). exact I. Qed.
Lemma token_runs p hs r tr x o : exec (token_endpoint E p hs r) tr x -> In o tr -> ~ quiet o ->
  exists g i c tr' y, In g (pv_grants p) /\ data_has r "grant_type" (grant_type g) /\ authenticates r i c /\
    allowed_method (grant_methods g) (cl_auth_method c) /\ In (grant_type g) (cl_grants c) /\
    tr = OFindClient i (V (Some c)) :: tr' /\ In o tr' /\
    exec (grant_token E (pv_config p) hs g (dremove (lit "grant_type") (rq_data r)) c) tr' y.
Proof.
  intros H Hin Hq. apply token_exec in H as (y & H & _). apply token_body_exec in H.
  destruct H as [e He Hk | g tr e Hg Hd H | g i c Hg Hd Ha Hm Hn | g i c tr y Hg Hd Ha Hm Hn H].
  - destruct Hin.
  - exfalso. apply Hq. apply authenticate_trace, is_find_quiet in H. rewrite Forall_forall in H. auto.
  - exfalso. destruct Hin as [<-|[]]. apply Hq. exact I.
  - destruct Hin as [<-|Hin]; [exfalso; apply Hq; exact I|]. exists g, i, c, tr, y. do 7 (split; [solve [auto]|]). auto.
Qed.
Lemma grant_type_code g : grant_type g = lit "authorization_code" -> g = GCode.
Proof. destruct g; [auto|discriminate|discriminate]. Qed.
Lemma grant_type_refresh g : grant_type g = lit "refresh_token" -> g = GRefresh.
Proof. destruct g; [discriminate|discriminate|auto]. Qed.
Lemma grant_type_cc g : grant_type g = lit "client_credentials" -> g = GClientCredentials.
Proof. destruct g; [discriminate|auto|discriminate]. Qed.
Lemma data_gt r a b : data_has r "grant_type" a -> data_has r "grant_type" b -> a = b.
Proof. unfold data_has. congruence. Qed.

Lemma code_token_exec cfg hs data c tr x : exec (code_token E cfg hs data c) tr x ->
  exists t1 y, exec (code_exchange E cfg hs data c) t1 y /\
    ((param "code" data = None /\ tr = t1 /\ x = X (Py KeyError)) \/
     exists code z, param "code" data = Some code /\ tr = t1 ++ [ODeleteCode code z] /\ x = match z with V _ => y | X e => X e end).
Proof.
  unfold code_token. intros H. apply exec_pfinally in H as (y & t1 & z & t2 & -> & H1 & H2 & Hx).
  exists t1, y. split; [auto|]. destruct (param "code" data) as [code|].
  - apply exec_call in H2 as ->. right. exists code, z. auto.
  - apply exec_Ret in H2 as [-> ->]. left. rewrite app_nil_r. auto.
Qed.

(** ** PKCE *)
Lemma verifies_pkce ac v : (forall b, bytes_ok (e_sha256 E b)) -> verifies E ac v -> pkce_ok (e_sha256 E) (ac_method ac) (ac_challenge ac) v.
Proof.
  intros Hb (f & Hf & H). unfold challenges in Hf. unfold pkce_ok.
  destruct (eqs_spec (ac_method ac) (lit "plain")) as [->|].
  - injection Hf as <-. unfold plain_challenge in H. injection H as H. apply eqs_true in H. auto.
  - destruct (eqs_spec (ac_method ac) (lit "S256")) as [->|]; [|discriminate].
    injection Hf as <-. right. unfold S256_challenge in H. apply rbind_ok in H as (b & Hv & H). injection H as H. apply eqs_true in H.
    unfold ascii_encode in Hv. destruct (forallb (fun c => c <? 128) v) eqn:Ef; [|discriminate]. injection Hv as <-.
    split; [auto|]. split.
    + rewrite forallb_forall in Ef. rewrite Forall_forall. intros c Hc. apply Ef in Hc. apply N.ltb_lt. auto.
    + rewrite H. destruct (p_base64url (e_sha256 E v) (Hb v)) as (H1 & H2 & _).
      rewrite to_string_ascii; [auto|]. apply url_chars_ascii. apply base64url_encode_url. auto.
Qed.

Lemma creates_not_quiet o : creates_at o = true \/ creates_rt o = true -> ~ quiet o.
Proof. destruct o; simpl; intuition discriminate. Qed.
Lemma quiet_not_creates tr o : Forall quiet tr -> In o tr -> creates_at o = true \/ creates_rt o = true -> False.
Proof. intros H Hin Hc. rewrite Forall_forall in H. apply (creates_not_quiet _ Hc), H, Hin. Qed.

(** What a creating call of [issue_shape] is *)
Lemma issue_creates hs cfg c u sc tr x o : issue_shape E hs cfg c u sc tr x -> In o tr -> creates_at o = true \/ creates_rt o = true ->
  (exists y, o = OCreateAT c (OwnUser u) sc y) \/ ((exists y, o = OCreateRT c (OwnUser u) sc y) /\ In (lit "refresh_token") (cl_grants c)).
Proof.
  intros [(e & -> & _) | (a & [(e & -> & _ & Hg) | (rt & t1 & t2 & -> & Ht & Hx)])] Hin Hc.
  - destruct Hin as [<-|[]]. eauto.
  - destruct Hin as [<-|[<-|[]]]; eauto.
  - destruct Hin as [<-|Hin]; [eauto|]. apply in_app_iff in Hin as [Hin|Hin].
    + destruct (ins (lit "refresh_token") (cl_grants c)) eqn:Eg; [|destruct Ht as [-> _]; destruct Hin].
      subst t1. destruct Hin as [<-|[]]. apply ins_In in Eg. eauto.
    + exfalso. apply token_hooks_trace in Hx. exact (quiet_not_creates _ _ Hx Hin Hc).
Qed.

(** ** C49, C50 *)
Lemma p_code_grant p hs r tr x o : (forall b, bytes_ok (e_sha256 E b)) ->
  exec (token_endpoint E p hs r) tr x -> data_has r "grant_type" (lit "authorization_code") -> In o tr -> creates_at o = true \/ creates_rt o = true ->
  exists i c code uri v ac u now off t rest,
    tr = OFindClient i (V (Some c)) :: OGetCode code (V (Some ac)) :: ONow (V (now, off)) :: OFindUser (ac_user ac) (V (Some u)) :: rest /\
    authenticates r i c /\ data_has r "code" code /\
    data_has r "redirect_uri" uri /\ uri = ac_redirect ac /\ In uri (cl_redirects c) /\ ac_client ac = cl_id c /\
    ac_exp ac = Naive t /\ (now < t)%Z /\
    data_has r "code_verifier" v /\ pkce_ok (e_sha256 E) (ac_method ac) (ac_challenge ac) v /\
    ((exists y, o = OCreateAT c (OwnUser u) (ac_scopes ac) y) \/
     ((exists y, o = OCreateRT c (OwnUser u) (ac_scopes ac) y) /\ In (lit "refresh_token") (cl_grants c))).
Proof.
  intros Hb H Hgt Hin Hc. destruct (token_runs _ _ _ _ _ _ H Hin (creates_not_quiet _ Hc)) as (g & i & c & tr' & y & Hg & Hd & Ha & Hm & Hgr & -> & Hin' & Hx).
  pose proof (grant_type_code _ (data_gt _ _ _ Hd Hgt)) as ->. cbn [grant_token] in Hx.
  apply code_token_exec in Hx as (t1 & z & Hx & Hend).
  assert (Hin1 : In o t1 /\ exists t9, tr' = t1 ++ t9).
  { destruct Hend as [(_ & -> & _)|(code & w & _ & -> & _)].
    - split; [auto|]. exists []. rewrite app_nil_r. auto.
    - apply in_app_iff in Hin' as [Hin'|[<-|[]]]; [eauto|]. destruct Hc; discriminate. }
  destruct Hin1 as [Hin1 [t9 ->]].
  apply exchange_issues in Hx as [[Hq _] | (code & uri & v & ac & u & t2 & Hck & Hi)].
  { exfalso. eapply quiet_not_creates; eauto. }
  destruct Hck as (H1 & H2 & H3 & (Hb1 & Hb2 & Hb3) & Hv & now & off & t & -> & He & Hlt).
  apply arg_Some in H1 as [H1 _], H2 as [H2 _], H3 as [H3 _]. rewrite lookup_dremove_other in H1, H2, H3 by discriminate.
  exists i, c, code, uri, v, ac, u, now, off, t, (t2 ++ t9). cbn [app].
  do 10 (split; [solve [auto]|]). split; [apply verifies_pkce; auto|].
  assert (Hin2 : In o t2). { destruct Hin1 as [<-|[<-|[<-|Hin1]]]; auto; destruct Hc; discriminate. }
  eapply issue_creates; eauto.
Qed.

(** ** C51 *)
Lemma exchange_no_delete cfg hs data c tr x : exec (code_exchange E cfg hs data c) tr x -> forall code y, ~ In (ODeleteCode code y) tr.
Proof.
  intros H code y Hin. apply exchange_issues in H as [[Hq _] | (code' & uri & v & ac & u & t2 & Hck & Hi)].
  - rewrite Forall_forall in Hq. apply (Hq _ Hin).
  - destruct Hck as (_ & _ & _ & _ & _ & now & off & t & -> & _).
    destruct Hin as [Hin|[Hin|[Hin|Hin]]]; try discriminate.
    destruct Hi as [(e & -> & _) | (a & [(e & -> & _ & Hg) | (rt & t1 & t3 & -> & Ht & Hx)])].
    + destruct Hin as [Hin|[]]. discriminate.
    + destruct Hin as [Hin|[Hin|[]]]; discriminate.
    + destruct Hin as [Hin|Hin]; [discriminate|]. apply in_app_iff in Hin as [Hin|Hin].
      * destruct (ins (lit "refresh_token") (cl_grants c)); [subst t1; destruct Hin as [Hin|[]]; discriminate|destruct Ht as [-> _]; destruct Hin].
      * apply token_hooks_trace in Hx. rewrite Forall_forall in Hx. apply (Hx _ Hin).
Qed.
Lemma p_code_deleted cfg hs data c tr x code : exec (code_token E cfg hs data c) tr x -> param "code" data = Some code ->
  exists tr' y, tr = tr' ++ [ODeleteCode code y] /\ (forall code' y', ~ In (ODeleteCode code' y') tr') /\
    (forall e, y = X e -> x = X e).
Proof.
  intros H Hp. apply code_token_exec in H as (t1 & y & Hx & [(Hn & _)|(code' & z & Hc & -> & ->)]); [congruence|].
  assert (code' = code) by congruence. subst. exists t1, z. split; [auto|]. split; [eapply exchange_no_delete; eauto|].
  intros e ->. auto.
Qed.
(** At the endpoint: once the client is authenticated and may use the grant *)
Lemma p_code_deleted_endpoint p hs r tr x o code : exec (token_endpoint E p hs r) tr x ->
  data_has r "grant_type" (lit "authorization_code") -> data_has r "code" code -> In o tr -> (forall i y, o <> OFindClient i y) ->
  exists i c tr' y, tr = OFindClient i (V (Some c)) :: tr' ++ [ODeleteCode code y] /\ (forall code' y', ~ In (ODeleteCode code' y') tr').
Proof.
  intros H Hgt Hcode Hin Ho. apply token_exec in H as (z & H & _). apply token_body_exec in H.
  destruct H as [e He Hk | g tr e Hg Hd H | g i c Hg Hd Ha Hm Hn | g i c tr z Hg Hd Ha Hm Hn H].
  - destruct Hin.
  - exfalso. apply authenticate_trace in H. rewrite Forall_forall in H. destruct (H _ Hin) as (i & w & ->). eapply Ho; eauto.
  - exfalso. destruct Hin as [<-|[]]. eapply Ho; eauto.
  - pose proof (grant_type_code _ (data_gt _ _ _ Hd Hgt)) as ->. cbn [grant_token] in H.
    eapply p_code_deleted in H as (tr' & y & -> & Hn' & _); [exists i, c, tr', y; auto|].
    unfold param. rewrite lookup_dremove_other by discriminate. auto.
Qed.

(** ** C57 *)
Lemma refresh_creates cfg c o' sc old tr x o : refresh_shape cfg c o' sc old tr x -> In o tr -> creates_at o = true \/ creates_rt o = true ->
  (exists y, o = OCreateAT c o' sc y) \/ ((exists y, o = OCreateRT c o' sc y) /\ In (lit "refresh_token") (cl_grants c)).
Proof.
  intros [(e & -> & _) | (a & [(e & -> & _ & Hg) | (rt & t1 & -> & Ht & Hx)])] Hin Hc.
  - destruct Hin as [<-|[]]. eauto.
  - destruct Hin as [<-|[<-|[]]]; eauto.
  - destruct Hin as [<-|Hin]; [eauto|].
    destruct (ins (lit "refresh_token") (cl_grants c)) eqn:Eg; [|destruct Ht as [-> _]; destruct Hin].
    subst t1. destruct Hin as [<-|[]]. apply ins_In in Eg. eauto.
Qed.
Lemma grant_creates cfg hs g data c tr x o : exec (grant_token E cfg hs g data c) tr x -> In o tr -> creates_at o = true \/ creates_rt o = true ->
  (exists ow sc y, o = OCreateAT c ow sc y) \/ ((exists ow sc y, o = OCreateRT c ow sc y) /\ In (lit "refresh_token") (cl_grants c)).
Proof.
  intros H Hin Hc. destruct g; cbn [grant_token] in H.
  - apply code_token_exec in H as (t1 & z & Hx & Hend).
    assert (Hin1 : In o t1).
    { destruct Hend as [(_ & -> & _)|(code & w & _ & -> & _)]; [auto|].
      apply in_app_iff in Hin as [Hin'|[<-|[]]]; [eauto|]. destruct Hc; discriminate. }
    apply exchange_issues in Hx as [[Hq _] | (code & uri & v & ac & u & t2 & Hck & Hi)].
    { exfalso. eapply quiet_not_creates; eauto. }
    destruct Hck as (_ & _ & _ & _ & _ & now & off & t & -> & _).
    assert (Hin2 : In o t2). { destruct Hin1 as [<-|[<-|[<-|Hin1]]]; auto; destruct Hc; discriminate. }
    destruct (issue_creates _ _ _ _ _ _ _ _ Hi Hin2 Hc) as [[y ->]|[[y ->] Hg]]; [left; eauto|right; split; eauto].
  - apply cc_exec in H as [[-> _]|(_ & y & -> & _)]; [destruct Hin|]. destruct Hin as [<-|[]]. left. eauto.
  - apply refresh_exec in H as [[Hq _] | (token & t & sc & ou & t2 & (_ & _ & _ & now & off & d & -> & _) & Hs)].
    { exfalso. eapply quiet_not_creates; eauto. }
    assert (Hin2 : In o t2). { destruct Hin as [<-|[<-|[<-|Hin1]]]; auto; destruct Hc; discriminate. }
    destruct (refresh_creates _ _ _ _ _ _ _ _ Hs Hin2 Hc) as [[y ->]|[[y ->] Hg]]; [left; eauto|right; split; eauto].
Qed.
Lemma p_registered_grants p hs r tr x o : exec (token_endpoint E p hs r) tr x -> In o tr -> creates_at o = true \/ creates_rt o = true ->
  exists g i c tr', data_has r "grant_type" (grant_type g) /\ In g (pv_grants p) /\ In (grant_type g) (cl_grants c) /\
    tr = OFindClient i (V (Some c)) :: tr' /\ authenticates r i c /\
    ((exists ow sc y, o = OCreateAT c ow sc y) \/ ((exists ow sc y, o = OCreateRT c ow sc y) /\ In (lit "refresh_token") (cl_grants c))).
Proof.
  intros H Hin Hc. destruct (token_runs _ _ _ _ _ _ H Hin (creates_not_quiet _ Hc)) as (g & i & c & tr' & y & Hg & Hd & Ha & Hm & Hgr & -> & Hin' & Hx).
  exists g, i, c, tr'. do 5 (split; [solve [auto]|]). eapply grant_creates; eauto.
Qed.

(** ** C58 *)
Lemma p_refresh_grant p hs r tr x o : order_ok E -> exec (token_endpoint E p hs r) tr x ->
  data_has r "grant_type" (lit "refresh_token") -> In o tr -> creates_at o = true \/ creates_rt o = true ->
  exists i c token t now off d ou rest sc,
    tr = OFindClient i (V (Some c)) :: OGetRT token (V (Some t)) :: ONow (V (now, off)) :: OFindUser (rt_user t) (V ou) :: rest /\
    authenticates r i c /\ data_has r "refresh_token" token /\ rt_client t = cl_id c /\ rt_exp t = Naive d /\ (now < d)%Z /\
    ((exists y, o = OCreateAT c (owner_of ou) sc y) \/
     ((exists y, o = OCreateRT c (owner_of ou) sc y) /\ In (lit "refresh_token") (cl_grants c))) /\
    (restricts c -> incl sc (rt_scopes t)) /\
    (forall s w, restricts c -> data_has r "scope" s -> token_of w s -> forall y, In y sc ->
       token_of y s /\ In y (cf_scopes (pv_config p)) /\ In w (rt_scopes t)).
Proof.
  intros Ho H Hgt Hin Hc. destruct (token_runs _ _ _ _ _ _ H Hin (creates_not_quiet _ Hc)) as (g & i & c & tr' & y & Hg & Hd & Ha & Hm & Hgr & -> & Hin' & Hx).
  pose proof (grant_type_refresh _ (data_gt _ _ _ Hd Hgt)) as ->. cbn [grant_token] in Hx.
  apply refresh_exec in Hx as [[Hq _] | (token & t & sc & ou & t2 & (Hat & Hrc & Hsc & now & off & d & -> & He & Hlt) & Hs)].
  { exfalso. eapply quiet_not_creates; eauto. }
  assert (Hin2 : In o t2). { destruct Hin' as [<-|[<-|[<-|Hin1]]]; auto; destruct Hc; discriminate. }
  apply arg_Some in Hat as [Hat _]. rewrite lookup_dremove_other in Hat by discriminate.
  exists i, c, token, t, now, off, d, ou, t2, (cl_allowed c (Some sc)).
  do 6 (split; [solve [auto]|]). split; [eapply refresh_creates; eauto|].
  apply refresh_scopes_V in Hsc. split.
  - intros Hr s Hin3. apply Hr in Hin3. destruct (cc_scopes _) as [[|q l]|]; [congruence| |congruence].
    destruct Hsc as (_ & _ & _ & ->). apply (Ho (inter (rt_scopes t) (q :: l)) s) in Hin3. apply inter_In in Hin3. tauto.
  - intros s w Hr Hds Hw z Hz. unfold cc_scopes, arg in Hsc. rewrite lookup_dremove_other in Hsc by discriminate.
    unfold data_has in Hds. rewrite Hds in Hsc. destruct s as [|s0 s].
    { destruct Hw as (Nw & _ & a & b & Ew & _). destruct a, w; try discriminate. congruence. }
    destruct (words (s0 :: s)) as [|q l] eqn:Ew.
    { apply words_In in Hw. rewrite Ew in Hw. destruct Hw. }
    destruct Hsc as (H1 & _ & H3 & ->). apply Hr in Hz. apply (Ho (inter (rt_scopes t) (q :: l)) z) in Hz. apply inter_In in Hz as [Hz1 Hz2].
    split; [apply words_In; rewrite Ew; auto|]. split; [auto|]. apply H3. rewrite <- Ew. apply words_In. auto.
Qed.
End WithEnv.
