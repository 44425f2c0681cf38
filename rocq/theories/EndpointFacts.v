(** What the executions of the endpoints look like. *)
From Coq Require Import String Ascii List NArith ZArith Bool Lia.
From Verif Require Import Base BaseFacts Utf8 Utf8Facts Base64 Base64Facts Json Url UrlFacts Webtools SpecCodec WebtoolsFacts Crypto Jwk Jws Jwt Prog ProgFacts Http OAuth SpecOAuth OAuthFacts GrantFacts SpecUrl UrlQuoteFacts.
Import ListNotations.
Open Scope N_scope.

(** ** Redirects *)
Lemma location_app a b l : location (a ++ b) = Ok l <-> exists la lb, location a = Ok la /\ location b = Ok lb /\ l = la ++ lb.
Proof.
  unfold location, quote_plus. split.
  - intros H. apply rbind_ok in H as (x & Hx & H). injection H as <-.
    pose proof (proj1 (utf8_encode_ok _ _ Hx)) as Hs. apply scalar_app in Hs as [Ha Hb].
    apply utf8_encode_scalar in Ha as [xa Ea]. apply utf8_encode_scalar in Hb as [xb Eb].
    pose proof (utf8_encode_app _ _ _ _ Ea Eb) as E. assert (x = xa ++ xb) by congruence. subst x.
    rewrite Ea, Eb. cbn [rbind]. eexists _, _. split; [reflexivity|]. split; [reflexivity|]. apply flat_map_app.
  - intros (la & lb & Ha & Hb & ->). apply rbind_ok in Ha as (xa & Ea & Ha). apply rbind_ok in Hb as (xb & Eb & Hb).
    injection Ha as <-. injection Hb as <-. rewrite (utf8_encode_app _ _ _ _ Ea Eb). cbn [rbind]. rewrite flat_map_app. auto.
Qed.
Lemma query_location q : Forall (fun c => quoted_char [38; 61] c = true) q -> location (63 :: q) = Ok (63 :: q).
Proof.
  intros H. apply location_id. constructor; [reflexivity|]. eapply Forall_impl; [|exact H].
  intros c Hc. unfold quoted_char in Hc. rewrite !orb_true_iff in Hc.
  destruct Hc as [[[Hc|Hc]|Hc]|Hc].
  - rewrite Hc. auto.
  - apply inc_In in Hc. simpl in Hc. destruct Hc as [<-|[<-|[]]]; reflexivity.
  - apply N.eqb_eq in Hc. subst. reflexivity.
  - apply N.eqb_eq in Hc. subst. reflexivity.
Qed.
(** The redirect that [urlencode] and [RedirectResponse] make. *)
Lemma redirect_sends uri d url headers x : urlencode uri d = Ok url -> RedirectResponse url headers = V x ->
  exists q items, sends x uri q /\ str_items (FullDict d []) = Ok items /\ urlencode_ items = Ok q.
Proof.
  unfold urlencode, RedirectResponse. intros H1 H2. destruct (has _ _) in H1; [discriminate|]. apply rbind_ok in H1 as (items & Hi & H1).
  apply rbind_ok in H1 as (q & Hq & H1). injection H1 as <-.
  apply vbind_V in H2 as (l & Hl & H2). apply lift_V in Hl. injection H2 as <-.
  apply location_app in Hl as (la & lb & Ha & Hb & ->). rewrite query_location in Hb by (eapply urlencode_chars; eauto).
  injection Hb as <-. exists q, items. split; [|auto]. exists la. split; [reflexivity|]. split; [apply location_iff, Ha|].
  simpl rs_headers. unfold full_setitem. cbn [is_none]. apply lookup_dset_same.
Qed.
Lemma redirect_params uri d url headers x items : urlencode uri d = Ok url -> RedirectResponse url headers = V x ->
  FullDict d [] = map (fun kv => (fst kv, PStr (snd kv))) items ->
  redirects x uri items.
Proof.
  intros H1 H2 E. destruct (redirect_sends _ _ _ _ _ H1 H2) as (q & items' & Hs & Hi & Hq).
  rewrite E, str_items_map in Hi. injection Hi as <-. exists q. split; [auto|]. apply query_iff, Hq.
Qed.

(** The query parameters of an error *)
Definition opt_param (k : string) (o : option str) : params := match o with Some s => [(lit k, s)] | None => [] end.
Definition error_params (e : oauth_error) : params :=
  (lit "error", error_code (oe_kind e)) :: opt_param "error_description" (oe_desc e) ++ opt_param "error_uri" (oe_uri e) ++ opt_param "state" (oe_state e).
Lemma dump_params e : dump e = map (fun kv => (fst kv, PStr (snd kv))) (error_params e).
Proof. destruct e as [k d u s h]. destruct d, u, s; reflexivity. Qed.
Lemma full_dump e : FullDict (dump e) [] = dump e.
Proof. rewrite dump_params. apply full_str_params. Qed.
Definition nonblank (o : option str) : Prop := o <> Some [].
Lemma error_redirect_sends cfg data e x : error_redirect cfg data e = V x ->
  exists uri, match oe_kind e with Fatal _ => uri = cf_error_url cfg | _ => lookup (lit "redirect_uri") data = Some uri end /\
    redirects x uri (error_params e).
Proof.
  unfold error_redirect. intros H.
  assert (Hgo : forall uri, (let? url := lift (urlencode uri (dump e)) in RedirectResponse url (oe_headers e)) = V x -> redirects x uri (error_params e)).
  { intros uri Hx. apply vbind_V in Hx as (url & Hu & Hx). apply lift_V in Hu. eapply redirect_params; [exact Hu|exact Hx|].
    rewrite full_dump. apply dump_params. }
  unfold param in H.
  destruct (oe_kind e) eqn:Ek; [exists (cf_error_url cfg); split; [auto|]; auto| ..];
    (destruct (lookup (lit "redirect_uri") data) as [uri|]; [|discriminate]; exists uri; split; [auto|]; auto).
Qed.

(** ** Token endpoint *)
Section WithEnv.
Variable E : env.

Definition token_body (p : provider) (hs : hooks) (r : request) : prog response :=
  do _ <- Ret (match rq_data r with [] => oraise InvalidRequest (lit "Missing request parameters.") None | _ => V tt end) ;;
  do g <- Ret (validate_grant_type p (param "grant_type" (rq_data r))) ;;
  do c <- authenticate r (grant_methods g) ;;
  if negb (ins (grant_type g) (cl_grants c)) then throw (oerr UnauthorizedClient None None [])
  else do t <- grant_token E (pv_config p) hs g (dremove (lit "grant_type") (rq_data r)) c ;;
       Ret (JSONResponse 200 token_headers (PDict t)).
Definition token_error (e : oauth_error) : res response :=
  JSONResponse 400 (dupdate (oe_headers e) token_headers) (PDict (dump e)).

Lemma token_exec p hs r tr x : exec (token_endpoint E p hs r) tr x ->
  exists y, exec (token_body p hs r) tr y /\ x = match y with X (OA e) => token_error e | y => y end.
Proof.
  change (token_endpoint E p hs r) with (pexcept (token_body p hs r) (fun e => Ret (token_error e))).
  intros H. apply exec_pexcept in H as [(e & t1 & t2 & -> & H1 & H) | [H Hn]].
  - apply exec_Ret in H as [-> ->]. rewrite app_nil_r. exists (X (OA e)). auto.
  - exists x. split; [auto|]. destruct x as [a|[e|e]]; auto. destruct (Hn e eq_refl).
Qed.

Lemma validate_grant_type_V p gt g : validate_grant_type p gt = V g -> In g (pv_grants p) /\ gt = Some (grant_type g).
Proof.
  unfold validate_grant_type. destruct gt as [[|a t]|]; try discriminate.
  destruct (find _ _) as [g'|] eqn:Ef; [|discriminate]. intros [= ->]. apply find_some in Ef as [H1 H2].
  apply eqs_true in H2. rewrite H2. auto.
Qed.

(** An error of the library: no header, and a state only where the code gives one. *)
Definition lib_error (state : option str) (e : oauth_error) : Prop :=
  oe_headers e = [] /\ oe_uri e = None /\ oe_state e = state /\ nonblank (oe_desc e) /\ error_code (oe_kind e) <> [].
Definition fatal_error (e : oauth_error) : Prop := oe_kind e = Fatal (lit "invalid_request") /\ lib_error None e.
Ltac lib := unfold fatal_error, lib_error, nonblank; simpl; repeat match goal with |- _ /\ _ => split end; auto;
  try discriminate; try congruence; try (let H := fresh in intros H; injection H as H; auto).
Lemma lib_oerr k d state : error_code k <> [] -> nonblank d -> exists e, oerr k d state [] = OA e /\ oe_kind e = k /\ lib_error state e.
Proof. intros. eexists. split; [reflexivity|]. split; [reflexivity|]. unfold lib_error. simpl. auto. Qed.

Inductive token_shape (p : provider) (hs : hooks) (r : request) : list obs -> res response -> Prop :=
| TS_request : forall e, lib_error None e -> (oe_kind e = InvalidRequest \/ oe_kind e = UnsupportedGrantType) ->
    token_shape p hs r [] (X (OA e))
| TS_auth : forall g tr e, In g (pv_grants p) -> data_has r "grant_type" (grant_type g) ->
    exec (authenticate r (grant_methods g)) tr (X e) -> token_shape p hs r tr (X e)
| TS_unauthorized : forall g i c, In g (pv_grants p) -> data_has r "grant_type" (grant_type g) ->
    authenticates r i c -> allowed_method (grant_methods g) (cl_auth_method c) -> ~ In (grant_type g) (cl_grants c) ->
    token_shape p hs r [OFindClient i (V (Some c))] (X (oerr UnauthorizedClient None None []))
| TS_grant : forall g i c tr y, In g (pv_grants p) -> data_has r "grant_type" (grant_type g) ->
    authenticates r i c -> allowed_method (grant_methods g) (cl_auth_method c) -> In (grant_type g) (cl_grants c) ->
    exec (grant_token E (pv_config p) hs g (dremove (lit "grant_type") (rq_data r)) c) tr y ->
    token_shape p hs r (OFindClient i (V (Some c)) :: tr)
      (match y with V t => JSONResponse 200 token_headers (PDict t) | X e => X e end).

Lemma token_body_exec p hs r tr x : exec (token_body p hs r) tr x -> token_shape p hs r tr x.
Proof.
  unfold token_body. intros H.
  apply exec_pbind in H as [([] & t1 & t2 & -> & H1 & H) | (e & -> & H1)]; apply exec_Ret in H1 as [-> H1]; cbn [app].
  2:{ destruct (rq_data r); [|discriminate]. injection H1 as ->. apply TS_request; [|auto].
      lib. }
  clear H1.
  apply exec_pbind in H as [(g & t3 & t4 & -> & H1 & H) | (e & -> & H1)]; apply exec_Ret in H1 as [-> H1]; cbn [app]; symmetry in H1.
  2:{ unfold validate_grant_type in H1.
      assert (exists k d, e = oerr k (Some d) None [] /\ d <> [] /\ (k = InvalidRequest \/ k = UnsupportedGrantType)) as (k & d & -> & Hd & Hk).
      { destruct (param "grant_type" (rq_data r)) as [[|a t]|].
        - injection H1 as <-. eexists _, _. split; [reflexivity|]. split; [discriminate|auto].
        - destruct (find _ _); [discriminate|]. injection H1 as <-. eexists _, _. split; [reflexivity|]. split; [discriminate|auto].
        - injection H1 as <-. eexists _, _. split; [reflexivity|]. split; [discriminate|auto]. }
      apply TS_request; [|auto]. lib. destruct Hk as [->| ->]; discriminate. }
  apply validate_grant_type_V in H1 as [Hg Hgt].
  apply exec_pbind in H as [(c & t1 & t5 & -> & H1 & H) | (e & -> & H1)].
  2:{ eapply TS_auth; eauto. }
  apply p_authenticate_sound in H1 as (i & -> & Ha & Hm). cbn [app].
  destruct (ins (grant_type g) (cl_grants c)) eqn:Ei; cbn [negb] in H.
  - apply ins_In in Ei.
    apply exec_pbind in H as [(t & t6 & t7 & -> & H1 & H) | (e & -> & H1)].
    + apply exec_Ret in H as [-> ->]. rewrite app_nil_r.
      apply (TS_grant p hs r g i c t6 (V t)); auto.
    + apply (TS_grant p hs r g i c t5 (X e)); auto.
  - apply ins_nIn in Ei. apply exec_Ret in H as [-> ->]. eapply TS_unauthorized; eauto.
Qed.

(** ** Authorization endpoint *)
Lemma validate_request_V data uri cid rt : validate_request data = V (uri, cid, rt) ->
  arg "redirect_uri" data = Some uri /\ arg "client_id" data = Some cid /\ arg "response_type" data = Some rt.
Proof.
  unfold validate_request. destruct data as [|kv data]; [discriminate|].
  destruct (arg "redirect_uri" _), (arg "client_id" _), (arg "response_type" _); try discriminate. intros [= -> -> ->]. auto.
Qed.
Lemma fatal_X {A} d e : d <> [] -> (fatal d : res A) = X e -> exists e', e = OA e' /\ fatal_error e'.
Proof.
  intros Hd [= <-]. eexists. split; [reflexivity|]. lib.
Qed.
Lemma validate_request_X data e : validate_request data = X e -> exists e', e = OA e' /\ fatal_error e'.
Proof.
  unfold validate_request. destruct data as [|kv data]; [apply fatal_X; discriminate|].
  destruct (arg "redirect_uri" _); [|apply fatal_X; discriminate].
  destruct (arg "client_id" _); [|apply fatal_X; discriminate].
  destruct (arg "response_type" _); [discriminate|apply fatal_X; discriminate].
Qed.
Lemma validate_response_type_V p rt state g : validate_response_type p rt state = V g -> g = GCode /\ In GCode (pv_grants p) /\ rt = lit "code".
Proof.
  unfold validate_response_type. destruct (find _ _) as [g'|] eqn:Ef; [|discriminate]. intros [= ->]. apply find_some in Ef as [H1 H2].
  destruct g; try discriminate. apply eqs_true in H2. auto.
Qed.

Inductive client_shape (cid uri rt : str) (state : option str) : list obs -> res client -> Prop :=
| CS_raise : forall e, client_shape cid uri rt state [OFindClient cid (X e)] (X e)
| CS_none : forall e, fatal_error e -> client_shape cid uri rt state [OFindClient cid (V None)] (X (OA e))
| CS_uri : forall c e, fatal_error e -> ~ In uri (cl_redirects c) -> client_shape cid uri rt state [OFindClient cid (V (Some c))] (X (OA e))
| CS_type : forall c e, oe_kind e = UnauthorizedClient -> lib_error state e -> In uri (cl_redirects c) -> ~ In rt (cl_responses c) ->
    client_shape cid uri rt state [OFindClient cid (V (Some c))] (X (OA e))
| CS_ok : forall c, In uri (cl_redirects c) -> In rt (cl_responses c) -> client_shape cid uri rt state [OFindClient cid (V (Some c))] (V c).
Lemma client_exec cid uri rt state tr x : exec (validate_client cid uri rt state) tr x -> client_shape cid uri rt state tr x.
Proof.
  unfold validate_client. intros H.
  apply exec_pbind in H as [(oc & t1 & t2 & -> & H1 & H) | (e & -> & H1)]; apply exec_call in H1 as ->; cbn [observe app].
  2:{ constructor. }
  destruct oc as [c|].
  - destruct (ins uri (cl_redirects c)) eqn:E1; cbn [negb] in H.
    + destruct (ins rt (cl_responses c)) eqn:E2; cbn [negb] in H; apply exec_Ret in H as [-> ->].
      * apply CS_ok; apply ins_In; auto.
      * eapply CS_type; [reflexivity| |apply ins_In; auto|apply ins_nIn; auto].
        lib.
    + apply exec_Ret in H as [-> ->]. apply CS_uri; [|apply ins_nIn; auto].
      lib.
  - apply exec_Ret in H as [-> ->]. apply CS_none.
    lib.
Qed.

Lemma challenges_spec m f : challenges E m = Some f -> m = lit "plain" \/ m = lit "S256".
Proof.
  unfold challenges. destruct (eqs_spec m (lit "plain")); [auto|]. destruct (eqs_spec m (lit "S256")); [auto|discriminate].
Qed.
Definition valid_ad (hs : hooks) (data : params) (ad : auth_data) : Prop :=
  arg "code_challenge" data = Some (ad_challenge ad) /\ (43 <= length (ad_challenge ad) <= 128)%nat /\
  param "code_challenge_method" data = Some (ad_method ad) /\ (ad_method ad = lit "plain" \/ ad_method ad = lit "S256") /\
  (exists s, arg "scope" data = Some s /\ ad_scopes ad = words s) /\
  param "redirect_uri" data = Some (ad_redirect ad) /\ ad_state ad = param "state" data /\ ad_nonce ad = nonce_of hs data.
Lemma var_V hs data ad : validate_authorization_request E hs data = V ad -> valid_ad hs data ad.
Proof.
  unfold validate_authorization_request. destruct (arg "code_challenge" data) as [ch|] eqn:E1; [|discriminate].
  destruct (Nat.ltb _ _ || Nat.ltb _ _)%bool eqn:E2; [discriminate|].
  apply orb_false_iff in E2 as [E2 E3]. apply Nat.ltb_ge in E2, E3.
  destruct (param "code_challenge_method" data) as [m|] eqn:E4; [|discriminate].
  destruct (challenges E m) as [f|] eqn:E5; [|discriminate].
  destruct (arg "scope" data) as [s|] eqn:E6; [|discriminate].
  destruct (param "redirect_uri" data) as [uri|] eqn:E7; [|discriminate].
  intros [= <-]. unfold valid_ad; simpl. apply challenges_spec in E5. repeat split; eauto.
Qed.
Lemma var_X hs data e : param "redirect_uri" data <> None -> validate_authorization_request E hs data = X e ->
  exists e', e = OA e' /\ oe_kind e' = InvalidRequest /\ lib_error (param "state" data) e'.
Proof.
  assert (Hgo : forall d, d <> [] -> (oraise InvalidRequest d (param "state" data) : res auth_data) = X e ->
    exists e', e = OA e' /\ oe_kind e' = InvalidRequest /\ lib_error (param "state" data) e').
  { intros d Hd [= <-]. eexists. split; [reflexivity|]. split; [reflexivity|]. lib. }
  intros Hu. unfold validate_authorization_request. destruct (arg "code_challenge" data) as [ch|]; [|apply Hgo; discriminate].
  destruct (Nat.ltb _ _ || Nat.ltb _ _)%bool; [apply Hgo; discriminate|].
  destruct (match param "code_challenge_method" data with Some m => challenges E m | None => None end); [|apply Hgo; discriminate].
  destruct (arg "scope" data); [|apply Hgo; discriminate].
  destruct (param "redirect_uri" data); [discriminate|congruence].
Qed.

Inductive authorize_shape (cfg : config) (hs : hooks) (data : params) (c : client) (u : user) : list obs -> res str -> Prop :=
| AS_invalid : forall e, lib_error (param "state" data) e -> (oe_kind e = InvalidRequest \/ oe_kind e = InvalidScope) ->
    authorize_shape cfg hs data c u [] (X (OA e))
| AS_token : forall e, authorize_shape cfg hs data c u [OSecretToken 64 (X e)] (X e)
| AS_save : forall ad code e, valid_ad hs data ad -> incl (ad_scopes ad) (cf_scopes cfg) -> incl (ad_scopes ad) (cl_allowed c (Some (ad_scopes ad))) ->
    authorize_shape cfg hs data c u [OSecretToken 64 (V code); OSaveCode code ad c u (X e)] (X e)
| AS_ok : forall ad code, valid_ad hs data ad -> incl (ad_scopes ad) (cf_scopes cfg) -> incl (ad_scopes ad) (cl_allowed c (Some (ad_scopes ad))) ->
    authorize_shape cfg hs data c u [OSecretToken 64 (V code); OSaveCode code ad c u (V tt)]
      (authorization_response (ad_redirect ad) code (ad_state ad)).
Lemma authorize_exec cfg hs data c u tr x : param "redirect_uri" data <> None ->
  exec (authorize E cfg hs data c u) tr x -> authorize_shape cfg hs data c u tr x.
Proof.
  intros Hu H. unfold authorize in H.
  apply exec_pbind in H as [(ad & t1 & t2 & -> & H1 & H) | (e & -> & H1)]; apply exec_Ret in H1 as [-> H1]; cbn [app]; symmetry in H1.
  2:{ apply var_X in H1 as (e' & -> & Hk & Hl); [|auto]. constructor; auto. }
  apply var_V in H1.
  apply exec_pbind in H as [([] & t1 & t3 & -> & H2 & H) | (e & -> & H2)]; apply exec_Ret in H2 as [-> H2]; cbn [app]; symmetry in H2.
  2:{ apply validate_scopes_X in H2 as Hx. destruct Hx as [d ->]. destruct H1 as (_ & _ & _ & _ & _ & _ & Hst & _).
      assert (d <> []).
      { cbn [validate_requested_scopes] in H2. apply vbind_X in H2 as [H2|(? & _ & H2)].
        - revert H2. clear. generalize (ad_scopes ad) as l. induction l as [|s l IH]; simpl; [discriminate|]. destruct (ins s _); auto. intros [= <-]. discriminate.
        - destruct (subsetb _ _); [discriminate|]. injection H2 as <-. discriminate. }
      constructor; [|auto]. lib. }
  apply validate_scopes_V in H2 as [H2 H3].
  apply exec_pbind in H as [(code & t1 & t2 & -> & H4 & H) | (e & -> & H4)]; apply exec_call in H4 as ->; cbn [observe app]; [|constructor].
  apply exec_pbind in H as [([] & t1 & t3 & -> & H5 & H) | (e & -> & H5)]; apply exec_call in H5 as ->; cbn [observe app]; [|constructor; auto].
  apply exec_Ret in H as [-> ->]. apply AS_ok; auto.
Qed.

Definition authz_body (p : provider) (hs : hooks) (r : request) : prog response :=
  let data := rq_data r in
  do (uri, cid, rt) <- Ret (validate_request data) ;;
  match rq_user r with
  | None => throw (oerr AccessDenied None None [])
  | Some u =>
      do g <- Ret (validate_response_type p rt (param "state" data)) ;;
      do c <- validate_client cid uri (match response_type g with Some t => t | None => [] end) (param "state" data) ;;
      do url <- grant_authorize E (pv_config p) hs g (dremove (lit "response_type") data) c u ;;
      Ret (RedirectResponse url [])
  end.
Inductive authz_shape (p : provider) (hs : hooks) (r : request) : list obs -> res response -> Prop :=
| ZS_fatal : forall e, fatal_error e -> authz_shape p hs r [] (X (OA e))
| ZS_denied : forall e uri, rq_user r = None -> data_has r "redirect_uri" uri -> oe_kind e = AccessDenied -> lib_error None e -> authz_shape p hs r [] (X (OA e))
| ZS_type : forall e uri rt u, rq_user r = Some u -> data_has r "redirect_uri" uri -> data_has r "response_type" rt -> ~ (In GCode (pv_grants p) /\ rt = lit "code") ->
    oe_kind e = UnsupportedResponseType -> lib_error (param "state" (rq_data r)) e -> authz_shape p hs r [] (X (OA e))
| ZS_client : forall u uri cid tr e, rq_user r = Some u -> data_has r "redirect_uri" uri -> data_has r "client_id" cid -> data_has r "response_type" (lit "code") -> In GCode (pv_grants p) ->
    client_shape cid uri (lit "code") (param "state" (rq_data r)) tr (X e) -> authz_shape p hs r tr (X e)
| ZS_grant : forall u uri cid c tr y, rq_user r = Some u -> data_has r "redirect_uri" uri -> data_has r "client_id" cid -> data_has r "response_type" (lit "code") -> In GCode (pv_grants p) ->
    In uri (cl_redirects c) -> In (lit "code") (cl_responses c) ->
    authorize_shape (pv_config p) hs (dremove (lit "response_type") (rq_data r)) c u tr y ->
    authz_shape p hs r (OFindClient cid (V (Some c)) :: tr) (match y with V url => RedirectResponse url [] | X e => X e end).

Lemma lookup_dremove_other {V} k k' (d : list (str * V)) : k <> k' -> lookup k (dremove k' d) = lookup k d.
Proof.
  intros Hn. unfold dremove. induction d as [|[a b] d IH]; simpl; [auto|].
  destruct (eqs_spec k' a); simpl; destruct (eqs_spec k a); simpl; try congruence; auto.
Qed.
Lemma authz_body_exec p hs r tr x : exec (authz_body p hs r) tr x -> authz_shape p hs r tr x.
Proof.
  unfold authz_body. intros H.
  apply exec_pbind in H as [([[uri cid] rt] & t1 & t2 & -> & H1 & H) | (e & -> & H1)]; apply exec_Ret in H1 as [-> H1]; cbn [app]; symmetry in H1.
  2:{ apply validate_request_X in H1 as (e' & -> & He). constructor; auto. }
  apply validate_request_V in H1 as (Hu & Hc & Hr). apply arg_Some in Hu as [Hu _], Hc as [Hc _], Hr as [Hr _].
  destruct (rq_user r) as [u|] eqn:Eu.
  2:{ apply exec_Ret in H as [-> ->]. eapply ZS_denied; eauto; first [reflexivity | lib]. }
  apply exec_pbind in H as [(g & t1 & t3 & -> & H1 & H) | (e & -> & H1)]; apply exec_Ret in H1 as [-> H1]; cbn [app]; symmetry in H1.
  2:{ unfold validate_response_type in H1. destruct (find _ _) as [g|] eqn:Ef; [discriminate|]. injection H1 as <-.
      eapply (ZS_type p hs r _ uri rt); eauto.
      - intros [Hin ->]. apply (find_none _ _ Ef) in Hin. discriminate.
      - lib. }
  apply validate_response_type_V in H1 as (-> & Hg & ->). cbn [response_type] in H.
  apply exec_pbind in H as [(c & t1 & t4 & -> & H1 & H) | (e & -> & H1)]; apply client_exec in H1.
  2:{ eapply ZS_client; eauto. }
  inversion H1; subst. cbn [app].
  assert (Hp : param "redirect_uri" (dremove (lit "response_type") (rq_data r)) <> None).
  { unfold param. rewrite lookup_dremove_other by discriminate. congruence. }
  apply exec_pbind in H as [(url & t1 & t2 & -> & G2 & H) | (e & -> & G2)]; cbn [grant_authorize] in G2; apply authorize_exec in G2; auto.
  - apply exec_Ret in H as [-> ->]. rewrite app_nil_r. apply (ZS_grant p hs r u uri cid c t1 (V url)); auto.
  - apply (ZS_grant p hs r u uri cid c t4 (X e)); auto.
Qed.
Lemma authz_exec p hs r tr x : exec (authorization_endpoint E p hs r) tr x ->
  exists y, authz_shape p hs r tr y /\ x = match y with X (OA e) => error_redirect (pv_config p) (rq_data r) e | y => y end.
Proof.
  change (authorization_endpoint E p hs r) with (pexcept (authz_body p hs r) (fun e => Ret (error_redirect (pv_config p) (rq_data r) e))).
  intros H. apply exec_pexcept in H as [(e & t1 & t2 & -> & H1 & H) | [H Hn]].
  - apply exec_Ret in H as [-> ->]. rewrite app_nil_r. exists (X (OA e)). split; [|auto]. apply authz_body_exec; auto.
  - exists x. split; [apply authz_body_exec; auto|]. destruct x as [a|[e|e]]; auto. destruct (Hn e eq_refl).
Qed.

(** ** Consent data *)
Inductive consent_shape (p : provider) (r : request) : list obs -> res consent -> Prop :=
| KS_fatal : forall e, fatal_error e -> consent_shape p r [] (X (OA e))
| KS_client : forall uri cid rt tr e, data_has r "redirect_uri" uri -> data_has r "client_id" cid -> data_has r "response_type" rt ->
    client_shape cid uri rt (param "state" (rq_data r)) tr (X e) -> consent_shape p r tr (X e)
| KS_scope : forall uri cid rt c e, data_has r "redirect_uri" uri -> data_has r "client_id" cid -> data_has r "response_type" rt ->
    In uri (cl_redirects c) -> In rt (cl_responses c) -> arg "scope" (rq_data r) = None -> oe_kind e = InvalidRequest -> lib_error None e ->
    consent_shape p r [OFindClient cid (V (Some c))] (X (OA e))
| KS_ok : forall uri cid rt c s, data_has r "redirect_uri" uri -> data_has r "client_id" cid -> data_has r "response_type" rt ->
    In uri (cl_redirects c) -> In rt (cl_responses c) -> data_has r "scope" s -> s <> [] ->
    consent_shape p r [OFindClient cid (V (Some c))] (V (Consent c (cl_allowed c (Some (words s))))).
Lemma consent_exec p r tr x : exec (get_consent_data p r) tr x ->
  exists y, consent_shape p r tr y /\
    x = match y with X (OA e) => match error_redirect (pv_config p) (rq_data r) e with V z => V (ConsentRedirect z) | X e => X e end | y => y end.
Proof.
  assert (Hb : forall tr y, exec (
     do (uri, cid, rt) <- Ret (validate_request (rq_data r)) ;;
     do c <- validate_client cid uri rt (param "state" (rq_data r)) ;;
     match arg "scope" (rq_data r) with
     | None => Ret (oraise InvalidRequest (lit "Missing required parameter ""scope"".") None)
     | Some scope => ret (Consent c (cl_allowed c (Some (words scope))))
     end) tr y -> consent_shape p r tr y).
  { clear tr x. intros tr x H.
    apply exec_pbind in H as [([[uri cid] rt] & t1 & t2 & -> & H1 & H) | (e & -> & H1)]; apply exec_Ret in H1 as [-> H1]; cbn [app]; symmetry in H1.
    2:{ apply validate_request_X in H1 as (e' & -> & He). constructor; auto. }
    apply validate_request_V in H1 as (Hu & Hc & Hr). apply arg_Some in Hu as [Hu _], Hc as [Hc _], Hr as [Hr _].
    apply exec_pbind in H as [(c & t1 & t4 & -> & H1 & H) | (e & -> & H1)]; apply client_exec in H1.
    2:{ eapply KS_client; eauto. }
    inversion H1; subst. cbn [app].
    destruct (arg "scope" (rq_data r)) as [s|] eqn:Es; apply exec_Ret in H as [-> ->].
    - apply arg_Some in Es as [Es Hn]. eapply KS_ok; eauto.
    - eapply KS_scope; eauto; first [reflexivity | lib]. }
  unfold get_consent_data. intros H. apply exec_pexcept in H as [(e & t1 & t2 & -> & H1 & H) | [H Hn]].
  - apply Hb in H1. exists (X (OA e)).
    destruct (error_redirect (pv_config p) (rq_data r) e) as [z|e'] eqn:Ez.
    + apply exec_pbind in H as [(z' & t3 & t4 & -> & H2 & H) | (e' & -> & H2)]; apply exec_Ret in H2 as [-> H2]; [|discriminate].
      apply exec_Ret in H as [-> ->]. rewrite app_nil_r. injection H2 as ->. auto.
    + apply exec_pbind in H as [(z' & t3 & t4 & -> & H2 & H) | (e'' & -> & H2)]; apply exec_Ret in H2 as [-> H2]; [discriminate|].
      rewrite app_nil_r. injection H2 as ->. auto.
  - exists x. split; [apply Hb; auto|]. destruct x as [a|[e|e]]; auto. destruct (Hn e eq_refl).
Qed.

(** ** Revocation endpoint *)
Definition revoke_error (e : oauth_error) : res (option response) :=
  match JSONResponse (match oe_kind e with InvalidClient => 401 | _ => 400 end) (oe_headers e) (PDict (dump e)) with V x => V (Some x) | X e => X e end.
Definition revoked : response := {| rs_status := 200; rs_headers := [(lit "Content-Type", PStr (lit "application/json"))]; rs_body := lit "null" |}.
Lemma revoked_eq : JSONResponse 200 [] PNone = V revoked.
Proof. reflexivity. Qed.
Inductive revocation_shape (r : request) : list obs -> res (option response) -> Prop :=
| RS_auth : forall tr e, exec (authenticate r []) tr (X e) -> revocation_shape r tr (X e)
| RS_none : forall i c, authenticates r i c -> arg "token" (form r) = None -> revocation_shape r [OFindClient i (V (Some c))] (V None)
| RS_hint : forall i c h e, authenticates r i c -> form_has r "token_type_hint" h -> h <> [] -> ~ In h supported_tokens ->
    oe_kind e = UnsupportedTokenType -> oe_desc e = None -> lib_error None e -> revocation_shape r [OFindClient i (V (Some c))] (X (OA e))
| RS_raise : forall i c t hint e, authenticates r i c -> form_has r "token" t -> t <> [] -> hint = param "token_type_hint" (form r) ->
    (hint = None \/ hint = Some [] \/ exists h, hint = Some h /\ In h supported_tokens) ->
    revocation_shape r [OFindClient i (V (Some c)); ORevokeToken c t hint (X e)] (X e)
| RS_ok : forall i c t hint, authenticates r i c -> form_has r "token" t -> t <> [] -> hint = param "token_type_hint" (form r) ->
    (hint = None \/ hint = Some [] \/ exists h, hint = Some h /\ In h supported_tokens) ->
    revocation_shape r [OFindClient i (V (Some c)); ORevokeToken c t hint (V tt)] (V (Some revoked)).
Lemma arg_None k d : arg k d = None -> param k d = None \/ param k d = Some [].
Proof. unfold arg, param. destruct (lookup (lit k) d) as [[|c s]|]; intros H; try discriminate; auto. Qed.
Lemma revocation_body r tr x : exec (do c <- authenticate r [] ;;
     let data := form r in
     match arg "token" data with
     | None => ret None
     | Some token =>
         let hint := param "token_type_hint" data in
         match arg "token_type_hint" data with
         | Some h =>
             if negb (ins h supported_tokens) then throw (oerr UnsupportedTokenType None None [])
             else do _ <- call (RevokeToken c token hint) ;;
                  do x <- Ret (JSONResponse 200 [] PNone) ;; ret (Some x)
         | None => do _ <- call (RevokeToken c token hint) ;;
                   do x <- Ret (JSONResponse 200 [] PNone) ;; ret (Some x)
         end
     end) tr x -> revocation_shape r tr x.
Proof.
  intros H. apply exec_pbind in H as [(c & t1 & t2 & -> & H1 & H) | (e & -> & H1)]; [|constructor; auto].
  apply p_authenticate_sound in H1 as (i & -> & Ha & _). cbv zeta in H. cbn [app].
  destruct (arg "token" (form r)) as [t|] eqn:Et; [|apply exec_Ret in H as [-> ->]; constructor; auto].
  apply arg_Some in Et as [Et Ht]. rewrite revoked_eq in H.
  assert (Hgo : forall hint, hint = param "token_type_hint" (form r) ->
    (hint = None \/ hint = Some [] \/ exists h, hint = Some h /\ In h supported_tokens) ->
    exec (do _ <- call (RevokeToken c t hint) ;; do x <- Ret (V revoked) ;; ret (Some x)) t2 x ->
    revocation_shape r (OFindClient i (V (Some c)) :: t2) x).
  { intros hint Hh Hs Hx. apply exec_pbind in Hx as [([] & t3 & t4 & -> & H1 & Hx) | (e & -> & H1)]; apply exec_call in H1 as ->; cbn [observe app].
    - apply exec_pbind in Hx as [(z & t5 & t6 & -> & H1 & Hx) | (e & -> & H1)]; apply exec_Ret in H1 as [-> H1]; [|discriminate].
      injection H1 as ->. apply exec_Ret in Hx as [-> ->]. apply RS_ok; auto.
    - eapply RS_raise; eauto. }
  destruct (arg "token_type_hint" (form r)) as [h|] eqn:Eh.
  - apply arg_Some in Eh as [Eh Hne]. destruct (ins h supported_tokens) eqn:Ei; cbn [negb] in H.
    + apply ins_In in Ei. eapply Hgo; [reflexivity| |exact H]. right. right. exists h. auto.
    + apply ins_nIn in Ei. apply exec_Ret in H as [-> ->]. eapply RS_hint; eauto; first [reflexivity | lib].
  - eapply Hgo; [reflexivity| |exact H]. apply arg_None in Eh. tauto.
Qed.
Lemma revocation_exec r tr x : exec (revocation_endpoint r) tr x ->
  exists y, revocation_shape r tr y /\ x = match y with X (OA e) => revoke_error e | y => y end.
Proof.
  unfold revocation_endpoint. intros H.
  apply exec_pexcept in H as [(e & t1 & t2 & -> & H1 & H) | [H1 Hn]]; apply revocation_body in H1.
  - assert (Hx : t2 = [] /\ x = revoke_error e).
    { unfold revoke_error. destruct (JSONResponse _ _ _) as [z|e'].
      - apply exec_pbind in H as [(z' & t3 & t4 & -> & H2 & H) | (e' & -> & H2)]; apply exec_Ret in H2 as [-> H2]; [|discriminate].
        apply exec_Ret in H as [-> ->]. injection H2 as ->. auto.
      - apply exec_pbind in H as [(z' & t3 & t4 & -> & H2 & H) | (e'' & -> & H2)]; apply exec_Ret in H2 as [-> H2]; [discriminate|].
        injection H2 as ->. auto. }
    destruct Hx as [-> ->]. rewrite app_nil_r. eauto.
  - exists x. split; [auto|]. destruct x as [a|[e|e]]; auto. destruct (Hn e eq_refl).
Qed.

End WithEnv.
