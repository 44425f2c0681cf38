(** Conformance of the endpoints to RFC 6749 and RFC 7636. *)
From Coq Require Import String Ascii List NArith ZArith Bool Arith Lia.
From Verif Require Import Base BaseFacts Utf8 SpecCodec Json Url UrlFacts Webtools WebtoolsFacts Jwk Prog ProgFacts Http OAuth SpecReaders HeaderFacts SpecOAuth SpecHistory SpecFlow SpecRfc OAuthFacts GrantFacts EndpointFacts RequestFacts AuthzFacts TokenFacts ResponseFacts RaiseFacts CompleteFacts Base64 Base64Facts Utf8Facts OAuthEx.
Import ListNotations.
Open Scope string_scope.
Open Scope list_scope.
Open Scope N_scope.

(** ** Congruence *)
Lemma same_refl {A} (p : prog A) : same_behaviour p p. Proof. intros tr x. reflexivity. Qed.
Lemma same_eq {A} (p q : prog A) : p = q -> same_behaviour p q. Proof. intros ->. apply same_refl. Qed.
Lemma same_trans {A} (p q r : prog A) : same_behaviour p q -> same_behaviour q r -> same_behaviour p r.
Proof. intros H1 H2 tr x. rewrite (H1 tr x). apply H2. Qed.
Lemma same_pbind {A B} (p p' : prog A) (f f' : A -> prog B) : same_behaviour p p' -> (forall a, same_behaviour (f a) (f' a)) -> same_behaviour (pbind p f) (pbind p' f').
Proof.
  intros Hp Hf tr x. rewrite !exec_pbind. split; (intros [(a & t1 & t2 & -> & H1 & H2)|(e & -> & H1)]; [left; exists a, t1, t2|right; exists e]); repeat split; auto;
    solve [apply Hp; auto | apply Hf; auto].
Qed.
Lemma same_pexcept {A} (p p' : prog A) h h' : same_behaviour p p' -> (forall e, same_behaviour (h e) (h' e)) -> same_behaviour (pexcept p h) (pexcept p' h').
Proof.
  intros Hp Hf tr x. rewrite !exec_pexcept. split; (intros [(a & t1 & t2 & -> & H1 & H2)|[H1 Hn]]; [left; exists a, t1, t2|right]); repeat split; auto;
    solve [apply Hp; auto | apply Hf; auto].
Qed.

Ltac ag H k := let h := fresh "A" in assert (h := H k%string ltac:(cbn; tauto)).

(** ** C84: other parameters are ignored. *)
Lemma agree_dremove k ks d d' : ~ In k (map lit ks) -> agree ks d d' -> agree ks (dremove k d) (dremove k d').
Proof. intros Hk H x Hx. rewrite !lookup_dremove_other; [apply H; auto| |]; intros He; apply Hk; (rewrite He || rewrite <- He); apply in_map; auto. Qed.

Section WithEnv.
Variable E : env.
Lemma code_token_agree cfg hs d d' c : agree ["code"; "redirect_uri"; "code_verifier"]%string d d' -> code_token E cfg hs d c = code_token E cfg hs d' c.
Proof. intros H. ag H "code". ag H "redirect_uri". ag H "code_verifier". unfold code_token, code_exchange, validate_code_request, param, arg. rewrite A, A0, A1. reflexivity. Qed.
Lemma cc_token_agree cfg d d' c : agree ["scope"]%string d d' -> cc_token cfg d c = cc_token cfg d' c.
Proof. intros H. ag H "scope". unfold cc_token, cc_scopes, arg. rewrite A. reflexivity. Qed.
Lemma refresh_agree cfg d d' c : agree ["scope"; "refresh_token"]%string d d' -> refresh_grant E cfg d c = refresh_grant E cfg d' c.
Proof. intros H. ag H "scope". ag H "refresh_token". unfold refresh_grant, validate_refresh_request, cc_scopes, arg. rewrite A, A0. reflexivity. Qed.
Lemma agree_sub ks ks' d d' : incl ks' ks -> agree ks d d' -> agree ks' d d'.
Proof. intros Hi H k Hk. apply H. auto. Qed.
Lemma grant_token_agree cfg hs g d d' c : agree ["code"; "redirect_uri"; "code_verifier"; "refresh_token"; "scope"]%string d d' -> grant_token E cfg hs g d c = grant_token E cfg hs g d' c.
Proof.
  intros H. destruct g; cbn [grant_token]; [apply code_token_agree|apply cc_token_agree|apply refresh_agree]; (eapply agree_sub; [|exact H]); intros k Hk; cbn in *; tauto.
Qed.
Lemma same_text h h' : (forall auth, carries h auth <-> carries h' auth) -> auth_text h = auth_text h'.
Proof.
  intros H. assert (K : forall a, auth_text h = Some a <-> auth_text h' = Some a) by (intros a; rewrite !auth_text_spec, H; reflexivity).
  destruct (auth_text h) as [a|]; [symmetry; apply K; reflexivity|]. destruct (auth_text h') as [a|]; [|reflexivity]. apply K. reflexivity.
Qed.
Lemma auth_agree r r' methods : same_credentials r r' -> same_behaviour (authenticate r methods) (authenticate r' methods).
Proof.
  intros [Hh Hf]. ag Hf "client_id". ag Hf "client_secret".
  assert (B1 : auth_basic r = auth_basic r') by (unfold auth_basic, get_basic_authorization; rewrite (same_text _ _ Hh); reflexivity).
  assert (B2 : auth_post r = auth_post r') by (unfold auth_post, arg; rewrite A, A0; reflexivity).
  assert (B3 : auth_none r = auth_none r') by (unfold auth_none, arg, param; rewrite A, A0; reflexivity).
  unfold authenticate, auth_methods. cbn [authenticate_loop]. rewrite B1, B2, B3.
  repeat match goal with |- context[if ?b then _ else _] => destruct b end; try apply same_refl;
  repeat (apply same_pbind; [apply same_refl|intros []]; try apply same_refl).
Qed.
Lemma p_token_ignores p hs r r' : same_credentials r r' -> agree token_params (rq_data r) (rq_data r') -> rq_data r <> [] -> rq_data r' <> [] ->
  same_behaviour (token_endpoint E p hs r) (token_endpoint E p hs r').
Proof.
  intros Hc Ha N1 N2. unfold token_endpoint. apply same_pexcept; [|intros; apply same_refl].
  apply same_pbind; [destruct (rq_data r); [contradiction|]; destruct (rq_data r'); [contradiction|]; apply same_refl|]. intros _.
  ag Ha "grant_type". unfold param. rewrite A. apply same_pbind; [apply same_refl|]. intros g.
  apply same_pbind; [apply auth_agree; auto|]. intros c. destruct (ins (grant_type g) (cl_grants c)); cbn [negb]; [|apply same_refl].
  apply same_pbind; [|intros; apply same_refl]. apply same_eq. apply grant_token_agree. apply agree_dremove.
  - cbn. intros H. repeat (destruct H as [H|H]; [discriminate|]). destruct H.
  - eapply agree_sub; [|exact Ha]. intros k Hk. cbn in *. tauto.
Qed.
Lemma validate_request_agree d d' : agree ["redirect_uri"; "client_id"; "response_type"]%string d d' -> d <> [] -> d' <> [] -> validate_request d = validate_request d'.
Proof.
  intros H N1 N2. ag H "redirect_uri". ag H "client_id". ag H "response_type". destruct d as [|x d]; [contradiction|]. destruct d' as [|x' d']; [contradiction|].
  unfold validate_request, arg. rewrite A, A0, A1. reflexivity.
Qed.
Lemma var_agree hs d d' : agree ["code_challenge"; "code_challenge_method"; "scope"; "state"; "redirect_uri"; "nonce"]%string d d' ->
  validate_authorization_request E hs d = validate_authorization_request E hs d'.
Proof.
  intros H. ag H "code_challenge". ag H "code_challenge_method". ag H "scope". ag H "state". ag H "redirect_uri". ag H "nonce".
  unfold validate_authorization_request, nonce_of, oidc_authorization_request, arg, param. rewrite A, A0, A1, A2, A3, A4. reflexivity.
Qed.
Lemma error_redirect_agree cfg d d' e : agree ["redirect_uri"]%string d d' -> error_redirect cfg d e = error_redirect cfg d' e.
Proof. intros H. ag H "redirect_uri". unfold error_redirect, param. rewrite A. reflexivity. Qed.
Lemma p_authorization_ignores p hs r r' : rq_user r = rq_user r' -> agree authorization_params (rq_data r) (rq_data r') -> rq_data r <> [] -> rq_data r' <> [] ->
  same_behaviour (authorization_endpoint E p hs r) (authorization_endpoint E p hs r').
Proof.
  intros Hu Ha N1 N2. unfold authorization_endpoint. apply same_pexcept.
  2:{ intros e. apply same_eq. f_equal. apply error_redirect_agree. eapply agree_sub; [|exact Ha]. intros k Hk. cbn in *. tauto. }
  rewrite <- (validate_request_agree (rq_data r) (rq_data r')); auto. 2:{ eapply agree_sub; [|exact Ha]. intros k Hk. cbn in *. tauto. }
  ag Ha "state". unfold param. rewrite <- A, <- Hu. apply same_pbind; [apply same_refl|]. intros [[uri cid] rt].
  destruct (rq_user r) as [u|]; [|apply same_refl]. apply same_pbind; [apply same_refl|]. intros g. apply same_pbind; [apply same_refl|]. intros c.
  apply same_pbind; [|intros; apply same_refl]. destruct g; cbn [grant_authorize]; try apply same_refl. unfold authorize.
  rewrite (var_agree hs (dremove (lit "response_type") (rq_data r)) (dremove (lit "response_type") (rq_data r'))); [apply same_refl|].
  apply agree_dremove.
  - cbn. intros H. repeat (destruct H as [H|H]; [discriminate|]). destruct H.
  - eapply agree_sub; [|exact Ha]. intros k Hk. cbn in *. tauto.
Qed.
Lemma p_revocation_ignores r r' : (forall auth, carries (rq_headers r) auth <-> carries (rq_headers r') auth) -> agree revocation_params (form r) (form r') ->
  same_behaviour (revocation_endpoint r) (revocation_endpoint r').
Proof.
  intros Hh Ha. unfold revocation_endpoint. apply same_pexcept; [|intros; apply same_refl].
  apply same_pbind; [apply auth_agree; split; [auto|]; eapply agree_sub; [|exact Ha]; intros k Hk; cbn in *; tauto|]. intros c.
  ag Ha "token". ag Ha "token_type_hint". unfold arg, param. rewrite A, A0. apply same_refl.
Qed.

(** ** C87: the error of a refused code or refresh token *)
Lemma error_sent k desc hd : (forall code, k <> Fatal code) -> scalar_opt desc -> exists z, token_error {| oe_kind := k; oe_desc := desc; oe_uri := None; oe_state := None; oe_headers := hd |} = V z /\
  rs_status z = 400 /\ (exists d, json_body z d /\ lookup (lit "error") d = Some (PStr (error_code k))) /\ rs_headers z = parse_headers (PStr (lit "application/json")) (dupdate hd token_headers).
Proof.
  intros Hk Hd. unfold token_error. destruct (JSONResponse _ _ _) as [z|e] eqn:Ej.
  - exists z. split; [auto|]. apply json_response_V in Ej as (H1 & H2 & H3); [|apply dump_wf]. split; [auto|]. split; [|auto]. exists (dump {| oe_kind := k; oe_desc := desc; oe_uri := None; oe_state := None; oe_headers := hd |}).
    split; [auto|]. unfold dump. cbn [oe_kind oe_desc oe_uri oe_state pstr]. destruct desc; reflexivity.
  - exfalso. eapply json_response_X; [exact Ej|]. apply dump_flat; cbn; auto. destruct k; try slit. exfalso. eapply Hk. reflexivity.
Qed.
Lemma code_enter p hs r tr x i c code uri v : exec (token_endpoint E p hs r) tr x -> no_raise tr -> exchange_request p r i c code uri v -> finds_client i c tr ->
  exists oc t2 w, tr = OFindClient i (V (Some c)) :: (OGetCode code (V oc) :: t2) ++ [ODeleteCode code (V tt)] /\ no_raise t2 /\
    exec (match oc with
      | None => Ret (oraise InvalidRequest (lit "Invalid Authorization Grant.") None)
      | Some ac => do _ <- validate_authorization_code E uri v ac c ;;
        do ou <- call (FindUser (ac_user ac)) ;;
        match ou with
        | None => Ret (oraise InvalidRequest (lit "No user found for this code.") None)
        | Some u => do at_ <- call (CreateAT c (OwnUser u) (ac_scopes ac)) ;;
            do rt <- maybe_refresh c (OwnUser u) (ac_scopes ac) ;;
            run_token_hooks E (hk_response hs) (create_token at_ (cf_token_lifespan (pv_config p)) rt (ac_scopes ac)) c u
        end
      end) t2 w /\ x = match w with V t => match JSONResponse 200 token_headers (PDict t) with X (OA e) => token_error e | y => y end | X (OA e) => token_error e | X e => X e end.
Proof.
  intros H Hn (Hg & Hgr & Hp & Hgt & D1 & D2 & D3 & N1 & N2 & N3 & Huri) F1.
  apply token_exec in H as (y & H & Hx).
  apply body_forward with (g := GCode) (i := i) (c := c) in H as (tr1 & z & -> & Hn1 & H & Hy); auto; [|left; reflexivity].
  cbn [grant_token] in H. apply code_token_exec in H as (t1 & w & Hw & [(Hc & _)|(code' & q & Hc & -> & Hz)]).
  { exfalso. unfold param in Hc. rewrite lookup_dremove_other in Hc by discriminate. unfold data_has in D1. congruence. }
  assert (Ec : code' = code) by (unfold param in Hc; rewrite lookup_dremove_other in Hc by discriminate; unfold data_has in D1; congruence). subst code'.
  destruct q as [[]|e]; [|exfalso; eapply raise_absurd; [exact Hn1|apply in_app_iff; right; left; reflexivity|reflexivity]]. subst z.
  apply no_raise_app in Hn1 as [Hn1 _]. unfold code_exchange in Hw.
  replace (validate_code_request (dremove (lit "grant_type") (rq_data r))) with (V (code, uri, v) : res (str * str * str)) in Hw.
  2:{ symmetry. apply validate_code_request_V. split; [|split]; apply data_arg; auto; discriminate. }
  rewrite ret_forward in Hw. cbv beta iota in Hw.
  apply call_forward in Hw as (oc & t2 & -> & Hw & Hn2); [|auto]. cbn [observe] in *.
  exists oc, t2, w. split; [reflexivity|]. split; [auto|]. split; [exact Hw|]. rewrite Hx, Hy. destruct w as [t|[e|e]]; [destruct (JSONResponse 200 token_headers (PDict t)) as [|[]]| |]; reflexivity.
Qed.
Lemma answered (k : okind) (d : option str) hd (name : string) : (forall code, k <> Fatal code) -> scalar_opt d -> error_code k = lit name ->
  exists z, token_error {| oe_kind := k; oe_desc := d; oe_uri := None; oe_state := None; oe_headers := hd |} = V z /\ error_answer z name.
Proof. intros Hk Hd He. destruct (error_sent k d hd Hk Hd) as (z & Hz & H1 & (b & H2 & H3) & _). exists z. split; [auto|]. split; [auto|]. exists b. rewrite <- He. auto. Qed.
Lemma p_code_unknown p hs r tr x i c code uri v : exec (token_endpoint E p hs r) tr x -> no_raise tr -> exchange_request p r i c code uri v -> finds_client i c tr ->
  (forall y, In (OGetCode code y) tr -> y = V None) -> exists z, x = V z /\ error_answer z "invalid_request".
Proof.
  intros H Hn Hq F1 F2. destruct (code_enter _ _ _ _ _ _ _ _ _ _ H Hn Hq F1) as (oc & t2 & w & -> & Hn2 & Hw & ->).
  assert (Eo : V oc = V None) by (apply F2; right; left; reflexivity). injection Eo as ->. apply exec_Ret in Hw as [-> ->]. unfold oraise, oerr.
  apply answered; [discriminate|slit|reflexivity].
Qed.
Lemma pkce_decided ac v : (forall b, bytes_ok (e_sha256 E b)) -> (ac_method ac = lit "plain" \/ ac_method ac = lit "S256" /\ Forall (fun c => c < 128) v) ->
  exists f b, challenges E (ac_method ac) = Some f /\ f (ac_challenge ac) v = Ok b /\ (b = true -> pkce_ok (e_sha256 E) (ac_method ac) (ac_challenge ac) v).
Proof.
  intros Hb [Hm|[Hm Hv]]; unfold challenges; rewrite Hm.
  - exists plain_challenge, (eqs (ac_challenge ac) v). split; [reflexivity|]. split; [reflexivity|]. intros He. apply eqs_true in He. left. auto.
  - exists (S256_challenge E), (eqs (ac_challenge ac) (to_string (base64url_encode (e_sha256 E v)))). split; [reflexivity|]. split.
    + unfold S256_challenge, ascii_encode. replace (forallb (fun c => c <? 128) v) with true by (symmetry; apply forallb_forall; rewrite Forall_forall in Hv; intros; apply N.ltb_lt; auto). reflexivity.
    + intros He. apply eqs_true in He. right. split; [auto|]. split; [auto|]. rewrite He. destruct (p_base64url (e_sha256 E v) (Hb v)) as (H1 & H2 & _).
      rewrite to_string_ascii; [auto|apply url_chars_ascii, base64url_encode_url; auto].
Qed.
Lemma p_code_refused p hs r tr x i c code uri v ac T : (forall b, bytes_ok (e_sha256 E b)) -> exec (token_endpoint E p hs r) tr x -> no_raise tr ->
  exchange_request p r i c code uri v -> finds_client i c tr -> finds_code code ac tr ->
  (ac_method ac = lit "plain" \/ ac_method ac = lit "S256" /\ Forall (fun c => c < 128) v) -> ac_exp ac = Naive T ->
  (ac_redirect ac <> uri \/ ac_client ac <> cl_id c \/ ~ pkce_ok (e_sha256 E) (ac_method ac) (ac_challenge ac) v \/ late T tr) ->
  exists z, x = V z /\ error_answer z "invalid_grant".
Proof.
  intros Hb H Hn Hq F1 F2 Hm Hexp Hbad. assert (Huri : In uri (cl_redirects c)) by (destruct Hq; tauto).
  destruct (code_enter _ _ _ _ _ _ _ _ _ _ H Hn Hq F1) as (oc & t2 & w & -> & Hn2 & Hw & ->).
  assert (Eo : V oc = V (Some ac)) by (apply F2; right; left; reflexivity). injection Eo as ->.
  assert (Hw' : exists d, w = X (OA {| oe_kind := InvalidGrant; oe_desc := Some (lit d); oe_uri := None; oe_state := None; oe_headers := [] |}) /\ forallb (fun c => c <? 128) (lit d) = true).
  2:{ destruct Hw' as (d & -> & Hd). apply answered; [discriminate|apply scalar_lit; auto|reflexivity]. }
  unfold validate_authorization_code in Hw. replace (ins uri (cl_redirects c)) with true in Hw by (symmetry; apply ins_In; auto). cbn [negb] in Hw.
  destruct (eqs_spec (cl_id c) (ac_client ac)) as [Hc|Hc]; cbn [negb] in Hw.
  2:{ apply exec_Ret in Hw as [-> ->]. eexists. split; reflexivity. }
  destruct (eqs_spec uri (ac_redirect ac)) as [Hu|Hu]; cbn [negb] in Hw.
  2:{ apply exec_Ret in Hw as [-> ->]. eexists. split; reflexivity. }
  destruct (pkce_decided ac v Hb Hm) as (f & b & Ef & Hf & Hbt). rewrite Ef, Hf in Hw. cbn [lift] in Hw. rewrite ret_forward in Hw.
  destruct b; cbn [negb] in Hw.
  2:{ apply exec_Ret in Hw as [-> ->]. eexists. split; reflexivity. }
  apply call_assoc in Hw. apply call_forward in Hw as ([now off] & t3 & -> & Hw & _); [|auto]. cbn [observe] in *. rewrite Hexp in Hw. cbn [expired lift] in Hw. rewrite ret_forward in Hw.
  destruct (Z.leb_spec T now) as [Hle|Hlt].
  - apply exec_Ret in Hw as [-> ->]. eexists. split; reflexivity.
  - exfalso. destruct Hbad as [B|[B|[B|B]]]; [congruence|congruence|apply B; auto|]. specialize (B now off). cut (T <= now)%Z; [lia|]. apply B. right. right. left. reflexivity.
Qed.
Lemma p_refresh_refused p hs r tr x i c t ot : exec (token_endpoint E p hs r) tr x -> no_raise tr ->
  In GRefresh (pv_grants p) -> In (lit "refresh_token") (cl_grants c) -> presents r i c ->
  data_has r "grant_type" (lit "refresh_token") -> data_has r "refresh_token" t -> t <> [] -> finds_client i c tr -> (forall y, In (OGetRT t y) tr -> y = V ot) ->
  exists z, match ot with
    | None => x = V z /\ error_answer z "invalid_request"
    | Some rt => (rt_client rt <> cl_id c -> x = V z /\ error_answer z "invalid_client") /\
        forall T, rt_client rt = cl_id c -> rt_exp rt = Naive T -> late T tr -> x = V z /\ error_answer z "invalid_request"
    end.
Proof.
  intros H Hn Hg Hgr Hp Hgt D1 N1 F1 F2. apply token_exec in H as (y & H & Hx).
  apply body_forward with (g := GRefresh) (i := i) (c := c) in H as (tr1 & z & -> & Hn1 & H & Hy); auto; [|left; reflexivity].
  cbn [grant_token] in H. unfold refresh_grant in H.
  assert (Hv : validate_refresh_request (dremove (lit "grant_type") (rq_data r)) = V (t, cc_scopes (dremove (lit "grant_type") (rq_data r)))).
  { unfold validate_refresh_request. rewrite (data_arg r "refresh_token" t D1 N1); [reflexivity|discriminate]. }
  rewrite Hv, ret_forward in H. cbv beta iota in H. apply call_forward in H as (o & t2 & -> & H & Hn2); [|auto]. cbn [observe] in *.
  assert (Eo : V o = V ot) by (apply F2; right; left; reflexivity). injection Eo as ->. subst y.
  destruct ot as [rt|].
  2:{ apply exec_Ret in H as [-> ->]. destruct (answered InvalidRequest (Some (lit "Invalid Refresh Token.")) [] "invalid_request") as (q & Hq & Ha); [discriminate|slit|reflexivity|].
      exists q. split; [rewrite Hx; exact Hq|auto]. }
  unfold validate_refresh_token in H. destruct (eqs_spec (rt_client rt) (cl_id c)) as [Hc|Hc]; cbn [negb] in H.
  - apply call_assoc in H. apply call_forward in H as ([now off] & t3 & -> & H & _); [|auto]. cbn [observe] in *.
    destruct (answered InvalidRequest (Some (lit "Refresh Token expired.")) [] "invalid_request") as (q & Hq & Ha); [discriminate|slit|reflexivity|].
    exists q. split; [contradiction|]. intros T _ Hexp Hl. rewrite Hexp in H. cbn [expired lift] in H. rewrite ret_forward in H.
    assert (Hle : (T <= now)%Z) by (apply (Hl now off); right; right; left; reflexivity). replace (T <=? now)%Z with true in H by (symmetry; apply Z.leb_le; auto).
    apply exec_Ret in H as [-> ->]. split; [rewrite Hx; exact Hq|auto].
  - apply exec_Ret in H as [-> ->]. destruct (answered InvalidClient None [] "invalid_client") as (q & Hq & Ha); [discriminate|exact I|reflexivity|].
    exists q. split; [|intros T E1; contradiction]. intros _. split; [rewrite Hx; exact Hq|auto].
Qed.

(** ** C88, C92: a failed Basic authentication *)
Definition basic_headers : pdict := [(lit "WWW-Authenticate", PStr (lit "Basic"))].
Lemma auth_denied r methods tr x i s oc : basic_header (rq_headers r) i s -> allowed_method methods (lit "client_secret_basic") ->
  exec (authenticate r methods) tr x -> no_raise tr -> (forall y, In (OFindClient i y) tr -> y = V oc) -> denied oc s ->
  tr = [OFindClient i (V oc)] /\ exists d, x = X (oerr InvalidClient (Some (lit d)) None basic_headers) /\ forallb (fun c => c <? 128) (lit d) = true /\ (oc = None -> d = "Client not found.") /\
    (forall c, oc = Some c -> cl_secret c <> Some s -> d = "Mismatching Client Secret.").
Proof.
  intros Hh Hm H Hn Hf Hd. apply basic_header_get in Hh as (Hg & Ni & Ns). unfold authenticate, auth_methods in H. cbn [authenticate_loop] in H.
  replace (_ && negb (ins (lit "client_secret_basic") methods)) with false in H.
  2:{ destruct Hm as [->|Hm]; [reflexivity|]. apply ins_In in Hm. rewrite Hm. symmetry. apply andb_false_r. }
  unfold auth_basic at 1 in H. rewrite Hg in H. destruct i as [|i0 i]; [congruence|]. destruct s as [|s0 s]; [congruence|].
  assert (Hin : forall t y, exec (do o <- Ret (lift (Ok (Some (i0 :: i, s0 :: s)))) ;;
     match o with Some ((_ :: _) as i', (_ :: _) as s') => do oc <- call (FindClient i') ;;
       match oc with None => throw (oerr InvalidClient (Some (lit "Client not found.")) None basic_headers)
       | Some c => if negb (eqo (cl_secret c) (Some s')) then throw (oerr InvalidClient (Some (lit "Mismatching Client Secret.")) None basic_headers)
         else if negb (eqs (cl_auth_method c) (lit "client_secret_basic")) then throw (oerr InvalidClient (Some (lit "This Client is not allowed to use the method ""client_secret_basic"".")) None basic_headers)
         else ret (Some c) end | _ => ret None end) t y -> no_raise t -> (forall y, In (OFindClient (i0 :: i) y) t -> y = V oc) ->
     t = [OFindClient (i0 :: i) (V oc)] /\ exists d, y = X (oerr InvalidClient (Some (lit d)) None basic_headers) /\ forallb (fun c => c <? 128) (lit d) = true /\ (oc = None -> d = "Client not found.") /\
       (forall c, oc = Some c -> cl_secret c <> Some (s0 :: s) -> d = "Mismatching Client Secret.")).
  { clear H Hn Hf. intros t y H Hn Hf. cbn [lift] in H. rewrite ret_forward in H. cbv beta iota in H. apply call_forward in H as (oc' & t2 & -> & H & _); [|auto]. cbn [observe] in *.
    assert (Eo : V oc' = V oc) by (apply Hf; left; reflexivity). injection Eo as ->.
    destruct oc as [c|].
    - cbn [denied] in Hd. destruct (eqo (cl_secret c) (Some (s0 :: s))) eqn:E1; cbn [negb] in H.
      + apply eqo_true in E1. destruct (eqs_spec (cl_auth_method c) (lit "client_secret_basic")) as [E2|E2]; cbn [negb] in H; [tauto|].
        apply exec_Ret in H as [-> ->]. split; [reflexivity|]. eexists. split; [reflexivity|]. split; [reflexivity|]. split; [discriminate|]. intros c' [= <-] Hs. congruence.
      + apply exec_Ret in H as [-> ->]. split; [reflexivity|]. eexists. split; [reflexivity|]. split; [reflexivity|]. split; [discriminate|]. reflexivity.
    - apply exec_Ret in H as [-> ->]. split; [reflexivity|]. eexists. split; [reflexivity|]. split; [reflexivity|]. split; [reflexivity|]. discriminate. }
  apply exec_pbind in H as [(a & t1 & t2 & -> & H1 & H) | (e & -> & H1)].
  - exfalso. apply no_raise_app in Hn as [Hn _]. destruct (Hin _ _ H1 Hn) as (_ & d & He & _); [intros y Hy; apply Hf, in_app_iff; auto|]. discriminate.
  - destruct (Hin _ _ H1 Hn Hf) as (-> & d & He & Hrest). split; [reflexivity|]. exists d. split; [congruence|auto].
Qed.
Lemma grant_basic g : allowed_method (grant_methods g) (lit "client_secret_basic").
Proof. destruct g; cbn; unfold allowed_method; cbn; auto. Qed.
Lemma denied_response p hs r tr x g i s oc : exec (token_endpoint E p hs r) tr x -> no_raise tr -> In g (pv_grants p) -> data_has r "grant_type" (grant_type g) ->
  basic_header (rq_headers r) i s -> (forall y, In (OFindClient i y) tr -> y = V oc) -> denied oc s ->
  exists d z, x = V z /\ token_error {| oe_kind := InvalidClient; oe_desc := Some (lit d); oe_uri := None; oe_state := None; oe_headers := basic_headers |} = V z /\
    (oc = None -> d = "Client not found.") /\ (forall c, oc = Some c -> cl_secret c <> Some s -> d = "Mismatching Client Secret.").
Proof.
  intros H Hn Hg Hgt Hh Hf Hd. apply token_exec in H as (y & H & Hx). unfold token_body in H.
  replace (match rq_data r with [] => oraise InvalidRequest (lit "Missing request parameters.") None | _ => V tt end) with (V tt) in H
    by (unfold data_has in Hgt; destruct (rq_data r); [discriminate|reflexivity]).
  rewrite ret_forward in H. unfold param in H. rewrite Hgt, (grant_found p g Hg), ret_forward in H.
  assert (Hy : exists d, y = X (oerr InvalidClient (Some (lit d)) None basic_headers) /\ forallb (fun c => c <? 128) (lit d) = true /\ (oc = None -> d = "Client not found.") /\
    (forall c, oc = Some c -> cl_secret c <> Some s -> d = "Mismatching Client Secret.")).
  { apply exec_pbind in H as [(a & t1 & t2 & -> & H1 & H) | (e & -> & H1)].
    - exfalso. apply no_raise_app in Hn as [Hn _]. destruct (auth_denied _ _ _ _ _ _ oc Hh (grant_basic g) H1 Hn) as (_ & d & He & _); auto; [|discriminate].
      intros y' Hy'. apply Hf, in_app_iff. auto.
    - destruct (auth_denied _ _ _ _ _ _ oc Hh (grant_basic g) H1 Hn) as (_ & d & He & Hr); auto. exists d. split; [congruence|auto]. }
  destruct Hy as (d & -> & Ha & Hd1 & Hd2). unfold oerr in Hx.
  destruct (error_sent InvalidClient (Some (lit d)) basic_headers) as (z & Hz & _); [discriminate|apply scalar_lit; auto|].
  exists d, z. split; [congruence|auto].
Qed.
Lemma p_basic_denied p hs r tr x g i s oc : exec (token_endpoint E p hs r) tr x -> no_raise tr -> In g (pv_grants p) -> data_has r "grant_type" (grant_type g) ->
  basic_header (rq_headers r) i s -> (forall y, In (OFindClient i y) tr -> y = V oc) -> denied oc s ->
  exists z, x = V z /\ error_answer z "invalid_client" /\ header_is z "WWW-Authenticate" "Basic" /\
    (oc = None -> described z "Client not found.") /\ (forall c, oc = Some c -> cl_secret c <> Some s -> described z "Mismatching Client Secret.").
Proof.
  intros H Hn Hg Hgt Hh Hf Hd. destruct (denied_response _ _ _ _ _ _ _ _ oc H Hn Hg Hgt Hh Hf Hd) as (d & z & -> & Ez & Hd1 & Hd2).
  unfold token_error in Ez. apply json_response_V in Ez as (H1 & H2 & H3); [|apply dump_wf].
  assert (Hdesc : described z d). { eexists. split; [exact H2|]. reflexivity. }
  exists z. split; [auto|]. split; [split; [auto|]; eexists; split; [exact H2|reflexivity]|].
  split; [unfold header_is; rewrite H3; reflexivity|]. split; [intros He; rewrite <- (Hd1 He); auto|]. intros c Hc Hs. rewrite <- (Hd2 c Hc Hs). auto.
Qed.
Lemma p_basic_denied_status p hs r tr x g i s oc : exec (token_endpoint E p hs r) tr x -> no_raise tr -> In g (pv_grants p) -> data_has r "grant_type" (grant_type g) ->
  basic_header (rq_headers r) i s -> (forall y, In (OFindClient i y) tr -> y = V oc) -> denied oc s -> exists z, x = V z /\ rs_status z = 400.
Proof. intros H1 H2 H3 H4 H5 H6 H7. destruct (p_basic_denied _ _ _ _ _ _ _ _ _ H1 H2 H3 H4 H5 H6 H7) as (z & -> & (Hs & _) & _). eauto. Qed.
Lemma p_basic_denied_same p hs r tr tr' x x' g i s c : exec (token_endpoint E p hs r) tr x -> exec (token_endpoint E p hs r) tr' x' -> no_raise tr -> no_raise tr' ->
  In g (pv_grants p) -> data_has r "grant_type" (grant_type g) -> basic_header (rq_headers r) i s ->
  finds_client i c tr -> cl_secret c <> Some s -> (forall y, In (OFindClient i y) tr' -> y = V None) ->
  exists z z' h, x = V z /\ x' = V z' /\ rs_status z = rs_status z' /\ error_answer z "invalid_client" /\ error_answer z' "invalid_client" /\ rs_headers z = h /\ rs_headers z' = h.
Proof.
  intros H H' Hn Hn' Hg Hgt Hb Hf Hs Hf'.
  destruct (denied_response _ _ _ _ _ _ _ _ (Some c) H Hn Hg Hgt Hb Hf (or_introl Hs)) as (d & z & -> & Hz & Hd).
  destruct (denied_response _ _ _ _ _ _ _ _ None H' Hn' Hg Hgt Hb Hf' I) as (d' & z' & -> & Hz' & Hd').
  unfold token_error in Hz, Hz'. apply json_response_V in Hz as (H1 & H2 & H3); [|apply dump_wf]. apply json_response_V in Hz' as (H1' & H2' & H3'); [|apply dump_wf].
  eexists z, z', _. split; [auto|]. split; [auto|]. split; [congruence|]. split; [split; [auto|]; eexists; split; [exact H2|reflexivity]|].
  split; [split; [auto|]; eexists; split; [exact H2'|reflexivity]|]. split; [exact H3|exact H3'].
Qed.

(** ** C90: a missing code_challenge_method *)
Lemma p_method_missing p hs r tr x code ad c u y : exec (authorization_endpoint E p hs r) tr x -> data_lacks r "code_challenge_method" -> ~ In (OSaveCode code ad c u y) tr.
Proof.
  intros H Hl Hin. apply authz_exec in H as (z & Hs & _).
  destruct Hs as [e He | e uri Hu Hd Hk Hll | e uri rt u' Hu Hd Hrt Hnot Hk Hll | u' uri cid tr e Hu Hd Hc Hrt Hg Hs | u' uri cid c' tr z Hu Hd Hc Hrt Hg Hreg Hresp Hs].
  - destruct Hin.
  - destruct Hin.
  - destruct Hin.
  - inversion Hs; subst; (destruct Hin as [Hin|[]]; discriminate).
  - assert (Hno : forall ad', valid_ad hs (dremove (lit "response_type") (rq_data r)) ad' -> False).
    { intros ad' (_ & _ & Hm & _). unfold param in Hm. rewrite lookup_dremove_other in Hm by discriminate. unfold data_lacks in Hl. congruence. }
    destruct Hin as [Hin|Hin]; [discriminate|]. destruct Hs; try (destruct (Hno _ ltac:(eassumption))); [destruct Hin|destruct Hin as [Hin|[]]; discriminate].
Qed.

(** ** C93: response headers *)
Definition clean (kv : str * pyval) : Prop := Forall (fun c => 33 <= c <= 126) (fst kv) /\ header_text (snd kv).
Definition clean_or_none (kv : str * pyval) : Prop := snd kv = PNone \/ clean kv.
Lemma dset_all (P : str * pyval -> Prop) k v d : P (k, v) -> Forall P d -> Forall P (dset k v d).
Proof.
  intros Hv. induction 1 as [|[a b] d Ha Hd IH]; cbn [dset]; [repeat constructor; auto|]. destruct (eqs_spec k a) as [->|]; constructor; auto.
Qed.
Lemma dupdate_all (P : str * pyval -> Prop) e : Forall P e -> forall d, Forall P d -> Forall P (dupdate d e).
Proof. unfold dupdate. induction 1 as [|[a b] e He Hr IH]; intros d Hd; cbn [fold_left fst snd]; [auto|]. apply IH, dset_all; auto. Qed.
Lemma parse_headers_clean v h : clean_or_none (lit "Content-Type", v) -> Forall clean h -> Forall clean (parse_headers v h).
Proof.
  intros Hv Hh. unfold parse_headers, FullDict, full. apply Forall_forall. intros kv Hin. apply filter_In in Hin as [Hin Hn].
  assert (Ha : Forall clean_or_none (dupdate [(lit "Content-Type", v)] h)) by (apply dupdate_all; [eapply Forall_impl; [|exact Hh]; intros; right; auto|constructor; [exact Hv|constructor]]).
  rewrite Forall_forall in Ha. destruct (Ha _ Hin) as [He|He]; [|auto]. rewrite He in Hn. discriminate.
Qed.
Definition txt (s : str) : bool := forallb (fun c => (32 <=? c) && (c <=? 126)) s.
Lemma header_lit s : txt s = true -> header_text (PStr s).
Proof. intros H. exists s. split; [auto|]. unfold txt in H. rewrite forallb_forall in H. apply Forall_forall. intros c Hc. apply H in Hc. lia. Qed.
Lemma name_lit s : forallb (fun c => (33 <=? c) && (c <=? 126)) s = true -> Forall (fun c => 33 <= c <= 126) s.
Proof. intros H. rewrite forallb_forall in H. apply Forall_forall. intros c Hc. apply H in Hc. lia. Qed.
Ltac clean_lit := split; [apply name_lit; reflexivity|apply header_lit; reflexivity].
Lemma json_clean st h v z : Forall clean h -> JSONResponse st h v = V z -> clean_headers z.
Proof.
  intros Hh H. unfold JSONResponse in H. destruct (lift _) as [b|]; [|discriminate]. cbn [vbind] in H. injection H as <-. unfold clean_headers. cbn [rs_headers].
  apply parse_headers_clean; [right; clean_lit|auto].
Qed.
Lemma redirect_clean url h z : Forall clean h -> RedirectResponse url h = V z -> clean_headers z.
Proof.
  intros Hh H. unfold RedirectResponse in H. destruct (location url) as [l|] eqn:El; [|discriminate]. cbn [lift vbind] in H. injection H as <-. unfold clean_headers. cbn [rs_headers full_setitem is_none].
  apply dset_all.
  - split; [apply name_lit; reflexivity|]. exists l. split; [auto|]. apply p_location in El. eapply Forall_impl; [|exact El]. cbv beta. lia.
  - apply parse_headers_clean; [left; reflexivity|auto].
Qed.
Lemma token_headers_clean : Forall clean token_headers. Proof. unfold token_headers. constructor; [clean_lit|]. constructor; [clean_lit|constructor]. Qed.
Lemma lib_clean e : oe_headers e = [] \/ oe_headers e = basic_headers -> Forall clean (oe_headers e).
Proof. intros [->| ->]; [constructor|]. constructor; [clean_lit|constructor]. Qed.
Lemma p_token_headers_clean p hs r tr z : exec (token_endpoint E p hs r) tr (V z) -> no_oauth_raise tr -> clean_headers z.
Proof.
  intros H Hno. apply token_exec in H as (y & Hy & Hx). destruct y as [y|[e|e]]; [| |discriminate].
  - injection Hx as <-. apply token_body_exec in Hy. inversion Hy as [| | |g i c tr' y' Hg Hgt Ha Hm Hin Hex E1 E2]. subst tr.
    destruct y' as [d|]; [|discriminate]. eapply json_clean; [apply token_headers_clean|exact E2].
  - symmetry in Hx. unfold token_error in Hx. eapply json_clean; [|exact Hx]. apply dupdate_all; [apply token_headers_clean|].
    destruct (token_headers_oa _ _ _ _ _ _ Hy) as [[Hh _]|Ho]; [apply lib_clean; auto|]. destruct (from_app_oauth _ _ Hno Ho).
Qed.
Lemma p_revocation_headers_clean r tr z : exec (revocation_endpoint r) tr (V (Some z)) -> no_oauth_raise tr -> clean_headers z.
Proof.
  intros H Hno. unfold revocation_endpoint in H. apply exec_pexcept in H as [(e & t1 & t2 & -> & H1 & H)|[H _]].
  - apply no_oauth_app in Hno as [Hno _]. apply exec_pbind in H as [(x & t3 & t4 & -> & H3 & H)|(e' & ? & _)]; [|discriminate].
    apply exec_Ret in H3 as [-> H3]. apply exec_Ret in H as [-> H]. injection H as <-. symmetry in H3. eapply json_clean; [|exact H3]. apply lib_clean.
    match type of H1 with exec ?q _ _ => assert (Ho : oa (fun e => oe_headers e = [] \/ oe_headers e = basic_headers) q) end.
    { apply oa_pbind; [eapply oa_weaken; [|apply authenticate_oa]; intros e' [Hh _]; exact Hh|]. intros c. cbv zeta. oa_go; try discriminate.
      - unfold oerr in H. injection H as <-. left. reflexivity. }
    destruct (Ho _ _ H1) as [Hh|Hf]; [exact Hh|]. destruct (from_app_oauth _ _ Hno Hf).
  - apply exec_pbind in H as [(c & t1 & t2 & -> & H1 & H)|(e & ? & _)]; [|discriminate]. destruct (arg "token" (form r)) as [t|]; [|apply exec_Ret in H as [_ H]; discriminate].
    assert (Hr : forall tr', exec (do _ <- call (RevokeToken c t (param "token_type_hint" (form r))) ;; do x <- Ret (JSONResponse 200 [] PNone) ;; ret (Some x)) tr' (V (Some z)) -> clean_headers z).
    { intros tr' Hq. apply exec_pbind in Hq as [(? & ? & ? & _ & _ & Hq)|(? & ? & _)]; [|discriminate]. apply exec_pbind in Hq as [(w & ? & ? & _ & Hw & Hq)|(? & ? & _)]; [|discriminate].
      apply exec_Ret in Hw as [_ Hw]. apply exec_Ret in Hq as [_ Hq]. injection Hq as <-. symmetry in Hw. eapply json_clean; [|exact Hw]. constructor. }
    destruct (arg "token_type_hint" (form r)) as [h|]; [destruct (negb _); [apply exec_Ret in H as [_ H]; discriminate|]|]; eauto.
Qed.
Lemma error_redirect_clean cfg d e z : oe_headers e = [] -> error_redirect cfg d e = V z -> clean_headers z.
Proof.
  intros He H. unfold error_redirect in H. rewrite He in H.
  assert (Hu : forall uri, (let? url := lift (urlencode uri (dump e)) in RedirectResponse url []) = V z -> clean_headers z).
  { intros uri Hz. destruct (urlencode uri (dump e)) as [url|]; [|discriminate]. cbn [lift vbind] in Hz. eapply redirect_clean; [|exact Hz]. constructor. }
  destruct (oe_kind e); try (eapply Hu; exact H); destruct (param "redirect_uri" d); try discriminate; eapply Hu; exact H.
Qed.
Lemma p_authorization_headers_clean p hs r tr z : exec (authorization_endpoint E p hs r) tr (V z) -> no_oauth_raise tr -> clean_headers z.
Proof.
  intros H Hno. apply authz_exec in H as (y & Hs & Hx).
  assert (Hl : forall s e, lib_error s e -> V z = error_redirect (pv_config p) (rq_data r) e -> clean_headers z).
  { intros s e [He _] Hz. symmetry in Hz. eapply error_redirect_clean; eauto. }
  assert (Hr : forall o e, In o tr -> raised o = Some (OA e) -> clean_headers z) by (intros o e Ho He; destruct (Hno o e Ho He)).
  destruct Hs as [e [_ He] | e uri Hu Hd Hk He | e uri rt u' Hu Hd Hrt Hnot Hk He | u' uri cid tr e Hu Hd Hc Hrt Hg Hs | u' uri cid c' tr y Hu Hd Hc Hrt Hg Hreg Hresp Hs]; [eauto|eauto|eauto| |].
  - inversion Hs as [e0 Et Ee | e0 [_ He] Et Ee | c e0 [_ He] Hn Et Ee | c e0 Hk He H1 H2 Et Ee |]; subst; [|eauto|eauto|eauto].
    destruct e as [e|e]; [|discriminate]. eapply Hr; [left; reflexivity|reflexivity].
  - destruct Hs as [e He Hk | e | ad code e Hv H1 H2 | ad code Hv H1 H2]; cbv iota in Hx.
    + eauto.
    + destruct e as [e|e]; [|discriminate]. eapply Hr; [right; left; reflexivity|reflexivity].
    + destruct e as [e|e]; [|discriminate]. eapply Hr; [right; right; left; reflexivity|reflexivity].
    + destruct (authorization_response (ad_redirect ad) code (ad_state ad)) as [url|e] eqn:Er.
      * destruct (RedirectResponse url []) as [w|[e|e]] eqn:Ew; [| |discriminate].
        -- injection Hx as ->. eapply redirect_clean; [|exact Ew]. constructor.
        -- unfold RedirectResponse in Ew. destruct (location url); cbn [lift vbind] in Ew; discriminate.
      * unfold authorization_response in Er. destruct (urlencode _ _); cbn [lift vbind] in Er; [discriminate|]. injection Er as <-. discriminate.
Qed.
Lemma p_consent_headers_clean p r tr z : exec (get_consent_data p r) tr (V (ConsentRedirect z)) -> no_oauth_raise tr -> clean_headers z.
Proof.
  intros H Hno. apply consent_exec in H as (y & Hs & Hx).
  assert (Hl : forall s e, lib_error s e -> V (ConsentRedirect z) = match error_redirect (pv_config p) (rq_data r) e with V z => V (ConsentRedirect z) | X e => X e end -> clean_headers z).
  { intros s e [He _] Hz. destruct (error_redirect _ _ e) as [w|] eqn:Ew; [|discriminate]. injection Hz as ->. eapply error_redirect_clean; eauto. }
  destruct Hs as [e [_ He] | uri cid rt tr e Hu Hc Hrt Hs | uri cid rt c e Hu Hc Hrt H1 H2 H3 Hk He | uri cid rt c s Hu Hc Hrt H1 H2 H3 H4]; [eauto| |eauto|discriminate].
  inversion Hs as [e0 Et Ee | e0 [_ He] Et Ee | c e0 [_ He] Hn Et Ee | c e0 Hk He H1 H2 Et Ee |]; subst; [|eauto|eauto|eauto].
  destruct e as [e|e]; [|discriminate]. destruct (Hno (OFindClient cid (X (OA e))) e); [left; reflexivity|reflexivity].
Qed.

(** ** C89: verifiers of plain challenges *)
Lemma p_plain_verifier p p' hs hs' r r' tr tr' x x' code ad c u y ac o : (forall b, bytes_ok (e_sha256 E b)) ->
  exec (authorization_endpoint E p hs r) tr x -> In (OSaveCode code ad c u y) tr -> holds ac ad c u -> ad_method ad = lit "plain" ->
  exec (token_endpoint E p' hs' r') tr' x' -> data_has r' "grant_type" (lit "authorization_code") -> data_has r' "code" code ->
  (forall y, In (OGetCode code y) tr' -> y = V (Some ac)) -> In o tr' -> creates_at o = true \/ creates_rt o = true ->
  exists v, data_has r' "code_verifier" v /\ (43 <= length v <= 128)%nat.
Proof.
  intros Hb H Hin Hh Hm Ht Hgt Hc Hf Ho Hk. destruct (p_saved_challenge _ _ _ _ _ _ _ _ _ _ _ H Hin) as (_ & Hlen & _).
  destruct (p_pkce _ _ _ _ _ _ _ Hb Ht Hgt Ho Hk) as (code' & ac' & v & Hc' & Hg & Hv & Hp).
  assert (Ec : code' = code) by (unfold data_has in *; congruence). subst code'. apply Hf in Hg. injection Hg as ->.
  exists v. split; [auto|]. destruct Hh as (_ & _ & _ & _ & Hch & Hme). destruct Hp as [[_ Hp]|(Hp & _)]; [rewrite <- Hp, Hch; auto|].
  exfalso. rewrite Hme, Hm in Hp. discriminate.
Qed.

(** ** C91: who uses up a code *)
Lemma p_code_burnt p hs r tr x code y : exec (token_endpoint E p hs r) tr x -> In (ODeleteCode code y) tr ->
  data_has r "grant_type" (lit "authorization_code") /\ data_has r "code" code /\ In GCode (pv_grants p) /\
  exists i c, In (OFindClient i (V (Some c))) tr /\ authenticates r i c /\ In (lit "authorization_code") (cl_grants c).
Proof.
  intros H Hin. apply token_exec in H as (z & H & _). apply token_body_exec in H.
  destruct H as [e He Hk | g tr e Hg Hd H | g i c Hg Hd Ha Hm Hn | g i c tr z Hg Hd Ha Hm Hn H].
  - destruct Hin.
  - exfalso. apply authenticate_trace in H. rewrite Forall_forall in H. destruct (H _ Hin) as (i & w & ?). discriminate.
  - exfalso. destruct Hin as [Hin|[]]. discriminate.
  - destruct Hin as [Hin|Hin]; [discriminate|]. destruct g; cbn [grant_token grant_type] in *.
    + split; [auto|]. split; [|split; [auto|exists i, c; split; [left; reflexivity|auto]]].
      apply code_token_exec in H as (t1 & w & Hw & [(_ & -> & _)|(code' & q & Hc & -> & _)]).
      * destruct (exchange_no_delete _ _ _ _ _ _ _ Hw _ _ Hin).
      * apply in_app_iff in Hin as [Hin|[Hin|[]]]; [destruct (exchange_no_delete _ _ _ _ _ _ _ Hw _ _ Hin)|]. injection Hin as <- <-.
        unfold param in Hc. rewrite lookup_dremove_other in Hc by discriminate. auto.
    + exfalso. apply cc_exec in H as [[-> _]|(_ & w & -> & _)]; [destruct Hin|destruct Hin as [Hin|[]]; discriminate].
    + exfalso. apply refresh_exec in H as [[Hq _] | (token & t & sc & ou & t2 & (_ & _ & _ & now & off & dd & -> & _) & Hs)].
      * rewrite Forall_forall in Hq. exact (Hq _ Hin).
      * destruct Hin as [Hin|[Hin|[Hin|Hin]]]; try discriminate.
        destruct Hs as [(e & -> & _) | (a & [(e & -> & _) | (rt & t3 & -> & Ht & _)])].
        -- destruct Hin as [Hin|[]]. discriminate.
        -- destruct Hin as [Hin|[Hin|[]]]; discriminate.
        -- destruct Hin as [Hin|Hin]; [discriminate|]. destruct (ins _ _); [subst t3; destruct Hin as [Hin|[]]; discriminate|destruct Ht as [-> _]; destruct Hin].
Qed.
End WithEnv.

(** ** C86: the last value counts, the body before the URL. *)
Lemma last_of_two {V} k (a b : list (str * V)) : match lookup k (dict_of b) with Some v => Some v | None => lookup k (dict_of a) end = lookup k (rev (a ++ b)).
Proof.
  unfold dict_of. rewrite !lookup_dupdate, rev_app_distr, lookup_app. cbn [lookup]. destruct (lookup k (rev b)); [reflexivity|]. destruct (lookup k (rev a)); reflexivity.
Qed.
Lemma p_last_value m u items1 items2 h usr :
  url_clean u -> bad_netloc u = false -> lower m = lit "get" \/ lower m = lit "post" ->
  Forall (fun kv => scalar_str (fst kv) /\ scalar_str (snd kv) /\ snd kv <> []) items1 ->
  Forall (fun kv => scalar_str (fst kv) /\ scalar_str (snd kv) /\ snd kv <> []) items2 ->
  exists q1 q2 r, urlencode_ items1 = Ok q1 /\ urlencode_ items2 = Ok q2 /\
    make_request m (u ++ 63 :: q1) h (Some q2) usr = Ok r /\
    forall k, lookup k (rq_data r) = lookup k (rev (items1 ++ items2)).
Proof.
  intros Hu Hb Hm F1 F2.
  destruct (urlencode_items_ok items1) as [l1 L1]. { eapply Forall_impl; [|exact F1]; cbv beta; tauto. }
  destruct (urlencode_items_ok items2) as [l2 L2]. { eapply Forall_impl; [|exact F2]; cbv beta; tauto. }
  assert (E1 : urlencode_ items1 = Ok (join [38] l1)) by (unfold urlencode_; rewrite L1; auto).
  assert (E2 : urlencode_ items2 = Ok (join [38] l2)) by (unfold urlencode_; rewrite L2; auto).
  set (q1 := join [38] l1) in *. set (q2 := join [38] l2) in *. clearbody q1 q2. clear L1 L2.
  assert (D1 : parse_qsl q1 = items1) by (eapply parse_qsl_urlencode; [exact E1|eapply Forall_impl; [|exact F1]; cbv beta; tauto]).
  assert (D2 : parse_qsl q2 = items2) by (eapply parse_qsl_urlencode; [exact E2|eapply Forall_impl; [|exact F2]; cbv beta; tauto]).
  pose proof (urlencode_chars _ _ E1) as C1. pose proof (urlencode_chars _ _ E2) as C2.
  assert (Hc : clean_url (u ++ 63 :: q1) = u ++ 63 :: q1).
  { apply clean_id. apply Forall_app. split; [eapply Forall_impl; [|exact Hu]; cbv beta; tauto|].
    constructor; [lia|]. eapply Forall_impl; [|exact C1]. intros c Hc. apply quoted_gt in Hc. lia. }
  assert (Hq : url_query (u ++ 63 :: q1) = q1).
  { unfold url_query, url_nofrag.
    assert (Hn : split1 35 (u ++ 63 :: q1) = None).
    { apply split1_none. intros Hin. apply in_app_iff in Hin as [Hin|[Hin|Hin]]; [|discriminate|].
      - unfold url_clean in Hu. rewrite Forall_forall in Hu. apply Hu in Hin. lia.
      - rewrite Forall_forall in C1. apply C1 in Hin. apply quoted_gt in Hin. lia. }
    rewrite Hn, split1_app; [auto|]. intros Hin. unfold url_clean in Hu. rewrite Forall_forall in Hu. apply Hu in Hin. lia. }
  assert (Hs : to_string q2 = q2).
  { apply to_string_ascii. eapply Forall_impl; [|exact C2]. intros c Hx. apply quoted_gt in Hx. lia. }
  destruct (proj2 (make_request_ok m (u ++ 63 :: q1) h (Some q2) usr)) as [r Hr].
  { rewrite Hc, bad_netloc_app; [auto|]. intros Hin. rewrite Forall_forall in C1. apply C1 in Hin. discriminate. }
  exists q1, q2, r. split; [auto|]. split; [auto|]. split; [auto|]. intros k.
  rewrite (data_lookup _ _ _ _ _ _ _ Hr). rewrite Hc, Hq. unfold form_of. rewrite Hs. unfold urldecode. unfold str, bytes in *. rewrite D1, D2. apply last_of_two.
Qed.
