(** Lemmas about the characters of error descriptions. *)
From Coq Require Import String Ascii List NArith ZArith Bool Arith Lia.
From Verif Require Import Base BaseFacts Utf8 Utf8Facts SpecCodec SpecWeb Json Url UrlFacts Webtools WebtoolsFacts Crypto Jwk Prog ProgFacts Http OAuth OAuthFacts RequestFacts SpecOAuth ResponseFacts SpecHistory SpecFlow GrantFacts IssueFacts EndpointFacts AuthzFacts Example ExampleFacts HistoryFacts StoreFacts LineageFacts RaiseFacts App SpecApp AppFacts SpecLife LifeFacts ReaderFacts JwsFacts.
Import ListNotations.
Open Scope N_scope.

(** The description of an error that the program raises has [D], unless the application raised it. *)
Definition desc_ok (D : str -> Prop) (e : oauth_error) : Prop := forall d, oe_desc e = Some d -> D d.
Definition res_ok {A} (D : str -> Prop) (x : res A) : Prop := forall e, x = X (OA e) -> desc_ok D e.
Definition descs {A} (D : str -> Prop) (p : prog A) : Prop := forall tr x, exec p tr x -> no_oauth_raise tr -> res_ok D x.

Lemma no_oauth_app t1 t2 : no_oauth_raise (t1 ++ t2) -> no_oauth_raise t1 /\ no_oauth_raise t2.
Proof. unfold no_oauth_raise. split; intros o e Ho; apply H; apply in_app_iff; auto. Qed.
Lemma descs_bind {A B} D (p : prog A) (f : A -> prog B) : descs D p -> (forall a, descs D (f a)) -> descs D (pbind p f).
Proof.
  intros Hp Hf tr x H Hr. apply exec_pbind in H as [(a & t1 & t2 & -> & H1 & H2)|(e & -> & H1)].
  - apply no_oauth_app in Hr as [_ Hr]. eapply Hf; eauto.
  - intros e' He. injection He as ->. exact (Hp _ _ H1 Hr _ eq_refl).
Qed.
Lemma descs_ret {A} D (x : res A) : res_ok D x -> descs D (Ret x).
Proof. intros H tr y Hy _. apply exec_Ret in Hy as [_ ->]. auto. Qed.
Lemma descs_bind_ret {A B} D (x : res A) (f : A -> prog B) : res_ok D x -> (forall a, x = V a -> descs D (f a)) -> descs D (pbind (Ret x) f).
Proof.
  intros Hp Hf tr y H Hr. apply exec_pbind in H as [(a & t1 & t2 & -> & H1 & H2)|(e & -> & H1)]; apply exec_Ret in H1 as [-> H1].
  - eapply Hf; [symmetry; exact H1|exact H2|exact Hr].
  - intros e' He. injection He as ->. apply Hp. auto.
Qed.
Lemma descs_call {T} D (e : eff T) : descs D (call e).
Proof.
  intros tr x H Hr e0 ->. apply exec_call in H as ->. exfalso. apply (Hr (observe e (X (OA e0))) e0); [left; reflexivity|]. destruct e; reflexivity.
Qed.
Lemma descs_finally {A} D (p : prog A) d : descs D p -> descs D d -> descs D (pfinally p d).
Proof.
  intros Hp Hd tr x H Hr. unfold pfinally in H. apply exec_ptry in H as (y & t1 & t2 & -> & H1 & H2). apply no_oauth_app in Hr as [R1 Hr].
  apply exec_ptry in H2 as (z & t3 & t4 & -> & H2 & H3). apply no_oauth_app in Hr as [R3 R4].
  destruct z as [[]|e0]; apply exec_Ret in H3 as [_ ->]; [eapply Hp; eauto|]. intros e He. injection He as ->. exact (Hd _ _ H2 R3 _ eq_refl).
Qed.
Lemma res_V {A} D (a : A) : res_ok D (V a).
Proof. intros e H. discriminate. Qed.
Lemma res_Py {A} D e : @res_ok A D (X (Py e)).
Proof. intros e' H. discriminate. Qed.
Lemma res_lift {A} D (x : result A) : res_ok D (lift x).
Proof. intros e' H. destruct x; discriminate. Qed.
Lemma res_none {A} D k st hd : @res_ok A D (X (oerr k None st hd)).
Proof. intros e' H. injection H as <-. intros d H. discriminate. Qed.
Lemma res_desc {A} (D : str -> Prop) k d st hd : D d -> @res_ok A D (X (oerr k (Some d) st hd)).
Proof. intros Hd e' H. injection H as <-. intros d' H. injection H as <-. auto. Qed.
Lemma res_vbind {A B} D (x : res A) (f : A -> res B) : res_ok D x -> (forall a, x = V a -> res_ok D (f a)) -> res_ok D (vbind x f).
Proof. intros Hx Hf. destruct x as [a|e]; cbn [vbind]; [auto|]. intros e' H. injection H as ->. apply Hx. auto. Qed.
Lemma descs_mono {A} (D D' : str -> Prop) (p : prog A) : (forall d, D d -> D' d) -> descs D p -> descs D' p.
Proof. intros HD Hp tr x H Hr e He d Hd. apply HD. eapply Hp; eauto. Qed.

(** ** The characters *)
Definition safe (P : N -> Prop) (d : str) : Prop := Forall (fun c => description_char c \/ c = 34 \/ P c) d.
Definition safeb (d : str) : bool := forallb (fun c => (32 <=? c) && (c <=? 126) && negb (c =? 92)) d.
Lemma safeb_ok (P : N -> Prop) d : safeb d = true -> safe P d.
Proof.
  unfold safeb, safe. rewrite forallb_forall, Forall_forall. intros H c Hc. apply H in Hc. rewrite !andb_true_iff, !N.leb_le, negb_true_iff, N.eqb_neq in Hc.
  unfold description_char. lia.
Qed.
Ltac fixed := apply safeb_ok; vm_compute; reflexivity.
Lemma safe_quote (P : N -> Prop) a t b : safeb a = true -> (forall c, In c t -> P c) -> safeb b = true -> safe P (a ++ t ++ b).
Proof.
  intros Ha Ht Hb. unfold safe. apply Forall_app. split; [apply (safeb_ok P); auto|]. apply Forall_app. split; [|apply (safeb_ok P); auto].
  apply Forall_forall. intros c Hc. auto.
Qed.
Ltac quoted := apply safe_quote; [vm_compute; reflexivity| |vm_compute; reflexivity].
Ltac ok1 := lazymatch goal with
  | |- descs _ (pbind (Ret _) _) => apply descs_bind_ret; [|intros ? ?]
  | |- descs _ (pbind _ _) => apply descs_bind; [|intros ?]
  | |- descs _ (call _) => apply descs_call
  | |- descs _ (ret _) => apply descs_ret
  | |- descs _ (throw _) => apply descs_ret
  | |- descs _ (Ret _) => apply descs_ret
  | |- descs _ (if _ then _ else _) => match goal with |- descs _ (if ?b then _ else _) => destruct b end
  | |- descs _ (let '(_, _) := ?p in _) => destruct p
  | |- descs _ (match ?p with _ => _ end) => destruct p
  | |- res_ok _ (V _) => apply res_V
  | |- res_ok _ (lift _) => apply res_lift
  | |- res_ok _ (X (Py _)) => apply res_Py
  | |- res_ok _ (X (oerr _ None _ _)) => apply res_none
  | |- res_ok _ (X (oerr _ (Some _) _ _)) => apply res_desc
  | |- res_ok _ (oraise _ _ _) => apply res_desc
  | |- res_ok _ (fatal _) => apply res_desc
  | |- res_ok _ (vbind _ _) => apply res_vbind; [|intros ? ?]
  | |- res_ok _ (if ?b then _ else _) => destruct b
  | |- res_ok _ (match ?p with _ => _ end) => destruct p
  end.
Ltac ok := repeat ok1; try fixed.

Section Params.
Variable P : N -> Prop.
Notation D := (safe P).

Lemma res_response st hd v : res_ok D (JSONResponse st hd v).
Proof. unfold JSONResponse. ok. Qed.
Lemma res_redirect url hd : res_ok D (RedirectResponse url hd).
Proof. unfold RedirectResponse. ok. Qed.

(** ** The functions *)
Lemma d_basic r : descs D (auth_basic r).
Proof. unfold auth_basic. ok. Qed.
Lemma d_post r : descs D (auth_post r).
Proof. unfold auth_post. ok. Qed.
Lemma d_none r : descs D (auth_none r).
Proof. unfold auth_none. ok. Qed.
Lemma d_authenticate r ms : descs D (authenticate r ms).
Proof.
  unfold authenticate. assert (H : forall l, (forall n m, In (n, m) l -> descs D (m r)) -> descs D (authenticate_loop l ms r)).
  { induction l as [|[n m] l IH]; intros Hl; cbn [authenticate_loop]; [ok|]. destruct (_ && _); [apply IH; intros n' m' H; apply (Hl n' m'); right; auto|].
    apply descs_bind; [apply (Hl n m); left; auto|]. intros [c|]; [ok|]. apply IH. intros n' m' H. apply (Hl n' m'). right. auto. }
  apply H. intros n m [[= <- <-]|[[= <- <-]|[[= <- <-]|[]]]]; [apply d_basic|apply d_post|apply d_none].
Qed.
Definition sent_chars (data : params) : Prop := forall k v c, In (k, v) data -> In c v -> P c.
Lemma arg_sent data k v : sent_chars data -> arg k data = Some v -> forall c, In c v -> P c.
Proof. intros Hs Ha c Hc. apply arg_Some in Ha as [Ha _]. apply lookup_In in Ha. eapply Hs; eauto. Qed.
Lemma words_sent s w c : In w (words s) -> In c w -> In c s.
Proof. intros Hw Hc. apply words_In in Hw as (_ & _ & a & b & -> & _). rewrite !in_app_iff. auto. Qed.
Lemma dremove_sent data k : sent_chars data -> sent_chars (dremove k data).
Proof. intros H k' v c Hi Hc. unfold dremove in Hi. apply filter_In in Hi as [Hi _]. eapply H; eauto. Qed.
Lemma d_supported cfg st l : (forall s c, In s l -> In c s -> P c) -> res_ok D (check_supported cfg l st).
Proof.
  induction l as [|s l IH]; intros Hl; cbn [check_supported]; [ok|]. destruct (ins _ _); [apply IH; intros; eapply Hl; [right|]; eauto|].
  apply res_desc. quoted. intros c Hc. apply (Hl s c); [left; auto|auto].
Qed.
Lemma d_scopes cfg l c st : (forall m s x, l = Some m -> In s m -> In x s -> P x) -> res_ok D (validate_requested_scopes cfg l c st).
Proof. intros Hl. unfold validate_requested_scopes. destruct l as [m|]; [|ok]. apply res_vbind; [apply d_supported; intros; eapply Hl; eauto|]. intros. ok. Qed.
Lemma d_cc_scopes data : sent_chars data -> forall m s x, cc_scopes data = Some m -> In s m -> In x s -> P x.
Proof. intros Hs m s x Hm Hi Hx. unfold cc_scopes in Hm. destruct (arg "scope" data) as [v|] eqn:Ea; [|discriminate]. injection Hm as <-. eapply arg_sent; [exact Hs|exact Ea|]. eapply words_sent; eauto. Qed.
Lemma d_hooks E l : forall t c u, descs D (run_token_hooks E l t c u).
Proof.
  induction l as [|h l IH]; intros t c u; cbn [run_token_hooks]; [ok|]. apply descs_bind; [|intros; apply IH].
  unfold oidc_token_response. destruct (lookup _ _) as [[]|]; ok. unfold generate_id_token. ok.
Qed.
Lemma d_code_token E cfg hs data c : descs D (code_token E cfg hs data c).
Proof.
  unfold code_token. apply descs_finally; [|ok]. unfold code_exchange. apply descs_bind_ret; [unfold validate_code_request; ok|]. intros [[code uri] v] _.
  apply descs_bind; [ok|]. intros [ac|]; [|ok]. apply descs_bind; [unfold validate_authorization_code; ok|]. intros _. apply descs_bind; [ok|]. intros [u|]; [|ok].
  apply descs_bind; [ok|]. intros at_. apply descs_bind; [unfold maybe_refresh; ok|]. intros rt. apply d_hooks.
Qed.
Lemma d_grant E cfg hs g data c : sent_chars data -> descs D (grant_token E cfg hs g data c).
Proof.
  intros Hs. destruct g; cbn [grant_token]; [apply d_code_token| |].
  - unfold cc_token. apply descs_bind_ret; [apply d_scopes, d_cc_scopes; auto|]. intros. ok.
  - unfold refresh_grant. apply descs_bind_ret; [unfold validate_refresh_request; ok|]. intros [t req] Hreq. apply descs_bind; [ok|]. intros [rt|]; [|ok].
    apply descs_bind; [unfold validate_refresh_token; ok|]. intros _. apply descs_bind_ret.
    + unfold validate_refresh_scopes. apply res_vbind; [|intros; ok]. apply d_scopes. intros m s x -> Hi Hx. unfold validate_refresh_request in Hreq. destruct (arg "refresh_token" data); [|discriminate].
      injection Hreq as _ Hreq. eapply d_cc_scopes; eauto.
    + intros sc _. apply descs_bind; [ok|]. intros ou. apply descs_bind; [ok|]. intros at_. apply descs_bind; [unfold maybe_refresh; ok|]. intros. ok.
Qed.
Lemma d_token E p hs r : sent_chars (rq_data r) -> descs D (token_body E p hs r).
Proof.
  intros Hs. unfold token_body. apply descs_bind_ret; [ok|]. intros [] _. apply descs_bind_ret.
  - unfold validate_grant_type. destruct (param "grant_type" (rq_data r)) as [t|] eqn:Eg; [|ok]. destruct t as [|a t]; [ok|]. destruct (find _ _); [ok|]. apply res_desc. quoted.
    intros c Hc. eapply Hs; [apply lookup_In; exact Eg|exact Hc].
  - intros g _. apply descs_bind; [apply d_authenticate|]. intros c. destruct (negb _); [ok|]. apply descs_bind; [apply d_grant, dremove_sent; auto|]. intros t. apply descs_ret, res_response.
Qed.
Lemma d_client cid uri rt st : descs D (validate_client cid uri rt st).
Proof. unfold validate_client. ok. Qed.
Lemma d_authz E p hs r : sent_chars (rq_data r) -> descs D (authz_body E p hs r).
Proof.
  intros Hs. unfold authz_body. apply descs_bind_ret; [unfold validate_request; ok|]. intros [[uri cid] rt] Hv. destruct (rq_user r) as [u|]; [|ok]. apply descs_bind_ret.
  - unfold validate_response_type. destruct (find _ _); [ok|]. apply res_desc. quoted. apply validate_request_V in Hv as (_ & _ & Hv). eapply arg_sent; eauto.
  - intros g _. apply descs_bind; [apply d_client|]. intros c. apply descs_bind; [|intros url; apply descs_ret, res_redirect]. destruct g; cbn [grant_authorize]; [|ok|ok].
    assert (Hs' : sent_chars (dremove (lit "response_type") (rq_data r))) by (apply dremove_sent; auto). set (data := dremove _ _) in *.
    unfold authorize. apply descs_bind_ret.
    + unfold validate_authorization_request. destruct (arg "code_challenge" data) as [ch|]; [|ok]. destruct (_ || _)%bool; [ok|].
      destruct (param "code_challenge_method" data) as [m|] eqn:Em.
      * destruct (challenges E m); [ok|]. apply res_desc. quoted. intros x Hx. eapply Hs'; [apply lookup_In; exact Em|exact Hx].
      * ok.
    + intros ad Had. apply descs_bind_ret; [|intros; unfold authorization_response; ok]. apply d_scopes. intros m s x Hm Hi Hx. injection Hm as <-.
      unfold validate_authorization_request in Had. destruct (arg "code_challenge" data) as [ch|]; [|discriminate]. destruct (_ || _)%bool; [discriminate|].
      destruct (match param "code_challenge_method" data with Some m => challenges E m | None => None end); [|discriminate].
      destruct (arg "scope" data) as [sc|] eqn:Es; [|discriminate]. destruct (param "redirect_uri" data); [|discriminate]. injection Had as <-. cbn in Hi.
      eapply arg_sent; [exact Hs'|exact Es|]. eapply words_sent; eauto.
Qed.
End Params.

(** ** The endpoints *)
Lemma all_sent r : sent_chars (sent_char r) (rq_data r).
Proof. intros k v c H1 H2. exists k, v. auto. Qed.
Lemma json_same x d d' : json_body x d -> json_body x d' -> d = d'.
Proof.
  intros (t & H & _ & J) (t' & H' & _ & J'). apply utf8_dec_rfc in H, H'. assert (t = t') as <- by congruence.
  apply loads_complete in J, J'. congruence.
Qed.
Lemma dump_desc e v : lookup (lit "error_description") (dump e) = Some v -> exists d, v = PStr d /\ oe_desc e = Some d.
Proof.
  unfold dump. destruct e as [k d u s h]. cbn [oe_kind oe_desc oe_uri oe_state]. destruct d as [d|]; [|destruct u, s; cbn; discriminate].
  intros H. exists d. split; [|auto]. assert (H' : Some (PStr d) = Some v) by (destruct u, s; exact H). congruence.
Qed.
Lemma p_token_descriptions E p hs r tr z d v : exec (token_endpoint E p hs r) tr (V z) -> no_oauth_raise tr -> rs_status z = 400 -> json_body z d -> lookup (lit "error_description") d = Some v ->
  exists desc, v = PStr desc /\ Forall (fun c => description_char c \/ c = 34 \/ sent_char r c) desc.
Proof.
  intros H Hr Hst Hj Hl. apply token_exec in H as (y & Hb & Hx). destruct y as [y|[e|e]].
  - injection Hx as <-. exfalso. apply token_body_exec in Hb. inversion Hb as [| | |g i c tr' y' Hg Hgt Ha Hm Hin Hex E1 E2]. destruct y' as [d'|]; [|discriminate].
    apply grant_dict in Hex as (a & ow & sc & Hc & Hw & _). apply json_response_V in E2 as (Hs & _); [congruence|auto].
  - symmetry in Hx. unfold token_error in Hx. apply json_response_V in Hx as (_ & H2 & _); [|apply dump_wf]. rewrite (json_same _ _ _ Hj H2) in Hl.
    apply dump_desc in Hl as (desc & -> & Hd). exists desc. split; [auto|]. exact (d_token _ _ _ _ _ (all_sent r) _ _ Hb Hr _ eq_refl _ Hd).
  - discriminate.
Qed.
Lemma p_revocation_descriptions r tr z d v : exec (revocation_endpoint r) tr (V (Some z)) -> no_oauth_raise tr -> rs_status z <> 200 -> json_body z d -> lookup (lit "error_description") d = Some v ->
  exists desc, v = PStr desc /\ Forall (fun c => description_char c \/ c = 34) desc.
Proof.
  intros H Hr Hst Hj Hl. apply revocation_exec in H as (y & Hs & Hx).
  assert (Hgo : forall e, V (Some z) = revoke_error e -> desc_ok (safe (fun _ => False)) e -> exists desc, v = PStr desc /\ Forall (fun c => description_char c \/ c = 34) desc).
  { intros e He Hd. unfold revoke_error in He. destruct (JSONResponse _ _ _) as [z'|] eqn:Ej; [|discriminate]. injection He as <-. apply json_response_V in Ej as (_ & H2 & _); [|apply dump_wf].
    rewrite (json_same _ _ _ Hj H2) in Hl. apply dump_desc in Hl as (desc & -> & Hl). exists desc. split; [auto|]. eapply Forall_impl; [|exact (Hd _ Hl)]. cbn. tauto. }
  destruct Hs as [tr e He|i c Ha Ht|i c h e Ha Hh Hne Hni Hk Hd Hl'|i c t hint e Ha Ht Hne Hh Hs|i c t hint Ha Ht Hne Hh Hs].
  - destruct e as [e|e]; [|discriminate]. eapply Hgo; [exact Hx|]. exact (d_authenticate _ _ _ _ _ He Hr _ eq_refl).
  - discriminate.
  - eapply Hgo; [exact Hx|]. intros d' Hd'. congruence.
  - destruct e as [e|e]; [|discriminate]. exfalso. eapply oa_raise; eauto; [right; left; reflexivity|reflexivity].
  - injection Hx as ->. destruct Hst. reflexivity.
Qed.
Lemma error_param_desc e v : In (lit "error_description", v) (error_params e) -> oe_desc e = Some v.
Proof. unfold error_params. intros [H|H]; [discriminate|]. rewrite !in_app_iff, !opt_param_In in H. destruct H as [[_ H]|[[H _]|[H _]]]; [auto|discriminate|discriminate]. Qed.

Lemma lib_error_eq st st' e : lib_error st e -> lib_error st' e -> st = st'.
Proof. intros (_ & _ & <- & _) (_ & _ & <- & _). auto. Qed.
Lemma authz_lib E p hs r tr e : exec (authz_body E p hs r) tr (X (OA e)) -> made r -> no_oauth_raise tr -> exists st, lib_error st e /\ st <> Some [].
Proof.
  intros H Hm Hr. apply authz_body_exec in H. assert (Hst : param "state" (rq_data r) <> Some []) by (apply made_nonblank; auto).
  assert (Hpar : param "state" (dremove (lit "response_type") (rq_data r)) = param "state" (rq_data r)) by (unfold param; apply lookup_dremove_other; discriminate).
  inversion H as [e' He|e' uri Hu Hd Hk Hl|e' uri rt u Hu Hd Hrt Hnot Hk Hl|u uri cid tr' e' Hu Hd Hc Hrt Hg Hs|u uri cid c tr' y Hu Hd Hc Hrt Hg Hreg Hresp Hs]; subst.
  - exists None. split; [apply He|discriminate].
  - exists None. split; [auto|discriminate].
  - eauto.
  - inversion Hs as [e' Ee Et | e' He Et Ee | c e' He Hin Et Ee | c e' Hk Hl Hin Hnin Et Ee | ]; subst; eauto.
    + exfalso. eapply oa_raise; eauto; [left; reflexivity|reflexivity].
    + exists None. split; [apply He|discriminate].
    + exists None. split; [apply He|discriminate].
  - inversion Hs as [e' Hl Hk Et Ey | e' Et Ey | ad code e' Hv G1 G2 Et Ey | ad code Hv G1 G2 Et Ey]; subst.
    + match goal with H : X _ = X _ |- _ => injection H as -> end. rewrite Hpar in Hl. eauto.
    + match goal with H : X _ = X _ |- _ => injection H as -> end. exfalso. eapply oa_raise; eauto; [right; left; reflexivity|reflexivity].
    + match goal with H : X _ = X _ |- _ => injection H as -> end. exfalso. eapply oa_raise; eauto; [right; right; left; reflexivity|reflexivity].
    + exfalso. match goal with H : _ = X _ |- _ => revert H end. unfold authorization_response. destruct (urlencode _ _); cbn [lift]; [|discriminate].
      unfold RedirectResponse. destruct (location _); cbn [lift vbind]; discriminate.
Qed.
Lemma p_authz_descriptions E p hs r tr x : exec (authorization_endpoint E p hs r) tr (V x) -> made r -> no_oauth_raise tr -> tokens_ok tr ->
  exists uri ps, redirects x uri ps /\ forall v, In (lit "error_description", v) ps -> Forall (fun c => description_char c \/ c = 34 \/ sent_char r c) v.
Proof.
  intros H Hm Hr Ht. pose proof H as H0.
  change (authorization_endpoint E p hs r) with (pexcept (authz_body E p hs r) (fun e => Ret (error_redirect (pv_config p) (rq_data r) e))) in H.
  apply exec_pexcept in H as [(e & t1 & t2 & -> & H1 & H) | [H Hn]].
  - apply exec_Ret in H as [-> Hx]. rewrite app_nil_r in *. symmetry in Hx. destruct (authz_lib _ _ _ _ _ _ H1 Hm Hr) as (st & Hl & Hs). destruct (lib_redirect _ _ _ _ _ Hx Hl Hs) as (uri & _ & Hd).
    exists uri, (error_params e). split; [auto|]. intros v Hv. apply error_param_desc in Hv. exact (d_authz _ _ _ _ _ (all_sent r) _ _ H1 Hr _ eq_refl _ Hv).
  - apply authz_body_exec in H. inversion H as [| | | |u uri cid c tr' y Hu Hd Hc Hrt Hg Hreg Hresp Hs E1 E2]. destruct y as [url|]; [|discriminate]. inversion Hs; subst.
    destruct (p_code_sent _ _ _ _ _ _ H0 Hm Hr Ht) as (uri' & ps & G3 & _ & G5). exists uri', ps. split; [auto|].
    match goal with G5 : forall code ad c u y, In _ (_ :: _ :: ?o :: _) -> _ |- _ => destruct (G5 _ _ _ _ _ (or_intror (or_intror (or_introl eq_refl)))) as [_ ->] end.
    intros v [Hv|Hv]; [discriminate|]. unfold state_params in Hv. destruct (lookup _ _); [destruct Hv as [Hv|[]]; discriminate|destruct Hv].
Qed.
Lemma p_consent_descriptions p r tr x : exec (get_consent_data p r) tr (V (ConsentRedirect x)) -> made r -> no_oauth_raise tr ->
  exists uri ps, redirects x uri ps /\ forall v, In (lit "error_description", v) ps -> Forall (fun c => description_char c \/ c = 34) v.
Proof.
  intros H Hm Hr. assert (Hst : param "state" (rq_data r) <> Some []) by (apply made_nonblank; auto).
  assert (Hgo : forall e st, error_redirect (pv_config p) (rq_data r) e = V x -> lib_error st e -> st <> Some [] -> desc_ok (safe (fun _ => False)) e ->
     exists uri ps, redirects x uri ps /\ forall v, In (lit "error_description", v) ps -> Forall (fun c => description_char c \/ c = 34) v).
  { intros e st He Hl Hs Hd. destruct (lib_redirect _ _ _ _ _ He Hl Hs) as (uri & _ & Hx). exists uri, (error_params e). split; [auto|]. intros v Hv. apply error_param_desc in Hv.
    eapply Forall_impl; [|exact (Hd _ Hv)]. cbn. tauto. }
  unfold get_consent_data in H. apply exec_pexcept in H as [(e & t1 & t2 & -> & H1 & H) | [H1 Hn]].
  - apply no_oauth_app in Hr as [Hr _].
    assert (Hx : error_redirect (pv_config p) (rq_data r) e = V x).
    { apply exec_pbind in H as [(z & t3 & t4 & _ & H2 & H3)|(e' & H2 & _)]; [|discriminate]. apply exec_Ret in H2 as [_ H2]. apply exec_Ret in H3 as [_ H3]. congruence. }
    assert (Hd : desc_ok (safe (fun _ => False)) e).
    { refine ((_ : descs (safe (fun _ => False)) _) _ _ H1 Hr _ eq_refl). apply descs_bind_ret; [unfold validate_request; ok|]. intros [[uri cid] rt] _. apply descs_bind; [apply d_client|]. intros c. ok. }
    apply exec_pbind in H1 as [([[uri cid] rt] & t3 & t4 & -> & H1 & H2) | (e' & E' & H1)]; apply exec_Ret in H1 as [-> H1]; symmetry in H1.
    2:{ apply validate_request_X in H1 as (e0 & -> & He). injection E' as <-. eapply Hgo; [exact Hx|apply He|discriminate|auto]. }
    apply exec_pbind in H2 as [(c & t5 & t6 & -> & H2 & H3) | (e' & E' & H2)]; apply client_exec in H2.
    + destruct (arg "scope" (rq_data r)); apply exec_Ret in H3 as [_ H3]; [discriminate|]. injection H3 as ->. eapply (Hgo _ None); [exact Hx|unfold lib_error, nonblank; cbn; repeat split; auto; discriminate|discriminate|auto].
    + injection E' as <-. inversion H2 as [e' Ee Et | e' He Et Ee | c e' He Hin Et Ee | c e' Hk Hl Hin Hnin Et Ee | ]; subst.
      * exfalso. eapply oa_raise; eauto; [left; reflexivity|reflexivity].
      * eapply Hgo; [exact Hx|apply He|discriminate|auto].
      * eapply Hgo; [exact Hx|apply He|discriminate|auto].
      * eapply Hgo; [exact Hx|exact Hl|auto|auto].
  - exfalso. apply exec_pbind in H1 as [([[uri cid] rt] & t3 & t4 & -> & H1 & H2) | (e' & E' & H1)]; [|discriminate].
    apply exec_pbind in H2 as [(c & t5 & t6 & -> & H2 & H3) | (e' & E' & H2)]; [|discriminate].
    destruct (arg "scope" (rq_data r)); apply exec_Ret in H3 as [_ H3]; discriminate.
Qed.
