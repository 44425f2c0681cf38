(** Requests that follow the protocol succeed: lemmas for C80. *)
From Coq Require Import String Ascii List NArith ZArith Bool Lia.
From Verif Require Import Base BaseFacts Utf8 Utf8Facts Base64 Base64Facts SpecCodec Json JsonFacts Url UrlFacts Webtools WebtoolsFacts Crypto Jwk Jws Jwt Prog ProgFacts Http OAuth SpecOAuth SpecFlow OAuthFacts GrantFacts EndpointFacts RequestFacts AuthzFacts TokenFacts ResponseFacts IssueFacts RaiseFacts StoreFacts.
Import ListNotations.
Open Scope N_scope.

(** ** Stepping forward *)
Lemma call_forward {T A} (e : eff T) (f : T -> prog A) tr x : exec (pbind (call e) f) tr x -> no_raise tr ->
  exists y tr', tr = observe e (V y) :: tr' /\ exec (f y) tr' x /\ no_raise tr'.
Proof.
  intros H Hn. apply exec_pbind in H as [(y & t1 & t2 & -> & H1 & H)|(e' & -> & H1)]; apply exec_call in H1 as ->.
  - exists y, t2. split; [reflexivity|]. split; [auto|]. apply no_raise_app in Hn. tauto.
  - exfalso. eapply raise_absurd; [exact Hn|left; reflexivity|]. destruct e; reflexivity.
Qed.
Lemma call_assoc {T A B} (e : eff T) (f : T -> prog A) (g : A -> prog B) tr x : exec (pbind (pbind (call e) f) g) tr x -> exec (pbind (call e) (fun y => pbind (f y) g)) tr x.
Proof.
  intros H. apply exec_pbind in H as [(a & t1 & t2 & -> & H1 & H)|(e' & -> & H1)].
  - apply exec_pbind in H1 as [(y & s1 & s2 & -> & H0 & H1)|(e' & E & _)]; [|discriminate]. apply exec_pbind. left. exists y, s1, (s2 ++ t2).
    rewrite app_assoc. split; [auto|]. split; [auto|]. apply exec_pbind. left. eauto 6.
  - apply exec_pbind in H1 as [(y & s1 & s2 & -> & H0 & H1)|(e2 & E & H0)].
    + apply exec_pbind. left. exists y, s1, s2. split; [auto|]. split; [auto|]. apply exec_pbind. right. eauto.
    + injection E as ->. apply exec_pbind. right. eauto.
Qed.
Lemma ret_forward {A B} (a : A) (f : A -> prog B) : pbind (Ret (V a)) f = f a.
Proof. reflexivity. Qed.
Lemma auth_forward {A} r i c methods (f : client -> prog A) tr x : exec (pbind (authenticate r methods) f) tr x -> presents r i c ->
  allowed_method methods (cl_auth_method c) -> finds_client i c tr -> no_raise tr ->
  exists tr', tr = OFindClient i (V (Some c)) :: tr' /\ exec (f c) tr' x /\ no_raise tr'.
Proof.
  intros H Hp Hm Hf Hn. pose proof (p_authenticate_complete r i c methods Hp Hm) as Hc.
  assert (Hone : forall t y, exec (authenticate r methods) t y -> (forall z, In (OFindClient i z) t -> z = V (Some c)) -> t = [OFindClient i (V (Some c))] /\ y = V c).
  { intros t y Ht Hfi. destruct t as [|o t]; [destruct (exec_nil_cons _ _ _ _ _ Ht Hc)|].
    destruct (exec_same_call _ _ _ _ _ _ _ Ht Hc) as (T & e & k & y1 & y2 & E1 & E2 & Hk1 & Hk2 & _).
    destruct e; cbn [observe] in E2; try discriminate. injection E2 as <- <-. cbn [observe] in E1. subst o.
    pose proof (Hfi _ (or_introl eq_refl)) as ->. pose proof (exec_prefix _ [] t _ _ Hk2 Hk1) as [-> <-]. auto. }
  apply exec_pbind in H as [(c' & t1 & t2 & -> & H1 & H)|(e & -> & H1)].
  - destruct (Hone _ _ H1) as [-> E]; [intros z Hz; apply Hf, in_app_iff; auto|]. injection E as ->.
    exists t2. apply no_raise_app in Hn. split; [reflexivity|]. tauto.
  - destruct (Hone _ _ H1 Hf) as [_ E]. discriminate.
Qed.

Section WithEnv.
Variable E : env.

Lemma grant_found p g : In g (pv_grants p) -> validate_grant_type p (Some (grant_type g)) = V g.
Proof.
  intros Hg. unfold validate_grant_type. destruct (grant_type g) as [|n t] eqn:Eg; [destruct g; discriminate|]. rewrite <- Eg.
  destruct (find _ _) as [g'|] eqn:Ef.
  - apply find_some in Ef as [_ Ef]. apply eqs_true in Ef. f_equal. destruct g, g'; cbn in Ef; auto; discriminate.
  - apply (find_none _ _ Ef) in Hg. destruct (eqs_spec (grant_type g) (grant_type g)); [discriminate|contradiction].
Qed.
Lemma body_forward p hs r tr y g i c : exec (token_body E p hs r) tr y -> no_raise tr -> In g (pv_grants p) ->
  data_has r "grant_type" (grant_type g) -> presents r i c -> allowed_method (grant_methods g) (cl_auth_method c) -> In (grant_type g) (cl_grants c) ->
  finds_client i c tr ->
  exists tr' z, tr = OFindClient i (V (Some c)) :: tr' /\ no_raise tr' /\
    exec (grant_token E (pv_config p) hs g (dremove (lit "grant_type") (rq_data r)) c) tr' z /\
    y = match z with V t => JSONResponse 200 token_headers (PDict t) | X e => X e end.
Proof.
  intros H Hn Hg Hgt Hp Hm Hgr Hf. unfold token_body in H.
  replace (match rq_data r with [] => oraise InvalidRequest (lit "Missing request parameters.") None | _ => V tt end) with (V tt) in H
    by (unfold data_has in Hgt; destruct (rq_data r); [discriminate|reflexivity]).
  rewrite ret_forward in H. unfold param in H. rewrite Hgt, (grant_found p g Hg), ret_forward in H.
  apply auth_forward with (i := i) (c := c) in H as (tr' & -> & H & Hn'); auto.
  replace (ins (grant_type g) (cl_grants c)) with true in H by (symmetry; apply ins_In; auto). cbn [negb] in H.
  exists tr'. apply exec_pbind in H as [(t & t1 & t2 & -> & H1 & H)|(e & -> & H1)].
  - apply exec_Ret in H as [-> ->]. rewrite app_nil_r in *. exists (V t). auto.
  - exists (X e). auto.
Qed.
Lemma data_arg r k v : data_has r k v -> v <> [] -> lit k <> lit "grant_type" -> arg k (dremove (lit "grant_type") (rq_data r)) = Some v.
Proof. intros H Hv Hk. unfold arg. rewrite lookup_dremove_other by auto. unfold data_has in H. rewrite H. destruct v; [contradiction|reflexivity]. Qed.
Lemma pkce_verifies ac v : (forall b, bytes_ok (e_sha256 E b)) -> pkce_ok (e_sha256 E) (ac_method ac) (ac_challenge ac) v -> verifies E ac v.
Proof.
  intros Hb [[Hm Hc]|(Hm & Hv & Hc)]; unfold verifies, challenges; rewrite Hm.
  - exists plain_challenge. split; [reflexivity|]. unfold plain_challenge. rewrite Hc, eqs_refl. reflexivity.
  - exists (S256_challenge E). split; [reflexivity|]. unfold S256_challenge, ascii_encode.
    replace (forallb (fun c => c <? 128) v) with true by (symmetry; apply forallb_forall; rewrite Forall_forall in Hv; intros; apply N.ltb_lt; auto).
    simpl. f_equal. rewrite Hc. destruct (p_base64url (e_sha256 E v) (Hb v)) as (H1 & H2 & _). rewrite to_string_ascii; [|apply url_chars_ascii, base64url_encode_url; auto].
    rewrite H2. apply eqs_refl.
Qed.
Lemma token_sent a life rt sc x : JSONResponse 200 token_headers (PDict (create_token a life rt sc)) = V x -> token_answer x a life rt sc.
Proof.
  intros H. apply json_response_V in H as (H1 & H2 & _); [|destruct rt, sc; reflexivity].
  split; [auto|]. exists (create_token a life rt sc). split; [auto|]. unfold create_token, unwords. destruct rt, sc; repeat split.
Qed.
Lemma sent_total a life rt sc tr c o sc' : texts_ok tr -> In (OCreateAT c o sc' (V a)) tr -> (sc = [] \/ sc = sc') ->
  (rt = None \/ exists c o sc'', In (OCreateRT c o sc'' (V rt)) tr) ->
  exists x, JSONResponse 200 token_headers (PDict (create_token a life rt sc)) = V x.
Proof.
  intros [T1 T2] Ha Hsc Hrt. destruct (JSONResponse _ _ _) as [x|e] eqn:Ej; [eauto|]. exfalso. eapply json_response_X; [exact Ej|].
  destruct (T1 _ _ _ _ Ha) as [S1 S2]. apply create_token_flat; [auto| |].
  - destruct rt as [t|]; [|exact I]. destruct Hrt as [Hrt|(c1 & o1 & s1 & Hrt)]; [discriminate|]. eapply T2; eauto.
  - destruct Hsc as [->| ->]; [constructor|auto].
Qed.
Lemma refresh_forward {A} c o sc (f : option str -> prog A) tr x : exec (pbind (maybe_refresh c o sc) f) tr x -> no_raise tr ->
  exists rt t1 t2, tr = t1 ++ t2 /\ exec (f rt) t2 x /\ no_raise t2 /\ created_refresh c o sc rt t1.
Proof.
  intros H Hn. unfold maybe_refresh, created_refresh in *. destruct (ins _ _).
  - apply call_forward in H as (y & tr' & -> & H & Hn'); [|auto]. exists y, [OCreateRT c o sc (V y)], tr'. repeat split; auto. left. reflexivity.
  - exists None, [], tr. auto.
Qed.
Lemma created_app c o sc rt t1 t t2 : created_refresh c o sc rt t1 -> created_refresh c o sc rt (t ++ t1 ++ t2).
Proof. unfold created_refresh. destruct (ins _ _); [|auto]. intros H. apply in_app_iff. right. apply in_app_iff. auto. Qed.
Lemma created_some c o sc rt tr : created_refresh c o sc rt tr -> rt = None \/ exists c o sc, In (OCreateRT c o sc (V rt)) tr.
Proof. unfold created_refresh. destruct (ins _ _); eauto 10. Qed.

(** ** The code grant, without hooks *)
Lemma code_complete p hs r tr x i c code uri v u : (forall b, bytes_ok (e_sha256 E b)) ->
  exec (token_endpoint E p hs r) tr x -> no_raise tr -> texts_ok tr -> hk_response hs = [] ->
  exchange_request p r i c code uri v ->
  finds_client i c tr -> (forall y, In (OGetCode code (V y)) tr -> exists ac, y = Some ac /\ matching_code E c uri v tr ac /\ finds_user (ac_user ac) u tr) ->
  exists z ac a rt, x = V z /\ In (OGetCode code (V (Some ac))) tr /\ In (OCreateAT c (OwnUser u) (ac_scopes ac) (V a)) tr /\ created_refresh c (OwnUser u) (ac_scopes ac) rt tr /\
    token_answer z a (cf_token_lifespan (pv_config p)) rt (ac_scopes ac).
Proof.
  intros Hb H Hn Ht Hh (Hg & Hgr & Hp & Hgt & D1 & D2 & D3 & N1 & N2 & N3 & Huri) F1 F2.
  apply token_exec in H as (y & H & Hx).
  apply body_forward with (g := GCode) (i := i) (c := c) in H as (tr1 & z & -> & Hn1 & H & Hy); auto; [|left; reflexivity].
  cbn [grant_token] in H. apply code_token_exec in H as (t1 & w & Hw & [(Hc & _)|(code' & q & Hc & -> & Hz)]).
  { exfalso. unfold param in Hc. rewrite lookup_dremove_other in Hc by discriminate. unfold data_has in D1. congruence. }
  destruct q as [[]|e]; [|exfalso; eapply raise_absurd; [exact Hn1|apply in_app_iff; right; left; reflexivity|reflexivity]]. subst z.
  apply no_raise_app in Hn1 as [Hn1 _].
  assert (Hall : forall o, In o t1 -> In o (OFindClient i (V (Some c)) :: t1 ++ [ODeleteCode code' (V tt)])) by (intros; right; apply in_app_iff; auto).
  unfold code_exchange in Hw.
  replace (validate_code_request (dremove (lit "grant_type") (rq_data r))) with (V (code, uri, v) : res (str * str * str)) in Hw.
  2:{ symmetry. apply validate_code_request_V. split; [|split]; apply data_arg; auto; discriminate. }
  rewrite ret_forward in Hw. cbv beta iota in Hw.
  apply call_forward in Hw as (oc & t2 & -> & Hw & Hn2); [|auto]. cbn [observe] in *.
  destruct (F2 oc) as (ac & -> & (Hr & Hcl & Hpk & T & Hexp & F4) & F3); [apply Hall; left; reflexivity|].
  assert (Hvac : exists off now t3, t2 = ONow (V (now, off)) :: t3 /\ exec (do ou <- call (FindUser (ac_user ac)) ;;
      match ou with
      | None => Ret (oraise InvalidRequest (lit "No user found for this code.") None)
      | Some u => do at_ <- call (CreateAT c (OwnUser u) (ac_scopes ac)) ;;
          do rt <- maybe_refresh c (OwnUser u) (ac_scopes ac) ;;
          run_token_hooks E (hk_response hs) (create_token at_ (cf_token_lifespan (pv_config p)) rt (ac_scopes ac)) c u
      end) t3 w /\ no_raise t3).
  { unfold validate_authorization_code in Hw.
    replace (ins uri (cl_redirects c)) with true in Hw by (symmetry; apply ins_In; auto).
    rewrite Hcl, Hr, !eqs_refl in Hw. cbn [negb] in Hw.
    destruct (pkce_verifies ac v Hb Hpk) as (f & Ef & Hf). rewrite Ef, Hf in Hw. cbn [lift] in Hw. rewrite ret_forward in Hw. cbn [negb] in Hw.
    apply exec_pbind in Hw as [([] & s1 & s2 & -> & H1 & Hw)|(e & -> & H1)].
    - apply no_raise_app in Hn2 as [Hn2 Hn3]. apply call_forward in H1 as ([now off] & s3 & -> & H1 & _); [|auto].
      assert (Hlt : (now < T)%Z) by (apply (F4 now off), Hall; right; left; reflexivity).
      rewrite Hexp in H1. cbn [expired lift] in H1. replace (T <=? now)%Z with false in H1 by (symmetry; apply Z.leb_gt; auto).
      rewrite ret_forward in H1. apply exec_Ret in H1 as [-> _]. exists off, now, s2. auto.
    - exfalso. apply call_forward in H1 as ([now off] & s3 & -> & H1 & _); [|auto].
      assert (Hlt : (now < T)%Z) by (apply (F4 now off), Hall; right; left; reflexivity).
      rewrite Hexp in H1. cbn [expired lift] in H1. replace (T <=? now)%Z with false in H1 by (symmetry; apply Z.leb_gt; auto).
      rewrite ret_forward in H1. apply exec_Ret in H1 as [_ H1]. discriminate. }
  clear Hw Hn2. destruct Hvac as (off & now & t3 & -> & Hw & Hn2).
  apply call_forward in Hw as (ou & t4 & -> & Hw & Hn3); [|auto]. cbn [observe] in *.
  assert (Eou : V ou = V (Some u)) by (apply F3, Hall; right; right; left; reflexivity). injection Eou as ->.
  apply call_forward in Hw as (a & t5 & -> & Hw & Hn4); [|auto]. cbn [observe] in *.
  apply refresh_forward in Hw as (rt & s1 & s2 & -> & Hw & _ & Hrt); [|auto].
  rewrite Hh in Hw. cbn [run_token_hooks] in Hw. apply exec_Ret in Hw as [-> ->].
  set (tr := OFindClient i (V (Some c)) :: _) in *.
  assert (Hat : In (OCreateAT c (OwnUser u) (ac_scopes ac) (V a)) tr) by (apply Hall; simpl; auto 10).
  assert (Hcr : created_refresh c (OwnUser u) (ac_scopes ac) rt tr).
  { unfold created_refresh in *. destruct (ins _ _); [|auto]. apply Hall. do 4 right. apply in_app_iff. auto. }
  destruct (sent_total a (cf_token_lifespan (pv_config p)) rt (ac_scopes ac) tr c (OwnUser u) (ac_scopes ac)) as [z Hz]; auto.
  { eapply created_some; eauto. }
  exists z, ac, a, rt. split; [rewrite Hx, Hy, Hz; reflexivity|]. split; [apply Hall; left; reflexivity|]. split; [auto|]. split; [auto|]. apply token_sent. auto.
Qed.
Lemma p_code_complete p hs r tr x i c code uri v ac u : (forall b, bytes_ok (e_sha256 E b)) ->
  exec (token_endpoint E p hs r) tr x -> no_raise tr -> texts_ok tr -> hk_response hs = [] ->
  exchange_request p r i c code uri v -> matching_code E c uri v tr ac ->
  finds_client i c tr -> finds_code code ac tr -> finds_user (ac_user ac) u tr ->
  exists z a rt, x = V z /\ In (OCreateAT c (OwnUser u) (ac_scopes ac) (V a)) tr /\ created_refresh c (OwnUser u) (ac_scopes ac) rt tr /\
    token_answer z a (cf_token_lifespan (pv_config p)) rt (ac_scopes ac).
Proof.
  intros Hb H Hn Ht Hh Hq Hg F1 F2 F3.
  destruct (code_complete p hs r tr x i c code uri v u Hb H Hn Ht Hh Hq F1) as (z & ac' & a & rt & Hx & Hin & H1 & H2 & H3).
  { intros y Hy. apply F2 in Hy. injection Hy as ->. eauto. }
  apply F2 in Hin. injection Hin as ->. eauto 8.
Qed.

(** ** Client credentials *)
Lemma words_join l : Forall scope_name l -> words (join [32] l) = l.
Proof.
  unfold words. assert (Hgo : forall l, Forall scope_name l -> match l with [] => True | w :: r => words_aux (join [32] l) [] = l end).
  { induction l0 as [|w r IH]; [auto|]. intros HF. inversion HF as [|? ? [Hw Hs] Hr]; subst. destruct r as [|w2 r].
    - cbn [join]. rewrite <- (app_nil_r w) at 1. rewrite words_aux_nospace by (apply nowhite; auto). destruct w; [contradiction|reflexivity].
    - cbn [join]. change (w ++ [32] ++ join [32] (w2 :: r)) with (w ++ 32 :: join [32] (w2 :: r)). rewrite words_aux_nospace by (apply nowhite; auto).
      cbn [app]. cbn [words_aux]. change (py_space 32) with true. cbv iota. destruct w; [contradiction|]. f_equal. apply (IH Hr). }
  intros H. specialize (Hgo l H). destruct l; [reflexivity|auto].
Qed.
Lemma join_nonempty l : l <> [] -> Forall scope_name l -> join [32] l <> [].
Proof. destruct l as [|w [|w2 l]]; [contradiction| |]; intros _ H; inversion H as [|? ? [Hw _] _]; subst; cbn; [auto|]. destruct w; [contradiction|discriminate]. Qed.
Lemma asks_scopes r l : asks r l -> cc_scopes (dremove (lit "grant_type") (rq_data r)) = Some l.
Proof.
  intros (Hl & HF & Hd). unfold cc_scopes. rewrite arg_dremove by discriminate. unfold arg. unfold data_has in Hd. rewrite Hd.
  pose proof (join_nonempty l Hl HF). pose proof (words_join l HF). destruct (join [32] l); [contradiction|]. congruence.
Qed.
Lemma asks_none_scopes r : asks_none r -> cc_scopes (dremove (lit "grant_type") (rq_data r)) = None.
Proof. intros Hd. unfold cc_scopes. rewrite arg_dremove by discriminate. unfold arg. unfold asks_none, data_lacks in Hd. rewrite Hd. reflexivity. Qed.

Lemma secret_method r i c : presents r i c -> cl_secret c <> None -> allowed_method (grant_methods GClientCredentials) (cl_auth_method c).
Proof.
  intros Hp Hs. right. destruct Hp as [s _ _ ->|s _ _ _ _ _ _ ->|_ _ _ _ Hno _]; [left; reflexivity|right; left; reflexivity|contradiction].
Qed.
Lemma p_cc_complete p hs r tr x i c req : exec (token_endpoint E p hs r) tr x -> no_raise tr -> texts_ok tr ->
  In GClientCredentials (pv_grants p) -> In (lit "client_credentials") (cl_grants c) -> presents r i c -> cl_secret c <> None ->
  data_has r "grant_type" (lit "client_credentials") -> finds_client i c tr ->
  (req = None /\ asks_none r \/ exists l, req = Some l /\ asks r l /\ incl l (cf_scopes (pv_config p)) /\ incl l (cl_allowed c req)) ->
  exists z a sc, x = V z /\ tr = [OFindClient i (V (Some c)); OCreateAT c (OwnClient c) (cl_allowed c req) (V a)] /\
    token_answer z a (cf_token_lifespan (pv_config p)) None sc /\ (sc = cl_allowed c req \/ (sc = [] /\ req = Some (cl_allowed c req))).
Proof.
  intros H Hn Ht Hg Hgr Hp Hs Hgt F1 Hsc. apply token_exec in H as (y & H & Hx).
  apply body_forward with (g := GClientCredentials) (i := i) (c := c) in H as (tr1 & z & -> & Hn1 & H & Hy); auto.
  2:{ eapply secret_method; eauto. }
  cbn [grant_token] in H. unfold cc_token in H.
  assert (Hreq : cc_scopes (dremove (lit "grant_type") (rq_data r)) = req).
  { destruct Hsc as [[-> Hd]|(l & -> & Hd & _)]; [apply asks_none_scopes; auto|apply asks_scopes; auto]. }
  assert (Hval : validate_requested_scopes (pv_config p) req c None = V tt).
  { destruct Hsc as [[-> Hd]|(l & -> & Hd & H1 & H2)]; [reflexivity|]. apply validate_scopes_V. auto. }
  rewrite Hreq, Hval, ret_forward in H. cbv zeta in H.
  apply call_forward in H as (a & t2 & -> & H & _); [|auto]. apply exec_Ret in H as [-> ->]. cbn [observe] in *.
  set (sc := match req with Some l => _ | None => _ end) in *.
  assert (Hcase : sc = cl_allowed c req \/ (sc = [] /\ req = Some (cl_allowed c req))).
  { unfold sc. destruct req as [l|]; [|auto]. destruct (eql (cl_allowed c (Some l)) l) eqn:Ee; [|auto]. right. split; [auto|]. apply eql_true in Ee. congruence. }
  destruct (sent_total a (cf_token_lifespan (pv_config p)) None sc _ c (OwnClient c) (cl_allowed c req) Ht) as [w Hw].
  { simpl; auto. } { destruct Hcase as [->|[-> _]]; auto. } { auto. }
  exists w, a, sc. split; [rewrite Hx, Hy, Hw; reflexivity|]. split; [auto|]. split; [apply token_sent; auto|auto].
Qed.

(** ** Refresh tokens *)
Lemma p_refresh_complete p hs r tr x i c t rt ou T req : order_ok E -> exec (token_endpoint E p hs r) tr x -> no_raise tr -> texts_ok tr ->
  In GRefresh (pv_grants p) -> In (lit "refresh_token") (cl_grants c) -> presents r i c ->
  data_has r "grant_type" (lit "refresh_token") -> data_has r "refresh_token" t -> t <> [] ->
  rt_client rt = cl_id c -> rt_exp rt = Naive T ->
  finds_client i c tr -> finds_refresh t rt tr -> (forall y, In (OFindUser (rt_user rt) y) tr -> y = V ou) -> before T tr ->
  (req = rt_scopes rt /\ asks_none r \/ asks r req /\ incl req (cf_scopes (pv_config p)) /\ incl req (cl_allowed c (Some req)) /\ incl req (rt_scopes rt)) ->
  exists z a new sc' sc, x = V z /\ (forall w, In w sc' <-> In w req) /\
    In (OCreateAT c (match ou with Some u => OwnUser u | None => OwnNone end) (cl_allowed c (Some sc')) (V a)) tr /\
    In (OCreateRT c (match ou with Some u => OwnUser u | None => OwnNone end) (cl_allowed c (Some sc')) (V new)) tr /\
    token_answer z a (cf_token_lifespan (pv_config p)) new sc /\
    (sc = cl_allowed c (Some sc') \/ (sc = [] /\ cl_allowed c (Some sc') = rt_scopes rt)).
Proof.
  intros Hord H Hn Ht Hg Hgr Hp Hgt D1 N1 Hcl Hexp F1 F2 F3 F4 Hsc. apply token_exec in H as (y & H & Hx).
  apply body_forward with (g := GRefresh) (i := i) (c := c) in H as (tr1 & z & -> & Hn1 & H & Hy); auto; [|left; reflexivity].
  cbn [grant_token] in H. unfold refresh_grant, validate_refresh_request in H. rewrite (data_arg r _ t D1 N1) in H by discriminate.
  rewrite ret_forward in H. cbv beta iota in H.
  apply call_forward in H as (ot & t2 & -> & H & Hn2); [|auto]. cbn [observe] in *.
  assert (Eot : V ot = V (Some rt)) by (apply F2; simpl; auto). injection Eot as ->.
  unfold validate_refresh_token in H. rewrite Hcl, eqs_refl in H. cbn [negb] in H.
  apply call_assoc in H. apply call_forward in H as ([now off] & t3 & -> & H & Hn3); [|auto]. cbn [observe] in *.
  assert (Hlt : (now < T)%Z) by (apply (F4 now off); simpl; auto).
  rewrite Hexp in H. cbn [expired lift] in H. replace (T <=? now)%Z with false in H by (symmetry; apply Z.leb_gt; auto).
  rewrite !ret_forward in H. unfold ret in H at 1. rewrite ret_forward in H.
  assert (Hval : exists sc', validate_refresh_scopes E (pv_config p) rt (cc_scopes (dremove (lit "grant_type") (rq_data r))) c = V sc' /\ forall w, In w sc' <-> In w req).
  { destruct Hsc as [[-> Hd]|(Hd & H1 & H2 & H3)].
    - rewrite (asks_none_scopes r Hd). exists (rt_scopes rt). split; [reflexivity|tauto].
    - rewrite (asks_scopes r req Hd). exists (e_set_order E (inter (rt_scopes rt) req)). split.
      + unfold validate_refresh_scopes. rewrite (proj2 (validate_scopes_V _ _ _ None) (conj H1 H2)). cbn [vbind].
        destruct Hd as [Hne _]. destruct req as [|w0 req]; [contradiction|]. rewrite (proj2 (subsetb_incl _ _) H3). reflexivity.
      + intros w. rewrite (Hord _ _), inter_In. split; [tauto|]. intros Hw. split; [apply H3; auto|auto]. }
  destruct Hval as (sc' & Hval & Hsame). rewrite Hval, ret_forward in H. cbv zeta in H.
  apply call_forward in H as (ou' & t4 & -> & H & Hn4); [|auto]. cbn [observe] in *.
  assert (Eou : V ou' = V ou) by (apply F3; simpl; auto). injection Eou as ->.
  apply call_forward in H as (a & t5 & -> & H & Hn5); [|auto]. cbn [observe] in *.
  unfold maybe_refresh in H. rewrite (proj2 (ins_In _ _) Hgr) in H.
  apply call_forward in H as (new & t6 & -> & H & Hn6); [|auto]. cbn [observe] in *. apply exec_Ret in H as [-> ->].
  set (tr := OFindClient i (V (Some c)) :: _) in *.
  set (sc := if eql _ _ then _ else _) in *.
  assert (Hcase : sc = cl_allowed c (Some sc') \/ (sc = [] /\ cl_allowed c (Some sc') = rt_scopes rt)).
  { unfold sc. destruct (eql (cl_allowed c (Some sc')) (rt_scopes rt)) eqn:Ee; [|auto]. right. split; [auto|]. apply eql_true in Ee. auto. }
  assert (Hat : In (OCreateAT c (owner_of ou) (cl_allowed c (Some sc')) (V a)) tr) by (simpl; auto 10).
  assert (Hrt : In (OCreateRT c (owner_of ou) (cl_allowed c (Some sc')) (V new)) tr) by (simpl; auto 10).
  destruct (sent_total a (cf_token_lifespan (pv_config p)) new sc tr c (owner_of ou) (cl_allowed c (Some sc')) Ht Hat) as [w Hw].
  { destruct Hcase as [->|[-> _]]; auto. } { eauto. }
  exists w, a, new, sc', sc. split; [rewrite Hx, Hy, Hw; reflexivity|]. split; [auto|]. split; [exact Hat|]. split; [exact Hrt|]. split; [apply token_sent; auto|auto].
Qed.

(** ** The authorization endpoint *)
Lemma location_total u : scalar_str u -> exists l, location u = Ok l.
Proof. intros H. unfold location, quote_plus. destruct (utf8_encode_scalar u H) as [b Hb]. rewrite Hb. simpl. eauto. Qed.
Lemma code_redirect_total uri code st : scalar_str uri -> scalar_str code -> (forall s, st = Some s -> scalar_str s) -> code <> [] -> st <> Some [] ->
  exists url z, authorization_response uri code st = V url /\ RedirectResponse url [] = V z /\ redirects z uri ((lit "code", code) :: state_params st).
Proof.
  intros Hu Hc Hs Nc Ns.
  assert (Hurl : exists q, urlencode uri [(lit "code", PStr code); (lit "state", pstr st)] = Ok (uri ++ 63 :: q) /\ Forall (fun c => quoted_char [38; 61] c = true) q).
  { unfold urlencode. replace (has _ _) with false by reflexivity. destruct (urlencode_items_ok ((lit "code", code) :: state_params st)) as [l Hl].
    { constructor; [split; [slit|auto]|]. destruct st; simpl; constructor; [split; [slit|simpl; auto]|constructor]. }
    assert (Hq : urlencode_ ((lit "code", code) :: state_params st) = Ok (join [38] l)) by (unfold urlencode_; rewrite Hl; reflexivity).
    replace (FullDict _ _) with (map (fun kv : str * str => (fst kv, PStr (snd kv))) ((lit "code", code) :: state_params st)) by (destruct st; reflexivity).
    rewrite str_items_map. cbn [rbind]. rewrite Hq. cbn [rbind]. exists (join [38] l). split; [reflexivity|]. eapply urlencode_chars; eauto. }
  destruct Hurl as (q & Hurl & Hq).
  assert (H1 : authorization_response uri code st = V (uri ++ 63 :: q)) by (unfold authorization_response; rewrite Hurl; reflexivity).
  assert (H2 : exists z, RedirectResponse (uri ++ 63 :: q) [] = V z).
  { destruct (location_total uri Hu) as [l Hl].
    assert (Hloc : location (uri ++ 63 :: q) = Ok (l ++ 63 :: q)) by (apply location_app; exists l, (63 :: q); split; [auto|]; split; [apply query_location; auto|reflexivity]).
    unfold RedirectResponse. rewrite Hloc. simpl. eauto. }
  destruct H2 as [z H2]. exists (uri ++ 63 :: q), z. split; [auto|]. split; [auto|]. eapply code_redirect; eauto.
Qed.
Lemma p_authorize_complete p hs r tr x u cid uri scopes ch m c : exec (authorization_endpoint E p hs r) tr x -> no_raise tr -> made r -> scalar_data (rq_data r) -> secrets_ok tr ->
  code_request p r u cid uri scopes ch m -> finds_client cid c tr -> In uri (cl_redirects c) -> In (lit "code") (cl_responses c) -> incl scopes (cl_allowed c (Some scopes)) ->
  exists z code ad, x = V z /\ tr = [OFindClient cid (V (Some c)); OSecretToken 64 (V code); OSaveCode code ad c u (V tt)] /\
    ad_challenge ad = ch /\ ad_method ad = m /\ ad_redirect ad = uri /\ ad_scopes ad = scopes /\ ad_state ad = lookup (lit "state") (rq_data r) /\
    redirects z uri ((lit "code", code) :: state_params (lookup (lit "state") (rq_data r))).
Proof.
  intros H Hn Hmade Hscal Hsec (Hu & Drt & Dcid & Duri & (Hne & HF & Dsc) & Dch & Hlen & Dm & Hm & Hg & Hsup) Hfc Hred Hresp Hal.
  pose proof (made_nonblank r) as Hnb.
  assert (Harg : forall k v, data_has r k v -> arg k (rq_data r) = Some v).
  { intros k v Hd. unfold arg, data_has in *. specialize (Hnb (lit k) Hmade). rewrite Hd in *. destruct v; [contradiction|reflexivity]. }
  change (authorization_endpoint E p hs r) with (pexcept (authz_body E p hs r) (fun e => Ret (error_redirect (pv_config p) (rq_data r) e))) in H.
  assert (Hbody : forall t y, exec (authz_body E p hs r) t y -> no_raise t -> secrets_ok t -> finds_client cid c t ->
    exists z code ad, y = V z /\ t = [OFindClient cid (V (Some c)); OSecretToken 64 (V code); OSaveCode code ad c u (V tt)] /\
    ad_challenge ad = ch /\ ad_method ad = m /\ ad_redirect ad = uri /\ ad_scopes ad = scopes /\ ad_state ad = lookup (lit "state") (rq_data r) /\
    redirects z uri ((lit "code", code) :: state_params (lookup (lit "state") (rq_data r)))).
  { clear H Hn Hsec Hfc. intros t y H Hn Hsec Hfc. unfold authz_body in H. cbv zeta in H.
    assert (Hvr : validate_request (rq_data r) = V (uri, cid, lit "code")).
    { unfold validate_request. rewrite (Harg _ _ Duri), (Harg _ _ Dcid), (Harg _ _ Drt). unfold data_has in Drt. destruct (rq_data r); [discriminate|reflexivity]. }
    rewrite Hvr, ret_forward in H. cbv beta iota in H. rewrite Hu in H.
    assert (Hvt : validate_response_type p (lit "code") (param "state" (rq_data r)) = V GCode).
    { unfold validate_response_type. destruct (find _ _) as [g|] eqn:Ef.
      - apply find_some in Ef as [_ Ef]. destruct g; [reflexivity|discriminate|discriminate].
      - apply (find_none _ _ Ef) in Hg. discriminate. }
    rewrite Hvt, ret_forward in H. unfold validate_client in H.
    apply call_assoc in H. apply call_forward in H as (oc & t1 & -> & H & Hn1); [|auto]. cbn [observe] in *.
    assert (Eoc : V oc = V (Some c)) by (apply Hfc; left; reflexivity). injection Eoc as ->.
    cbn [response_type] in H. rewrite (proj2 (ins_In _ _) Hred) in H. change (lit "code") with (lit "code") in H.
    replace (ins (lit "code") (cl_responses c)) with true in H by (symmetry; apply ins_In; auto). cbn [negb] in H.
    unfold ret in H at 1. rewrite ret_forward in H. cbn [grant_authorize] in H.
    set (data := dremove (lit "response_type") (rq_data r)) in *.
    assert (Harg2 : forall k v, lit k <> lit "response_type" -> data_has r k v -> arg k data = Some v) by (intros; unfold data; rewrite arg_dremove by auto; auto).
    assert (Hpar : forall k, lit k <> lit "response_type" -> param k data = lookup (lit k) (rq_data r)) by (intros; unfold param, data; apply lookup_dremove_other; auto).
    set (ad := {| ad_challenge := ch; ad_method := m; ad_redirect := uri; ad_scopes := scopes; ad_state := lookup (lit "state") (rq_data r); ad_nonce := nonce_of hs data |}).
    assert (Hvar : validate_authorization_request E hs data = V ad).
    { unfold validate_authorization_request. rewrite (Harg2 "code_challenge"%string ch) by (auto; discriminate).
      replace (Nat.ltb (length ch) 43 || Nat.ltb 128 (length ch))%bool with false by (symmetry; apply orb_false_iff; rewrite !Nat.ltb_ge; lia).
      rewrite !Hpar by discriminate. unfold data_has in Dm. rewrite Dm.
      assert (Hch : exists f, challenges E m = Some f) by (unfold challenges; destruct Hm as [->| ->]; simpl; eauto). destruct Hch as [f Hf]. rewrite Hf.
      rewrite (Harg2 "scope"%string (join [32] scopes)) by (auto; discriminate). unfold data_has in Duri. rewrite Duri. unfold ad. rewrite words_join by auto. reflexivity. }
    unfold authorize in H. rewrite Hvar, ret_forward in H. cbn [ad_scopes ad_state ad] in H.
    rewrite (proj2 (validate_scopes_V _ _ _ _) (conj Hsup Hal)) in H. rewrite ret_forward in H.
    apply call_assoc in H. apply call_forward in H as (code & t2 & -> & H & Hn2); [|auto]. cbn [observe] in *.
    apply call_assoc in H. apply call_forward in H as ([] & t3 & -> & H & Hn3); [|auto]. cbn [observe] in *.
    destruct (Hsec 64 code) as [Nc Sc]; [right; left; reflexivity|].
    assert (Hsd : forall k s, lookup k (rq_data r) = Some s -> scalar_str s) by (intros; eapply scalar_data_lookup; eauto).
    destruct (code_redirect_total uri code (lookup (lit "state") (rq_data r))) as (url & z & H1 & H2 & H3); auto.
    { eapply Hsd; exact Duri. } { intros s. apply Hsd. }
    change (ad_redirect ad) with uri in H. change (ad_state ad) with (lookup (lit "state") (rq_data r)) in H. rewrite H1, ret_forward, H2 in H. apply exec_Ret in H as [-> ->].
    exists z, code, ad. do 7 (split; [solve [auto]|]). auto. }
  apply exec_pexcept in H as [(e & t1 & t2 & -> & H1 & _)|[H _]].
  - exfalso. apply no_raise_app in Hn as [Hn _]. apply Hbody in H1 as (z & code & ad & Hz & _); auto; [discriminate| |].
    + intros n t Hin. apply (Hsec n t), in_app_iff. auto.
    + intros y Hin. apply Hfc, in_app_iff. auto.
  - apply Hbody; auto.
Qed.
End WithEnv.
