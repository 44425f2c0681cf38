From Coq Require Import String Ascii List NArith ZArith Bool Arith Lia.
From Verif Require Import Base BaseFacts Utf8 SpecCodec Json Url UrlFacts Webtools WebtoolsFacts Crypto Jwk EndpointFacts Prog ProgFacts Http OAuth SpecOAuth SpecHistory SpecFlow Example App SpecReaders SpecRfc RfcFacts CompleteFacts SpecApp AppFacts SpecLogin LoginFacts SpecError ErrorFacts SpecConsent.
Import ListNotations.
Open Scope N_scope.

(** With a session the page is the endpoint. *)
Lemma authorize_page E p hs w u uid sid tr x r : wb_cookie w = Some (uid, sid) -> is_get w = true -> passed_on w u r ->
  (exists t2, tr = OGetSession sid uid (V (Some (Some u))) :: map OLib t2 /\ exists y, exec (authorization_endpoint E p hs r) t2 y /\ x = match y with V z => V (RResponse z) | X e => X e end) ->
  aexec (application E p hs AuthorizePage w) tr x.
Proof.
  intros Hc Hg Hp (t2 & -> & y & He & ->). unfold application, session_user. rewrite Hc. unfold abind, acall. cbn [atry aexec].
  exists (V (Some (Some u))), (map OLib t2). split; [reflexivity|]. cbn [atry aret view]. rewrite Hg. unfold authorize_get, create_request. unfold passed_on in Hp. rewrite Hp. cbn [lift].
  unfold abind. cbn [atry]. apply aexec_atry. exists y, (map OLib t2), []. rewrite app_nil_r. split; [reflexivity|]. split; [apply aexec_library; exists t2; auto|].
  destruct y; cbn [create_response aret]; apply aexec_ARet; auto.
Qed.
Lemma authorize_page_only E p hs w u tr x r : aexec (application E p hs AuthorizePage w) tr x -> session_of w u tr -> is_get w = true -> passed_on w u r ->
  exists uid sid t2, wb_cookie w = Some (uid, sid) /\ tr = OGetSession sid uid (V (Some (Some u))) :: map OLib t2 /\
    exists y, exec (authorization_endpoint E p hs r) t2 y /\ x = match y with V z => V (RResponse z) | X e => X e end.
Proof.
  intros H (uid & sid & Hc & Hin) Hg Hp. exists uid, sid. unfold application in H. apply aexec_abind in H as [(ou & s1 & s2 & -> & H1 & H2)|(e & -> & H)].
  - destruct (session_exec _ _ _ H1) as [(Hn & _ & _)|(uid' & sid' & y & Hc' & -> & Ex)]; [congruence|]. rewrite Hc in Hc'. injection Hc' as <- <-.
    assert (Hy : y = V (Some (Some u))).
    { destruct Hin as [Hin|Hin]; [injection Hin as ->; reflexivity|]. exfalso. cbn [app] in Hin.
      destruct ou as [ou|]; [|apply aexec_ARet in H2 as [-> _]; destruct Hin].
      cbn [view] in H2. rewrite Hg in H2. destruct (lib_only E p hs AuthorizePage w ou s2 x) with (o := OGetSession sid uid (V (Some (Some u)))) as [z Hz]; [discriminate| |exact Hin|discriminate].
      cbn [view]. rewrite Hg. exact H2. }
    subst y. injection Ex as ->. cbn [view] in H2. rewrite Hg in H2. unfold authorize_get, create_request in H2. unfold passed_on in Hp. rewrite Hp in H2. cbn [lift] in H2.
    unfold abind in H2. cbn [atry] in H2. apply aexec_atry in H2 as (y & s3 & s4 & -> & H3 & H4). apply aexec_library in H3 as (t2 & -> & H3).
    exists t2. split; [exact Hc|]. destruct y as [z|e]; cbn [create_response aret] in H4; apply aexec_ARet in H4 as [-> ->]; rewrite app_nil_r; split; eauto.
  - exfalso. destruct (session_exec _ _ _ H) as [(Hn & _ & _)|(uid' & sid' & y & Hc' & -> & Ex)]; [congruence|]. destruct Hin as [Hin|[]]. injection Hin as _ _ ->. discriminate.
Qed.
Lemma is_get_GET w : wb_method w = chars "GET" -> is_get w = true.
Proof. intros H. apply gets. auto. Qed.

Theorem c156 E p hs w tr x u r cid uri scopes ch m c : aexec (application E p hs AuthorizePage w) tr x -> ano_raise tr -> wb_method w = chars "GET" -> session_of w u tr ->
  passed_on w u r -> scalar_data (rq_data r) -> secrets_ok (lib_calls tr) ->
  code_request p r u cid uri scopes ch m -> finds_client cid c (lib_calls tr) -> In uri (cl_redirects c) -> In (chars "code") (cl_responses c) -> incl scopes (cl_allowed c (Some scopes)) ->
  exists z code ad uid sid, x = V (RResponse z) /\
    tr = [OGetSession sid uid (V (Some (Some u))); OLib (OFindClient cid (V (Some c))); OLib (OSecretToken 64 (V code)); OLib (OSaveCode code ad c u (V tt))] /\
    ad_scopes ad = scopes /\ redirects z uri ((chars "code", code) :: state_params (lookup (chars "state") (rq_data r))).
Proof.
  intros H Hr Hm Hs Hp Hd Hk Hc Hf Hu Hres Hi. destruct (authorize_page_only _ _ _ _ _ _ _ _ H Hs (is_get_GET _ Hm) Hp) as (uid & sid & t2 & Hck & -> & y & He & ->).
  assert (El : lib_calls (OGetSession sid uid (V (Some (Some u))) :: map OLib t2) = t2) by (exact (lib_calls_map t2)).
  rewrite El in Hk, Hf.
  destruct (p_authorize_complete E p hs r t2 y u cid uri scopes ch m c) as (z & code & ad & -> & -> & _ & _ & _ & Hsc & _ & Hz); auto.
  { intros o Ho. apply (Hr (OLib o)). right. apply in_map, Ho. }
  { exists (wb_method w), (wb_url w), (wb_headers w), (Some (wb_body w)), (Some u). exact Hp. }
  exists z, code, ad, uid, sid. split; [reflexivity|]. split; [reflexivity|]. auto.
Qed.

Lemma agree_but d d' : agree_except authentication_params d d' -> agree authorization_params d d'.
Proof.
  intros H k Hk. apply H. intros Hin. assert (Hb : forallb (fun k => negb (existsb (fun k' => eqs (lit k) k') (map chars authentication_params))) authorization_params = true) by (vm_compute; reflexivity).
  rewrite forallb_forall in Hb. apply Hb in Hk. apply negb_true_iff in Hk. assert (existsb (fun k' => eqs (lit k) k') (map chars authentication_params) = true); [|congruence].
  apply existsb_exists. exists (lit k). split; [exact Hin|apply eqs_refl].
Qed.
Lemma page_same E p hs w w' u r r' tr x : wb_cookie w' = wb_cookie w -> wb_method w = chars "GET" -> wb_method w' = chars "GET" -> passed_on w u r -> passed_on w' u r' ->
  agree authorization_params (rq_data r) (rq_data r') -> rq_data r <> [] -> rq_data r' <> [] -> session_of w u tr ->
  aexec (application E p hs AuthorizePage w) tr x -> aexec (application E p hs AuthorizePage w') tr x.
Proof.
  intros Hc Hm Hm' Hp Hp' Ha Hn Hn' Hs H. destruct (authorize_page_only _ _ _ _ _ _ _ _ H Hs (is_get_GET _ Hm) Hp) as (uid & sid & t2 & Hck & -> & y & He & ->).
  eapply authorize_page; [rewrite Hc; exact Hck|apply is_get_GET; auto|exact Hp'|]. exists t2. split; [reflexivity|]. exists y. split; [|reflexivity].
  apply (p_authorization_ignores E p hs r r'); auto.
  unfold passed_on, make_request in Hp, Hp'. clear -Hp Hp'. 
  assert (Hq : forall m url h b v q, make_request m url h b v = Ok q -> rq_user q = v).
  { clear. intros m url h b v q Hq. unfold make_request in Hq. apply rbind_ok in Hq as (? & _ & Hq). apply rbind_ok in Hq as (? & _ & Hq). injection Hq as <-. reflexivity. }
  rewrite (Hq _ _ _ _ _ _ Hp), (Hq _ _ _ _ _ _ Hp'). reflexivity.
Qed.
Theorem c157 E p hs w w' u r r' tr x : wb_cookie w' = wb_cookie w -> wb_method w = chars "GET" -> wb_method w' = chars "GET" -> passed_on w u r -> passed_on w' u r' ->
  agree_except authentication_params (rq_data r) (rq_data r') -> rq_data r <> [] -> rq_data r' <> [] -> session_of w u tr ->
  (aexec (application E p hs AuthorizePage w) tr x <-> aexec (application E p hs AuthorizePage w') tr x).
Proof.
  intros Hc Hm Hm' Hp Hp' Ha Hn Hn' Hs. apply agree_but in Ha. split; [eapply page_same; eauto|]. eapply page_same; eauto.
  - intros k Hk. symmetry. auto.
  - destruct Hs as (uid & sid & H1 & H2). exists uid, sid. rewrite Hc. auto.
Qed.

(** Without a session the login page is shown, whatever the request says. *)
Theorem c157_none E p hs w tr x : aexec (application E p hs AuthorizePage w) tr x -> ano_raise tr -> wb_method w = chars "GET" -> is_origin (wb_base w) -> scalar_str (wb_url w) -> no_session tr ->
  exists q, x = V (RRedirect (wb_base w ++ chars "/auth/login?" ++ q) None).
Proof.
  intros H Hr Hm Ho Hsc Hno. unfold application in H.
  assert (Hv : aexec (authorize_get E p hs w None) [] x).
  { apply aexec_abind in H as [(ou & t1 & t2 & -> & H1 & H2)|(e & -> & H)].
    - destruct (session_exec _ _ _ H1) as [(_ & -> & Ex)|(uid & sid & y & Hc & -> & Ex)].
      + injection Ex as ->. cbn [view] in H2. rewrite (is_get_GET _ Hm) in H2. cbn [app].
        assert (t2 = []); [|subst; auto]. unfold authorize_get in H2. apply aexec_abind in H2 as [(a & s1 & s2 & -> & H2 & H3)|(e & _ & H2)]; apply aexec_ARet in H2 as [-> _]; [|reflexivity].
        apply redirect_exec in H3. subst. reflexivity.
      + assert (Hy : y = V None).
        { destruct y as [[u|]|e]; [exfalso; apply (Hno sid uid u); left; reflexivity|reflexivity|]. specialize (Hr _ (or_introl eq_refl)). discriminate. }
        subst y. injection Ex as ->. cbn [view] in H2. rewrite (is_get_GET _ Hm) in H2.
        assert (t2 = []); [|subst; exact H2].
        unfold authorize_get in H2. apply aexec_abind in H2 as [(a & s1 & s2 & -> & H2 & H3)|(e & _ & H2)]; apply aexec_ARet in H2 as [-> _]; [|reflexivity].
        apply redirect_exec in H3. subst. reflexivity.
    - exfalso. destruct (session_exec _ _ _ H) as [(_ & _ & Ex)|(uid & sid & y & _ & -> & Ex)]; [discriminate|].
      destruct y as [[[u|]|]|e']; try discriminate. specialize (Hr _ (or_introl eq_refl)). discriminate. }
  destruct (login_url_ok _ Ho) as (L1 & L2 & L3). destruct (urlencode_next (login_url w) _ Hsc) as [L HL].
  assert (HL' := HL). unfold urlencode in HL'. destruct (has _ _) in HL'; [discriminate|]. apply rbind_ok in HL' as (items & Hi & HL'). apply rbind_ok in HL' as (q & Hq & HL'). injection HL' as HL'.
  assert (El : location L = Ok L).
  { rewrite <- HL'. apply location_app. exists (login_url w), (63 :: q). split; [exact L3|]. split; [|reflexivity]. apply query_location. eapply urlencode_chars. exact Hq. }
  exists q. unfold authorize_get in Hv. rewrite HL in Hv. cbn [lift] in Hv. unfold abind in Hv. cbn [atry] in Hv. unfold redirect in Hv. rewrite El in Hv. cbn [lift] in Hv. apply aexec_ARet in Hv as [_ ->].
  assert (E2 : wb_base w ++ chars "/auth/login?" ++ q = L).
  { rewrite <- HL'. unfold login_url. rewrite <- app_assoc. reflexivity. }
  rewrite E2. reflexivity.
Qed.

(** ** Sessions *)
Lemma session_stays C aware t o t1 sid uid : app_step C aware t o t1 -> In (sid, uid) (tb_sessions t) -> o <> ODropSessions uid (V tt) -> In (sid, uid) (tb_sessions t1).
Proof.
  intros Hs Hin Hno. destruct Hs as [ch T e t|T e x t]; [|exact Hin]. destruct e; cbn [app_do fst snd aobserve] in *; auto.
  - destruct (existsb _ _); cbn [snd]; [auto|]. right. exact Hin.
  - cbn [tb_sessions set_sessions]. apply filter_In. split; [auto|]. cbn [snd]. apply negb_true_iff. destruct (eqs uid uid0) eqn:Ee; [|reflexivity]. apply eqs_true in Ee. subst. congruence.
  - destruct (ex_do C aware ch e (tb_store t)) as [x s]. exact Hin.
Qed.
Lemma session_lasts C aware sid uid : forall tr t t', app_steps C aware t tr t' -> In (sid, uid) (tb_sessions t) -> ~ In (ODropSessions uid (V tt)) tr -> In (sid, uid) (tb_sessions t').
Proof.
  induction tr as [|o tr IH]; intros t t' Hs Hin Hno; inversion Hs as [|? ? t1 ? ? Ho Ht]; subst; [auto|].
  eapply IH; [exact Ht| |intros H; apply Hno; right; exact H]. eapply session_stays; [exact Ho|exact Hin|]. intros ->. apply Hno. left. reflexivity.
Qed.
Lemma get_found C aware t sid uid y t1 : app_step C aware t (OGetSession sid uid (V y)) t1 -> In (sid, uid) (tb_sessions t) -> y <> None /\ (known t uid -> exists u, y = Some (Some u) /\ us_id u = uid).
Proof.
  intros H Hin. remember (OGetSession sid uid (V y)) as z eqn:Ez. destruct H as [ch T e t|T e x t]; [|destruct e; discriminate].
  destruct e; cbn [app_do fst snd aobserve] in Ez; try discriminate.
  injection Ez as -> -> Ez.
  assert (Ee : existsb (fun s => eqs (fst s) sid && eqs (snd s) uid) (tb_sessions t) = true) by (apply existsb_exists; exists (sid, uid); split; [auto|cbn [fst snd]; rewrite !eqs_refl; reflexivity]).
  rewrite Ee in Ez. subst y. split; [discriminate|]. intros Hk. apply known_find in Hk. destruct (find _ _) as [u|] eqn:Ef; [|congruence].
  exists u. split; [reflexivity|]. apply find_some in Ef as [_ Ef]. apply eqs_true in Ef. exact Ef.
Qed.
Theorem c158 C aware t t' l1 l2 l3 sid uid y : app_steps C aware t (l1 ++ ONewSession sid uid (V tt) :: l2 ++ OGetSession sid uid (V y) :: l3) t' ->
  ~ In (ODropSessions uid (V tt)) l2 -> y <> None /\ (known t uid -> exists u, y = Some (Some u) /\ us_id u = uid).
Proof.
  intros Hs Hno. apply app_steps_app in Hs as (t1 & Hs1 & Hs). inversion Hs as [|? ? t2 ? ? Ho Hs2]; subst. apply app_steps_app in Hs2 as (t3 & Hs2 & Hs3).
  inversion Hs3 as [|? ? t4 ? ? Hg _]; subst. apply new_session_step in Ho as Hin.
  assert (Hin3 : In (sid, uid) (tb_sessions t3)) by (eapply session_lasts; eauto).
  destruct (get_found _ _ _ _ _ _ _ Hg Hin3) as [H1 H2]. split; [exact H1|]. intros Hk. apply H2.
  assert (Hu : forall tr a b, app_steps C aware a tr b -> known a uid -> known b uid).
  { clear. induction tr as [|o tr IH]; intros a b Hs Hk; inversion Hs as [|? ? a1 ? ? Ho Ht]; subst; [auto|]. eapply IH; [exact Ht|].
    destruct (app_step_same _ _ _ _ _ Ho) as (_ & Hu & _). unfold known. rewrite Hu. exact Hk. }
  eapply Hu; [exact Hs2|]. eapply Hu; [|eapply Hu; [exact Hs1|exact Hk]]. econstructor; [exact Ho|constructor].
Qed.

(** ** Guesses *)
Definition quiet (o : aobs) : bool := match o with OGetSession _ _ _ | OFindAccount _ _ | OUserSession _ _ | OSessionToken _ => true | _ => false end.
Lemma quiet_step C aware t o t1 : app_step C aware t o t1 -> quiet o = true -> t1 = t.
Proof. intros H Hq. destruct H as [ch T e t|T e x t]; [|reflexivity]. destruct e; try discriminate; reflexivity. Qed.
Lemma quiet_steps C aware : forall tr t t', app_steps C aware t tr t' -> forallb quiet tr = true -> t' = t.
Proof.
  induction tr as [|o tr IH]; intros t t' Hs Hq; inversion Hs as [|? ? t1 ? ? Ho Ht]; subst; [reflexivity|]. cbn [forallb] in Hq. apply andb_true_iff in Hq as [H1 H2].
  apply (quiet_step _ _ _ _ _ Ho) in H1. subst t1. eapply IH; eauto.
Qed.
Lemma login_quiet E p hs w tr x o : aexec (application E p hs LoginPage w) tr x -> In o tr -> quiet o = true \/ exists sid uid y, o = ONewSession sid uid y.
Proof.
  intros H Hin. destruct (application_exec _ _ _ _ _ _ _ H) as [(ou & t2 & H1 & Et & H2)|Hall]; [|left; destruct (Hall _ Hin) as (s & u & y & ->); reflexivity].
  rewrite Et in Hin. apply in_app_iff in Hin as [Hin|Hin].
  - left. destruct (session_exec _ _ _ H1) as [(_ & E1 & _)|(uid & sid & y & _ & E1 & _)]; rewrite E1 in Hin; [destruct Hin|destruct Hin as [<-|[]]; reflexivity].
  - cbn [view] in H2. destruct (is_get w).
    { unfold login_get in H2. destruct ou; [apply redirect_exec in H2|apply aexec_ARet in H2 as [H2 _]]; subst t2; destruct Hin. }
    destruct (is_post w); [|apply aexec_ARet in H2 as [-> _]; destruct Hin].
    destruct (login_traces _ _ _ _ H2) as [->|(_ & _ & [(y & ->)|(a & y & rest & -> & _ & [(-> & _)|(_ & [(z & ->)|(t & q & ->)])])])].
    + destruct Hin.
    + destruct Hin as [<-|[]]. left. reflexivity.
    + destruct Hin as [<-|[<-|[]]]; left; reflexivity.
    + destruct Hin as [<-|[<-|[<-|[]]]]; left; reflexivity.
    + destruct Hin as [<-|[<-|[<-|[<-|[]]]]]; [left; reflexivity..|right; eauto].
Qed.
Lemma guesses_nothing E p hs C aware qs log t t' : app_running E p hs qs log -> app_steps C aware t (map snd log) t' -> guesses t qs -> t' = t.
Proof.
  intros HR Hs Hg. eapply quiet_steps; [exact Hs|]. apply forallb_forall. intros o Hin. apply in_map_iff in Hin as ([n o'] & <- & Hin). cbn [snd].
  pose proof HR as [R1 R2]. destruct (R1 _ _ Hin) as [[g w] Hq]. pose proof (Hg _ (nth_error_In _ _ Hq)) as [Hl _]. cbn [fst] in Hl. subst g.
  destruct (R2 _ _ _ Hq) as (tr & x & Hx). destruct (login_quiet _ _ _ _ _ _ o' Hx) as [Ho|(sid & uid & y & ->)]; [apply in_app_iff; left; apply acalls_In; exact Hin|exact Ho|].
  exfalso. apply in_split in Hin as (l1 & l2 & El). destruct (new_submits _ _ _ _ _ _ _ _ _ _ _ _ _ _ _ HR Hs El) as (q & Hq' & Hsub).
  rewrite Hq in Hq'. injection Hq' as <-. exact (proj2 (Hg _ (nth_error_In _ _ Hq)) _ Hsub).
Qed.
Theorem c159 E p hs C aware qs log t t' w tr x t2 a : app_running E p hs qs log -> app_steps C aware t (map snd log) t' -> guesses t qs ->
  aexec (application E p hs LoginPage w) tr x -> app_steps C aware t' tr t2 -> ano_raise tr -> wb_method w = chars "POST" -> stranger t w -> good_form (wb_form w) -> identifies t w a ->
  t' = t /\ exists url sid, leads x url (Some (a_id a, sid)) /\ In (sid, a_id a) (tb_sessions t2).
Proof.
  intros HR Hs Hg H Hs2 Hr Hm Hst Hf Hi. pose proof (guesses_nothing _ _ _ _ _ _ _ _ _ HR Hs Hg) as ->. split; [reflexivity|].
  destruct (c143 C aware E p hs w tr x t t2 H Hs2 Hr Hm Hst) as (_ & _ & H3). destruct (H3 a Hf Hi) as (url & sid & H4 & _ & H5). eauto.
Qed.

(** ** What may be left out *)
Lemma redirected_page cfg z code w : (exists ps, redirects z (cf_error_url cfg) ps /\ carries_error ps code w) -> chars code <> chars "invalid_scope" ->
  exists uri ps e, redirects z uri ps /\ (forall v, In (chars "error", v) ps <-> v = e) /\ e <> chars "invalid_scope".
Proof. intros (ps & H1 & H2 & _) Hc. exists (cf_error_url cfg), ps, (chars code). auto. Qed.
Lemma redirected_back r z code w : (exists uri ps, data_has r "redirect_uri" uri /\ redirects z uri ps /\ carries_error ps code w) -> chars code <> chars "invalid_scope" ->
  exists uri ps e, redirects z uri ps /\ (forall v, In (chars "error", v) ps <-> v = e) /\ e <> chars "invalid_scope".
Proof. intros (uri & ps & _ & H1 & H2 & _) Hc. exists uri, ps, (chars code). auto. Qed.
Theorem c160 E p hs r tr z : exec (authorization_endpoint E p hs r) tr (V z) -> made r -> no_oauth_raise tr -> tokens_ok tr -> ~ supplied r "scope" ->
  exists uri ps e, redirects z uri ps /\ (forall v, In (chars "error", v) ps <-> v = e) /\ e <> chars "invalid_scope".
Proof.
  intros H Hm Hn Ht Hs. destruct (p_authorization_checks E p hs r tr z H Hm Hn Ht) as (v & Hd & Hv). unfold authorization_checks, request_checks in Hd. cbn [app decided] in Hd.
  do 12 (destruct Hd as [[_ Hd]|[_ ->]]; [|first [eapply redirected_page; [exact Hv|vm_compute; discriminate]|eapply redirected_back; [exact Hv|vm_compute; discriminate]]]).
  destruct Hd as [[Hk Hd]|[_ ->]]; [contradiction|]. eapply redirected_back; [exact Hv|vm_compute; discriminate].
Qed.
Theorem c161 E p hs r tr z : exec (authorization_endpoint E p hs r) tr (V z) -> made r -> no_oauth_raise tr -> tokens_ok tr -> ~ supplied r "redirect_uri" ->
  exists ps, redirects z (cf_error_url (pv_config p)) ps /\ forall v, In (chars "error", v) ps <-> v = chars "invalid_request".
Proof.
  intros H Hm Hn Ht Hs. destruct (p_authorization_checks E p hs r tr z H Hm Hn Ht) as (v & Hd & Hv). unfold authorization_checks, request_checks in Hd. cbn [app decided] in Hd.
  destruct Hd as [[_ Hd]|[_ ->]]; [destruct Hd as [[Hk Hd]|[_ ->]]; [contradiction|]|]; destruct Hv as (ps & H1 & H2 & _); eauto.
Qed.
