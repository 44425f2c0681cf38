(** Proofs about applications with their own grants, authentication methods and hooks (Ext.v). *)
From Coq Require Import String Ascii List NArith ZArith Bool Lia.
From Verif Require Import Base BaseFacts SpecCodec Utf8 Utf8Facts Json Url Webtools WebtoolsFacts Prog Http OAuth ProgFacts SpecOAuth OAuthFacts EndpointFacts Ext SpecExt SpecUrl UrlQuoteFacts SpecWrite WriteFacts.
Import ListNotations.
Open Scope N_scope.

Lemma xexec_Ret {A} (x : res A) tr r : xexec (XRet x) tr r <-> tr = [] /\ r = x.
Proof. simpl. tauto. Qed.
Lemma xexec_Do {A T} (e : xeff T) (k : res T -> xprog A) tr r :
  xexec (XDo e k) tr r <-> exists x tr', tr = xobserve e x :: tr' /\ xexec (k x) tr' r.
Proof. simpl. tauto. Qed.
Lemma xexec_call {T} (e : xeff T) tr r : xexec (xcall e) tr r <-> tr = [xobserve e r].
Proof.
  unfold xcall. rewrite xexec_Do. split.
  - intros (x & tr' & -> & H). apply xexec_Ret in H as [-> ->]. auto.
  - intros ->. exists r, []. split; auto. apply xexec_Ret. auto.
Qed.
Lemma xexec_ptry {A B} (p : xprog A) (f : res A -> xprog B) : forall tr r,
  xexec (xtry p f) tr r <-> exists x t1 t2, tr = t1 ++ t2 /\ xexec p t1 x /\ xexec (f x) t2 r.
Proof.
  induction p as [x | T e k IH]; intros tr r; simpl xtry.
  - split.
    + intros H. exists x, [], tr. simpl; auto.
    + intros (x' & t1 & t2 & -> & H1 & H2). apply xexec_Ret in H1 as [-> ->]. auto.
  - rewrite xexec_Do. split.
    + intros (x & tr' & -> & H). apply IH in H as (y & t1 & t2 & -> & H1 & H2).
      exists y, (xobserve e x :: t1), t2. split; [auto|]. split; [|auto]. apply xexec_Do. eauto.
    + intros (y & t1 & t2 & -> & H1 & H2). apply xexec_Do in H1 as (x & t1' & -> & H1).
      exists x, (t1' ++ t2). split; [auto|]. apply IH. eauto 6.
Qed.
Lemma xexec_pbind {A B} (p : xprog A) (f : A -> xprog B) tr r :
  xexec (xbind p f) tr r <->
  (exists a t1 t2, tr = t1 ++ t2 /\ xexec p t1 (V a) /\ xexec (f a) t2 r) \/ (exists e, r = X e /\ xexec p tr (X e)).
Proof.
  unfold xbind. rewrite xexec_ptry. split.
  - intros (x & t1 & t2 & -> & H1 & H2). destruct x as [a | e].
    + left. eauto 6.
    + right. apply xexec_Ret in H2 as [-> ->]. rewrite app_nil_r. eauto.
  - intros [(a & t1 & t2 & -> & H1 & H2) | (e & -> & H)].
    + exists (V a), t1, t2. auto.
    + exists (X e), tr, []. rewrite app_nil_r. split; [auto|]. split; [auto|]. apply xexec_Ret. auto.
Qed.
Lemma xexec_pexcept {A} (p : xprog A) h tr r :
  xexec (xexcept p h) tr r <->
  (exists e t1 t2, tr = t1 ++ t2 /\ xexec p t1 (X (OA e)) /\ xexec (h e) t2 r) \/
  (xexec p tr r /\ forall e, r <> X (OA e)).
Proof.
  unfold xexcept. rewrite xexec_ptry. split.
  - intros (x & t1 & t2 & -> & H1 & H2). destruct x as [a | [e | e]].
    + right. apply xexec_Ret in H2 as [-> ->]. rewrite app_nil_r. split; [auto|]. congruence.
    + left. eauto 6.
    + right. apply xexec_Ret in H2 as [-> ->]. rewrite app_nil_r. split; [auto|]. congruence.
  - intros [(e & t1 & t2 & -> & H1 & H2) | [H N]].
    + exists (X (OA e)), t1, t2. auto.
    + exists r, tr, []. rewrite app_nil_r. split; [auto|]. split; [auto|].
      destruct r as [a | [e | e]]; [|congruence|]; apply xexec_Ret; auto.
Qed.
Lemma xexec_pfinally {A} (p : xprog A) d tr r :
  xexec (xfinally p d) tr r <->
  exists x t1 y t2, tr = t1 ++ t2 /\ xexec p t1 x /\ xexec d t2 y /\ r = match y with V _ => x | X e => X e end.
Proof.
  unfold xfinally. rewrite xexec_ptry. split.
  - intros (x & t1 & t2 & -> & H1 & H2). apply xexec_ptry in H2 as (y & t3 & t4 & -> & H3 & H4).
    exists x, t1, y, t3. destruct y; apply xexec_Ret in H4 as [-> ->]; rewrite app_nil_r; auto.
  - intros (x & t1 & y & t2 & -> & H1 & H2 & ->). exists x, t1, t2. split; [auto|]. split; [auto|].
    apply xexec_ptry. exists y, t2, []. rewrite app_nil_r. split; [auto|]. split; [auto|].
    destruct y; apply xexec_Ret; auto.
Qed.


(** ** Authentication *)

Lemma allowed_iff methods name :
  ((match methods with [] => false | _ => true end) && negb (ins name methods))%bool = false <-> allowed_method methods name.
Proof.
  unfold allowed_method. destruct methods as [|a l]; cbn [andb].
  - split; auto.
  - rewrite Bool.negb_false_iff, ins_In. split; [auto|]. intros [H|H]; [discriminate|auto].
Qed.

Lemma decided_skip m ms methods r tr y : ~ allowed_method methods (xm_name m) ->
  (decided (m :: ms) methods r tr y <-> decided ms methods r tr y).
Proof.
  intros Hn. split.
  - intros (l1 & m' & l2 & t1 & t2 & H1 & H2 & H3 & H4 & H5 & H6). destruct l1 as [|m1 l1]; cbn [app] in H1; injection H1 as <- H1; [contradiction|].
    subst. inversion H3; subst; [|contradiction]. exists l1, m', l2, t1, t2. auto 8.
  - intros (l1 & m' & l2 & t1 & t2 & -> & H2 & H3 & H4 & H5 & H6). exists (m :: l1), m', l2, t1, t2. repeat split; auto. apply declined_skip; auto.
Qed.
Lemma decided_try m ms methods r tr y : allowed_method methods (xm_name m) ->
  (decided (m :: ms) methods r tr y <->
   (xexec (xm_auth m r) tr y /\ y <> V None) \/ exists t1 t2, tr = t1 ++ t2 /\ xexec (xm_auth m r) t1 (V None) /\ decided ms methods r t2 y).
Proof.
  intros Ha. split.
  - intros (l1 & m' & l2 & t1 & t2 & H1 & -> & H3 & H4 & H5 & H6). destruct l1 as [|m1 l1]; cbn [app] in H1; injection H1 as <- H1.
    + inversion H3; subst. left. auto.
    + subst. inversion H3; subst; [contradiction|]. right. exists t0, (t3 ++ t2). rewrite app_assoc. repeat split; auto. exists l1, m', l2, t3, t2. auto 8.
  - intros [[H1 H2]|(t1 & t2 & -> & H1 & (l1 & m' & l2 & t3 & t4 & -> & -> & H3 & H4 & H5 & H6))].
    + exists [], m, ms, [], tr. repeat split; auto. constructor.
    + exists (m :: l1), m', l2, (t1 ++ t3), t4. rewrite app_assoc. repeat split; auto. apply declined_none; auto.
Qed.
Lemma declined_try m ms methods r tr : allowed_method methods (xm_name m) ->
  (declined methods r (m :: ms) tr <-> exists t1 t2, tr = t1 ++ t2 /\ xexec (xm_auth m r) t1 (V None) /\ declined methods r ms t2).
Proof.
  intros Ha. split.
  - intros H. inversion H; subst; [contradiction|]. eauto 6.
  - intros (t1 & t2 & -> & H1 & H2). apply declined_none; auto.
Qed.

Lemma p_xauth ms methods r : forall tr x, xexec (xauthenticate ms methods r) tr x <->
  match x with V c => authenticated ms methods r tr c | X e => refused ms methods r tr e end.
Proof.
  induction ms as [|m ms IH]; intros tr x; cbn [xauthenticate].
  - unfold xthrow. rewrite xexec_Ret. split.
    + intros [-> ->]. right. split; [constructor|reflexivity].
    + destruct x as [c|e].
      * intros (l1 & m & l2 & t1 & t2 & H & _). destruct l1; discriminate.
      * intros [(l1 & m & l2 & t1 & t2 & H & _)|[H ->]]; [destruct l1; discriminate|]. inversion H; subst. auto.
  - destruct (_ && _)%bool eqn:Eb.
    + assert (Hn : ~ allowed_method methods (xm_name m)) by (rewrite <- allowed_iff; congruence).
      rewrite IH. destruct x as [c|e]; unfold authenticated, refused; rewrite (decided_skip _ _ _ _ _ _ Hn); [tauto|].
      enough (declined methods r ms tr <-> declined methods r (m :: ms) tr) by tauto. split; intros H; [apply declined_skip; auto|].
      inversion H; subst; [auto|contradiction].
    + apply allowed_iff in Eb. rewrite xexec_pbind. split.
      * intros [(oc & t1 & t2 & -> & H1 & H2)|(e & -> & H1)].
        -- destruct oc as [c|].
           ++ apply xexec_Ret in H2 as [-> ->]. rewrite app_nil_r. apply (decided_try _ _ _ _ _ _ Eb). left. split; [auto|discriminate].
           ++ apply IH in H2. destruct x as [c|e].
              ** apply (decided_try _ _ _ _ _ _ Eb). right. eauto.
              ** destruct H2 as [H2|[H2 ->]]; [left; apply (decided_try _ _ _ _ _ _ Eb); right; eauto|right]. split; [|auto]. apply declined_try; eauto.
        -- left. apply (decided_try _ _ _ _ _ _ Eb). left. split; [auto|discriminate].
      * destruct x as [c|e].
        -- intros H. apply (decided_try _ _ _ _ _ _ Eb) in H as [[H1 H2]|(t1 & t2 & -> & H1 & H2)].
           ++ left. exists (Some c), tr, []. rewrite app_nil_r. split; [auto|]. split; [auto|]. apply xexec_Ret. auto.
           ++ left. exists None, t1, t2. split; [auto|]. split; [auto|]. apply IH. exact H2.
        -- intros [H|[H ->]].
           ++ apply (decided_try _ _ _ _ _ _ Eb) in H as [[H1 H2]|(t1 & t2 & -> & H1 & H2)]; [right; eauto|].
              left. exists None, t1, t2. split; [auto|]. split; [auto|]. apply IH. left. exact H2.
           ++ apply (declined_try _ _ _ _ _ Eb) in H as (t1 & t2 & -> & H1 & H2). left. exists None, t1, t2. split; [auto|]. split; [auto|].
              apply IH. right. auto.
Qed.

(** ** Endpoints *)

Lemma find_chosen name gs t g : find (fun h => named (name h) t) gs = Some g <-> chosen name gs t g.
Proof.
  unfold chosen, named. induction gs as [|h gs IH]; cbn [find].
  - split; [discriminate|]. intros (l1 & l2 & H & _). destruct l1; discriminate.
  - destruct (name h) as [s|] eqn:En.
    + destruct (eqs s t) eqn:Es.
      * apply eqs_true in Es. subst s. split.
        -- intros [= <-]. exists [], gs. repeat split; auto.
        -- intros (l1 & l2 & H & H1 & H2). destruct l1 as [|h' l1]; cbn [app] in H; injection H as <- H; [auto|]. exfalso. apply (H2 h); [left; auto|auto].
      * apply eqs_false in Es. rewrite IH. split; intros (l1 & l2 & H & H1 & H2).
        -- exists (h :: l1), l2. subst. repeat split; auto. intros h' [<-|Hi]; [congruence|auto].
        -- destruct l1 as [|h' l1]; cbn [app] in H; injection H as <- H; [congruence|]. exists l1, l2. subst. repeat split; auto. intros h' Hi. apply H2. right. auto.
    + rewrite IH. split; intros (l1 & l2 & H & H1 & H2).
      * exists (h :: l1), l2. subst. repeat split; auto. intros h' [<-|Hi]; [congruence|auto].
      * destruct l1 as [|h' l1]; cbn [app] in H; injection H as <- H; [congruence|]. exists l1, l2. subst. repeat split; auto. intros h' Hi. apply H2. right. auto.
Qed.
Lemma error_dict_dump e : dump e = error_dict e.
Proof. destruct e as [k d u s h]. destruct d, u, s; reflexivity. Qed.
Lemma json_answered st h v : ~ In (lit "Content-Type") (keys h) ->
  lookup (lit "Cache-Control") h = Some (PStr (lit "no-store")) -> lookup (lit "Pragma") h = Some (PStr (lit "no-cache")) -> NoDup (keys h) ->
  json_answer st v (JSONResponse st h v).
Proof.
  intros Hc H1 H2 Hd. unfold json_answer, JSONResponse. destruct (to_bytes (json_dumps v)) as [b|e] eqn:Eb; cbn [lift vbind].
  2:{ right. split; [intros b Hb; apply octets_iff in Hb; congruence|]. apply utf8_encode_err in Eb. subst. reflexivity. }
  left. eexists. split; [reflexivity|]. cbn [rs_status rs_body]. split; [auto|]. split; [apply octets_iff; auto|].
  assert (Hk : NoDup (keys (dupdate [(lit "Content-Type", PStr (lit "application/json"))] h))).
  { rewrite dupdate_app by (constructor; [exact Hc|exact Hd]). constructor; [exact Hc|exact Hd]. }
  assert (Hl : forall k w, match lookup k h with Some x => Some x | None => lookup k [(lit "Content-Type", PStr (lit "application/json"))] end = Some (PStr w) ->
    lookup k (parse_headers (PStr (lit "application/json")) h) = Some (PStr w)).
  { intros k w H. unfold parse_headers, FullDict. rewrite lookup_full by exact Hk. rewrite lookup_dupdate, lookup_rev by exact Hd. rewrite H. reflexivity. }
  unfold header_is. cbn [rs_headers]. split; [|split]; apply Hl.
  - apply lookup_None in Hc. rewrite Hc. reflexivity.
  - rewrite H1. reflexivity.
  - rewrite H2. reflexivity.
Qed.
Lemma token_answered e : ~ In (lit "Content-Type") (keys (oe_headers e)) -> NoDup (keys (oe_headers e)) ->
  json_answer 400 (PDict (error_dict e)) (JSONResponse 400 (dupdate (oe_headers e) token_headers) (PDict (dump e))).
Proof.
  intros H1 H2. rewrite error_dict_dump. apply json_answered.
  - rewrite <- lookup_None, lookup_dupdate. apply lookup_None in H1. rewrite H1. reflexivity.
  - rewrite lookup_dupdate. reflexivity.
  - rewrite lookup_dupdate. reflexivity.
  - apply dupdate_NoDup. exact H2.
Qed.
Lemma ok_answered v : json_answer 200 v (JSONResponse 200 token_headers v).
Proof.
  apply json_answered; [|reflexivity|reflexivity|].
  - rewrite <- lookup_None. reflexivity.
  - repeat constructor; cbn; intuition discriminate.
Qed.

Definition xtoken_body (p : xprovider) (r : request) : xprog response :=
  xdo _ <- XRet (match rq_data r with [] => oraise InvalidRequest (lit "Missing request parameters.") None | _ => V tt end) ;;
  xdo g <- XRet (xvalidate_grant_type p (param "grant_type" (rq_data r))) ;;
  xdo c <- xauthenticate (xp_methods p) (xg_methods g) r ;;
  if negb (existsb (named (xg_type g)) (cl_grants c)) then xthrow (oerr UnauthorizedClient None None [])
  else xdo t <- xg_token g (dremove (lit "grant_type") (rq_data r)) c ;;
       XRet (JSONResponse 200 token_headers t).
Definition xtoken_error (e : oauth_error) : res response :=
  JSONResponse 400 (dupdate (oe_headers e) token_headers) (PDict (dump e)).
Lemma xtoken_eq p r : xtoken_endpoint p r = xexcept (xtoken_body p r) (fun e => XRet (xtoken_error e)).
Proof. reflexivity. Qed.
Lemma xexec_except {A} (b : xprog A) (h : oauth_error -> res A) tr x :
  xexec (xexcept b (fun e => XRet (h e))) tr x <-> exists y, xexec b tr y /\ x = match y with X (OA e) => h e | y => y end.
Proof.
  rewrite xexec_pexcept. split.
  - intros [(e & t1 & t2 & -> & H1 & H2)|[H1 H2]].
    + apply xexec_Ret in H2 as [-> ->]. rewrite app_nil_r. exists (X (OA e)). auto.
    + exists x. split; [auto|]. destruct x as [a|[e|e]]; auto. destruct (H2 e eq_refl).
  - intros (y & H & ->). destruct y as [a|[e|e]].
    + right. split; [auto|discriminate].
    + left. exists e, tr, []. rewrite app_nil_r. split; [auto|]. split; [auto|]. apply xexec_Ret. auto.
    + right. split; [auto|discriminate].
Qed.
Lemma error_answered e : grant_answer (X (OA e)) (xtoken_error e).
Proof. intros H1 H2. apply token_answered; auto. Qed.
Lemma named_In n t l : n = Some t -> (existsb (named n) l = true <-> In t l).
Proof.
  intros ->. rewrite existsb_exists. cbn [named]. split.
  - intros (y & Hy & H). apply eqs_true in H. subst. auto.
  - intros H. exists t. split; [auto|]. apply eqs_true. auto.
Qed.
Lemma p_xtoken p r tr x : xexec (xtoken_endpoint p r) tr x ->
  (exists t g c t1 t2 y, data_has r "grant_type" t /\ t <> [] /\ chosen xg_type (xp_grants p) t g /\
     authenticated (xp_methods p) (xg_methods g) r t1 c /\ In t (cl_grants c) /\
     tr = t1 ++ t2 /\ xexec (xg_token g (dremove (lit "grant_type") (rq_data r)) c) t2 y /\ grant_answer y x) \/
  (exists e, grant_answer (X e) x /\
     ((tr = [] /\ forall t g, data_has r "grant_type" t -> t <> [] -> ~ chosen xg_type (xp_grants p) t g) \/
      exists t g, data_has r "grant_type" t /\ t <> [] /\ chosen xg_type (xp_grants p) t g /\
        (refused (xp_methods p) (xg_methods g) r tr e \/
         exists c oe, authenticated (xp_methods p) (xg_methods g) r tr c /\ ~ In t (cl_grants c) /\ e = OA oe /\ oe_kind oe = UnauthorizedClient))).
Proof.
  rewrite xtoken_eq. intros H. apply xexec_except in H as (y & H & ->). unfold xtoken_body in H.
  assert (Hans : forall e, grant_answer (X e) (match e with OA e => xtoken_error e | Py _ => X e end)).
  { intros [e|e]; [apply error_answered|reflexivity]. }
  apply xexec_pbind in H as [([] & t1 & t2 & -> & H1 & H)|(e & -> & H1)]; apply xexec_Ret in H1 as [-> H1]; cbn [app].
  2:{ right. exists e. split; [apply Hans|]. left. split; [auto|]. intros t g Hd. unfold data_has in Hd. destruct (rq_data r); discriminate. }
  apply xexec_pbind in H as [(g & t1 & t3 & -> & H2 & H)|(e & -> & H2)]; apply xexec_Ret in H2 as [-> H2]; cbn [app].
  2:{ right. exists e. split; [apply Hans|]. left. split; [auto|]. intros t g Hd Ht Hc. unfold data_has in Hd. unfold param in H2. rewrite Hd in H2.
      cbn [xvalidate_grant_type] in H2. destruct t as [|a t]; [congruence|]. apply find_chosen in Hc. rewrite Hc in H2. discriminate. }
  assert (Hg : exists t, data_has r "grant_type" t /\ t <> [] /\ chosen xg_type (xp_grants p) t g).
  { unfold param in H2. unfold data_has. destruct (lookup (lit "grant_type") (rq_data r)) as [[|a t]|]; cbn [xvalidate_grant_type] in H2; try discriminate.
    exists (a :: t). split; [auto|]. split; [discriminate|]. apply find_chosen. destruct (find _ _); [|discriminate]. injection H2 as ->. auto. }
  destruct Hg as (t & Hd & Ht & Hc). assert (Hn : xg_type g = Some t) by (destruct Hc as (? & ? & _ & Hn & _); exact Hn).
  apply xexec_pbind in H as [(c & t1 & t2 & -> & H3 & H)|(e & -> & H3)]; apply p_xauth in H3; cbn in H3.
  2:{ right. exists e. split; [apply Hans|]. right. exists t, g. auto. }
  destruct (existsb (named (xg_type g)) (cl_grants c)) eqn:Eg; cbn [negb] in H.
  - apply (named_In _ _ _ Hn) in Eg. left.
    apply xexec_pbind in H as [(v & t3 & t4 & -> & H4 & H)|(e & -> & H4)].
    + apply xexec_Ret in H as [-> ->]. rewrite app_nil_r. exists t, g, c, t1, t3, (V v). repeat (split; [auto|]).
      assert (Ha := ok_answered v). cbn [grant_answer]. unfold json_answer in *. destruct Ha as [(a & -> & Ha)|(Hb & ->)]; [left|right]; eauto.
    + exists t, g, c, t1, t2, (X e). repeat (split; [auto|]). apply Hans.
  - apply xexec_Ret in H as [-> ->]. rewrite app_nil_r. right. eexists. split; [apply Hans|]. right. exists t, g. repeat (split; [auto|]). right. exists c. eexists. split; [auto|].
    split; [|split; [reflexivity|reflexivity]]. intros Hi. apply (named_In _ _ _ Hn) in Hi. congruence.
Qed.
Lemma p_xtoken_complete p r t g c t1 t2 y : data_has r "grant_type" t -> t <> [] -> chosen xg_type (xp_grants p) t g ->
  authenticated (xp_methods p) (xg_methods g) r t1 c -> In t (cl_grants c) ->
  xexec (xg_token g (dremove (lit "grant_type") (rq_data r)) c) t2 y ->
  exists x, xexec (xtoken_endpoint p r) (t1 ++ t2) x /\ grant_answer y x.
Proof.
  intros Hd Ht Hc Ha Hi Hy.
  assert (Hn : xg_type g = Some t) by (destruct Hc as (? & ? & _ & Hn & _); exact Hn).
  exists (match y with V v => JSONResponse 200 token_headers v | X (OA e) => xtoken_error e | X (Py e) => X (Py e) end).
  split. 2:{ destruct y as [v|[e|e]]; [apply ok_answered|apply error_answered|reflexivity]. }
  rewrite xtoken_eq. apply xexec_except. exists (match y with V v => JSONResponse 200 token_headers v | X e => X e end). split.
  - unfold xtoken_body. apply xexec_pbind. left. exists tt, [], (t1 ++ t2). split; [auto|]. split.
    { apply xexec_Ret. split; [auto|]. unfold data_has in Hd. destruct (rq_data r); [discriminate|auto]. }
    apply xexec_pbind. left. exists g, [], (t1 ++ t2). split; [auto|]. split.
    { apply xexec_Ret. split; [auto|]. unfold data_has in Hd. unfold param. rewrite Hd. unfold xvalidate_grant_type. destruct t as [|a t]; [congruence|].
      apply find_chosen in Hc. rewrite Hc. auto. }
    apply xexec_pbind. left. exists c, t1, t2. split; [auto|]. split; [apply p_xauth; exact Ha|].
    assert (Eg := proj2 (named_In _ _ (cl_grants c) Hn) Hi). rewrite Eg. cbn [negb].
    apply xexec_pbind. destruct y as [v|e]; [left|right; eauto]. exists v, t2, []. rewrite app_nil_r. split; [auto|]. split; [auto|]. apply xexec_Ret. auto.
  - destruct y as [v|[e|e]]; [|auto|auto]. assert (Hv := ok_answered v). unfold json_answer in Hv. destruct Hv as [(a & -> & Hv)|(Hb & ->)]; auto.
Qed.

Definition xauthz_body (p : xprovider) (r : request) : xprog response :=
  let data := rq_data r in
  xdo (uri, cid, rt) <- XRet (validate_request data) ;;
  match rq_user r with
  | None => xthrow (oerr AccessDenied None None [])
  | Some u =>
      xdo g <- XRet (xvalidate_response_type p rt (param "state" data)) ;;
      xdo c <- emb (validate_client cid uri (match xg_response g with Some t => t | None => [] end) (param "state" data)) ;;
      xdo url <- xg_authorize g (dremove (lit "response_type") data) c u ;;
      XRet (RedirectResponse url [])
  end.
Lemma xauthz_eq p r : xauthorization_endpoint p r = xexcept (xauthz_body p r) (fun e => XRet (error_redirect (xp_config p) (rq_data r) e)).
Proof. reflexivity. Qed.
Lemma xexec_emb {A} (q : prog A) : forall t x, xexec (emb q) t x <-> exists tr, t = map XO tr /\ exec q tr x.
Proof.
  induction q as [y|T e k IH]; intros t x; cbn [emb].
  - rewrite xexec_Ret. split.
    + intros [-> ->]. exists []. split; [auto|]. apply exec_Ret. auto.
    + intros (tr & -> & H). apply exec_Ret in H as [-> ->]. auto.
  - rewrite xexec_Do. split.
    + intros (y & t' & -> & H). apply IH in H as (tr & -> & H). exists (observe e y :: tr). split; [auto|]. apply exec_Do. eauto.
    + intros (tr & -> & H). apply exec_Do in H as (y & tr' & -> & H). exists y, (map XO tr'). split; [auto|]. apply IH. eauto.
Qed.

Lemma redirect_answered cfg uri url : redirect_answer cfg uri (V url) (RedirectResponse url []).
Proof.
  unfold redirect_answer, RedirectResponse. destruct (location url) as [l|e] eqn:El; cbn [lift vbind].
  2:{ right. split; [intros l Hl; apply location_iff in Hl; congruence|]. apply quote_err in El. subst. reflexivity. }
  left. exists l. eexists. split; [apply location_iff, El|]. split; [reflexivity|]. split; [reflexivity|]. split; [reflexivity|]. cbn [rs_headers]. unfold full_setitem. cbn [is_none]. apply lookup_dset_same.
Qed.
Lemma error_sent cfg uri data e : (match oe_kind e with Fatal _ => True | _ => lookup (lit "redirect_uri") data = Some uri end) ->
  redirect_answer cfg uri (X (OA e)) (error_redirect cfg data e).
Proof.
  intros Hu a Ha. unfold error_redirect in Ha. unfold target.
  assert (Hd : FullDict (dump e) [] = map (fun kv => (fst kv, PStr (snd kv))) (error_pairs e)).
  { rewrite full_dump, error_dict_dump. reflexivity. }
  assert (H : forall url, (let? u := lift (urlencode url (dump e)) in RedirectResponse u (oe_headers e)) = V a ->
    redirects a url (error_pairs e)).
  { intros url H. apply vbind_V in H as (w & H1 & H2). apply lift_V in H1. eapply redirect_params; eauto. }
  destruct (oe_kind e); unfold param in Ha; try rewrite Hu in Ha; apply H; auto.
Qed.

Lemma xclient_exec cid uri rt state t x : xexec (emb (validate_client cid uri rt state)) t x ->
  (exists c, t = [XO (OFindClient cid (V (Some c)))] /\ x = V c /\ In uri (cl_redirects c) /\ In rt (cl_responses c)) \/
  (exists y e, t = [XO (OFindClient cid y)] /\ x = X e /\ forall c, y = V (Some c) -> ~ (In uri (cl_redirects c) /\ In rt (cl_responses c))).
Proof.
  intros H. apply xexec_emb in H as (tr & -> & H). unfold validate_client in H.
  apply exec_pbind in H as [(oc & t1 & t2 & -> & H1 & H)|(e & -> & H1)]; apply exec_call in H1; cbn [observe] in H1.
  2:{ subst. right. exists (X e), e. split; [reflexivity|]. split; [auto|]. discriminate. }
  subst t1. destruct oc as [c|].
  2:{ apply exec_Ret in H as [-> ->]. right. exists (V None). eexists. split; [reflexivity|]. split; [reflexivity|]. discriminate. }
  destruct (ins uri (cl_redirects c)) eqn:E1; cbn [negb] in H.
  2:{ apply exec_Ret in H as [-> ->]. right. exists (V (Some c)). eexists. split; [reflexivity|]. split; [reflexivity|]. intros c' [= <-] [H _]. apply ins_In in H. congruence. }
  destruct (ins rt (cl_responses c)) eqn:E2; cbn [negb] in H; apply exec_Ret in H as [-> ->].
  - left. exists c. split; [reflexivity|]. split; [reflexivity|]. rewrite <- !ins_In. auto.
  - right. exists (V (Some c)). eexists. split; [reflexivity|]. split; [reflexivity|]. intros c' [= <-] [_ H]. apply ins_In in H. congruence.
Qed.
Lemma p_xauthz p r tr x : xexec (xauthorization_endpoint p r) tr x ->
  (exists u uri cid rt g c t y, rq_user r = Some u /\ data_has r "redirect_uri" uri /\ data_has r "client_id" cid /\ data_has r "response_type" rt /\ rt <> [] /\
     chosen xg_response (xp_grants p) rt g /\ In uri (cl_redirects c) /\ In rt (cl_responses c) /\
     tr = XO (OFindClient cid (V (Some c))) :: t /\ xexec (xg_authorize g (dremove (lit "response_type") (rq_data r)) c u) t y /\
     redirect_answer (xp_config p) uri y x) \/
  (exists uri e, (data_has r "redirect_uri" uri \/ exists oe code, e = OA oe /\ oe_kind oe = Fatal code) /\ redirect_answer (xp_config p) uri (X e) x /\
     (tr = [] \/ exists cid y, data_has r "client_id" cid /\ tr = [XO (OFindClient cid y)] /\
        forall c rt, y = V (Some c) -> data_has r "response_type" rt -> ~ (In uri (cl_redirects c) /\ In rt (cl_responses c)))).
Proof.
  rewrite xauthz_eq. intros H. apply xexec_except in H as (y & H & ->). unfold xauthz_body in H.
  apply xexec_pbind in H as [([[uri cid] rt] & t1 & t2 & -> & H1 & H)|(e & -> & H1)]; apply xexec_Ret in H1 as [-> H1]; cbn [app]; symmetry in H1.
  2:{ apply validate_request_X in H1 as (e' & -> & He). right. exists [], (OA e'). destruct He as [Hk _]. split; [right; exists e'; eexists; split; [reflexivity|exact Hk]|].
      split; [|auto]. apply error_sent. rewrite Hk. exact I. }
  apply validate_request_V in H1 as (Hu & Hc & Hr). apply arg_Some in Hu as [Hu _], Hc as [Hc _], Hr as [Hr Hr0].
  assert (Hans : forall e, redirect_answer (xp_config p) uri (X e) (match e with OA e => error_redirect (xp_config p) (rq_data r) e | Py _ => X e end)).
  { intros [e|e]; [apply error_sent; destruct (oe_kind e); auto|reflexivity]. }
  destruct (rq_user r) as [u|] eqn:Eu.
  2:{ apply xexec_Ret in H as [-> ->]. right. exists uri. eexists. split; [left; exact Hu|]. split; [apply Hans|auto]. }
  apply xexec_pbind in H as [(g & t1 & t3 & -> & H2 & H)|(e & -> & H2)]; apply xexec_Ret in H2 as [-> H2]; cbn [app].
  2:{ right. exists uri, e. split; [left; exact Hu|]. split; [apply Hans|auto]. }
  assert (Hg : chosen xg_response (xp_grants p) rt g).
  { apply find_chosen. unfold xvalidate_response_type in H2. destruct (find _ _); [|discriminate]. injection H2 as ->. auto. }
  assert (Hn : xg_response g = Some rt) by (destruct Hg as (? & ? & _ & Hn & _); exact Hn). rewrite Hn in H.
  apply xexec_pbind in H as [(c & t1 & t2 & -> & H3 & H)|(e & -> & H3)]; apply xclient_exec in H3 as [(c' & -> & E3 & H4 & H5)|(y' & e' & -> & E3 & H4)]; try discriminate.
  - injection E3 as <-. left. cbn [app].
    apply xexec_pbind in H as [(url & t3 & t4 & -> & H6 & H)|(e & -> & H6)].
    + apply xexec_Ret in H as [-> ->]. rewrite app_nil_r. exists u, uri, cid, rt, g, c, t3, (V url). repeat (split; [auto|]).
      assert (Ha := redirect_answered (xp_config p) uri url). unfold redirect_answer in *. destruct Ha as [(l & a0 & H7 & -> & Ha)|(H7 & Ha)]; [left; eauto 8|rewrite Ha; right; auto].
    + exists u, uri, cid, rt, g, c, t2, (X e). repeat (split; [auto|]). apply Hans.
  - right. exists uri, e. split; [left; exact Hu|]. split; [apply Hans|]. right. exists cid, y'. split; [exact Hc|]. split; [auto|]. intros c rt' Hy Hrt. unfold data_has in Hrt.
    assert (rt' = rt) by congruence. subst rt'. apply H4. exact Hy.
Qed.
Lemma p_xauthz_complete p r u uri cid rt g c t y : rq_user r = Some u -> data_has r "redirect_uri" uri -> uri <> [] -> data_has r "client_id" cid -> cid <> [] ->
  data_has r "response_type" rt -> rt <> [] -> chosen xg_response (xp_grants p) rt g -> In uri (cl_redirects c) -> In rt (cl_responses c) ->
  xexec (xg_authorize g (dremove (lit "response_type") (rq_data r)) c u) t y ->
  exists x, xexec (xauthorization_endpoint p r) (XO (OFindClient cid (V (Some c))) :: t) x /\ redirect_answer (xp_config p) uri y x.
Proof.
  intros Eu Hu Hu0 Hc Hc0 Hr Hr0 Hg Hiu Hir Hy.
  assert (Hn : xg_response g = Some rt) by (destruct Hg as (? & ? & _ & Hn & _); exact Hn).
  exists (match y with V url => RedirectResponse url [] | X (OA e) => error_redirect (xp_config p) (rq_data r) e | X (Py e) => X (Py e) end).
  split. 2:{ destruct y as [v|[e|e]]; [apply redirect_answered|apply error_sent; destruct (oe_kind e); auto|reflexivity]. }
  rewrite xauthz_eq. apply xexec_except. exists (match y with V url => RedirectResponse url [] | X e => X e end). split.
  - unfold xauthz_body. apply xexec_pbind. left. exists (uri, cid, rt), [], (XO (OFindClient cid (V (Some c))) :: t). split; [auto|]. split.
    { apply xexec_Ret. split; [auto|]. unfold validate_request.
      assert (A1 : arg "redirect_uri" (rq_data r) = Some uri) by (apply arg_Some; auto).
      assert (A2 : arg "client_id" (rq_data r) = Some cid) by (apply arg_Some; auto).
      assert (A3 : arg "response_type" (rq_data r) = Some rt) by (apply arg_Some; auto).
      rewrite A1, A2, A3. unfold data_has in Hu. destruct (rq_data r); [discriminate|auto]. }
    rewrite Eu. apply xexec_pbind. left. exists g, [], (XO (OFindClient cid (V (Some c))) :: t). split; [auto|]. split.
    { apply xexec_Ret. split; [auto|]. unfold xvalidate_response_type. apply find_chosen in Hg. rewrite Hg. auto. }
    rewrite Hn. apply xexec_pbind. left. exists c, [XO (OFindClient cid (V (Some c)))], t. split; [auto|]. split.
    { apply xexec_emb. exists [OFindClient cid (V (Some c))]. split; [auto|]. unfold validate_client. apply exec_pbind. left. exists (Some c), [OFindClient cid (V (Some c))], [].
      split; [auto|]. split; [apply exec_call; auto|]. apply ins_In in Hiu, Hir. rewrite Hiu, Hir. apply exec_Ret. auto. }
    apply xexec_pbind. destruct y as [v|e]; [left|right; eauto]. exists v, t, []. rewrite app_nil_r. split; [auto|]. split; [auto|]. apply xexec_Ret. auto.
  - destruct y as [v|[e|e]]; [|auto|auto]. assert (Hv := redirect_answered (xp_config p) uri v). unfold redirect_answer in Hv.
    destruct Hv as [(l & a0 & _ & -> & _)|(_ & ->)]; auto.
Qed.

(** Revocation *)
Lemma p_xrevoke p r tr x c token hint y : xexec (xrevocation_endpoint p r) tr x -> In (XO (ORevokeToken c token hint y)) tr ->
  (forall m t z, In m (xp_methods p) -> xexec (xm_auth m r) t z -> ~ In (XO (ORevokeToken c token hint y)) t) ->
  exists t, tr = t ++ [XO (ORevokeToken c token hint y)] /\ authenticated (xp_methods p) [] r t c /\ form_has r "token" token /\ token <> [] /\ hint = lookup (lit "token_type_hint") (form r).
Proof.
  intros H Hin Hno. unfold xrevocation_endpoint in H. apply xexec_pexcept in H.
  assert (Hd : forall l t, incl l (xp_methods p) -> declined [] r l t -> ~ In (XO (ORevokeToken c token hint y)) t).
  { intros l t Hl Hd. induction Hd; [tauto|apply IHHd; intros m' Hm; apply Hl; right; auto|]. rewrite in_app_iff. intros [Hi|Hi].
    - eapply Hno; eauto. apply Hl. left. auto.
    - revert Hi. apply IHHd. intros m' Hm. apply Hl. right. auto. }
  assert (Hdec : forall t z, decided (xp_methods p) [] r t z -> ~ In (XO (ORevokeToken c token hint y)) t).
  { intros t z (l1 & m & l2 & t1 & t2 & E & -> & H1 & _ & H2 & _). rewrite in_app_iff. intros [Hi|Hi].
    - revert Hi. apply (Hd l1); [|auto]. rewrite E. intros m' Hm. apply in_or_app. auto.
    - revert Hi. eapply Hno; eauto. rewrite E. apply in_or_app. right. left. auto. }
  assert (Hb : forall t z, In (XO (ORevokeToken c token hint y)) t -> xexec (xdo c <- xauthenticate (xp_methods p) [] r ;;
     match arg "token" (form r) with
     | None => xret None
     | Some token =>
         match arg "token_type_hint" (form r) with
         | Some h =>
             if negb (ins h supported_tokens) then xthrow (oerr UnsupportedTokenType None None [])
             else xdo _ <- xcall (Lib (RevokeToken c token (param "token_type_hint" (form r)))) ;;
                  xdo x <- XRet (JSONResponse 200 [] PNone) ;; xret (Some x)
         | None => xdo _ <- xcall (Lib (RevokeToken c token (param "token_type_hint" (form r)))) ;;
                   xdo x <- XRet (JSONResponse 200 [] PNone) ;; xret (Some x)
         end
     end) t z ->
     exists t', t = t' ++ [XO (ORevokeToken c token hint y)] /\ authenticated (xp_methods p) [] r t' c /\ form_has r "token" token /\ token <> [] /\ hint = lookup (lit "token_type_hint") (form r)).
  { intros t z Hi Hx. apply xexec_pbind in Hx as [(c' & t1 & t2 & -> & H1 & H2)|(e & -> & H1)]; apply p_xauth in H1.
    2:{ exfalso. destruct H1 as [H1|[H1 _]]; [apply (Hdec _ _ H1); auto|]. revert Hi. apply (Hd (xp_methods p)); auto. apply incl_refl. }
    cbn in H1. apply in_app_iff in Hi as [Hi|Hi]; [destruct (Hdec _ _ H1 Hi)|].
    destruct (arg "token" (form r)) as [tk|] eqn:Et; [|apply xexec_Ret in H2 as [-> _]; destruct Hi]. apply arg_Some in Et as [Et Et0].
    assert (Hk : xexec (xdo _ <- xcall (Lib (RevokeToken c' tk (param "token_type_hint" (form r)))) ;; xdo x <- XRet (JSONResponse 200 [] PNone) ;; xret (Some x)) t2 z).
    { destruct (arg "token_type_hint" (form r)); [|exact H2]. destruct (ins s supported_tokens); [exact H2|]. cbn [negb] in H2. apply xexec_Ret in H2 as [-> _]. destruct Hi. }
    assert (Ht2 : exists y', t2 = [XO (ORevokeToken c' tk (param "token_type_hint" (form r)) y')]).
    { apply xexec_pbind in Hk as [([] & t3 & t4 & -> & H3 & H4)|(e & -> & H3)]; apply xexec_call in H3; cbn [xobserve observe] in H3; subst; [|eexists; reflexivity].
      apply xexec_pbind in H4 as [(v & t5 & t6 & -> & H5 & H6)|(e & -> & H5)]; apply xexec_Ret in H5 as [-> _]; [apply xexec_Ret in H6 as [-> _]|]; eexists; reflexivity. }
    destruct Ht2 as (y' & ->). destruct Hi as [Hi|[]]. injection Hi as E1 E2 E3 E4. subst c' tk hint y'. exists t1. split; [reflexivity|]. split; [exact H1|]. split; [exact Et|]. split; [exact Et0|reflexivity]. }
  destruct H as [(e & t1 & t2 & -> & H1 & H2)|[H1 _]].
  - assert (t2 = []). { apply xexec_pbind in H2 as [(v & t5 & t6 & -> & H5 & H6)|(e' & -> & H5)]; apply xexec_Ret in H5 as [-> _]; [apply xexec_Ret in H6 as [-> _]|]; auto. }
    subst t2. rewrite app_nil_r in *. eapply Hb; eauto.
  - eapply Hb; eauto.
Qed.
