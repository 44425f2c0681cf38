(** Proofs about the authorization code grant with hooks of the application (Ext.v). *)
From Coq Require Import String Ascii List NArith ZArith Bool Lia.
From Verif Require Import Base BaseFacts SpecCodec Utf8 Json Url Webtools WebtoolsFacts Prog Http OAuth ProgFacts SpecOAuth OAuthFacts GrantFacts EndpointFacts AuthzFacts TokenFacts Ext SpecExt ExtFacts SpecUrl UrlWriteFacts.
Import ListNotations.
Open Scope N_scope.

(** ** Running hooks *)

Lemma xrun_V {B} (give : B -> pdict -> xprog pdict) l : forall d t d',
  xexec (xrun l give d) t (V d') <-> exists us, chain give l d t us /\ d' = fold_left dupdate us d.
Proof.
  induction l as [|h l IH]; intros d t d'; cbn [xrun].
  - unfold xret. rewrite xexec_Ret. split.
    + intros [-> [= ->]]. exists []. split; [constructor|auto].
    + intros (us & H & ->). inversion H; subst. auto.
  - rewrite xexec_pbind. split.
    + intros [(u & t1 & t2 & -> & H1 & H2)|(e & H & _)]; [|discriminate]. apply IH in H2 as (us & H2 & ->). exists (u :: us). split; [constructor; auto|auto].
    + intros (us & H & ->). inversion H; subst. left. exists u, t1, t2. split; [auto|]. split; [auto|]. apply IH. exists us0. auto.
Qed.
Lemma xrun_X {B} (give : B -> pdict -> xprog pdict) l : forall d t e, xexec (xrun l give d) t (X e) ->
  exists l1 h l2 us t1 t2, l = l1 ++ h :: l2 /\ t = t1 ++ t2 /\ chain give l1 d t1 us /\ xexec (give h (fold_left dupdate us d)) t2 (X e).
Proof.
  induction l as [|h l IH]; intros d t e H; cbn [xrun] in H.
  - apply xexec_Ret in H as [_ H]. discriminate.
  - apply xexec_pbind in H as [(u & t1 & t2 & -> & H1 & H2)|(e' & [= <-] & H)].
    + apply IH in H2 as (l1 & h' & l2 & us & t3 & t4 & -> & -> & H2 & H3). exists (h :: l1), h', l2, (u :: us), (t1 ++ t3), t4.
      rewrite app_assoc. split; [auto|]. split; [auto|]. split; [constructor; auto|auto].
    + exists [], h, l, [], [], t. split; [auto|]. split; [auto|]. split; [constructor|auto].
Qed.
Lemma updated_fold us : forall d, updated d us (fold_left dupdate us d).
Proof.
  unfold updated. induction us as [|u us IH]; intros d Hn k; cbn [fold_left latest]; [auto|]. inversion Hn; subst.
  rewrite IH by auto. rewrite lookup_dupdate, lookup_rev by auto. reflexivity.
Qed.

Section WithEnv.
Variable E : env.

Lemma texts_V l : forall ws, texts l = V ws <-> l = map PStr ws.
Proof.
  induction l as [|v l IH]; intros ws; cbn [texts].
  - split; [intros [= <-]; auto|]. destruct ws; [auto|discriminate].
  - destruct v; try (split; [discriminate|destruct ws; discriminate]). split.
    + intros H. apply vbind_V in H as (t & H1 & [= <-]). apply IH in H1. subst. auto.
    + destruct ws as [|w ws]; [discriminate|]. intros [= -> H]. apply IH in H. rewrite H. reflexivity.
Qed.
Lemma scopes_at_V d o : scopes_at d = V o ->
  match o with None => lookup (lit "scopes") d = Some PNone | Some l => lookup (lit "scopes") d = Some (PList (map PStr l)) end.
Proof.
  unfold scopes_at. destruct (lookup (lit "scopes") d) as [[]|]; try discriminate.
  - intros [= <-]. auto.
  - intros H. apply vbind_V in H as (t & H1 & [= <-]). apply texts_V in H1. subst. auto.
Qed.
Lemma text_at_V k d s : text_at k d = V s <-> member d k s.
Proof. unfold text_at, member. destruct (lookup (lit k) d) as [[]|]; split; intros H; try discriminate; congruence. Qed.
Lemma text_at_X k d e : text_at k d = X e -> exists p, e = Py p.
Proof. unfold text_at. destruct (lookup (lit k) d) as [[]|]; intros H; try discriminate; injection H as <-; eauto. Qed.

Lemma requested_scopes_V cfg l c state : validate_requested_scopes cfg (Some l) c state = V tt -> incl l (cf_scopes cfg) /\ incl l (cl_allowed c (Some l)).
Proof.
  cbn [validate_requested_scopes]. intros H. apply vbind_V in H as ([] & H1 & H2). split.
  - clear H2. induction l as [|s l IH]; [intros x []|]. cbn [check_supported] in H1. destruct (ins s (cf_scopes cfg)) eqn:Es; [|discriminate].
    apply ins_In in Es. intros x [<-|Hx]; [auto|]. apply IH; auto.
  - destruct (subsetb _ _) eqn:Es; [|discriminate]. apply subsetb_incl. auto.
Qed.
Lemma ad_members data ad : validate_authorization_request E no_hooks data = V ad -> authorization_members data (authorization_dict ad).
Proof.
  intros H. apply var_V in H as (H1 & H2 & H3 & H4 & (s & H5 & H6) & H7 & H8 & _). apply arg_Some in H1 as [H1 _]. apply arg_Some in H5 as [H5 _].
  unfold authorization_members. exists (ad_challenge ad), (ad_method ad), (ad_redirect ad), s, (ad_scopes ad), (pstr (ad_state ad)).
  repeat (split; [auto; fail|]). split; [intros w; rewrite H6; apply words_In|]. split; [|reflexivity].
  rewrite H8. unfold param. destruct (lookup (lit "state") data); reflexivity.
Qed.
Lemma p_xauthorize cfg hs data c u t url : xexec (xcode_authorize E cfg hs data c u) t (V url) ->
  exists base us d code state t1 t2 us' resp uri, authorization_members data base /\
    chain (fun h _ => h data) (xh_areq hs) base t1 us /\ updated base us d /\
    t = t1 ++ XO (OSecretToken 64 (V code)) :: XSave code d c u (V tt) :: t2 /\
    (lookup (lit "scopes") d = Some PNone \/
     exists l, lookup (lit "scopes") d = Some (PList (map PStr l)) /\ incl l (cf_scopes cfg) /\ incl l (cl_allowed c (Some l))) /\
    (lookup (lit "state") d = Some state \/ lookup (lit "state") d = None /\ state = PNone) /\
    chain (fun h _ => h code d c u) (xh_ares hs) [(lit "code", PStr code); (lit "state", state)] t2 us' /\
    updated [(lit "code", PStr code); (lit "state", state)] us' resp /\
    member d "redirect_uri" uri /\ url_with uri resp url.
Proof.
  unfold xcode_authorize, xvalidate_authorization_request. intros H.
  apply xexec_pbind in H as [(d & t1 & t2 & -> & H1 & H)|(e & ? & _)]; [|discriminate].
  apply xexec_pbind in H1 as [(ad & t3 & t4 & -> & H1 & H2)|(e & ? & _)]; [|discriminate]. apply xexec_Ret in H1 as [-> H1]. symmetry in H1. cbn [app].
  apply xrun_V in H2 as (us & Hch & ->). set (d := fold_left dupdate us (authorization_dict ad)) in *.
  apply xexec_pbind in H as [(scopes & t3 & t5 & -> & H2 & H)|(e & ? & _)]; [|discriminate]. apply xexec_Ret in H2 as [-> H2]. symmetry in H2. cbn [app].
  apply xexec_pbind in H as [(state & t3 & t6 & -> & H3 & H)|(e & ? & _)]; [|discriminate]. apply xexec_Ret in H3 as [-> H3]. symmetry in H3. cbn [app].
  apply xexec_pbind in H as [([] & t3 & t7 & -> & H5 & H)|(e & ? & _)]; [|discriminate]. apply xexec_Ret in H5 as [-> H5]. symmetry in H5. cbn [app].
  apply xexec_pbind in H as [(code & t3 & t8 & -> & H6 & H)|(e & ? & _)]; [|discriminate]. apply xexec_call in H6. cbn in H6. subst t3.
  apply xexec_pbind in H as [([] & t3 & t9 & -> & H6 & H)|(e & ? & _)]; [|discriminate]. apply xexec_call in H6. cbn in H6. subst t3.
  apply xexec_pbind in H as [(resp & t3 & t10 & -> & H6 & H)|(e & ? & _)]; [|discriminate]. apply xrun_V in H6 as (us' & Hch' & ->).
  apply xexec_pbind in H as [(uri & t11 & t12 & -> & H7 & H)|(e & ? & _)]; [|discriminate]. apply xexec_Ret in H7 as [-> H7]. symmetry in H7. cbn [app].
  apply xexec_Ret in H as [-> H]. symmetry in H. apply lift_V in H. rewrite app_nil_r.
  exists (authorization_dict ad), us, d, code, (pstr state), t4, t3, us'. eexists. exists uri.
  split; [apply ad_members; auto|]. split; [auto|]. split; [apply updated_fold|]. split; [reflexivity|].
  split. { apply scopes_at_V in H2. destruct scopes as [l|]; [|auto]. right. exists l. split; [auto|]. eapply requested_scopes_V; eauto. }
  split. { unfold state_at in H3. destruct (lookup (lit "state") d) as [[]|]; try discriminate; injection H3 as <-; auto. }
  split; [auto|]. split; [apply updated_fold|]. split; [apply text_at_V; auto|]. apply urlencode_iff. exact H.
Qed.

(** ** Exchange *)

Lemma create_token_members a life rt sc : token_members life a rt sc (create_token a life rt sc).
Proof. unfold token_members, create_token, FullDict. cbn [dupdate fold_left]. destruct rt, sc; reflexivity. Qed.

(** A code that is looked up after the hooks is deleted in the end. *)
Lemma p_xcode_token cfg hs data c t x : (forall b, bytes_ok (e_sha256 E b)) -> xexec (xcode_token E cfg hs data c) t x ->
  (exists code t1 y, lookup (lit "code") data = Some code /\ t = t1 ++ [XO (ODeleteCode code y)] /\ (forall e, y = X e -> x = X e) /\ (exists e, x = X e)) \/
  (lookup (lit "code") data = None /\ t = [] /\ exists e, x = X (Py e)) \/
  (exists code uri verifier base us d t1 t2, lookup (lit "code") data = Some code /\ lookup (lit "redirect_uri") data = Some uri /\ lookup (lit "code_verifier") data = Some verifier /\
     base = [(lit "code", PStr code); (lit "redirect_uri", PStr uri); (lit "code_verifier", PStr verifier)] /\
     chain (fun h _ => h data) (xh_treq hs) base t1 us /\ d = fold_left dupdate us base /\ t = t1 ++ t2 /\
     ((t2 = [] /\ (forall s, ~ member d "code" s) /\ exists e, x = X (Py e)) \/
      exists code' y t3 y', member d "code" code' /\ t2 = XO (OGetCode code' y) :: t3 ++ [XO (ODeleteCode code' y')] /\
        (forall e, y' = X e -> x = X e) /\
        (forall token, x = V token -> exists ac uri' verifier' now off exp u at_ rt tr t4 tok us', y = V (Some ac) /\
           member d "redirect_uri" uri' /\ member d "code_verifier" verifier' /\
           In uri' (cl_redirects c) /\ ac_client ac = cl_id c /\ ac_redirect ac = uri' /\ pkce_ok (e_sha256 E) (ac_method ac) (ac_challenge ac) verifier' /\
           ac_exp ac = Naive exp /\ (now < exp)%Z /\
           t3 = XO (ONow (V (now, off))) :: XO (OFindUser (ac_user ac) (V (Some u))) :: XO (OCreateAT c (OwnUser u) (ac_scopes ac) (V at_)) :: map XO tr ++ t4 /\
           (if in_dec (list_eq_dec N.eq_dec) (lit "refresh_token") (cl_grants c) then tr = [OCreateRT c (OwnUser u) (ac_scopes ac) (V rt)] else tr = [] /\ rt = None) /\
           token_members (cf_token_lifespan cfg) at_ rt (ac_scopes ac) tok /\
           chain (fun h token => h token d c u) (xh_tres hs) tok t4 us' /\ updated tok us' token))).
Proof.
  intros Hb. unfold xcode_token, xvalidate_code_request. intros H. apply xexec_ptry in H as (v & t1 & t2 & -> & H1 & H).
  apply xexec_pbind in H1 as [([[code uri] verifier] & t3 & t4 & -> & H1 & H2)|(e & -> & H1)]; apply xexec_Ret in H1 as [-> H1]; symmetry in H1; cbn [app].
  - apply validate_code_request_V in H1 as (A1 & A2 & A3). apply arg_Some in A1 as [A1 _], A2 as [A2 _], A3 as [A3 _].
    destruct v as [d|e].
    + apply xrun_V in H2 as (us & Hch & ->). right. right. set (base := [(lit "code", PStr code); (lit "redirect_uri", PStr uri); (lit "code_verifier", PStr verifier)]) in *.
      exists code, uri, verifier, base, us, (fold_left dupdate us base), t4, t2. do 7 (split; [auto|]).
      set (d := fold_left dupdate us base) in *. apply xexec_pfinally in H as (z & t5 & y' & t6 & -> & Hx & Hd & ->).
      unfold xcode_exchange in Hx. unfold xdelete in Hd. destruct (text_at "code" d) as [code'|e] eqn:Ec.
      2:{ left. destruct (text_at_X _ _ _ Ec) as (p & ->). apply xexec_pbind in Hd as [(? & ? & ? & _ & Hd & _)|(e' & -> & Hd)]; apply xexec_Ret in Hd as [-> Hd]; [discriminate|].
          apply xexec_pbind in Hx as [(? & ? & ? & _ & Hx & _)|(e2 & -> & Hx)]; apply xexec_Ret in Hx as [-> Hx]; [discriminate|]. split; [auto|]. split.
          - intros s Hs. apply text_at_V in Hs. congruence.
          - injection Hd as ->. eauto. }
      right. apply xexec_pbind in Hd as [(c' & t7 & t8 & -> & Hd & Hd')|(e' & -> & Hd)]; apply xexec_Ret in Hd as [-> Hd]; [|discriminate]. injection Hd as ->.
      apply xexec_call in Hd'. cbn in Hd'. subst t8. cbn [app].
      apply xexec_pbind in Hx as [(c' & t7 & t8 & -> & Hx1 & Hx)|(e' & -> & Hx1)]; apply xexec_Ret in Hx1 as [-> Hx1]; [|discriminate]. injection Hx1 as ->. cbn [app].
      assert (Hm : member d "code" code') by (apply text_at_V; auto).
      apply xexec_pbind in Hx as [(oc & t7 & t9 & -> & Hx1 & Hx)|(e' & -> & Hx1)]; apply xexec_call in Hx1; cbn in Hx1; subst.
      2:{ exists code', (X e'), [], y'. split; [auto|]. split; [auto|]. split; [intros e ->; auto|]. intros token Ht. destruct y'; discriminate. }
      exists code', (V oc), t9, y'. split; [auto|]. split; [auto|]. split; [intros e ->; auto|]. intros token Ht. destruct y' as [[]|e]; [|discriminate]. subst z.
      destruct oc as [ac|]; [|apply xexec_Ret in Hx as [_ Hx]; discriminate].
      apply xexec_pbind in Hx as [(uri' & t5 & t6 & -> & Hx1 & Hx)|(e' & ? & _)]; [|discriminate]. apply xexec_Ret in Hx1 as [-> Hx1]. symmetry in Hx1. apply text_at_V in Hx1. cbn [app].
      apply xexec_pbind in Hx as [(verifier' & t5 & t7 & -> & Hx2 & Hx)|(e' & ? & _)]; [|discriminate]. apply xexec_Ret in Hx2 as [-> Hx2]. symmetry in Hx2. apply text_at_V in Hx2. cbn [app].
      apply xexec_pbind in Hx as [([] & t5 & t8 & -> & Hx3 & Hx)|(e' & ? & _)]; [|discriminate]. apply xexec_emb in Hx3 as (tr & -> & Hx3).
      apply vac_exec in Hx3 as (now & off & exp & -> & (B1 & B2 & B3) & B4 & B5 & B6). cbn [map app].
      apply xexec_pbind in Hx as [(ou & t5 & t9 & -> & Hx4 & Hx)|(e' & ? & _)]; [|discriminate]. apply xexec_call in Hx4. cbn in Hx4. subst t5. cbn [app].
      destruct ou as [u|]; [|apply xexec_Ret in Hx as [_ Hx]; discriminate].
      apply xexec_pbind in Hx as [(at_ & t5 & t10 & -> & Hx4 & Hx)|(e' & ? & _)]; [|discriminate]. apply xexec_call in Hx4. cbn in Hx4. subst t5. cbn [app].
      apply xexec_pbind in Hx as [(rt & t5 & t11 & -> & Hx4 & Hx)|(e' & ? & _)]; [|discriminate]. apply xexec_emb in Hx4 as (tr & -> & Hx4).
      apply xrun_V in Hx as (us' & Hch' & ->).
      exists ac, uri', verifier', now, off, exp, u, at_, rt, tr, t11. eexists. exists us'. split; [auto|]. split; [auto|]. split; [auto|]. split; [auto|]. split; [auto|]. split; [auto|].
      split; [apply verifies_pkce; auto|]. split; [auto|]. split; [auto|]. split; [reflexivity|]. split.
      { unfold maybe_refresh in Hx4. destruct (in_dec _ _ _) as [Hi|Hi].
        - apply ins_In in Hi. rewrite Hi in Hx4. apply exec_call in Hx4. exact Hx4.
        - apply ins_nIn in Hi. rewrite Hi in Hx4. apply exec_Ret in Hx4 as [-> [= ->]]. auto. }
      split; [apply create_token_members|]. split; [exact Hch'|apply updated_fold].
    + left. apply xrun_X in H2 as (l1 & h & l2 & us & t5 & t6 & E1 & -> & H2 & H3).
      apply xexec_pfinally in H as (z & t7 & y' & t8 & -> & Hx & Hd & ->). apply xexec_Ret in Hx as [-> ->]. cbn [app].
      unfold param in Hd. rewrite A1 in Hd. unfold xdelete in Hd. apply xexec_pbind in Hd as [(c' & t7 & t9 & -> & Hd & Hd')|(e' & -> & Hd)]; apply xexec_Ret in Hd as [-> Hd]; [|discriminate].
      injection Hd as ->. apply xexec_call in Hd'. cbn in Hd'. subst t9. exists code, (t5 ++ t6), y'. split; [auto|]. split; [reflexivity|]. split; [intros e9 ->; reflexivity|]. destruct y'; eexists; reflexivity.
  - apply xexec_pfinally in H as (z & t7 & y' & t8 & -> & Hx & Hd & ->). apply xexec_Ret in Hx as [-> ->]. cbn [app].
    unfold xdelete in Hd. unfold param in Hd. destruct (lookup (lit "code") data) as [code|] eqn:Ec.
    + apply xexec_pbind in Hd as [(c' & t7 & t9 & -> & Hd & Hd')|(e' & -> & Hd)]; apply xexec_Ret in Hd as [-> Hd]; [|discriminate]. injection Hd as ->.
      apply xexec_call in Hd'. cbn in Hd'. subst t9. left. exists code, [], y'. split; [auto|]. split; [reflexivity|]. split; [intros e9 ->; reflexivity|]. destruct y'; eexists; reflexivity.
    + apply xexec_pbind in Hd as [(c' & t7 & t9 & -> & Hd & Hd')|(e' & -> & Hd)]; apply xexec_Ret in Hd as [-> Hd]; [discriminate|]. injection Hd as ->. right. left. eauto.
Qed.
Lemma p_deleted cfg hs data c t x code : (forall b, bytes_ok (e_sha256 E b)) -> xexec (xcode_token E cfg hs data c) t x -> lookup (lit "code") data = Some code ->
  (exists t0 k y, t = t0 ++ [XO (ODeleteCode k y)] /\ (forall e, y = X e -> x = X e) /\
     (k = code /\ (exists e, x = X e) \/
      exists base us d t1 t2 z, exchange_members data base /\ chain (fun h _ => h data) (xh_treq hs) base t1 us /\ updated base us d /\ member d "code" k /\
        t0 = t1 ++ XO (OGetCode k z) :: t2)) \/
  (exists base us d, exchange_members data base /\ chain (fun h _ => h data) (xh_treq hs) base t us /\ updated base us d /\ (forall s, ~ member d "code" s) /\ exists e, x = X (Py e)).
Proof.
  intros Hb H Hc. destruct (p_xcode_token _ _ _ _ _ _ Hb H) as [(code' & t1 & y & H1 & -> & H2 & H3)|[(H1 & _)|(code' & uri & v & base & us & d & t1 & t2 & H1 & H2 & H3 & H4 & H5 & H6 & -> & H7)]].
  - left. exists t1, code', y. split; [auto|]. split; [auto|]. left. split; [congruence|auto].
  - congruence.
  - assert (Hm : exchange_members data base) by (exists code', uri, v; auto). destruct H7 as [(-> & H7 & e & ->)|(k & z & t3 & y & H7 & -> & H8 & _)].
    + right. exists base, us, d. rewrite app_nil_r. split; [auto|]. split; [auto|]. split; [subst d; apply updated_fold|]. eauto.
    + left. exists (t1 ++ XO (OGetCode k z) :: t3), k, y. split; [rewrite <- app_assoc; reflexivity|]. split; [auto|]. right.
      exists base, us, d, t1, t3, z. split; [auto|]. split; [auto|]. split; [subst d; apply updated_fold|]. auto.
Qed.
Lemma chain_answers {B} (give : B -> xprog pdict) (P : pdict -> Prop) l : forall d t us, (forall h, In h l -> forall t u, xexec (give h) t (V u) -> P u) ->
  chain (fun h _ => give h) l d t us -> Forall P us.
Proof.
  intros d t us Hp H. revert Hp. induction H as [|h l d t1 u t2 us H1 H2 IH]; intros Hp; constructor.
  - eapply (Hp h); [left; auto|eauto].
  - apply IH. intros h' Hi. apply Hp. right. auto.
Qed.
Lemma fold_keeps k (us : list pdict) : forall d : pdict, Forall (fun u => lookup k u = None) us -> lookup k (fold_left dupdate us d) = lookup k d.
Proof.
  induction us as [|u us IH]; intros d H; cbn [fold_left]; [auto|]. inversion H; subst. rewrite IH by auto. rewrite lookup_dupdate.
  replace (lookup k (rev u)) with (@None pyval); [auto|]. symmetry. apply lookup_None. apply lookup_None in H2. unfold keys in *. rewrite map_rev, <- in_rev. auto.
Qed.
Lemma p_request_deleted cfg hs data c t x code : (forall b, bytes_ok (e_sha256 E b)) -> xexec (xcode_token E cfg hs data c) t x -> lookup (lit "code") data = Some code ->
  (forall h, In h (xh_treq hs) -> forall t u, xexec (h data) t (V u) -> lookup (lit "code") u = None) ->
  exists t0 y, t = t0 ++ [XO (ODeleteCode code y)] /\ forall e, y = X e -> x = X e.
Proof.
  intros Hb H Hc Hk. destruct (p_xcode_token _ _ _ _ _ _ Hb H) as [(code' & t1 & y & H1 & -> & H2 & H3)|[(H1 & _)|(code' & uri & v & base & us & d & t1 & t2 & H1 & H2 & H3 & H4 & H5 & H6 & -> & H7)]].
  - exists t1, y. split; [congruence|auto].
  - congruence.
  - assert (Hd : member d "code" code).
    { unfold member. rewrite H6, fold_keeps; [subst base; cbn [lookup]; rewrite H1 in Hc; injection Hc as ->; reflexivity|].
      eapply (chain_answers (fun h : params -> xprog pdict => h data) (fun u => lookup (lit "code") u = None)); eauto. }
    destruct H7 as [(_ & H7 & _)|(k & z & t3 & y & H7 & -> & H8 & _)]; [destruct (H7 _ Hd)|].
    assert (k = code) by (unfold member in *; congruence). subst k. exists (t1 ++ XO (OGetCode code z) :: t3), y. split; [rewrite <- app_assoc; reflexivity|auto].
Qed.
Lemma p_exchange cfg hs data c t token : (forall b, bytes_ok (e_sha256 E b)) -> xexec (xcode_token E cfg hs data c) t (V token) ->
  exists base us d t1 code ac uri verifier now off exp u at_ rt tr tok t2 us',
    exchange_members data base /\ chain (fun h _ => h data) (xh_treq hs) base t1 us /\ updated base us d /\
    member d "code" code /\ member d "redirect_uri" uri /\ member d "code_verifier" verifier /\
    In uri (cl_redirects c) /\ ac_client ac = cl_id c /\ ac_redirect ac = uri /\ pkce_ok (e_sha256 E) (ac_method ac) (ac_challenge ac) verifier /\
    ac_exp ac = Naive exp /\ (now < exp)%Z /\
    (if in_dec (list_eq_dec N.eq_dec) (lit "refresh_token") (cl_grants c) then tr = [OCreateRT c (OwnUser u) (ac_scopes ac) (V rt)] else tr = [] /\ rt = None) /\
    token_members (cf_token_lifespan cfg) at_ rt (ac_scopes ac) tok /\
    chain (fun h token => h token d c u) (xh_tres hs) tok t2 us' /\ updated tok us' token /\
    t = t1 ++ [XO (OGetCode code (V (Some ac))); XO (ONow (V (now, off))); XO (OFindUser (ac_user ac) (V (Some u)));
               XO (OCreateAT c (OwnUser u) (ac_scopes ac) (V at_))] ++ map XO tr ++ t2 ++ [XO (ODeleteCode code (V tt))].
Proof.
  intros Hb H. destruct (p_xcode_token _ _ _ _ _ _ Hb H) as [(? & ? & ? & _ & _ & _ & ? & ?)|[(_ & _ & ? & ?)|(code' & uri & v & base & us & d & t1 & t2 & H1 & H2 & H3 & H4 & H5 & H6 & -> & H7)]]; [discriminate|discriminate|].
  destruct H7 as [(_ & _ & ? & ?)|(k & z & t3 & y & H7 & -> & H8 & H9)]; [discriminate|].
  destruct (H9 _ eq_refl) as (ac & uri' & verifier' & now & off & exp & u & at_ & rt & tr & t4 & tok & us' & -> & A1 & A2 & A3 & A4 & A5 & A6 & A7 & A8 & -> & A9 & A10 & A11 & A12).
  destruct y as [[]|e]; [|specialize (H8 e eq_refl); discriminate].
  exists base, us, d, t1, k, ac, uri', verifier', now, off, exp, u, at_, rt, tr, tok, t4, us'.
  split; [exists code', uri, v; auto|]. split; [auto|]. split; [subst d; apply updated_fold|]. do 13 (split; [auto; fail|]). cbn [app]. rewrite <- app_assoc. reflexivity.
Qed.
End WithEnv.
