(** The whole authorization code flow: lemmas for C81. *)
From Coq Require Import String Ascii List NArith ZArith Bool Lia.
From Verif Require Import Base BaseFacts Utf8 SpecCodec Json Webtools Crypto Jwk Prog ProgFacts Http OAuth SpecOAuth SpecHistory SpecFlow Example OAuthFacts GrantFacts EndpointFacts RequestFacts AuthzFacts TokenFacts ResponseFacts IssueFacts RaiseFacts StoreFacts HistoryFacts CompleteFacts.
Import ListNotations.
Open Scope N_scope.

Section WithEnv.
Variable E : env.

(** ** Which code a request deletes *)
Definition deletes_only (r : request) (o : obs) : Prop := forall k y, o = ODeleteCode k y -> data_has r "code" k.
Lemma token_deletes p hs r : calls (deletes_only r) (token_endpoint E p hs r).
Proof.
  assert (Ho : forall o, (forall k y, o <> ODeleteCode k y) -> deletes_only r o) by (intros o H k y ->; destruct (H k y eq_refl)).
  unfold token_endpoint. apply calls_pexcept; [|intros; exact I]. apply calls_pbind; [exact I|]. intros _. apply calls_pbind; [exact I|]. intros g.
  apply calls_pbind; [eapply calls_weaken; [|apply authenticate_calls]; intros o (i & z & ->); apply Ho; discriminate|]. intros c'.
  destruct (negb _); [exact I|]. apply calls_pbind; [|intros; exact I].
  assert (Hh : forall l d c u, calls (deletes_only r) (run_token_hooks E l d c u)).
  { intros l d c0 u. eapply calls_weaken; [|apply token_hooks_calls]. intros []; simpl; intros; try tauto; apply Ho; discriminate. }
  assert (Hn : forall o, is_now o -> deletes_only r o) by (intros o (z & ->); apply Ho; discriminate).
  destruct g; cbn [grant_token].
  - unfold code_token, pfinally. apply calls_ptry.
    + unfold code_exchange, maybe_refresh. calls_go; try (apply Ho; discriminate); try apply Hh; eapply calls_weaken; [exact Hn|apply vac_calls].
    + intros z. apply calls_ptry; [|intros []; exact I]. destruct (param "code" _) as [k|] eqn:Ek; [|exact I]. apply calls_call.
      intros y k' y' [= <- _]. unfold param in Ek. rewrite lookup_dremove_other in Ek by discriminate. exact Ek.
  - unfold cc_token. calls_go; apply Ho; discriminate.
  - unfold refresh_grant, maybe_refresh. calls_go; try (apply Ho; discriminate); (eapply calls_weaken; [exact Hn|apply vrt_calls]).
Qed.
Lemma authz_deletes p hs r : calls (deletes_only r) (authorization_endpoint E p hs r).
Proof.
  assert (Ho : forall o, (forall k y, o <> ODeleteCode k y) -> deletes_only r o) by (intros o H k y ->; destruct (H k y eq_refl)).
  unfold authorization_endpoint, validate_client, grant_authorize, authorize. calls_go; apply Ho; discriminate.
Qed.
Lemma revocation_deletes r : calls (deletes_only r) (revocation_endpoint r).
Proof.
  assert (Ho : forall o, (forall k y, o <> ODeleteCode k y) -> deletes_only r o) by (intros o H k y ->; destruct (H k y eq_refl)).
  unfold revocation_endpoint. apply calls_pexcept; [|intros; calls_go; exact I].
  apply calls_pbind; [eapply calls_weaken; [|apply authenticate_calls]; intros o (i & z & ->); apply Ho; discriminate|]. intros c.
  calls_go; apply Ho; discriminate.
Qed.
Lemma consent_deletes p r : calls (deletes_only r) (get_consent_data p r).
Proof.
  assert (Ho : forall o, (forall k y, o <> ODeleteCode k y) -> deletes_only r o) by (intros o H k y ->; destruct (H k y eq_refl)).
  unfold get_consent_data, validate_client. calls_go; apply Ho; discriminate.
Qed.
Lemma served_deletes q tr an k y : served E q tr an -> In (ODeleteCode k y) tr -> data_has (in_request q) "code" k.
Proof.
  unfold served. destruct (in_service q); intros (x & H & _) Hin.
  - pose proof (calls_exec _ _ (authz_deletes _ _ _) _ _ H) as Hf. rewrite Forall_forall in Hf. eapply Hf; eauto.
  - pose proof (calls_exec _ _ (token_deletes _ _ _) _ _ H) as Hf. rewrite Forall_forall in Hf. eapply Hf; eauto.
  - pose proof (calls_exec _ _ (revocation_deletes _) _ _ H) as Hf. rewrite Forall_forall in Hf. eapply Hf; eauto.
  - pose proof (calls_exec _ _ (consent_deletes _ _) _ _ H) as Hf. rewrite Forall_forall in Hf. eapply Hf; eauto.
Qed.
Lemma ev_deletes e k y : ev_ok E e -> In (ODeleteCode k y) (ev_calls e) -> data_has (in_request (ev_in e)) "code" k.
Proof.
  intros [H|[(t & an & H) _]] Hin; [eapply served_deletes; eauto|]. eapply served_deletes; [exact H|]. apply in_app_iff. left. exact Hin.
Qed.

(** ** The flow *)
Lemma p_flow (l1 l2 l3 : list event) e1 e2 u cid uri scopes ch m c i v u' : (forall b, bytes_ok (e_sha256 E b)) ->
  let l := l1 ++ e1 :: l2 ++ e2 :: l3 in
  with_crashes E l -> served E (ev_in e1) (ev_calls e1) (ev_answer e1) -> served E (ev_in e2) (ev_calls e2) (ev_answer e2) ->
  keeps_codes (all_calls l) -> (forall code, fresh code (all_calls l)) ->
  no_raise (ev_calls e1) -> no_raise (ev_calls e2) -> secrets_ok (ev_calls e1) -> texts_ok (ev_calls e2) ->
  in_service (ev_in e1) = Authorize -> made (in_request (ev_in e1)) -> scalar_data (rq_data (in_request (ev_in e1))) ->
  code_request (in_provider (ev_in e1)) (in_request (ev_in e1)) u cid uri scopes ch m -> finds_client cid c (ev_calls e1) ->
  In uri (cl_redirects c) -> In (lit "code") (cl_responses c) -> incl scopes (cl_allowed c (Some scopes)) ->
  in_service (ev_in e2) = Token -> hk_response (in_hooks (ev_in e2)) = [] ->
  exists z code, ev_answer e1 = Some z /\ redirects z uri ((lit "code", code) :: state_params (lookup (lit "state") (rq_data (in_request (ev_in e1))))) /\
    (exchange_request (in_provider (ev_in e2)) (in_request (ev_in e2)) i c code uri v -> pkce_ok (e_sha256 E) m ch v ->
     finds_client i c (ev_calls e2) -> finds_user (us_id u) u' (ev_calls e2) ->
     (forall e, In e l2 -> ~ data_has (in_request (ev_in e)) "code" code) ->
     (forall ac, In (OGetCode code (V (Some ac))) (ev_calls e2) -> exists t, ac_exp ac = Naive t /\ before t (ev_calls e2)) ->
     exists z2 a rt, ev_answer e2 = Some z2 /\ In (OCreateAT c (OwnUser u') scopes (V a)) (ev_calls e2) /\
       created_refresh c (OwnUser u') scopes rt (ev_calls e2) /\ token_answer z2 a (cf_token_lifespan (pv_config (in_provider (ev_in e2)))) rt scopes).
Proof.
  intros Hb l Hl H1 H2 Hk Hfr Hn1 Hn2 Hs1 Ht2 Es1 Hm Hsc Hcr Hf1 Hr1 Hr2 Hal Es2 Hh.
  unfold served in H1. rewrite Es1 in H1. destruct H1 as (x1 & H1 & A1).
  destruct (p_authorize_complete _ _ _ _ _ _ _ _ _ _ _ _ _ H1 Hn1 Hm Hsc Hs1 Hcr Hf1 Hr1 Hr2 Hal) as (z & code & ad & -> & Htr1 & B1 & B2 & B3 & B4 & B5 & Hred).
  exists z, code. split; [auto|]. split; [auto|]. intros Hq Hpk Hf2 Hfu Hl2 Hexp.
  pose proof H2 as H2'. unfold served in H2. rewrite Es2 in H2. destruct H2 as (x2 & H2 & A2).
  assert (Hget : forall y, In (OGetCode code (V y)) (ev_calls e2) -> exists ac, y = Some ac /\ holds ac ad c u).
  { intros y Hin. apply in_split in Hin as (s1 & s2 & Hs).
    assert (Hcode : data_has (in_request (ev_in e2)) "code" code) by (destruct Hq; tauto).
    assert (Hgt : data_has (in_request (ev_in e2)) "grant_type" (lit "authorization_code")) by (destruct Hq; tauto).
    destruct (p_code_deleted_endpoint E _ _ _ _ _ (OGetCode code (V y)) code H2 Hgt Hcode) as (i' & c' & tr' & y' & Etr & Hnd).
    { rewrite Hs. apply in_app_iff. right. left. reflexivity. } { discriminate. }
    assert (Hs1' : forall k y, ~ In (ODeleteCode k y) s1).
    { intros k y0 Hin. rewrite Hs in Etr. destruct (exists_last (l := OGetCode code (V y) :: s2)) as (t3 & o & Eo); [discriminate|].
      rewrite Eo in Etr. change (OFindClient i' (V (Some c')) :: tr' ++ [ODeleteCode code y']) with ((OFindClient i' (V (Some c')) :: tr') ++ [ODeleteCode code y']) in Etr.
      rewrite app_assoc in Etr. apply app_inj_tail in Etr as [Etr _].
      assert (Hin' : In (ODeleteCode k y0) (OFindClient i' (V (Some c')) :: tr')) by (rewrite <- Etr; apply in_app_iff; auto).
      destruct Hin' as [Hin'|Hin']; [discriminate|]. eapply Hnd; eauto. }
    eapply (Hk (all_calls l1 ++ [OFindClient cid (V (Some c)); OSecretToken 64 (V code)]) code ad c u (all_calls l2 ++ s1) y (s2 ++ all_calls l3)).
    - unfold l, all_calls. rewrite flat_map_app. cbn [flat_map]. rewrite flat_map_app. cbn [flat_map]. rewrite Htr1, Hs. rewrite <- !app_assoc. cbn [app]. reflexivity.
    - intros o Ho. unfold touches_code. apply orb_false_iff. split.
      + destruct (saves_code code o) eqn:Esv; [|auto]. exfalso. specialize (Hfr code). unfold fresh, l, all_calls in Hfr.
        rewrite flat_map_app in Hfr. cbn [flat_map] in Hfr. rewrite flat_map_app in Hfr. cbn [flat_map] in Hfr. rewrite Htr1, Hs in Hfr. rewrite !count_app in Hfr.
        assert (Ho' : (1 <= count (saves_code code) (flat_map ev_calls l2) + count (saves_code code) s1)%nat).
        { apply in_app_iff in Ho as [Ho|Ho]; pose proof (count_In _ _ _ Ho Esv); unfold all_calls in *; lia. }
        assert (Hc1 : count (saves_code code) [OFindClient cid (V (Some c)); OSecretToken 64 (V code); OSaveCode code ad c u (V tt)] = 1%nat).
        { unfold count. cbn [filter saves_code]. rewrite eqs_refl. reflexivity. }
        rewrite Hc1 in Hfr. lia.
      + destruct o; try reflexivity. destruct (eqs_spec code0 code) as [->|]; [|auto]. exfalso. apply in_app_iff in Ho as [Ho|Ho]; [|eapply Hs1'; eauto].
        unfold all_calls in Ho. apply in_flat_map in Ho as (e & He & Ho). apply (Hl2 e He). eapply ev_deletes; [|exact Ho].
        unfold with_crashes in Hl. rewrite Forall_forall in Hl. apply Hl. unfold l. apply in_app_iff. right. right. apply in_app_iff. auto. }
  destruct (code_complete E (in_provider (ev_in e2)) (in_hooks (ev_in e2)) (in_request (ev_in e2)) (ev_calls e2) x2 i c code uri v u' Hb H2 Hn2 Ht2 Hh Hq Hf2) as (z2 & ac & a & rt & -> & Hin & C1 & C2 & C3).
  { intros y Hy. destruct (Hget y Hy) as (ac & -> & G1 & G2 & G3 & G4 & G5 & G6). exists ac. split; [auto|]. destruct (Hexp ac Hy) as (t & T1 & T2). split.
    - unfold matching_code. rewrite G5, G6, B1, B2. split; [congruence|]. split; [auto|]. split; [auto|]. eauto.
    - rewrite G2. auto. }
  destruct (Hget _ Hin) as (ac' & [= <-] & G1 & G2 & G3 & G4 & G5 & G6). rewrite G4, B4 in *.
  exists z2, a, rt. auto.
Qed.
End WithEnv.

(** ** The example adapter keeps codes. *)
Definition stored (code : str) (ad : auth_data) (c : client) (u : user) (s : store) : Prop := exists ac, lookup code (st_codes s) = Some ac /\ holds ac ad c u.
Lemma stored_step C aware code ad c u s o s' : ex_step C aware s o s' -> touches_code code o = false -> stored code ad c u s -> stored code ad c u s'.
Proof.
  intros Hs Ht (ac & Hl & Hh). destruct Hs as [chc T e s|T e x s]; [|exists ac; auto].
  unfold stored. destruct e; cbn [ex_do fst snd observe] in *; try (exists ac; auto; fail).
  - destruct (ad_nonce data) as [n|]; cbn [fst snd] in *; [|exists ac; auto]. destruct (has code0 (st_codes s)) eqn:Eh; cbn [fst snd] in *; [exists ac; auto|].
    exists ac. split; [|auto]. cbn [st_codes set_codes lookup]. unfold touches_code in Ht. cbn [saves_code] in Ht. apply orb_false_iff in Ht as [Ht _].
    destruct (eqs_spec code code0) as [->|]; [rewrite eqs_refl in Ht; discriminate|auto].
  - exists ac. split; [|auto]. cbn [st_codes set_codes]. unfold touches_code in Ht. apply orb_false_iff in Ht as [_ Ht].
    rewrite lookup_dremove_other; [auto|]. intros ->. rewrite eqs_refl in Ht. discriminate.
  - destruct (owner_id o) as [w|]; cbn [fst snd]; [|exists ac; auto]. destruct (find _ (st_rts s)) as [[t ?]|]; cbn [fst snd]; [exists ac; auto|].
    destruct (has (ch_token chc) (st_rts s)); cbn [fst snd]; exists ac; auto.
Qed.
Lemma stored_steps C aware code ad c u : forall tr s s', ex_steps C aware s tr s' -> (forall o, In o tr -> touches_code code o = false) -> stored code ad c u s -> stored code ad c u s'.
Proof.
  induction tr as [|o tr IH]; intros s s' Hs Ht Hst; inversion Hs as [|? ? s1 ? ? Ho Hr]; subst; [auto|].
  eapply IH; [exact Hr|intros; apply Ht; right; auto|]. eapply stored_step; [exact Ho|apply Ht; left; reflexivity|auto].
Qed.
Lemma steps_app C aware : forall t1 t2 s s', ex_steps C aware s (t1 ++ t2) s' -> exists s1, ex_steps C aware s t1 s1 /\ ex_steps C aware s1 t2 s'.
Proof.
  induction t1 as [|o t1 IH]; intros t2 s s' H; [exists s; split; [constructor|auto]|]. inversion H as [|? ? s1 ? ? Ho Hr]; subst.
  apply IH in Hr as (s2 & H1 & H2). exists s2. split; [econstructor; eauto|auto].
Qed.
Lemma p_example_keeps C aware s tr s' : ex_steps C aware s tr s' -> keeps_codes tr.
Proof.
  intros Hs t1 code ad c u b y t2 -> Hb. apply steps_app in Hs as (s1 & _ & Hs). inversion Hs as [|? ? s2 ? ? Ho Hr]; subst.
  assert (Hst : stored code ad c u s2).
  { clear - Ho. remember (OSaveCode code ad c u (V tt)) as o eqn:Eo. destruct Ho as [chc T e s|T e x s]; [|destruct e; discriminate].
    destruct e; cbn [ex_do fst snd observe] in Eo; try discriminate.
    cbn [ex_do]. destruct (ad_nonce data) as [n|] eqn:En; cbn [fst snd] in *; [|discriminate]. destruct (has code0 (st_codes s)); cbn [fst snd] in *; [discriminate|].
    injection Eo as -> -> -> ->. eexists. split; [cbn [st_codes set_codes lookup]; rewrite eqs_refl; reflexivity|]. unfold holds; simpl; auto 10. }
  apply steps_app in Hr as (s3 & Hr & Hg). inversion Hg as [|? ? s4 ? ? Ho' Hr']; subst.
  destruct (stored_steps _ _ _ _ _ _ _ _ _ Hr Hb Hst) as (ac & Hl & Hh). exists ac. split; [|auto].
  remember (OGetCode code (V y)) as o eqn:Eo. destruct Ho' as [chc T e s0|T e x s0]; [|destruct e; discriminate].
  destruct e; cbn [ex_do fst snd observe] in Eo; try discriminate. injection Eo as -> Hy. congruence.
Qed.
