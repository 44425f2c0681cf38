(** Lemmas about how long the codes and refresh tokens of the example application can be used: C104 and C111. *)
From Coq Require Import String Ascii List NArith ZArith Bool Lia.
From Verif Require Import Base BaseFacts Utf8 SpecCodec Json Webtools Crypto Jwk Prog ProgFacts Http OAuth SpecOAuth SpecHistory SpecFlow Example OAuthFacts GrantFacts EndpointFacts RequestFacts AuthzFacts TokenFacts ResponseFacts IssueFacts RaiseFacts StoreFacts HistoryFacts CompleteFacts FlowFacts App SpecApp AppFacts SpecLife LifeFacts.
Import ListNotations.
Open Scope N_scope.

(** ** Codes *)
Lemma get_code_inv C aware s k y s' : ex_step C aware s (OGetCode k (V y)) s' -> lookup k (st_codes s) = y.
Proof.
  intros Hg. remember (OGetCode k (V y)) as o eqn:Eo. destruct Hg as [ch T e s|T e x s]; [|destruct e; discriminate].
  destruct e; cbn [ex_do fst snd observe] in Eo; try discriminate. injection Eo as -> Hl. auto.
Qed.
Lemma saved_code C aware ch code ad c u s s1 : ex_do C aware ch (SaveCode code ad c u) s = (V tt, s1) -> stored code ad c u s1 /\ code_until code (ch_now ch + seconds 86400) s1.
Proof.
  cbn [ex_do]. destruct (ad_nonce ad) as [n|] eqn:En; [|discriminate]. destruct (has code (st_codes s)); [discriminate|]. intros [= <-]. split.
  - eexists. split; [cbn [st_codes set_codes lookup]; rewrite eqs_refl; reflexivity|]. unfold holds; simpl; auto 10.
  - intros ac Hl. cbn [set_codes st_codes lookup] in Hl. rewrite eqs_refl in Hl. injection Hl as <-. reflexivity.
Qed.
Lemma untouched_saves code l : (forall o, In o l -> touches_code code o = false) -> forall ad c u, ~ In (OSaveCode code ad c u (V tt)) l.
Proof. intros H ad c u Hin. apply H in Hin. unfold touches_code in Hin. cbn [saves_code] in Hin. rewrite eqs_refl in Hin. discriminate. Qed.

Definition no_save (o : obs) : Prop := match o with OSaveCode _ _ _ _ _ => False | _ => True end.
Lemma token_no_save E p hs r : calls no_save (token_endpoint E p hs r).
Proof.
  unfold token_endpoint. apply calls_pexcept; [|intros; exact I]. apply calls_pbind; [exact I|]. intros _. apply calls_pbind; [exact I|]. intros g.
  apply calls_pbind; [eapply calls_weaken; [|apply authenticate_calls]; intros o (i & z & ->); exact I|]. intros c'.
  destruct (negb _); [exact I|]. apply calls_pbind; [|intros; exact I].
  assert (Hh : forall l d c u, calls no_save (run_token_hooks E l d c u)).
  { intros l d c0 u. eapply calls_weaken; [|apply token_hooks_calls]. intros []; simpl; tauto. }
  assert (Hn : forall o, is_now o -> no_save o) by (intros o (z & ->); exact I).
  destruct g; cbn [grant_token].
  - unfold code_token, pfinally. apply calls_ptry.
    + unfold code_exchange, maybe_refresh. calls_go; try exact I; try apply Hh; eapply calls_weaken; [exact Hn|apply vac_calls].
    + intros z. apply calls_ptry; [|intros []; exact I]. destruct (param "code" _) as [k|] eqn:Ek; [|exact I]. apply calls_call. intros y. exact I.
  - unfold cc_token. calls_go; exact I.
  - unfold refresh_grant, maybe_refresh. calls_go; try exact I; (eapply calls_weaken; [exact Hn|apply vrt_calls]).
Qed.
Lemma p_code_within E p hs C aware ch code ad c u s s1 l s2 r tr x s3 i v u' : (forall b, bytes_ok (e_sha256 E b)) ->
  ex_do C aware ch (SaveCode code ad c u) s = (V tt, s1) -> ex_steps C aware s1 l s2 -> (forall o, In o l -> touches_code code o = false) ->
  exec (token_endpoint E p hs r) tr x -> ex_steps C aware s2 tr s3 -> no_raise tr -> texts_ok tr -> hk_response hs = [] ->
  exchange_request p r i c code (ad_redirect ad) v -> pkce_ok (e_sha256 E) (ad_method ad) (ad_challenge ad) v ->
  finds_client i c tr -> finds_user (us_id u) u' tr -> before (ch_now ch + seconds 86400) tr ->
  exists z a rt, x = V z /\ In (OCreateAT c (OwnUser u') (ad_scopes ad) (V a)) tr /\ created_refresh c (OwnUser u') (ad_scopes ad) rt tr /\
    token_answer z a (cf_token_lifespan (pv_config p)) rt (ad_scopes ad).
Proof.
  intros Hb Hd Hl Ht Hx Hs Hn Htx Hh Hq Hpk Hf Hu Hbef. destruct (saved_code _ _ _ _ _ _ _ _ _ Hd) as [Hst Hun].
  pose proof (stored_steps _ _ _ _ _ _ _ _ _ Hl Ht Hst) as Hst2. pose proof (until_steps _ _ _ _ _ _ _ Hl Hun (untouched_saves _ _ Ht)) as Hun2.
  assert (Hget : forall y, In (OGetCode code (V y)) tr -> exists ac, y = Some ac /\ holds ac ad c u /\ ac_exp ac = Naive (ch_now ch + seconds 86400)).
  { intros y Hin. apply in_split in Hin as (t1 & t2 & Et).
    assert (Hcode : data_has r "code" code) by (destruct Hq; tauto). assert (Hgt : data_has r "grant_type" (lit "authorization_code")) by (destruct Hq; tauto).
    assert (Hns : forall o, In o tr -> saves_code code o = false).
    { pose proof (calls_exec _ _ (token_no_save E p hs r) _ _ Hx) as Hf'. rewrite Forall_forall in Hf'. intros o Ho. specialize (Hf' o Ho). destruct o; try reflexivity. destruct Hf'. }
    destruct (p_code_deleted_endpoint E _ _ _ _ _ (OGetCode code (V y)) code Hx Hgt Hcode) as (i' & c' & tr' & y' & Etr & Hnd).
    { rewrite Et. apply in_app_iff. right. left. reflexivity. } { discriminate. }
    assert (H1 : forall o, In o t1 -> touches_code code o = false).
    { intros o Ho. unfold touches_code. apply orb_false_iff. split; [apply Hns; rewrite Et; apply in_app_iff; auto|]. destruct o as [| | | |code0 y0| | | | | | | | |]; try reflexivity. exfalso.
      rewrite Et in Etr. destruct (exists_last (l := OGetCode code (V y) :: t2)) as (t3 & o & Eo); [discriminate|].
      rewrite Eo in Etr. change (OFindClient i' (V (Some c')) :: tr' ++ [ODeleteCode code y']) with ((OFindClient i' (V (Some c')) :: tr') ++ [ODeleteCode code y']) in Etr.
      rewrite app_assoc in Etr. apply app_inj_tail in Etr as [Etr _].
      assert (Hin' : In (ODeleteCode code0 y0) (OFindClient i' (V (Some c')) :: tr')) by (rewrite <- Etr; apply in_app_iff; auto).
      destruct Hin' as [Hin'|Hin']; [discriminate|]. eapply Hnd; exact Hin'. }
    rewrite Et in Hs. apply steps_app in Hs as (s4 & Ha & Hg). inversion Hg as [|? ? s5 ? ? Ho _]; subst. apply get_code_inv in Ho.
    destruct (stored_steps _ _ _ _ _ _ _ _ _ Ha H1 Hst2) as (ac & L1 & L2). exists ac. split; [congruence|]. split; [auto|].
    apply (until_steps _ _ _ _ _ _ _ Ha Hun2 (untouched_saves _ _ H1)). auto. }
  destruct (code_complete E p hs r tr x i c code (ad_redirect ad) v u' Hb Hx Hn Htx Hh Hq Hf) as (z & ac & a & rt & -> & Hin & C1 & C2 & C3).
  { intros y Hy. destruct (Hget y Hy) as (ac & -> & (G1 & G2 & G3 & G4 & G5 & G6) & G7). exists ac. split; [auto|]. split.
    - unfold matching_code. rewrite G5, G6. split; [congruence|]. split; [auto|]. split; [auto|]. eauto.
    - rewrite G2. auto. }
  destruct (Hget _ Hin) as (ac' & [= <-] & (G1 & G2 & G3 & G4 & G5 & G6) & _). rewrite G4 in *. exists z, a, rt. auto.
Qed.

(** ** Refresh tokens *)
Lemma created_token C aware ch c o sc s k s1 : ex_do C aware ch (CreateRT c o sc) s = (V (Some k), s1) ->
  (forall k' v, In (k', v) (st_rts s) -> rt_client v = cl_id c -> ~ owned_by o (rt_user v)) ->
  exists uid, owned_by o uid /\ lookup k (st_rts s1) = Some {| rt_client := cl_id c; rt_user := uid; rt_scopes := sc; rt_exp := (if aware then Aware else Naive) (ch_now ch + seconds 1209600)%Z |}.
Proof.
  intros H Hn. cbn [ex_do] in H. destruct (owner_id o) as [uid|] eqn:Eo; [|discriminate].
  assert (Ho : owned_by o uid) by (destruct o; cbn in *; congruence). exists uid. split; [auto|].
  destruct (find _ _) as [[t v]|] eqn:Ef.
  - exfalso. apply find_some in Ef as [Hin Hr]. apply rt_of_true in Hr as [R1 R2]. cbn [snd] in *. apply (Hn _ _ Hin R1). subst uid. auto.
  - destruct (has _ _); [discriminate|]. injection H as <- <-. cbn [st_rts set_rts lookup]. rewrite eqs_refl. reflexivity.
Qed.
Lemma kept_step C aware s o s' k v : ex_step C aware s o s' -> (forall c h, cl_id c = rt_client v -> o <> ORevokeToken c k h (V tt)) ->
  lookup k (st_rts s) = Some v -> lookup k (st_rts s') = Some v.
Proof.
  intros H Hr Hl. destruct (match o with ORevokeToken _ _ _ _ => true | _ => false end) eqn:Eo.
  - destruct H as [ch T e s|T e x s]; [|auto]. destruct e; try discriminate. cbn [ex_do fst snd observe set_rts st_rts] in *.
    assert (Hf : forall l, lookup k l = Some v -> lookup k (filter (fun kt => negb (eqs (fst kt) token && eqs (rt_client (snd kt)) (cl_id c))) l) = Some v); [|auto].
    intros l. induction l as [|[k' v'] l IH]; [discriminate|]. cbn [lookup filter fst snd]. destruct (eqs_spec k k') as [<-|Hk].
    + intros [= ->]. destruct (eqs_spec k token) as [<-|]; cbn [andb negb lookup]; [|rewrite eqs_refl; auto].
      destruct (eqs_spec (rt_client v) (cl_id c)) as [E|]; cbn [negb lookup]; [|rewrite eqs_refl; auto]. exfalso. eapply Hr; [symmetry; exact E|reflexivity].
    + intros Hl'. destruct (negb _); [|auto]. cbn [lookup]. destruct (eqs_spec k k'); [contradiction|auto].
  - eapply step_keeps_rt; [exact H| |exact Hl]. intros c k' h y ->. discriminate.
Qed.
Lemma kept_steps C aware k v : forall l s s', ex_steps C aware s l s' -> (forall c h, cl_id c = rt_client v -> ~ In (ORevokeToken c k h (V tt)) l) ->
  lookup k (st_rts s) = Some v -> lookup k (st_rts s') = Some v.
Proof.
  induction l as [|o l IH]; intros s s' Hs Hn Hl; inversion Hs as [|? ? s1 ? ? Ho Hr]; subst; [auto|]. eapply IH; [exact Hr|intros c h Hc Hi; eapply Hn; [exact Hc|right; exact Hi]|].
  eapply kept_step; [exact Ho| |exact Hl]. intros c h Hc ->. eapply Hn; [exact Hc|left; reflexivity].
Qed.
Lemma get_rt_inv C aware s k y s' : ex_step C aware s (OGetRT k (V y)) s' -> lookup k (st_rts s) = y.
Proof.
  intros Hg. remember (OGetRT k (V y)) as o eqn:Eo. destruct Hg as [ch T e s|T e x s]; [|destruct e; discriminate].
  destruct e; cbn [ex_do fst snd observe] in Eo; try discriminate. injection Eo as -> Hl. auto.
Qed.
Lemma p_refresh_within E p hs C ch c o sc s k s1 l s2 r tr x s3 i ou : order_ok E ->
  ex_do C false ch (CreateRT c o sc) s = (V (Some k), s1) -> (forall k' v, In (k', v) (st_rts s) -> rt_client v = cl_id c -> ~ owned_by o (rt_user v)) ->
  ex_steps C false s1 l s2 -> (forall c' h, cl_id c' = cl_id c -> ~ In (ORevokeToken c' k h (V tt)) l) ->
  exec (token_endpoint E p hs r) tr x -> ex_steps C false s2 tr s3 -> no_raise tr -> texts_ok tr ->
  In GRefresh (pv_grants p) -> In (lit "refresh_token") (cl_grants c) -> presents r i c ->
  data_has r "grant_type" (lit "refresh_token") -> data_has r "refresh_token" k -> k <> [] -> asks_none r ->
  finds_client i c tr -> (forall uid y, owned_by o uid -> In (OFindUser uid y) tr -> y = V ou) -> before (ch_now ch + seconds 1209600) tr ->
  exists z a new sc' sc0, x = V z /\ (forall w, In w sc' <-> In w sc) /\
    In (OCreateAT c (match ou with Some u => OwnUser u | None => OwnNone end) (cl_allowed c (Some sc')) (V a)) tr /\
    token_answer z a (cf_token_lifespan (pv_config p)) new sc0.
Proof.
  intros Hord Hd Hnew Hl Hrev Hx Hs Hn Htx Hg Hgr Hp Hgt Hk Hk0 Ha Hf Hu Hbef. destruct (created_token _ _ _ _ _ _ _ _ _ Hd Hnew) as (uid & Ho & Hst).
  assert (Hst2 : lookup k (st_rts s2) = Some {| rt_client := cl_id c; rt_user := uid; rt_scopes := sc; rt_exp := Naive (ch_now ch + seconds 1209600)%Z |}) by (eapply kept_steps; [exact Hl|exact Hrev|exact Hst]).
  assert (Hfr : finds_refresh k {| rt_client := cl_id c; rt_user := uid; rt_scopes := sc; rt_exp := Naive (ch_now ch + seconds 1209600)%Z |} tr).
  { intros y Hin. destruct y as [y|e]; [|exfalso; eapply raise_absurd; [exact Hn|exact Hin|reflexivity]]. f_equal. apply in_split in Hin as (t1 & t2 & Et).
    pose proof (p_token_no_revoke E _ _ _ _ _ Hx) as Hnr. rewrite Et in Hs. apply steps_app in Hs as (s4 & H1 & H2). inversion H2 as [|? ? s5 ? ? Hget _]; subst.
    apply get_rt_inv in Hget. rewrite <- Hget. eapply kept_steps; [exact H1| |exact Hst2]. intros c' h _ Hin. eapply Hnr. apply in_app_iff. left. exact Hin. }
  destruct (p_refresh_complete E p hs r tr x i c k _ ou (ch_now ch + seconds 1209600)%Z sc Hord Hx Hn Htx Hg Hgr Hp Hgt Hk Hk0 (eq_refl : rt_client {| rt_client := cl_id c; rt_user := uid; rt_scopes := sc; rt_exp := Naive (ch_now ch + seconds 1209600)%Z |} = cl_id c) eq_refl Hf Hfr) as (z & a & new & sc' & sc0 & -> & H1 & H2 & _ & H3 & _);
    [intros y; apply Hu; exact Ho|exact Hbef|left; auto|].
  exists z, a, new, sc', sc0. auto.
Qed.
Lemma p_refresh_until E p hs C ch c o sc s k s1 l s2 r tr x s3 :
  ex_do C false ch (CreateRT c o sc) s = (V (Some k), s1) -> (forall k' v, In (k', v) (st_rts s) -> rt_client v = cl_id c -> ~ owned_by o (rt_user v)) ->
  ex_steps C false s1 l s2 -> (forall c' h, cl_id c' = cl_id c -> ~ In (ORevokeToken c' k h (V tt)) l) ->
  exec (token_endpoint E p hs r) tr (V x) -> ex_steps C false s2 tr s3 -> rs_status x = 200 ->
  data_has r "grant_type" (lit "refresh_token") -> data_has r "refresh_token" k ->
  exists i z y now off rest, tr = OFindClient i z :: OGetRT k y :: ONow (V (now, off)) :: rest /\ (now < ch_now ch + seconds 1209600)%Z.
Proof.
  intros Hd Hnew Hl Hrev H Hs H2 Hg Hk. destruct (created_token _ _ _ _ _ _ _ _ _ Hd Hnew) as (uid & Ho & Hst).
  assert (Hst2 : lookup k (st_rts s2) = Some {| rt_client := cl_id c; rt_user := uid; rt_scopes := sc; rt_exp := Naive (ch_now ch + seconds 1209600)%Z |}) by (eapply kept_steps; [exact Hl|exact Hrev|exact Hst]).
  apply token_exec in H as (y & Hy & Hx). destruct y as [y|[e|e]]; [| |discriminate].
  - injection Hx as <-. apply token_body_exec in Hy. inversion Hy as [| | |g i c0 tr' y' Hgr Hgt Ha Hm Hin Hex E1 E2]. subst tr.
    pose proof (data_has_eq _ _ _ _ Hg Hgt) as Eg. destruct g; try discriminate. cbn [grant_token] in Hex.
    apply refresh_exec in Hex as [(_ & e & ->)|(token & t & sc0 & ou & t2 & (Ha' & Hc & _ & now & off & d & -> & He & Hnow) & _)]; [discriminate|].
    apply arg_Some in Ha' as [Ha' _]. unfold param in Ha'. rewrite lookup_dremove_other in Ha' by discriminate. pose proof (data_has_eq _ _ _ _ Hk Ha') as <-.
    inversion Hs as [|? ? s4 ? ? H1 H3]; subst. apply step_find_client in H1 as [-> _]. inversion H3 as [|? ? s5 ? ? H4 _]; subst. apply get_rt_inv in H4.
    rewrite Hst2 in H4. injection H4 as <-. cbn [rt_exp] in He. injection He as <-. do 6 eexists. split; [reflexivity|exact Hnow].
  - symmetry in Hx. unfold token_error in Hx. apply json_response_V in Hx as (Hs' & _); [|apply dump_wf]. rewrite Hs' in H2. discriminate.
Qed.
