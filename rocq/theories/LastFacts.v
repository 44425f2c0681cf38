(** A refresh token stays until it is revoked or its user logs out: lemmas for C179. *)
From Coq Require Import String Ascii List NArith ZArith Bool Arith Lia.
From Verif Require Import Base BaseFacts SpecReaders Webtools Crypto Jwk Prog ProgFacts Http OAuth SpecOAuth EndpointFacts GrantFacts TokenFacts IssueFacts AuthzFacts RfcFacts SpecHistory LineageFacts SpecFlow FlowFacts Example ExampleFacts App SpecApp AppFacts LifeFacts StoreFacts SpecKeep KeepFacts SpecWho WhoFacts SpecSound SoundFacts SpecHook HookFacts LifetimeFacts SpecAvail AvailFacts CompleteFacts Utf8.
Import ListNotations.
Open Scope N_scope.

(** ** Steps *)
Lemma refresh_made C aware t t1 c o sc k : app_step C aware t (OLib (OCreateRT c o sc (V (Some k)))) t1 ->
  exists row, In (k, row) (st_rts (tb_store t1)) /\ rt_client row = cl_id c /\ owner_id o = Ok (rt_user row).
Proof.
  intros H. apply lib_step in H as (H & _). remember (OCreateRT c o sc (V (Some k))) as q eqn:Eq. destruct H as [ch T e s|T e x s]; destruct e; cbn [ex_do fst snd observe] in Eq; try discriminate.
  cbn [ex_do]. destruct (owner_id o0) as [uid|] eqn:Eo; [|discriminate]. destruct (find _ (st_rts s)) as [[k0 row]|] eqn:Ef.
  - cbn [fst snd] in *. injection Eq as -> -> -> ->. apply find_some in Ef as [Hi Hp]. exists row. split; [exact Hi|]. unfold rt_of in Hp. cbn [snd] in Hp. apply andb_true_iff in Hp as [H1 H2].
    apply eqs_true in H1. apply eqs_true in H2. rewrite Eo, H2. auto.
  - destruct (has (ch_token ch) (st_rts s)); [discriminate|]. cbn [fst snd] in *. injection Eq as -> -> -> ->. eexists. split; [left; reflexivity|]. cbn [rt_client rt_user]. auto.
Qed.
Lemma rts_keyed C aware : forall l d1 d2, app_steps C aware d1 l d2 -> NoDup (map fst (st_rts (tb_store d1))) -> NoDup (map fst (st_rts (tb_store d2))).
Proof.
  intros l d1 d2 H. induction H as [|d1 z d2 l d3 Hz _ IH]; [auto|]. intros Hn. apply IH. clear IH. destruct Hz as [ch T e t|T e x t]; [|exact Hn]. destruct e; cbn [app_do fst snd]; try exact Hn.
  - destruct (existsb _ _); exact Hn.
  - cbn [set_store tb_store set_rts st_rts]. apply nodup_fst. exact Hn.
  - destruct (ex_do C aware ch e (tb_store t)) as [y s] eqn:Ee. cbn [fst snd set_store tb_store]. destruct e; cbn [ex_do] in Ee; try (injection Ee as <- <-; exact Hn).
    + destruct (ad_nonce data); [|injection Ee as <- <-; exact Hn]. destruct (has code (st_codes (tb_store t))); injection Ee as <- <-; exact Hn.
    + destruct (owner_id o); [|injection Ee as <- <-; exact Hn]. destruct (find _ (st_rts (tb_store t))) as [[? ?]|]; [injection Ee as <- <-; exact Hn|].
      destruct (has (ch_token ch) (st_rts (tb_store t))) eqn:Eh; injection Ee as <- <-; [exact Hn|]. cbn [set_rts st_rts map fst]. constructor; [apply not_has; exact Eh|exact Hn].
    + injection Ee as <- <-. cbn [set_rts st_rts]. apply nodup_fst. exact Hn.
Qed.
Lemma finds_by_id C aware s s1 i y : ex_step C aware s (OFindUser i (V y)) s1 -> y = find (fun u => eqs (us_id u) i) (st_users s).
Proof.
  intros H1. remember (OFindUser i (V y)) as o1 eqn:E1. destruct H1 as [ch T e s|T e x s]; destruct e; cbn [ex_do fst snd observe] in E1; try discriminate. injection E1 as -> E1. auto.
Qed.
Lemma made_for C aware s s1 c o sc y : ex_step C aware s (OCreateRT c o sc (V y)) s1 -> o <> OwnNone.
Proof.
  intros H1 Ho. remember (OCreateRT c o sc (V y)) as o1 eqn:E1. destruct H1 as [ch T e s|T e x s]; destruct e; cbn [ex_do fst snd observe] in E1; try discriminate.
  destruct (owner_id o0) eqn:Eo; [|discriminate]. assert (o0 = o) as -> by (destruct (find _ _) as [[? ?]|] in E1; [|destruct (has _ _) in E1]; cbn [fst] in E1; congruence). subst o. discriminate.
Qed.
Lemma some_time (tr : list obs) : exists T, before T tr.
Proof.
  induction tr as [|o tr (T & HT)]; [exists 0%Z; intros now off []|].
  assert (Ho : (exists now off, o = ONow (V (now, off))) \/ forall now off, o <> ONow (V (now, off))).
  { destruct o; try (right; discriminate). destruct r as [[now off]|]; [left; eauto|right; discriminate]. }
  destruct Ho as [(now & off & ->)|Ho].
  - exists (Z.max T (now + 1)). intros n' o' [H|H]; [injection H as -> _; lia|]. apply HT in H. lia.
  - exists T. intros n' o' [H|H]; [destruct (Ho _ _ H)|exact (HT _ _ H)].
Qed.

Section WithEnv.
Variable E : env.
Variable p : provider.
Variable hs : hooks.
Variable C : crypto.
Variable aware : bool.
Variable qs : list (page * web).
Variable log : list (nat * aobs).
Variable t0 t : tables.
Hypothesis Hrun : app_running E p hs qs log.
Hypothesis Hst : app_steps C aware t0 (map snd log) t.
Theorem c179_kept m k c o sc l1 l2 : NoDup (map fst (st_rts (tb_store t0))) -> log = l1 ++ (m, OLib (OCreateRT c o sc (V (Some k)))) :: l2 ->
  exists row, rt_client row = cl_id c /\ owner_id o = Ok (rt_user row) /\ forall a n y b, l2 = a ++ (n, OLib (OGetRT k (V y))) :: b ->
    (forall j q, acted j a -> nth_error qs j = Some q -> ~ logs_out log j q (rt_user row) /\ ~ revokes_for t0 log j q (cl_id c) k) -> y = Some row.
Proof.
  intros Hk Hl. pose proof Hst as Hs. rewrite Hl, map_app in Hs. apply app_steps_app in Hs as (ta & Ha & Hs). cbn [map snd] in Hs. inversion Hs as [|? ? tb ? ? Hmade Hs2]; subst.
  destruct (refresh_made _ _ _ _ _ _ _ _ Hmade) as (row & Hin & Hc & Ho). exists row. split; [exact Hc|]. split; [exact Ho|]. intros a n y b -> Hno. clear Hs.
  rewrite map_app in Hs2. apply app_steps_app in Hs2 as (tc & Hb & Hs3). cbn [map snd] in Hs3. inversion Hs3 as [|? ? td ? ? Hget Hs4]; subst. clear Hs3 Hs4.
  apply lib_step in Hget as (Hget & _). apply get_rt_inv in Hget. subst y.
  assert (Hkey : NoDup (map fst (st_rts (tb_store tc)))).
  { eapply rts_keyed; [exact Hb|]. eapply (rts_keyed _ _ [_]); [econstructor; [exact Hmade|constructor]|]. eapply rts_keyed; [exact Ha|exact Hk]. }
  apply lookup_NoDup; [exact Hkey|]. destruct (in_dec (fun a b : str * refresh_token => ltac:(repeat decide equality)) (k, row) (st_rts (tb_store tc))) as [Hi|Hi]; [exact Hi|exfalso].
  set (l3 := l1 ++ (m, OLib (OCreateRT c o sc (V (Some k)))) :: a ++ (n, OLib (OGetRT k (V (lookup k (st_rts (tb_store tc)))))) :: b) in *.
  destruct (lost_at C aware (fun t => In (k, row) (st_rts (tb_store t))) (fun o => o = ODropRefresh (rt_user row) (V tt) \/ exists c h, o = OLib (ORevokeToken c k h (V tt)) /\ cl_id c = rt_client row)) with (l := a) (t := tb) (t' := tc) as (j & z & Hj & Hz).
  - intros x. destruct (in_dec (fun a b : str * refresh_token => ltac:(repeat decide equality)) (k, row) (st_rts (tb_store x))); auto.
  - intros; eapply refresh_lost; eauto.
  - exact Hb.
  - exact Hin.
  - exact Hi.
  - assert (Hjl : In (j, z) l3) by (apply in_app_iff; right; right; apply in_app_iff; left; exact Hj). destruct Hz as [->|(c' & h & -> & Hc')].
    + destruct (drop_page _ _ _ _ _ _ _ (rt_user row) Hrun Hjl) as (q & Hq & Hlo); [left; eauto|]. destruct (Hno j q) as [H1 _]; [eexists; exact Hj|exact Hq|]. exact (H1 Hlo).
    + destruct (revoke_page _ _ _ _ _ _ _ _ _ _ _ _ _ _ Hrun Hst Hjl) as (q & Hq & Hlo). destruct (Hno j q) as [_ H1]; [eexists; exact Hj|exact Hq|]. rewrite Hc', Hc in Hlo. exact (H1 Hlo).
Qed.
Lemma made_rows m c o sc y : In (m, OLib (OCreateRT c o sc y)) log -> In (m, OLib (OFindClient (cl_id c) (V (Some c)))) log.
Proof.
  intros Hi. destruct (lib_page _ _ _ _ _ _ _ Hrun Hi) as (g & w' & ou & sv & r & l & an & Hq & Hg & Hm & Hs & Hil & Hu & Hb & Hme).
  destruct (served_issuing E _ _ _ _ Hs Hil) as [Hsv (x & Hx)]; [right; reflexivity|]. cbn [in_service in_provider in_hooks in_request] in Hsv, Hx. subst sv.
  destruct g; try discriminate. destruct (p_registered_grants _ _ _ _ _ _ _ Hx Hil) as (g & i & c1 & tr' & _ & _ & _ & -> & Ha & Hc); [right; reflexivity|].
  assert (c1 = c) as -> by (destruct Hc as [(? & ? & ? & Hc)|((? & ? & ? & Hc) & _)]; [discriminate|congruence]).
  assert (Hf : In (m, OLib (OFindClient i (V (Some c)))) log) by (eapply (Hb []); [reflexivity|]; intros [Hc'|[]]; discriminate).
  destruct (found_stored _ _ _ _ _ _ _ _ Hst Hf) as [_ <-]. exact Hf.
Qed.
Theorem c179_refresh m n k c o sc l1 l2 w r x : order_ok E -> NoDup (map fst (st_rts (tb_store t0))) ->
  log = l1 ++ (m, OLib (OCreateRT c o sc (V (Some k)))) :: l2 -> ~ acted n l1 ->
  (forall j q uid, owner_id o = Ok uid -> acted j l2 -> nth_error qs j = Some q -> ~ logs_out log j q uid /\ ~ revokes_for t0 log j q (cl_id c) k) ->
  aexec (application E p hs TokenPage w) (acalls_of n log) x -> wb_cookie w = None -> wb_method w = chars "POST" -> taken_as w None r ->
  In GRefresh (pv_grants p) -> In (chars "refresh_token") (cl_grants c) -> presents r (cl_id c) c ->
  data_has r "grant_type" (chars "refresh_token") -> data_has r "refresh_token" k -> k <> [] -> asks_none r ->
  no_raise (lib_calls (acalls_of n log)) -> texts_ok (lib_calls (acalls_of n log)) ->
  (forall row, In (OGetRT k (V (Some row))) (lib_calls (acalls_of n log)) -> exists e, rt_exp row = Naive e /\ before e (lib_calls (acalls_of n log))) ->
  exists row u z a new sc' sc'', In (n, OLib (OGetRT k (V (Some row)))) log /\ rt_client row = cl_id c /\ owner_id o = Ok (us_id u) /\ x = V (RResponse z) /\
    (forall s, In s sc' <-> In s (rt_scopes row)) /\ In (n, OLib (OCreateAT c (OwnUser u) (cl_allowed c (Some sc')) (V a))) log /\
    token_answer z a (cf_token_lifespan (pv_config p)) new sc''.
Proof.
  intros Hord Hk Hl Hn1 Hno Hx Hck Hpost Htk Hg Hgr Hpr D1 D2 D3 D4 Hnr Htx Hexp.
  assert (Hm : In (m, OLib (OCreateRT c o sc (V (Some k)))) log) by (rewrite Hl; apply in_elt). pose proof (made_rows _ _ _ _ _ Hm) as Hfc.
  destruct (c179_kept m k c o sc l1 l2 Hk Hl) as (row & Hrc & Hro & Hkept).
  assert (F2 : finds_refresh k row (lib_calls (acalls_of n log))).
  { intros y Hy. pose proof (Hnr _ Hy) as Hv. destruct y as [y|e]; [|discriminate]. apply lib_calls_In in Hy. apply acalls_In in Hy.
    rewrite Hl in Hy. apply in_app_iff in Hy as [Hy|[Hy|Hy]]; [destruct Hn1; eexists; exact Hy|discriminate|]. apply in_split in Hy as (a & b & Hab). f_equal.
    apply (Hkept a n y b Hab). intros j q (z & Hj). apply Hno; [exact Hro|]. exists z. rewrite Hab. apply in_app_iff. auto. }
  assert (F1 : finds_client (cl_id c) c (lib_calls (acalls_of n log))).
  { intros y Hy. pose proof (Hnr _ Hy) as Hv. destruct y as [y|e]; [|discriminate]. apply lib_calls_In in Hy. apply acalls_In in Hy. f_equal.
    apply (in_map snd) in Hy. apply (in_map snd) in Hfc. cbn [snd] in Hy, Hfc. destruct (app_steps_In _ _ _ _ _ _ Hst Hy) as (t1 & t2 & S1 & C1 & _).
    destruct (app_steps_In _ _ _ _ _ _ Hst Hfc) as (t3 & t4 & S2 & C2 & _). apply lib_step in S1 as (S1 & _). apply lib_step in S2 as (S2 & _). eapply client_again; [exact S2|exact S1|congruence]. }
  assert (F3 : forall y, In (OFindUser (rt_user row) y) (lib_calls (acalls_of n log)) -> y = V (find (fun u => eqs (us_id u) (rt_user row)) (st_users (tb_store t0)))).
  { intros y Hy. pose proof (Hnr _ Hy) as Hv. destruct y as [y|e]; [|discriminate]. apply lib_calls_In in Hy. apply acalls_In in Hy. f_equal.
    apply (in_map snd) in Hy. cbn [snd] in Hy. destruct (app_steps_In _ _ _ _ _ _ Hst Hy) as (t1 & t2 & S1 & _ & C1 & _). apply lib_step in S1 as (S1 & _). rewrite <- C1. eapply finds_by_id. exact S1. }
  destruct (token_page_exec _ _ _ _ _ _ _ Hck Hpost Htk Hx) as (y & Hy & Hyx).
  assert (Hg0 : In (OGetRT k (V (Some row))) (lib_calls (acalls_of n log))).
  { destruct (existsb (fun q => match q with OGetRT k' _ => eqs k' k | _ => false end) (lib_calls (acalls_of n log))) eqn:Ee.
    - apply existsb_exists in Ee as (q & Hq & Hqk). destruct q; try discriminate. apply eqs_true in Hqk. subst. rewrite <- (F2 _ Hq). exact Hq.
    - exfalso. assert (Hnone : forall y, ~ In (OGetRT k y) (lib_calls (acalls_of n log))).
      { intros y' Hy'. apply Bool.not_true_iff_false in Ee. apply Ee. apply existsb_exists. eexists. split; [exact Hy'|]. apply eqs_refl. }
      destruct (some_time (lib_calls (acalls_of n log))) as (T & HT).
      destruct (p_refresh_complete _ _ _ _ _ _ _ _ k {| rt_client := cl_id c; rt_user := rt_user row; rt_scopes := rt_scopes row; rt_exp := Naive T |} _ T (rt_scopes row) Hord Hy Hnr Htx Hg Hgr Hpr D1 D2 D3 eq_refl eq_refl F1 (fun y0 Hy0 => False_ind _ (Hnone y0 Hy0)) F3 HT)
        as (z & a & new & sc' & sc'' & -> & _ & _ & _ & Hta & _); [left; auto|].
      destruct (refresh_found _ _ _ _ _ _ k Hy (proj1 Hta) D1 D2) as (i & c' & rt & rest & Htr & _). apply (Hnone (V (Some rt))). rewrite Htr. right. left. reflexivity. }
  destruct (Hexp _ Hg0) as (e & He & Hbe).
  destruct (p_refresh_complete _ _ _ _ _ _ _ _ _ _ _ e (rt_scopes row) Hord Hy Hnr Htx Hg Hgr Hpr D1 D2 D3 Hrc He F1 F2 F3 Hbe) as (z & a & new & sc' & sc'' & Hz & Hsc & Hat & Hrt & Hta & _); [left; auto|].
  destruct (find (fun u => eqs (us_id u) (rt_user row)) (st_users (tb_store t0))) as [u|] eqn:Ef.
  - exists row, u, z, a, new, sc', sc''. split; [apply acalls_In, lib_calls_In; exact Hg0|]. split; [exact Hrc|]. apply find_some in Ef as [_ Ef]. apply eqs_true in Ef. split; [rewrite Ef; exact Hro|].
    split; [apply Hyx; exact Hz|]. split; [exact Hsc|]. split; [apply acalls_In, lib_calls_In; exact Hat|exact Hta].
  - exfalso. apply lib_calls_In in Hrt. apply acalls_In in Hrt. apply (in_map snd) in Hrt. cbn [snd] in Hrt. destruct (app_steps_In _ _ _ _ _ _ Hst Hrt) as (t1 & t2 & S1 & _). apply lib_step in S1 as (S1 & _).
    exact (made_for _ _ _ _ _ _ _ _ S1 eq_refl).
Qed.
End WithEnv.
