(** A code stays until a request names it: lemmas for C178. *)
From Coq Require Import String Ascii List NArith ZArith Bool Arith.
From Verif Require Import Base BaseFacts SpecReaders Webtools Crypto Jwk Prog ProgFacts Http OAuth SpecOAuth EndpointFacts GrantFacts TokenFacts IssueFacts AuthzFacts RfcFacts SpecHistory LineageFacts SpecFlow FlowFacts Example ExampleFacts App SpecApp AppFacts LifeFacts StoreFacts SpecKeep KeepFacts SpecWho WhoFacts SpecSound SoundFacts SpecHook HookFacts LifetimeFacts SpecAvail Utf8.
Import ListNotations.
Open Scope N_scope.

(** ** Steps *)
Lemma code_saved C aware t t1 k ad c u : app_step C aware t (OLib (OSaveCode k ad c u (V tt))) t1 -> exists row, In (k, row) (st_codes (tb_store t1)) /\ as_saved ad c u row.
Proof.
  intros H. apply lib_step in H as (H & _). remember (OSaveCode k ad c u (V tt)) as o eqn:Eo. destruct H as [ch T e s|T e x s]; destruct e; cbn [ex_do fst snd observe] in Eo; try discriminate.
  cbn [ex_do]. destruct (ad_nonce data) as [nn|] eqn:En; [|discriminate]. destruct (has code (st_codes s)); [discriminate|]. cbn [fst] in Eo. injection Eo as -> -> -> ->.
  eexists. split; [left; reflexivity|]. do 6 (split; [reflexivity|]). split; [symmetry; exact En|]. eexists. reflexivity.
Qed.
Lemma client_again C aware s s1 s2 s3 i c y : ex_step C aware s (OFindClient i (V (Some c))) s1 -> ex_step C aware s2 (OFindClient i (V y)) s3 -> st_clients s2 = st_clients s -> y = Some c.
Proof.
  intros H1 H2 Hs. remember (OFindClient i (V (Some c))) as o1 eqn:E1. remember (OFindClient i (V y)) as o2 eqn:E2.
  destruct H1 as [ch T e s|T e x s]; destruct e; cbn [ex_do fst snd observe] in E1; try discriminate. injection E1 as -> E1.
  destruct H2 as [ch' T e s2|T e x s2]; destruct e; cbn [ex_do fst snd observe] in E2; try discriminate. injection E2 as -> E2. congruence.
Qed.
Lemma user_again C aware t t1 s2 s3 sid uid u y : app_step C aware t (OGetSession sid uid (V (Some (Some u)))) t1 -> ex_step C aware s2 (OFindUser (us_id u) (V y)) s3 ->
  st_users s2 = st_users (tb_store t) -> y = Some u.
Proof.
  intros H1 H2 Hs. pose proof (get_step _ _ _ _ _ _ _ H1) as [_ Hid]. specialize (Hid u eq_refl). subst uid.
  remember (OGetSession sid (us_id u) (V (Some (Some u)))) as o1 eqn:E1. remember (OFindUser (us_id u) (V y)) as o2 eqn:E2.
  destruct H1 as [ch T e t|T e x t]; destruct e; cbn [app_do fst snd aobserve] in E1; try discriminate. injection E1 as -> -> E1. destruct (existsb _ _) in E1; [|discriminate]. injection E1 as E1.
  destruct H2 as [ch' T e s2|T e x s2]; destruct e; cbn [ex_do fst snd observe] in E2; try discriminate. injection E2 as -> E2. congruence.
Qed.

Section WithEnv.
Variable E : env.
Variable p : provider.
Variable hs : hooks.
(** The deletion is the last call of its request. *)
Lemma deletion_last qs log n k y l1 l2 : app_running E p hs qs log -> log = l1 ++ (n, OLib (ODeleteCode k y)) :: l2 -> forall o, ~ In (n, o) l2.
Proof.
  intros [R1 R2] Hl o Ho. assert (Hi : In (n, OLib (ODeleteCode k y)) log) by (rewrite Hl; apply in_elt).
  destruct (R1 _ _ Hi) as [[g w] Hq]. destruct (R2 _ _ _ Hq) as (tr & x & Hx). apply acalls_In in Hi.
  assert (Hia : In (OLib (ODeleteCode k y)) (acalls_of n log ++ tr)) by (apply in_app_iff; auto).
  apply application_exec in Hx as [(ou & t2 & Hs & He & Hv)|Hx]; [|destruct (Hx _ Hia) as (? & ? & ? & Hz); discriminate].
  apply session_exec in Hs. set (s := firstn _ _) in *. clearbody s.
  assert (Hns : forall z, ~ In (OLib z) s).
  { intros z Hc. destruct Hs as [(_ & Hs & _)|(? & ? & ? & _ & Hs & _)]; rewrite Hs in Hc; [destruct Hc|]. destruct Hc as [Hc|[]]. discriminate. }
  rewrite He in Hia. apply in_app_iff in Hia as [Hia|Hia]; [exact (Hns _ Hia)|].
  apply view_calls in Hv as [Hv|(sv & r & l & Hg & -> & Hr & _ & an & Hsv)].
  { assert (Hlc : In (ODeleteCode k y) (lib_calls t2)) by (unfold lib_calls; apply in_flat_map; eexists; split; [exact Hia|left; reflexivity]). rewrite Hv in Hlc. destruct Hlc. }
  apply in_map_iff in Hia as (z' & Hz & Hia). injection Hz as ->.
  destruct sv; unfold served in Hsv; cbn [in_service in_provider in_hooks in_request] in Hsv; destruct Hsv as (x' & Hsv & _).
  all: try solve [destruct g; discriminate|destruct (no_call _ _ _ _ _ (authz_not_deleting _ _ _ r) Hsv Hia)|destruct (no_call _ _ _ _ _ (revocation_not_deleting r) Hsv Hia)].
  destruct (p_code_burnt _ _ _ _ _ _ _ _ Hsv Hia) as (Hgt & Hcode & _).
  destruct (p_code_deleted_endpoint _ _ _ _ _ _ _ _ Hsv Hgt Hcode Hia) as (i0 & c0 & tr' & y0 & -> & Hnd); [discriminate|].
  rewrite Hl, acalls_app in He. change (acalls_of n ((n, OLib (ODeleteCode k y)) :: l2)) with (acalls_of n ([(n, OLib (ODeleteCode k y))] ++ l2)) in He. rewrite acalls_app in He.
  replace (acalls_of n [(n, OLib (ODeleteCode k y))]) with [OLib (ODeleteCode k y)] in He by (unfold acalls_of; cbn [filter fst]; rewrite Nat.eqb_refl; reflexivity).
  apply acalls_In in Ho. destruct (exists_last (l := acalls_of n l2 ++ tr)) as (b & z & Hb); [destruct (acalls_of n l2); [destruct Ho|discriminate]|].
  rewrite <- !app_assoc, Hb in He. rewrite map_cons, map_app in He. cbn [map] in He. rewrite app_comm_cons, app_assoc, !app_assoc in He. apply app_inj_tail in He as [He _].
  assert (Hin : In (OLib (ODeleteCode k y)) (s ++ OLib (OFindClient i0 (V (Some c0))) :: map OLib tr')).
  { rewrite <- He. apply in_app_iff. left. apply in_app_iff. right. left. reflexivity. }
  apply in_app_iff in Hin as [Hin|[Hin|Hin]]; [exact (Hns _ Hin)|discriminate|]. apply in_map_iff in Hin as (z' & Hz & Hin). injection Hz as ->. exact (Hnd _ _ Hin).
Qed.

Section History.
Variable C : crypto.
Variable aware : bool.
Variable qs : list (page * web).
Variable log : list (nat * aobs).
Variable t0 t : tables.
Hypothesis Hrun : app_running E p hs qs log.
Hypothesis Hst : app_steps C aware t0 (map snd log) t.
Theorem c178_kept m k ad c u l1 l2 : NoDup (map fst (st_codes (tb_store t0))) -> log = l1 ++ (m, OLib (OSaveCode k ad c u (V tt))) :: l2 ->
  exists row, as_saved ad c u row /\ forall a n y b, l2 = a ++ (n, OLib (OGetCode k (V y))) :: b ->
    (forall j q, acted j a -> j <> n -> nth_error qs j = Some q -> ~ names_code q k) -> y = Some row.
Proof.
  intros Hk Hl. pose proof Hst as Hs. rewrite Hl, map_app in Hs. apply app_steps_app in Hs as (ta & Ha & Hs). cbn [map snd] in Hs. inversion Hs as [|? ? tb ? ? Hsave Hs2]; subst.
  destruct (code_saved _ _ _ _ _ _ _ _ Hsave) as (row & Hin & Has). exists row. split; [exact Has|]. intros a n y b -> Hno. clear Hs.
  rewrite map_app in Hs2. apply app_steps_app in Hs2 as (tc & Hb & Hs3). cbn [map snd] in Hs3. inversion Hs3 as [|? ? td ? ? Hget Hs4]; subst. clear Hs3 Hs4.
  apply lib_step in Hget as (Hget & _). apply get_code_inv in Hget. subst y.
  assert (Hkey : NoDup (map fst (st_codes (tb_store tc)))).
  { assert (Hg : forall l a b, app_steps C aware a l b -> NoDup (map fst (st_codes (tb_store a))) -> NoDup (map fst (st_codes (tb_store b)))).
    { clear. intros l d1 d2 Hab. induction Hab as [|d1 o d2 l d3 Ho _ IH]; [auto|]. intros Hn. apply IH. destruct (is_lib o) as [[z ->]|Hz].
      - apply lib_step in Ho as (Ho & _). destruct Ho as [ch T e s|T e x s]; [|exact Hn]. destruct e; cbn [ex_do fst snd]; try exact Hn.
        + destruct (ad_nonce data); [|exact Hn]. destruct (has code (st_codes s)) eqn:Eh; [exact Hn|]. cbn [snd set_codes st_codes map fst]. constructor; [apply not_has; exact Eh|exact Hn].
        + cbn [set_codes st_codes]. apply nodup_fst. exact Hn.
        + destruct (owner_id o) as [?|]; [|exact Hn]. destruct (find _ (st_rts s)) as [[? ?]|]; [exact Hn|]. destruct (has _ _); exact Hn.
      - apply other_step in Ho as (He & _); [|exact Hz]. rewrite He. exact Hn. }
    eapply Hg; [exact Hb|]. eapply (Hg [_]); [econstructor; [exact Hsave|constructor]|]. eapply Hg; [exact Ha|exact Hk]. }
  apply lookup_NoDup; [exact Hkey|]. destruct (in_dec (fun a b : str * auth_code => ltac:(repeat decide equality)) (k, row) (st_codes (tb_store tc))) as [Hi|Hi]; [exact Hi|exfalso].
  destruct (lost_at C aware (fun t => In (k, row) (st_codes (tb_store t))) (fun o => o = OLib (ODeleteCode k (V tt)))) with (l := a) (t := tb) (t' := tc) as (j & o & Hj & ->).
  - intros x. destruct (in_dec (fun a b : str * auth_code => ltac:(repeat decide equality)) (k, row) (st_codes (tb_store x))); auto.
  - intros ? ? ? Ho H1 H2. eapply code_lost; eauto.
  - exact Hb.
  - exact Hin.
  - exact Hi.
  - assert (Hjl : In (j, OLib (ODeleteCode k (V tt))) (l1 ++ (m, OLib (OSaveCode k ad c u (V tt))) :: a ++ (n, OLib (OGetCode k (V (lookup k (st_codes (tb_store tc)))))) :: b)).
    { apply in_app_iff. right. right. apply in_app_iff. left. exact Hj. }
    destruct (deleted_page _ _ _ _ _ _ _ _ _ _ _ _ Hrun Hst Hjl) as (q & r & c' & Hq & Hask & _ & Hcode).
    destruct (Nat.eq_dec j n) as [->|Hne].
    + apply in_split in Hj as (a1 & a2 & ->). eapply (deletion_last _ _ n k (V tt) (l1 ++ (m, OLib (OSaveCode k ad c u (V tt))) :: a1)); [exact Hrun|..].
      * rewrite <- !app_assoc. cbn [app]. repeat rewrite <- app_assoc. reflexivity.
      * apply in_app_iff. right. left. reflexivity.
    + apply (Hno j q); [eexists; exact Hj|exact Hne|exact Hq|]. destruct Hask as (Hpg & _ & (ou & Htk) & _). split; [exact Hpg|]. eauto.
Qed.
(** What the calls of the saving request say about its client and its user *)
Lemma saved_rows m k ad c u y : In (m, OLib (OSaveCode k ad c u y)) log ->
  In (m, OLib (OFindClient (cl_id c) (V (Some c)))) log /\ exists sid, In (m, OGetSession sid (us_id u) (V (Some (Some u)))) log.
Proof.
  intros Hi. destruct (lib_page _ _ _ _ _ _ _ Hrun Hi) as (g & w & ou & sv & r & l & an & Hq & Hg & Hm & Hs & Hil & Hu & Hb & Hme).
  destruct g; try discriminate; injection Hg as <-; unfold served in Hs; cbn [in_service in_provider in_hooks in_request] in Hs; destruct Hs as (x & Hs & _).
  - destruct (p_code_saved _ _ _ _ _ _ _ _ _ _ _ Hs Hil) as (cid & uri & -> & Hru & _).
    assert (ou = Some u) as ->. { unfold taken_as, make_request in Hm. destruct (raise_if _ _); [|discriminate]. cbn [rbind] in Hm. destruct (raise_if _ _); [|discriminate]. cbn [rbind] in Hm. injection Hm as <-. exact Hru. }
    destruct (Hu u eq_refl) as (uid & sid & _ & Hses). pose proof (session_id _ _ _ _ _ _ _ _ _ Hst Hses) as <-.
    assert (Hf : In (m, OLib (OFindClient cid (V (Some c)))) log) by (eapply (Hb []); [reflexivity|]; intros [Hc'|[]]; discriminate).
    destruct (found_stored _ _ _ _ _ _ _ _ Hst Hf) as [_ <-]. eauto.
  - destruct (no_call _ _ _ _ _ (revocation_not_saving r) Hs Hil).
  - destruct (no_call _ _ _ _ _ (token_not_saving _ _ _ r) Hs Hil).
Qed.
Lemma token_page_exec w r tr x : wb_cookie w = None -> wb_method w = chars "POST" -> taken_as w None r -> aexec (application E p hs TokenPage w) tr x ->
  exists y, exec (token_endpoint E p hs r) (lib_calls tr) y /\ (forall z, y = V z -> x = V (RResponse z)).
Proof.
  intros Hc Hm Hr Hx. unfold application in Hx. apply aexec_abind in Hx as [(ou & t1 & t2 & -> & Hs & Hv)|(e & _ & Hs)]; apply session_exec in Hs as [(_ & Ht & Hs)|(? & ? & ? & Hs & _)]; try congruence.
  - subst t1. injection Hs as ->. cbn [app].
    cbn [view] in Hv. unfold is_post in Hv. rewrite Hm in Hv. replace (eqs (chars "POST") (lit "POST")) with true in Hv by reflexivity. unfold token_post, create_request in Hv.
    unfold taken_as in Hr. rewrite Hr in Hv. apply aexec_abind in Hv as [(r' & s1 & s2 & -> & H1 & H2)|(e & -> & H)]; [|apply aexec_ARet in H as [_ H]; discriminate].
    apply aexec_ARet in H1 as [-> H1]. injection H1 as ->.
    cbn [app]. apply aexec_abind in H2 as [(z & s3 & s4 & -> & H3 & H4)|(e & -> & H)].
    + apply aexec_library in H3 as (l & -> & H3). apply aexec_ARet in H4 as [-> ->]. exists (V z). rewrite app_nil_r, lib_calls_map. split; [exact H3|]. intros z' Hz. injection Hz as ->. reflexivity.
    + apply aexec_library in H as (l & -> & H). exists (X e). rewrite lib_calls_map. split; [exact H|]. discriminate.
Qed.
Theorem c178_exchange m n k ad c u l1 l2 w r x v : (forall b, bytes_ok (e_sha256 E b)) -> hashes E -> hk_response hs <> [] ->
  NoDup (map fst (st_codes (tb_store t0))) -> log = l1 ++ (m, OLib (OSaveCode k ad c u (V tt))) :: l2 -> ~ acted n l1 ->
  (forall j q, acted j l2 -> j <> n -> nth_error qs j = Some q -> ~ names_code q k) ->
  aexec (application E p hs TokenPage w) (acalls_of n log) x -> wb_cookie w = None -> wb_method w = chars "POST" ->
  taken_as w None r -> exchange_request p r (cl_id c) c k (ad_redirect ad) v -> pkce_ok (e_sha256 E) (ad_method ad) (ad_challenge ad) v ->
  ad_scopes ad <> [] -> scalar_str (cl_id c) ->
  no_raise (lib_calls (acalls_of n log)) -> texts_ok (lib_calls (acalls_of n log)) ->
  (forall row e, In (OGetCode k (V (Some row))) (lib_calls (acalls_of n log)) -> ac_exp row = Naive e -> before e (lib_calls (acalls_of n log))) ->
  (forall h, In h (hk_response hs) -> hook_served E h (lib_calls (acalls_of n log)) /\ quick (cf_id_token_lifespan (hk_config h)) (lib_calls (acalls_of n log))) ->
  exists z a rt, x = V (RResponse z) /\ In (n, OLib (OCreateAT c (OwnUser u) (ad_scopes ad) (V a))) log /\ created_refresh c (OwnUser u) (ad_scopes ad) rt (lib_calls (acalls_of n log)) /\
    token_answer z a (cf_token_lifespan (pv_config p)) rt (ad_scopes ad).
Proof.
  intros Hb Hh Hne Hk Hl Hn1 Hno Hx Hck Hpost Htk Hex Hpk Hsc Hci Hnr Htx Hexp Hhk.
  assert (Hm : In (m, OLib (OSaveCode k ad c u (V tt))) log) by (rewrite Hl; apply in_elt). destruct (saved_rows _ _ _ _ _ _ Hm) as [Hfc (sid & Hgs)].
  destruct (c178_kept m k ad c u l1 l2 Hk Hl) as (row & Has & Hkept).
  assert (F2 : finds_code k row (lib_calls (acalls_of n log))).
  { intros y Hy. pose proof (Hnr _ Hy) as Hv. destruct y as [y|e]; [|discriminate]. apply lib_calls_In in Hy. apply acalls_In in Hy.
    rewrite Hl in Hy. apply in_app_iff in Hy as [Hy|[Hy|Hy]]; [destruct Hn1; eexists; exact Hy|discriminate|]. apply in_split in Hy as (a & b & Hab). f_equal.
    apply (Hkept a n y b Hab). intros j q (o & Hj). apply Hno. exists o. rewrite Hab. apply in_app_iff. auto. }
  assert (F1 : finds_client (cl_id c) c (lib_calls (acalls_of n log))).
  { intros y Hy. pose proof (Hnr _ Hy) as Hv. destruct y as [y|e]; [|discriminate]. apply lib_calls_In in Hy. apply acalls_In in Hy. f_equal.
    apply (in_map snd) in Hy. apply (in_map snd) in Hfc. cbn [snd] in Hy, Hfc. destruct (app_steps_In _ _ _ _ _ _ Hst Hy) as (t1 & t2 & S1 & C1 & _).
    destruct (app_steps_In _ _ _ _ _ _ Hst Hfc) as (t3 & t4 & S2 & C2 & _). apply lib_step in S1 as (S1 & _). apply lib_step in S2 as (S2 & _). eapply client_again; [exact S2|exact S1|congruence]. }
  assert (F3 : finds_user (ac_user row) u (lib_calls (acalls_of n log))).
  { destruct Has as (_ & -> & _). intros y Hy. pose proof (Hnr _ Hy) as Hv. destruct y as [y|e]; [|discriminate]. apply lib_calls_In in Hy. apply acalls_In in Hy. f_equal.
    apply (in_map snd) in Hy. apply (in_map snd) in Hgs. cbn [snd] in Hy, Hgs. destruct (app_steps_In _ _ _ _ _ _ Hst Hy) as (t1 & t2 & S1 & _ & C1 & _).
    destruct (app_steps_In _ _ _ _ _ _ Hst Hgs) as (t3 & t4 & S2 & _ & C2 & _). apply lib_step in S1 as (S1 & _). eapply user_again; [exact S2|exact S1|congruence]. }
  destruct (token_page_exec _ _ _ _ Hck Hpost Htk Hx) as (y & Hy & Hyx).
  pose proof Has as (A1 & A2 & A3 & A4 & A5 & A6 & A7 & e & A8).
  assert (Hrun' : forall y, In (OGetCode k (V y)) (lib_calls (acalls_of n log)) -> exists ac, y = Some ac /\ matching_code E c (ad_redirect ad) v (lib_calls (acalls_of n log)) ac /\ finds_user (ac_user ac) u (lib_calls (acalls_of n log))).
  { intros y' Hy'. pose proof (F2 _ Hy') as F. injection F as ->. exists row. split; [reflexivity|]. split; [|exact F3]. split; [exact A3|]. split; [exact A1|]. split; [rewrite A5, A6; exact Hpk|].
    exists e. split; [exact A8|]. eapply Hexp; [exact Hy'|exact A8]. }
  destruct (code_run _ _ _ _ _ _ _ _ _ _ _ _ Hb Hy Hnr Hex F1 Hrun') as (ac & a & rt & pre & s2 & w' & _ & Hg & _).
  pose proof (F2 _ Hg) as F. injection F as ->. destruct (Hrun' _ Hg) as (ac' & Hac & Hmat & _). injection Hac as <-.
  assert (Hsc' : ac_scopes row <> []) by (rewrite A4; exact Hsc).
  destruct (p_code_oidc _ _ _ _ _ _ _ _ _ _ _ _ _ Hb Hh Hy Hnr Htx Hne Hex Hmat Hsc' Hci F1 F2 F3 Hhk) as (z & a' & rt' & d & Hz & Hat & Hcr & Hta & _).
  exists z, a', rt'. split; [apply Hyx; exact Hz|]. rewrite A4 in Hat, Hcr, Hta. split; [|split; [exact Hcr|exact Hta]]. apply acalls_In. apply lib_calls_In. exact Hat.
Qed.
End History.
End WithEnv.
