(** A login lasts until the user logs out: lemmas for C180. *)
From Coq Require Import String Ascii List NArith ZArith Bool Arith.
From Verif Require Import Base BaseFacts SpecReaders Webtools Crypto Jwk Prog ProgFacts Http OAuth SpecOAuth EndpointFacts GrantFacts TokenFacts IssueFacts AuthzFacts RfcFacts SpecHistory LineageFacts SpecFlow FlowFacts Example ExampleFacts App SpecApp AppFacts LifeFacts StoreFacts SpecKeep KeepFacts SpecWho WhoFacts SpecSound SoundFacts SpecHook HookFacts LifetimeFacts SpecAvail AvailFacts CompleteFacts Utf8 LastFacts.
Import ListNotations.
Open Scope N_scope.

Lemma session_made C aware t t1 sid uid : app_step C aware t (ONewSession sid uid (V tt)) t1 -> In (sid, uid) (tb_sessions t1).
Proof.
  intros H. remember (ONewSession sid uid (V tt)) as o eqn:Eo. destruct H as [ch T e t|T e x t]; destruct e; cbn [app_do fst snd aobserve] in *; try discriminate.
  destruct (existsb _ _) in Eo |- *; [discriminate|]. injection Eo as -> ->. left. reflexivity.
Qed.
Lemma session_read C aware t t1 sid uid y : app_step C aware t (OGetSession sid uid (V y)) t1 -> In (sid, uid) (tb_sessions t) -> y = Some (find (fun u => eqs (us_id u) uid) (st_users (tb_store t))).
Proof.
  intros H Hi. remember (OGetSession sid uid (V y)) as o eqn:Eo. destruct H as [ch T e t|T e x t]; destruct e; cbn [app_do fst snd aobserve] in *; try discriminate.
  injection Eo as -> -> Eo. replace (existsb (fun s => eqs (fst s) sid && eqs (snd s) uid) (tb_sessions t)) with true in Eo; [congruence|].
  symmetry. apply existsb_exists. exists (sid, uid). split; [exact Hi|]. cbn [fst snd]. rewrite !eqs_refl. reflexivity.
Qed.
Lemma found_one {A} (f : A -> str) l a : NoDup (map f l) -> In a l -> find (fun b => eqs (f b) (f a)) l = Some a.
Proof.
  induction l as [|b l IH]; intros Hn Hi; [destruct Hi|]. cbn [map find] in *. inversion Hn as [|? ? Hb Hl]; subst. destruct Hi as [->|Hi]; [rewrite eqs_refl; reflexivity|].
  destruct (eqs_spec (f b) (f a)) as [Hc|_]; [|auto]. destruct Hb. rewrite Hc. apply in_map. exact Hi.
Qed.

(** The calls with which a login comes by the session *)
Definition gives (o : aobs) (sid uid : str) : Prop := o = ONewSession sid uid (V tt) \/ o = OUserSession uid (V (Some sid)).
Lemma session_given C aware t t1 o sid uid : app_step C aware t o t1 -> gives o sid uid -> In (sid, uid) (tb_sessions t1).
Proof.
  intros H [->| ->]; [eapply session_made; eauto|]. remember (OUserSession uid (V (Some sid))) as o eqn:Eo. destruct H as [ch T e t|T e x t]; destruct e; cbn [app_do fst snd aobserve] in *; try discriminate.
  injection Eo as -> Eo. destruct (find (fun s => eqs (snd s) uid) (tb_sessions t)) as [[a b]|] eqn:Ef; [|discriminate]. cbn [option_map fst] in Eo. injection Eo as ->.
  apply find_some in Ef as [Hi He]. cbn [snd] in He. destruct (eqs_spec b uid) as [->|]; [exact Hi|discriminate].
Qed.

Section WithEnv.
Variable E : env.
Variable p : provider.
Variable hs : hooks.
Variable C : crypto.
Variable aware : bool.
Variable qs : list (page * web).
Variable log : list (nat * aobs).
Variable t0 t : tables.
Hypothesis Hrun : app_running E p hs qs log.
Hypothesis Hst : app_steps C aware t0 (map snd log) t.
Lemma session_stays m n o sid uid l1 l2 y l3 : gives o sid uid -> log = l1 ++ (m, o) :: l2 ++ (n, OGetSession sid uid (V y)) :: l3 ->
  (forall j q, acted j l2 -> nth_error qs j = Some q -> ~ logs_out log j q uid) -> y = Some (find (fun u => eqs (us_id u) uid) (st_users (tb_store t0))).
Proof.
  intros Hgv Hl Hno. pose proof Hst as Hs. rewrite Hl, map_app in Hs. apply app_steps_app in Hs as (ta & Ha & Hs). cbn [map snd] in Hs. inversion Hs as [|? ? tb ? ? Hmade Hs2]; subst. clear Hs.
  rewrite map_app in Hs2. apply app_steps_app in Hs2 as (tc & Hb & Hs3). cbn [map snd] in Hs3. inversion Hs3 as [|? ? td ? ? Hget Hs4]; subst. clear Hs3 Hs4.
  pose proof (session_given _ _ _ _ _ _ _ Hmade Hgv) as Hin. set (log := l1 ++ (m, o) :: l2 ++ (n, OGetSession sid uid (V y)) :: l3) in *.
  assert (Hu : st_users (tb_store tc) = st_users (tb_store t0)).
  { assert (Hg : forall l d1 d2, app_steps C aware d1 l d2 -> st_users (tb_store d2) = st_users (tb_store d1)).
    { clear. intros l d1 d2 H. induction H as [|d1 z d2 l d3 Hz _ IH]; [reflexivity|]. apply app_step_same in Hz as (_ & Hz & _). congruence. }
    rewrite (Hg _ _ _ Hb). rewrite (Hg [o] ta tb); [|econstructor; [exact Hmade|constructor]]. apply (Hg _ _ _ Ha). }
  rewrite <- Hu. eapply session_read; [exact Hget|].
  destruct (in_dec (fun a b : str * str => ltac:(repeat decide equality)) (sid, uid) (tb_sessions tc)) as [Hi|Hi]; [exact Hi|exfalso].
  destruct (lost_at C aware (fun t => In (sid, uid) (tb_sessions t)) (fun o => o = ODropSessions uid (V tt))) with (l := l2) (t := tb) (t' := tc) as (j & z & Hj & ->).
  - intros x. destruct (in_dec (fun a b : str * str => ltac:(repeat decide equality)) (sid, uid) (tb_sessions x)); auto.
  - intros; eapply session_lost; eauto.
  - exact Hb.
  - exact Hin.
  - exact Hi.
  - assert (Hjl : In (j, ODropSessions uid (V tt)) log) by (apply in_app_iff; right; right; apply in_app_iff; left; exact Hj).
    destruct (drop_page _ _ _ _ _ _ _ uid Hrun Hjl) as (q & Hq & Hlo); [right; eauto|]. apply (Hno j q); [eexists; exact Hj|exact Hq|exact Hlo].
Qed.
Lemma session_authorizes m n o sid u c l1 l2 l3 w r x uri scopes ch md : NoDup (map us_id (st_users (tb_store t0))) -> In u (st_users (tb_store t0)) ->
  NoDup (map cl_id (st_clients (tb_store t0))) -> In c (st_clients (tb_store t0)) ->
  gives o sid (us_id u) -> log = l1 ++ (m, o) :: l2 ++ l3 -> ~ acted n (l1 ++ [(m, o)]) -> ~ acted n l3 -> (forall j q, acted j l2 -> nth_error qs j = Some q -> ~ logs_out log j q (us_id u)) ->
  aexec (application E p hs AuthorizePage w) (acalls_of n log) x -> wb_cookie w = Some (us_id u, sid) -> wb_method w = chars "GET" -> taken_as w (Some u) r ->
  ano_raise (acalls_of n log) -> scalar_data (rq_data r) -> secrets_ok (lib_calls (acalls_of n log)) ->
  code_request p r u (cl_id c) uri scopes ch md -> In uri (cl_redirects c) -> In (chars "code") (cl_responses c) -> incl scopes (cl_allowed c (Some scopes)) ->
  exists z code ad, x = V (RResponse z) /\ In (n, OLib (OSaveCode code ad c u (V tt))) log /\ ad_challenge ad = ch /\ ad_method ad = md /\ ad_redirect ad = uri /\ ad_scopes ad = scopes /\
    redirects z uri ((chars "code", code) :: state_params (lookup (chars "state") (rq_data r))).
Proof.
  intros Hu1 Hu2 Hc1 Hc2 Hgv Hl Hn1 Hn3 Hno Hx Hck Hget Htk Hnr Hsd Hsec Hreq Huri Hresp Hal.
  assert (Hlibnr : no_raise (lib_calls (acalls_of n log))) by (intros o1 Ho; apply lib_calls_In in Ho; exact (Hnr _ Ho)).
  assert (F1 : finds_client (cl_id c) c (lib_calls (acalls_of n log))).
  { intros y Hy. pose proof (Hlibnr _ Hy) as Hv. destruct y as [y|e]; [|discriminate]. apply lib_calls_In in Hy. apply acalls_In in Hy. f_equal.
    apply (in_map snd) in Hy. cbn [snd] in Hy. destruct (app_steps_In _ _ _ _ _ _ Hst Hy) as (t1 & t2 & S1 & C1 & _). apply lib_step in S1 as (S1 & _).
    remember (OFindClient (cl_id c) (V y)) as o1 eqn:E1. destruct S1 as [ch' T e s|T e x' s]; destruct e; cbn [ex_do fst snd observe] in E1; try discriminate. injection E1 as -> <-. rewrite C1. apply found_one; auto. }
  unfold application in Hx. apply aexec_abind in Hx as [(ou & t1 & t2 & Htr & Hs & Hv)|(e & -> & Hs)]; apply session_exec in Hs as [(Hn & _)|(uid & sid' & y & Hc & Ht & Hy)]; try congruence;
    rewrite Hck in Hc; injection Hc as <- <-.
  - assert (Hgs : In (n, OGetSession sid (us_id u) y) log) by (apply acalls_In; rewrite Htr, Ht; left; reflexivity).
    assert (Hyr : exists y', y = V y') by (apply acalls_In in Hgs; pose proof (Hnr _ Hgs) as Hr; destruct y; [eauto|discriminate]). destruct Hyr as (y' & ->).
    rewrite Hl in Hgs. apply in_app_iff in Hgs as [Hgs|[Hgs|Hgs]]; [destruct Hn1; eexists; apply in_app_iff; left; exact Hgs|destruct Hn1; eexists; apply in_app_iff; right; left; exact Hgs|]. apply in_app_iff in Hgs as [Hgs|Hgs]; [|destruct Hn3; eexists; exact Hgs]. apply in_split in Hgs as (a & b & Hab).
    rewrite Hab in Hl. assert (y' = Some (Some u)) as ->.
    { rewrite <- (found_one us_id _ u Hu1 Hu2). apply (session_stays m n o sid (us_id u) l1 a y' (b ++ l3)); [exact Hgv|rewrite Hl, <- !app_assoc; reflexivity|]. intros j q (o' & Hj). apply Hno. exists o'. rewrite Hab. apply in_app_iff. auto. }
    injection Hy as ->. cbn [view] in Hv. unfold is_get in Hv. rewrite Hget in Hv. replace (eqs (chars "GET") (lit "GET") || eqs (chars "GET") (lit "HEAD")) with true in Hv by reflexivity.
    unfold authorize_get, create_request in Hv. pose proof Htk as Htk'. unfold taken_as in Htk'. rewrite Htk' in Hv.
    apply aexec_abind in Hv as [(r' & s1 & s2 & -> & H1 & H2)|(e & -> & H)]; [|apply aexec_ARet in H as [_ H]; discriminate]. apply aexec_ARet in H1 as [-> H1]. injection H1 as ->.
    assert (Hmade : made r) by (unfold made; repeat eexists; exact Htk).
    assert (Hlc : lib_calls (acalls_of n log) = lib_calls s2) by (rewrite Htr, Ht; reflexivity).
    apply aexec_abind in H2 as [(z & s3 & s4 & -> & H3 & H4)|(e & -> & H)].
    + apply aexec_library in H3 as (l & -> & H3). apply aexec_ARet in H4 as [-> ->]. rewrite app_nil_r, lib_calls_map in Hlc. rewrite Hlc in F1, Hlibnr, Hsec.
      destruct (p_authorize_complete _ _ _ _ _ _ _ _ _ _ _ _ _ H3 Hlibnr Hmade Hsd Hsec Hreq F1 Huri Hresp Hal) as (z' & code & ad & Hz & Hl' & A1 & A2 & A3 & A4 & _ & A5). injection Hz as <-.
      exists z, code, ad. split; [reflexivity|]. split; [|auto]. apply acalls_In, lib_calls_In. rewrite Hlc, Hl'. right. right. left. reflexivity.
    + apply aexec_library in H as (l & -> & H3). rewrite lib_calls_map in Hlc. rewrite Hlc in F1, Hlibnr, Hsec.
      destruct (p_authorize_complete _ _ _ _ _ _ _ _ _ _ _ _ _ H3 Hlibnr Hmade Hsd Hsec Hreq F1 Huri Hresp Hal) as (z' & code & ad & Hz & _). discriminate.
  - exfalso. assert (Hgs : In (OGetSession sid (us_id u) y) (acalls_of n log)) by (rewrite Ht; left; reflexivity). pose proof (Hnr _ Hgs) as Hr. destruct y as [[[?|]|]|]; discriminate.
Qed.
Lemma login_gives w tr l uid sid : aexec (application E p hs LoginPage w) tr (V (RRedirect l (Some (uid, sid)))) -> exists o, In o tr /\ gives o sid uid.
Proof.
  intros H. unfold application in H. apply aexec_abind in H as [(ou & t1 & t2 & -> & _ & H)|(e & H & _)]; [|discriminate].
  assert (Hnr : forall c url tr' ck, aexec (redirect url c) tr' (V (RRedirect l ck)) -> ck = c).
  { intros c url tr' ck Hr. unfold redirect in Hr. apply aexec_ARet in Hr as [_ Hr]. match type of Hr with context [lift ?a] => destruct (lift a) end; cbn in Hr; congruence. }
  assert (Hpost : forall ou', aexec (login_post w ou') t2 (V (RRedirect l (Some (uid, sid)))) -> exists o, In o (t1 ++ t2) /\ gives o sid uid).
  { clear H. intros [u|] H; unfold login_post in H; [apply Hnr in H; discriminate|].
    destruct (negb (form_ok (wb_form w))); [apply aexec_ARet in H as [_ H]; discriminate|].
    apply aexec_abind in H as [(a & s1 & s2 & -> & _ & H)|(e & H & _)]; [|discriminate]. destruct a as [a|]; [|apply aexec_ARet in H as [_ H]; discriminate].
    destruct (negb (eqs (a_password a) (lf_password (wb_form w)))); [apply aexec_ARet in H as [_ H]; discriminate|].
    apply aexec_abind in H as [(s & s3 & s4 & -> & Hs & H)|(e & H & _)]; [|discriminate]. apply aexec_acall in Hs as ->. cbn [aobserve] in *.
    apply aexec_abind in H as [(sid' & s5 & s6 & -> & Hn & H)|(e & H & _)]; [|discriminate]. apply Hnr in H. injection H as -> ->.
    destruct s as [s|].
    - apply aexec_ARet in Hn as [-> Hn]. injection Hn as ->. eexists. split; [|right; reflexivity]. rewrite !in_app_iff. cbn [In]. tauto.
    - apply aexec_abind in Hn as [(tk & s7 & s8 & -> & _ & Hn)|(e & Hn & _)]; [|discriminate]. apply aexec_abind in Hn as [(v & s9 & s10 & -> & Hw & Hn)|(e & Hn & _)]; [|discriminate].
      apply aexec_ARet in Hn as [_ Hn]. injection Hn as ->. apply aexec_acall in Hw as ->. destruct v. eexists. split; [|left; reflexivity]. cbn [aobserve]. rewrite !in_app_iff. cbn [In]. tauto. }
  destruct ou as [ou|]; [|apply aexec_ARet in H as [_ H]; discriminate]. cbn [view] in H. destruct (is_get w); [|destruct (is_post w); [eauto|apply aexec_ARet in H as [_ H]; discriminate]].
  unfold login_get in H. destruct ou; [apply Hnr in H; discriminate|apply aexec_ARet in H as [_ H]; discriminate].
Qed.
Theorem c180_kept j n wl loc sid uid l1 l2 y l3 : aexec (application E p hs LoginPage wl) (acalls_of j log) (V (RRedirect loc (Some (uid, sid)))) ->
  log = l1 ++ l2 ++ (n, OGetSession sid uid (V y)) :: l3 -> ~ acted j l1 -> ~ acted j l3 -> n <> j ->
  (forall k q, acted k l2 -> nth_error qs k = Some q -> ~ logs_out log k q uid) -> y = Some (find (fun u => eqs (us_id u) uid) (st_users (tb_store t0))).
Proof.
  intros Hx Hl H1 H3 Hnj Hno. apply login_gives in Hx as (o & Ho & Hgv). apply acalls_In in Ho. rewrite Hl in Ho.
  apply in_app_iff in Ho as [Ho|Ho]; [destruct H1; eexists; exact Ho|]. apply in_app_iff in Ho as [Ho|[Ho|Ho]]; [|congruence|destruct H3; eexists; exact Ho].
  apply in_split in Ho as (a & b & ->). apply (session_stays j n o sid uid (l1 ++ a) b y l3); [exact Hgv|rewrite Hl; rewrite <- !app_assoc; reflexivity|].
  intros k q (o' & Hk). apply Hno. exists o'. rewrite in_app_iff. right. right. exact Hk.
Qed.
Theorem c180_authorize j n wl loc sid u c l1 l2 l3 l4 w r x uri scopes ch md : NoDup (map us_id (st_users (tb_store t0))) -> In u (st_users (tb_store t0)) ->
  NoDup (map cl_id (st_clients (tb_store t0))) -> In c (st_clients (tb_store t0)) ->
  aexec (application E p hs LoginPage wl) (acalls_of j log) (V (RRedirect loc (Some (us_id u, sid)))) ->
  log = l1 ++ l2 ++ l3 ++ l4 -> ~ acted j l1 -> ~ acted j (l3 ++ l4) -> ~ acted n (l1 ++ l2) -> ~ acted n l4 -> (forall k q, acted k (l2 ++ l3) -> nth_error qs k = Some q -> ~ logs_out log k q (us_id u)) ->
  aexec (application E p hs AuthorizePage w) (acalls_of n log) x -> wb_cookie w = Some (us_id u, sid) -> wb_method w = chars "GET" -> taken_as w (Some u) r ->
  ano_raise (acalls_of n log) -> scalar_data (rq_data r) -> secrets_ok (lib_calls (acalls_of n log)) ->
  code_request p r u (cl_id c) uri scopes ch md -> In uri (cl_redirects c) -> In (chars "code") (cl_responses c) -> incl scopes (cl_allowed c (Some scopes)) ->
  exists z code ad, x = V (RResponse z) /\ In (n, OLib (OSaveCode code ad c u (V tt))) log /\ ad_challenge ad = ch /\ ad_method ad = md /\ ad_redirect ad = uri /\ ad_scopes ad = scopes /\
    redirects z uri ((chars "code", code) :: state_params (lookup (chars "state") (rq_data r))).
Proof.
  intros Hu1 Hu2 Hc1 Hc2 Hx Hl H1 H3 Hn Hn4 Hno. apply login_gives in Hx as (o & Ho & Hgv). apply acalls_In in Ho. rewrite Hl in Ho.
  apply in_app_iff in Ho as [Ho|Ho]; [destruct H1; eexists; exact Ho|]. apply in_app_iff in Ho as [Ho|Ho]; [|destruct H3; eexists; exact Ho].
  apply in_split in Ho as (a & b & ->). apply (session_authorizes j n o sid u c (l1 ++ a) (b ++ l3) l4); auto.
  - rewrite Hl, <- !app_assoc. reflexivity.
  - intros (o' & Hk). apply Hn. exists o'. rewrite !in_app_iff in *. cbn [In] in *. tauto.
  - intros k q (o' & Hk). apply Hno. exists o'. rewrite !in_app_iff in *. cbn [In]. tauto.
Qed.
End WithEnv.
