(** Which tokens answers hand out: lemmas for C182. *)
From Coq Require Import String Ascii List NArith ZArith Bool Arith.
From Verif Require Import Base BaseFacts SpecReaders ReaderFacts Json JsonFacts Utf8 Webtools Crypto Jwk Prog ProgFacts Http OAuth SpecOAuth EndpointFacts GrantFacts TokenFacts IssueFacts ResponseFacts DescFacts Example ExampleFacts App SpecApp AppFacts SpecKeep SpecWho SpecHistory LifeFacts JwsFacts StoreFacts KeepFacts WhoFacts AvailFacts LastFacts.
Import ListNotations.
Open Scope N_scope.

Lemma hooks_others E k l : k <> lit "id_token" -> forall d c u tr d', exec (run_token_hooks E l d c u) tr (V d') -> lookup k d' = lookup k d.
Proof.
  intros Hk. induction l as [|h l IH]; intros d c u tr d' H; cbn [run_token_hooks] in H.
  - apply exec_Ret in H as [_ H]. injection H as ->. reflexivity.
  - apply exec_pbind in H as [(upd & t1 & t2 & -> & H1 & H2)|(e & ? & _)]; [|discriminate].
    rewrite (IH _ _ _ _ _ H2). unfold oidc_token_response in H1. destruct (lookup (lit "scope") d) as [[]|]; try (apply exec_Ret in H1 as [_ H1]; discriminate).
    destruct (substr _ _); [|apply exec_Ret in H1 as [_ H1]; injection H1 as ->; reflexivity].
    apply exec_pbind in H1 as [(t & t3 & t4 & -> & H3 & H4)|(e & ? & _)]; [|discriminate]. apply exec_Ret in H4 as [_ H4]. injection H4 as ->.
    unfold full_update, dupdate. cbn [fold_left fst snd]. apply lookup_dset_other. congruence.
Qed.
Lemma created_rt a n rt sc v : lookup (lit "refresh_token") (create_token a n rt sc) = Some v -> exists k, v = PStr k /\ rt = Some k.
Proof. unfold create_token. destruct rt as [k|], sc; intros H; try discriminate; injection H as <-; eauto. Qed.
Lemma grant_rt E cfg hs g data c tr d v : exec (grant_token E cfg hs g data c) tr (V d) -> lookup (lit "refresh_token") d = Some v ->
  exists k ow sc, v = PStr k /\ In (OCreateRT c ow sc (V (Some k))) tr.
Proof.
  intros H Hv. destruct g; cbn [grant_token] in H.
  - apply code_token_exec in H as (t1 & y & Hx & [(_ & _ & He)|(code & z & _ & -> & He)]); [discriminate|].
    destruct z as [[]|]; [|discriminate]. subst y.
    apply exchange_issues in Hx as [[_ [e He]] | (code' & uri & v' & ac & u & t2 & Hck & Hi)]; [discriminate|].
    destruct Hck as (_ & _ & _ & _ & _ & now & off & t & -> & _).
    destruct Hi as [(e & _ & He) | (a & [(e & _ & He & _) | (rt & t3 & t4 & -> & Ht & Hx)])]; try discriminate.
    apply (hooks_others E (lit "refresh_token")) in Hx as Hl; [|discriminate]. rewrite Hl in Hv. apply created_rt in Hv as (k & -> & ->).
    destruct (ins _ _); [subst t3|destruct Ht; discriminate]. exists k, (OwnUser u), (ac_scopes ac). split; [reflexivity|]. simpl. auto 10.
  - apply cc_exec in H as [[_ [d' H]]|(_ & [a|e] & -> & H)]; try discriminate. injection H as ->. apply created_rt in Hv as (k & _ & H). discriminate.
  - apply refresh_exec in H as [[_ [e He]] | (token & t & sc & ou & t2 & (_ & _ & _ & now & off & dd & -> & _) & Hs)]; [discriminate|].
    destruct Hs as [(e & _ & He) | (a & [(e & _ & He & _) | (rt & t3 & -> & Ht & Hx)])]; try discriminate.
    injection Hx as ->. apply created_rt in Hv as (k & -> & ->). destruct (ins _ _); [subst t3|destruct Ht; discriminate].
    eexists k, _, _. split; [reflexivity|]. simpl. auto 10.
Qed.
Lemma dump_access e : lookup (lit "access_token") (dump e) = None /\ lookup (lit "refresh_token") (dump e) = None.
Proof. rewrite dump_params. unfold error_params, opt_param. destruct (oe_desc e), (oe_uri e), (oe_state e); split; reflexivity. Qed.

Section WithEnv.
Variable E : env.
Variable p : provider.
Variable hs : hooks.
Lemma token_hands r tr z d v : exec (token_endpoint E p hs r) tr (V z) -> json_body z d ->
  (lookup (lit "access_token") d = Some v -> exists i c a ow sc, authenticates r i c /\ In (OFindClient i (V (Some c))) tr /\ v = PStr a /\ In (OCreateAT c ow sc (V a)) tr) /\
  (lookup (lit "refresh_token") d = Some v -> exists i c k ow sc, authenticates r i c /\ In (OFindClient i (V (Some c))) tr /\ v = PStr k /\ In (OCreateRT c ow sc (V (Some k))) tr).
Proof.
  intros H Hj. pose proof H as H0. apply token_exec in H as (y & Hy & Hx). destruct y as [y|[e|e]]; [| |discriminate].
  - injection Hx as <-. apply token_body_exec in Hy. inversion Hy as [| | |g i c tr' y' Hg Hgt Ha Hm Hin Hex E1 E2]. subst tr.
    destruct y' as [d'|]; [|discriminate]. pose proof (grant_dict _ _ _ _ _ _ _ _ Hex) as (a & ow & sc & Hc & Hw & Ht1 & _).
    apply json_response_V in E2 as (_ & Hj' & _); [|auto]. rewrite <- (json_same _ _ _ Hj Hj') in *. split; intros Hv.
    + assert (Hi : In (OCreateAT c ow sc (V a)) (OFindClient i (V (Some c)) :: tr')) by (right; exact Hc).
      destruct (p_registered_grants _ _ _ _ _ _ _ H0 Hi) as (g' & i' & c' & t' & _ & _ & _ & Ht & Hau & [(ow' & sc' & y & Ho)|((ow' & sc' & y & Ho) & _)]); [left; reflexivity| |discriminate].
      injection Ht as <- <- <-. exists i, c, a, ow, sc. split; [exact Hau|]. split; [left; reflexivity|]. split; [congruence|exact Hi].
    + destruct (grant_rt _ _ _ _ _ _ _ _ _ Hex Hv) as (k & ow' & sc' & -> & Hc').
      assert (Hi : In (OCreateRT c ow' sc' (V (Some k))) (OFindClient i (V (Some c)) :: tr')) by (right; exact Hc').
      destruct (p_registered_grants _ _ _ _ _ _ _ H0 Hi) as (g' & i' & c' & t' & _ & _ & _ & Ht & Hau & _); [right; reflexivity|].
      injection Ht as <- <- <-. exists i, c, k, ow', sc'. split; [exact Hau|]. split; [left; reflexivity|]. split; [reflexivity|exact Hi].
  - symmetry in Hx. unfold token_error in Hx. apply json_response_V in Hx as (_ & Hj' & _); [|apply dump_wf]. rewrite (json_same _ _ _ Hj Hj'). destruct (dump_access e) as [-> ->]. split; discriminate.
Qed.
Lemma revocation_hands r tr z d : exec (revocation_endpoint r) tr (V (Some z)) -> json_body z d -> lookup (lit "access_token") d = None /\ lookup (lit "refresh_token") d = None.
Proof.
  intros H Hj. apply revocation_exec in H as (y & Hs & Hx).
  assert (Hgo : forall e, V (Some z) = revoke_error e -> lookup (lit "access_token") d = None /\ lookup (lit "refresh_token") d = None).
  { intros e He. unfold revoke_error in He. destruct (JSONResponse _ _ _) as [z'|] eqn:Ej; [|discriminate]. injection He as <-. apply json_response_V in Ej as (_ & H2 & _); [|apply dump_wf].
    rewrite (json_same _ _ _ Hj H2). apply dump_access. }
  destruct Hs as [tr e He|i c Ha Ht|i c h e Ha Hh Hne Hni Hk Hd Hl'|i c t hint e Ha Ht Hne Hh Hs|i c t hint Ha Ht Hne Hh Hs].
  - destruct e as [e|e]; [|discriminate]. eapply Hgo; exact Hx.
  - discriminate.
  - eapply Hgo; exact Hx.
  - destruct e as [e|e]; [|discriminate]. eapply Hgo; exact Hx.
  - injection Hx as ->. exfalso. destruct Hj as (t' & H & _ & J). apply utf8_dec_rfc in H. apply loads_complete in J.
    assert (t' = lit "null") as -> by (vm_compute in H; injection H as <-; reflexivity). vm_compute in J. discriminate.
Qed.
Lemma empty_hands z d : rs_body z = [] -> ~ json_body z d.
Proof. intros Hb (t & H & _ & J). rewrite Hb in H. apply utf8_dec_rfc in H. apply loads_complete in J. vm_compute in H. injection H as <-. vm_compute in J. discriminate. Qed.
Lemma c182_handed g w tr z d v : aexec (application E p hs g w) tr (V (RResponse z)) -> json_body z d ->
  (lookup (chars "access_token") d = Some v -> g = TokenPage /\ exists ou r i c a ow sc, taken_as w ou r /\ authenticates r i c /\ In (OLib (OFindClient i (V (Some c)))) tr /\
     v = PStr a /\ In (OLib (OCreateAT c ow sc (V a))) tr) /\
  (lookup (chars "refresh_token") d = Some v -> g = TokenPage /\ exists ou r i c k ow sc, taken_as w ou r /\ authenticates r i c /\ In (OLib (OFindClient i (V (Some c)))) tr /\
     v = PStr k /\ In (OLib (OCreateRT c ow sc (V (Some k)))) tr).
Proof.
  intros H Hj. unfold application in H. apply aexec_abind in H as [(ou & t1 & t2 & -> & _ & H)|(e & H & _)]; [|discriminate].
  destruct ou as [ou|]; [|apply aexec_ARet in H as [_ H]; discriminate].
  assert (Hnr : forall c url tr', ~ aexec (redirect url c) tr' (V (RResponse z))).
  { intros c url tr' Hr. unfold redirect in Hr. apply aexec_ARet in Hr as [_ Hr]. match type of Hr with context [lift ?a] => destruct (lift a) end; cbn in Hr; discriminate. }
  assert (Hmk : forall u r s, aexec (create_request w u) s (V r) -> s = [] /\ taken_as w u r).
  { intros u r s Hr. unfold create_request in Hr. apply aexec_ARet in Hr as [-> Hr]. split; [reflexivity|]. unfold taken_as. symmetry in Hr. apply lift_V in Hr. exact Hr. }
  destruct g; cbn [view] in H.
  - destruct (is_get w); apply aexec_ARet in H as [_ H]; discriminate.
  - exfalso. destruct (is_get w); [unfold login_get in H; destruct ou; [eapply Hnr; exact H|apply aexec_ARet in H as [_ H]; discriminate]|].
    destruct (is_post w); [|apply aexec_ARet in H as [_ H]; discriminate]. unfold login_post in H. destruct ou; [eapply Hnr; exact H|].
    destruct (negb (form_ok (wb_form w))); [apply aexec_ARet in H as [_ H]; discriminate|].
    apply aexec_abind in H as [(a & s1 & s2 & -> & _ & H)|(e & H & _)]; [|discriminate]. destruct a as [a|]; [|apply aexec_ARet in H as [_ H]; discriminate].
    destruct (negb (eqs (a_password a) (lf_password (wb_form w)))); [apply aexec_ARet in H as [_ H]; discriminate|].
    apply aexec_abind in H as [(s & s3 & s4 & -> & _ & H)|(e & H & _)]; [|discriminate].
    apply aexec_abind in H as [(sid' & s5 & s6 & -> & _ & H)|(e & H & _)]; [|discriminate]. eapply Hnr. exact H.
  - exfalso. destruct (is_get w); [|destruct (is_post w); [eapply Hnr; exact H|apply aexec_ARet in H as [_ H]; discriminate]].
    unfold logout_get in H. destruct ou; [|eapply Hnr; exact H]. destruct (wb_cookie w) as [[uid sid]|]; [|apply aexec_ARet in H as [_ H]; discriminate].
    apply aexec_atry in H as (x1 & s1 & s2 & -> & _ & H). apply aexec_atry in H as (x2 & s3 & s4 & -> & _ & H).
    destruct x1; [|apply aexec_ARet in H as [_ H]; discriminate]. destruct x2; [eapply Hnr; exact H|apply aexec_ARet in H as [_ H]; discriminate].
  - exfalso. destruct (is_get w); [|apply aexec_ARet in H as [_ H]; discriminate]. unfold authorize_get in H. destruct ou.
    + apply aexec_abind in H as [(r & s1 & s2 & -> & _ & H)|(e & H & _)]; [|discriminate]. apply aexec_abind in H as [(z' & s3 & s4 & -> & H1 & H)|(e & H & _)]; [|discriminate].
      apply aexec_library in H1 as (l & -> & H1). apply aexec_ARet in H as [_ H]. injection H as ->. apply p_authorization_full in H1 as [_ Hb]. eapply empty_hands; eauto.
    + apply aexec_abind in H as [(r & s1 & s2 & -> & _ & H)|(e & H & _)]; [|discriminate]. eapply Hnr. exact H.
  - exfalso. destruct (is_get w); apply aexec_ARet in H as [_ H]; discriminate.
  - destruct (is_post w); [|apply aexec_ARet in H as [_ H]; discriminate]. unfold revoke_post in H.
    apply aexec_abind in H as [(r & s1 & s2 & -> & _ & H)|(e & H & _)]; [|discriminate]. apply aexec_abind in H as [(z' & s3 & s4 & -> & H1 & H)|(e & H & _)]; [|discriminate].
    apply aexec_library in H1 as (l & -> & H1). destruct z' as [z'|]; [|apply aexec_ARet in H as [_ H]; discriminate]. apply aexec_ARet in H as [_ H]. injection H as ->.
    destruct (revocation_hands _ _ _ _ H1 Hj) as [R1 R2]. change (chars "access_token") with (lit "access_token"). change (chars "refresh_token") with (lit "refresh_token"). rewrite R1, R2. split; discriminate.
  - destruct (is_post w); [|apply aexec_ARet in H as [_ H]; discriminate]. unfold token_post in H.
    apply aexec_abind in H as [(r & s1 & s2 & -> & Hr & H)|(e & H & _)]; [|discriminate]. apply aexec_abind in H as [(z' & s3 & s4 & -> & H1 & H)|(e & H & _)]; [|discriminate].
    apply Hmk in Hr as [-> Hr]. apply aexec_library in H1 as (l & -> & H1). apply aexec_ARet in H as [-> H]. injection H as ->.
    destruct (token_hands _ _ _ _ v H1 Hj) as [T1 T2].
    assert (Hin : forall o, In o l -> In (OLib o) (t1 ++ [] ++ map OLib l ++ [])) by (intros o Ho; rewrite app_nil_r; apply in_app_iff; right; apply (in_map OLib); exact Ho).
    split; intros Hv; (split; [reflexivity|]).
    + destruct (T1 Hv) as (i & c & a & ow & sc & A1 & A2 & A3 & A4). exists ou, r, i, c, a, ow, sc. auto 10.
    + destruct (T2 Hv) as (i & c & a & ow & sc & A1 & A2 & A3 & A4). exists ou, r, i, c, a, ow, sc. auto 10.
Qed.
Lemma c182_stored C aware log t0 t n g w z d v : app_steps C aware t0 (map snd log) t ->
  aexec (application E p hs g w) (acalls_of n log) (V (RResponse z)) -> json_body z d -> lookup (chars "refresh_token") d = Some v ->
  exists ou r i c k l1 l2 t1 row, taken_as w ou r /\ authenticates r i c /\ In (n, OLib (OFindClient i (V (Some c)))) log /\ v = PStr k /\
    log = l1 ++ l2 /\ app_steps C aware t0 (map snd l1) t1 /\ acted n l1 /\ In (k, row) (st_rts (tb_store t1)) /\ rt_client row = cl_id c.
Proof.
  intros Hst Hx Hj Hv. destruct (c182_handed _ _ _ _ _ v Hx Hj) as [_ Hh]. destruct (Hh Hv) as (_ & ou & r & i & c & k & ow & sc & A1 & A2 & A3 & -> & A4).
  apply acalls_In in A3, A4. destruct (in_split _ _ A4) as (l1 & l2 & Hl). rewrite Hl in Hst. rewrite map_app in Hst. apply app_steps_app in Hst as (ta & Ha & Hs). cbn [map snd] in Hs.
  inversion Hs as [|? ? tb ? ? Hmade Hs2]; subst. apply refresh_made in Hmade as Hm. destruct Hm as (row & R1 & R2 & _).
  exists ou, r, i, c, k, (l1 ++ [(n, OLib (OCreateRT c ow sc (V (Some k))))]), l2, tb, row. do 4 (split; [auto|]). split; [rewrite <- app_assoc; reflexivity|].
  split; [rewrite map_app; apply app_steps_app; exists ta; split; [exact Ha|econstructor; [exact Hmade|constructor]]|]. split; [eexists; apply in_app_iff; right; left; reflexivity|]. auto.
Qed.
End WithEnv.
