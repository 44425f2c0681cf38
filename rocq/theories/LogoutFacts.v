(** After a logout: where tokens for the user can still come from.  Lemmas for C100. *)
From Coq Require Import String Ascii List NArith ZArith Bool Arith Lia.
From Verif Require Import Base BaseFacts SpecCodec Json Webtools Crypto Jwk Prog ProgFacts Http OAuth SpecOAuth SpecHistory SpecFlow Example ExampleFacts OAuthFacts GrantFacts EndpointFacts TokenFacts IssueFacts HistoryFacts StoreFacts LineageFacts App SpecApp AppFacts.
Import ListNotations.
Open Scope N_scope.

Section WithEnv.
Variable E : env.
Hypothesis sha_bytes : forall b, bytes_ok (e_sha256 E b).
Hypothesis set_order : order_ok E.
(** What a request that creates a token for a user found before *)
Lemma issue_needs qs log l1 n o l2 c u sc : running E qs log -> users_by_id (map snd log) -> log = l1 ++ (n, o) :: l2 -> issue c u sc o ->
  (exists code ac, In (n, OGetCode code (V (Some ac))) l1 /\ ac_user ac = us_id u) \/
  (exists token rt, In (n, OGetRT token (V (Some rt))) l1 /\ rt_user rt = us_id u).
Proof.
  intros Hrun Hu Elog Ho.
  assert (Hcr : creates_at o = true \/ creates_rt o = true) by (destruct Ho as [(y & ->)|(y' & ->)]; auto).
  assert (Hin : In (n, o) log) by (rewrite Elog; apply in_app_iff; right; left; reflexivity).
  destruct (proj1 Hrun _ _ Hin) as [q Hq]. destruct (proj2 Hrun _ _ Hq) as (tr' & an & Hs).
  assert (Hin' : In o (calls_of n log ++ tr')) by (apply in_app_iff; left; apply calls_of_In; auto).
  destruct (served_issuing _ _ _ _ _ Hs Hin' Hcr) as (_ & x & Hx).
  assert (Hfind : forall i, In (n, OFindUser i (V (Some u))) l1 -> us_id u = i).
  { intros i Hi. apply (Hu i u). change (OFindUser i (V (Some u))) with (snd (n, OFindUser i (V (Some u)))). apply in_map. rewrite Elog. apply in_app_iff. auto. }
  destruct (issuing_grant _ _ _ _ _ _ _ Hx Hin' Hcr) as [Hg|[Hg|Hg]].
  - left. destruct (p_code_grant E _ _ _ _ _ _ sha_bytes Hx Hg Hin' Hcr) as (i & c' & code & uri & v & ac & u' & now & off & t & rest & Etr & _ & _ & _ & _ & _ & _ & _ & _ & _ & _ & Hob).
    assert (u' = u) as -> by (destruct Ho as [(y & ->)|(y' & ->)]; destruct Hob as [[z Hz]|[[z Hz] _]]; try discriminate; injection Hz; auto).
    pose proof (earlier n o [OFindClient i (V (Some c')); OGetCode code (V (Some ac)); ONow (V (now, off)); OFindUser (ac_user ac) (V (Some u))] rest l1 l2 tr') as Hpre.
    rewrite <- Elog in Hpre. specialize (Hpre Etr).
    assert (Hfresh : ~ In o [OFindClient i (V (Some c')); OGetCode code (V (Some ac)); ONow (V (now, off)); OFindUser (ac_user ac) (V (Some u))]).
    { intros [<-|[<-|[<-|[<-|[]]]]]; destruct Hcr; discriminate. }
    specialize (Hpre Hfresh). exists code, ac. split; [apply calls_of_In, Hpre; simpl; auto|]. symmetry. apply Hfind, calls_of_In, Hpre. simpl; auto.
  - exfalso. destruct (p_client_credentials E _ _ _ _ _ _ Hx Hg Hin' Hcr) as (? & ? & ? & ? & ? & _ & _ & _ & _ & _ & Heq & _).
    destruct Ho as [(y' & ->)|(y'' & ->)]; discriminate.
  - right. destruct (p_refresh_grant E _ _ _ _ _ _ set_order Hx Hg Hin' Hcr) as (i & c' & token & t & now & off & d & ou & rest & sc' & Etr & _ & _ & _ & _ & _ & Hob & _).
    assert (ou = Some u) as ->.
    { destruct ou as [u'|]; cbn [owner_of] in Hob; destruct Ho as [(y & ->)|(y' & ->)]; destruct Hob as [[z Hz]|[[z Hz] _]]; try discriminate; injection Hz; intros; subst; auto. }
    pose proof (earlier n o [OFindClient i (V (Some c')); OGetRT token (V (Some t)); ONow (V (now, off)); OFindUser (rt_user t) (V (Some u))] rest l1 l2 tr') as Hpre.
    rewrite <- Elog in Hpre. specialize (Hpre Etr).
    assert (Hfresh : ~ In o [OFindClient i (V (Some c')); OGetRT token (V (Some t)); ONow (V (now, off)); OFindUser (rt_user t) (V (Some u))]).
    { intros [<-|[<-|[<-|[<-|[]]]]]; destruct Hcr; discriminate. }
    specialize (Hpre Hfresh). exists token, t. split; [apply calls_of_In, Hpre; simpl; auto|]. symmetry. apply Hfind, calls_of_In, Hpre. simpl; auto.
Qed.
(** Refresh tokens are created for users. *)
Lemma rt_for_user qs log m c1 o1 sc1 token : running E qs log -> owned (map snd log) -> In (m, OCreateRT c1 o1 sc1 (V (Some token))) log -> exists u1, o1 = OwnUser u1.
Proof.
  intros Hrun Hown Hin1.
  assert (Hin1' : In (OCreateRT c1 o1 sc1 (V (Some token))) (map snd log)).
  { change (OCreateRT c1 o1 sc1 (V (Some token))) with (snd (m, OCreateRT c1 o1 sc1 (V (Some token)))). apply in_map. auto. }
  destruct o1 as [u1|c2|]; [eauto| |exfalso; eapply Hown; eauto]. exfalso.
  destruct (proj1 Hrun _ _ Hin1) as [q1 Hq1]. destruct (proj2 Hrun _ _ Hq1) as (tr1 & an1 & Hs1).
  assert (Hi1 : In (OCreateRT c1 (OwnClient c2) sc1 (V (Some token))) (calls_of m log ++ tr1)) by (apply in_app_iff; left; apply calls_of_In; auto).
  destruct (served_issuing _ _ _ _ _ Hs1 Hi1 (or_intror eq_refl)) as (_ & x1 & Hx1).
  destruct (issuing_grant _ _ _ _ _ _ _ Hx1 Hi1 (or_intror eq_refl)) as [Hg1|[Hg1|Hg1]].
  - destruct (p_code_grant E _ _ _ _ _ _ sha_bytes Hx1 Hg1 Hi1 (or_intror eq_refl)) as (? & ? & ? & ? & ? & ? & ? & ? & ? & ? & ? & _ & _ & _ & _ & _ & _ & _ & _ & _ & _ & _ & Hob1).
    destruct Hob1 as [[z Hz]|[[z Hz] _]]; discriminate.
  - destruct (p_client_credentials E _ _ _ _ _ _ Hx1 Hg1 Hi1 (or_intror eq_refl)) as (? & ? & ? & ? & ? & _ & _ & _ & _ & _ & Heq & _). discriminate.
  - destruct (p_refresh_grant E _ _ _ _ _ _ set_order Hx1 Hg1 Hi1 (or_intror eq_refl)) as (? & ? & ? & ? & ? & ? & ? & ou1 & ? & ? & _ & _ & _ & _ & _ & _ & Hob1 & _).
    destruct ou1; cbn [owner_of] in Hob1; destruct Hob1 as [[z Hz]|[[z Hz] _]]; discriminate.
Qed.
End WithEnv.

Lemma lib_log_app a b : lib_log (a ++ b) = lib_log a ++ lib_log b.
Proof. unfold lib_log. apply flat_map_app. Qed.
(** Codes for the user are those there were, when none is saved. *)
Lemma ex_code_step C aware s o s' k ac : ex_step C aware s o s' -> In (k, ac) (st_codes s') -> In (k, ac) (st_codes s) \/ exists ad c u, o = OSaveCode k ad c u (V tt) /\ ac_user ac = us_id u.
Proof.
  intros Hs Hin. destruct Hs as [ch T e s|T e x s]; [|auto]. destruct e; cbn [ex_do fst snd observe] in *; auto.
  - destruct (ad_nonce data); [|auto]. destruct (has code (st_codes s)); cbn [fst snd st_codes set_codes] in *; [auto|]. destruct Hin as [Hin|Hin]; [|auto].
    injection Hin as <- <-. right. exists data, c, u. split; reflexivity.
  - left. cbn [st_codes set_codes] in Hin. unfold dremove in Hin. apply filter_In in Hin. tauto.
  - destruct (owner_id o) as [u|]; cbn [fst snd] in *; [|auto]. destruct (find _ (st_rts s)) as [[t ?]|]; cbn [fst snd] in *; [auto|].
    destruct (has (ch_token ch) (st_rts s)); cbn [fst snd] in *; auto.
Qed.
Definition code_since (uid : str) (t0 : tables) (tr : list aobs) (t : tables) : Prop := forall k ac, In (k, ac) (st_codes (tb_store t)) -> ac_user ac = uid ->
  In (k, ac) (st_codes (tb_store t0)) \/ exists ad c u, In (OLib (OSaveCode k ad c u (V tt))) tr /\ us_id u = uid.
Lemma code_since_steps C aware uid t0 : forall tr t t' pre, app_steps C aware t tr t' -> code_since uid t0 pre t -> code_since uid t0 (pre ++ tr) t'.
Proof.
  induction tr as [|o tr IH]; intros t t' pre Hs Hk; inversion Hs as [|? ? t1 ? ? Ho Ht]; subst; [rewrite app_nil_r; auto|].
  replace (pre ++ o :: tr) with ((pre ++ [o]) ++ tr) by (rewrite <- app_assoc; auto). eapply IH; [exact Ht|]. intros k ac Hin Hu.
  assert (Hold : In (k, ac) (st_codes (tb_store t)) -> In (k, ac) (st_codes (tb_store t0)) \/ exists ad c u, In (OLib (OSaveCode k ad c u (V tt))) (pre ++ [o]) /\ us_id u = uid).
  { intros H. destruct (Hk _ _ H Hu) as [H1|(ad & c & u & H1 & H2)]; [auto|]. right. exists ad, c, u. split; [apply in_app_iff; auto|auto]. }
  destruct (is_lib o) as [[z ->]|Hn].
  - apply lib_step in Ho as (Ho & _). destruct (ex_code_step _ _ _ _ _ _ _ Ho Hin) as [H|(ad & c & u & -> & H)]; [auto|].
    right. exists ad, c, u. split; [apply in_app_iff; right; left; reflexivity|congruence].
  - apply other_step in Ho as (Hc & _); [|auto]. rewrite Hc in Hin. auto.
Qed.
Lemma get_code_step C aware t k ac t1 : app_step C aware t (OLib (OGetCode k (V (Some ac)))) t1 -> In (k, ac) (st_codes (tb_store t)).
Proof.
  intros Ho. apply lib_step in Ho as (Ho & _). remember (OGetCode k (V (Some ac))) as o eqn:Eo. destruct Ho as [ch T e s|T e x s]; [|destruct e; discriminate].
  destruct e; cbn [ex_do fst snd observe] in Eo; try discriminate. injection Eo as -> Hl. apply lookup_In. auto.
Qed.
Lemma get_rt_step C aware t k rt t1 : app_step C aware t (OLib (OGetRT k (V (Some rt)))) t1 -> In (k, rt) (st_rts (tb_store t)).
Proof.
  intros Ho. apply lib_step in Ho as (Ho & _). remember (OGetRT k (V (Some rt))) as o eqn:Eo. destruct Ho as [ch T e s|T e x s]; [|destruct e; discriminate].
  destruct e; cbn [ex_do fst snd observe] in Eo; try discriminate. injection Eo as -> Hl. apply lookup_In. auto.
Qed.
(** The tables before a call of the log *)
Lemma steps_at C aware t t' (l1 : list (nat * aobs)) x l2 : app_steps C aware t (map snd (l1 ++ x :: l2)) t' -> exists t1 t2, app_steps C aware t (map snd l1) t1 /\ app_step C aware t1 (snd x) t2.
Proof. intros H. rewrite map_app in H. apply app_steps_app in H as (t1 & H1 & H2). cbn [map] in H2. inversion H2; subst. eauto. Qed.

Section Logout.
Variables (E : env) (p : provider) (hs : hooks) (C : crypto) (aware : bool) (qs : list (page * web)) (log : list (nat * aobs)) (t t' : tables) (uid : str).
Hypothesis sha_bytes : forall b, bytes_ok (e_sha256 E b).
Hypothesis set_order : order_ok E.
Hypothesis Hrun : app_running E p hs qs log.
Hypothesis Hst : app_steps C aware t (map snd log) t'.
Hypothesis Hout : logged_out uid t.
Hypothesis Hpw : forall q, In q qs -> ~ submits_password t uid q.

Lemma no_session l1 m sid y l2 : log = l1 ++ (m, OGetSession sid uid (V (Some y))) :: l2 -> False.
Proof.
  intros El. pose proof Hst as Hs. rewrite El in Hs. apply steps_at in Hs as (t1 & t2 & H1 & H2). cbn [snd] in H2. apply get_step in H2 as [H2 _].
  apply (ses_since_steps _ _ uid _ _ _ [] H1) in H2; [|intros s Hi; exfalso; exact (proj1 Hout s Hi)]. cbn [app] in H2.
  apply in_map_iff in H2 as ([k o] & Ho & Hin). cbn [snd] in Ho. subst o. apply in_split in Hin as (a & b & ->). rewrite <- app_assoc in El. cbn [app] in El.
  destruct (new_submits _ _ _ _ _ _ _ _ _ _ _ _ _ _ _ Hrun Hst El) as (q & Hq & Hp). apply (Hpw q); [eapply nth_error_In; eauto|auto].
Qed.
Lemma no_save m code ad c u y : In (m, OLib (OSaveCode code ad c u y)) log -> us_id u <> uid.
Proof.
  intros Hin Hu. destruct (app_lib_running _ _ _ _ _ Hrun) as (iqs & Hr & Hp).
  destruct (saved_granted E iqs (lib_log log) m code ad c u y Hr) as (q & Hq & S1 & S2 & _); [apply lib_log_In; auto|].
  destruct (Hp _ _ Hq) as (g & w & Hw & Hpass).
  assert (Hne : lib_calls (acalls_of m log) <> []).
  { intros Hz. apply acalls_In in Hin. apply lib_calls_In in Hin. rewrite Hz in Hin. destruct Hin. }
  destruct (Hpass Hne) as (sv & r & ou & -> & Hsv & Hmk & _ & Hses). cbn [in_service in_request] in *. subst sv.
  assert (Hou : ou = Some u).
  { rewrite <- S2. unfold make_request in Hmk. destruct (raise_if _ RuntimeError) in Hmk; [|discriminate]. cbn beta iota delta [rbind] in Hmk. destruct (raise_if _ ValueError) in Hmk; [|discriminate]. cbn beta iota delta [rbind] in Hmk. injection Hmk as <-. reflexivity. }
  subst ou. destruct Hses as (uid' & sid & Hck & Hget). apply acalls_In in Hget. apply in_split in Hget as (l1 & l2 & El).
  pose proof Hst as Hs. rewrite El in Hs. apply steps_at in Hs as (t1 & t2 & H1 & H2). cbn [snd] in H2. apply get_step in H2 as [_ H2]. specialize (H2 _ eq_refl).
  rewrite <- H2, Hu in El. eapply no_session. exact El.
Qed.
Lemma after_logout_aux : forall k l1 n o l2, (length l1 < k)%nat -> log = l1 ++ (n, OLib o) :: l2 -> forall c u sc, issue c u sc o -> us_id u = uid ->
  exists m code ac, In (code, ac) (st_codes (tb_store t)) /\ ac_user ac = uid /\ In (m, OLib (OGetCode code (V (Some ac)))) l1.
Proof.
  destruct (app_lib_running _ _ _ _ _ Hrun) as (iqs & Hr & _).
  assert (Hus : users_by_id (map snd (lib_log log))).
  { rewrite lib_log_snd. intros i u Hin. destruct (app_lib_each _ _ _ _ _ _ Hst Hin) as (s & s' & H & _). eapply p_example_users; [exact H|left; reflexivity]. }
  assert (Hown : owned (map snd (lib_log log))).
  { rewrite lib_log_snd. intros c sc k Hin. destruct (app_lib_each _ _ _ _ _ _ Hst Hin) as (s & s' & H & _). eapply p_example_owned; [exact H|left; reflexivity]. }
  induction k as [|k IH]; [intros; lia|]. intros l1 n o l2 Hk El c u sc Ho Hu.
  assert (Ell : lib_log log = lib_log l1 ++ (n, o) :: lib_log l2) by (rewrite El, lib_log_app; reflexivity).
  destruct (issue_needs E sha_bytes set_order _ _ _ _ _ _ _ _ _ Hr Hus Ell Ho) as [(code & ac & Hin & Hac)|(token & rt & Hin & Hrt)]; apply lib_log_In in Hin.
  - exists n, code, ac. split; [|split; [congruence|exact Hin]]. apply in_split in Hin as (a & b & ->). rewrite <- app_assoc in El. cbn [app] in El.
    pose proof Hst as Hs. rewrite El in Hs. apply steps_at in Hs as (t1 & t2 & H1 & H2). cbn [snd] in H2. apply get_code_step in H2.
    destruct (code_since_steps _ _ uid t _ _ _ [] H1 (fun k0 ac0 Hi _ => or_introl Hi) _ _ H2 ltac:(congruence)) as [Hc|(ad & c0 & u0 & Hc & H3)]; [exact Hc|]. exfalso. cbn [app] in Hc.
    apply in_map_iff in Hc as ([j z] & Hz & Hj). cbn [snd] in Hz. subst z. eapply no_save; [|exact H3]. rewrite El. apply in_app_iff. left. exact Hj.
  - apply in_split in Hin as (a & b & ->). pose proof El as El'. rewrite <- app_assoc in El'. cbn [app] in El'.
    pose proof Hst as Hs. rewrite El' in Hs. apply steps_at in Hs as (t1 & t2 & H1 & H2). cbn [snd] in H2. apply get_rt_step in H2.
    assert (Hno : rt_since uid [] t) by (intros k0 rt0 Hi Hz; exfalso; exact (proj2 Hout _ _ Hi Hz)).
    destruct (rt_since_steps _ _ uid _ _ _ [] H1 Hno _ _ H2 ltac:(congruence)) as (c1 & o1 & sc1 & Hc & _ & _ & H3). cbn [app] in Hc.
    apply in_map_iff in Hc as ([j z] & Hz & Hj). cbn [snd] in Hz. subst z.
    destruct (rt_for_user E sha_bytes set_order iqs (lib_log log) j c1 o1 sc1 token Hr Hown) as [u1 ->]. { apply lib_log_In. rewrite El'. apply in_app_iff. left. exact Hj. }
    apply in_split in Hj as (a1 & a2 & ->). rewrite <- app_assoc in El'. cbn [app] in El'.
    destruct (IH a1 j _ _ ltac:(rewrite !app_length in Hk; cbn [length] in Hk; lia) El' c1 u1 sc1 ltac:(right; eauto) ltac:(congruence)) as (m & code & ac & G1 & G2 & G3).
    exists m, code, ac. split; [auto|]. split; [auto|]. rewrite !in_app_iff. auto.
Qed.
End Logout.
Lemma p_after_logout E p hs C aware qs log t t' l1 n o l2 c u sc : (forall b, bytes_ok (e_sha256 E b)) -> order_ok E ->
  app_running E p hs qs log -> app_steps C aware t (map snd log) t' -> logged_out (us_id u) t -> (forall q, In q qs -> ~ submits_password t (us_id u) q) ->
  log = l1 ++ (n, OLib o) :: l2 -> (exists y, o = OCreateAT c (OwnUser u) sc y) \/ (exists y, o = OCreateRT c (OwnUser u) sc y) ->
  exists m code ac, In (code, ac) (st_codes (tb_store t)) /\ ac_user ac = us_id u /\ In (m, OLib (OGetCode code (V (Some ac)))) l1.
Proof. intros H1 H2 H3 H4 H5 H6 El Ho. eapply after_logout_aux; eauto. Qed.
