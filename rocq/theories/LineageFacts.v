(** Every token of a user goes back to an authorization request of this user: lemmas for C82. *)
From Coq Require Import String Ascii List NArith ZArith Bool Lia.
From Verif Require Import Base BaseFacts Utf8 SpecCodec Json Webtools Crypto Jwk Prog ProgFacts Http OAuth SpecOAuth SpecHistory SpecFlow Example OAuthFacts GrantFacts EndpointFacts RequestFacts AuthzFacts TokenFacts ResponseFacts IssueFacts RaiseFacts StoreFacts HistoryFacts CompleteFacts FlowFacts.
Import ListNotations.
Open Scope N_scope.

Section WithEnv.
Variable E : env.
Hypothesis sha_bytes : forall b, bytes_ok (e_sha256 E b).
Hypothesis set_order : order_ok E.

(** Who creates tokens *)
Definition not_issuing (o : obs) : Prop := creates_at o = false /\ creates_rt o = false.
Lemma authz_not_issuing p hs r : calls not_issuing (authorization_endpoint E p hs r).
Proof. unfold authorization_endpoint, validate_client, grant_authorize, authorize. calls_go; split; reflexivity. Qed.
Lemma revocation_not_issuing r : calls not_issuing (revocation_endpoint r).
Proof.
  unfold revocation_endpoint. apply calls_pexcept; [|intros; calls_go; exact I].
  apply calls_pbind; [eapply calls_weaken; [|apply authenticate_calls]; intros o (i & z & ->); split; reflexivity|]. intros c.
  calls_go; split; reflexivity.
Qed.
Lemma consent_not_issuing p r : calls not_issuing (get_consent_data p r).
Proof. unfold get_consent_data, validate_client. calls_go; split; reflexivity. Qed.
Lemma served_issuing q tr an o : served E q tr an -> In o tr -> creates_at o = true \/ creates_rt o = true ->
  in_service q = Token /\ exists x, exec (token_endpoint E (in_provider q) (in_hooks q) (in_request q)) tr x.
Proof.
  unfold served. intros H Hin Hc.
  assert (Hno : forall A (p : prog A) x, calls not_issuing p -> exec p tr x -> False).
  { intros A p x Hp Hx. pose proof (calls_exec _ _ Hp _ _ Hx) as Hf. rewrite Forall_forall in Hf. destruct (Hf _ Hin) as [H1 H2]. destruct Hc; congruence. }
  destruct (in_service q); destruct H as (x & H & _); [exfalso| |exfalso|exfalso]; eauto.
  - eapply Hno; [apply authz_not_issuing|eauto].
  - eapply Hno; [apply revocation_not_issuing|eauto].
  - eapply Hno; [apply consent_not_issuing|eauto].
Qed.
(** The grant of a request that creates a token *)
Lemma issuing_grant p hs r tr x o : exec (token_endpoint E p hs r) tr x -> In o tr -> creates_at o = true \/ creates_rt o = true ->
  data_has r "grant_type" (lit "authorization_code") \/ data_has r "grant_type" (lit "client_credentials") \/ data_has r "grant_type" (lit "refresh_token").
Proof.
  intros H Hin Hc. apply token_exec in H as (y & H & _). apply token_body_exec in H.
  destruct H as [e He Hk | g tr e Hg Hd H | g i c Hg Hd Ha Hm Hn | g i c tr z Hg Hd Ha Hm Hn H].
  - destruct Hin.
  - exfalso. apply authenticate_trace in H. rewrite Forall_forall in H. apply H in Hin as (i & z & ->). destruct Hc; discriminate.
  - exfalso. destruct Hin as [<-|[]]. destruct Hc; discriminate.
  - destruct g; auto.
Qed.

Lemma calls_of_app n a b : calls_of n (a ++ b) = calls_of n a ++ calls_of n b.
Proof. unfold calls_of. rewrite filter_app, map_app. reflexivity. Qed.
Lemma calls_of_cons n o b : calls_of n ((n, o) :: b) = o :: calls_of n b.
Proof. unfold calls_of. cbn [filter fst]. rewrite PeanoNat.Nat.eqb_refl. reflexivity. Qed.
(** A call of the same request comes earlier in the log. *)
Lemma prefix_before {A} (a : list A) o : forall pre b rest, a ++ o :: b = pre ++ rest -> ~ In o pre -> incl pre a.
Proof.
  induction a as [|x a IH]; intros [|y pre] b rest H Hn; try (intros z []; fail); cbn [app] in H; injection H as -> H.
  - exfalso. apply Hn. left. reflexivity.
  - intros z [->|Hz]; [left; reflexivity|]. right. eapply IH; [exact H| |exact Hz]. intros Hin. apply Hn. right. exact Hin.
Qed.
Lemma earlier n o pre rest (l1 l2 : list (nat * obs)) tr' : calls_of n (l1 ++ (n, o) :: l2) ++ tr' = pre ++ rest -> ~ In o pre -> incl pre (calls_of n l1).
Proof. rewrite calls_of_app, calls_of_cons, <- app_assoc. cbn [app]. intros H. eapply prefix_before; eauto. Qed.
Lemma honours_rt_at (log l1 : list (nat * obs)) n t rt l2 : honours_rt (map snd log) -> log = l1 ++ (n, OGetRT t (V (Some rt))) :: l2 ->
  exists m c o sc k1 k2, l1 = k1 ++ (m, OCreateRT c o sc (V (Some t))) :: k2 /\ rt_holds rt c o sc.
Proof.
  intros Hh ->. rewrite map_app in Hh. cbn [map snd] in Hh. destruct (Hh _ t rt _ eq_refl) as (a & c & o & sc & b & Em & Hho & _).
  apply map_split in Em as (k1 & [m o'] & k2 & -> & _ & Ho & _). cbn [snd] in Ho. subst o'. exists m, c, o, sc, k1, k2. auto.
Qed.

Definition issue (c : client) (u : user) (sc : list str) (o : obs) : Prop := (exists y, o = OCreateAT c (OwnUser u) sc y) \/ exists y, o = OCreateRT c (OwnUser u) sc y.
Lemma saved_granted qs log m code ad c u y : running E qs log -> In (m, OSaveCode code ad c u y) log ->
  exists q, nth_error qs m = Some q /\ in_service q = Authorize /\ rq_user (in_request q) = Some u /\
    (exists i0, data_has (in_request q) "client_id" i0 /\ In (OFindClient i0 (V (Some c))) (calls_of m log)) /\
    (forall w, In w (ad_scopes ad) -> requested (in_request q) w).
Proof.
  intros [Hid Hrun] Hin. destruct (Hid _ _ Hin) as [q Hq]. exists q. split; [auto|]. destruct (Hrun _ _ Hq) as (tr' & an & Hs).
  assert (Hin' : In (OSaveCode code ad c u y) (calls_of m log ++ tr')) by (apply in_app_iff; left; apply calls_of_In; auto).
  pose proof (served_saves E _ _ _ _ Hs Hin' eq_refl) as Hsv. split; [auto|]. unfold served in Hs. rewrite Hsv in Hs. destruct Hs as (x & Hx & _).
  destruct (p_saved_scopes E _ _ _ _ _ _ _ _ _ _ Hx Hin') as [Hsc _].
  destruct (p_code_saved E _ _ _ _ _ _ _ _ _ _ Hx Hin') as (cid & uri & Etr & Hu & Hc & _). split; [auto|]. split; [|intros w Hw; apply Hsc; auto].
  exists cid. split; [auto|]. apply calls_of_In in Hin. destruct (calls_of m log) as [|o1 t1]; [destruct Hin|]. injection Etr as -> _. left. reflexivity.
Qed.
Lemma p_lineage_aux qs log : running E qs log -> honours (map snd log) -> honours_rt (map snd log) -> users_by_id (map snd log) -> owned (map snd log) -> clients_restrict (map snd log) ->
  forall k l1 n o l2, (length l1 < k)%nat -> log = l1 ++ (n, o) :: l2 -> forall c u sc, issue c u sc o ->
  exists m q0, nth_error qs m = Some q0 /\ granted_by q0 (calls_of m log) c u sc.
Proof.
  intros Hrun Hh Hrt Hu Hown Hres. induction k as [|k IH]; [intros; lia|]. intros l1 n o l2 Hk Elog c u sc Ho.
  assert (Hcr : creates_at o = true \/ creates_rt o = true) by (destruct Ho as [(y & ->)|(y' & ->)]; auto).
  assert (Hin : In (n, o) log) by (rewrite Elog; apply in_app_iff; right; left; reflexivity).
  destruct (proj1 Hrun _ _ Hin) as [q Hq]. destruct (proj2 Hrun _ _ Hq) as (tr' & an & Hs).
  assert (Hin' : In o (calls_of n log ++ tr')) by (apply in_app_iff; left; apply calls_of_In; auto).
  destruct (served_issuing _ _ _ _ Hs Hin' Hcr) as (_ & x & Hx).
  destruct (issuing_grant _ _ _ _ _ _ Hx Hin' Hcr) as [Hg|[Hg|Hg]].
  - destruct (p_code_grant E _ _ _ _ _ _ sha_bytes Hx Hg Hin' Hcr) as (i & c' & code & uri & v & ac & u' & now & off & t & rest & Etr & _ & _ & _ & _ & _ & Hcl & _ & _ & _ & _ & Hob).
    assert (Hsame : c' = c /\ u' = u /\ ac_scopes ac = sc).
    { destruct Ho as [(y & ->)|(y' & ->)]; destruct Hob as [[z Hz]|[[z Hz] _]]; try discriminate; injection Hz; auto. }
    destruct Hsame as (-> & -> & <-).
    pose proof (earlier n o [OFindClient i (V (Some c)); OGetCode code (V (Some ac)); ONow (V (now, off)); OFindUser (ac_user ac) (V (Some u))] rest l1 l2 tr') as Hpre.
    rewrite <- Elog in Hpre. specialize (Hpre Etr).
    assert (Hfresh : ~ In o [OFindClient i (V (Some c)); OGetCode code (V (Some ac)); ONow (V (now, off)); OFindUser (ac_user ac) (V (Some u))]).
    { intros [<-|[<-|[<-|[<-|[]]]]]; destruct Hcr; discriminate. }
    specialize (Hpre Hfresh).
    assert (Hfu : In (n, OFindUser (ac_user ac) (V (Some u))) l1) by (apply calls_of_In, Hpre; simpl; auto).
    assert (Huid : us_id u = ac_user ac).
    { apply (Hu (ac_user ac) u). change (OFindUser (ac_user ac) (V (Some u))) with (snd (n, OFindUser (ac_user ac) (V (Some u)))).
      apply in_map. rewrite Elog. apply in_app_iff. auto. }
    assert (Hget : In (n, OGetCode code (V (Some ac))) l1) by (apply calls_of_In, Hpre; simpl; auto).
    clear Hpre Hfresh Hfu. apply in_split in Hget as (a & b & ->).
    rewrite <- app_assoc in Elog. cbn [app] in Elog.
    destruct (honours_at _ _ _ _ _ _ Hh Elog) as (m & ad & c0 & u0 & k1 & k2 & -> & Hho & _).
    assert (Hsv : In (m, OSaveCode code ad c0 u0 (V tt)) log) by (rewrite Elog, <- app_assoc; apply in_app_iff; right; left; reflexivity).
    destruct (saved_granted _ _ _ _ _ _ _ _ Hrun Hsv) as (q0 & Hq0 & S1 & S2 & (i0 & S3 & S4) & S5). exists m, q0. split; [auto|].
    destruct Hho as (H1 & H2 & H3 & H4 & H5 & H6).
    split; [auto|]. split; [exists u0; split; [auto|congruence]|]. split; [exists i0, c0; split; [auto|]; split; [auto|congruence]|].
    intros w Hw. apply S5. congruence.
  - exfalso. destruct (p_client_credentials E _ _ _ _ _ _ Hx Hg Hin' Hcr) as (i & c' & s & req & y & _ & _ & _ & _ & _ & Heq & _).
    destruct Ho as [(y' & ->)|(y'' & ->)]; discriminate.
  - destruct (p_refresh_grant E _ _ _ _ _ _ set_order Hx Hg Hin' Hcr) as (i & c' & token & t & now & off & d & ou & rest & sc' & Etr & _ & _ & Hcl & _ & _ & Hob & Hsub & _).
    assert (Hsame : c' = c /\ sc' = sc /\ ou = Some u).
    { destruct ou as [u'|]; cbn [owner_of] in Hob; destruct Ho as [(y & ->)|(y' & ->)]; destruct Hob as [[z Hz]|[[z Hz] _]]; try discriminate; injection Hz; intros; subst; auto. }
    destruct Hsame as (-> & -> & ->).
    pose proof (earlier n o [OFindClient i (V (Some c)); OGetRT token (V (Some t)); ONow (V (now, off)); OFindUser (rt_user t) (V (Some u))] rest l1 l2 tr') as Hpre.
    rewrite <- Elog in Hpre. specialize (Hpre Etr).
    assert (Hfresh : ~ In o [OFindClient i (V (Some c)); OGetRT token (V (Some t)); ONow (V (now, off)); OFindUser (rt_user t) (V (Some u))]).
    { intros [<-|[<-|[<-|[<-|[]]]]]; destruct Hcr; discriminate. }
    specialize (Hpre Hfresh).
    assert (Hmap : forall e, In e [OFindClient i (V (Some c)); OGetRT token (V (Some t)); ONow (V (now, off)); OFindUser (rt_user t) (V (Some u))] -> In e (map snd log)).
    { intros e He. apply Hpre, calls_of_In in He. change e with (snd (n, e)). apply in_map. rewrite Elog. apply in_app_iff. auto. }
    assert (Huid : us_id u = rt_user t) by (apply (Hu (rt_user t) u), Hmap; simpl; auto).
    assert (Hrc : restricts c) by (apply (Hres i c), Hmap; simpl; auto).
    assert (Hget : In (n, OGetRT token (V (Some t))) l1) by (apply calls_of_In, Hpre; simpl; auto).
    clear Hpre Hfresh Hmap. apply in_split in Hget as (a & b & ->). pose proof Elog as Elog'. rewrite <- app_assoc in Elog'. cbn [app] in Elog'.
    destruct (honours_rt_at _ _ _ _ _ _ Hrt Elog') as (m & c1 & o1 & sc1 & k1 & k2 & -> & H1 & H2 & H3).
    rewrite <- app_assoc in Elog'. cbn [app] in Elog'.
    assert (Hin1 : In (m, OCreateRT c1 o1 sc1 (V (Some token))) log) by (rewrite Elog'; apply in_app_iff; right; left; reflexivity).
    assert (Hin1' : In (OCreateRT c1 o1 sc1 (V (Some token))) (map snd log)).
    { change (OCreateRT c1 o1 sc1 (V (Some token))) with (snd (m, OCreateRT c1 o1 sc1 (V (Some token)))). apply in_map. auto. }
    assert (Ho1 : exists u1, o1 = OwnUser u1).
    { destruct o1 as [u1|c2|]; [eauto| |exfalso; eapply Hown; eauto]. exfalso.
      destruct (proj1 Hrun _ _ Hin1) as [q1 Hq1]. destruct (proj2 Hrun _ _ Hq1) as (tr1 & an1 & Hs1).
      assert (Hi1 : In (OCreateRT c1 (OwnClient c2) sc1 (V (Some token))) (calls_of m log ++ tr1)) by (apply in_app_iff; left; apply calls_of_In; auto).
      destruct (served_issuing _ _ _ _ Hs1 Hi1 (or_intror eq_refl)) as (_ & x1 & Hx1).
      destruct (issuing_grant _ _ _ _ _ _ Hx1 Hi1 (or_intror eq_refl)) as [Hg1|[Hg1|Hg1]].
      - destruct (p_code_grant E _ _ _ _ _ _ sha_bytes Hx1 Hg1 Hi1 (or_intror eq_refl)) as (? & ? & ? & ? & ? & ? & ? & ? & ? & ? & ? & _ & _ & _ & _ & _ & _ & _ & _ & _ & _ & _ & Hob1).
        destruct Hob1 as [[z Hz]|[[z Hz] _]]; discriminate.
      - destruct (p_client_credentials E _ _ _ _ _ _ Hx1 Hg1 Hi1 (or_intror eq_refl)) as (? & ? & ? & ? & ? & _ & _ & _ & _ & _ & Heq & _). discriminate.
      - destruct (p_refresh_grant E _ _ _ _ _ _ set_order Hx1 Hg1 Hi1 (or_intror eq_refl)) as (? & ? & ? & ? & ? & ? & ? & ou1 & ? & ? & _ & _ & _ & _ & _ & _ & Hob1 & _).
        destruct ou1; cbn [owner_of] in Hob1; destruct Hob1 as [[z Hz]|[[z Hz] _]]; discriminate. }
    destruct Ho1 as [u1 ->].
    destruct (IH k1 m _ _ ltac:(rewrite !app_length in Hk; cbn [length] in Hk; lia) Elog' c1 u1 sc1) as (m0 & q0 & Hq0 & G1 & (u0 & G2 & G3) & (i0 & c0 & G4 & G5 & G6) & G7).
    { right. eauto. }
    exists m0, q0. split; [auto|]. split; [auto|]. split; [exists u0; split; [auto|congruence]|]. split; [exists i0, c0; split; [auto|]; split; [auto|congruence]|].
    intros w Hw. apply G7. rewrite <- H2. apply Hsub; auto.
Qed.
Lemma p_lineage qs log n o c u sc : running E qs log -> honours (map snd log) -> honours_rt (map snd log) -> users_by_id (map snd log) -> owned (map snd log) -> clients_restrict (map snd log) ->
  In (n, o) log -> (exists y, o = OCreateAT c (OwnUser u) sc y) \/ (exists y, o = OCreateRT c (OwnUser u) sc y) ->
  exists m q0, nth_error qs m = Some q0 /\ granted_by q0 (calls_of m log) c u sc.
Proof.
  intros H1 H2 H3 H4 H5 H6 Hin Ho. apply in_split in Hin as (l1 & l2 & El). eapply (p_lineage_aux qs log H1 H2 H3 H4 H5 H6 (S (length l1)) l1 n o l2); [lia|auto|].
  destruct Ho as [[y ->]|[y ->]]; unfold issue; eauto.
Qed.
End WithEnv.

(** ** The example adapter keeps the contract. *)
Definition rt_kept (tr : list obs) (s : store) : Prop := forall t rt, In (t, rt) (st_rts s) ->
  exists a c o sc b, tr = a ++ OCreateRT c o sc (V (Some t)) :: b /\ rt_holds rt c o sc /\ forall c' h, cl_id c' = cl_id c -> ~ In (ORevokeToken c' t h (V tt)) b.
Lemma rt_kept_weaken tr s s' o : rt_kept tr s -> (forall t rt, In (t, rt) (st_rts s') -> In (t, rt) (st_rts s) /\ forall c h, o = ORevokeToken c t h (V tt) -> rt_client rt <> cl_id c) -> rt_kept (tr ++ [o]) s'.
Proof.
  intros Hk H t rt Hl. apply H in Hl as [Hl Hd]. destruct (Hk _ _ Hl) as (a & c & ow & sc & b & -> & Hh & Hb).
  exists a, c, ow, sc, (b ++ [o]). rewrite <- app_assoc. split; [auto|]. split; [auto|]. intros c' h Hc Ho. apply in_app_iff in Ho as [Ho|[Ho|[]]]; [eapply Hb; eauto|].
  destruct Hh as [Hh _]. apply (Hd c' h Ho). congruence.
Qed.
Lemma lookup_In {A} k (l : list (str * A)) v : lookup k l = Some v -> In (k, v) l.
Proof. induction l as [|[k' v'] l IH]; simpl; [discriminate|]. destruct (eqs_spec k k') as [->|]; [intros [= ->]; auto|auto]. Qed.
Lemma rt_kept_step C aware s o s' tr : ex_step C aware s o s' -> rt_kept tr s -> rt_kept (tr ++ [o]) s'.
Proof.
  intros Hs Hk. destruct Hs as [ch T e s | T e x s].
  - destruct e; cbn [ex_do fst snd observe]; try (eapply rt_kept_weaken; [exact Hk|intros; split; [auto|discriminate]]; fail).
    + destruct (ad_nonce data) as [n|]; [|cbn [fst snd]; eapply rt_kept_weaken; [exact Hk|intros; split; [auto|discriminate]]].
      destruct (has code (st_codes s)); cbn [fst snd]; eapply rt_kept_weaken; try exact Hk; intros; (split; [auto|discriminate]).
    + destruct (owner_id o) as [u|] eqn:Eo; cbn [fst snd]; [|eapply rt_kept_weaken; [exact Hk|intros; split; [auto|discriminate]]].
      destruct (find _ (st_rts s)) as [[t ?]|]; cbn [fst snd]; [eapply rt_kept_weaken; [exact Hk|intros; split; [auto|discriminate]]|].
      destruct (has (ch_token ch) (st_rts s)); cbn [fst snd]; [eapply rt_kept_weaken; [exact Hk|intros; split; [auto|discriminate]]|].
      intros t rt [Hl|Hl].
      * injection Hl as <- <-. exists tr, c, o, scopes, []. split; [auto|]. split; [|intros ? ? _ []].
        split; [reflexivity|]. split; [reflexivity|]. cbn [rt_user]. destruct o; cbn [owner_id] in Eo; [congruence|congruence|exact I].
      * destruct (Hk _ _ Hl) as (a & c0 & o0 & sc0 & b & -> & Hh & Hb). exists a, c0, o0, sc0, (b ++ [OCreateRT c o scopes (V (Some (ch_token ch)))]).
        rewrite <- app_assoc. split; [auto|]. split; [auto|]. intros c' h Hc Ho. apply in_app_iff in Ho as [Ho|[Ho|[]]]; [eapply Hb; eauto|discriminate].
    + eapply rt_kept_weaken; [exact Hk|]. intros t rt Hin. cbn [st_rts set_rts] in Hin. apply filter_In in Hin as [Hin Hf]. split; [auto|].
      intros c0 h0 [= -> -> ->] Hc. cbn [fst snd] in Hf. rewrite Hc, !eqs_refl in Hf. discriminate.
  - eapply rt_kept_weaken; [exact Hk|]. intros t rt Hl. split; [auto|]. destruct e; discriminate.
Qed.
Lemma ex_honours_rt_aux C aware : forall tr s s' pre, ex_steps C aware s tr s' -> rt_kept pre s -> honours_rt pre -> honours_rt (pre ++ tr).
Proof.
  induction tr as [|o tr IH]; intros s s' pre Hs Hk Hh; [rewrite app_nil_r; auto|]. inversion Hs as [|? ? s1 ? ? Ho Ht]; subst.
  replace (pre ++ o :: tr) with ((pre ++ [o]) ++ tr) by (rewrite <- app_assoc; auto).
  eapply IH; [exact Ht|eapply rt_kept_step; eauto|].
  intros t1 t rt t2 E. destruct (exists_last (l := OGetRT t (V (Some rt)) :: t2)) as (t3 & z & Ez); [discriminate|].
  rewrite Ez, app_assoc in E. apply app_inj_tail in E as [E <-]. destruct t3 as [|g t3]; cbn [app] in Ez.
  - injection Ez as <- _. rewrite app_nil_r in E. subst t1. apply Hk.
    clear - Ho. remember (OGetRT t (V (Some rt))) as o eqn:Eo. destruct Ho as [ch T e s|T e x s]; [|destruct e; discriminate].
    destruct e; cbn [ex_do fst snd observe] in Eo; try discriminate. injection Eo as -> Hl. apply lookup_In. auto.
  - injection Ez as <- Ez. eapply Hh. exact E.
Qed.
Lemma p_example_honours_rt C aware s tr s' : ex_steps C aware s tr s' -> st_rts s = [] -> honours_rt tr.
Proof.
  intros Hs He. change tr with ([] ++ tr). eapply ex_honours_rt_aux; [exact Hs| |].
  - intros t rt Hl. rewrite He in Hl. destruct Hl.
  - intros t1 t rt t2 E. destruct t1; discriminate.
Qed.
Lemma ex_steps_In C aware : forall tr s s' o, ex_steps C aware s tr s' -> In o tr -> exists s1 s2, ex_step C aware s1 o s2 /\ st_clients s1 = st_clients s /\ st_users s1 = st_users s.
Proof.
  induction tr as [|o' tr IH]; intros s s' o Hs Hin; [destruct Hin|]. inversion Hs as [|? ? s1 ? ? Ho Ht]; subst. destruct Hin as [<-|Hin]; [eauto|].
  destruct (IH _ _ _ Ht Hin) as (s2 & s3 & H1 & H2 & H3). exists s2, s3. split; [auto|]. rewrite H2, H3. clear - Ho. destruct Ho as [ch T e s|T e x s]; [|auto].
  destruct e; cbn [ex_do fst snd]; auto.
  - destruct (ad_nonce data); [|auto]. destruct (has code (st_codes s)); auto.
  - destruct (owner_id o) as [u|]; [|auto]. destruct (find _ _) as [[? ?]|]; [auto|]. destruct (has _ _); auto.
Qed.
Lemma p_example_owned C aware s tr s' : ex_steps C aware s tr s' -> owned tr.
Proof.
  intros Hs c sc t Hin. destruct (ex_steps_In _ _ _ _ _ _ Hs Hin) as (s1 & s2 & Ho & _). clear - Ho.
  remember (OCreateRT c OwnNone sc (V (Some t))) as o eqn:Eo. destruct Ho as [ch T e s|T e x s]; [|destruct e; discriminate].
  destruct e; cbn [ex_do fst snd observe] in Eo; try discriminate.
  injection Eo as -> -> -> H. cbn [owner_id] in H. discriminate.
Qed.
Lemma p_example_users C aware s tr s' : ex_steps C aware s tr s' -> users_by_id tr.
Proof.
  intros Hs i u Hin. destruct (ex_steps_In _ _ _ _ _ _ Hs Hin) as (s1 & s2 & Ho & _). clear - Ho.
  remember (OFindUser i (V (Some u))) as o eqn:Eo. destruct Ho as [ch T e s|T e x s]; [|destruct e; discriminate].
  destruct e; cbn [ex_do fst snd observe] in Eo; try discriminate. injection Eo as -> H. apply find_some in H as [_ H]. apply eqs_true in H. auto.
Qed.
Lemma p_example_restrict C aware s tr s' : ex_steps C aware s tr s' -> (forall c, In c (st_clients s) -> restricts c) -> clients_restrict tr.
Proof.
  intros Hs Hr i c Hin. destruct (ex_steps_In _ _ _ _ _ _ Hs Hin) as (s1 & s2 & Ho & Hc & _). apply Hr. rewrite <- Hc. clear - Ho.
  remember (OFindClient i (V (Some c))) as o eqn:Eo. destruct Ho as [ch T e s|T e x s]; [|destruct e; discriminate].
  destruct e; cbn [ex_do fst snd observe] in Eo; try discriminate. injection Eo as -> H. apply find_some in H as [H _]. auto.
Qed.
Lemma p_ex_client_restricts id secret m rs gs ts sc : restricts (ex_client id secret m rs gs ts sc).
Proof. intros l x Hin. cbn [ex_client cl_allowed] in Hin. apply filter_In in Hin as [_ Hin]. apply ins_In. auto. Qed.
Lemma p_lineage_example E C aware s s' qs log n o c u sc : (forall b, bytes_ok (e_sha256 E b)) -> order_ok E -> running E qs log -> ex_steps C aware s (map snd log) s' ->
  st_codes s = [] -> st_rts s = [] -> (forall c, In c (st_clients s) -> restricts c) ->
  In (n, o) log -> (exists y, o = OCreateAT c (OwnUser u) sc y) \/ (exists y, o = OCreateRT c (OwnUser u) sc y) ->
  exists m q0, nth_error qs m = Some q0 /\ granted_by q0 (calls_of m log) c u sc.
Proof.
  intros Hb Hord Hrun Hs Hc Hr Hres. eapply p_lineage; eauto using p_example_honours, p_example_honours_rt, p_example_owned, p_example_users, p_example_restrict.
Qed.
