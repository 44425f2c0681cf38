(** Lemmas about how long codes, tokens and sessions live, and about error responses. *)
From Coq Require Import String Ascii List NArith ZArith Bool Arith Lia.
From Verif Require Import Base BaseFacts Utf8 Utf8Facts SpecCodec SpecWeb Json Url UrlFacts Webtools WebtoolsFacts Crypto Jwk Prog ProgFacts Http OAuth OAuthFacts RequestFacts SpecOAuth ResponseFacts SpecHistory SpecFlow GrantFacts IssueFacts EndpointFacts AuthzFacts Example ExampleFacts HistoryFacts StoreFacts LineageFacts RaiseFacts App SpecApp AppFacts SpecLife.
Import ListNotations.
Open Scope N_scope.

(** ** Refresh tokens *)
Lemma rt_of_true c u kt : rt_of c u kt = true <-> rt_client (snd kt) = c /\ rt_user (snd kt) = u.
Proof. unfold rt_of. rewrite andb_true_iff, !eqs_true. tauto. Qed.
Lemma NoDup_map_filter {A B} (f : A -> B) (g : A -> bool) l : NoDup (map f l) -> NoDup (map f (filter g l)).
Proof.
  induction l as [|a l IH]; cbn [map filter]; [auto|]. intros H. inversion H as [|? ? Hn Hd]; subst. destruct (g a); [|auto]. cbn [map]. constructor; [|auto].
  intros Hin. apply Hn. apply in_map_iff in Hin as (b & Hb & Hin). apply filter_In in Hin as [Hin _]. rewrite <- Hb. apply in_map. auto.
Qed.
Lemma ex_pairs_step C aware s o s' : ex_step C aware s o s' -> NoDup (rt_pairs s) -> NoDup (rt_pairs s').
Proof.
  intros Hs Hd. destruct Hs as [ch T e s|T e x s]; [|auto]. destruct e; cbn [ex_do fst snd]; auto.
  - destruct (ad_nonce data); [|auto]. destruct (has code (st_codes s)); auto.
  - destruct (owner_id o) as [u|]; [|auto]. destruct (find _ (st_rts s)) as [[t v]|] eqn:Ef; [auto|]. destruct (has (ch_token ch) (st_rts s)); [auto|].
    cbn [fst snd]. unfold rt_pairs in *. cbn [set_rts st_rts map snd rt_client rt_user]. constructor; [|auto]. intros Hin. apply in_map_iff in Hin as (kt & He & Hin).
    injection He as H1 H2. apply (find_none _ _ Ef) in Hin. assert (Ht : rt_of (cl_id c) u kt = true) by (apply rt_of_true; auto). congruence.
  - unfold rt_pairs in *. cbn [set_rts st_rts]. apply NoDup_map_filter. auto.
Qed.
Lemma p_pairs C aware : forall tr t t', app_steps C aware t tr t' -> NoDup (rt_pairs (tb_store t)) -> NoDup (rt_pairs (tb_store t')).
Proof.
  induction tr as [|o tr IH]; intros t t' Hs Hd; inversion Hs as [|? ? t1 ? ? Ho Ht]; subst; [auto|]. eapply IH; [exact Ht|]. clear Ht IH.
  destruct (is_lib o) as [[z ->]|Hn]; [apply lib_step in Ho as (Ho & _); eapply ex_pairs_step; eauto|].
  destruct Ho as [ch T e t|T e x t]; [|auto]. destruct e; cbn [app_do fst snd] in *; auto.
  - destruct (existsb _ _); auto.
  - cbn [set_store tb_store]. unfold rt_pairs in *. cbn [set_rts st_rts]. apply NoDup_map_filter. auto.
  - exfalso. destruct (ex_do C aware ch e (tb_store t)) as [x s]. eapply Hn. reflexivity.
Qed.
Lemma owner_id_by o u : owner_id o = Ok u <-> owned_by o u.
Proof. destruct o; cbn [owner_id owned_by]; split; intros H; try congruence; try discriminate; try destruct H. Qed.
Lemma create_step C aware s c o sc y s' : ex_step C aware s (OCreateRT c o sc (V y)) s' ->
  exists u k, owned_by o u /\ y = Some k /\ match find (rt_of (cl_id c) u) (st_rts s) with
    | Some (k', _) => k' = k /\ s' = s
    | None => has k (st_rts s) = false /\ exists now, s' = set_rts ((k, {| rt_client := cl_id c; rt_user := u; rt_scopes := sc; rt_exp := (if aware then Aware else Naive) (now + seconds 1209600)%Z |}) :: st_rts s) s
    end.
Proof.
  intros Hs. remember (OCreateRT c o sc (V y)) as z eqn:Ez. destruct Hs as [ch T e s|T e x s]; [|destruct e; discriminate].
  destruct e; cbn [ex_do fst snd observe] in Ez; try discriminate.
  - destruct (owner_id o0) as [u|] eqn:Eo; [|discriminate]. cbn [ex_do]. rewrite Eo. destruct (find (rt_of (cl_id c0) u) (st_rts s)) as [[k v]|] eqn:Ef.
    + cbn [fst snd] in *. injection Ez as <- <- <- <-. exists u, k. split; [apply owner_id_by; auto|]. split; [auto|]. rewrite Ef. auto.
    + destruct (has (ch_token ch) (st_rts s)) eqn:Eh; [discriminate|]. cbn [fst snd] in *. injection Ez as <- <- <- <-. exists u, (ch_token ch). split; [apply owner_id_by; auto|]. split; [auto|].
      rewrite Ef. split; [auto|]. exists (ch_now ch). reflexivity.
Qed.
Lemma find_pair (s : store) k v : NoDup (rt_pairs s) -> In (k, v) (st_rts s) -> find (rt_of (rt_client v) (rt_user v)) (st_rts s) = Some (k, v).
Proof.
  unfold rt_pairs. induction (st_rts s) as [|kt l IH]; intros Hd Hin; [destruct Hin|]. cbn [map find] in *. inversion Hd as [|? ? Hn Hd']; subst.
  destruct Hin as [->|Hin].
  - assert (H : rt_of (rt_client v) (rt_user v) (k, v) = true) by (apply rt_of_true; auto). rewrite H. reflexivity.
  - destruct (rt_of (rt_client v) (rt_user v) kt) eqn:E; [|auto]. exfalso. apply Hn. apply rt_of_true in E as [E1 E2]. rewrite E1, E2.
    change (In ((fun kt : str * refresh_token => (rt_client (snd kt), rt_user (snd kt))) (k, v)) (map (fun kt => (rt_client (snd kt), rt_user (snd kt))) l)). apply in_map. auto.
Qed.
Lemma step_keeps_pair C aware s o s' kv : ex_step C aware s o s' -> (forall c k h y, o <> ORevokeToken c k h y) -> In kv (st_rts s) -> In kv (st_rts s').
Proof.
  intros Hs Hn Hin. destruct Hs as [ch T e s|T e x s]; [|auto]. destruct e; cbn [ex_do fst snd observe] in *; auto.
  - destruct (ad_nonce data); [|auto]. destruct (has code (st_codes s)); auto.
  - destruct (owner_id o) as [u|]; [|auto]. destruct (find _ (st_rts s)) as [[t v]|]; [auto|]. destruct (has _ _); [auto|]. right. auto.
  - exfalso. eapply Hn. reflexivity.
Qed.
Lemma p_same_token E C aware p hs r tr x s s' k v c o sc y : exec (token_endpoint E p hs r) tr x -> ex_steps C aware s tr s' -> NoDup (rt_pairs s) -> In (k, v) (st_rts s) ->
  In (OCreateRT c o sc (V y)) tr -> rt_client v = cl_id c -> owned_by o (rt_user v) -> y = Some k /\ In (k, v) (st_rts s').
Proof.
  intros H Hs Hd Hk Hin Hc Ho. pose proof (p_token_no_revoke E p hs r tr x H) as Hn. clear H.
  revert s Hs Hd Hk. induction tr as [|z tr IH]; intros s Hs Hd Hk; [destruct Hin|]. inversion Hs as [|? ? s1 ? ? H1 H2]; subst.
  assert (Hk1 : In (k, v) (st_rts s1)). { eapply step_keeps_pair; [exact H1| |exact Hk]. intros c0 k0 h y0 ->. eapply Hn. left. reflexivity. }
  assert (Hrest : forall tr s s', ex_steps C aware s tr s' -> (forall c k h y, ~ In (ORevokeToken c k h y) tr) -> In (k, v) (st_rts s) -> In (k, v) (st_rts s')).
  { clear. induction tr as [|z tr IH]; intros s s' Hs Hn Hk; inversion Hs as [|? ? s1 ? ? H1 H2]; subst; [auto|]. eapply IH; [exact H2|intros c k0 h y Hi; eapply Hn; right; exact Hi|].
    eapply step_keeps_pair; [exact H1| |exact Hk]. intros c k0 h y ->. eapply Hn. left. reflexivity. }
  destruct Hin as [->|Hin].
  - apply create_step in H1 as (u & k' & Hu & -> & Hf). assert (u = rt_user v) by (destruct o; cbn [owned_by] in *; try congruence; destruct Hu). subst u.
    rewrite <- Hc, (find_pair _ _ _ Hd Hk) in Hf. destruct Hf as [-> _]. split; [auto|]. eapply Hrest; [exact H2| |exact Hk1]. intros c0 k0 h y0 Hi. eapply Hn. right. exact Hi.
  - eapply IH; eauto; [|eapply ex_pairs_step; eauto]. intros c0 k0 h y0 Hi. eapply Hn. right. exact Hi.
Qed.
Lemma p_stored E C aware p hs r tr x s s' c o sc y : exec (token_endpoint E p hs r) tr x -> ex_steps C aware s tr s' -> In (OCreateRT c o sc (V y)) tr ->
  exists k rt, y = Some k /\ In (k, rt) (st_rts s') /\ rt_client rt = cl_id c /\ owned_by o (rt_user rt).
Proof.
  intros H Hs Hin. pose proof (p_token_no_revoke E p hs r tr x H) as Hn. clear H.
  revert s Hs. induction tr as [|z tr IH]; intros s Hs; [destruct Hin|]. inversion Hs as [|? ? s1 ? ? H1 H2]; subst.
  assert (Hrest : forall kv tr s s', ex_steps C aware s tr s' -> (forall c k h y, ~ In (ORevokeToken c k h y) tr) -> In kv (st_rts s) -> In kv (st_rts s')).
  { clear. intros kv. induction tr as [|z tr IH]; intros s s' Hs Hn Hk; inversion Hs as [|? ? s1 ? ? H1 H2]; subst; [auto|]. eapply IH; [exact H2|intros c k0 h y Hi; eapply Hn; right; exact Hi|].
    eapply step_keeps_pair; [exact H1| |exact Hk]. intros c k0 h y ->. eapply Hn. left. reflexivity. }
  destruct Hin as [->|Hin].
  - apply create_step in H1 as (u & k & Hu & -> & Hf). destruct (find _ _) as [[k' v]|] eqn:Ef.
    + destruct Hf as [-> ->]. apply find_some in Ef as [Hk Hv]. apply rt_of_true in Hv as [Hc <-]. exists k, v. split; [auto|]. split; [|auto].
      eapply Hrest; [exact H2| |exact Hk]. intros c0 k0 h y0 Hi. eapply Hn. right. exact Hi.
    + destruct Hf as (_ & now & ->). eexists k, _. split; [auto|]. split; [eapply Hrest; [exact H2| |left; reflexivity]; intros c0 k0 h y0 Hi; eapply Hn; right; exact Hi|]. split; [reflexivity|exact Hu].
  - eapply IH; eauto. intros c0 k0 h y0 Hi. eapply Hn. right. exact Hi.
Qed.

(** ** Revocation *)
Definition gone (c k : str) (s : store) : Prop := forall v, In (k, v) (st_rts s) -> rt_client v <> c.
Lemma gone_app C aware c k : forall tr t t', app_steps C aware t tr t' -> gone c k (tb_store t) ->
  (forall c' o sc, In (OLib (OCreateRT c' o sc (V (Some k)))) tr -> cl_id c' <> c) -> gone c k (tb_store t').
Proof.
  induction tr as [|o tr IH]; intros t t' Hs Hg Hn; inversion Hs as [|? ? t1 ? ? Ho Ht]; subst; [auto|]. eapply IH; [exact Ht| |intros c' o' sc Hi; eapply Hn; right; exact Hi].
  intros v Hin. destruct (is_lib o) as [[z ->]|Hl].
  - apply lib_step in Ho as (Ho & _). destruct (ex_rt_step _ _ _ _ _ _ _ Ho Hin) as [H|(c' & w & sc & -> & (Hc & _))]; [auto|]. rewrite Hc. eapply Hn. left. reflexivity.
  - apply other_step in Ho as (_ & _ & _ & Hi & _); [|auto]. apply Hg, Hi, Hin.
Qed.
Lemma gone_ex C aware c k : forall tr s s', ex_steps C aware s tr s' -> gone c k s -> (forall c' o sc, In (OCreateRT c' o sc (V (Some k))) tr -> cl_id c' <> c) -> gone c k s'.
Proof.
  induction tr as [|o tr IH]; intros s s' Hs Hg Hn; inversion Hs as [|? ? s1 ? ? Ho Ht]; subst; [auto|]. eapply IH; [exact Ht| |intros c' o' sc Hi; eapply Hn; right; exact Hi].
  intros v Hin. destruct (ex_rt_step _ _ _ _ _ _ _ Ho Hin) as [H|(c' & w & sc & -> & (Hc & _))]; [auto|]. rewrite Hc. eapply Hn. left. reflexivity.
Qed.
Lemma get_rt_step C aware s k rt s' : ex_step C aware s (OGetRT k (V (Some rt))) s' -> In (k, rt) (st_rts s).
Proof.
  intros Hg. remember (OGetRT k (V (Some rt))) as o eqn:Eo. destruct Hg as [ch T e s|T e x s]; [|destruct e; discriminate].
  destruct e; cbn [ex_do fst snd observe] in Eo; try discriminate. injection Eo as -> Hl. apply lookup_In. auto.
Qed.
(** A refresh token exchange that succeeds found the token, of this client. *)
Lemma refresh_found E p hs r tr x k : exec (token_endpoint E p hs r) tr (V x) -> rs_status x = 200 -> data_has r "grant_type" (lit "refresh_token") -> data_has r "refresh_token" k ->
  exists i c rt rest, tr = OFindClient i (V (Some c)) :: OGetRT k (V (Some rt)) :: rest /\ authenticates r i c /\ rt_client rt = cl_id c.
Proof.
  intros H H2 Hg Hk. apply token_exec in H as (y & Hy & Hx). destruct y as [y|[e|e]]; [| |discriminate].
  - injection Hx as <-. apply token_body_exec in Hy. inversion Hy as [| | |g i c tr' y' Hgr Hgt Ha Hm Hin Hex E1 E2]. subst tr.
    pose proof (data_has_eq _ _ _ _ Hg Hgt) as Eg. destruct g; try discriminate. cbn [grant_token] in Hex.
    apply refresh_exec in Hex as [(_ & e & ->)|(token & t & sc & ou & t2 & (Ha' & Hc & _ & now & off & d & -> & _) & _)]; [discriminate|].
    apply arg_Some in Ha' as [Ha' _]. unfold param in Ha'. rewrite lookup_dremove_other in Ha' by discriminate. rewrite (data_has_eq _ _ _ _ Hk Ha'). exists i, c, t. eexists. split; [reflexivity|]. auto.
  - symmetry in Hx. unfold token_error in Hx. apply json_response_V in Hx as (Hs & _); [|apply dump_wf]. rewrite Hs in H2. discriminate.
Qed.
Lemma p_revoked C aware t t' l1 l2 l3 c k h rt : app_steps C aware t (l1 ++ OLib (ORevokeToken c k h (V tt)) :: l2 ++ OLib (OGetRT k (V (Some rt))) :: l3) t' -> rt_client rt = cl_id c ->
  exists c' o sc, In (OLib (OCreateRT c' o sc (V (Some k)))) l2 /\ cl_id c' = cl_id c.
Proof.
  intros Hs Hc. apply app_steps_app in Hs as (t1 & _ & H1). inversion H1 as [|? ? t2 ? ? Ho Ht]; subst. apply app_steps_app in Ht as (t3 & H2 & H3).
  inversion H3 as [|? ? t4 ? ? Hg Ht']; subst. apply lib_step in Hg as (Hg & _). apply get_rt_step in Hg. apply lib_step in Ho as (Ho & _).
  assert (Hgone : gone (cl_id c) k (tb_store t2)).
  { clear - Ho. remember (ORevokeToken c k h (V tt)) as z eqn:Ez. destruct Ho as [ch T e s|T e x s]; [|destruct e; discriminate].
    destruct e; cbn [ex_do fst snd observe] in Ez |- *; try discriminate. injection Ez as -> -> ->. intros v Hin. cbn [set_rts st_rts] in Hin.
    apply filter_In in Hin as [_ Hf]. cbn [fst snd] in Hf. rewrite eqs_refl in Hf. cbn [andb] in Hf. intros He. apply eqs_true in He. rewrite He in Hf. discriminate. }
  clear - H2 Hgone Hg Hc. assert (Hdec : (exists c' o sc, In (OLib (OCreateRT c' o sc (V (Some k)))) l2 /\ cl_id c' = cl_id c) \/
     (forall c' o sc, In (OLib (OCreateRT c' o sc (V (Some k)))) l2 -> cl_id c' <> cl_id c)).
  { clear. induction l2 as [|z l IH]; [right; intros ? ? ? []|]. destruct IH as [(c' & o & sc & Hi & He)|IH]; [left; exists c', o, sc; split; [right; auto|auto]|].
    assert (Hz : (exists c' o sc, z = OLib (OCreateRT c' o sc (V (Some k))) /\ cl_id c' = cl_id c) \/ (forall c' o sc, z = OLib (OCreateRT c' o sc (V (Some k))) -> cl_id c' <> cl_id c)).
    { destruct z as [| | | | | | |z]; try (right; discriminate). destruct z; try (right; discriminate). destruct r as [[k'|]|]; try (right; intros; discriminate).
      destruct (eqs_spec k' k) as [->|Hk]; [|right; intros c1 o1 sc1 [= _ _ _ E]; congruence]. destruct (eqs_spec (cl_id c0) (cl_id c)) as [He|He].
      - left. exists c0, o, scopes. auto.
      - right. intros c1 o1 sc1 [= <- _ _]. auto. }
    destruct Hz as [(c' & o & sc & -> & He)|Hz]; [left; exists c', o, sc; split; [left; reflexivity|auto]|].
    right. intros c' o sc [Hi|Hi]; eauto. }
  destruct Hdec as [Hd|Hd]; [auto|]. exfalso. eapply gone_app; [exact H2|exact Hgone|exact Hd|exact Hg|exact Hc].
Qed.
Lemma p_revoked_endpoint E p hs C aware r tr z s s1 l s2 r' tr' x s3 k : exec (revocation_endpoint r) tr (V (Some z)) -> rs_status z = 200 -> form_has r "token" k -> ex_steps C aware s tr s1 ->
  (forall i c v, authenticates r i c -> In (k, v) (st_rts s) -> rt_client v = cl_id c) ->
  ex_steps C aware s1 l s2 -> (forall c o sc, ~ In (OCreateRT c o sc (V (Some k))) l) ->
  exec (token_endpoint E p hs r') tr' (V x) -> ex_steps C aware s2 tr' s3 -> data_has r' "grant_type" (lit "refresh_token") -> data_has r' "refresh_token" k -> rs_status x <> 200.
Proof.
  intros H H2 Ht Hs Hown Hl Hn Hx Hs' Hg Hk Hst. destruct (p_revoke_removes _ _ _ _ _ _ _ _ H H2 Hs Ht) as (i & c & Ha & _ & Hrem).
  destruct (p_revoke_store _ _ _ _ _ _ _ H Hs) as (_ & _ & _ & Hsub & _).
  assert (Hempty : forall v, ~ In (k, v) (st_rts s1)). { intros v Hin. apply (Hrem _ Hin). eapply Hown; [exact Ha|]. apply Hsub. exact Hin. }
  destruct (refresh_found _ _ _ _ _ _ _ Hx Hst Hg Hk) as (i' & c' & rt & rest & -> & _ & _).
  inversion Hs' as [|? ? s4 ? ? Ho Hs4]; subst. inversion Hs4 as [|? ? s5 ? ? Ho' _]; subst. apply get_rt_step in Ho'. apply step_find_client in Ho as [-> _].
  assert (Hg2 : gone (rt_client rt) k s2).
  { eapply gone_ex; [exact Hl| |intros c1 o1 sc1 Hi; exfalso; eapply Hn; exact Hi]. intros v Hin. destruct (Hempty _ Hin). }
  exact (Hg2 _ Ho' eq_refl).
Qed.

(** ** Logins *)
Definition only_session (tr : list aobs) : Prop := forall o, In o tr -> exists sid uid y, o = OGetSession sid uid y.
Lemma get_keeps C aware t sid uid y t1 : app_step C aware t (OGetSession sid uid y) t1 -> t1 = t.
Proof.
  intros H. remember (OGetSession sid uid y) as z eqn:Ez. destruct H as [ch T e t|T e x t]; [|auto].
  destruct e; cbn [app_do fst snd aobserve] in Ez |- *; try discriminate; auto; try (destruct (existsb _ _) in Ez; discriminate).
Qed.
Lemma only_session_keeps C aware : forall tr t t', app_steps C aware t tr t' -> only_session tr -> t' = t.
Proof.
  induction tr as [|o tr IH]; intros t t' Hs Ho; inversion Hs as [|? ? t1 ? ? H1 H2]; subst; [auto|]. destruct (Ho o (or_introl eq_refl)) as (sid & uid & y & ->).
  apply get_keeps in H1. subst t1. apply (IH _ _ H2). intros o Hi. apply Ho. right. auto.
Qed.
Lemma session_only w tr x : aexec (session_user w) tr x -> only_session tr.
Proof. intros H. destruct (session_exec _ _ _ H) as [(_ & -> & _)|(uid & sid & y & _ & -> & _)]; [intros o []|]. intros o [<-|[]]. eauto. Qed.
Lemma p_wrong_login E p hs C aware w tr x t t1 : aexec (application E p hs LoginPage w) tr x -> app_steps C aware t tr t1 -> ano_raise tr -> wb_method w = lit "POST" -> wb_cookie w = None -> wrong_login t w ->
  x = V (RPage (lit "login.j2") (if form_ok (wb_form w) then Some (lit "Invalid Credentials.") else None)) /\ t1 = t.
Proof.
  intros H Hs Hr Hm Hc Hw. unfold application in H. apply aexec_abind in H as [(ou & s1 & s2 & -> & H1 & H2)|(e & -> & H)].
  2:{ destruct (session_exec _ _ _ H) as [(_ & _ & [=])|(uid & sid & y & Hc' & _)]. congruence. }
  destruct (session_exec _ _ _ H1) as [(_ & -> & [= ->])|(uid & sid & y & Hc' & _)]; [|congruence]. cbn [app view] in *.
  assert (Hg : is_get w = false) by (unfold is_get; rewrite Hm; reflexivity). assert (Hp : is_post w = true) by (unfold is_post; rewrite Hm; reflexivity). rewrite Hg, Hp in H2.
  unfold login_post in H2. destruct (form_ok (wb_form w)); cbn [negb] in H2; [|apply aexec_ARet in H2 as [-> ->]; inversion Hs; subst; auto].
  apply aexec_abind in H2 as [(a & s3 & s4 & -> & H3 & H4)|(e & -> & H)].
  2:{ apply aexec_acall in H as ->. specialize (Hr _ (or_introl eq_refl)). discriminate. }
  apply aexec_acall in H3 as ->. cbn [aobserve app] in *. inversion Hs as [|? ? t2 ? ? Ho Ht]; subst.
  assert (Hk : t2 = t). { clear - Ho. remember (OFindAccount (lf_email (wb_form w)) (V a)) as z eqn:Ez. destruct Ho as [ch T e t|T e x t]; [|auto].
    destruct e; cbn [app_do fst snd aobserve] in Ez |- *; try discriminate; auto; try (destruct (existsb _ _) in Ez; discriminate). }
  subst t2. destruct a as [a|].
  - apply account_step in Ho as [Ho He]. destruct (eqs_spec (a_password a) (lf_password (wb_form w))) as [Hpw|]; [destruct (Hw _ Ho He Hpw)|]. cbn [negb] in H4.
    apply aexec_ARet in H4 as [-> ->]. inversion Ht; subst. auto.
  - apply aexec_ARet in H4 as [-> ->]. inversion Ht; subst. auto.
Qed.
Lemma p_login_same E p hs C aware w tr x t t1 tr' x' t' t1' : wb_method w = lit "POST" -> wb_cookie w = None ->
  aexec (application E p hs LoginPage w) tr x -> app_steps C aware t tr t1 -> ano_raise tr -> wrong_login t w ->
  aexec (application E p hs LoginPage w) tr' x' -> app_steps C aware t' tr' t1' -> ano_raise tr' -> wrong_login t' w ->
  x' = x /\ t1 = t /\ exists m, x = V (RPage (lit "login.j2") m).
Proof.
  intros Hm Hc H1 H2 H3 H4 H5 H6 H7 H8. destruct (p_wrong_login _ _ _ _ _ _ _ _ _ _ H1 H2 H3 Hm Hc H4) as [-> ->]. destruct (p_wrong_login _ _ _ _ _ _ _ _ _ _ H5 H6 H7 Hm Hc H8) as [-> _]. eauto.
Qed.
(** The calls of a login that succeeds *)
Lemma login_cookie E p hs g w tr l uid sid : aexec (application E p hs g w) tr (V (RRedirect l (Some (uid, sid)))) ->
  exists pre a s rest, only_session pre /\ tr = pre ++ OFindAccount (lf_email (wb_form w)) (V (Some a)) :: OUserSession uid (V s) :: rest /\ a_id a = uid /\
    ((s = Some sid /\ rest = []) \/ (s = None /\ rest = [OSessionToken (V sid); ONewSession sid uid (V tt)])).
Proof.
  intros H. unfold application in H. apply aexec_abind in H as [(ou & t1 & t2 & -> & H1 & H2)|(e & [=] & _)].
  destruct ou as [ou|]; [|apply aexec_ARet in H2 as [_ H2]; discriminate]. apply session_only in H1. exists t1. clear - H1 H2.
  assert (Hred : forall u c t, aexec (redirect u c) t (V (RRedirect l (Some (uid, sid)))) -> c = Some (uid, sid) /\ t = []).
  { intros u c s Hx. apply aexec_ARet in Hx as [-> Hx]. destruct (location u) as [l'|]; [|discriminate]. injection Hx as _ <-. auto. }
  assert (Hresp : forall A (q : prog A) (f : A -> option response) tr, aexec (ado a <- library q ;; create_response (f a)) tr (V (RRedirect l (Some (uid, sid)))) -> False).
  { intros A q f s Hx. apply aexec_abind in Hx as [(a & s1 & s2 & -> & _ & Hx)|(e & [=] & _)]. destruct (f a); apply aexec_ARet in Hx as [_ Hx]; discriminate. }
  destruct g; cbn [view] in H2.
  - destruct (is_get w); apply aexec_ARet in H2 as [_ H2]; discriminate.
  - destruct (is_get w).
    { unfold login_get in H2. destruct ou; [apply Hred in H2 as [H2 _]; discriminate|apply aexec_ARet in H2 as [_ H2]; discriminate]. }
    destruct (is_post w); [|apply aexec_ARet in H2 as [_ H2]; discriminate].
    unfold login_post in H2. destruct ou; [apply Hred in H2 as [H2 _]; discriminate|].
    destruct (negb (form_ok (wb_form w))); [apply aexec_ARet in H2 as [_ H2]; discriminate|].
    apply aexec_abind in H2 as [(a & s1 & s2 & -> & H2 & H3)|(e & [=] & _)]. apply aexec_acall in H2 as ->. destruct a as [a|]; [|apply aexec_ARet in H3 as [_ H3]; discriminate].
    destruct (negb (eqs (a_password a) (lf_password (wb_form w)))); [apply aexec_ARet in H3 as [_ H3]; discriminate|].
    apply aexec_abind in H3 as [(s & s3 & s4 & -> & H3 & H4)|(e & [=] & _)]. apply aexec_acall in H3 as ->.
    apply aexec_abind in H4 as [(s' & s5 & s6 & -> & H4 & H5)|(e & [=] & _)]. cbv zeta in H5. apply Hred in H5 as [[= <- <-] ->].
    exists a, s. eexists. split; [auto|]. split; [reflexivity|]. split; [auto|]. rewrite app_nil_r.
    destruct s as [s|]; [apply aexec_ARet in H4 as [-> [= ->]]; auto|]. right. split; [auto|].
    apply aexec_abind in H4 as [(t & s7 & s8 & -> & H4 & H5)|(e & [=] & _)]. apply aexec_acall in H4 as ->.
    apply aexec_abind in H5 as [([] & s9 & s10 & -> & H4 & H5)|(e & [=] & _)]. apply aexec_acall in H4 as ->. apply aexec_ARet in H5 as [-> [= ->]]. reflexivity.
  - exfalso. destruct (is_get w); [|destruct (is_post w); [apply Hred in H2 as [H2 _]; discriminate|apply aexec_ARet in H2 as [_ H2]; discriminate]].
    unfold logout_get in H2. destruct ou; [|apply Hred in H2 as [H2 _]; discriminate]. destruct (wb_cookie w) as [[? ?]|]; [|apply aexec_ARet in H2 as [_ H2]; discriminate].
    apply aexec_atry in H2 as (y & s1 & s2 & -> & _ & H2). apply aexec_atry in H2 as (z & s3 & s4 & -> & _ & H2).
    destruct y as [[]|]; [destruct z as [[]|]|]; try (apply aexec_ARet in H2 as [_ H2]; discriminate). apply Hred in H2 as [H2 _]. discriminate.
  - exfalso. destruct (is_get w); [|apply aexec_ARet in H2 as [_ H2]; discriminate]. unfold authorize_get in H2. destruct ou.
    + apply aexec_abind in H2 as [(r & s1 & s2 & -> & _ & H2)|(e & [=] & _)]. exact (Hresp _ _ (fun x => Some x) _ H2).
    + apply aexec_abind in H2 as [(r & s1 & s2 & -> & _ & H2)|(e & [=] & _)]. apply Hred in H2 as [H2 _]. discriminate.
  - exfalso. destruct (is_get w); apply aexec_ARet in H2 as [_ H2]; discriminate.
  - exfalso. destruct (is_post w); [|apply aexec_ARet in H2 as [_ H2]; discriminate]. unfold revoke_post in H2.
    apply aexec_abind in H2 as [(r & s1 & s2 & -> & _ & H2)|(e & [=] & _)]. exact (Hresp _ _ (fun x => x) _ H2).
  - exfalso. destruct (is_post w); [|apply aexec_ARet in H2 as [_ H2]; discriminate]. unfold token_post in H2.
    apply aexec_abind in H2 as [(r & s1 & s2 & -> & _ & H2)|(e & [=] & _)]. exact (Hresp _ _ (fun x => Some x) _ H2).
Qed.
Lemma user_session_step C aware t uid s t1 : app_step C aware t (OUserSession uid (V s)) t1 -> t1 = t /\ match s with Some sid => In (sid, uid) (tb_sessions t) | None => forall sid, ~ In (sid, uid) (tb_sessions t) end.
Proof.
  intros H. remember (OUserSession uid (V s)) as z eqn:Ez. destruct H as [ch T e t|T e x t]; [|destruct e; discriminate].
  destruct e; cbn [app_do fst snd aobserve] in Ez |- *; try discriminate; try (destruct (existsb _ _) in Ez; discriminate).
  injection Ez as -> <-. split; [auto|]. destruct (find _ _) as [[sid u]|] eqn:Ef; cbn [option_map fst].
  - apply find_some in Ef as [Hin Hu]. cbn [snd] in Hu. apply eqs_true in Hu. subst. auto.
  - intros sid Hin. apply (find_none _ _ Ef) in Hin. cbn [snd] in Hin. rewrite eqs_refl in Hin. discriminate.
Qed.
Lemma find_account_keeps C aware t e y t1 : app_step C aware t (OFindAccount e y) t1 -> t1 = t.
Proof.
  intros H. remember (OFindAccount e y) as z eqn:Ez. destruct H as [ch T e0 t|T e0 x t]; [|auto].
  destruct e0; cbn [app_do fst snd aobserve] in Ez |- *; try discriminate; auto; try (destruct (existsb _ _) in Ez; discriminate).
Qed.
Lemma new_session_step C aware t sid uid t1 : app_step C aware t (ONewSession sid uid (V tt)) t1 -> (forall u, ~ In (sid, u) (tb_sessions t)) /\ tb_sessions t1 = (sid, uid) :: tb_sessions t.
Proof.
  intros H. remember (ONewSession sid uid (V tt)) as z eqn:Ez. destruct H as [ch T e t|T e x t]; [|destruct e; discriminate].
  destruct e; cbn [app_do fst snd aobserve] in Ez |- *; try discriminate.
  destruct (existsb _ _) eqn:Ee; [discriminate|]. cbn [fst snd] in *. injection Ez as -> ->. split; [|reflexivity].
  intros u Hin. assert (Ht : existsb (fun s => eqs (fst s) sid) (tb_sessions t) = true) by (apply existsb_exists; exists (sid, u); split; [auto|apply eqs_refl]). congruence.
Qed.
Lemma session_token_keeps C aware t y t1 : app_step C aware t (OSessionToken y) t1 -> t1 = t.
Proof.
  intros H. remember (OSessionToken y) as z eqn:Ez. destruct H as [ch T e t|T e x t]; [|auto].
  destruct e; cbn [app_do fst snd aobserve] in Ez |- *; try discriminate; auto; try (destruct (existsb _ _) in Ez; discriminate).
Qed.
Lemma p_login_session E p hs C aware g w tr l uid sid t t' : aexec (application E p hs g w) tr (V (RRedirect l (Some (uid, sid)))) -> app_steps C aware t tr t' ->
  (In (sid, uid) (tb_sessions t) /\ t' = t) \/
  ((forall s, ~ In (s, uid) (tb_sessions t)) /\ (forall u, ~ In (sid, u) (tb_sessions t)) /\ In (OSessionToken (V sid)) tr /\ tb_sessions t' = (sid, uid) :: tb_sessions t).
Proof.
  intros H Hs. apply login_cookie in H as (pre & a & s & rest & Hpre & -> & _ & Hr). apply app_steps_app in Hs as (t1 & H1 & H2). apply only_session_keeps in H1; [|auto]. subst t1.
  inversion H2 as [|? ? t1 ? ? Ho Ht]; subst. apply find_account_keeps in Ho. subst t1. inversion Ht as [|? ? t1 ? ? Ho Ht2]; subst. apply user_session_step in Ho as [-> Ho].
  destruct Hr as [[-> ->]|[-> ->]].
  - left. inversion Ht2; subst. auto.
  - right. split; [auto|]. inversion Ht2 as [|? ? t1 ? ? Ho1 Ht3]; subst. apply session_token_keeps in Ho1. subst t1. inversion Ht3 as [|? ? t1 ? ? Ho2 Ht4]; subst.
    apply new_session_step in Ho2 as [H3 H4]. inversion Ht4; subst. split; [auto|]. split; [apply in_app_iff; right; right; right; left; reflexivity|auto].
Qed.
Lemma p_login_reuses E p hs C aware g w tr l uid sid t t' s0 : aexec (application E p hs g w) tr (V (RRedirect l (Some (uid, sid)))) -> app_steps C aware t tr t' -> In (s0, uid) (tb_sessions t) ->
  In (sid, uid) (tb_sessions t) /\ t' = t.
Proof. intros H Hs Hin. destruct (p_login_session _ _ _ _ _ _ _ _ _ _ _ _ _ H Hs) as [?|(Hn & _)]; [auto|]. destruct (Hn _ Hin). Qed.
Lemma p_login_starts E p hs C aware g w tr l uid sid t t' : aexec (application E p hs g w) tr (V (RRedirect l (Some (uid, sid)))) -> app_steps C aware t tr t' -> (forall s, ~ In (s, uid) (tb_sessions t)) ->
  (forall u, ~ In (sid, u) (tb_sessions t)) /\ In (OSessionToken (V sid)) tr /\ tb_sessions t' = (sid, uid) :: tb_sessions t.
Proof. intros H Hs Hn. destruct (p_login_session _ _ _ _ _ _ _ _ _ _ _ _ _ H Hs) as [[Hin _]|(_ & ?)]; [destruct (Hn _ Hin)|auto]. Qed.

(** ** Safe methods *)
Lemma p_safe E p hs C aware g w tr x t t' : aexec (application E p hs g w) tr x -> app_steps C aware t tr t' -> safe_method (wb_method w) -> g <> LogoutPage -> (g = AuthorizePage -> wb_method w = lit "HEAD") -> t' = t.
Proof.
  intros H Hs Hm Hg Ha. apply only_session_keeps in Hs; [auto|]. clear Hs. unfold application in H.
  apply aexec_abind in H as [(ou & s1 & s2 & -> & H1 & H2)|(e & -> & H)]; [|eapply session_only; eauto]. apply session_only in H1.
  assert (Hget : is_get w = true) by (unfold is_get; destruct Hm as [->| ->]; reflexivity). assert (Hpost : is_post w = false) by (unfold is_post; destruct Hm as [->| ->]; reflexivity).
  assert (Hnil : s2 = [] -> only_session (s1 ++ s2)) by (intros ->; rewrite app_nil_r; auto). apply Hnil. clear Hnil H1.
  destruct ou as [ou|]; [|apply aexec_ARet in H2 as [-> _]; auto]. destruct g; cbn [view] in H2; rewrite ?Hget, ?Hpost in H2; try (apply aexec_ARet in H2 as [-> _]; reflexivity); [|congruence|].
  - unfold login_get in H2. destruct ou; [apply redirect_exec in H2; auto|apply aexec_ARet in H2 as [-> _]; auto].
  - specialize (Ha eq_refl). unfold authorize_get in H2. destruct ou.
    + assert (Hreq : aexec (create_request w (Some u)) s2 (X (Py RuntimeError)) \/ True) by auto. clear Hreq.
      apply aexec_abind in H2 as [(r & s3 & s4 & -> & H3 & H4)|(e & -> & H)]; [|apply aexec_ARet in H as [-> _]; auto].
      exfalso. apply aexec_ARet in H3 as [_ H3]. unfold make_request in H3. rewrite Ha in H3. change (raise_if _ RuntimeError) with (Err RuntimeError : result unit) in H3. discriminate.
    + apply aexec_abind in H2 as [(r & s3 & s4 & -> & H3 & H4)|(e & -> & H)]; [|apply aexec_ARet in H as [-> _]; auto].
      apply aexec_ARet in H3 as [-> _]. apply redirect_exec in H4. subst. auto.
Qed.
Lemma p_get_logout E p hs C aware w tr r sid uid u t t' : aexec (application E p hs LogoutPage w) tr (V r) -> is_get w = true -> In (OGetSession sid uid (V (Some (Some u)))) tr -> app_steps C aware t tr t' ->
  In (sid, uid) (tb_sessions t) /\ (forall s, ~ In (s, uid) (tb_sessions t')) /\ forall k v, In (k, v) (st_rts (tb_store t')) -> rt_user v <> uid.
Proof.
  intros H Hg Hin Hs. destruct (p_logout _ _ _ _ _ _ _ _ _ H Hg Hin) as (_ & -> & _).
  inversion Hs as [|? ? t1 ? ? H1 H2]; subst. pose proof (get_keeps _ _ _ _ _ _ _ H1). subst t1. apply get_step in H1 as [H1 _]. split; [auto|].
  inversion H2 as [|? ? t1 ? ? H3 H4]; subst. inversion H4 as [|? ? t2 ? ? H5 H6]; subst. inversion H6; subst. split; [eapply drop_step; exact H5|].
  assert (Hst : tb_store t' = tb_store t1).
  { clear - H5. remember (ODropSessions uid (V tt)) as z eqn:Ez. destruct H5 as [ch T e t|T e x t]; [|auto].
    destruct e; cbn [app_do fst snd aobserve] in Ez |- *; try discriminate; auto; try (destruct (existsb _ _) in Ez; discriminate). }
  rewrite Hst. clear - H3. intros k v Hin. remember (ODropRefresh uid (V tt)) as z eqn:Ez. destruct H3 as [ch T e t|T e x t]; [|destruct e; discriminate].
  destruct e; cbn [app_do fst snd aobserve] in Ez, Hin; try discriminate; try (destruct (existsb _ _) in Ez; discriminate).
  injection Ez as ->. cbn [set_store tb_store set_rts st_rts] in Hin. apply filter_In in Hin as [_ Hf]. cbn [snd] in Hf. intros He. rewrite He, eqs_refl in Hf. discriminate.
Qed.

(** ** The lifetime of codes *)
Definition code_until (code : str) (t : Z) (s : store) : Prop := forall ac, lookup code (st_codes s) = Some ac -> ac_exp ac = Naive t.
Lemma until_step C aware code t s o s' : ex_step C aware s o s' -> code_until code t s -> (forall ad c u, o <> OSaveCode code ad c u (V tt)) -> code_until code t s'.
Proof.
  intros H Hu Hn. destruct H as [ch T e s|T e x s]; [|auto]. destruct e; cbn [ex_do fst snd observe] in *; auto.
  - match goal with |- context [ad_nonce ?a] => destruct (ad_nonce a) end; [|auto]. match goal with |- context [has ?k (st_codes s)] => rename k into code0 end. destruct (has code0 (st_codes s)); [auto|]. cbn [fst snd set_codes st_codes] in *. intros ac Hl. unfold set_codes in Hl. cbn [st_codes lookup] in Hl.
    destruct (eqs_spec code code0) as [<-|]; [|apply Hu; exact Hl]. exfalso. eapply Hn. reflexivity.
  - match goal with |- context [dremove ?k _] => rename k into code0 end. intros ac Hl. cbn [set_codes st_codes] in Hl. destruct (eqs_spec code code0) as [->|Hc]; [rewrite lookup_dremove_same in Hl; discriminate|]. rewrite lookup_dremove_other in Hl by auto. auto.
  - match goal with |- context [owner_id ?o] => destruct (owner_id o) end; [|auto]. destruct (find _ _) as [[? ?]|]; [auto|]. destruct (has _ _); auto.
Qed.
Lemma until_steps C aware code t : forall l s s', ex_steps C aware s l s' -> code_until code t s -> (forall ad c u, ~ In (OSaveCode code ad c u (V tt)) l) -> code_until code t s'.
Proof.
  induction l as [|o l IH]; intros s s' Hs Hu Hn; inversion Hs as [|? ? s1 ? ? Ho Hl]; subst; [auto|]. eapply IH; [exact Hl| |intros ad c u Hi; eapply Hn; right; exact Hi].
  eapply until_step; [exact Ho|exact Hu|]. intros ad c u ->. eapply Hn. left. reflexivity.
Qed.
Lemma get_code_step C aware s k ac s' : ex_step C aware s (OGetCode k (V (Some ac))) s' -> lookup k (st_codes s) = Some ac.
Proof.
  intros Hg. remember (OGetCode k (V (Some ac))) as o eqn:Eo. destruct Hg as [ch T e s|T e x s]; [|destruct e; discriminate].
  destruct e; cbn [ex_do fst snd observe] in Eo; try discriminate. injection Eo as -> Hl. auto.
Qed.
Lemma p_code_day E p hs C aware ch code ad c u s s1 l s2 r tr x s3 : (forall b, bytes_ok (e_sha256 E b)) -> ex_do C aware ch (SaveCode code ad c u) s = (V tt, s1) -> ex_steps C aware s1 l s2 ->
  (forall ad' c' u', ~ In (OSaveCode code ad' c' u' (V tt)) l) -> exec (token_endpoint E p hs r) tr (V x) -> ex_steps C aware s2 tr s3 ->
  data_has r "grant_type" (lit "authorization_code") -> data_has r "code" code -> rs_status x = 200 ->
  exists i z y now off rest, tr = OFindClient i z :: OGetCode code y :: ONow (V (now, off)) :: rest /\ (now < ch_now ch + seconds 86400)%Z.
Proof.
  intros Hsha Hd Hl Hn Hx Hs Hg Hc H2. destruct (exchange_ok _ Hsha _ _ _ _ _ Hx H2 Hg) as (i & cl & code' & uri & v & ac & us & a & d & now & off & t & rest & -> & _ & _ & Hc' & _ & _ & _ & _ & He & Ht & _).
  assert (code' = code) by (unfold data_has in *; congruence). subst code'.
  assert (H1 : code_until code (ch_now ch + 86400000000) s1).
  { cbn [ex_do] in Hd. destruct (ad_nonce ad); [|discriminate]. destruct (has code (st_codes s)); [discriminate|]. injection Hd as <-. intros ac' Hl'. unfold set_codes in Hl'. cbn [st_codes lookup] in Hl'. rewrite eqs_refl in Hl'. injection Hl' as <-. reflexivity. }
  pose proof (until_steps _ _ _ _ _ _ _ Hl H1 Hn) as H3. inversion Hs as [|? ? s4 ? ? Ho Hs4]; subst. apply step_find_client in Ho as [-> _].
  inversion Hs4 as [|? ? s5 ? ? Ho' _]; subst. apply get_code_step in Ho'. apply H3 in Ho'. rewrite Ho' in He. injection He as <-.
  do 6 eexists. split; [reflexivity|]. unfold seconds. lia.
Qed.

(** ** Error codes *)
Definition authz_kind (k : okind) : Prop := In (error_code k) authorization_error_codes.
Ltac akind := unfold authz_kind, authorization_error_codes; apply ins_In; reflexivity.
Lemma fatal_kind e : fatal_error e -> authz_kind (oe_kind e).
Proof. intros [-> _]. akind. Qed.
Lemma error_param_code e : In (lit "error", error_code (oe_kind e)) (error_params e).
Proof. left. reflexivity. Qed.
Lemma error_param_only e v : In (lit "error", v) (error_params e) -> v = error_code (oe_kind e).
Proof. unfold error_params. intros [[= <-]|H]; [auto|]. rewrite !in_app_iff, !opt_param_In in H. destruct H as [[H _]|[[H _]|[H _]]]; discriminate. Qed.
(** The error redirects of the two functions *)
Lemma redirect_registered cfg data e x st : error_redirect cfg data e = V x -> lib_error st e -> st <> Some [] -> authz_kind (oe_kind e) ->
  exists uri ps, redirects x uri ps /\ (forall code, ~ In (lit "code", code) ps) /\ exists v, In (lit "error", v) ps /\ In v authorization_error_codes /\ forall v', In (lit "error", v') ps -> v' = v.
Proof.
  intros H Hl Hs Hk. destruct (lib_redirect _ _ _ _ _ H Hl Hs) as (uri & _ & Hr). exists uri, (error_params e). split; [auto|]. split; [intros code; apply error_params_code|].
  exists (error_code (oe_kind e)). split; [apply error_param_code|]. split; [exact Hk|]. intros v' Hv. apply error_param_only. auto.
Qed.
Lemma p_authz_codes E p hs r tr x : exec (authorization_endpoint E p hs r) tr (V x) -> made r -> no_oauth_raise tr -> tokens_ok tr ->
  exists uri ps, redirects x uri ps /\
    ((exists code ad c u, In (OSaveCode code ad c u (V tt)) tr /\ In (lit "code", code) ps /\ forall v, ~ In (lit "error", v) ps) \/
     ((forall code, ~ In (lit "code", code) ps) /\ exists v, In (lit "error", v) ps /\ In v authorization_error_codes /\ forall v', In (lit "error", v') ps -> v' = v)).
Proof.
  intros H Hm Hr Ht. pose proof H as H0. apply authz_exec in H as (y & Hs & Hx).
  assert (Hst : param "state" (rq_data r) <> Some []) by (apply made_nonblank; auto).
  assert (Hgo : forall e st, V x = error_redirect (pv_config p) (rq_data r) e -> lib_error st e -> st <> Some [] -> authz_kind (oe_kind e) -> exists uri ps, redirects x uri ps /\
    ((exists code ad c u, In (OSaveCode code ad c u (V tt)) tr /\ In (lit "code", code) ps /\ forall v, ~ In (lit "error", v) ps) \/
     ((forall code, ~ In (lit "code", code) ps) /\ exists v, In (lit "error", v) ps /\ In v authorization_error_codes /\ forall v', In (lit "error", v') ps -> v' = v))).
  { intros e st He Hl Hn Hk. symmetry in He. destruct (redirect_registered _ _ _ _ _ He Hl Hn Hk) as (uri & ps & H1 & H2 & H3). exists uri, ps. auto. }
  assert (Hpar : param "state" (dremove (lit "response_type") (rq_data r)) = param "state" (rq_data r)) by (unfold param; apply lookup_dremove_other; discriminate).
  destruct Hs as [e He | e uri Hu Hd Hk Hl | e uri rt u Hu Hd Hrt Hnot Hk Hl | u uri cid tr e Hu Hd Hc Hrt Hg Hs | u uri cid c tr y Hu Hd Hc Hrt Hg Hreg Hresp Hs].
  - eapply Hgo; [exact Hx|apply He|discriminate|apply fatal_kind; auto].
  - eapply Hgo; [exact Hx|exact Hl|discriminate|rewrite Hk; akind].
  - eapply Hgo; [exact Hx|exact Hl|auto|rewrite Hk; akind].
  - inversion Hs as [e' Ee Et | e' He Et Ee | c e' He Hin Et Ee | c e' Hk Hl Hin Hnin Et Ee | ]; subst.
    + destruct e as [e|e]; [|discriminate]. exfalso. eapply oa_raise; eauto; [left; reflexivity|reflexivity].
    + eapply Hgo; [exact Hx|apply He|discriminate|apply fatal_kind; auto].
    + eapply Hgo; [exact Hx|apply He|discriminate|apply fatal_kind; auto].
    + eapply Hgo; [exact Hx|exact Hl|auto|rewrite Hk; akind].
  - inversion Hs as [e Hl Hk Et Ey | e Et Ey | ad code e Hv H1 H2 Et Ey | ad code Hv H1 H2 Et Ey]; subst.
    + rewrite Hpar in Hl. eapply Hgo; [exact Hx|exact Hl|auto|]. destruct Hk as [-> | ->]; akind.
    + destruct e as [e|e]; [|discriminate]. exfalso. eapply oa_raise; eauto; [right; left; reflexivity|reflexivity].
    + destruct e as [e|e]; [|discriminate]. exfalso. eapply oa_raise; eauto; [right; right; left; reflexivity|reflexivity].
    + destruct (p_code_sent _ _ _ _ _ _ H0 Hm Hr Ht) as (uri' & ps & H3 & _ & H5). exists uri', ps. split; [auto|]. left. exists code, ad, c, u.
      assert (Hin : In (OSaveCode code ad c u (V tt)) [OFindClient cid (V (Some c)); OSecretToken 64 (V code); OSaveCode code ad c u (V tt)]) by (right; right; left; reflexivity).
      split; [exact Hin|]. destruct (H5 _ _ _ _ _ Hin) as [_ ->]. split; [left; reflexivity|]. intros v [Hv'|Hv']; [discriminate|]. unfold state_params in Hv'. destruct (lookup _ _); [destruct Hv' as [Hv'|[]]; discriminate|destruct Hv'].
Qed.
Lemma p_consent_codes p r tr x : exec (get_consent_data p r) tr (V (ConsentRedirect x)) -> made r -> no_oauth_raise tr ->
  exists uri ps, redirects x uri ps /\ exists v, In (lit "error", v) ps /\ In v authorization_error_codes /\ forall v', In (lit "error", v') ps -> v' = v.
Proof.
  intros H Hm Hr. apply consent_exec in H as (y & Hs & Hx). assert (Hst : param "state" (rq_data r) <> Some []) by (apply made_nonblank; auto).
  assert (Hgo : forall e st, V (ConsentRedirect x) = match error_redirect (pv_config p) (rq_data r) e with V z => V (ConsentRedirect z) | X e => X e end ->
    lib_error st e -> st <> Some [] -> authz_kind (oe_kind e) -> exists uri ps, redirects x uri ps /\ exists v, In (lit "error", v) ps /\ In v authorization_error_codes /\ forall v', In (lit "error", v') ps -> v' = v).
  { intros e st He Hl Hn Hk. destruct (error_redirect _ _ _) as [z|] eqn:Ez; [|discriminate]. injection He as <-. destruct (redirect_registered _ _ _ _ _ Ez Hl Hn Hk) as (uri & ps & H1 & _ & H3). eauto. }
  destruct Hs as [e He|uri cid rt tr e Hu Hc Hrt Hs|uri cid rt c e Hu Hc Hrt Hi1 Hi2 Ha Hk Hl|uri cid rt c s Hu Hc Hrt Hi1 Hi2 Hsc Hne].
  - eapply Hgo; [exact Hx|apply He|discriminate|apply fatal_kind; auto].
  - inversion Hs as [e' Ee Et | e' He Et Ee | c e' He Hin Et Ee | c e' Hk Hl Hin Hnin Et Ee | ]; subst.
    + destruct e as [e|e]; [|discriminate]. exfalso. eapply oa_raise; eauto; [left; reflexivity|reflexivity].
    + eapply Hgo; [exact Hx|apply He|discriminate|apply fatal_kind; auto].
    + eapply Hgo; [exact Hx|apply He|discriminate|apply fatal_kind; auto].
    + eapply Hgo; [exact Hx|exact Hl|auto|rewrite Hk; akind].
  - eapply Hgo; [exact Hx|exact Hl|discriminate|rewrite Hk; akind].
  - discriminate.
Qed.
Lemma p_revocation_codes r tr z : exec (revocation_endpoint r) tr (V (Some z)) -> no_oauth_raise tr ->
  (rs_status z = 200 /\ exists c k h, In (ORevokeToken c k h (V tt)) tr) \/
  exists d v, json_body z d /\ lookup (lit "error") d = Some (PStr v) /\ In v revocation_error_codes /\ rs_status z = (if eqs v (lit "invalid_client") then 401 else 400).
Proof.
  intros H Hr. apply revocation_exec in H as (y & Hs & Hx).
  assert (Hgo : forall e, V (Some z) = revoke_error e -> In (error_code (oe_kind e)) revocation_error_codes -> (forall c, oe_kind e <> Fatal c) ->
    exists d v, json_body z d /\ lookup (lit "error") d = Some (PStr v) /\ In v revocation_error_codes /\ rs_status z = (if eqs v (lit "invalid_client") then 401 else 400)).
  { intros e He Hk Hf. unfold revoke_error in He. destruct (JSONResponse _ _ _) as [z'|] eqn:Ej; [|discriminate]. injection He as <-. apply json_response_V in Ej as (H1 & H2 & _); [|apply dump_wf].
    exists (dump e), (error_code (oe_kind e)). split; [auto|]. split; [apply dump_error|]. split; [auto|]. rewrite H1. destruct (oe_kind e); try reflexivity. destruct (Hf code); auto. }
  destruct Hs as [tr e He|i c Ha Ht|i c h e Ha Hh Hne Hni Hk Hd Hl|i c t hint e Ha Ht Hne Hh Hs|i c t hint Ha Ht Hne Hh Hs].
  - right. destruct e as [e|e]; [|discriminate]. destruct (authenticate_oa _ _ _ _ He) as [(_ & Hk & _)|Hf]; [|destruct (from_app_oauth _ _ Hr Hf)].
    eapply Hgo; [exact Hx|right; apply token_kind_code; auto|]. intros c Hc. rewrite Hc in Hk. destruct Hk.
  - discriminate.
  - right. eapply Hgo; [exact Hx|left; rewrite Hk; reflexivity|rewrite Hk; discriminate].
  - destruct e as [e|e]; [|discriminate]. exfalso. eapply oa_raise; eauto; [right; left; reflexivity|reflexivity].
  - left. injection Hx as ->. split; [reflexivity|]. exists c, t, hint. right. left. reflexivity.
Qed.

(** ** Error descriptions *)
Lemma p_description E p hs r tr x t : exec (token_endpoint E p hs r) tr x -> data_has r "grant_type" t -> t <> [] -> (forall g, In g (pv_grants p) -> grant_type g <> t) -> scalar_str t ->
  exists z d desc, x = V z /\ rs_status z = 400 /\ json_body z d /\ lookup (lit "error_description") d = Some (PStr desc) /\ incl t desc /\ ~ Forall description_char desc.
Proof.
  intros H Hg Hne Hn Hsc. unfold token_endpoint in H. unfold data_has in Hg.
  assert (Hd : rq_data r <> []) by (intros Hd; rewrite Hd in Hg; discriminate). destruct (rq_data r) as [|kv l] eqn:Er; [congruence|]. rewrite <- Er in *. clear Hd.
  assert (Hv : validate_grant_type p (param "grant_type" (rq_data r)) = oraise UnsupportedGrantType (lit "Unsupported grant_type """ ++ t ++ lit """.") None).
  { unfold param. rewrite Hg. unfold validate_grant_type. destruct t as [|a t']; [congruence|]. destruct (find _ _) as [g|] eqn:Ef; [|reflexivity].
    apply find_some in Ef as [Hi He]. apply eqs_true in He. destruct (Hn g Hi He). }
  rewrite Hv in H. set (desc := lit "Unsupported grant_type """ ++ t ++ lit """.") in *.
  assert (Hx : x = token_error {| oe_kind := UnsupportedGrantType; oe_desc := Some desc; oe_uri := None; oe_state := None; oe_headers := [] |}).
  { apply exec_pexcept in H as [(e & t1 & t2 & -> & H1 & H2)|[H1 H2]].
    - apply exec_Ret in H2 as [-> ->]. apply exec_pbind in H1 as [([] & t3 & t4 & -> & _ & H1)|(e' & E1 & H1)]; [|apply exec_Ret in H1 as [_ H1]; discriminate].
      apply exec_pbind in H1 as [(g & t5 & t6 & -> & H1 & _)|(e' & E1 & H1)]; apply exec_Ret in H1 as [_ H1]; [discriminate|]. injection E1 as <-. unfold oraise, oerr in H1. injection H1 as ->. reflexivity.
    - exfalso. apply exec_pbind in H1 as [([] & t3 & t4 & -> & _ & H1)|(e' & E1 & H1)]; [|apply exec_Ret in H1 as [_ H1]; discriminate].
      apply exec_pbind in H1 as [(g & t5 & t6 & -> & H1 & _)|(e' & E1 & H1)]; apply exec_Ret in H1 as [_ H1]; [discriminate|]. unfold oraise, oerr in H1. injection H1 as ->. eapply H2. exact E1. }
  assert (Hs : scalar_str desc). { unfold desc. apply Forall_app. split; [slit|]. apply Forall_app. split; [auto|slit]. }
  unfold token_error in Hx. destruct (JSONResponse _ _ _) as [z|e] eqn:Ej.
  2:{ exfalso. eapply json_response_X; [exact Ej|]. apply dump_flat; cbn; auto. slit. }
  apply json_response_V in Ej as (H1 & H2 & _); [|apply dump_wf]. eexists z, _, desc. split; [auto|]. split; [auto|]. split; [exact H2|]. split; [reflexivity|]. split.
  - intros a Ha. unfold desc. apply in_app_iff. right. apply in_app_iff. auto.
  - intros Hf. rewrite Forall_forall in Hf. assert (Hq : In 34 desc) by (unfold desc; apply in_app_iff; right; apply in_app_iff; right; left; reflexivity).
    apply Hf in Hq. unfold description_char in Hq. lia.
Qed.

(** ** Revocation of what is not a refresh token *)
Lemma p_revoke_nothing C aware r tr x s s' k : exec (revocation_endpoint r) tr x -> ex_steps C aware s tr s' -> form_has r "token" k -> (forall v, ~ In (k, v) (st_rts s)) -> s' = s.
Proof.
  intros H Hs Hk Hn. apply revocation_exec in H as (y & Hz & _).
  assert (Hone : forall i z s1, ex_step C aware s (OFindClient i z) s1 -> s1 = s).
  { intros i z s1 Ho. remember (OFindClient i z) as o eqn:Eo. destruct Ho as [ch T e s|T e w s]; [|auto]. destruct e; cbn [ex_do fst snd observe] in Eo |- *; try discriminate; auto. }
  destruct Hz as [tr e Ha | i c Ha Ht | i c h' e Ha Hh Hne Hns Hk' Hde Hl | i c t' hint e Ha Ht' Hne Hh Hsu | i c t' hint Ha Ht' Hne Hh Hsu].
  - apply authenticate_trace in Ha. revert s Hs Hn Hone. induction Ha as [|o tr Ho Ha IH]; intros s Hs Hn Hone; inversion Hs as [|? ? s1 ? ? H1 H2]; subst; [auto|].
    destruct Ho as (i & z & ->). apply Hone in H1. subst s1. eapply IH; eauto.
  - inversion Hs as [|? ? s1 ? ? H1 H2]; subst. apply Hone in H1. subst. inversion H2. auto.
  - inversion Hs as [|? ? s1 ? ? H1 H2]; subst. apply Hone in H1. subst. inversion H2. auto.
  - inversion Hs as [|? ? s1 ? ? H1 H2]; subst. apply Hone in H1. subst. inversion H2 as [|? ? s2 ? ? H3 H4]; subst. inversion H4; subst. apply step_revoke in H3 as [[? _]|[-> _]]; [discriminate|auto].
  - inversion Hs as [|? ? s1 ? ? H1 H2]; subst. apply Hone in H1. subst. inversion H2 as [|? ? s2 ? ? H3 H4]; subst. inversion H4; subst. apply step_revoke in H3 as [[_ ->]|[_ (e & ?)]]; [|discriminate].
    assert (t' = k) by (unfold form_has in *; congruence). subst t'. rewrite filter_all; [destruct s; reflexivity|]. apply Forall_forall. intros [a v] Hin. cbn [fst snd].
    destruct (eqs_spec a k) as [->|]; [destruct (Hn _ Hin)|reflexivity].
Qed.
