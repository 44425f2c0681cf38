(** Proofs of C143 and C144. *)
From Coq Require Import String Ascii List NArith ZArith Bool Arith Lia.
From Verif Require Import Base BaseFacts Utf8 Utf8Facts SpecCodec SpecWeb SpecUrl Json Url UrlFacts UrlQuoteFacts UrlWriteFacts Webtools WebtoolsFacts Crypto Jwk Prog ProgFacts Http OAuth OAuthFacts SpecOAuth SpecReaders FormFacts SpecHistory Example App SpecApp AppFacts SpecLogin.
Import ListNotations.
Open Scope N_scope.

Lemma filled_iff s : blank s = false <-> filled s.
Proof.
  unfold blank, filled. induction s as [|c s IH]; cbn [forallb].
  - split; [discriminate|]. intros (c & [] & _).
  - destruct (py_space c) eqn:E; cbn [andb].
    + rewrite IH. split; intros (d & Hd & Hw); exists d; (split; [|exact Hw]); [right; auto|]. destruct Hd as [->|]; [|auto]. destruct Hw. apply white_spec, E.
    + split; [|reflexivity]. intros _. exists c. split; [left; auto|]. rewrite <- white_spec. congruence.
Qed.
Lemma good_iff f : form_ok f = true <-> good_form f.
Proof.
  unfold form_ok, good_form. rewrite !andb_true_iff, !negb_true_iff, !filled_iff, !Nat.leb_le. tauto.
Qed.
Lemma account_iff t email a : find (fun a => eqs (a_email a) email) (tb_accounts t) = Some a <-> account_of t email a.
Proof.
  unfold account_of. induction (tb_accounts t) as [|b l IH]; cbn [find].
  - split; [discriminate|]. intros (l1 & l2 & H & _). destruct l1; discriminate.
  - destruct (eqs_spec (a_email b) email) as [E|E].
    + split.
      * intros [= ->]. exists [], l. split; [reflexivity|]. split; [auto|]. intros ? [].
      * intros (l1 & l2 & H & Ha & Hn). destruct l1 as [|c l1]; [injection H as <- _; reflexivity|]. injection H as <- _. destruct (Hn b (or_introl eq_refl) E).
    + rewrite IH. split.
      * intros (l1 & l2 & -> & Ha & Hn). exists (b :: l1), l2. split; [reflexivity|]. split; [auto|]. intros c [<-|Hc]; auto.
      * intros (l1 & l2 & H & Ha & Hn). destruct l1 as [|c l1]; [injection H as <- _; contradiction|]. injection H as <- ->. exists l1, l2. split; [reflexivity|]. split; [auto|]. intros d Hd. apply Hn. right. auto.
Qed.
Lemma leads_redirect u c tr x : aexec (redirect u c) tr x -> leads x u c /\ tr = [].
Proof.
  intros H. apply aexec_ARet in H as [-> ->]. split; [|auto]. unfold leads. destruct (location u) as [l|e] eqn:E; cbn [lift].
  - left. exists l. split; [apply location_iff, E|reflexivity].
  - right. split; [intros l Hl; apply location_iff in Hl; congruence|]. apply quote_err in E. subst. reflexivity.
Qed.
Lemma leads_iff x u c : leads x u c -> forall r, x = V r -> exists l, r = RRedirect l c.
Proof. intros [(l & _ & ->)|[_ ->]] r; [intros [= <-]; eauto|discriminate]. Qed.

Section Steps.
Variables (C : crypto) (aware : bool).
Definition own {T} (e : aeff T) : bool := match e with Lib _ => false | _ => true end.
Lemma step_own {T} (e : aeff T) y t t1 : own e = true -> app_step C aware t (aobserve e (V y)) t1 -> exists ch, app_do C aware ch e t = (V y, t1).
Proof.
  intros Ho H. remember (aobserve e (V y)) as z eqn:Ez. destruct H as [ch T' e' t|T' e' x t].
  - exists ch. destruct e; try discriminate Ho; destruct e'; cbn [app_do fst snd aobserve] in Ez |- *; try discriminate; try (destruct (existsb _ _) eqn:Ee in Ez; try discriminate);
    try (injection Ez; intros; subst; cbn [fst snd]; try rewrite Ee; reflexivity).
  - exfalso. destruct e; try discriminate Ho; destruct e'; cbn [aobserve] in Ez; discriminate.
Qed.
Lemma call_own {T B} (e : aeff T) (f : T -> aprog B) tr x t t' : own e = true -> aexec (abind (acall e) f) tr x -> ano_raise tr -> app_steps C aware t tr t' ->
  exists ch a t1 tr2, app_do C aware ch e t = (V a, t1) /\ aexec (f a) tr2 x /\ ano_raise tr2 /\ app_steps C aware t1 tr2 t'.
Proof.
  intros Ho H Hr Hs. apply aexec_abind in H as [(a & s1 & s2 & -> & H1 & H2)|(e' & -> & H)].
  - apply aexec_acall in H1 as ->. cbn [app] in *. inversion Hs as [|? ? t1 ? ? Hx Hy]; subst. apply (step_own _ _ _ _ Ho) in Hx as [ch Hx].
    exists ch, a, t1, s2. split; [auto|]. split; [auto|]. split; [|auto]. intros o Hin. apply Hr. right. auto.
  - exfalso. apply aexec_acall in H as ->. specialize (Hr _ (or_introl eq_refl)). destruct e; discriminate.
Qed.

(** ** The visitor *)
Lemma known_find t uid : find (fun u => eqs (us_id u) uid) (st_users (tb_store t)) <> None <-> known t uid.
Proof.
  unfold known. split.
  - intros H. destruct (find _ _) as [u|] eqn:E; [|congruence]. apply find_some in E as [E1 E2]. apply eqs_true in E2. eauto.
  - intros (u & Hu & Hi) E. apply (find_none _ _ E) in Hu. rewrite (proj2 (eqs_true _ _) Hi) in Hu. discriminate.
Qed.
Lemma visitor E p hs g w tr x t t' : aexec (application E p hs g w) tr x -> app_steps C aware t tr t' -> ano_raise tr ->
  (orphan t w /\ x = V (RStatus 400) /\ t' = t) \/
  exists u tr2, aexec (view E p hs g w u) tr2 x /\ app_steps C aware t tr2 t' /\ ano_raise tr2 /\
    ((u = None /\ stranger t w) \/ (u <> None /\ logged_in t w)).
Proof.
  intros H Hs Hr. unfold application, session_user in H. destruct (wb_cookie w) as [[uid sid]|] eqn:Ec.
  - apply aexec_abind in H as [(ou & s1 & s2 & -> & H1 & H2)|(e & -> & H)].
    2:{ exfalso. apply aexec_abind in H as [(row & s1 & s2 & -> & H1 & H2)|(e' & _ & H)].
        - destruct row as [[]|]; apply aexec_ARet in H2 as [_ H2]; discriminate.
        - apply aexec_acall in H as ->. specialize (Hr _ (or_introl eq_refl)). discriminate. }
    apply ano_raise_app in Hr as [Hr1 Hr2]. apply app_steps_app in Hs as (t1 & Hs1 & Hs2).
    apply (call_own (GetSession sid uid)) with (t := t) (t' := t1) in H1; [|reflexivity|auto|auto]. destruct H1 as (ch & row & t2 & s3 & Hd & H1 & _ & Hs3).
    cbn [app_do] in Hd. injection Hd as Hrow <-.
    assert (Ht : t1 = t /\ ou = match row with None => Some None | Some None => None | Some (Some u) => Some (Some u) end).
    { destruct row as [[u|]|]; apply aexec_ARet in H1 as [-> [= ->]]; inversion Hs3; subst; auto. }
    destruct Ht as [-> ->]. clear H1 Hs3.
    destruct (existsb _ _) eqn:Ee in Hrow.
    + assert (Hh : has_session t w uid).
      { exists sid. split; [auto|]. apply existsb_exists in Ee as ([a b] & Hin & Hab). cbn [fst snd] in Hab. apply andb_true_iff in Hab as [A1 A2]. apply eqs_true in A1. apply eqs_true in A2. subst. auto. }
      pose proof (known_find t uid) as Hk. subst row. destruct (find _ _) as [u|].
      * right. exists (Some u), s2. do 3 (split; [auto|]). right. split; [discriminate|]. exists uid. split; [auto|]. apply Hk. discriminate.
      * left. split; [exists uid; split; [auto|]; intros K; apply Hk in K; congruence|]. apply aexec_ARet in H2 as [-> ->]. inversion Hs2; subst. auto.
    + right. subst row. exists None, s2. do 3 (split; [auto|]). left. split; [auto|]. intros uid' (sid' & Hc & Hin). rewrite Ec in Hc. injection Hc as <- <-.
      assert (existsb (fun s => eqs (fst s) sid && eqs (snd s) uid) (tb_sessions t) = true); [|congruence]. apply existsb_exists. exists (sid, uid). split; [auto|]. cbn [fst snd]. rewrite !eqs_refl. reflexivity.
  - right. unfold abind in H. cbn [atry aret] in H. exists None, tr. do 3 (split; [auto|]). left. split; [auto|]. intros uid (sid & Hc & _). congruence.
Qed.
Lemma stranger_not t w : stranger t w -> ~ orphan t w /\ ~ logged_in t w.
Proof. intros H. split; intros (uid & Hu & _); exact (H _ Hu). Qed.
Lemma logged_not t w : logged_in t w -> ~ orphan t w.
Proof. intros (u & (s & H1 & H2) & K) (u' & (s' & H3 & H4) & K'). rewrite H1 in H3. injection H3 as <- <-. auto. Qed.

(** ** C143 *)
Lemma pair_blank k k' v v' : quoted_text [] k k' -> quoted_text [] v v' -> parse_piece_blank (k' ++ 61 :: v') = [(k, v)] /\ (forall c, c = 38 \/ c = 35 \/ c = 63 -> ~ In c (k' ++ 61 :: v')).
Proof.
  intros Hk Hv. apply plain_iff in Hk, Hv. pose proof (quote_plus_chars _ _ _ Hk) as Ck. pose proof (quote_plus_chars _ _ _ Hv) as Cv. split.
  - unfold parse_piece_blank. destruct (k' ++ 61 :: v') as [|c0 r0] eqn:E; [destruct k'; discriminate|]. rewrite <- E. rewrite split1_app by (apply quoted_no_sep; auto).
    rewrite (unquote_quote_plus _ _ Hk), (unquote_quote_plus _ _ Hv). reflexivity.
  - intros c Hc Hin. apply in_app_iff in Hin as [Hin|[Hin|Hin]]; [eapply quoted_no_sep in Hin; eauto; tauto|subst; intuition discriminate|eapply quoted_no_sep in Hin; eauto; tauto].
Qed.
Lemma query_blank items q : SpecUrl.query_text items q -> flat_map parse_piece_blank (split_on 38 q) = items /\ ~ In 35 q.
Proof.
  induction 1 as [|k k' v v' Hk Hv|k k' v v' i r t Hk Hv Ht [IH1 IH2]].
  - split; [reflexivity|intros []].
  - destruct (pair_blank _ _ _ _ Hk Hv) as [H1 H2]. split; [|apply H2; auto]. rewrite split_on_none by (apply H2; auto). cbn [flat_map]. rewrite H1. reflexivity.
  - destruct (pair_blank _ _ _ _ Hk Hv) as [H1 H2]. replace (k' ++ 61 :: v' ++ 38 :: t) with ((k' ++ 61 :: v') ++ 38 :: t) by (rewrite <- app_assoc; reflexivity). split.
    + rewrite split_on_app by (apply H2; auto). cbn [flat_map]. rewrite H1, IH1. reflexivity.
    + intros Hin. apply in_app_iff in Hin as [Hin|[Hin|Hin]]; [exact (H2 35 ltac:(auto) Hin)|discriminate|auto].
Qed.
Lemma param_is url name r : param_of url name r -> query_param url name = r.
Proof.
  intros [Hq|u items q -> H1 H2 Hq].
  - unfold query_param, url_query. rewrite (proj2 (split1_none 63 (url_nofrag url))); [reflexivity|]. intros Hi. apply Hq. unfold url_nofrag in Hi.
    destruct (split1 35 url) as [[a0 b0]|] eqn:Es; [|auto]. apply split1_some in Es as [-> _]. apply in_app_iff. auto.
  - destruct (query_blank _ _ Hq) as [Hi Hn]. unfold query_param, url_query, url_nofrag.
    rewrite (proj2 (split1_none 35 (u ++ 63 :: q))) by (intros Hin; apply in_app_iff in Hin as [Hin|[Hin|Hin]]; [auto|discriminate|auto]).
    rewrite split1_app by auto. rewrite Hi. reflexivity.
Qed.
Lemma next_is w : next_of w (match query_param (wb_url w) (lit "next") with Some (c :: n) => c :: n | _ => home_url w end).
Proof. intros r Hr. apply param_is in Hr. change chars with lit in *. rewrite Hr. destruct r as [[|c n]|]; reflexivity. Qed.
Theorem c143 E p hs w tr x t t' : aexec (application E p hs LoginPage w) tr x -> app_steps C aware t tr t' -> ano_raise tr -> wb_method w = chars "POST" -> stranger t w ->
  (~ good_form (wb_form w) -> x = V (RPage (chars "login.j2") None) /\ t' = t) /\
  (good_form (wb_form w) -> (forall a, ~ identifies t w a) -> x = V (RPage (chars "login.j2") (Some (chars "Invalid Credentials."))) /\ t' = t) /\
  (forall a, good_form (wb_form w) -> identifies t w a ->
     exists url sid, leads x url (Some (a_id a, sid)) /\ next_of w url /\ In (sid, a_id a) (tb_sessions t')).
Proof.
  intros H Hs Hr Hm Hst. destruct (visitor _ _ _ _ _ _ _ _ _ H Hs Hr) as [[Ho _]|(u & s & H1 & H2 & H3 & [[-> _]|[_ Hl]])]; [destruct (stranger_not _ _ Hst); contradiction| |destruct (stranger_not _ _ Hst); contradiction].
  clear H Hs Hr tr. assert (Hg : is_get w = false) by (unfold is_get; rewrite Hm; reflexivity). assert (Hp : is_post w = true) by (unfold is_post; rewrite Hm; reflexivity).
  cbn [view] in H1. rewrite Hg, Hp in H1. unfold login_post in H1. cbv zeta in H1. pose proof (good_iff (wb_form w)) as Hgood. destruct (form_ok (wb_form w)); cbn [negb] in H1.
  2:{ apply aexec_ARet in H1 as [-> ->]. inversion H2; subst. split; [auto|]. split; [intros G|intros a G]; apply Hgood in G; discriminate. }
  split; [intros Hn; destruct Hn; apply Hgood; reflexivity|].
  apply (call_own (FindAccount _)) with (t := t) (t' := t') in H1; [|reflexivity|auto|auto]. destruct H1 as (ch & o & t1 & s1 & Hd & H1 & Hr1 & Hs1).
  cbn [app_do] in Hd. injection Hd as Ho <-. destruct o as [a|].
  - apply account_iff in Ho. destruct (eqs_spec (a_password a) (lf_password (wb_form w))) as [Ep|Ep]; cbn [negb] in H1.
    + split; [intros _ Hn; destruct (Hn a); split; auto|]. intros b _ [Hb _]. assert (b = a) by (apply account_iff in Hb; apply account_iff in Ho; congruence). subst b. clear Hb.
      apply (call_own (UserSession _)) with (t := t) (t' := t') in H1; [|reflexivity|auto|auto]. destruct H1 as (ch2 & so & t2 & s2 & Hd & H1 & Hr2 & Hs2).
      cbn [app_do] in Hd. injection Hd as Hso <-. eexists. destruct so as [sid|].
      * unfold abind in H1. cbn [atry aret] in H1. apply leads_redirect in H1 as [H1 ->]. exists sid. split; [exact H1|]. split; [apply next_is|]. inversion Hs2; subst.
        destruct (find _ _) as [[a' b']|] eqn:Ef in Hso; [|discriminate]. injection Hso as <-. apply find_some in Ef as [F1 F2]. apply eqs_true in F2. cbn [snd] in F2. subst. exact F1.
      * apply aexec_abind in H1 as [(sid & s3 & s4 & -> & H1 & H4)|(e & -> & H1)].
        -- apply ano_raise_app in Hr2 as [Hr3 Hr4]. apply app_steps_app in Hs2 as (t3 & Hs3 & Hs4). apply leads_redirect in H4 as [H4 ->]. exists sid. split; [exact H4|]. split; [apply next_is|]. inversion Hs4; subst.
           apply (call_own SessionToken) with (t := t) (t' := t') in H1; [|reflexivity|auto|auto]. destruct H1 as (ch3 & tk & t4 & s5 & Hd & H1 & Hr5 & Hs5). cbn [app_do] in Hd. injection Hd as Htk <-.
           apply (call_own (NewSession _ _)) with (t := t) (t' := t') in H1; [|reflexivity|auto|auto]. destruct H1 as (ch4 & [] & t6 & s6 & Hd & H1 & _ & Hs6).
           apply aexec_ARet in H1 as [-> [= <-]]. inversion Hs6; subst. cbn [app_do] in Hd. destruct (existsb _ _) in Hd; [discriminate|]. injection Hd as <-. left. reflexivity.
        -- exfalso. apply (call_own SessionToken) with (t := t) (t' := t') in H1; [|reflexivity|auto|auto]. destruct H1 as (ch3 & tk & t4 & s5 & Hd & H1 & Hr5 & Hs5).
           apply (call_own (NewSession _ _)) with (t := t4) (t' := t') in H1; [|reflexivity|auto|auto]. destruct H1 as (ch4 & [] & t6 & s6 & _ & H1 & _). apply aexec_ARet in H1 as [_ H1]. discriminate.
    + apply aexec_ARet in H1 as [-> ->]. inversion Hs1; subst. split; [auto|]. intros b _ [Hb Hpw]. assert (b = a) by (apply account_iff in Hb; apply account_iff in Ho; congruence). subst b. contradiction.
  - apply aexec_ARet in H1 as [-> ->]. inversion Hs1; subst. split; [auto|]. intros b _ [Hb _]. apply account_iff in Hb. congruence.
Qed.

(** ** C144 *)
Lemma gets w : is_get w = true <-> wb_method w = chars "GET" \/ wb_method w = chars "HEAD".
Proof. unfold is_get. rewrite orb_true_iff, !eqs_true. reflexivity. Qed.
Lemma posts w : is_post w = true <-> wb_method w = chars "POST".
Proof. unfold is_post. rewrite eqs_true. reflexivity. Qed.
Lemma offers_iff g w : In (wb_method w) (offers g) <-> match g with Home | AuthorizePage | ErrorPage => is_get w = true | LoginPage | LogoutPage => is_get w = true \/ is_post w = true | RevokePage | TokenPage => is_post w = true end.
Proof. destruct g; rewrite ?gets, ?posts; cbn [offers In]; intuition congruence. Qed.
Lemma not_both w : is_get w = true -> is_post w = true -> False.
Proof. rewrite gets, posts. intros [->| ->]; discriminate. Qed.
(** Replies other than a status *)
Definition replies (x : res reply) : Prop := forall n, x <> V (RStatus n).
Lemma leads_replies x u c : leads x u c -> replies x.
Proof. intros [(l & _ & ->)|[_ ->]] n; discriminate. Qed.
Lemma lib_replies A (q : prog A) (f : A -> option response) tr x : aexec (ado a <- library q ;; create_response (f a)) tr x -> replies x.
Proof. intros Hx n ->. apply aexec_abind in Hx as [(a & s1 & s2 & -> & _ & Hx)|(e & [=] & _)]. destruct (f a); apply aexec_ARet in Hx as [_ Hx]; discriminate. Qed.
Lemma req_replies A (f : request -> prog A) (k : A -> option response) w u tr x : aexec (ado r <- create_request w u ;; ado a <- library (f r) ;; create_response (k a)) tr x -> replies x.
Proof. intros Hx. apply aexec_abind in Hx as [(a & s1 & s2 & -> & _ & Hx)|(e & -> & _)]; [eapply lib_replies; exact Hx|]. intros n. discriminate. Qed.
Lemma offered_replies E p hs g w u tr x : aexec (view E p hs g w u) tr x -> In (wb_method w) (offers g) -> replies x.
Proof.
  intros H Ho. apply offers_iff in Ho. destruct g; cbn [view] in H.
  - rewrite Ho in H. apply aexec_ARet in H as [_ ->]. intros n. discriminate.
  - destruct (is_get w).
    { unfold login_get in H. destruct u; [apply leads_redirect in H as [H _]; eapply leads_replies; eauto|apply aexec_ARet in H as [_ ->]; intros n; discriminate]. }
    destruct Ho as [|Ho]; [discriminate|]. rewrite Ho in H. unfold login_post in H. destruct u; [apply leads_redirect in H as [H _]; eapply leads_replies; eauto|]. cbv zeta in H.
    destruct (negb _); [apply aexec_ARet in H as [_ ->]; intros n; discriminate|].
    apply aexec_abind in H as [(a & s1 & s2 & -> & _ & H)|(e & -> & _)]; [|intros n; discriminate]. destruct a as [a|]; [|apply aexec_ARet in H as [_ ->]; intros n; discriminate].
    destruct (negb _); [apply aexec_ARet in H as [_ ->]; intros n; discriminate|].
    apply aexec_abind in H as [(s & s3 & s4 & -> & _ & H)|(e & -> & _)]; [|intros n; discriminate]. apply aexec_abind in H as [(s' & s5 & s6 & -> & _ & H)|(e & -> & _)]; [|intros n; discriminate].
    apply leads_redirect in H as [H _]. eapply leads_replies; eauto.
  - destruct (is_get w).
    { unfold logout_get in H. destruct u; [|apply leads_redirect in H as [H _]; eapply leads_replies; eauto]. destruct (wb_cookie w) as [[? ?]|]; [|apply aexec_ARet in H as [_ ->]; intros n; discriminate].
      apply aexec_atry in H as (y & s1 & s2 & -> & _ & H). apply aexec_atry in H as (z & s3 & s4 & -> & _ & H).
      destruct y as [[]|]; [destruct z as [[]|]|]; try (apply aexec_ARet in H as [_ ->]; intros n; discriminate). apply leads_redirect in H as [H _]. eapply leads_replies; eauto. }
    destruct Ho as [|Ho]; [discriminate|]. rewrite Ho in H. apply leads_redirect in H as [H _]. eapply leads_replies; eauto.
  - rewrite Ho in H. unfold authorize_get in H. destruct u.
    + exact (req_replies _ _ (fun x => Some x) _ _ _ _ H).
    + apply aexec_abind in H as [(r & s1 & s2 & -> & _ & H)|(e & -> & _)]; [|intros n; discriminate]. apply leads_redirect in H as [H _]. eapply leads_replies; eauto.
  - rewrite Ho in H. apply aexec_ARet in H as [_ ->]. intros n. discriminate.
  - rewrite Ho in H. exact (req_replies _ _ (fun x => x) _ _ _ _ H).
  - rewrite Ho in H. exact (req_replies _ _ (fun x => Some x) _ _ _ _ H).
Qed.
Lemma not_offered E p hs g w u tr x : aexec (view E p hs g w u) tr x -> ~ In (wb_method w) (offers g) -> x = V (RStatus 405) /\ tr = [].
Proof.
  intros H Ho. rewrite offers_iff in Ho. destruct g; cbn [view] in H;
  repeat match type of H with context [if ?b then _ else _] => destruct b; [exfalso; apply Ho; auto|] end; apply aexec_ARet in H as [-> ->]; auto.
Qed.
Theorem c144_status E p hs g w tr x t t' : aexec (application E p hs g w) tr x -> app_steps C aware t tr t' -> ano_raise tr ->
  (x = V (RStatus 400) <-> orphan t w) /\ (x = V (RStatus 405) <-> ~ orphan t w /\ ~ In (wb_method w) (offers g)) /\
  (orphan t w \/ ~ In (wb_method w) (offers g) -> t' = t).
Proof.
  intros H Hs Hr. destruct (visitor _ _ _ _ _ _ _ _ _ H Hs Hr) as [(Ho & -> & ->)|(u & s & H1 & H2 & H3 & Hu)].
  - split; [tauto|]. split; [split; [discriminate|tauto]|auto].
  - assert (Hn : ~ orphan t w) by (destruct Hu as [[_ Hu]|[_ Hu]]; [apply stranger_not, Hu|apply logged_not, Hu]).
    destruct (in_dec (list_eq_dec N.eq_dec) (wb_method w) (offers g)) as [Hi|Hi].
    + pose proof (offered_replies _ _ _ _ _ _ _ _ H1 Hi) as Hx. split; [split; [intros Hz; destruct (Hx _ Hz)|tauto]|]. split; [split; [intros Hz; destruct (Hx _ Hz)|tauto]|tauto].
    + apply not_offered in H1 as [-> ->]; [|auto]. inversion H2; subst. split; [split; [discriminate|tauto]|]. split; [tauto|auto].
Qed.
Theorem c144_pages E p hs g w tr x t t' : aexec (application E p hs g w) tr x -> app_steps C aware t tr t' -> ano_raise tr -> ~ orphan t w -> In (wb_method w) (offers g) ->
  match g with
  | Home => x = V (RPage (chars "index.j2") None) /\ t' = t
  | LoginPage => (wb_method w <> chars "POST" -> stranger t w -> x = V (RPage (chars "login.j2") None) /\ t' = t) /\ (logged_in t w -> leads x (wb_base w ++ chars "/") None /\ t' = t)
  | LogoutPage => (wb_method w = chars "POST" -> leads x (wb_base w ++ chars "/auth/logout") None /\ t' = t) /\
                  (wb_method w <> chars "POST" -> leads x (wb_base w ++ chars "/auth/login") None /\ (stranger t w -> t' = t))
  | ErrorPage => t' = t /\ exists m, x = V (RPage (chars "error.j2") m) /\ forall r, param_of (wb_url w) (chars "error_description") r -> m = r
  | _ => True
  end.
Proof.
  intros H Hs Hr Hno Hi. destruct (visitor _ _ _ _ _ _ _ _ _ H Hs Hr) as [(Ho & _)|(u & s & H1 & H2 & H3 & Hu)]; [contradiction|].
  assert (Hp : wb_method w = chars "POST" <-> is_post w = true) by (rewrite posts; reflexivity).
  apply offers_iff in Hi. destruct g; cbn [view] in H1; auto.
  - rewrite Hi in H1. apply aexec_ARet in H1 as [-> ->]. inversion H2; subst. auto.
  - split.
    + intros Hm Hst. assert (Hg : is_get w = true) by (destruct Hi as [Hi|Hi]; [auto|destruct Hm; apply Hp, Hi]). rewrite Hg in H1. unfold login_get in H1.
      destruct Hu as [[-> _]|[_ Hu]]; [|destruct (stranger_not _ _ Hst); contradiction]. apply aexec_ARet in H1 as [-> ->]. inversion H2; subst. auto.
    + intros Hl. destruct Hu as [[_ Hu]|[Hu _]]; [destruct (stranger_not _ _ Hu); contradiction|]. destruct u; [|congruence].
      assert (H4 : aexec (redirect (home_url w) None) s x) by (destruct (is_get w); [exact H1|destruct Hi as [|Hi]; [discriminate|rewrite Hi in H1; exact H1]]).
      apply leads_redirect in H4 as [H4 ->]. inversion H2; subst. auto.
  - split.
    + intros Hm. apply Hp in Hm. destruct (is_get w) eqn:Eg; [destruct (not_both _ Eg Hm)|]. rewrite Hm in H1. apply leads_redirect in H1 as [H1 ->]. inversion H2; subst. auto.
    + intros Hm. assert (Hg : is_get w = true) by (destruct Hi as [Hi|Hi]; [auto|destruct Hm; apply Hp, Hi]). rewrite Hg in H1. unfold logout_get in H1. destruct u as [u|].
      * destruct Hu as [[Hu _]|[_ Hl]]; [discriminate|]. pose proof Hl as (uid & (sid & Hc & _) & _). rewrite Hc in H1.
        apply aexec_atry in H1 as (y & s1 & s2 & -> & Ha & H1). apply ano_raise_app in H3 as [Hn1 Hn]. apply acall_value in Ha as [[] ->]; [|auto].
        apply aexec_atry in H1 as (z & s3 & s4 & -> & Ha & H1). apply ano_raise_app in Hn as [Hn3 Hn]. apply acall_value in Ha as [[] ->]; [|auto]. apply leads_redirect in H1 as [H1 _].
        split; [exact H1|]. intros Hst. destruct (stranger_not _ _ Hst). contradiction.
      * apply leads_redirect in H1 as [H1 ->]. inversion H2; subst. auto.
  - rewrite Hi in H1. apply aexec_ARet in H1 as [-> ->]. inversion H2; subst. split; [auto|]. eexists. split; [reflexivity|]. intros r Hq. exact (param_is _ _ _ Hq).
Qed.
End Steps.
