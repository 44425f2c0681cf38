(** Which error is sent for which failure. *)
From Coq Require Import String Ascii List NArith ZArith Bool Arith Lia.
From Verif Require Import Base BaseFacts Utf8 Utf8Facts SpecCodec Json Url UrlFacts Webtools WebtoolsFacts Base64 Base64Facts Jwk Prog ProgFacts Http OAuth SpecOAuth SpecRfc SpecReaders ReaderFacts HeaderFacts
  OAuthFacts GrantFacts EndpointFacts RequestFacts AuthzFacts TokenFacts ResponseFacts IssueFacts SpecFlow SpecHistory RaiseFacts CompleteFacts RfcFacts LifeFacts FormFacts SpecError.
Import ListNotations.
Open Scope string_scope.
Open Scope list_scope.
Open Scope N_scope.

(** ** Tables *)
Definition result_is {A} (w : res A) (v : refusal) : Prop :=
  match w with V _ => v = None | X (OA e) => exists n t, v = Some (n, t) /\ error_code (oe_kind e) = lit n /\ t (oe_desc e) | X (Py _) => False end.
Lemma says_lit t : says t (Some (lit t)).
Proof. reflexivity. Qed.
Lemma d_fail {A} (P : Prop) (w : A) l ok (Q : A -> Prop) : ~ P -> Q w -> exists v, decided ((P, w) :: l) ok v /\ Q v.
Proof. intros H1 H2. exists w. split; [right; auto|auto]. Qed.
Lemma d_ok {A} (P : Prop) (w : A) l ok (Q : A -> Prop) : P -> (exists v, decided l ok v /\ Q v) -> exists v, decided ((P, w) :: l) ok v /\ Q v.
Proof. intros H1 (v & H2 & H3). exists v. split; [left; auto|auto]. Qed.
Lemma d_end {A} (ok : A) (Q : A -> Prop) : Q ok -> exists v, decided [] ok v /\ Q v.
Proof. intros H. exists ok. split; [reflexivity|auto]. Qed.

(** ** Authentication *)
Lemma creds_iff r name i s : In name (map fst auth_methods) -> ((exists h, method_creds name r = Ok (Some (i, s, h))) <-> sends_credentials r name i s).
Proof.
  unfold sends_credentials. cbn [auth_methods map fst]. intros Hin.
  destruct Hin as [<-|[<-|[<-|[]]]]; unfold method_creds.
  - rewrite eqs_refl. pose proof (basic_iff (rq_headers r)) as Hb. split.
    + intros (h & H). destruct (get_basic_authorization (rq_headers r)) as [[[[|a i'] [|b s']]|]|e] eqn:Eg; try discriminate. injection H as <- <- <-.
      split; [discriminate|]. left. split; [reflexivity|]. eexists. split; [reflexivity|]. split; [discriminate|]. apply Hb. reflexivity.
    + intros (Hi & [(_ & s' & -> & Hs & H)|[(H & _)|(H & _)]]); try discriminate H. apply Hb in H. rewrite H. destruct i; [congruence|]. destruct s'; [congruence|]. eauto.
  - replace (eqs (lit "client_secret_post") (lit "client_secret_basic")) with false by reflexivity. rewrite eqs_refl. split.
    + intros (h & H). destruct (arg "client_id" (form r)) as [i'|] eqn:E1; [|discriminate]. destruct (arg "client_secret" (form r)) as [s'|] eqn:E2; [|discriminate].
      injection H as <- <- <-. apply arg_Some in E1 as [E1 N1], E2 as [E2 N2]. split; [auto|]. right. left. split; [reflexivity|]. split; [exact E1|]. eexists. split; [reflexivity|]. split; auto.
    + intros (Hi & [(H & _)|[(_ & H1 & s' & -> & Hs & H2)|(H & _)]]); try discriminate H. rewrite (arg_has _ _ _ H1 Hi), (arg_has _ _ _ H2 Hs). eauto.
  - replace (eqs (lit "none") (lit "client_secret_basic")) with false by reflexivity. replace (eqs (lit "none") (lit "client_secret_post")) with false by reflexivity. split.
    + intros (h & H). destruct (arg "client_id" (form r)) as [i'|] eqn:E1; [|discriminate]. destruct (param "client_secret" (form r)) as [s'|] eqn:E2; [discriminate|].
      injection H as <- <- <-. apply arg_Some in E1 as [E1 N1]. split; [auto|]. right. right. split; [reflexivity|]. split; [exact E1|]. split; [reflexivity|exact E2].
    + intros (Hi & [(H & _)|[(H & _)|(_ & H1 & -> & H2)]]); try discriminate H. rewrite (arg_has _ _ _ H1 Hi). unfold form_lacks in H2. unfold param. rewrite H2. eauto.
Qed.
Lemma sends_name r name i s : sends_credentials r name i s -> In name (map fst auth_methods).
Proof. intros (_ & [(-> & _)|[(-> & _)|(-> & _)]]); cbn [auth_methods map fst In]; auto. Qed.
Lemma creds_none r name : In name (map fst auth_methods) -> method_creds name r = Ok None -> forall i s, ~ sends_credentials r name i s.
Proof. intros Hin Hc i s H. apply creds_iff in H as (h & H); [|auto]. congruence. Qed.

Definition allowedb (methods : list str) (name : str) : bool := match methods with [] => true | _ => ins name methods end.
Lemma allowedb_iff methods name : allowedb methods name = true <-> allowed_method methods name.
Proof. unfold allowedb, allowed_method. destruct methods; [split; auto|]. rewrite ins_In. split; [auto|]. intros [H|H]; [discriminate|auto]. Qed.
(** One method, with what its errors say *)
Definition refuses (d : str) (headers : pdict) : res (option client) := X (oerr InvalidClient (Some d) None headers).
Definition method_text (name : str) : str := lit "This Client is not allowed to use the method """ ++ name ++ lit """.".
Definition auth_words (i : str) (s : option str) (name : str) (headers : pdict) (tr : list obs) (x : res (option client)) : Prop :=
  exists oc, tr = [OFindClient i oc] /\
    match oc with
    | X e => x = X e
    | V None => x = refuses (lit "Client not found.") headers
    | V (Some c) => x = if negb (eqo (cl_secret c) s) then refuses (lit "Mismatching Client Secret.") headers else if negb (eqs (cl_auth_method c) name) then refuses (method_text name) headers else V (Some c)
    end.
Lemma find_words i s m headers tr x :
  exec (do oc <- call (FindClient i) ;;
      match oc with
      | None => throw (oerr InvalidClient (Some (lit "Client not found.")) None headers)
      | Some c =>
          if negb (eqo (cl_secret c) s) then throw (oerr InvalidClient (Some (lit "Mismatching Client Secret.")) None headers)
          else if negb (eqs (cl_auth_method c) m) then throw (oerr InvalidClient (Some (method_text m)) None headers)
          else ret (Some c)
      end) tr x ->
  auth_words i s m headers tr x.
Proof.
  intros H. apply exec_pbind in H as [(oc & t1 & t2 & -> & H1 & H)|(e & -> & H1)]; apply exec_call in H1 as ->; cbn [observe].
  - exists (V oc). destruct oc as [c|].
    + destruct (eqo (cl_secret c) s), (eqs (cl_auth_method c) m); simpl in H |- *; apply exec_Ret in H as [-> ->]; split; reflexivity.
    + apply exec_Ret in H as [-> ->]. split; reflexivity.
  - exists (X e). auto.
Qed.
Lemma method_words name m r tr x : In (name, m) auth_methods ->
  exec (m r) tr x ->
  match method_creds name r with
  | Err e => tr = [] /\ x = X (Py e)
  | Ok None => tr = [] /\ x = V None
  | Ok (Some (i, s, headers)) => auth_words i s name headers tr x
  end.
Proof.
  unfold auth_methods. intros Hin H. simpl in Hin.
  destruct Hin as [Hin | [Hin | [Hin | []]]]; injection Hin as <- <-.
  - unfold method_creds. rewrite eqs_refl. unfold auth_basic in H.
    apply exec_pbind in H as [(o & t1 & t2 & -> & H1 & H)|(e' & -> & H1)]; apply exec_Ret in H1 as [-> E2]; symmetry in E2.
    + apply lift_V in E2. rewrite E2. destruct o as [[[|a i] [|b s]]|]; try (apply exec_Ret in H as [-> ->]; auto; fail).
      apply (find_words _ _ (lit "client_secret_basic")) in H. exact H.
    + apply lift_X in E2 as (e & -> & E2). rewrite E2. auto.
  - unfold method_creds. replace (eqs (lit "client_secret_post") (lit "client_secret_basic")) with false by reflexivity.
    rewrite eqs_refl. unfold auth_post in H.
    destruct (arg "client_id" (form r)) as [i|]; [|xinv; auto].
    destruct (arg "client_secret" (form r)) as [s|]; [|xinv; auto].
    apply (find_words _ _ (lit "client_secret_post")) in H. exact H.
  - unfold method_creds. replace (eqs (lit "none") (lit "client_secret_basic")) with false by reflexivity.
    replace (eqs (lit "none") (lit "client_secret_post")) with false by reflexivity. unfold auth_none in H.
    destruct (arg "client_id" (form r)) as [i|]; [|xinv; auto].
    destruct (param "client_secret" (form r)) as [s|]; [xinv; auto|].
    apply (find_words _ _ (lit "none")) in H. exact H.
Qed.
(** The outcome of an authentication *)
Definition auth_result (r : request) (methods : list str) (tr : list obs) (x : res client) : Prop :=
  (exists c name i s, x = V c /\ tr = [OFindClient i (V (Some c))] /\ uses r methods name i s /\ cl_secret c = s /\ cl_auth_method c = name) \/
  (exists e, x = X (OA e) /\ oe_kind e = InvalidClient /\
     forall A (f : wording -> A) rest ok, exists w, decided (credential_checks f r tr methods ++ rest) ok (f w) /\ w (oe_desc e)).
Lemma credentials_hold {A} (f : wording -> A) r tr methods rest ok (Q : A -> Prop) c : proved r methods tr c ->
  (exists v, decided rest ok v /\ Q v) -> exists v, decided (credential_checks f r tr methods ++ rest) ok v /\ Q v.
Proof.
  intros Hc H. pose proof Hc as (name & i & s & Hu & Hi & Hs & Hm). unfold credential_checks. cbn [app].
  apply d_ok; [exists name, i, s; auto|]. apply d_ok; [exists name, i, s; eauto|]. apply d_ok; [exists name, i, s; eauto|]. apply d_ok; [eauto|exact H].
Qed.
Lemma uses_inj r methods name i s name' i' s' : uses r methods name i s -> uses r methods name' i' s' -> name = name' /\ i = i' /\ s = s'.
Proof.
  intros (H1 & H2 & H3) (H1' & H2' & H3').
  assert (En : name = name').
  { pose proof (sends_name _ _ _ _ H1) as I1. pose proof (sends_name _ _ _ _ H1') as I2. cbn [auth_methods map fst In] in I1, I2.
    assert (Hb : name = name' \/ tried_before name name' \/ tried_before name' name).
    { unfold tried_before. rewrite !chars_lit. clear - I1 I2. destruct I1 as [<-|[<-|[<-|[]]]]; destruct I2 as [<-|[<-|[<-|[]]]]; tauto. }
    destruct Hb as [Hb|[Hb|Hb]]; [auto| |]; exfalso; [eapply H3'|eapply H3]; eauto. }
  subst name'. split; [reflexivity|]. pose proof (sends_name _ _ _ _ H1) as I1. apply creds_iff in H1 as [h H1]; [|auto]. apply creds_iff in H1' as [h' H1']; [|auto].
  rewrite H1 in H1'. injection H1' as -> -> _. auto.
Qed.
Lemma not_proved r methods tr name i s : uses r methods name i s -> (forall c, In (OFindClient i (V (Some c))) tr -> cl_secret c = s -> cl_auth_method c <> name) -> forall c, ~ proved r methods tr c.
Proof. intros Hu Hn c (name' & i' & s' & Hu' & Hin & Hs & Hm). destruct (uses_inj _ _ _ _ _ _ _ _ Hu Hu') as (-> & -> & ->). eapply Hn; eauto. Qed.
Lemma auth_decides r methods tr x : exec (authenticate r methods) tr x -> no_oauth_raise tr -> (forall e, x <> X (Py e)) -> auth_result r methods tr x.
Proof.
  intros H Hn Hp. unfold authenticate in H.
  assert (Hgo : forall l, (exists l0, auth_methods = l0 ++ l /\ forall name m, In (name, m) l0 -> allowed_method methods name -> forall i s, ~ sends_credentials r name i s) ->
    (forall l0 name m l1, auth_methods = l0 ++ (name, m) :: l1 -> forall name', tried_before name' name -> exists m', In (name', m') l0) ->
    exec (authenticate_loop l methods r) tr x -> auth_result r methods tr x).
  2:{ apply (Hgo auth_methods); [exists []; split; [reflexivity|intros ? ? []]| |exact H].
      intros l0 name m l1 Hl name' Hb. unfold tried_before in Hb. rewrite !chars_lit in Hb. unfold auth_methods in Hl.
      destruct l0 as [|a l0]; [injection Hl as <- _ _; destruct Hb as [[_ [Hb|Hb]]|[_ Hb]]; discriminate|]. injection Hl as <- Hl.
      destruct l0 as [|b l0]; [injection Hl as <- _ _; destruct Hb as [[-> _]|[_ Hb]]; [eexists; left; reflexivity|discriminate]|]. injection Hl as <- Hl.
      destruct l0 as [|d l0]; [destruct Hb as [[-> _]|[-> _]]; eexists; [left|right; left]; reflexivity|]. injection Hl as <- Hl. destruct l0; discriminate. }
  clear H. intros l Hl Hbefore. revert Hl. induction l as [|[name m] l IH]; intros (l0 & El & Hl0) H; cbn [authenticate_loop] in H.
  - apply exec_Ret in H as [-> ->]. right. eexists. split; [reflexivity|]. split; [reflexivity|]. intros A f rest ok. exists nothing. split; [|reflexivity].
    unfold credential_checks. right. split; [|reflexivity]. intros (name & i & s & ((Hs & Ha & _) & _)).
    rewrite app_nil_r in El. pose proof (sends_name _ _ _ _ Hs) as Hin. apply in_map_iff in Hin as ([name' m] & <- & Hin). rewrite El in Hin. eapply Hl0; [exact Hin|exact Ha|exact Hs].
  - assert (Hnm : In (name, m) auth_methods) by (rewrite El; apply in_app_iff; right; left; reflexivity).
    assert (Hin : In name (map fst auth_methods)) by (change name with (fst (name, m)); apply in_map; auto).
    assert (Hskip : (allowed_method methods name -> forall i s, ~ sends_credentials r name i s) -> exec (authenticate_loop l methods r) tr x -> auth_result r methods tr x).
    { intros Hno. apply IH. exists (l0 ++ [(name, m)]). split; [rewrite <- app_assoc; exact El|]. intros name' m' Hi Ha. apply in_app_iff in Hi as [Hi|[Hi|[]]]; [eapply Hl0; eauto|].
      injection Hi as <- <-. apply Hno; auto. }
    change ((match methods with [] => false | _ => true end) && negb (ins name methods))%bool with ((match methods with [] => false | _ => true end) && negb (ins name methods))%bool in H.
    destruct (allowedb methods name) eqn:Eal.
    2:{ replace ((match methods with [] => false | _ => true end) && negb (ins name methods))%bool with true in H by (unfold allowedb in Eal; destruct methods; [discriminate|rewrite Eal; reflexivity]).
        apply Hskip; [|exact H]. intros Ha. apply allowedb_iff in Ha. congruence. }
    replace ((match methods with [] => false | _ => true end) && negb (ins name methods))%bool with false in H by (unfold allowedb in Eal; destruct methods; [reflexivity|rewrite Eal; reflexivity]).
    apply allowedb_iff in Eal.
    assert (Huse : forall i s h, method_creds name r = Ok (Some (i, s, h)) -> uses r methods name i s).
    { intros i s h Hc. split; [apply creds_iff; eauto|]. split; [exact Eal|]. intros name' i' s' Hb Ha'. destruct (Hbefore _ _ _ _ El _ Hb) as (m' & Hi). eapply Hl0; eauto. }
    apply exec_pbind in H as [(oc & t1 & t2 & -> & H1 & H)|(e & -> & H1)]; apply (method_words name m r _ _ Hnm) in H1; destruct (method_creds name r) as [[[[i s] h]|]|e'] eqn:Ec.
    + destruct H1 as (oc' & -> & H1). destruct oc' as [[c|]|e]; [|discriminate|discriminate].
      destruct (eqo (cl_secret c) s) eqn:Eo1; [|discriminate]. destruct (eqs (cl_auth_method c) name) eqn:Eo2; [|discriminate]. cbn [negb] in H1. injection H1 as ->. apply exec_Ret in H as [-> ->].
      apply eqo_true in Eo1. apply eqs_true in Eo2. left. exists c, name, i, s. split; [reflexivity|]. split; [reflexivity|]. split; [eapply Huse; reflexivity|]. auto.
    + destruct H1 as [-> H1]. injection H1 as ->. cbn [app] in *. apply Hskip; [|exact H]. intros _. apply creds_none; auto.
    + destruct H1; discriminate.
    + destruct H1 as (oc' & -> & H1). pose proof (Huse i s h eq_refl) as Hu.
      assert (Honly : forall P name' i' s', uses r methods name' i' s' -> P name' i' s' -> P name i s).
      { intros P name' i' s' Hu' HP. destruct (uses_inj _ _ _ _ _ _ _ _ Hu Hu') as (-> & -> & ->). exact HP. }
      destruct oc' as [[c|]|e0].
      * right. destruct (eqo (cl_secret c) s) eqn:Eo1; cbn [negb] in H1.
        -- destruct (eqs (cl_auth_method c) name) eqn:Eo2; cbn [negb] in H1; [discriminate|]. injection H1 as ->. eexists. split; [reflexivity|]. split; [reflexivity|]. intros A f rest ok.
           apply eqo_true in Eo1. eexists. split.
           ++ unfold credential_checks. cbn [app]. left. split; [exists name, i, s; auto|]. left. split; [exists name, i, s; split; [auto|]; exists c; left; reflexivity|].
              left. split; [exists name, i, s; split; [auto|]; exists c; split; [left; reflexivity|auto]|]. right. split; [|reflexivity].
              intros (c' & Hc'). revert c' Hc'. eapply not_proved; [exact Hu|]. intros c' [Hi|[]] Hs Hm. injection Hi as ->. apply eqs_true in Hm. congruence.
           ++ exists name. split; [exists name, i, s; auto|]. reflexivity.
        -- injection H1 as ->. eexists. split; [reflexivity|]. split; [reflexivity|]. intros A f rest ok. eexists. split.
           ++ unfold credential_checks. cbn [app]. left. split; [exists name, i, s; auto|]. left. split; [exists name, i, s; split; [auto|]; exists c; left; reflexivity|].
              right. split; [|reflexivity]. intros (name' & i' & s' & Hu' & HP). apply (Honly (fun name i s => exists c0, In (OFindClient i (V (Some c0))) [OFindClient i (V (Some c))] /\ cl_secret c0 = s) name' i' s') in Hu'.
              ** destruct Hu' as (c' & [Hi|[]] & Hs). injection Hi as ->. apply eqo_true in Hs. congruence.
              ** destruct (uses_inj _ _ _ _ _ _ _ _ Hu Hu') as (-> & -> & ->). exact HP.
           ++ apply says_lit.
      * right. injection H1 as ->. eexists. split; [reflexivity|]. split; [reflexivity|]. intros A f rest ok. eexists. split.
        ++ unfold credential_checks. cbn [app]. left. split; [exists name, i, s; auto|]. right. split; [|reflexivity]. intros (name' & i' & s' & Hu' & c' & [Hi|[]]). discriminate.
        ++ apply says_lit.
      * injection H1 as <-. destruct e as [e|e]; [exfalso; eapply oa_raise; [exact Hn|left; reflexivity|reflexivity]|exfalso; eapply Hp; reflexivity].
    + destruct H1; discriminate.
    + destruct H1 as [_ H1]. injection H1 as ->. exfalso. eapply Hp. reflexivity.
Qed.

(** ** Token endpoint *)
Lemma dump_tells e n (w : wording) : error_code (oe_kind e) = lit n -> w (oe_desc e) -> tells (dump e) n w.
Proof.
  intros Hc Hw. unfold tells. change chars with lit. rewrite <- Hc. split; [unfold dump; destruct (oe_desc e), (oe_uri e), (oe_state e); reflexivity|].
  exists (oe_desc e). split; [exact Hw|]. unfold dump. destruct (oe_desc e), (oe_uri e), (oe_state e); reflexivity.
Qed.
Lemma error_verdict e z n (w : wording) : token_error e = V z -> error_code (oe_kind e) = lit n -> w (oe_desc e) -> token_verdict z (Some (n, w)).
Proof.
  intros H Hc Hw. unfold token_error in H. apply json_response_V in H as (H1 & H2 & _); [|apply dump_wf]. split; [auto|]. exists (dump e). split; [auto|]. apply dump_tells; auto.
Qed.
Lemma supplied_iff r k : supplied r k <-> exists v, arg k (rq_data r) = Some v.
Proof. unfold supplied, data_has. split; intros (v & H); exists v; apply arg_Some; auto. Qed.
Lemma not_supplied r k : arg k (rq_data r) = None -> ~ supplied r k.
Proof. intros H Hs. apply supplied_iff in Hs as (v & Hs). congruence. Qed.
Lemma asked_iff r l : asked r l <-> cc_scopes (rq_data r) = Some l.
Proof.
  unfold asked, cc_scopes. split.
  - intros (s & Hd & Hs & Hw). unfold data_has in Hd. replace (arg "scope" (rq_data r)) with (Some s) by (symmetry; apply arg_Some; auto). f_equal. apply words_iff. auto.
  - destruct (arg "scope" (rq_data r)) as [s|] eqn:Ea; [|discriminate]. intros [= <-]. apply arg_Some in Ea as [H1 H2]. exists s. split; [exact H1|]. split; [auto|]. apply words_iff. reflexivity.
Qed.
Lemma proved_here r methods t c name i s : uses r methods name i s -> cl_secret c = s -> cl_auth_method c = name -> proved r methods (OFindClient i (V (Some c)) :: t) c.
Proof. intros Hu Hs Hm. exists name, i, s. split; [auto|]. split; [left; reflexivity|auto]. Qed.
Definition no_find (t : list obs) : Prop := forall i y, ~ In (OFindClient i y) t.
Lemma proved_only r methods t c c' name i s : uses r methods name i s -> no_find t -> proved r methods (OFindClient i (V (Some c)) :: t) c' -> c' = c.
Proof. intros Hu Hn (name' & i' & s' & Hu' & [Hi|Hi] & _); [congruence|]. exfalso. eapply Hn; eauto. Qed.

Lemma refused_lit {A} k t st h (n : string) : error_code k = lit n -> result_is (X (oerr k (Some (lit t)) st h) : res A) (Some (n, says t)).
Proof. intros H. exists n, (says t). split; [reflexivity|]. split; [exact H|reflexivity]. Qed.
Lemma refused_none {A} k st h (n : string) : error_code k = lit n -> result_is (X (oerr k None st h) : res A) (Some (n, nothing)).
Proof. intros H. exists n, nothing. split; [reflexivity|]. split; [exact H|reflexivity]. Qed.
Section WithEnv.
Variable E : env.
Lemma verdict p hs r tr z (checks : list (Prop * refusal)) : exec (token_endpoint E p hs r) tr (V z) -> no_oauth_raise tr ->
  (forall y, exec (token_body E p hs r) tr y -> (forall e, y <> X (Py e)) -> exists v, decided checks None v /\ result_is y v) ->
  exists v, decided checks None v /\ token_verdict z v.
Proof.
  intros H Hn Hgo. apply token_exec in H as (y & H & Hz). destruct (Hgo y H) as (v & Hv & Hr).
  - intros e ->. discriminate.
  - exists v. split; [auto|]. destruct y as [q|[e|e]]; cbn [result_is] in Hr; [|destruct Hr as (n & t & -> & Hc & Ht); eapply error_verdict; eauto|destruct Hr].
    injection Hz as <-. subst v. cbn [token_verdict]. clear - H. apply token_body_exec in H. inversion H as [| | |g i c t y Hg Hd Ha Hal Hin Hex Et Ey]; subst.
    destruct y as [d|e]; [|discriminate]. unfold JSONResponse in Ey. apply vbind_V in Ey as (b & _ & Ey). injection Ey as <-. reflexivity.
Qed.
Lemma p_type_checks p hs r tr z : exec (token_endpoint E p hs r) tr (V z) -> no_oauth_raise tr -> (forall g, In g (pv_grants p) -> ~ data_has r "grant_type" (grant_type g)) ->
  exists v, decided (type_checks p r) None v /\ token_verdict z v.
Proof.
  intros H Hn Hg. eapply verdict; [exact H|exact Hn|]. clear H. intros y H Hp. unfold type_checks. unfold token_body in H.
  apply exec_pbind in H as [([] & t1 & t2 & -> & H1 & H)|(e & -> & H1)]; apply exec_Ret in H1 as [-> H1]; cbn [app].
  2:{ destruct (rq_data r) eqn:Ed; [|discriminate]. injection H1 as ->. apply d_fail; [congruence|]. apply refused_lit. reflexivity. }
  apply d_ok; [destruct (rq_data r); discriminate|].
  apply exec_pbind in H as [(g & t3 & t4 & -> & H2 & H)|(e & -> & H2)]; apply exec_Ret in H2 as [-> H2]; cbn [app]; symmetry in H2.
  { apply validate_grant_type_V in H2 as [Hin Hgt]. exfalso. eapply Hg; [exact Hin|exact Hgt]. }
  unfold validate_grant_type, param in H2. destruct (lookup (lit "grant_type") (rq_data r)) as [[|a t]|] eqn:El.
  - injection H2 as <-. apply d_fail; [|apply refused_lit; reflexivity]. intros (v & Hd & Hv). unfold data_has in Hd. congruence.
  - apply d_ok; [exists (a :: t); split; [exact El|discriminate]|]. apply d_fail; [intros (g & Hi & Hd); eapply Hg; eauto|].
    destruct (find _ _); [discriminate|]. injection H2 as <-. exists "unsupported_grant_type". eexists. split; [reflexivity|]. split; [reflexivity|]. exists (a :: t). split; [exact El|reflexivity].
  - injection H2 as <-. apply d_fail; [|apply refused_lit; reflexivity]. intros (v & Hd & Hv). unfold data_has in Hd. congruence.
Qed.
Lemma enter p hs r tr y g gt rest : exec (token_body E p hs r) tr y -> no_oauth_raise tr -> (forall e, y <> X (Py e)) -> In g (pv_grants p) -> grant_type g = lit gt -> data_has r "grant_type" (lit gt) ->
  (forall c name i s t w, tr = OFindClient i (V (Some c)) :: t -> uses r (grant_methods g) name i s -> proved r (grant_methods g) tr c -> no_oauth_raise t -> (forall e, w <> X (Py e)) ->
     exec (grant_token E (pv_config p) hs g (dremove (lit "grant_type") (rq_data r)) c) t w -> exists v, decided rest None v /\ result_is w v) ->
  exists v, decided (client_checks r tr (grant_methods g) gt ++ rest) None v /\ result_is y v.
Proof.
  intros H Hn Hp Hg Egt Hd Hgo. unfold client_checks. cbn [app]. unfold token_body in H.
  apply exec_pbind in H as [([] & t1 & t2 & -> & H1 & H)|(e & -> & H1)]; apply exec_Ret in H1 as [-> H1]; cbn [app] in *.
  2:{ exfalso. unfold data_has in Hd. destruct (rq_data r); discriminate. }
  clear H1. apply exec_pbind in H as [(g' & t3 & t4 & -> & H2 & H)|(e & -> & H2)]; apply exec_Ret in H2 as [-> H2]; cbn [app] in *; symmetry in H2.
  2:{ exfalso. unfold validate_grant_type, param in H2. unfold data_has in Hd. rewrite Hd in H2. rewrite <- Egt in H2. destruct (grant_type g) as [|a t0] eqn:Eg; [destruct g; discriminate|].
      destruct (find (fun g0 => eqs (grant_type g0) (a :: t0)) (pv_grants p)) eqn:Ef; [discriminate|]. eapply find_none in Ef; [|exact Hg]. cbn beta in Ef. rewrite Eg, eqs_refl in Ef. discriminate. }
  apply validate_grant_type_V in H2 as [_ Hgt].
  assert (g' = g). { unfold data_has in Hd. unfold param in Hgt. rewrite Hd in Hgt. injection Hgt as Hgt. rewrite <- Egt in Hgt. destruct g, g'; try reflexivity; discriminate Hgt. }
  subst g'. rename t4 into tr.
  apply exec_pbind in H as [(c & t1 & t2 & -> & H1 & H)|(e & -> & H1)].
  2:{ apply auth_decides in H1; [|auto|intros e' [= ->]; eapply Hp; reflexivity]. destruct H1 as [(c & name & i & s & H1 & _)|(e' & H1 & Hk & Hno)]; [discriminate|]. injection H1 as ->.
      destruct (Hno refusal (fun w => Some ("invalid_client", w)) ([(exists c, proved r (grant_methods g) tr c /\ In (chars gt) (cl_grants c), Some ("unauthorized_client", nothing))] ++ rest) None) as (w & Hw & Ht).
      exists (Some ("invalid_client", w)). rewrite <- app_assoc. split; [exact Hw|]. exists "invalid_client", w. rewrite Hk. split; [reflexivity|]. split; [reflexivity|exact Ht]. }
  apply no_oauth_app in Hn as [Hn1 Hn2].
  apply auth_decides in H1; [|auto|discriminate]. destruct H1 as [(c' & name & i & s & [= <-] & -> & Hu & Hs & Hm)|(e' & H1 & _)]; [|discriminate]. cbn [app] in *.
  assert (Hpr : proved r (grant_methods g) (OFindClient i (V (Some c)) :: t2) c) by (eapply proved_here; eauto).
  rewrite <- app_assoc. eapply credentials_hold; [exact Hpr|]. cbn [app].
  destruct (ins (grant_type g) (cl_grants c)) eqn:Ei; cbn [negb] in H.
  2:{ apply exec_Ret in H as [-> ->]. apply d_fail; [|apply refused_none; reflexivity]. intros (c' & Hc & Hi). assert (c' = c) by (eapply proved_only; [exact Hu| |exact Hc]; intros ? ? []). subst c'.
      rewrite chars_lit in Hi. rewrite <- Egt in Hi. apply ins_In in Hi. congruence. }
  apply ins_In in Ei. apply d_ok; [exists c; split; [auto|rewrite chars_lit, <- Egt; auto]|].
  apply exec_pbind in H as [(d & t3 & t4 & -> & H3 & H)|(e & -> & H3)].
  - apply exec_Ret in H as [-> ->]. rewrite app_nil_r in *. assert (Hnp : forall e, V d <> X (Py e)) by discriminate. destruct (Hgo _ _ _ _ _ _ eq_refl Hu Hpr Hn2 Hnp H3) as (v & Hv & Hr). exists v. split; [auto|]. cbn [result_is] in Hr. subst v.
    unfold JSONResponse in *. destruct (lift _) as [b|e] eqn:El; [reflexivity|]. apply lift_X in El as (e' & -> & _). exfalso. eapply Hp. reflexivity.
  - assert (Hnp : forall e', (X e : res pdict) <> X (Py e')) by (intros e' [= ->]; eapply Hp; reflexivity). destruct (Hgo _ _ _ _ _ _ eq_refl Hu Hpr Hn2 Hnp H3) as (v & Hv & Hr). exists v. split; [auto|]. destruct e; exact Hr.
Qed.

Lemma refused {A} k t st (n : string) : error_code k = lit n -> result_is (oraise k (lit t) st : res A) (Some (n, says t)).
Proof. intros H. apply refused_lit. exact H. Qed.
(** The scopes that a request asks for *)
Lemma check_supported_cases cfg l st : (incl l (cf_scopes cfg) /\ check_supported cfg l st = V tt) \/
  (~ incl l (cf_scopes cfg) /\ exists l1 s l2, l = l1 ++ s :: l2 /\ incl l1 (cf_scopes cfg) /\ ~ In s (cf_scopes cfg) /\ check_supported cfg l st = oraise InvalidScope (lit "Unsupported scope """ ++ s ++ lit """.") st).
Proof.
  induction l as [|s l IH]; cbn [check_supported]; [left; split; [intros ? []|reflexivity]|]. destruct (ins s (cf_scopes cfg)) eqn:Ei.
  - apply ins_In in Ei. destruct IH as [[H1 H2]|[H1 (l1 & s1 & l2 & -> & H3 & H4 & H5)]]; [left|right]; (split; [|auto]).
    + intros x [<-|Hx]; auto.
    + intros H. apply H1. intros x Hx. apply H. right. auto.
    + exists (s :: l1), s1, l2. split; [reflexivity|]. split; [intros x [<-|Hx]; auto|auto].
  - assert (Hno : ~ In s (cf_scopes cfg)) by (intros H; apply ins_In in H; congruence). right. split; [intros H; apply Hno, H; left; reflexivity|]. exists [], s, l. split; [reflexivity|]. split; [intros ? []|auto].
Qed.
Lemma scopes_decide cfg r c methods tr st rest (Q : refusal -> Prop) : proved r methods tr c -> (forall c', proved r methods tr c' -> c' = c) ->
  match validate_requested_scopes cfg (cc_scopes (rq_data r)) c st with V _ => exists v, decided rest None v /\ Q v
  | X e => forall (w : wording) d, e = oerr InvalidScope (Some d) st [] -> w (Some d) -> Q (Some ("invalid_scope", w)) end ->
  exists v, decided (scope_checks cfg r tr methods ++ rest) None v /\ Q v.
Proof.
  intros Hp Hu. unfold scope_checks. cbn [app]. destruct (cc_scopes (rq_data r)) as [l|] eqn:Ec; cbn [validate_requested_scopes].
  - destruct (check_supported_cases cfg l st) as [[H1 ->]|[H1 (l1 & s & l2 & El & H2 & H3 & ->)]]; cbn [vbind].
    + intros H. apply d_ok; [intros l' Hl; apply asked_iff in Hl; rewrite Ec in Hl; (discriminate Hl || (injection Hl as <-; auto))|]. destruct (subsetb l (cl_allowed c (Some l))) eqn:Es.
      * apply subsetb_incl in Es. apply d_ok; [exists c; split; [auto|]; intros l' Hl; apply asked_iff in Hl; rewrite Ec in Hl; (discriminate Hl || (injection Hl as <-; auto))|exact H].
      * apply d_fail; [|eapply H; reflexivity]. intros (c' & Hc & Hl). apply Hu in Hc as ->. apply asked_iff in Ec. apply Hl, subsetb_incl in Ec. congruence.
    + intros H. apply d_fail.
      * intros Hl. apply H1, Hl, asked_iff. auto.
      * eapply H; [reflexivity|]. exists s. split; [|reflexivity]. exists l1, l2. split; [apply asked_iff; rewrite Ec, El; reflexivity|auto].
  - intros H. apply d_ok; [intros l' Hl; apply asked_iff in Hl; rewrite Ec in Hl; (discriminate Hl || (injection Hl as <-; auto))|]. apply d_ok; [exists c; split; [auto|]; intros l' Hl; apply asked_iff in Hl; rewrite Ec in Hl; (discriminate Hl || (injection Hl as <-; auto))|exact H].
Qed.

Ltac shown H := first [exact (H) | (destruct H as [H|H]; [discriminate H|shown H])].
Lemma first_time_here t1 now off t2 : (forall y, ~ In (ONow y) t1) -> first_time (t1 ++ ONow (V (now, off)) :: t2) now.
Proof. intros H. exists t1, t2, off. auto. Qed.
Lemma first_time_only t1 now off t2 now' : (forall y, ~ In (ONow y) t1) -> (forall y, ~ In (ONow y) t2) -> first_time (t1 ++ ONow (V (now, off)) :: t2) now' -> now' = now.
Proof.
  intros H1 H2 (s1 & s2 & off' & He & _). assert (Hin : In (ONow (V (now', off'))) (t1 ++ ONow (V (now, off)) :: t2)) by (rewrite He; apply in_app_iff; right; left; reflexivity).
  apply in_app_iff in Hin as [Hin|[Hin|Hin]]; [destruct (H1 _ Hin)|congruence|destruct (H2 _ Hin)].
Qed.

Lemma p_credentials_checks p hs r tr z : exec (token_endpoint E p hs r) tr (V z) -> no_oauth_raise tr -> In GClientCredentials (pv_grants p) -> data_has r "grant_type" (chars "client_credentials") ->
  exists v, decided (credentials_checks (pv_config p) r tr) None v /\ token_verdict z v.
Proof.
  intros H Hn Hg Hd. eapply verdict; [exact H|exact Hn|]. clear H. intros y H Hp. rewrite chars_lit in Hd. unfold credentials_checks.
  change [chars "client_secret_basic"; chars "client_secret_post"] with (grant_methods GClientCredentials).
  eapply enter; [exact H|exact Hn|exact Hp|exact Hg|reflexivity|exact Hd|]. clear H Hp. intros c name i s t w Et Hu Hc Hnt Hpy H. cbn [grant_token] in H.
  unfold cc_token in H. replace (cc_scopes (dremove (lit "grant_type") (rq_data r))) with (cc_scopes (rq_data r)) in H by (unfold cc_scopes; rewrite arg_dremove by discriminate; reflexivity).
  assert (Hf : no_find t) by (clear - H; intros i y Hi; xinv; cbn [In] in *; intuition discriminate).
  rewrite <- (app_nil_r (scope_checks _ _ _ _)). eapply scopes_decide with (c := c) (st := None); [exact Hc|intros c' Hc'; rewrite Et in Hc'; eapply proved_only; eauto|].
  apply exec_pbind in H as [([] & t1 & t2 & -> & H1 & H)|(e & -> & H1)]; apply exec_Ret in H1 as [-> <-]; [|intros w d -> Hw; exists "invalid_scope", w; split; [reflexivity|]; split; [reflexivity|exact Hw]].
  apply d_end. apply exec_pbind in H as [(a & t3 & t4 & -> & H2 & H)|(e & -> & H2)]; [apply exec_Ret in H as [-> ->]; reflexivity|].
  apply exec_call in H2 as ->. destruct e as [e|e]; [exfalso; eapply oa_raise; [exact Hnt|left; reflexivity|reflexivity]|exfalso; eapply Hpy; reflexivity].
Qed.

Lemma found_not {A B} (R : A -> Prop) (D : str -> Prop) (G : str -> B -> Prop) (P : A -> B -> Prop) a k b :
  (forall a', R a' -> a' = a) -> (forall k', D k' -> k' = k) -> (forall b', G k b' -> b' = b) -> ~ P a b -> ~ exists a k b, R a /\ D k /\ G k b /\ P a b.
Proof. intros H1 H2 H3 H (a' & k' & b' & Ha & Hk & Hb & HP). apply H1 in Ha as ->. apply H2 in Hk as ->. apply H3 in Hb as ->. auto. Qed.
Lemma data_same r k v v' : data_has r k v -> data_has r k v' -> v' = v.
Proof. unfold data_has. congruence. Qed.
Lemma hooks_no_oauth l : forall t c u, oa (fun _ => False) (run_token_hooks E l t c u).
Proof.
  induction l as [|h l IH]; intros t c u; simpl; [apply oa_Ret; discriminate|].
  apply oa_pbind; [|intros; apply IH]. unfold oidc_token_response, generate_id_token. oa_go; try discriminate;
  try match goal with H : lift _ = X (OA _) |- _ => destruct (lift_OA _ _ H) end;
  match goal with H : match ?m with _ => _ end = X (OA _) |- _ => destruct m as [[]|]; discriminate H end.
Qed.
Lemma app_error {A} (w : res A) tr (o : obs) e : no_oauth_raise tr -> (forall e, w <> X (Py e)) -> w = X e -> In o tr -> raised o = Some e -> False.
Proof. intros Hn Hp -> Hi Hr. destruct e as [e|e]; [eapply oa_raise; eauto|eapply Hp; reflexivity]. Qed.
Lemma found_yes {A B} (R : A -> Prop) (D : str -> Prop) (G : str -> B -> Prop) (P : A -> B -> Prop) a k b : R a -> D k -> G k b -> P a b -> exists a k b, R a /\ D k /\ G k b /\ P a b.
Proof. intros. exists a, k, b. auto. Qed.

Hypothesis Hsha : forall b, bytes_ok (e_sha256 E b).
Lemma challenge_decides m ch v f b : challenges E m = Some f -> f ch v = Ok b -> (b = true <-> pkce_ok (e_sha256 E) m ch v).
Proof.
  unfold challenges, pkce_ok. intros Hf Hb. destruct (eqs_spec m (lit "plain")) as [->|N1].
  - injection Hf as <-. unfold plain_challenge in Hb. injection Hb as <-. rewrite eqs_true. split; [auto|]. intros [[_ H]|[H _]]; [auto|discriminate].
  - destruct (eqs_spec m (lit "S256")) as [->|N2]; [|discriminate]. injection Hf as <-. unfold S256_challenge, ascii_encode in Hb. destruct (forallb (fun c => c <? 128) v) eqn:Ea; [|discriminate]. cbn in Hb. injection Hb as <-.
    rewrite eqs_true. destruct (p_base64url (e_sha256 E v) (Hsha v)) as (H1 & H2 & _). rewrite to_string_ascii; [|apply url_chars_ascii, base64url_encode_url; auto]. rewrite H2. split.
    + intros ->. right. split; [auto|]. split; [|reflexivity]. rewrite forallb_forall in Ea. apply Forall_forall. intros x Hx. apply N.ltb_lt. auto.
    + intros [[H _]|(_ & _ & H)]; [discriminate|auto].
Qed.

Ltac listed := unfold no_find, not; intros; cbn [In app] in *; repeat match goal with H : _ \/ _ |- _ => destruct H as [H|H] | H : False |- _ => destruct H end; congruence.
Lemma p_code_checks p hs r tr z : exec (token_endpoint E p hs r) tr (V z) -> no_oauth_raise tr -> In GCode (pv_grants p) -> data_has r "grant_type" (chars "authorization_code") ->
  exists v, decided (code_checks (e_sha256 E) r tr) None v /\ token_verdict z v.
Proof.
  intros H Hn Hg Hd. eapply verdict; [exact H|exact Hn|]. clear H. intros y H Hp. rewrite chars_lit in Hd. unfold code_checks.
  change (client_checks r tr []) with (client_checks r tr (grant_methods GCode)).
  eapply enter; [exact H|exact Hn|exact Hp|exact Hg|reflexivity|exact Hd|]. clear H Hp. intros c name i s t w Et Hu Hc Hnt Hpy H. cbn [grant_token grant_methods] in *.
  assert (Harg : forall k, lit k <> lit "grant_type" -> arg k (dremove (lit "grant_type") (rq_data r)) = arg k (rq_data r)) by (intros; apply arg_dremove; auto).
  apply code_token_exec in H as (t1 & y' & H & [(Hno & _ & Hw)|(code & q & Hcode & -> & Hw)]); [exfalso; eapply Hpy; exact Hw|].
  assert (Ew : w = y').
  { destruct q as [[]|e]; [auto|]. exfalso. eapply app_error; [exact Hnt|exact Hpy|exact Hw|apply in_app_iff; right; left; reflexivity|reflexivity]. }
  subst y'. clear Hw. unfold param in Hcode. rewrite lookup_dremove_other in Hcode by discriminate.
  unfold code_exchange, validate_code_request in H. rewrite !Harg in H by discriminate. 
  destruct (arg "code" (rq_data r)) as [code'|] eqn:E1.
  2:{ apply d_fail; [apply not_supplied; auto|]. xinv; [discriminate|]. injection H0 as ->. eapply (refused (A := pdict)); reflexivity. }
  assert (code' = code) by (apply arg_Some in E1 as [E1 _]; congruence). subst code'.
  apply d_ok; [apply supplied_iff; eauto|].
  destruct (arg "redirect_uri" (rq_data r)) as [uri|] eqn:E2.
  2:{ apply d_fail; [apply not_supplied; auto|]. xinv; [discriminate|]. injection H0 as ->. eapply (refused (A := pdict)); reflexivity. }
  apply d_ok; [apply supplied_iff; eauto|].
  destruct (arg "code_verifier" (rq_data r)) as [v|] eqn:E3.
  2:{ apply d_fail; [apply not_supplied; auto|]. xinv; [discriminate|]. injection H0 as ->. eapply (refused (A := pdict)); reflexivity. }
  apply d_ok; [apply supplied_iff; eauto|].
  apply arg_Some in E1 as [E1 _], E2 as [E2 _], E3 as [E3 _].
  apply exec_pbind in H as [([[code' uri'] v'] & t0 & t2 & -> & H1 & H)|(e & -> & H1)]; apply exec_Ret in H1 as [-> H1]; [|discriminate]. injection H1 as -> -> ->. cbn [app] in *.
  apply exec_pbind in H as [(oc & t0 & t1 & -> & H1 & H)|(e & Hw & H1)]; apply exec_call in H1 as ->; cbn [observe app] in *.
  2:{ exfalso. eapply app_error; [exact Hnt|exact Hpy|exact Hw|left; reflexivity|reflexivity]. }
  destruct oc as [ac|].
  2:{ apply exec_Ret in H as [-> ->]. apply d_fail; [|eapply (refused (A := pdict)); reflexivity]. intros (c' & k & ac & _ & Hk & Hi & _). unfold data_has in Hk. rewrite Et in Hi. listed. }
  assert (Hget : In (OGetCode code (V (Some ac))) tr) by (rewrite Et; right; left; reflexivity).
  assert (Hfound : forall P : client -> auth_code -> Prop, P c ac -> exists c code ac, proved r [] tr c /\ data_has r "code" code /\ In (OGetCode code (V (Some ac))) tr /\ P c ac).
  { intros P HP. exists c, code, ac. auto. }
  assert (Hmiss : forall P : client -> auth_code -> Prop, no_find (t1 ++ [ODeleteCode code q]) -> (forall k y, ~ In (OGetCode k y) (t1 ++ [ODeleteCode code q])) -> ~ P c ac ->
    ~ exists c code ac, proved r [] tr c /\ data_has r "code" code /\ In (OGetCode code (V (Some ac))) tr /\ P c ac).
  { intros P Hf1 Hf2 HP. apply found_not with (a := c) (k := code) (b := ac); [| |rewrite Et; intros b' [Hb|[Hb|Hb]]; [discriminate|congruence|destruct (Hf2 _ _ Hb)]|auto].
    - intros c' Hc'. rewrite Et in Hc'. eapply proved_only; [exact Hu| |exact Hc']. intros i' y' [Hi|Hi]; [discriminate|eapply Hf1; exact Hi].
    - intros k'. apply data_same. exact E1. }
  apply d_ok; [apply Hfound; exact I|].
  apply exec_pbind in H as [([] & s1 & s2 & -> & H1 & H)|(e & Hw & H1)].
  2:{ subst w. unfold validate_authorization_code in H1. destruct (ins uri (cl_redirects c)) eqn:Ei; cbn [negb] in H1.
      2:{ apply exec_Ret in H1 as [-> H1]. injection H1 as ->. apply d_fail; [|eapply (refused (A := pdict)); reflexivity]. intros (c' & uri' & Hc' & Hu' & Hi). assert (c' = c).
          { rewrite Et in Hc'. eapply proved_only; [exact Hu| |exact Hc']. intros i' y'. listed. } subst c'. assert (uri' = uri) by (eapply data_same; [exact E2|exact Hu']). subst. apply ins_In in Hi. congruence. }
      apply d_ok; [exists c, uri; split; [auto|]; split; [exact E2|]; apply ins_In; auto|].
      destruct (eqs_spec (cl_id c) (ac_client ac)) as [Hcl|Hcl]; cbn [negb] in H1.
      2:{ apply exec_Ret in H1 as [-> H1]. injection H1 as ->. apply d_fail; [|eapply (refused (A := pdict)); reflexivity]. apply Hmiss; [listed|listed|congruence]. }
      apply d_ok; [apply Hfound; congruence|].
      destruct (eqs_spec uri (ac_redirect ac)) as [Hur|Hur]; cbn [negb] in H1.
      2:{ apply exec_Ret in H1 as [-> H1]. injection H1 as ->. apply d_fail; [|eapply (refused (A := pdict)); reflexivity]. apply Hmiss; [listed|listed|]. unfold data_has. congruence. }
      apply d_ok; [apply Hfound; unfold data_has; congruence|].
      destruct (challenges E (ac_method ac)) as [f|] eqn:Ef.
      2:{ apply exec_Ret in H1 as [-> H1]. injection H1 as ->. apply d_fail; [|eapply (refused (A := pdict)); reflexivity]. apply Hmiss; [listed|listed|]. rewrite !chars_lit. intros [Hm|Hm]; rewrite Hm in Ef; discriminate. }
      apply d_ok; [apply Hfound; rewrite !chars_lit; eapply challenges_spec; eauto|].
      apply exec_pbind in H1 as [(b & s1 & s2 & -> & H2 & H1)|(e' & He & H2)]; apply exec_Ret in H2 as [-> H2]; symmetry in H2.
      2:{ apply lift_X in H2 as (e1 & -> & _). injection He as ->. exfalso. eapply Hpy. reflexivity. }
      apply lift_V in H2. pose proof (challenge_decides _ _ _ _ _ Ef H2) as Hpk. destruct b; cbn [negb app] in *.
      2:{ apply exec_Ret in H1 as [-> H1]. injection H1 as ->. apply d_fail; [|eapply (refused (A := pdict)); reflexivity]. apply Hmiss; [listed|listed|]. intros (v' & Hv & Hk).
          assert (v' = v) by (eapply data_same; [exact E3|exact Hv]). subst. apply Hpk in Hk. discriminate. }
      apply d_ok; [apply Hfound; exists v; split; [exact E3|apply Hpk; reflexivity]|].
      apply exec_pbind in H1 as [([now off] & s1 & s3 & -> & H3 & H1)|(e' & He & H3)]; apply exec_call in H3 as ->; cbn [observe app] in *.
      2:{ exfalso. eapply app_error; [exact Hnt|exact Hpy|injection He as ->; reflexivity|right; left; reflexivity|reflexivity]. }
      apply exec_pbind in H1 as [(late & s4 & s5 & -> & H3 & H1)|(e' & He & H3)]; apply exec_Ret in H3 as [-> H3]; symmetry in H3.
      2:{ apply lift_X in H3 as (e1 & -> & _). injection He as ->. exfalso. eapply Hpy. reflexivity. }
      apply lift_V in H3. destruct late; cbn [app] in *; apply exec_Ret in H1 as [-> H1]; [|discriminate]. injection H1 as ->.
      apply d_fail; [|eapply (refused (A := pdict)); reflexivity]. apply Hmiss; [listed|listed|].
      intros (T & now' & He & Ht & Hlt). rewrite He in H3. cbn [expired] in H3. injection H3 as H3. apply Z.leb_le in H3.
      assert (now' = now); [|lia]. rewrite Et in Ht.
      apply (first_time_only [OFindClient i (V (Some c)); OGetCode code (V (Some ac))] now off [ODeleteCode code q] now'); [listed|listed|exact Ht]. }
  assert (Hval := H1). unfold validate_authorization_code in H1. destruct (ins uri (cl_redirects c)) eqn:Ei; cbn [negb] in H1; [|apply exec_Ret in H1 as [_ H1]; discriminate].
  destruct (eqs_spec (cl_id c) (ac_client ac)) as [Hcl|Hcl]; cbn [negb] in H1; [|apply exec_Ret in H1 as [_ H1]; discriminate].
  destruct (eqs_spec uri (ac_redirect ac)) as [Hur|Hur]; cbn [negb] in H1; [|apply exec_Ret in H1 as [_ H1]; discriminate].
  destruct (challenges E (ac_method ac)) as [f|] eqn:Ef; [|apply exec_Ret in H1 as [_ H1]; discriminate].
  apply exec_pbind in H1 as [(b & s3 & s4 & -> & H2 & H1)|(e' & He & H2)]; [|discriminate]. apply exec_Ret in H2 as [-> H2]; symmetry in H2. apply lift_V in H2.
  pose proof (challenge_decides _ _ _ _ _ Ef H2) as Hpk. destruct b; cbn [negb app] in *; [|apply exec_Ret in H1 as [_ H1]; discriminate].
  apply exec_pbind in H1 as [([now off] & s1 & s3 & -> & H3 & H1)|(e' & He & H3)]; [|discriminate]. apply exec_call in H3 as ->. cbn [observe app] in *.
  apply exec_pbind in H1 as [(late & s1 & s5 & -> & H3 & H1)|(e' & He & H3)]; [|discriminate]. apply exec_Ret in H3 as [-> H3]. symmetry in H3. apply lift_V in H3.
  destruct late; cbn [app] in *; apply exec_Ret in H1 as [-> H1]; [discriminate|]. clear H1. cbn [app] in *.
  apply d_ok; [exists c, uri; split; [auto|]; split; [exact E2|]; apply ins_In; auto|].
  apply d_ok; [apply Hfound; congruence|]. apply d_ok; [apply Hfound; unfold data_has; congruence|]. apply d_ok; [apply Hfound; rewrite !chars_lit; eapply challenges_spec; eauto|].
  apply d_ok; [apply Hfound; exists v; split; [exact E3|apply Hpk; reflexivity]|].
  apply d_ok.
  { apply Hfound. destruct (ac_exp ac) as [T|T] eqn:Ex; cbn [expired] in H3; [|discriminate]. injection H3 as H3. apply Z.leb_gt in H3. exists T, now. split; [reflexivity|]. split; [|auto].
    rewrite Et. apply (first_time_here [OFindClient i (V (Some c)); OGetCode code (V (Some ac))] now off). listed. }
  apply exec_pbind in H as [(ou & s1 & s3 & -> & H1 & H)|(e & Hw & H1)]; apply exec_call in H1 as ->; cbn [observe app] in *.
  2:{ exfalso. eapply app_error; [exact Hnt|exact Hpy|exact Hw|right; right; left; reflexivity|reflexivity]. }
  destruct ou as [u|].
  2:{ apply exec_Ret in H as [-> ->]. apply d_fail; [|eapply (refused (A := pdict)); reflexivity]. apply Hmiss; [listed|listed|]. intros (u & Hi). rewrite Et in Hi. listed. }
  apply d_ok; [apply Hfound; exists u; rewrite Et; do 3 right; left; reflexivity|]. apply d_end.
  destruct w as [d|[e|e]]; [reflexivity| |exfalso; eapply Hpy; reflexivity]. exfalso.
  assert (Ho : oa (fun _ => False) (do at_ <- call (CreateAT c (OwnUser u) (ac_scopes ac)) ;; do rt <- maybe_refresh c (OwnUser u) (ac_scopes ac) ;;
    run_token_hooks E (hk_response hs) (create_token at_ (cf_token_lifespan (pv_config p)) rt (ac_scopes ac)) c u)).
  { unfold maybe_refresh. oa_go; try discriminate; apply hooks_no_oauth. }
  destruct (Ho _ _ H) as [[]|(o & Hi & Hr)]. eapply oa_raise; [exact Hnt| |exact Hr]. do 3 right. apply in_app_iff. auto.
Qed.

Lemma p_refresh_checks p hs r tr z : exec (token_endpoint E p hs r) tr (V z) -> no_oauth_raise tr -> In GRefresh (pv_grants p) -> data_has r "grant_type" (chars "refresh_token") ->
  exists v, decided (refresh_checks (pv_config p) r tr) None v /\ token_verdict z v.
Proof.
  clear Hsha. intros H Hn Hg Hd. eapply verdict; [exact H|exact Hn|]. clear H. intros y H Hp. rewrite chars_lit in Hd. unfold refresh_checks.
  change (client_checks r tr []) with (client_checks r tr (grant_methods GRefresh)).
  eapply enter; [exact H|exact Hn|exact Hp|exact Hg|reflexivity|exact Hd|]. clear H Hp. intros c name i s t w Et Hu Hc Hnt Hpy H. cbn [grant_token grant_methods app] in *.
  assert (Harg : forall k, lit k <> lit "grant_type" -> arg k (dremove (lit "grant_type") (rq_data r)) = arg k (rq_data r)) by (intros; apply arg_dremove; auto).
  unfold refresh_grant, validate_refresh_request in H. rewrite Harg in H by discriminate.
  replace (cc_scopes (dremove (lit "grant_type") (rq_data r))) with (cc_scopes (rq_data r)) in H by (unfold cc_scopes; rewrite arg_dremove by discriminate; reflexivity).
  destruct (arg "refresh_token" (rq_data r)) as [k|] eqn:E1.
  2:{ apply d_fail; [apply not_supplied; auto|]. xinv; [discriminate|]. injection H0 as ->. eapply (refused (A := pdict)); reflexivity. }
  apply d_ok; [apply supplied_iff; eauto|]. apply arg_Some in E1 as [E1 _].
  apply exec_pbind in H as [([k' req] & t0 & t2 & -> & H1 & H)|(e & -> & H1)]; apply exec_Ret in H1 as [-> H1]; [|discriminate]. injection H1 as -> ->. cbn [app] in *.
  apply exec_pbind in H as [(ot & t0 & t1 & -> & H1 & H)|(e & Hw & H1)]; apply exec_call in H1 as ->; cbn [observe app] in *.
  2:{ exfalso. eapply app_error; [exact Hnt|exact Hpy|exact Hw|left; reflexivity|reflexivity]. }
  destruct ot as [rt|].
  2:{ apply exec_Ret in H as [-> ->]. apply d_fail; [|eapply (refused (A := pdict)); reflexivity]. intros (c' & k' & rt & _ & Hk & Hi & _). unfold data_has in Hk. rewrite Et in Hi. listed. }
  assert (Hfound : forall P : client -> refresh_token -> Prop, P c rt -> exists c k t, proved r [] tr c /\ data_has r "refresh_token" k /\ In (OGetRT k (V (Some t))) tr /\ P c t).
  { intros P HP. exists c, k, rt. split; [auto|]. split; [exact E1|]. split; [rewrite Et; right; left; reflexivity|auto]. }
  assert (Hmiss : forall P : client -> refresh_token -> Prop, no_find t1 -> (forall k y, ~ In (OGetRT k y) t1) -> ~ P c rt ->
    ~ exists c k t, proved r [] tr c /\ data_has r "refresh_token" k /\ In (OGetRT k (V (Some t))) tr /\ P c t).
  { intros P Hf1 Hf2 HP. apply found_not with (a := c) (k := k) (b := rt); [| |rewrite Et; intros b' [Hb|[Hb|Hb]]; [discriminate|congruence|destruct (Hf2 _ _ Hb)]|auto].
    - intros c' Hc'. rewrite Et in Hc'. eapply proved_only; [exact Hu| |exact Hc']. intros i' y' [Hi|Hi]; [discriminate|eapply Hf1; exact Hi].
    - intros k'. apply data_same. exact E1. }
  apply d_ok; [apply Hfound; exact I|].
  unfold validate_refresh_token in H. destruct (eqs_spec (rt_client rt) (cl_id c)) as [Hcl|Hcl]; cbn [negb] in H.
  2:{ apply exec_pbind in H as [(a & t2 & t3 & -> & H1 & H)|(e & -> & H1)]; apply exec_Ret in H1 as [-> H1]; [discriminate|]. injection H1 as ->.
      apply d_fail; [|apply refused_none; reflexivity]. apply Hmiss; [listed|listed|congruence]. }
  apply d_ok; [apply Hfound; auto|].
  assert (Hsplit : exists now off t2 late, t1 = ONow (V (now, off)) :: t2 /\ expired now (rt_exp rt) = Ok late /\ (late = true -> t2 = [] /\ w = X (oerr InvalidRequest (Some (lit "Refresh Token expired.")) None [])) /\
    (late = false -> exec (do sc <- Ret (validate_refresh_scopes E (pv_config p) rt (cc_scopes (rq_data r)) c) ;;
      let scopes := cl_allowed c (Some sc) in
      do ou <- call (FindUser (rt_user rt)) ;;
      do at_ <- call (CreateAT c (owner_of ou) scopes) ;;
      do rt' <- maybe_refresh c (owner_of ou) scopes ;;
      ret (create_token at_ (cf_token_lifespan (pv_config p)) rt' (if eql scopes (rt_scopes rt) then [] else scopes))) t2 w)).
  { clear Hfound Hmiss. apply exec_pbind in H as [([] & s1 & s2 & -> & H1 & H)|(e & -> & H1)];
      apply exec_pbind in H1 as [([now off] & s3 & s4 & -> & H2 & H1)|(e' & He & H2)]; try discriminate; apply exec_call in H2; cbn [observe] in H2; subst.
    - apply exec_pbind in H1 as [(late & s5 & s6 & -> & H2 & H1)|(e' & He & H2)]; [|discriminate]. apply exec_Ret in H2 as [-> H2]. symmetry in H2. apply lift_V in H2.
      destruct late; apply exec_Ret in H1 as [-> H1]; [discriminate|]. cbn [app]. exists now, off, s2, false. split; [reflexivity|]. split; [auto|]. split; [discriminate|auto].
    - apply exec_pbind in H1 as [(late & s5 & s6 & -> & H2 & H1)|(e' & He & H2)]; apply exec_Ret in H2 as [-> H2]; symmetry in H2.
      + apply lift_V in H2. destruct late; apply exec_Ret in H1 as [-> H1]; [|discriminate]. injection H1 as ->. exists now, off, [], true. split; [reflexivity|]. split; [auto|]. split; [auto|discriminate].
      + apply lift_X in H2 as (e1 & -> & _). injection He as ->. exfalso. eapply Hpy. reflexivity.
    - injection He as ->. exfalso. eapply app_error; [exact Hnt|exact Hpy|reflexivity|right; left; reflexivity|reflexivity]. }
  clear H. destruct Hsplit as (now & off & t2 & late & -> & Hl & Hlate & H). destruct late.
  { destruct (Hlate eq_refl) as [-> ->]. apply d_fail; [|eapply (refused (A := pdict)); reflexivity]. apply Hmiss; [listed|listed|].
    intros (T & now' & He & Ht & Hlt). rewrite He in Hl. cbn [expired] in Hl. injection Hl as Hl. apply Z.leb_le in Hl.
    assert (now' = now); [|lia]. rewrite Et in Ht. apply (first_time_only [OFindClient i (V (Some c)); OGetRT k (V (Some rt))] now off [] now'); [listed|listed|exact Ht]. }
  apply d_ok.
  { apply Hfound. destruct (rt_exp rt) as [T|T] eqn:Ex; cbn [expired] in Hl; [|discriminate]. injection Hl as Hl. apply Z.leb_gt in Hl. exists T, now. split; [reflexivity|]. split; [|auto].
    rewrite Et. apply (first_time_here [OFindClient i (V (Some c)); OGetRT k (V (Some rt))] now off). listed. }
  specialize (H eq_refl). clear Hlate.
  assert (Hf : no_find t2 /\ forall k y, ~ In (OGetRT k y) t2).
  { clear - H. apply exec_pbind in H as [(sc & s1 & s2 & -> & H1 & H)|(e & -> & H1)]; apply exec_Ret in H1 as [-> _]; [|split; listed]. cbn [app].
    unfold maybe_refresh in H. destruct (ins _ _); xinv; split; listed. }
  destruct Hf as [Hf1 Hf2].
  eapply scopes_decide with (c := c) (st := None); [exact Hc|intros c' Hc'; rewrite Et in Hc'; eapply proved_only; [exact Hu| |exact Hc']; intros ? ? [Hi|[Hi|Hi]]; [discriminate|discriminate|eapply Hf1; exact Hi]|].
  unfold validate_refresh_scopes in H. destruct (validate_requested_scopes (pv_config p) (cc_scopes (rq_data r)) c None) as [[]|e] eqn:Ev; cbn [vbind] in H.
  2:{ intros w0 d -> Hw0. apply exec_pbind in H as [(sc & s1 & s2 & -> & H1 & H)|(e & -> & H1)]; apply exec_Ret in H1 as [-> H1]; [discriminate|]. injection H1 as ->. exists "invalid_scope", w0. split; [reflexivity|]. split; [reflexivity|exact Hw0]. }
  assert (Hend : forall sc, exec (let scopes := cl_allowed c (Some sc) in
      do ou <- call (FindUser (rt_user rt)) ;;
      do at_ <- call (CreateAT c (owner_of ou) scopes) ;;
      do rt' <- maybe_refresh c (owner_of ou) scopes ;;
      ret (create_token at_ (cf_token_lifespan (pv_config p)) rt' (if eql scopes (rt_scopes rt) then [] else scopes))) t2 w -> result_is w None).
  { intros sc Hx. destruct w as [d|[e|e]]; [reflexivity| |exfalso; eapply Hpy; reflexivity]. exfalso.
    assert (Ho : oa (fun _ => False) (let scopes := cl_allowed c (Some sc) in
      do ou <- call (FindUser (rt_user rt)) ;;
      do at_ <- call (CreateAT c (owner_of ou) scopes) ;;
      do rt' <- maybe_refresh c (owner_of ou) scopes ;;
      ret (create_token at_ (cf_token_lifespan (pv_config p)) rt' (if eql scopes (rt_scopes rt) then [] else scopes)))).
    { unfold maybe_refresh. cbv zeta. oa_go; discriminate. }
    destruct (Ho _ _ Hx) as [[]|(o & Hi & Hr)]. eapply oa_raise; [exact Hnt| |exact Hr]. right. right. exact Hi. }
  destruct (cc_scopes (rq_data r)) as [l|] eqn:Ec.
  - destruct (subsetb l (rt_scopes rt)) eqn:Es.
    + apply subsetb_incl in Es. apply d_ok; [apply Hfound; intros l' Hl'; apply asked_iff in Hl'; rewrite Ec in Hl'; injection Hl' as <-; auto|]. apply d_end.
      destruct l as [|a l]; apply exec_pbind in H as [(sc & s1 & s2 & -> & H1 & H)|(e & -> & H1)]; apply exec_Ret in H1 as [-> H1]; try discriminate; eapply Hend; exact H.
    + destruct l as [|a l]; [discriminate|]. cbn [negb] in H. apply exec_pbind in H as [(sc & s1 & s2 & -> & H1 & H)|(e & -> & H1)]; apply exec_Ret in H1 as [-> H1]; [discriminate|]. injection H1 as ->.
      apply d_fail; [|eapply (refused (A := pdict)); reflexivity]. apply Hmiss; [listed|listed|]. intros Hl'. apply asked_iff in Ec. apply Hl', subsetb_incl in Ec. congruence.
  - apply d_ok; [apply Hfound; intros l' Hl'; apply asked_iff in Hl'; rewrite Ec in Hl'; discriminate|]. apply d_end.
    apply exec_pbind in H as [(sc & s1 & s2 & -> & H1 & H)|(e & -> & H1)]; apply exec_Ret in H1 as [-> H1]; [|discriminate]. eapply Hend. exact H.
Qed.
End WithEnv.

(** ** Authorization endpoint *)
Definition out_is {A} (r : request) (tr : list obs) (y : res A) (v : outcome) : Prop :=
  match y, v with
  | X (OA e), Page n w => oe_kind e = Fatal (lit n) /\ lib_error None e /\ w (oe_desc e)
  | X (OA e), Back n w => error_code (oe_kind e) = lit n /\ (forall code, oe_kind e <> Fatal code) /\ (exists st, lib_error st e /\ st <> Some []) /\ w (oe_desc e)
  | V _, Granted => exists code ad c u, In (OSaveCode code ad c u (V tt)) tr /\ data_has r "redirect_uri" (ad_redirect ad)
  | _, _ => False
  end.
Lemma out_page {A} r tr d : lit d <> [] -> out_is r tr (fatal (lit d) : res A) (Page "invalid_request" (says d)).
Proof. intros Hd. split; [reflexivity|]. split; [|reflexivity]. unfold lib_error, nonblank. cbn. do 3 (split; [reflexivity|]). split; [intros [= He]; auto|discriminate]. Qed.
Lemma out_back {A} r tr k d st n (w : wording) : error_code k = lit n -> (forall code, k <> Fatal code) -> error_code k <> [] -> d <> Some [] -> st <> Some [] -> w d -> out_is r tr (X (oerr k d st []) : res A) (Back n w).
Proof. intros H1 H2 H3 H4 H5 H6. split; [exact H1|]. split; [exact H2|]. split; [|exact H6]. exists st. split; [|auto]. unfold lib_error, nonblank. cbn. auto. Qed.
Lemma out_oraise {A} r tr k d st n (w : wording) : error_code k = lit n -> (forall code, k <> Fatal code) -> error_code k <> [] -> d <> [] -> st <> Some [] -> w (Some d) -> out_is r tr (oraise k d st : res A) (Back n w).
Proof. intros H1 H2 H3 H4 H5 H6. apply out_back; auto. congruence. Qed.
Lemma desc_only e v : In (lit "error_description", v) (error_params e) -> oe_desc e = Some v.
Proof. unfold error_params. intros [H|H]; [discriminate|]. rewrite !in_app_iff, !opt_param_In in H. destruct H as [[_ H]|[[H _]|[H _]]]; [auto|discriminate|discriminate]. Qed.
Lemma desc_there e v : oe_desc e = Some v -> In (lit "error_description", v) (error_params e).
Proof. intros H. unfold error_params. right. apply in_app_iff. left. apply opt_param_In. auto. Qed.
Lemma params_carry e n (w : wording) : error_code (oe_kind e) = lit n -> w (oe_desc e) -> carries_error (error_params e) n w.
Proof.
  intros Hk Hw. unfold carries_error. change chars with lit. rewrite <- Hk. split; [intros v; split; [apply error_param_only|intros ->; apply error_param_code]|].
  exists (oe_desc e). split; [exact Hw|]. intros v. split; [apply desc_only|apply desc_there].
Qed.
Lemma lift_url {A} (x : result A) e : lift x = X e -> exists e', e = Py e'.
Proof. destruct x; cbn; [discriminate|]. intros [= <-]. eauto. Qed.

Section WithEnv.
Variable E : env.
Ltac listed := unfold no_find, not; intros; cbn [In app] in *; repeat match goal with H : _ \/ _ |- _ => destruct H as [H|H] | H : False |- _ => destruct H end; congruence.
Ltac page := apply out_page; discriminate.
Lemma authorization_out p hs r tr y : exec (authz_body E p hs r) tr y -> made r -> no_oauth_raise tr -> (forall e, y <> X (Py e)) ->
  exists v, decided (authorization_checks p r tr) Granted v /\ out_is r tr y v.
Proof.
  intros H Hm Hn Hp. assert (Hst : param "state" (rq_data r) <> Some []) by (apply made_nonblank; auto).
  unfold authorization_checks, request_checks. cbn [app]. unfold authz_body in H.
  assert (Hv : (validate_request (rq_data r) = match rq_data r with [] => fatal (lit "Missing request parameters.") | _ => validate_request (rq_data r) end)) by (destruct (rq_data r); reflexivity).
  destruct (arg "redirect_uri" (rq_data r)) as [uri|] eqn:E1.
  2:{ unfold validate_request in H. destruct (rq_data r) as [|x l] eqn:Ed.
      - apply d_fail; [auto|]. xinv; try discriminate. match goal with H : X _ = _ |- _ => injection H as -> end. page.
      - apply d_ok; [congruence|]. apply d_fail; [apply not_supplied; rewrite Ed; auto|]. rewrite E1 in H. xinv; try discriminate. match goal with H : X _ = _ |- _ => injection H as -> end. page. }
  assert (Hne : rq_data r <> []) by (intros He; rewrite He in E1; discriminate). apply d_ok; [exact Hne|].
  apply d_ok; [apply supplied_iff; eauto|].
  replace (validate_request (rq_data r)) with (match arg "client_id" (rq_data r) with
          | None => fatal (lit "Missing required parameter ""client_id"".")
          | Some cid => match arg "response_type" (rq_data r) with None => fatal (lit "Missing required parameter ""response_type"".") | Some rt => V (uri, cid, rt) end end) in H.
  2:{ unfold validate_request. rewrite E1. destruct (rq_data r); [contradiction|reflexivity]. }
  clear Hv Hne.
  destruct (arg "client_id" (rq_data r)) as [cid|] eqn:E2.
  2:{ apply d_fail; [apply not_supplied; auto|]. xinv; try discriminate; match goal with H : X _ = _ |- _ => injection H as -> end; page. }
  apply d_ok; [apply supplied_iff; eauto|].
  destruct (arg "response_type" (rq_data r)) as [rt|] eqn:E3.
  2:{ apply d_fail; [apply not_supplied; auto|]. xinv; try discriminate; match goal with H : X _ = _ |- _ => injection H as -> end; page. }
  apply d_ok; [apply supplied_iff; eauto|].
  apply arg_Some in E1 as [E1 N1], E2 as [E2 N2], E3 as [E3 N3].
  apply exec_pbind in H as [([[uri' cid'] rt'] & t1 & t2 & -> & H1 & H)|(e & -> & H1)]; apply exec_Ret in H1 as [-> H1]; [|discriminate]. injection H1 as -> -> ->. cbn [app] in *.
  destruct (rq_user r) as [u|] eqn:Eu.
  2:{ apply exec_Ret in H as [-> ->]. apply d_fail; [congruence|]. apply out_back; try reflexivity; try discriminate. }
  apply d_ok; [discriminate|].
  apply exec_pbind in H as [(g & t1 & t3 & -> & H1 & H)|(e & -> & H1)]; apply exec_Ret in H1 as [-> H1]; symmetry in H1; cbn [app] in *.
  2:{ unfold validate_response_type in H1. destruct (find (fun g => match response_type g with Some t => eqs t rt | None => false end) (pv_grants p)) eqn:Ef; [discriminate|]. injection H1 as <-.
      apply d_fail; [|apply out_back; try reflexivity; try discriminate; auto; exists rt; split; [exact E3|reflexivity]]. intros [Hc Hg]. eapply find_none in Ef; [|exact Hg]. cbn [response_type] in Ef. rewrite chars_lit in Hc. unfold data_has in Hc.
      assert (rt = lit "code") by congruence. subst rt. rewrite eqs_refl in Ef. discriminate. }
  assert (Hg : In g (pv_grants p) /\ response_type g = Some rt).
  { unfold validate_response_type in H1. destruct (find _ _) as [g'|] eqn:Ef; [|discriminate]. injection H1 as ->. apply find_some in Ef as [Hi Hr]. split; [auto|]. destruct (response_type g) as [t|]; [|discriminate]. apply eqs_true in Hr. congruence. }
  destruct Hg as [Hg Hrt]. destruct g; try discriminate Hrt. cbn [response_type] in Hrt. injection Hrt as <-.
  apply d_ok; [split; [rewrite chars_lit; exact E3|auto]|]. cbn [response_type grant_authorize] in H. clear H1.
  unfold validate_client in H.
  apply exec_pbind in H as [(c & t1 & t4 & -> & H1 & H)|(e & -> & H1)].
  2:{ apply exec_pbind in H1 as [(oc & t1 & t4 & -> & H2 & H1)|(e' & He & H2)]; apply exec_call in H2; cbn [observe] in H2; subst; cbn [app] in *.
      2:{ injection He as ->. exfalso. eapply (app_error (A := response)); [exact Hn|exact Hp|reflexivity|left; reflexivity|reflexivity]. }
      destruct oc as [c|].
      2:{ apply exec_Ret in H1 as [-> H1]. injection H1 as ->. apply d_fail; [|page]. intros (cid' & c & Hc & Hi & _). listed. }
      apply d_ok; [exists cid, c; split; [exact E2|]; split; [left; reflexivity|exact I]|].
      destruct (ins uri (cl_redirects c)) eqn:Ei; cbn [negb] in H1.
      2:{ apply exec_Ret in H1 as [-> H1]. injection H1 as ->. apply d_fail; [|page]. intros (cid' & c' & Hc & [Hi|[]] & uri' & Hu' & Hr). injection Hi as -> ->. unfold data_has in Hu'. assert (uri' = uri) by congruence. subst. apply ins_In in Hr. congruence. }
      apply d_ok; [exists cid, c; split; [exact E2|]; split; [left; reflexivity|]; exists uri; split; [exact E1|apply ins_In; auto]|].
      destruct (ins (lit "code") (cl_responses c)) eqn:Er; cbn [negb] in H1; [apply exec_Ret in H1 as [_ H1]; discriminate|].
      apply exec_Ret in H1 as [-> H1]. injection H1 as ->. apply d_fail; [|apply out_back; try reflexivity; try discriminate; auto]. intros (cid' & c' & Hc & [Hi|[]] & Hr). injection Hi as -> ->.
      rewrite chars_lit in Hr. apply ins_In in Hr. congruence. }
  apply exec_pbind in H1 as [(oc & t5 & t6 & -> & H2 & H1)|(e' & He & H2)]; [|discriminate]. apply exec_call in H2. cbn [observe] in H2. subst t5. cbn [app] in *.
  destruct oc as [c'|]; [|apply exec_Ret in H1 as [_ H1]; discriminate].
  destruct (ins uri (cl_redirects c')) eqn:Ei; cbn [negb] in H1; [|apply exec_Ret in H1 as [_ H1]; discriminate].
  destruct (ins (lit "code") (cl_responses c')) eqn:Er; cbn [negb] in H1; [|apply exec_Ret in H1 as [_ H1]; discriminate].
  apply exec_Ret in H1 as [-> H1]. injection H1 as ->. cbn [app] in *.
  assert (Hfound : forall P : client -> Prop, P c' -> exists cid c, data_has r "client_id" cid /\ In (OFindClient cid (V (Some c))) (OFindClient cid (V (Some c')) :: t4) /\ P c).
  { intros P HP. exists cid, c'. split; [exact E2|]. split; [left; reflexivity|auto]. }
  assert (Hcid : forall P : client -> Prop, P c' -> exists cid0 c, data_has r "client_id" cid0 /\ In (OFindClient cid0 (V (Some c))) (OFindClient cid (V (Some c')) :: t4) /\ P c).
  { intros P HP. exists cid, c'. split; [exact E2|]. split; [left; reflexivity|auto]. }
  clear Hfound. apply d_ok; [apply Hcid; exact I|]. apply d_ok; [apply Hcid; exists uri; split; [exact E1|apply ins_In; auto]|]. apply d_ok; [apply Hcid; rewrite chars_lit; apply ins_In; auto|].
  assert (Harg : forall k, lit k <> lit "response_type" -> arg k (dremove (lit "response_type") (rq_data r)) = arg k (rq_data r)) by (intros; apply arg_dremove; auto).
  assert (Hpar : forall k, lit k <> lit "response_type" -> param k (dremove (lit "response_type") (rq_data r)) = param k (rq_data r)) by (intros; unfold param; apply lookup_dremove_other; auto).
  assert (Hexp : forall (tr : list obs) (x : res response) (q : prog str), exec (do url <- q ;; Ret (RedirectResponse url [])) tr x -> (forall e, x <> X (Py e)) ->
    exists w, exec q tr w /\ match w with V _ => exists a, x = V a | X e => x = X e end).
  { intros tr x q Hx Hpy. apply exec_pbind in Hx as [(url & s1 & s2 & -> & Hq & Hx)|(e & -> & Hq)]; [|exists (X e); auto]. apply exec_Ret in Hx as [-> ->]. rewrite app_nil_r. exists (V url). split; [auto|].
    unfold RedirectResponse in *. destruct (lift _) as [l|e] eqn:El; [eexists; reflexivity|]. apply lift_url in El as (e' & ->). exfalso. eapply Hpy. reflexivity. }
  destruct (Hexp _ _ _ H Hp) as (w & Hw & Hyw). clear H Hexp. unfold authorize, validate_authorization_request in Hw. rewrite !Harg, !Hpar in Hw by discriminate.
  assert (Hfail : forall e, exec (Ret (X e : res str)) t4 w -> t4 = [] /\ y = X e).
  { intros e Hx. apply exec_Ret in Hx as [-> ->]. auto. }
  assert (Hfst : forall k d n rest (P : Prop) (f : auth_data -> prog str), ~ P -> exec (do ad <- Ret (oraise k d (param "state" (rq_data r))) ;; f ad) t4 w -> error_code k = lit n -> (forall code, k <> Fatal code) -> error_code k <> [] -> d <> [] -> forall wo : wording, wo (Some d) ->
    exists v, decided ((P, Back n wo) :: rest) Granted v /\ out_is r (OFindClient cid (V (Some c')) :: t4) y v).
  { intros k d n rest P f HP Hx K1 K2 K3 K4 wo K5. apply exec_pbind in Hx as [(a & s1 & s2 & -> & H1 & Hx)|(e & -> & H1)]; apply exec_Ret in H1 as [-> H1]; [discriminate|]. injection H1 as ->. subst y.
    apply d_fail; [auto|]. eapply out_oraise; auto. }
  destruct (arg "code_challenge" (rq_data r)) as [ch|] eqn:E4; [|eapply Hfst; [apply not_supplied; auto|exact Hw|reflexivity|discriminate|discriminate|discriminate|reflexivity]].
  apply d_ok; [apply supplied_iff; eauto|]. apply arg_Some in E4 as [E4 N4].
  destruct (Nat.ltb (length ch) 43 || Nat.ltb 128 (length ch))%bool eqn:El.
  { eapply Hfst; [|exact Hw|reflexivity|discriminate|discriminate|discriminate|reflexivity]. intros (ch' & Hch & Hlen). unfold data_has in Hch. assert (ch' = ch) by congruence. subst. apply orb_true_iff in El as [El|El]; apply Nat.ltb_lt in El; lia. }
  apply orb_false_iff in El as [L1 L2]. apply Nat.ltb_ge in L1, L2. apply d_ok; [exists ch; split; [exact E4|lia]|].
  destruct (match param "code_challenge_method" (rq_data r) with Some m => challenges E m | None => None end) as [f|] eqn:E5.
  2:{ eapply Hfst; [|exact Hw|reflexivity|discriminate|discriminate|discriminate|]; [|unfold data_has, data_lacks, param; destruct (lookup (lit "code_challenge_method") (rq_data r)) as [m|]; eexists; (split; [|reflexivity]); auto]. unfold data_has. rewrite (chars_lit "plain"), (chars_lit "S256"). unfold param in E5. intros [Hmm|Hmm]; rewrite Hmm in E5; discriminate. }
  apply d_ok. { unfold data_has. rewrite (chars_lit "plain"), (chars_lit "S256"). unfold param in E5. destruct (lookup (lit "code_challenge_method") (rq_data r)) as [m|]; [|discriminate]. apply challenges_spec in E5 as [->| ->]; auto. }
  destruct (arg "scope" (rq_data r)) as [scope|] eqn:E6; [|eapply Hfst; [apply not_supplied; auto|exact Hw|reflexivity|discriminate|discriminate|discriminate|reflexivity]].
  apply d_ok; [apply supplied_iff; eauto|].
  assert (Hask : forall l, asked r l <-> l = words scope).
  { intros l. rewrite asked_iff. unfold cc_scopes. rewrite E6. split; congruence. }
  unfold param at 1 in Hw. rewrite E1 in Hw.
  apply exec_pbind in Hw as [(ad & s1 & s2 & -> & H1 & Hw)|(e & -> & H1)]; apply exec_Ret in H1 as [-> H1]; [|discriminate]. injection H1 as ->. cbn [app ad_scopes ad_state ad_redirect] in *.
  cbn [validate_requested_scopes] in Hw.
  destruct (check_supported_cases (pv_config p) (words scope) (param "state" (rq_data r))) as [[Hs1 Hs2]|[Hs1 (l1 & s & l2 & El & K1 & K2 & Hs2)]]; rewrite Hs2 in Hw; cbn [vbind] in Hw.
  2:{ apply exec_pbind in Hw as [(a & q1 & q2 & -> & H1 & Hx)|(e & -> & H1)]; apply exec_Ret in H1 as [-> H1]; [discriminate|]. injection H1 as ->. subst y.
      apply d_fail; [intros Hl; apply Hs1, Hl, Hask; reflexivity|]. apply out_back; try reflexivity; try discriminate; auto.
      exists s. split; [|reflexivity]. exists l1, l2. split; [apply Hask; auto|auto]. }
  apply d_ok; [intros l Hl; apply Hask in Hl as ->; auto|].
  destruct (subsetb (words scope) (cl_allowed c' (Some (words scope)))) eqn:Es.
  2:{ apply exec_pbind in Hw as [(a & q1 & q2 & -> & H1 & Hx)|(e & -> & H1)]; apply exec_Ret in H1 as [-> H1]; [discriminate|]. injection H1 as ->. subst y.
      apply d_fail; [|apply out_back; try reflexivity; try discriminate; auto]. intros (cid' & c & _ & [Hi|[]] & Hl). injection Hi as -> ->. specialize (Hl _ (proj2 (Hask _) eq_refl)). apply subsetb_incl in Hl. congruence. }
  apply subsetb_incl in Es. apply d_ok; [apply Hcid; intros l Hl; apply Hask in Hl as ->; auto|]. apply d_end.
  apply exec_pbind in Hw as [([] & q1 & q2 & -> & H1 & Hw)|(e & -> & H1)]; apply exec_Ret in H1 as [-> H1]; [|discriminate]. cbn [app] in *.
  apply exec_pbind in Hw as [(code & q1 & q3 & -> & H2 & Hw)|(e & -> & H2)]; apply exec_call in H2; cbn [observe] in H2; subst; cbn [app] in *.
  2:{ exfalso. eapply (app_error (A := response)); [exact Hn|exact Hp|reflexivity|right; left; reflexivity|reflexivity]. }
  apply exec_pbind in Hw as [([] & q1 & q4 & -> & H2 & Hw)|(e & -> & H2)]; apply exec_call in H2; cbn [observe] in H2; subst; cbn [app] in *.
  2:{ exfalso. eapply (app_error (A := response)); [exact Hn|exact Hp|reflexivity|right; right; left; reflexivity|reflexivity]. }
  apply exec_Ret in Hw as [-> Hw]. destruct w as [url|e].
  - destruct Hyw as [a ->]. cbn [out_is]. do 4 eexists. split; [right; right; left; reflexivity|]. exact E1.
  - subst y. unfold authorization_response in Hw. symmetry in Hw. apply lift_url in Hw as (e' & ->). exfalso. eapply Hp. reflexivity.
Qed.
Lemma error_redirects p r tr e z v {A} (y : res A) : error_redirect (pv_config p) (rq_data r) e = V z -> y = X (OA e) -> out_is r tr y v -> authorization_verdict (pv_config p) r z v.
Proof.
  intros Hz -> Ho. destruct v as [n w|n w|]; [| |destruct Ho]; cbn [authorization_verdict].
  - destruct Ho as (Hk & Hl & Hw). destruct (lib_redirect _ _ _ _ _ Hz Hl ltac:(discriminate)) as (uri & Hu & Hr). rewrite Hk in Hu. subst uri. exists (error_params e). split; [auto|]. apply params_carry; [rewrite Hk; reflexivity|exact Hw].
  - destruct Ho as (Hk & Hf & (st & Hl & Hs) & Hw). destruct (lib_redirect _ _ _ _ _ Hz Hl Hs) as (uri & Hu & Hr). exists uri, (error_params e). split; [destruct (oe_kind e); try exact Hu; destruct (Hf _ eq_refl)|]. split; [auto|]. apply params_carry; auto.
Qed.
Lemma p_authorization_checks p hs r tr z : exec (authorization_endpoint E p hs r) tr (V z) -> made r -> no_oauth_raise tr -> tokens_ok tr ->
  exists v, decided (authorization_checks p r tr) Granted v /\ authorization_verdict (pv_config p) r z v.
Proof.
  intros H Hm Hn Ht. pose proof H as H0.
  assert (Hb : exists y, exec (authz_body E p hs r) tr y /\ V z = match y with X (OA e) => error_redirect (pv_config p) (rq_data r) e | y => y end).
  { change (authorization_endpoint E p hs r) with (pexcept (authz_body E p hs r) (fun e => Ret (error_redirect (pv_config p) (rq_data r) e))) in H.
    apply exec_pexcept in H as [(e & t1 & t2 & -> & H1 & H)|[H H1]].
    - apply exec_Ret in H as [-> ->]. rewrite app_nil_r. exists (X (OA e)). auto.
    - exists (V z). auto. }
  clear H. destruct Hb as (y & H & Hz).
  destruct (authorization_out _ _ _ _ _ H Hm Hn) as (v & Hv & Ho); [intros e ->; discriminate|]. exists v. split; [auto|].
  destruct y as [q|[e|e]]; [|symmetry in Hz|destruct Ho].
  - destruct v; try destruct Ho. cbn [authorization_verdict]. change chars with lit. destruct H1 as (ad & c & u & Hs & Hu). injection Hz as <-.
    destruct (p_code_sent _ _ _ _ _ _ H0 Hm Hn Ht) as (uri' & ps & H3 & _ & H5). destruct (H5 _ _ _ _ _ Hs) as [<- ->]. do 3 eexists. split; [exact Hu|]. split; [exact H3|]. split; [left; reflexivity|].
    intros w [Hw|Hw]; [discriminate|]. unfold state_params in Hw. destruct (lookup _ _); [destruct Hw as [Hw|[]]; discriminate|destruct Hw].
  - eapply error_redirects; [exact Hz|reflexivity|exact Ho].
Qed.

(** ** Consent *)
Lemma p_consent_checks p r tr z : exec (get_consent_data p r) tr (V z) -> made r -> no_oauth_raise tr ->
  exists v, decided (consent_checks r tr) Granted v /\ consent_verdict (pv_config p) r tr z v.
Proof.
  intros H Hm Hn. assert (Hst : param "state" (rq_data r) <> Some []) by (apply made_nonblank; auto).
  unfold get_consent_data in H. apply exec_pexcept in H.
  assert (Hb : exists y, exec (do (uri, cid, rt) <- Ret (validate_request (rq_data r)) ;;
     do c <- validate_client cid uri rt (param "state" (rq_data r)) ;;
     match arg "scope" (rq_data r) with
     | None => Ret (oraise InvalidRequest (lit "Missing required parameter ""scope"".") None)
     | Some scope => ret (Consent c (cl_allowed c (Some (words scope))))
     end) tr y /\ (match y with V q => z = q | X (Py _) => False | X (OA e) => exists q, z = ConsentRedirect q /\ error_redirect (pv_config p) (rq_data r) e = V q end)).
  { destruct H as [(e & t1 & t2 & -> & H1 & H)|[H _]]; [|exists (V z); auto]. exists (X (OA e)).
    apply exec_pbind in H as [(q & s1 & s2 & -> & H2 & H)|(e' & He & _)]; [|discriminate]. apply exec_Ret in H2 as [-> H2]. apply exec_Ret in H as [-> H]. injection H as ->. rewrite app_nil_r. split; [exact H1|eauto]. }
  clear H. destruct Hb as (y & H & Hz).
  assert (Hp : forall e, y <> X (Py e)) by (intros e ->; exact Hz).
  assert (Hgo : forall e v, y = X (OA e) -> out_is r [] (X (OA e) : res consent) v -> v <> Granted -> consent_verdict (pv_config p) r tr z v).
  { intros e v -> Ho Hv. destruct Hz as (q & -> & Hq). pose proof (error_redirects _ _ _ _ _ _ _ Hq eq_refl Ho) as Hr. destruct v; [eexists; eauto|eexists; eauto|contradiction]. }
  assert (Hpage : forall d, y = fatal (lit d) -> lit d <> [] -> consent_verdict (pv_config p) r tr z (Page "invalid_request" (says d))).
  { intros d Hy Hd. eapply Hgo; [exact Hy| |discriminate]. exact (out_page (A := consent) r [] d Hd). }
  unfold consent_checks, request_checks. cbn [app].
  destruct (arg "redirect_uri" (rq_data r)) as [uri|] eqn:E1.
  2:{ unfold validate_request in H. destruct (rq_data r) as [|x l] eqn:Ed.
      - apply d_fail; [auto|]. xinv; try discriminate. match goal with H : X _ = _ |- _ => injection H as -> end. eapply Hpage; [reflexivity|discriminate].
      - apply d_ok; [congruence|]. apply d_fail; [apply not_supplied; rewrite Ed; auto|]. rewrite E1 in H. xinv; try discriminate. match goal with H : X _ = _ |- _ => injection H as -> end. eapply Hpage; [reflexivity|discriminate]. }
  assert (Hne : rq_data r <> []) by (intros He; rewrite He in E1; discriminate). apply d_ok; [exact Hne|].
  apply d_ok; [apply supplied_iff; eauto|].
  replace (validate_request (rq_data r)) with (match arg "client_id" (rq_data r) with
          | None => fatal (lit "Missing required parameter ""client_id"".")
          | Some cid => match arg "response_type" (rq_data r) with None => fatal (lit "Missing required parameter ""response_type"".") | Some rt => V (uri, cid, rt) end end) in H.
  2:{ unfold validate_request. rewrite E1. destruct (rq_data r); [contradiction|reflexivity]. }
  destruct (arg "client_id" (rq_data r)) as [cid|] eqn:E2.
  2:{ apply d_fail; [apply not_supplied; auto|]. apply exec_pbind in H as [(a & s1 & s2 & -> & H1 & H)|(e & -> & H1)]; apply exec_Ret in H1 as [-> H1]; [discriminate|]. injection H1 as ->. eapply Hpage; [reflexivity|discriminate]. }
  apply d_ok; [apply supplied_iff; eauto|].
  destruct (arg "response_type" (rq_data r)) as [rt|] eqn:E3.
  2:{ apply d_fail; [apply not_supplied; auto|]. apply exec_pbind in H as [(a & s1 & s2 & -> & H1 & H)|(e & -> & H1)]; apply exec_Ret in H1 as [-> H1]; [discriminate|]. injection H1 as ->. eapply Hpage; [reflexivity|discriminate]. }
  apply d_ok; [apply supplied_iff; eauto|].
  apply arg_Some in E1 as [E1 N1], E2 as [E2 N2], E3 as [E3 N3].
  apply exec_pbind in H as [([[uri' cid'] rt'] & t1 & t2 & -> & H1 & H)|(e & -> & H1)]; apply exec_Ret in H1 as [-> H1]; [|discriminate]. injection H1 as -> -> ->. cbn [app] in *.
  unfold validate_client in H.
  apply exec_pbind in H as [(c & t1 & t4 & -> & H1 & H)|(e & -> & H1)].
  2:{ apply exec_pbind in H1 as [(oc & t1 & t4 & -> & H2 & H1)|(e' & He & H2)]; apply exec_call in H2; cbn [observe] in H2; subst; cbn [app] in *.
      2:{ injection He as ->. exfalso. eapply (app_error (A := consent)); [exact Hn|exact Hp|reflexivity|left; reflexivity|reflexivity]. }
      destruct oc as [c|].
      2:{ apply exec_Ret in H1 as [-> H1]. injection H1 as ->. apply d_fail; [|eapply Hpage; [reflexivity|discriminate]]. intros (cid' & c & Hc & Hi & _). listed. }
      apply d_ok; [exists cid, c; split; [exact E2|]; split; [left; reflexivity|exact I]|].
      destruct (ins uri (cl_redirects c)) eqn:Ei; cbn [negb] in H1.
      2:{ apply exec_Ret in H1 as [-> H1]. injection H1 as ->. apply d_fail; [|eapply Hpage; [reflexivity|discriminate]]. intros (cid' & c' & Hc & [Hi|[]] & uri' & Hu' & Hr). injection Hi as -> ->. unfold data_has in Hu'. assert (uri' = uri) by congruence. subst. apply ins_In in Hr. congruence. }
      apply d_ok; [exists cid, c; split; [exact E2|]; split; [left; reflexivity|]; exists uri; split; [exact E1|apply ins_In; auto]|].
      destruct (ins rt (cl_responses c)) eqn:Er; cbn [negb] in H1; [apply exec_Ret in H1 as [_ H1]; discriminate|].
      apply exec_Ret in H1 as [-> H1]. injection H1 as ->. apply d_fail.
      - intros (cid' & c' & Hc & [Hi|[]] & t & Ht & Hr). injection Hi as -> ->. unfold data_has in Ht. assert (t = rt) by congruence. subst. apply ins_In in Hr. congruence.
      - eapply Hgo; [reflexivity| |discriminate]. apply (out_back (A := consent) r [] UnauthorizedClient None); try reflexivity; try discriminate; auto. }
  apply exec_pbind in H1 as [(oc & t5 & t6 & -> & H2 & H1)|(e' & He & H2)]; [|discriminate]. apply exec_call in H2. cbn [observe] in H2. subst t5. cbn [app] in *.
  destruct oc as [c'|]; [|apply exec_Ret in H1 as [_ H1]; discriminate].
  destruct (ins uri (cl_redirects c')) eqn:Ei; cbn [negb] in H1; [|apply exec_Ret in H1 as [_ H1]; discriminate].
  destruct (ins rt (cl_responses c')) eqn:Er; cbn [negb] in H1; [|apply exec_Ret in H1 as [_ H1]; discriminate].
  apply exec_Ret in H1 as [-> H1]. injection H1 as ->. cbn [app] in *.
  assert (Hcid : forall P : client -> Prop, P c' -> exists cid0 c, data_has r "client_id" cid0 /\ In (OFindClient cid0 (V (Some c))) (OFindClient cid (V (Some c')) :: t4) /\ P c).
  { intros P HP. exists cid, c'. split; [exact E2|]. split; [left; reflexivity|auto]. }
  apply d_ok; [apply Hcid; exact I|]. apply d_ok; [apply Hcid; exists uri; split; [exact E1|apply ins_In; auto]|]. apply d_ok; [apply Hcid; exists rt; split; [exact E3|apply ins_In; auto]|].
  destruct (arg "scope" (rq_data r)) as [scope|] eqn:E6; apply exec_Ret in H as [-> ->].
  - apply d_ok; [apply supplied_iff; eauto|]. apply d_end. subst z. apply arg_Some in E6 as [E6 _]. exists cid, c', scope, (words scope). split; [reflexivity|]. split; [exact E2|]. split; [left; reflexivity|]. split; [exact E6|].
    apply words_iff. reflexivity.
  - apply d_fail; [apply not_supplied; auto|]. eapply Hgo; [reflexivity| |discriminate]. apply (out_back (A := consent) r [] InvalidRequest (Some (lit "Missing required parameter ""scope"".")) None); try reflexivity; try discriminate.
Qed.

(** ** Revocation endpoint *)
Lemma p_revocation_checks r tr z : exec (revocation_endpoint r) tr (V z) -> no_oauth_raise tr -> exists v, decided (revocation_checks r tr) Revoked v /\ revocation_verdict z v.
Proof.
  intros H Hn. unfold revocation_checks.
  assert (Herr : forall e t2, exec (do x <- Ret (JSONResponse (match oe_kind e with InvalidClient => 401 | _ => 400 end) (oe_headers e) (PDict (dump e))) ;; ret (Some x)) t2 (V z) -> t2 = [] /\
    forall n st (w : wording), error_code (oe_kind e) = lit n -> st = match oe_kind e with InvalidClient => 401 | _ => 400 end -> w (oe_desc e) -> revocation_verdict z (Refused st n w)).
  { intros e t2 Hx. apply exec_pbind in Hx as [(q & s1 & s2 & -> & H1 & Hx)|(e' & He & _)]; [|discriminate]. apply exec_Ret in H1 as [-> H1]. apply exec_Ret in Hx as [-> Hx]. injection Hx as ->. split; [reflexivity|].
    symmetry in H1. apply json_response_V in H1 as (K1 & K2 & _); [|apply dump_wf]. intros n st w Hc -> Hw. exists q, (dump e). split; [reflexivity|]. split; [auto|]. split; [auto|]. apply dump_tells; auto. }
  unfold revocation_endpoint in H. apply exec_pexcept in H as [(e & t1 & t2 & -> & H & Hx)|[H _]].
  - apply Herr in Hx as [-> Hx]. rewrite app_nil_r in *. clear Herr.
    apply exec_pbind in H as [(c & s1 & s2 & -> & H1 & H)|(e' & He & H1)].
    2:{ injection He as <-. apply auth_decides in H1; [|auto|discriminate]. destruct H1 as [(c & ? & ? & ? & H1 & _)|(e' & H1 & Hk & Hno)]; [discriminate|]. injection H1 as <-.
        edestruct Hno as (w & Hw & Ht). eexists. split; [exact Hw|]. apply Hx; [rewrite Hk; reflexivity|rewrite Hk; reflexivity|exact Ht]. }
    apply no_oauth_app in Hn as [Hn1 Hn2]. apply auth_decides in H1; [|auto|discriminate]. destruct H1 as [(c' & name & i & s & [= <-] & -> & Hu & Hs & Hmm)|(e' & H1 & _)]; [|discriminate]. cbn [app] in *.
    eapply credentials_hold; [eapply proved_here; eauto|]. cbv zeta in H.
    destruct (arg "token" (form r)) as [k|] eqn:Ek; [|apply exec_Ret in H as [_ H]; discriminate]. apply arg_Some in Ek as [Ek Nk]. apply d_ok; [exists k; split; [exact Ek|auto]|].
    assert (Hcall : exec (do _ <- call (RevokeToken c k (param "token_type_hint" (form r))) ;; do x <- Ret (JSONResponse 200 [] PNone) ;; ret (Some x)) s2 (X (OA e)) -> False).
    { intros Hc. apply exec_pbind in Hc as [([] & q1 & q2 & -> & H1 & Hc)|(e' & He & H1)].
      - apply exec_pbind in Hc as [(a & q3 & q4 & -> & H2 & Hc)|(e' & He & H2)]; [apply exec_Ret in Hc as [_ Hc]; discriminate|]. apply exec_Ret in H2 as [_ H2]. unfold JSONResponse in H2. cbn in H2. discriminate.
      - injection He as <-. apply exec_call in H1 as ->. eapply oa_raise; [exact Hn2|left; reflexivity|reflexivity]. }
    destruct (arg "token_type_hint" (form r)) as [h|] eqn:Eh; [|destruct (Hcall H)]. destruct (ins h supported_tokens) eqn:Ei; cbn [negb] in H; [destruct (Hcall H)|].
    apply exec_Ret in H as [-> H]. injection H as ->. apply arg_Some in Eh as [Eh Nh]. apply d_fail; [|apply Hx; reflexivity].
    intros Hall. destruct (Hall h Eh Nh) as [->| ->]; rewrite chars_lit in Ei; discriminate.
  - apply exec_pbind in H as [(c & s1 & s2 & -> & H1 & H)|(e' & He & H1)]; [|discriminate]. apply no_oauth_app in Hn as [Hn1 Hn2].
    apply auth_decides in H1; [|auto|discriminate]. destruct H1 as [(c' & name & i & s & [= <-] & -> & Hu & Hs & Hmm)|(e' & H1 & _)]; [|discriminate]. cbn [app] in *.
    eapply credentials_hold; [eapply proved_here; eauto|]. cbv zeta in H.
    destruct (arg "token" (form r)) as [k|] eqn:Ek.
    2:{ apply exec_Ret in H as [-> H]. injection H as ->. apply d_fail; [|reflexivity]. intros (k & Hk & Nk). assert (arg "token" (form r) = Some k) by (apply arg_Some; auto). congruence. }
    apply arg_Some in Ek as [Ek Nk]. apply d_ok; [exists k; split; [exact Ek|auto]|].
    assert (Hcall : exec (do _ <- call (RevokeToken c k (param "token_type_hint" (form r))) ;; do x <- Ret (JSONResponse 200 [] PNone) ;; ret (Some x)) s2 (V z) -> revocation_verdict z Revoked).
    { intros Hc. apply exec_pbind in Hc as [([] & q1 & q2 & -> & H1 & Hc)|(e' & He & H1)]; [|discriminate].
      apply exec_pbind in Hc as [(a & q3 & q4 & -> & H2 & Hc)|(e' & He & H2)]; [|discriminate]. apply exec_Ret in Hc as [-> Hc]. injection Hc as ->. apply exec_Ret in H2 as [_ H2].
      exists a. split; [reflexivity|]. unfold JSONResponse in H2. symmetry in H2. apply vbind_V in H2 as (b & _ & H2). injection H2 as <-. reflexivity. }
    destruct (arg "token_type_hint" (form r)) as [h|] eqn:Eh.
    + destruct (ins h supported_tokens) eqn:Ei; cbn [negb] in H; [|apply exec_Ret in H as [_ H]; discriminate]. apply arg_Some in Eh as [Eh Nh]. apply ins_In in Ei.
      apply d_ok; [|apply d_end, Hcall, H]. intros h' Hh' _. unfold form_has in Hh'. assert (h' = h) by congruence. subst h'. rewrite !chars_lit. cbn [supported_tokens In] in Ei. destruct Ei as [Ei|[Ei|[]]]; auto.
    + apply d_ok; [|apply d_end, Hcall, H]. intros h' Hh' Nh'. assert (arg "token_type_hint" (form r) = Some h') by (apply arg_Some; auto). congruence.
Qed.
End WithEnv.
