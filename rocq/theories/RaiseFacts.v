(** Which exceptions leave the token and revocation endpoints: lemmas for C56. *)
From Coq Require Import String Ascii List NArith ZArith Bool Lia.
From Verif Require Import Base BaseFacts Utf8 Utf8Facts Base64 Base64Facts SpecCodec Json JsonFacts Url UrlFacts Webtools WebtoolsFacts Crypto Jwk Jws Jwt Prog ProgFacts Http OAuth SpecOAuth HeaderFacts OAuthFacts GrantFacts EndpointFacts RequestFacts AuthzFacts TokenFacts ResponseFacts IssueFacts.
Import ListNotations.
Open Scope N_scope.

(** ** Parsed parameters are encodable *)
Lemma utf8_replace_scalar b : scalar_str (utf8_replace b).
Proof.
  assert (H : forall n b, (length b <= n)%nat -> scalar_str (utf8_replace b)); [|apply (H (length b)); auto].
  clear b. induction n as [|n IH]; intros [|b0 t0] Hn; simpl in Hn; [constructor|lia|constructor|].
  assert (Hf : is_scalar FFFD = true) by reflexivity.
  cbn [utf8_replace]. destruct (b0 <? 128) eqn:E0. { constructor; [unfold is_scalar; apply N.ltb_lt in E0; lia|apply IH; lia]. }
  destruct (lead2 b0) eqn:E2.
  { destruct t0 as [|b1 t1]; [constructor; [auto|constructor]|]. simpl in Hn. destruct (is_cont b1) eqn:C1.
    - constructor; [|apply IH; lia]. eapply enc1_inv. apply enc_dec2; eauto.
    - constructor; [auto|]. apply IH. simpl. lia. }
  destruct (lead3 b0) eqn:E3.
  { destruct t0 as [|b1 t1]; [constructor; [auto|constructor]|]. simpl in Hn. destruct (cont3 b0 b1) eqn:C1.
    - destruct t1 as [|b2 t2]; [constructor; [auto|constructor]|]. simpl in Hn. destruct (is_cont b2) eqn:C2.
      + constructor; [|apply IH; lia]. eapply enc1_inv. apply enc_dec3; eauto.
      + constructor; [auto|]. apply IH. simpl. lia.
    - constructor; [auto|]. apply IH. simpl. lia. }
  destruct (lead4 b0) eqn:E4.
  { destruct t0 as [|b1 t1]; [constructor; [auto|constructor]|]. simpl in Hn. destruct (cont4 b0 b1) eqn:C1.
    - destruct t1 as [|b2 t2]; [constructor; [auto|constructor]|]. simpl in Hn. destruct (is_cont b2) eqn:C2.
      + destruct t2 as [|b3 t3]; [constructor; [auto|constructor]|]. simpl in Hn. destruct (is_cont b3) eqn:C3.
        * constructor; [|apply IH; lia]. eapply enc1_inv. apply enc_dec4; eauto.
        * constructor; [auto|]. apply IH. simpl. lia.
      + constructor; [auto|]. apply IH. simpl. lia.
    - constructor; [auto|]. apply IH. simpl. lia. }
  constructor; [auto|]. apply IH. lia.
Qed.
Lemma unquote_aux_scalar s : scalar_str s -> forall acc, scalar_str (unquote_aux s acc).
Proof.
  induction 1 as [|c s Hc Hs IH]; intros acc; simpl; [apply utf8_replace_scalar|]. destruct (c <? 128); [apply IH|].
  apply Forall_app. split; [apply utf8_replace_scalar|]. constructor; [auto|apply IH].
Qed.
Lemma unquote_plus_scalar s : scalar_str s -> scalar_str (unquote_plus s).
Proof.
  intros H. apply unquote_aux_scalar. unfold scalar_str in *. apply Forall_map. eapply Forall_impl; [|exact H].
  intros c Hc. simpl. destruct (c =? 43); [reflexivity|auto].
Qed.
Lemma split1_parts (P : N -> Prop) c s a b : split1 c s = Some (a, b) -> Forall P s -> Forall P a /\ Forall P b.
Proof.
  revert a b. induction s as [|x s IH]; simpl; intros a b H Hs; [discriminate|]. inversion Hs as [|? ? Hx Hs']; subst.
  destruct (x =? c); [injection H as <- <-; auto|]. destruct (split1 c s) as [[a' b']|]; [|discriminate]. injection H as <- <-.
  destruct (IH a' b' eq_refl Hs'). split; [constructor; auto|auto].
Qed.
Lemma split_on_parts (P : N -> Prop) c s : Forall P s -> Forall (Forall P) (split_on c s).
Proof.
  induction 1 as [|x s Hx Hs IH]; simpl; [repeat constructor|]. destruct (x =? c); [constructor; [constructor|auto]|].
  destruct (split_on c s); inversion IH; subst; repeat constructor; auto.
Qed.
Lemma parse_qsl_scalar q : scalar_str q -> Forall (fun kv => scalar_str (snd kv)) (parse_qsl q).
Proof.
  intros H. unfold parse_qsl. apply (split_on_parts _ 38) in H. induction H as [|p l Hp Hl IH]; simpl; [constructor|].
  apply Forall_app. split; [|auto]. unfold parse_piece. destruct (split1 61 p) as [[n v]|] eqn:Es; [|constructor].
  destruct (split1_parts _ _ _ _ _ Es Hp) as [_ Hv]. destruct v; [constructor|]. constructor; [|constructor]. simpl. apply unquote_plus_scalar. auto.
Qed.
Lemma urldecode_scalar q : scalar_str q -> Forall (fun kv => scalar_str (snd kv)) (urldecode q).
Proof. intros H. unfold urldecode, dict_of. apply (Forall_dupdate scalar_str); [apply parse_qsl_scalar; auto|constructor]. Qed.
Lemma to_string_scalar b : bytes_ok b -> scalar_str (to_string b).
Proof.
  intros Hb. unfold to_string. destruct (utf8_decode b) as [s|] eqn:Ed.
  - apply utf8_encode_decode in Ed. eapply utf8_encode_ok; eauto.
  - apply scalar_small. apply url_chars_ascii. apply base64url_encode_url. auto.
Qed.
Lemma lstrip_scalar u : scalar_str u -> scalar_str (lstrip_ctl u).
Proof. induction 1 as [|c u Hc Hu IH]; simpl; [constructor|]. destruct (c <=? 32); [auto|constructor; auto]. Qed.
Lemma url_query_scalar u : scalar_str u -> scalar_str (url_query (clean_url u)).
Proof.
  intros H. assert (Hc : scalar_str (clean_url u)).
  { unfold clean_url. apply lstrip_scalar in H. unfold scalar_str in *. rewrite Forall_forall in *. intros c Hc. apply filter_In in Hc as [Hc _]. auto. }
  unfold url_query, url_nofrag. destruct (split1 35 (clean_url u)) as [[a b]|] eqn:E1.
  - destruct (split1_parts _ _ _ _ _ E1 Hc) as [Ha _]. destruct (split1 63 a) as [[a' b']|] eqn:E2; [|constructor]. apply (split1_parts _ _ _ _ _ E2 Ha).
  - destruct (split1 63 (clean_url u)) as [[a' b']|] eqn:E2; [|constructor]. apply (split1_parts _ _ _ _ _ E2 Hc).
Qed.
Lemma made_scalar m url h b u r : make_request m url h b u = Ok r -> scalar_str url -> match b with Some b => bytes_ok b | None => True end -> scalar_data (rq_data r).
Proof.
  unfold make_request. intros H Hu Hb. apply rbind_ok in H as ([] & _ & H). apply rbind_ok in H as ([] & _ & H). injection H as <-. cbn [rq_data].
  unfold scalar_data. apply (Forall_dupdate scalar_str).
  - unfold form_of. destruct b as [b|]; [|constructor]. apply urldecode_scalar, to_string_scalar. auto.
  - apply urldecode_scalar, url_query_scalar. auto.
Qed.

(** ** Exceptions other than OAuth2Error *)
Definition py {A} (P : exn -> Prop) (p : prog A) : Prop := forall tr e, exec p tr (X (Py e)) -> P e \/ from_app tr (Py e).
Section WithEnv.
Variable E : env.

(** The texts that the application gave are encodable. *)
Lemma unwords_scalar l : Forall scalar_str l -> scalar_str (unwords l).
Proof. intros H. apply scalar_join; [repeat constructor; reflexivity|auto]. Qed.
Lemma create_token_flat a n rt sc : scalar_str a -> scalar_opt rt -> Forall scalar_str sc -> flat_dict (create_token a n rt sc).
Proof.
  intros Ha Hr Hs. unfold flat_dict, create_token.
  destruct rt as [rt|], sc as [|s sc]; cbn [pstr]; simpl FullDict; repeat (apply Forall_cons; [split; [slit|simpl; auto; try slit]|]); try apply Forall_nil; apply unwords_scalar; auto.
Qed.
Lemma incl_scalar sc l : Forall scalar_str l -> incl sc l -> Forall scalar_str sc.
Proof. intros H Hi. rewrite Forall_forall in *. auto. Qed.

Inductive code_py (data : params) (tr : list obs) : exn -> Prop :=
| CP_missing : param "code" data = None -> code_py data tr KeyError
| CP_verifier : forall code ac v, In (OGetCode code (V (Some ac))) tr -> ac_method ac = lit "S256" -> param "code_verifier" data = Some v ->
    ~ Forall (fun c => c < 128) v -> code_py data tr UnicodeEncodeError
| CP_aware : forall code ac t, In (OGetCode code (V (Some ac))) tr -> ac_exp ac = Aware t -> code_py data tr TypeError.
Lemma vac_py uri v ac c tr e : exec (validate_authorization_code E uri v ac c) tr (X (Py e)) -> no_raise tr ->
  (e = UnicodeEncodeError /\ ac_method ac = lit "S256" /\ ~ Forall (fun c => c < 128) v) \/ (e = TypeError /\ exists t, ac_exp ac = Aware t).
Proof.
  unfold validate_authorization_code. intros H Hn.
  destruct (negb (ins uri _)); [apply exec_Ret in H as [_ H]; discriminate|].
  destruct (negb (eqs (cl_id c) _)); [apply exec_Ret in H as [_ H]; discriminate|].
  destruct (negb (eqs uri _)); [apply exec_Ret in H as [_ H]; discriminate|].
  destruct (challenges E (ac_method ac)) as [f|] eqn:Ef; [|apply exec_Ret in H as [_ H]; discriminate].
  apply exec_pbind in H as [(ok & t1 & t2 & -> & H1 & H)|(e' & He & H1)].
  - apply exec_Ret in H1 as [-> _]. destruct ok; cbn [negb] in H; [|apply exec_Ret in H as [_ H]; discriminate].
    apply exec_pbind in H as [([now off] & t3 & t4 & -> & H1 & H)|(e' & He & H1)].
    + apply exec_pbind in H as [(late & t5 & t6 & -> & H2 & H)|(e' & He & H2)].
      * destruct late; apply exec_Ret in H as [_ H]; discriminate.
      * right. apply exec_Ret in H2 as [_ H2]. injection He as <-. unfold expired in H2. destruct (ac_exp ac); [discriminate|]. injection H2 as ->. eauto.
    + apply exec_call in H1. subst. exfalso. injection He as <-. specialize (Hn _ (or_introl eq_refl)). discriminate.
  - left. injection He as <-. apply exec_Ret in H1 as [_ H1]. unfold challenges in Ef.
    destruct (eqs_spec (ac_method ac) (lit "plain")); [injection Ef as <-; discriminate|].
    destruct (eqs_spec (ac_method ac) (lit "S256")) as [Hm|]; [|discriminate]. injection Ef as <-. unfold S256_challenge, ascii_encode in H1.
    destruct (forallb _ v) eqn:Ev; [discriminate|]. injection H1 as ->. split; [auto|]. split; [auto|].
    intros Hv. rewrite Forall_forall in Hv. assert (forallb (fun c => c <? 128) v = true); [|congruence]. apply forallb_forall. intros z Hz. apply N.ltb_lt. auto.
Qed.
Lemma no_raise_app t1 t2 : no_raise (t1 ++ t2) <-> no_raise t1 /\ no_raise t2.
Proof.
  unfold no_raise. split.
  - intros H. split; intros o Hin; apply H, in_app_iff; auto.
  - intros [H1 H2] o Hin. apply in_app_iff in Hin as [Hin|Hin]; auto.
Qed.
Lemma no_raise_cons o t : no_raise (o :: t) <-> raised o = None /\ no_raise t.
Proof.
  unfold no_raise. split.
  - intros H. split; [apply H; left; auto|]. intros o' Hin. apply H. right. auto.
  - intros [H1 H2] o' [<-|Hin]; auto.
Qed.
Lemma raise_absurd tr o e : no_raise tr -> In o tr -> raised o = Some e -> False.
Proof. intros H Hin He. rewrite (H o Hin) in He. discriminate. Qed.
Lemma code_py_exec cfg hs data c tr e : hk_response hs = [] -> exec (code_token E cfg hs data c) tr (X (Py e)) -> no_raise tr -> code_py data tr e.
Proof.
  intros Hh H Hn. apply code_token_exec in H as (t1 & y & Hx & [(Hp & -> & He)|(code & z & Hp & -> & He)]).
  { injection He as ->. constructor. auto. }
  apply no_raise_app in Hn as [Hn Hz]. apply no_raise_cons in Hz as [Hz _]. destruct z as [[]|]; [|discriminate]. subst y.
  apply exchange_exec in Hx as [(_ & d & He & _)|(code' & uri & v & Hv & Hx)]; [discriminate|].
  apply validate_code_request_V in Hv as (Hc & _ & Hv). apply arg_Some in Hc as [Hc _]. unfold param in Hp.
  destruct Hx as [(e' & -> & He)|[(d & _ & He)|(ac & t2 & Hnow & Hx)]]; [|discriminate|].
  { injection He as <-. exfalso. eapply raise_absurd; [exact Hn|left; reflexivity|reflexivity]. }
  destruct Hx as [(e' & Hx & -> & He)|[_ Hx]].
  - injection He as <-. apply no_raise_cons in Hn as [_ Hn]. apply vac_py in Hx as [(-> & Hm & Hv')|(-> & t & Ht)]; [| |auto].
    + apply arg_Some in Hv as [Hv _]. eapply (CP_verifier _ _ code' ac v); auto. apply in_app_iff. left. left. auto.
    + eapply (CP_aware _ _ code' ac t); auto. apply in_app_iff. left. left. auto.
  - destruct Hx as [(e' & -> & He)|[(d & _ & He)|(u & t3 & -> & Hi)]]; [|discriminate|].
    + injection He as <-. exfalso. eapply raise_absurd; [exact Hn| |]; [right; apply in_app_iff; right; left; reflexivity|reflexivity].
    + exfalso. destruct Hi as [(e' & -> & He) | (a & [(e' & -> & He & _) | (rt & t4 & t5 & -> & _ & Hx)])].
      * injection He as <-. eapply raise_absurd; [exact Hn| |]; [right; apply in_app_iff; right; right; left; reflexivity|reflexivity].
      * injection He as <-. eapply raise_absurd; [exact Hn| |]; [right; apply in_app_iff; right; right; right; left; reflexivity|reflexivity].
      * rewrite Hh in Hx. simpl in Hx. destruct Hx as [_ Hx]. discriminate.
Qed.
Lemma refresh_py_exec cfg data c tr e : exec (refresh_grant E cfg data c) tr (X (Py e)) -> no_raise tr ->
  exists token t d, In (OGetRT token (V (Some t))) tr /\ rt_exp t = Aware d /\ e = TypeError.
Proof.
  unfold refresh_grant. intros H Hn. apply exec_pbind in H as [([token req] & t1 & t2 & -> & H1 & H)|(e' & He & H1)].
  2:{ injection He as <-. apply exec_Ret in H1 as [_ H1]. unfold validate_refresh_request in H1. destruct (arg _ data); discriminate. }
  apply exec_Ret in H1 as [-> _]. cbn [app] in *.
  apply exec_pbind in H as [(ot & t3 & t4 & -> & H1 & H)|(e' & He & H1)]; apply exec_call in H1; cbn [observe] in H1; subst.
  2:{ injection He as <-. exfalso. eapply raise_absurd; [exact Hn|left; reflexivity|reflexivity]. }
  destruct ot as [t|]; [|apply exec_Ret in H as [_ H]; discriminate]. cbn [app] in *. apply no_raise_cons in Hn as [_ Hn].
  apply exec_pbind in H as [([] & t3 & t5 & -> & H1 & H)|(e' & He & H1)].
  2:{ injection He as <-. unfold validate_refresh_token in H1. destruct (negb _); [apply exec_Ret in H1 as [_ H1]; discriminate|].
      apply exec_pbind in H1 as [([now off] & t3 & t5 & -> & H1 & H)|(e' & He & H1)]; apply exec_call in H1; cbn [observe] in H1; subst.
      2:{ injection He as <-. exfalso. eapply raise_absurd; [exact Hn|left; reflexivity|reflexivity]. }
      apply exec_pbind in H as [(late & t6 & t7 & -> & H1 & H)|(e' & He & H1)].
      - destruct late; apply exec_Ret in H as [_ H]; discriminate.
      - apply exec_Ret in H1 as [_ H1]. injection He as <-. unfold expired in H1. destruct (rt_exp t) as [|d] eqn:Ed; [discriminate|]. injection H1 as ->.
        exists token, t, d. split; [left; auto|auto]. }
  exfalso. apply no_raise_app in Hn as [_ Hn].
  apply exec_pbind in H as [(sc & t6 & t7 & -> & H2 & H)|(e' & He & H2)].
  2:{ injection He as <-. apply exec_Ret in H2 as [_ H2]. unfold validate_refresh_scopes in H2. symmetry in H2. apply vbind_X in H2 as [H2|([] & _ & H2)].
      - apply validate_scopes_X in H2 as [d H2]. discriminate.
      - destruct req as [[|q l]|]; try discriminate. destruct (negb _); discriminate. }
  apply exec_Ret in H2 as [-> _]. cbn [app] in *.
  apply exec_pbind in H as [(ou & t6 & t8 & -> & H2 & H)|(e' & He & H2)]; apply exec_call in H2; cbn [observe] in H2; subst.
  2:{ injection He as <-. eapply raise_absurd; [exact Hn|left; reflexivity|reflexivity]. }
  apply no_raise_cons in Hn as [_ Hn]. cbn [app] in Hn.
  apply exec_pbind in H as [(a & t6 & t9 & -> & H2 & H)|(e' & He & H2)]; apply exec_call in H2; cbn [observe] in H2; subst.
  2:{ injection He as <-. eapply raise_absurd; [exact Hn|left; reflexivity|reflexivity]. }
  apply no_raise_cons in Hn as [_ Hn]. cbn [app] in Hn.
  apply exec_pbind in H as [(rt & t6 & t10 & -> & H2 & H)|(e' & He & H2)].
  - apply exec_Ret in H as [_ H]. discriminate.
  - injection He as <-. unfold maybe_refresh in H2. destruct (ins _ _); [|apply exec_Ret in H2 as [_ H2]; discriminate].
    apply exec_call in H2. subst. eapply raise_absurd; [exact Hn|left; reflexivity|reflexivity].
Qed.
Lemma cc_py_exec cfg data c tr e : exec (cc_token cfg data c) tr (X (Py e)) -> no_raise tr -> False.
Proof.
  intros H Hn. apply cc_exec in H as [[_ [d H]]|(_ & [a|e'] & -> & H)]; try discriminate. injection H as <-.
  eapply raise_absurd; [exact Hn|left; reflexivity|reflexivity].
Qed.
Lemma grant_flat cfg hs g data c tr d : hk_response hs = [] -> exec (grant_token E cfg hs g data c) tr (V d) -> texts_ok tr -> flat_dict d.
Proof.
  intros Hh H [Ht1 Ht2]. destruct g; cbn [grant_token] in H.
  - apply code_token_exec in H as (t1 & y & Hx & [(_ & _ & He)|(code & z & _ & -> & He)]); [discriminate|].
    destruct z as [[]|]; [|discriminate]. subst y.
    apply exchange_issues in Hx as [[_ [e He]] | (code' & uri & v & ac & u & t2 & Hck & Hi)]; [discriminate|].
    destruct Hck as (_ & _ & _ & _ & _ & now & off & t & -> & _).
    destruct Hi as [(e & _ & He) | (a & [(e & _ & He & _) | (rt & t3 & t4 & -> & Hrt & Hx)])]; try discriminate.
    rewrite Hh in Hx. simpl in Hx. destruct Hx as [_ Hx]. injection Hx as ->.
    destruct (Ht1 c (OwnUser u) (ac_scopes ac) a) as [Ha Hs]; [simpl; auto|]. apply create_token_flat; auto.
    destruct (ins _ _); [|destruct Hrt as [_ ->]; exact I]. subst t3. destruct rt as [rt|]; [|exact I].
    apply (Ht2 c (OwnUser u) (ac_scopes ac)). simpl. auto 10.
  - apply cc_exec in H as [[_ [d' H]]|(_ & [a|e] & -> & H)]; try discriminate. injection H as ->.
    destruct (Ht1 _ _ _ _ (or_introl eq_refl)) as [Ha Hs]. apply create_token_flat; [auto|exact I|].
    destruct (cc_scopes data); [|auto]. destruct (eql _ _); [constructor|auto].
  - apply refresh_exec in H as [[_ [e He]] | (token & t & sc & ou & t2 & (_ & _ & _ & now & off & dd & -> & _) & Hs)]; [discriminate|].
    destruct Hs as [(e & _ & He) | (a & [(e & _ & He & _) | (rt & t3 & -> & Hrt & Hx)])]; try discriminate. injection Hx as ->.
    destruct (Ht1 c (owner_of ou) (cl_allowed c (Some sc)) a) as [Ha Hs]; [simpl; auto|]. apply create_token_flat; [auto| |destruct (eql _ _); [constructor|auto]].
    destruct (ins _ _); [|destruct Hrt as [_ ->]; exact I]. subst t3. destruct rt as [rt|]; [|exact I].
    apply (Ht2 c (owner_of ou) (cl_allowed c (Some sc))). simpl. auto 10.
Qed.
Lemma bad_basic_iff r : get_basic_authorization (rq_headers r) = Err ValueError -> bad_basic r.
Proof. intros H. apply basic_raises in H. exact (proj2 H). Qed.
Lemma p_token_raises p hs r tr e : exec (token_endpoint E p hs r) tr (X e) -> no_raise tr -> hk_response hs = [] -> scalar_data (rq_data r) -> texts_ok tr ->
  (e = Py ValueError /\ bad_basic r) \/
  (e = Py KeyError /\ data_has r "grant_type" (lit "authorization_code") /\ data_lacks r "code") \/
  (e = Py UnicodeEncodeError /\ exists code ac v, In (OGetCode code (V (Some ac))) tr /\ ac_method ac = lit "S256" /\
     data_has r "code_verifier" v /\ ~ Forall (fun c => c < 128) v) \/
  (e = Py TypeError /\ exists code ac t, In (OGetCode code (V (Some ac))) tr /\ ac_exp ac = Aware t) \/
  (e = Py TypeError /\ exists token t d, In (OGetRT token (V (Some t))) tr /\ rt_exp t = Aware d).
Proof.
  intros H Hn Hh Hs Ht. apply token_exec in H as (y & Hy & Hx).
  destruct y as [y|[oe|pe]]; [discriminate| |].
  - exfalso. symmetry in Hx. eapply json_response_X; [exact Hx|]. apply lib_ok_flat.
    destruct (token_oa _ _ _ _ Hs _ _ Hy) as [Hk|Hk]; [auto|]. destruct (from_app_no _ _ Hn Hk).
  - injection Hx as ->. apply token_body_exec in Hy.
    inversion Hy as [|g tr' e' Hg Hgt Ha E1 E2|g i c Hg Hgt Ha Hm Hno E1 E2|g i c tr' y' Hg Hgt Ha Hm Hin Hex E1 E2]; subst.
    + left. apply authenticate_exec in Ha as [[-> [Ha|(e' & Ha & Hb & _)]] | (name & m & i & s & headers & Hm & Hal & Hc & Hhd & oc & -> & Ha)].
      * discriminate.
      * injection Ha as ->. pose proof (basic_raises_iff (rq_headers r) e') as Hi. apply Hi in Hb as Hb'. destruct Hb' as [-> _]. split; [auto|]. apply bad_basic_iff. exact Hb.
      * exfalso. destruct oc as [[c|]|e'].
        -- destruct (eqo _ _ && eqs _ _); [discriminate|]. destruct Ha as [d Ha]. discriminate.
        -- destruct Ha as [d Ha]. discriminate.
        -- injection Ha as <-. eapply raise_absurd; [exact Hn|left; reflexivity|reflexivity].
    + apply no_raise_cons in Hn as [_ Hn]. destruct Ht as [Ht1 Ht2].
      assert (Ht : texts_ok tr'). { split; [intros c1 o1 sc1 a1 H1; eapply Ht1; right; eauto|intros c1 o1 sc1 a1 H1; eapply Ht2; right; eauto]. }
      destruct y' as [d|e'].
      * exfalso. eapply json_response_X; [exact E2|]. eapply grant_flat; eauto.
      * injection E2 as ->. destruct g; cbn [grant_token] in Hex.
        -- apply code_py_exec in Hex; auto. destruct Hex as [Hm'|code ac v Hi Hm' Hv Hv'|code ac t Hi Ha'].
           ++ right. left. split; [auto|]. split; [exact Hgt|]. unfold param in Hm'. rewrite lookup_dremove_other in Hm' by discriminate. exact Hm'.
           ++ right. right. left. split; [auto|]. exists code, ac, v. split; [right; auto|]. split; [auto|]. split; [|auto].
              unfold param in Hv. rewrite lookup_dremove_other in Hv by discriminate. exact Hv.
           ++ right. right. right. left. split; [auto|]. exists code, ac, t. split; [right; auto|auto].
        -- destruct (cc_py_exec _ _ _ _ _ Hex Hn).
        -- apply refresh_py_exec in Hex as (token & t & d & Hi & Ha' & ->); [|auto]. right. right. right. right. split; [auto|].
           exists token, t, d. split; [right; auto|auto].
Qed.
Lemma p_revocation_raises r tr x : exec (revocation_endpoint r) tr x -> no_raise tr ->
  (exists z, x = V (Some z)) \/ (x = V None /\ form_lacks r "token") \/ (x = X (Py ValueError) /\ bad_basic r).
Proof.
  intros H Hn. apply revocation_exec in H as (y & Hs & Hx).
  destruct Hs as [tr e Ha | i c Ha Ht | i c h e Ha Hh Hne Hns Hk Hde Hl | i c t hint e Ha Ht Hne Hh Hs | i c t hint Ha Ht Hne Hh Hs].
  - destruct e as [e|e].
    + left. assert (Hok : lib_ok e). { destruct (authenticate_oa _ _ _ _ Ha) as [Hk|Hk]; [auto|]. destruct (from_app_no _ _ Hn Hk). }
      destruct (revoke_error_total e) as [z Hz]; [apply lib_ok_flat; auto|]. exists z. congruence.
    + right. right. apply authenticate_exec in Ha as [[-> [Ha|(e' & Ha & Hb & _)]] | (name & m & i & s & headers & Hm & Hal & Hc & Hhd & oc & -> & Ha)].
      * discriminate.
      * injection Ha as ->. pose proof (basic_raises_iff (rq_headers r) e') as Hi. apply Hi in Hb as Hb'. destruct Hb' as [-> _]. split; [auto|]. apply bad_basic_iff. exact Hb.
      * exfalso. destruct oc as [[c|]|e'].
        -- destruct (eqo _ _ && eqs _ _); [discriminate|]. destruct Ha as [d Ha]. discriminate.
        -- destruct Ha as [d Ha]. discriminate.
        -- injection Ha as <-. eapply raise_absurd; [exact Hn|left; reflexivity|reflexivity].
  - right. left. split; [auto|]. apply arg_None in Ht as [Ht|Ht]; [exact Ht|]. exfalso. eapply form_nonblank. exact Ht.
  - left. destruct (revoke_error_total e) as [z Hz]; [|exists z; congruence].
    destruct Hl as (_ & Hu & Hst & _). apply dump_flat; rewrite ?Hk, ?Hde, ?Hu, ?Hst; [slit|exact I|exact I|exact I].
  - exfalso. eapply raise_absurd; [exact Hn|right; left; reflexivity|reflexivity].
  - left. exists revoked. auto.
Qed.
(** Conversely: an authenticated client that may use the code grant and presents no code makes the endpoint raise. *)
Lemma p_missing_code_raises p hs r tr x i c : exec (token_endpoint E p hs r) tr x -> In (OFindClient i (V (Some c))) tr -> presents r i c ->
  data_has r "grant_type" (lit "authorization_code") -> data_lacks r "code" -> In (lit "authorization_code") (cl_grants c) -> x = X (Py KeyError).
Proof.
  intros H Hin Hp Hgt Hlack Hgr. apply token_exec in H as (z & H & Hx). apply token_body_exec in H.
  destruct H as [e He Hk | g tr e Hg Hd H | g i' c' Hg Hd Ha Hm Hn | g i' c' tr z Hg Hd Ha Hm Hn H].
  - destruct Hin.
  - exfalso. pose proof (grant_type_code _ (data_gt _ _ _ Hd Hgt)) as ->. cbn [grant_methods] in H.
    pose proof (p_authenticate_complete _ _ _ [] Hp (or_introl eq_refl)) as Hc.
    apply authenticate_exec in H as Ha'. destruct Ha' as [[-> _] | (? & ? & i' & ? & ? & _ & _ & _ & _ & oc & -> & _)]; [destruct Hin|].
    destruct Hin as [Hin|[]]. injection Hin as -> ->. pose proof (exec_det _ _ _ _ H Hc). discriminate.
  - exfalso. pose proof (grant_type_code _ (data_gt _ _ _ Hd Hgt)) as ->. destruct Hin as [Hin|[]]. injection Hin as -> ->. auto.
  - pose proof (grant_type_code _ (data_gt _ _ _ Hd Hgt)) as ->. cbn [grant_token] in H.
    apply code_token_exec in H as (t1 & y & _ & [(_ & _ & ->)|(code & w & Hc & _)]); [auto|].
    unfold param in Hc. rewrite lookup_dremove_other in Hc by discriminate. unfold data_lacks in Hlack. congruence.
Qed.
End WithEnv.
