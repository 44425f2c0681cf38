(** Responses of the token and revocation endpoints: lemmas for C55, C56, C59-C63 and C70. *)
From Coq Require Import String Ascii List NArith ZArith Bool Lia ZifyBool ZifyN.
From Verif Require Import Base BaseFacts Utf8 Utf8Facts Base64 Base64Facts SpecCodec Json JsonFacts Url UrlFacts Webtools WebtoolsFacts Crypto Jwk Jws Jwt Prog ProgFacts Http OAuth SpecOAuth OAuthFacts GrantFacts EndpointFacts RequestFacts AuthzFacts TokenFacts ReaderFacts WriteFacts.
Import ListNotations.
Open Scope N_scope.

(** ** JSON of flat dicts *)
Definition flat_text (v : pyval) : Prop := match v with PStr s => scalar_str s | PInt _ | PNone | PBool _ => True | _ => False end.
Lemma scalar_small s : Forall (fun c => c < 128) s -> scalar_str s.
Proof. apply Forall_impl. intros c Hc. unfold is_scalar. lia. Qed.
Lemma scalar_lit s : forallb (fun c => c <? 128) (lit s) = true -> scalar_str (lit s).
Proof. intros H. apply scalar_small. rewrite Forall_forall. rewrite forallb_forall in H. intros c Hc. apply H in Hc. lia. Qed.
Ltac slit := apply scalar_lit; reflexivity.
Lemma scalar_dumps_str s : scalar_str s -> scalar_str (dumps_str s).
Proof.
  intros H. unfold dumps_str. constructor; [unfold is_scalar; lia|]. apply Forall_app. split; [|repeat constructor; unfold is_scalar; lia].
  induction H as [|c s Hc H IH]; simpl; [constructor|]. apply Forall_app. split; [|auto].
  unfold esc1. repeat match goal with |- context [if ?b then _ else _] => destruct b eqn:? end;
    try (apply scalar_small; repeat constructor; lia); [|repeat constructor; auto].
  assert (Hh : forall n, n < 16 -> hexdig n < 128) by (intros n Hn; unfold hexdig; destruct (n <? 10); lia).
  apply scalar_small. repeat (constructor; [first [lia | apply Hh; lia]|]). constructor.
Qed.
Lemma scalar_dec_N n : scalar_str (dec_N n).
Proof.
  destruct (dec_N_spec n) as (H & _). apply scalar_small. eapply Forall_impl; [|exact H]. intros c Hc. unfold is_digit in Hc. lia.
Qed.
Lemma scalar_dumps_flat v : flat_text v -> scalar_str (dumps v).
Proof.
  destruct v as [|[]|z|f|s|l|d]; simpl; intros H; try (destruct H; fail); try slit.
  - destruct z as [|q|q]; simpl; [apply scalar_small; repeat constructor; lia|apply scalar_dec_N|constructor; [unfold is_scalar; lia|apply scalar_dec_N]].
  - apply scalar_dumps_str. auto.
Qed.
Lemma scalar_join sep l : scalar_str sep -> Forall scalar_str l -> scalar_str (join sep l).
Proof. intros H1 H2. apply (join_chars (fun c => is_scalar c = true)); auto. Qed.
Definition flat_dict (d : pdict) : Prop := Forall (fun kv => scalar_str (fst kv) /\ flat_text (snd kv)) d.
Lemma scalar_dumps_dict d : flat_dict d -> scalar_str (dumps (PDict d)).
Proof.
  intros H. cbn [dumps]. constructor; [unfold is_scalar; lia|]. apply Forall_app. split; [|repeat constructor; unfold is_scalar; lia].
  apply scalar_join; [apply scalar_small; repeat constructor; lia|]. apply Forall_map. eapply Forall_impl; [|exact H].
  intros [k v] [Hk Hv]. cbn [fst snd] in *. apply Forall_app. split; [apply scalar_dumps_str; auto|].
  constructor; [unfold is_scalar; lia|]. constructor; [unfold is_scalar; lia|]. apply scalar_dumps_flat. auto.
Qed.

Lemma json_response_V st h d x : JSONResponse st h (PDict d) = V x -> json_wf (PDict d) = true ->
  rs_status x = st /\ json_body x d /\ rs_headers x = parse_headers (PStr (lit "application/json")) h.
Proof.
  unfold JSONResponse. intros H Hw. apply vbind_V in H as (b & Hb & H). injection H as <-. apply lift_V in Hb. simpl.
  split; [auto|]. split; [|auto]. exists (json_dumps (PDict d)). split; [apply utf8_rfc; auto|]. split; [apply dumps_written|apply dumps_json; auto].
Qed.
Lemma json_response_X st h d e : JSONResponse st h (PDict d) = X e -> flat_dict d -> False.
Proof.
  unfold JSONResponse. intros H Hd. apply vbind_X in H as [H|(b & _ & H)]; [|discriminate]. apply lift_X in H as (ex & _ & H).
  destruct (utf8_encode_scalar _ (scalar_dumps_dict d Hd)) as [b Hb]. unfold to_bytes, json_dumps in H. congruence.
Qed.

(** ** Errors *)
Lemma dump_wf e : json_wf (PDict (dump e)) = true.
Proof. rewrite dump_params. unfold error_params, opt_param. destruct (oe_desc e), (oe_uri e), (oe_state e); reflexivity. Qed.
Lemma dump_error e : lookup (lit "error") (dump e) = Some (PStr (error_code (oe_kind e))).
Proof. rewrite dump_params. reflexivity. Qed.
Lemma dump_no_null e : no_null (dump e).
Proof. rewrite dump_params. unfold no_null. apply Forall_map. apply Forall_forall. intros [k v] _. discriminate. Qed.
Definition scalar_opt (o : option str) : Prop := match o with Some s => scalar_str s | None => True end.
Lemma dump_flat e : scalar_str (error_code (oe_kind e)) -> scalar_opt (oe_desc e) -> scalar_opt (oe_uri e) -> scalar_opt (oe_state e) -> flat_dict (dump e).
Proof.
  intros H1 H2 H3 H4. rewrite dump_params. unfold error_params, opt_param, flat_dict.
  destruct (oe_desc e), (oe_uri e), (oe_state e); simpl in *; repeat (constructor; [split; [slit|simpl; auto]|]); constructor.
Qed.

(** [oa P p]: the OAuth2Errors that [p] raises on its own account satisfy [P]. *)
Lemma no_oauth_app t1 t2 : no_oauth_raise (t1 ++ t2) <-> no_oauth_raise t1 /\ no_oauth_raise t2.
Proof.
  unfold no_oauth_raise. split.
  - intros H. split; intros o e Hin; apply H, in_app_iff; auto.
  - intros [H1 H2] o e Hin. apply in_app_iff in Hin as [Hin|Hin]; auto.
Qed.
Definition from_app (tr : list obs) (e : oexn) : Prop := exists o, In o tr /\ raised o = Some e.
Lemma from_app_l t1 t2 e : from_app t1 e -> from_app (t1 ++ t2) e.
Proof. intros (o & Hi & He). exists o. split; [apply in_app_iff; auto|auto]. Qed.
Lemma from_app_r t1 t2 e : from_app t2 e -> from_app (t1 ++ t2) e.
Proof. intros (o & Hi & He). exists o. split; [apply in_app_iff; auto|auto]. Qed.
Lemma from_app_oauth tr e : no_oauth_raise tr -> ~ from_app tr (OA e).
Proof. intros H (o & Hi & He). exact (H o e Hi He). Qed.
Lemma from_app_no tr e : no_raise tr -> ~ from_app tr e.
Proof. intros H (o & Hi & He). rewrite (H o Hi) in He. discriminate. Qed.
Definition oa {A} (P : oauth_error -> Prop) (p : prog A) : Prop := forall tr e, exec p tr (X (OA e)) -> P e \/ from_app tr (OA e).
Lemma oa_Ret {A} (P : oauth_error -> Prop) (x : res A) : (forall e, x = X (OA e) -> P e) -> oa P (Ret x).
Proof. intros H tr e Hx. apply exec_Ret in Hx as [_ Hx]. auto. Qed.
Lemma oa_call {T} (P : oauth_error -> Prop) (e : eff T) : oa P (call e).
Proof.
  intros tr x Hx. apply exec_call in Hx as ->. right. exists (observe e (X (OA x))). split; [left; auto|]. destruct e; reflexivity.
Qed.
Lemma oa_pbind {A B} (P : oauth_error -> Prop) (p : prog A) (f : A -> prog B) : oa P p -> (forall a, oa P (f a)) -> oa P (pbind p f).
Proof.
  intros Hp Hf tr e Hx. apply exec_pbind in Hx as [(a & t1 & t2 & -> & H1 & H2)|(e' & He & H1)].
  - destruct (Hf a _ _ H2); [auto|]. right. apply from_app_r. auto.
  - injection He as <-. apply Hp. auto.
Qed.
Lemma oa_pfinally {A} (P : oauth_error -> Prop) (p : prog A) d : oa P p -> oa P d -> oa P (pfinally p d).
Proof.
  intros Hp Hd tr e Hx. apply exec_pfinally in Hx as (x & t1 & y & t2 & -> & H1 & H2 & Hx).
  destruct y as [|e'].
  - subst x. destruct (Hp _ _ H1); [auto|]. right. apply from_app_l. auto.
  - injection Hx as <-. destruct (Hd _ _ H2); [auto|]. right. apply from_app_r. auto.
Qed.
Ltac oa_go :=
  repeat match goal with
  | |- oa _ (pbind _ _) => apply oa_pbind; [|intros]
  | |- oa _ (pfinally _ _) => apply oa_pfinally
  | |- oa _ (call _) => apply oa_call
  | |- oa _ (Ret _) => apply oa_Ret; intros ? ?
  | |- oa _ (ret _) => apply oa_Ret; intros ? ?
  | |- oa _ (throw _) => apply oa_Ret; intros ? ?
  | |- oa _ (if ?b then _ else _) => destruct b
  | |- oa _ (match ?x with _ => _ end) => destruct x
  | |- oa _ (let '(_, _) := ?x in _) => destruct x
  end.

(** Errors that the library raises at the token and revocation endpoints *)
Definition token_kind (k : okind) : Prop :=
  match k with InvalidRequest | InvalidClient | InvalidGrant | UnauthorizedClient | UnsupportedGrantType | InvalidScope => True | _ => False end.
Lemma token_kind_code k : token_kind k -> In (error_code k) token_error_codes.
Proof. destruct k; intros H; try destruct H; cbn [error_code]; unfold token_error_codes; apply ins_In; reflexivity. Qed.
Lemma kind_scalar k : token_kind k -> scalar_str (error_code k).
Proof. destruct k; intros H; try destruct H; cbn [error_code]; slit. Qed.
Definition lib_ok (e : oauth_error) : Prop :=
  (oe_headers e = [] \/ oe_headers e = [(lit "WWW-Authenticate", PStr (lit "Basic"))]) /\
  token_kind (oe_kind e) /\ scalar_opt (oe_desc e) /\ oe_uri e = None /\ oe_state e = None.
Lemma lib_ok_flat e : lib_ok e -> flat_dict (dump e).
Proof. intros (_ & H1 & H2 & H3 & H4). apply kind_scalar in H1. apply dump_flat; auto; [rewrite H3|rewrite H4]; exact I. Qed.
Ltac lok := match goal with
  | H : X _ = X (OA _) |- lib_ok _ => injection H as <-; split; [auto|]; split; [exact I|]; split; [simpl; first [exact I | slit | idtac]|]; auto
  | H : lift _ = X (OA _) |- lib_ok _ => destruct (lift_OA _ _ H)
  | H : V _ = X _ |- lib_ok _ => discriminate H
  end.
Lemma authenticate_oa r methods : oa lib_ok (authenticate r methods).
Proof.
  unfold authenticate, auth_methods. simpl authenticate_loop. unfold auth_basic, auth_post, auth_none, oerr. oa_go; try lok.
Qed.
Lemma scalar_quote a b c : scalar_str b -> forallb (fun c => c <? 128) (lit a) = true -> forallb (fun c => c <? 128) (lit c) = true ->
  scalar_str (lit a ++ b ++ lit c).
Proof. intros Hb Ha Hc. apply Forall_app. split; [apply scalar_lit; auto|]. apply Forall_app. split; [auto|apply scalar_lit; auto]. Qed.
Lemma words_aux_chars (P : N -> Prop) s : Forall P s -> forall acc, Forall P acc -> Forall (Forall P) (words_aux s acc).
Proof.
  induction 1 as [|c s Hc H IH]; intros acc Ha; simpl.
  - destruct acc; [constructor|constructor; [auto|constructor]].
  - destruct (py_space c); [|apply IH; apply Forall_app; auto]. destruct acc; [|constructor; [auto|]]; apply IH; constructor.
Qed.
Lemma words_scalar s : scalar_str s -> Forall scalar_str (words s).
Proof. intros H. apply words_aux_chars; [auto|constructor]. Qed.
Lemma scalar_data_lookup data k s : scalar_data data -> lookup k data = Some s -> scalar_str s.
Proof. intros H Hl. apply lookup_In in Hl. unfold scalar_data in H. rewrite Forall_forall in H. exact (H _ Hl). Qed.
Lemma lib_ok_intro k d e : token_kind k -> scalar_opt d -> oerr k d None [] = OA e -> lib_ok e.
Proof. unfold oerr. intros H1 H2 H. injection H as <-. unfold lib_ok. simpl. auto. Qed.
Lemma check_supported_oa cfg l e : Forall scalar_str l -> check_supported cfg l None = X (OA e) -> lib_ok e.
Proof.
  induction 1 as [|s l Hs Hl IH]; cbn [check_supported]; [discriminate|]. destruct (ins s (cf_scopes cfg)); [auto|].
  unfold oraise. intros H. apply (f_equal (fun x => match x with X e => e | V _ => OA e end)) in H. eapply lib_ok_intro; [| |exact H]; [exact I|]. apply scalar_quote; auto.
Qed.
Lemma validate_scopes_oa cfg o c e : match o with Some l => Forall scalar_str l | None => True end -> validate_requested_scopes cfg o c None = X (OA e) -> lib_ok e.
Proof.
  destruct o as [l|]; simpl; intros Hl H; [|discriminate]. apply vbind_X in H as [H|([] & _ & H)]; [eapply check_supported_oa; eauto|].
  destruct (subsetb _ _); [discriminate|]. unfold oraise, oerr in H. lok.
Qed.
Lemma cc_scopes_scalar data : scalar_data data -> match cc_scopes data with Some l => Forall scalar_str l | None => True end.
Proof.
  intros H. unfold cc_scopes. destruct (arg "scope" data) as [s|] eqn:Es; [|exact I]. apply arg_Some in Es as [Es _].
  apply words_scalar. eapply scalar_data_lookup; eauto.
Qed.

Section WithEnv.
Variable E : env.

Lemma hooks_oa l : forall t c u, oa lib_ok (run_token_hooks E l t c u).
Proof.
  induction l as [|h l IH]; intros t c u; simpl; [apply oa_Ret; discriminate|].
  apply oa_pbind; [|intros; apply IH]. unfold oidc_token_response, generate_id_token. oa_go; try lok; try discriminate;
  match goal with H : match ?m with _ => _ end = X (OA _) |- _ => destruct m as [[]|]; discriminate H end.
Qed.
Lemma code_oa cfg hs data c : oa lib_ok (code_token E cfg hs data c).
Proof.
  unfold code_token, code_exchange, validate_code_request, validate_authorization_code, maybe_refresh, oraise, oerr.
  oa_go; try lok; try discriminate; try apply hooks_oa;
  match goal with H : context [arg _ _] |- _ => revert H end;
  destruct (arg "code" data), (arg "redirect_uri" data), (arg "code_verifier" data); intros H; try discriminate; lok.
Qed.
Lemma cc_oa cfg data c : scalar_data data -> oa lib_ok (cc_token cfg data c).
Proof.
  intros Hs. unfold cc_token. oa_go; try lok. eapply validate_scopes_oa; eauto. apply cc_scopes_scalar; auto.
Qed.
Lemma refresh_oa cfg data c : scalar_data data -> oa lib_ok (refresh_grant E cfg data c).
Proof.
  intros Hs. unfold refresh_grant, validate_refresh_request, oraise.
  destruct (arg "refresh_token" data) as [token|]; [|unfold pbind; cbn [ptry]; apply oa_Ret; intros e H; unfold oerr in H; lok].
  unfold pbind at 1. cbn [ptry]. unfold validate_refresh_token, maybe_refresh, oraise, oerr.
  oa_go; try lok; try discriminate. unfold validate_refresh_scopes in H. apply vbind_X in H as [H|([] & _ & H)].
  - eapply validate_scopes_oa; eauto. apply cc_scopes_scalar; auto.
  - destruct (cc_scopes data) as [[|q l]|]; try discriminate. destruct (negb _); [|discriminate]. unfold oraise, oerr in H. lok.
Qed.
Lemma scalar_dremove k data : scalar_data data -> scalar_data (dremove k data).
Proof. unfold scalar_data, dremove. rewrite !Forall_forall. intros H x Hx. apply filter_In in Hx as [Hx _]. auto. Qed.
Lemma grant_oa cfg hs g data c : scalar_data data -> oa lib_ok (grant_token E cfg hs g data c).
Proof. intros Hs. destruct g; cbn [grant_token]; [apply code_oa|apply cc_oa; auto|apply refresh_oa; auto]. Qed.
Lemma token_oa p hs r : scalar_data (rq_data r) -> oa lib_ok (token_body E p hs r).
Proof.
  intros Hs. unfold token_body. apply oa_pbind; [|intros _; apply oa_pbind; [|intros g; apply oa_pbind; [apply authenticate_oa|intros c]]].
  - destruct (rq_data r); apply oa_Ret; intros e H; [unfold oraise, oerr in H; lok|discriminate].
  - apply oa_Ret. intros e H. unfold validate_grant_type in H. destruct (param "grant_type" (rq_data r)) as [[|a t]|] eqn:Ep.
    + unfold oraise, oerr in H. lok.
    + destruct (find _ _); [discriminate|]. unfold oraise in H. apply (f_equal (fun x => match x with X e => e | V _ => OA e end)) in H.
      eapply lib_ok_intro; [| |exact H]; [exact I|]. apply scalar_quote; [|auto|auto]. eapply scalar_data_lookup; eauto.
    + unfold oraise, oerr in H. lok.
  - destruct (negb _).
    + apply oa_Ret. intros e H. unfold oerr in H. lok.
    + apply oa_pbind; [apply grant_oa, scalar_dremove; auto|]. intros t. apply oa_Ret. intros e H. unfold JSONResponse in H.
      apply vbind_X in H as [H|(? & _ & H)]; [destruct (lift_OA _ _ H)|discriminate].
Qed.
(** Without the premise about texts: the headers only *)
Definition lib_headers (e : oauth_error) : Prop :=
  (oe_headers e = [] \/ oe_headers e = [(lit "WWW-Authenticate", PStr (lit "Basic"))]) /\ token_kind (oe_kind e).
Lemma oa_weaken {A} (P Q : oauth_error -> Prop) (p : prog A) : (forall e, P e -> Q e) -> oa P p -> oa Q p.
Proof. intros H Hp tr e Hx. destruct (Hp _ _ Hx); auto. Qed.
Lemma scopes_headers cfg o c e : validate_requested_scopes cfg o c None = X (OA e) -> lib_headers e.
Proof. intros H. apply validate_scopes_X in H as [d H]. injection H as ->. split; [left; reflexivity|exact I]. Qed.
Lemma token_headers_oa p hs r : oa lib_headers (token_body E p hs r).
Proof.
  assert (Hw : forall A (q : prog A), oa lib_ok q -> oa lib_headers q). { intros A q. apply oa_weaken. intros e (H1 & H2 & _). split; auto. }
  unfold token_body. apply oa_pbind; [|intros _; apply oa_pbind; [|intros g; apply oa_pbind; [apply Hw, authenticate_oa|intros c]]].
  - destruct (rq_data r); apply oa_Ret; intros e H; [|discriminate]. injection H as <-. split; [left; reflexivity|exact I].
  - apply oa_Ret. intros e H. unfold validate_grant_type in H. destruct (param "grant_type" (rq_data r)) as [[|a t]|];
      [|destruct (find _ _); [discriminate|]|]; injection H as <-; (split; [left; reflexivity|exact I]).
  - destruct (negb _).
    + apply oa_Ret. intros e H. injection H as <-. split; [left; reflexivity|exact I].
    + apply oa_pbind.
      * destruct g; cbn [grant_token]; [apply Hw, code_oa| |].
        -- unfold cc_token. oa_go; try discriminate. eapply scopes_headers; eauto.
        -- unfold refresh_grant, validate_refresh_request, validate_refresh_token, validate_refresh_scopes, maybe_refresh, oraise. oa_go; try discriminate;
             try (match goal with H : lift _ = X (OA _) |- _ => destruct (lift_OA _ _ H) | H : X _ = X (OA _) |- _ => injection H as <-; split; [left; reflexivity|exact I] end).
           ++ destruct (arg "refresh_token" _); [discriminate|]. injection H as <-. split; [left; reflexivity|exact I].
           ++ apply vbind_X in H as [H|([] & _ & H)]; [eapply scopes_headers; eauto|].
              destruct o as [[|q l]|]; try discriminate. destruct (negb _); [|discriminate]. injection H as <-. split; [left; reflexivity|exact I].
      * intros t. apply oa_Ret. intros e H. unfold JSONResponse in H.
        apply vbind_X in H as [H|(? & _ & H)]; [destruct (lift_OA _ _ H)|discriminate].
Qed.

(** ** The token dict *)
Definition token_dict (d : pdict) (a : str) : Prop :=
  json_wf (PDict d) = true /\ lookup (lit "access_token") d = Some (PStr a) /\ lookup (lit "token_type") d = Some (PStr (lit "Bearer")) /\ no_null d.
Lemma create_token_dict a n rt sc : token_dict (create_token a n rt sc) a.
Proof.
  unfold token_dict, create_token. destruct rt, sc; cbn [pstr]; (split; [reflexivity|]); (split; [reflexivity|]); (split; [reflexivity|]);
    unfold no_null; repeat (apply Forall_cons; [discriminate|]); apply Forall_nil.
Qed.
Lemma json_wf_dset k v d : json_wf (PDict d) = true -> json_wf v = true -> json_wf (PDict (dset k v d)) = true.
Proof.
  cbn [json_wf]. rewrite !andb_true_iff, !nodupb_spec. intros [H1 H2] Hv. split.
  - apply dset_NoDup. auto.
  - rewrite forallb_forall in *. rewrite <- Forall_forall in *. apply (Forall_dset (fun v => json_wf v = true)); auto.
Qed.
Lemma id_token_dict d a t : token_dict d a -> token_dict (full_update d [(lit "id_token", PStr t)]) a.
Proof.
  intros (H1 & H2 & H3 & H4). unfold full_update, dupdate. cbn [fold_left fst snd]. split; [apply json_wf_dset; auto|].
  split; [rewrite lookup_dset_other by discriminate; auto|]. split; [rewrite lookup_dset_other by discriminate; auto|].
  apply (Forall_dset (fun v => v <> PNone)); [discriminate|auto].
Qed.
Lemma hooks_dict l : forall d a c u tr d', token_dict d a -> exec (run_token_hooks E l d c u) tr (V d') -> token_dict d' a.
Proof.
  induction l as [|h l IH]; intros d a c u tr d' Hd H; simpl in H.
  - destruct H as [_ H]. injection H as ->. auto.
  - apply exec_pbind in H as [(upd & t1 & t2 & -> & H1 & H2)|(e & ? & _)]; [|discriminate].
    eapply IH; [|exact H2]. unfold oidc_token_response in H1. destruct (lookup (lit "scope") d) as [[]|]; try (apply exec_Ret in H1 as [_ H1]; discriminate).
    destruct (substr _ _); [|apply exec_Ret in H1 as [_ H1]; injection H1 as ->; exact Hd].
    apply exec_pbind in H1 as [(t & t3 & t4 & -> & H3 & H4)|(e & ? & _)]; [|discriminate]. apply exec_Ret in H4 as [_ H4]. injection H4 as ->.
    apply id_token_dict. auto.
Qed.
Lemma grant_dict cfg hs g data c tr d : exec (grant_token E cfg hs g data c) tr (V d) ->
  exists a ow sc, In (OCreateAT c ow sc (V a)) tr /\ token_dict d a.
Proof.
  intros H. destruct g; cbn [grant_token] in H.
  - apply code_token_exec in H as (t1 & y & Hx & [(_ & _ & He)|(code & z & _ & -> & He)]); [discriminate|].
    destruct z as [[]|]; [|discriminate]. subst y.
    apply exchange_issues in Hx as [[_ [e He]] | (code' & uri & v & ac & u & t2 & Hck & Hi)]; [discriminate|].
    destruct Hck as (_ & _ & _ & _ & _ & now & off & t & -> & _).
    destruct Hi as [(e & _ & He) | (a & [(e & _ & He & _) | (rt & t3 & t4 & -> & _ & Hx)])]; try discriminate.
    exists a, (OwnUser u), (ac_scopes ac). split; [simpl; auto|]. eapply hooks_dict; [|exact Hx]. apply create_token_dict.
  - apply cc_exec in H as [[_ [d' H]]|(_ & [a|e] & -> & H)]; try discriminate. injection H as ->.
    eexists a, _, _. split; [left; reflexivity|]. apply create_token_dict.
  - apply refresh_exec in H as [[_ [e He]] | (token & t & sc & ou & t2 & (_ & _ & _ & now & off & dd & -> & _) & Hs)]; [discriminate|].
    destruct Hs as [(e & _ & He) | (a & [(e & _ & He & _) | (rt & t3 & -> & _ & Hx)])]; try discriminate.
    injection Hx as ->. eexists a, _, _. split; [simpl; auto|]. apply create_token_dict.
Qed.

(** ** C55 *)
(** ** C55 *)
Lemma headers_NoDup h : NoDup (keys (dupdate [(lit "Content-Type", PStr (lit "application/json"))] h)).
Proof. apply dupdate_NoDup. repeat constructor. intros []. Qed.
Lemma parse_headers_other k h : k <> lit "Content-Type" -> NoDup (keys h) ->
  lookup k (parse_headers (PStr (lit "application/json")) h) = match lookup k h with Some PNone => None | o => o end.
Proof.
  intros Hk Hh. unfold parse_headers, FullDict. rewrite lookup_full by apply headers_NoDup.
  rewrite lookup_dupdate, lookup_rev by auto. simpl. apply eqs_false in Hk. rewrite Hk. destruct (lookup k h); auto.
Qed.
Lemma parse_headers_type h : NoDup (keys h) -> lookup (lit "Content-Type") h = None ->
  lookup (lit "Content-Type") (parse_headers (PStr (lit "application/json")) h) = Some (PStr (lit "application/json")).
Proof.
  intros Hh Hk. unfold parse_headers, FullDict. rewrite lookup_full by apply headers_NoDup.
  rewrite lookup_dupdate, lookup_rev by auto. rewrite Hk. reflexivity.
Qed.
Lemma token_headers_NoDup : NoDup (keys token_headers).
Proof. unfold token_headers. simpl. constructor; [intros [H|[]]; discriminate|]. constructor; [intros []|constructor]. Qed.
Lemma lookup_token_headers k h : lookup k (dupdate h token_headers) = match lookup k token_headers with Some v => Some v | None => lookup k h end.
Proof. rewrite lookup_dupdate, lookup_rev by apply token_headers_NoDup. auto. Qed.

Lemma p_token_response p hs r tr x : exec (token_endpoint E p hs r) tr (V x) -> dict_errors tr ->
  header_is x "Cache-Control" "no-store" /\ header_is x "Pragma" "no-cache" /\
  (no_oauth_raise tr -> header_is x "Content-Type" "application/json") /\
  ((rs_status x = 200 /\ exists d a c o sc, json_body x d /\ In (OCreateAT c o sc (V a)) tr /\
      lookup (lit "access_token") d = Some (PStr a) /\ lookup (lit "token_type") d = Some (PStr (lit "Bearer")) /\ no_null d) \/
   (rs_status x = 400 /\ exists d code, json_body x d /\ lookup (lit "error") d = Some (PStr code) /\ no_null d /\
      (no_oauth_raise tr -> In code token_error_codes))).
Proof.
  intros H Hd. apply token_exec in H as (y & Hy & Hx).
  destruct y as [y|[e|e]]; [| |discriminate].
  - injection Hx as <-. apply token_body_exec in Hy. inversion Hy as [| | |g i c tr' y' Hg Hgt Ha Hm Hin Hex E1 E2]. subst tr.
    destruct y' as [d|]; [|discriminate]. apply grant_dict in Hex as (a & ow & sc & Hc & Hw & Ht1 & Ht2 & Hn).
    apply json_response_V in E2 as (Hs & Hj & Hh); [|auto].
    split; [|split; [|split]].
    + unfold header_is. rewrite Hh, parse_headers_other; [reflexivity|discriminate|apply token_headers_NoDup].
    + unfold header_is. rewrite Hh, parse_headers_other; [reflexivity|discriminate|apply token_headers_NoDup].
    + intros _. unfold header_is. rewrite Hh. apply parse_headers_type; [apply token_headers_NoDup|reflexivity].
    + left. split; [auto|]. exists d, a, c, ow, sc. split; [auto|]. split; [right; auto|]. auto.
  - symmetry in Hx. unfold token_error in Hx. apply json_response_V in Hx as (Hs & Hj & Hh); [|apply dump_wf].
    pose proof (token_headers_oa _ _ _ _ _ Hy) as Ho.
    assert (Hnd : NoDup (keys (oe_headers e))).
    { destruct Ho as [[[->| ->] _]|(o & Ho1 & Ho2)]; [constructor|repeat constructor; intros []|eapply Hd; eauto]. }
    assert (Hnd' : NoDup (keys (dupdate (oe_headers e) token_headers))) by (apply dupdate_NoDup; auto).
    split; [|split; [|split]].
    + unfold header_is. rewrite Hh, parse_headers_other; [|discriminate|auto]. rewrite lookup_token_headers. reflexivity.
    + unfold header_is. rewrite Hh, parse_headers_other; [|discriminate|auto]. rewrite lookup_token_headers. reflexivity.
    + intros Hno. unfold header_is. rewrite Hh. apply parse_headers_type; [auto|]. rewrite lookup_token_headers. cbn [lookup].
      destruct Ho as [[[->| ->] _]|Ho]; [reflexivity|reflexivity|]. destruct (from_app_oauth _ _ Hno Ho).
    + right. split; [auto|]. exists (dump e), (error_code (oe_kind e)). split; [auto|]. split; [apply dump_error|]. split; [apply dump_no_null|].
      intros Hno. destruct Ho as [[_ Ho]|Ho]; [apply token_kind_code; auto|]. destruct (from_app_oauth _ _ Hno Ho).
Qed.
End WithEnv.
