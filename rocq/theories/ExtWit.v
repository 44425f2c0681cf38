(** An application with its own grant, authentication methods and hooks, for the examples in PropsExt. *)
From Coq Require Import String Ascii List NArith ZArith Bool.
From Verif Require Import Base BaseFacts Json Url Webtools Prog Http OAuth SpecOAuth Example OAuthRef OAuthWit Ext SpecExt ExtFacts ExtHookFacts ExtSimFacts.
Import ListNotations.
Open Scope N_scope.

(** A run with given answers *)
Fixpoint xgo {A} (w : forall T, xeff T -> res T) (p : xprog A) : list xobs * res A :=
  match p with
  | XRet r => ([], r)
  | XDo e k => let '(t, x) := xgo w (k (w _ e)) in (xobserve e (w _ e) :: t, x)
  end.
Lemma xgo_exec {A} w (p : xprog A) : xexec p (fst (xgo w p)) (snd (xgo w p)).
Proof.
  induction p as [r|T e k IH]; cbn [xgo]; [apply xexec_Ret; auto|]. specialize (IH (w T e)). destruct (xgo w (k (w T e))) as [t x].
  apply xexec_Do. exists (w T e), t. auto.
Qed.
Lemma xgo_at {A} w (p : xprog A) t x : xgo w p = (t, x) -> xexec p t x.
Proof. intros H. generalize (xgo_exec w p). rewrite H. auto. Qed.

Definition device_type : str := lit "urn:ietf:params:oauth:grant-type:device_code".
Definition tv : client := ex_client (lit "tv") None (lit "none") [cb] [device_type; lit "authorization_code"] [lit "token"; lit "code"] [lit "openid"].
(** The code that the grant stored, challenged in plain *)
Definition tv_code : auth_code :=
  {| ac_client := lit "tv"; ac_user := lit "alice"; ac_redirect := cb; ac_scopes := [lit "openid"]; ac_challenge := lit verifier; ac_method := lit "plain";
     ac_nonce := None; ac_exp := Naive 10 |}.
Definition tv_refresh : refresh_token := {| rt_client := lit "tv"; rt_user := lit "alice"; rt_scopes := [lit "openid"]; rt_exp := Naive 10 |}.
Definition world (T : Type) (e : xeff T) : res T :=
  match e in xeff T return res T with
  | Lib e =>
      match e in eff T return res T with
      | FindClient i => V (if eqs i (lit "tv") then Some tv else None)
      | FindUser _ => V (Some alice)
      | SaveCode _ _ _ _ => V tt
      | GetCode code => V (if eqs code (lit "c1") then Some tv_code else None)
      | DeleteCode _ => V tt
      | CreateAT _ _ _ => V (lit "at1")
      | CreateRT _ _ _ => V (Some (lit "rt1"))
      | GetRT _ => V (Some tv_refresh)
      | RevokeToken _ _ _ => V tt
      | GetUserinfo _ _ _ => V []
      | GetKeyInfo _ => X (Py TypeError)
      | Now => V (5, 0)%Z
      | SecretToken _ => V (lit "c1")
      | SignRand => V []
      end
  | SaveDict _ _ _ _ => V tt
  | Other _ => V (PStr (lit "granted"))
  end.

(** A client that shows its name in a header *)
Definition api_key : xmethod :=
  {| xm_name := lit "api_key";
     xm_auth := fun r =>
       match lookup (lit "x-api-key") (rq_headers r) with
       | Some (PStr k) => xdo oc <- xcall (Lib (FindClient k)) ;;
                          match oc with Some c => xret (Some c) | None => xthrow (oerr InvalidClient None None []) end
       | _ => xret None
       end |}.
(** RFC 8628, and a response type of its own *)
Definition device : xgrant :=
  {| xg_type := Some device_type; xg_response := Some (lit "token"); xg_methods := [lit "api_key"; lit "none"];
     xg_token := fun data c =>
       match lookup (lit "device_code") data with
       | None => xthrow (oerr InvalidRequest None None [])
       | Some _ => xdo v <- xcall (Other (lit "poll")) ;; xret (PDict [(lit "access_token", v); (lit "token_type", PStr (lit "Bearer"))])
       end;
     xg_authorize := fun data c u => xdo _ <- xcall (Other (lit "confirm")) ;; xret (lit "https://c.example/cb?done=1") |}.
(** Hooks: fewer scopes and an audience; the issuer (RFC 9207); a code in a wrapper; an audit log *)
Definition app_hooks : xhooks :=
  {| xh_areq := [fun _ => xret [(lit "scopes", PList [PStr (lit "openid")]); (lit "audience", PStr (lit "api"))]];
     xh_ares := [fun _ _ _ _ => xret [(lit "iss", PStr (lit "https://op.example"))]];
     xh_treq := [fun data => xret (match lookup (lit "code") data with
                                   | Some (119 :: 45 :: code) => [(lit "code", PStr code)] | _ => [] end)];
     xh_tres := [fun _ _ _ _ => xdo v <- xcall (Other (lit "audit")) ;; xret [(lit "audit", v)]] |}.
Definition app_provider : xprovider :=
  {| xp_config := ref_config;
     xp_grants := map (xgrant_of ref_env ref_config app_hooks) [GCode; GClientCredentials; GRefresh] ++ [device];
     xp_methods := map mc_method library_classes ++ [api_key] |}.

Definition device_req : request :=
  token_req [(lit "X-Api-Key", PStr (lit "tv"))] [(lit "grant_type", device_type); L "device_code" "d1"].
Definition device_trace : list xobs := [XO (OFindClient (lit "tv") (V (Some tv))); XOther (lit "poll") (V (PStr (lit "granted")))].
Definition device_data : params := [L "device_code" "d1"].
Lemma device_run : exists x, xexec (xtoken_endpoint app_provider device_req) device_trace (V x) /\ rs_status x = 200 /\
  rs_body x = lit "{""access_token"": ""granted"", ""token_type"": ""Bearer""}".
Proof. eexists. split; [apply (xgo_at world); vm_compute; reflexivity|]. split; reflexivity. Qed.
Lemma device_chosen : chosen xg_type (xp_grants app_provider) device_type device.
Proof.
  exists (map (xgrant_of ref_env ref_config app_hooks) [GCode; GClientCredentials; GRefresh]), []. split; [reflexivity|]. split; [reflexivity|].
  intros h Hh. cbn [map] in Hh. destruct Hh as [<-|[<-|[<-|[]]]]; discriminate.
Qed.
Lemma basic_declines : xexec (emb (auth_basic device_req)) [] (V None).
Proof. apply (xgo_at world). vm_compute. reflexivity. Qed.
Lemma none_declines : xexec (emb (auth_none device_req)) [] (V None).
Proof. apply (xgo_at world). vm_compute. reflexivity. Qed.
Lemma device_authenticated : authenticated (xp_methods app_provider) (xg_methods device) device_req [XO (OFindClient (lit "tv") (V (Some tv)))] tv.
Proof. apply (p_xauth _ _ _ _ (V tv)). apply (xgo_at world). vm_compute. reflexivity. Qed.
Lemma device_refused : exists e, refused (xp_methods app_provider) (xg_methods device) (token_req [] [(lit "grant_type", device_type); L "device_code" "d1"]) [] (OA e) /\ oe_kind e = InvalidClient.
Proof. eexists. split; [apply (p_xauth _ _ _ _ (X _)); apply (xgo_at world); vm_compute; reflexivity|reflexivity]. Qed.

(** The authorization request with the application's response type, and with that of the library *)
Definition implicit_req : request :=
  req "GET" (authorization_url [L "response_type" "token"; L "client_id" "tv"; (lit "redirect_uri", cb)]) [] None (Some alice).
Definition implicit_trace : list xobs := [XO (OFindClient (lit "tv") (V (Some tv))); XOther (lit "confirm") (V (PStr (lit "granted")))].
Lemma implicit_run : exists x, xexec (xauthorization_endpoint app_provider implicit_req) implicit_trace (V x) /\ rs_status x = 303 /\
  lookup (lit "Location") (rs_headers x) = Some (PStr (lit "https://c.example/cb?done=1")).
Proof. eexists. split; [apply (xgo_at world); vm_compute; reflexivity|]. split; reflexivity. Qed.
Lemma device_response : chosen xg_response (xp_grants app_provider) (lit "token") device.
Proof.
  exists (map (xgrant_of ref_env ref_config app_hooks) [GCode; GClientCredentials; GRefresh]), []. split; [reflexivity|]. split; [reflexivity|].
  intros h Hh. cbn [map] in Hh. destruct Hh as [<-|[<-|[<-|[]]]]; discriminate.
Qed.
Definition tv_items : params :=
  [L "client_id" "tv"; (lit "redirect_uri", cb); L "scope" "openid email"; L "state" "s"; L "code_challenge" verifier; L "code_challenge_method" "plain"].
Definition tv_saved : pdict :=
  [(lit "code_challenge", PStr (lit verifier)); (lit "code_challenge_method", PStr (lit "plain")); (lit "redirect_uri", PStr cb);
   (lit "scopes", PList [PStr (lit "openid")]); (lit "state", PStr (lit "s")); (lit "audience", PStr (lit "api"))].
Definition hooked_url : str := lit "https://c.example/cb?code=c1&state=s&iss=https%3A%2F%2Fop.example".
Lemma hooked_authorize : xexec (xcode_authorize ref_env ref_config app_hooks tv_items tv alice)
  [XO (OSecretToken 64 (V (lit "c1"))); XSave (lit "c1") tv_saved tv alice (V tt)] (V hooked_url).
Proof. apply (xgo_at world). vm_compute. reflexivity. Qed.

(** The exchange of a wrapped code *)
Definition wrapped_items (code : string) : params := [L "code" code; (lit "redirect_uri", cb); L "code_verifier" verifier].
Definition hooked_token : pdict :=
  [(lit "access_token", PStr (lit "at1")); (lit "token_type", PStr (lit "Bearer")); (lit "expires_in", PInt 3600); (lit "scope", PStr (lit "openid"));
   (lit "audit", PStr (lit "granted"))].
Definition exchange_trace : list xobs :=
  [XO (OGetCode (lit "c1") (V (Some tv_code))); XO (ONow (V (5, 0)%Z)); XO (OFindUser (lit "alice") (V (Some alice)));
   XO (OCreateAT tv (OwnUser alice) [lit "openid"] (V (lit "at1"))); XOther (lit "audit") (V (PStr (lit "granted"))); XO (ODeleteCode (lit "c1") (V tt))].
Lemma hooked_exchange : xexec (xcode_token ref_env ref_config app_hooks (wrapped_items "w-c1") tv) exchange_trace (V hooked_token).
Proof. apply (xgo_at world). vm_compute. reflexivity. Qed.
Lemma plain_exchange : xexec (xcode_token ref_env ref_config app_hooks (wrapped_items "c1") tv) exchange_trace (V hooked_token).
Proof. apply (xgo_at world). vm_compute. reflexivity. Qed.
Lemma app_keeps_code : forall h, In h (xh_treq app_hooks) -> forall t u, xexec (h (wrapped_items "c1")) t (V u) -> lookup (lit "code") u = None.
Proof. intros h [<-|[]] t u H. apply xexec_Ret in H as [_ [= ->]]. reflexivity. Qed.

(** ** Hooks of the other grants *)
Definition others (t : list xobs) : bool := existsb (fun o => match o with XOther _ _ => true | _ => false end) t.
Lemma emb_no_other {A} (q : prog A) t x n y : xexec (emb q) t x -> ~ In (XOther n y) t.
Proof. intros H. apply xexec_emb in H as (tr & -> & _). intros Hi. apply in_map_iff in Hi as (o & Ho & _). discriminate. Qed.
Lemma p_never E cfg hs g data c t x n y : g <> GCode -> xexec (xg_token (xgrant_of E cfg hs g) data c) t x -> ~ In (XOther n y) t.
Proof.
  intros Hg H. cbn [xgrant_of xg_token] in H. apply xexec_pbind in H as [(a & t1 & t2 & -> & H1 & H2)|(e & -> & H1)].
  - apply xexec_Ret in H2 as [-> _]. rewrite app_nil_r. destruct g; [congruence| |]; eapply emb_no_other; eauto.
  - destruct g; [congruence| |]; eapply emb_no_other; eauto.
Qed.
Definition refresh_items : params := [L "refresh_token" "rt0"].
Lemma refresh_run : xexec (xg_token (xgrant_of ref_env ref_config app_hooks GRefresh) refresh_items tv)
  [XO (OGetRT (lit "rt0") (V (Some tv_refresh))); XO (ONow (V (5, 0)%Z)); XO (OFindUser (lit "alice") (V (Some alice)));
   XO (OCreateAT tv (OwnUser alice) [lit "openid"] (V (lit "at1")))]
  (V (PDict [(lit "access_token", PStr (lit "at1")); (lit "token_type", PStr (lit "Bearer")); (lit "expires_in", PInt 3600)])).
Proof. apply (xgo_at world). vm_compute. reflexivity. Qed.

(** ** Classes *)
(** A device grant that shares the table of BaseGrant, and one with its own *)
Definition code_cls : grant_cls := {| gc_mro := [1; 0]; gc_table := 0 |}.
Definition device_cls : grant_cls := {| gc_mro := [9; 0]; gc_table := 0 |}.
Definition own_cls : grant_cls := {| gc_mro := [8; 0]; gc_table := 8 |}.
Definition audit_cls : hook_cls := {| hc_id := 1; hc_has := fun cp => match cp with TokenResponse => true | _ => false end |}.
Definition fixed_key : method_class :=
  {| mc_id := 7; mc_parent := Some 1; mc_abstract := false; mc_method := {| xm_name := lit "fixed_key"; xm_auth := xm_auth api_key |} |}.
Definition api_cls : method_class := {| mc_id := 6; mc_parent := None; mc_abstract := false; mc_method := api_key |}.
Definition draft_cls : method_class := {| mc_id := 5; mc_parent := None; mc_abstract := true; mc_method := api_key |}.
