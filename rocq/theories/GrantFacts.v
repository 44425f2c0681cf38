(** What the executions of the grants look like. *)
From Coq Require Import String Ascii List NArith ZArith Bool Lia.
From Verif Require Import Base BaseFacts Utf8 Utf8Facts Base64 Base64Facts Json Url Webtools SpecCodec WebtoolsFacts Crypto Jwk Jws Jwt Prog ProgFacts Http OAuth SpecOAuth OAuthFacts.
Import ListNotations.
Open Scope N_scope.

(** Calls that only read the clock; calls that only hooks and the clock make. *)
Definition is_now (o : obs) : Prop := exists x, o = ONow x.
Definition is_hook (o : obs) : Prop :=
  match o with ONow _ | OGetKeyInfo _ _ | OGetUserinfo _ _ _ _ | OSignRand _ => True | _ => False end.

(** Calls that change nothing in the store of the application. *)
Definition quiet (o : obs) : Prop :=
  match o with OSaveCode _ _ _ _ _ | ODeleteCode _ _ | OCreateAT _ _ _ _ | OCreateRT _ _ _ _ | ORevokeToken _ _ _ _ => False | _ => True end.
Ltac fa := repeat first [apply Forall_nil | apply Forall_cons | (apply Forall_app; split)]; solve [exact I | auto].

(** [exec] of a program whose calls all satisfy [P]. *)
Fixpoint calls {A} (P : obs -> Prop) (p : prog A) : Prop :=
  match p with
  | Ret _ => True
  | Do e k => forall x, P (observe e x) /\ calls P (k x)
  end.
Lemma calls_exec {A} P (p : prog A) : calls P p -> forall tr x, exec p tr x -> Forall P tr.
Proof.
  induction p as [r | T e k IH]; simpl; intros H tr x Hx.
  - destruct Hx as [-> _]. constructor.
  - destruct Hx as (y & tr' & -> & Hx). destruct (H y). constructor; eauto.
Qed.
Lemma calls_ptry {A B} P (p : prog A) (f : res A -> prog B) : calls P p -> (forall x, calls P (f x)) -> calls P (ptry p f).
Proof.
  induction p as [r | T e k IH]; simpl; intros H Hf; auto.
  intros x. destruct (H x). split; auto.
Qed.
Lemma calls_pbind {A B} P (p : prog A) (f : A -> prog B) : calls P p -> (forall x, calls P (f x)) -> calls P (pbind p f).
Proof. intros H Hf. apply calls_ptry; auto. intros [a|e]; simpl; auto. Qed.
Lemma calls_pexcept {A} P (p : prog A) h : calls P p -> (forall e, calls P (h e)) -> calls P (pexcept p h).
Proof. intros H Hf. apply calls_ptry; auto. intros [a|[e|e]]; simpl; auto. Qed.
Lemma calls_call {T} (P : obs -> Prop) (e : eff T) : (forall x, P (observe e x)) -> calls P (call e).
Proof. intros H x. split; [auto|]. simpl. auto. Qed.
Lemma calls_Ret {A} P (x : res A) : calls P (Ret x).
Proof. simpl. auto. Qed.
Lemma calls_weaken {A} (P Q : obs -> Prop) (p : prog A) : (forall o, P o -> Q o) -> calls P p -> calls Q p.
Proof. intros H. induction p as [r | T e k IH]; simpl; auto. intros Hc x. destruct (Hc x). auto. Qed.
(** Break a [calls] goal down to the calls. *)
Ltac calls_go :=
  repeat match goal with
  | |- calls _ (pbind _ _) => apply calls_pbind; [|intros]
  | |- calls _ (pexcept _ _) => apply calls_pexcept; [|intros]
  | |- calls _ (call _) => apply calls_call; intros; cbn [observe]
  | |- calls _ (Ret _) => exact I
  | |- calls _ (ret _) => exact I
  | |- calls _ (throw _) => exact I
  | |- calls _ (if ?b then _ else _) => destruct b
  | |- calls _ (match ?x with _ => _ end) => destruct x
  | |- calls _ (let '(_, _) := ?x in _) => destruct x
  end.

Section WithEnv.
Variable E : env.

Lemma authenticate_calls r methods : calls is_find (authenticate r methods).
Proof.
  unfold authenticate, auth_methods. unfold is_find. simpl authenticate_loop. unfold auth_basic, auth_post, auth_none.
  calls_go; eauto.
Qed.
Lemma id_token_calls h t s c u : calls is_hook (generate_id_token E h t s c u).
Proof. unfold generate_id_token. calls_go; exact I. Qed.
Lemma token_hooks_calls l : forall t c u, calls is_hook (run_token_hooks E l t c u).
Proof.
  induction l as [|h l IH]; intros t c u; simpl; [exact I|].
  apply calls_pbind; [|intros; apply IH]. unfold oidc_token_response. calls_go; try exact I. apply id_token_calls.
Qed.
Lemma vac_calls uri v ac c : calls is_now (validate_authorization_code E uri v ac c).
Proof. unfold validate_authorization_code. calls_go; unfold is_now; eauto. Qed.
Lemma vrt_calls t c : calls is_now (validate_refresh_token t c).
Proof. unfold validate_refresh_token. calls_go; unfold is_now; eauto. Qed.

(** ** Code grant *)
Lemma validate_code_request_V data code uri v : validate_code_request data = V (code, uri, v) <->
  arg "code" data = Some code /\ arg "redirect_uri" data = Some uri /\ arg "code_verifier" data = Some v.
Proof.
  unfold validate_code_request.
  destruct (arg "code" data), (arg "redirect_uri" data), (arg "code_verifier" data); unfold oraise; split; intros H;
    try discriminate; try (destruct H as (H1 & H2 & H3); congruence). injection H as -> -> ->. auto.
Qed.
Lemma validate_code_request_X data e : validate_code_request data = X e -> exists d, e = oerr InvalidRequest (Some d) None [].
Proof.
  unfold validate_code_request.
  destruct (arg "code" data), (arg "redirect_uri" data), (arg "code_verifier" data); unfold oraise; intros H;
    try discriminate; injection H as <-; eauto.
Qed.

(** The check of line 464 against RFC 7636 *)
Definition verifies (ac : auth_code) (v : str) : Prop :=
  exists f, challenges E (ac_method ac) = Some f /\ f (ac_challenge ac) v = Ok true.
(** The code [ac] is for [c] and [uri], which is registered. *)
Definition bound (ac : auth_code) (c : client) (uri : str) : Prop :=
  In uri (cl_redirects c) /\ cl_id c = ac_client ac /\ uri = ac_redirect ac.

Lemma vac_exec uri v ac c tr : exec (validate_authorization_code E uri v ac c) tr (V tt) ->
  exists now off t, tr = [ONow (V (now, off))] /\ bound ac c uri /\ verifies ac v /\ ac_exp ac = Naive t /\ (now < t)%Z.
Proof.
  unfold validate_authorization_code.
  destruct (ins uri (cl_redirects c)) eqn:E1; cbn [negb]; [|intros H; xinv; discriminate].
  destruct (eqs_spec (cl_id c) (ac_client ac)) as [E2|]; cbn [negb]; [|intros H; xinv; discriminate].
  destruct (eqs_spec uri (ac_redirect ac)) as [E3|]; cbn [negb]; [|intros H; xinv; discriminate].
  destruct (challenges E (ac_method ac)) as [f|] eqn:E4; [|intros H; xinv; discriminate].
  intros H. apply exec_pbind in H as [(ok & t1 & t2 & -> & H1 & H) | (e & ? & _)]; [|discriminate].
  apply exec_Ret in H1 as [-> H1]. symmetry in H1. apply lift_V in H1.
  destruct ok; cbn [negb] in H; [|xinv; discriminate].
  apply exec_pbind in H as [([now off] & t3 & t4 & -> & H2 & H) | (e & ? & _)]; [|discriminate].
  apply exec_call in H2 as ->.
  apply exec_pbind in H as [(late & t5 & t6 & -> & H3 & H) | (e & ? & _)]; [|discriminate].
  apply exec_Ret in H3 as [-> H3]. symmetry in H3. apply lift_V in H3.
  destruct late; [xinv; discriminate|]. apply exec_Ret in H as [-> _].
  unfold expired in H3. destruct (ac_exp ac) as [t|] eqn:Ex; [|discriminate]. injection H3 as H3. apply Z.leb_gt in H3.
  apply ins_In in E1. exists now, off, t. unfold bound, verifies. repeat split; auto. exists f. auto.
Qed.

(** The calls of a code exchange that passed all checks, after the look-ups. *)
Definition issue_shape (hs : hooks) (cfg : config) (c : client) (u : user) (sc : list str) (tr : list obs) (x : res pdict) : Prop :=
  (exists e, tr = [OCreateAT c (OwnUser u) sc (X e)] /\ x = X e) \/
  exists a, (exists e, tr = [OCreateAT c (OwnUser u) sc (V a); OCreateRT c (OwnUser u) sc (X e)] /\ x = X e /\
                In (lit "refresh_token") (cl_grants c)) \/
    exists rt t1 t2, tr = OCreateAT c (OwnUser u) sc (V a) :: t1 ++ t2 /\
      (if ins (lit "refresh_token") (cl_grants c) then t1 = [OCreateRT c (OwnUser u) sc (V rt)] else t1 = [] /\ rt = None) /\
      exec (run_token_hooks E (hk_response hs) (create_token a (cf_token_lifespan cfg) rt sc) c u) t2 x.

(** The executions of the body of [token]. *)
Definition exchange_shape (cfg : config) (hs : hooks) (data : params) (c : client) (tr : list obs) (x : res pdict) : Prop :=
  (tr = [] /\ exists d, x = X (oerr InvalidRequest (Some d) None []) /\ forall y, validate_code_request data <> V y) \/
  exists code uri v, validate_code_request data = V (code, uri, v) /\
   ((exists e, tr = [OGetCode code (X e)] /\ x = X e) \/
    (exists d, tr = [OGetCode code (V None)] /\ x = X (oerr InvalidRequest (Some d) None [])) \/
    exists ac t1, Forall is_now t1 /\
      ((exists e, exec (validate_authorization_code E uri v ac c) t1 (X e) /\ tr = OGetCode code (V (Some ac)) :: t1 /\ x = X e) \/
       (exec (validate_authorization_code E uri v ac c) t1 (V tt) /\
        ((exists e, tr = OGetCode code (V (Some ac)) :: t1 ++ [OFindUser (ac_user ac) (X e)] /\ x = X e) \/
         (exists d, tr = OGetCode code (V (Some ac)) :: t1 ++ [OFindUser (ac_user ac) (V None)] /\ x = X (oerr InvalidRequest (Some d) None [])) \/
         exists u t2, tr = OGetCode code (V (Some ac)) :: t1 ++ OFindUser (ac_user ac) (V (Some u)) :: t2 /\
           issue_shape hs cfg c u (ac_scopes ac) t2 x)))).

Lemma exchange_exec cfg hs data c tr x : exec (code_exchange E cfg hs data c) tr x -> exchange_shape cfg hs data c tr x.
Proof.
  unfold code_exchange, exchange_shape. intros H.
  apply exec_pbind in H as [([[code uri] v] & t0 & t0' & -> & H0 & H) | (e & -> & H0)].
  2:{ apply exec_Ret in H0 as [-> H0]. symmetry in H0. left. split; [auto|].
      pose proof (validate_code_request_X _ _ H0) as [d ->]. exists d. split; [auto|]. congruence. }
  apply exec_Ret in H0 as [-> H0]. symmetry in H0. right. exists code, uri, v. split; [auto|]. simpl.
  apply exec_pbind in H as [(oc & t1 & t2 & -> & H1 & H) | (e & -> & H1)]; apply exec_call in H1 as ->; cbn [observe app].
  2:{ left. eauto. }
  destruct oc as [ac|]; [|apply exec_Ret in H as [-> ->]; right; left; unfold oraise; eauto].
  right. right. exists ac.
  apply exec_pbind in H as [([] & t3 & t4 & -> & H2 & H) | (e & -> & H2)];
    pose proof (calls_exec _ _ (vac_calls uri v ac c) _ _ H2) as Hn.
  2:{ exists t2. split; [auto|]. left. eauto. }
  exists t3. split; [auto|]. right. split; [auto|].
  apply exec_pbind in H as [(ou & t5 & t6 & -> & H3 & H) | (e & -> & H3)]; apply exec_call in H3 as ->; cbn [observe app].
  2:{ left. eauto. }
  destruct ou as [u|]; [|apply exec_Ret in H as [-> ->]; right; left; unfold oraise; eauto].
  right. right. exists u, t6. split; [auto|]. unfold issue_shape.
  apply exec_pbind in H as [(a & t7 & t8 & -> & H4 & H) | (e & -> & H4)]; apply exec_call in H4 as ->; cbn [observe app].
  2:{ left. eauto. }
  right. exists a. unfold maybe_refresh in H.
  apply exec_pbind in H as [(rt & t9 & t10 & -> & H5 & H) | (e & -> & H5)];
    destruct (ins (lit "refresh_token") (cl_grants c)) eqn:Ei.
  - apply exec_call in H5 as ->. right. exists rt, [OCreateRT c (OwnUser u) (ac_scopes ac) (V rt)], t10. auto.
  - apply exec_Ret in H5 as [-> H5]. injection H5 as ->. right. exists None, [], t10. auto.
  - apply exec_call in H5 as ->. left. exists e. apply ins_In in Ei. auto.
  - apply exec_Ret in H5 as [_ H5]. discriminate.
Qed.

(** Whenever a code exchange creates a token, these checks passed, and these are the calls around it. *)
Definition exchange_checked (data : params) (c : client) (tr : list obs) (code uri v : str) (ac : auth_code) (u : user) (t2 : list obs) : Prop :=
  arg "code" data = Some code /\ arg "redirect_uri" data = Some uri /\ arg "code_verifier" data = Some v /\
  bound ac c uri /\ verifies ac v /\
  exists now off t, tr = OGetCode code (V (Some ac)) :: ONow (V (now, off)) :: OFindUser (ac_user ac) (V (Some u)) :: t2 /\
    ac_exp ac = Naive t /\ (now < t)%Z.

Lemma exchange_issues cfg hs data c tr x : exec (code_exchange E cfg hs data c) tr x ->
  (Forall quiet tr /\ (exists e, x = X e)) \/
  exists code uri v ac u t2, exchange_checked data c tr code uri v ac u t2 /\ issue_shape hs cfg c u (ac_scopes ac) t2 x.
Proof.
  intros H. apply exchange_exec in H.
  assert (Hnow : forall t, Forall is_now t -> Forall quiet t).
  { intros t. apply Forall_impl. intros o [y ->]. simpl. auto. }
  destruct H as [[-> (d & -> & _)] | (code & uri & v & Hv & H)]; [left; split; eauto|].
  apply validate_code_request_V in Hv as (V1 & V2 & V3).
  destruct H as [(e & -> & ->) | [(d & -> & ->) | (ac & t1 & Hn & H)]].
  - left. split; [fa | eauto].
  - left. split; [fa | eauto].
  - destruct H as [(e & _ & -> & ->) | [Hok H]].
    + left. split; [fa|eauto].
    + destruct H as [(e & -> & ->) | [(d & -> & ->) | (u & t2 & -> & H)]].
      * left. split; [fa|eauto].
      * left. split; [fa|eauto].
      * right. exists code, uri, v, ac, u, t2. split; [|auto].
        apply vac_exec in Hok as (now & off & t & -> & Hb & Hve & He & Ht).
        unfold exchange_checked. do 5 (split; [solve [auto]|]). exists now, off, t. auto.
Qed.
Lemma token_hooks_trace l t c u tr x : exec (run_token_hooks E l t c u) tr x ->
  Forall quiet tr.
Proof.
  intros H. apply (calls_exec _ _ (token_hooks_calls l t c u)) in H. eapply Forall_impl; [|exact H].
  intros []; simpl; tauto.
Qed.

(** ** The other grants *)
Lemma check_supported_V cfg l state : check_supported cfg l state = V tt <-> incl l (cf_scopes cfg).
Proof.
  induction l as [|s l IH]; simpl.
  - split; intros; [intros x []|auto].
  - destruct (ins s (cf_scopes cfg)) eqn:Es.
    + rewrite IH. apply ins_In in Es. split; intros H x Hx; [destruct Hx as [<-|Hx]; auto | apply H; simpl; auto].
    + split; [discriminate|]. intros H. apply ins_nIn in Es. exfalso. apply Es, H. simpl; auto.
Qed.
Lemma check_supported_X cfg l state e : check_supported cfg l state = X e -> exists d, e = oerr InvalidScope (Some d) state [].
Proof.
  induction l as [|s l IH]; simpl; [discriminate|]. destruct (ins s _); auto. intros [= <-]. eauto.
Qed.
Lemma validate_scopes_V cfg l c state : validate_requested_scopes cfg (Some l) c state = V tt <->
  incl l (cf_scopes cfg) /\ incl l (cl_allowed c (Some l)).
Proof.
  simpl. rewrite <- check_supported_V with (state := state), <- subsetb_incl.
  destruct (check_supported cfg l state) as [[]|e]; simpl.
  - destruct (subsetb _ _); split; [auto|auto|discriminate|intros [_ H]; discriminate].
  - split; [discriminate|intros [H _]; discriminate].
Qed.
Lemma validate_scopes_X cfg o c state e : validate_requested_scopes cfg o c state = X e -> exists d, e = oerr InvalidScope (Some d) state [].
Proof.
  destruct o as [l|]; simpl; [|discriminate].
  destruct (check_supported cfg l state) as [[]|e'] eqn:Ec; simpl.
  - destruct (subsetb _ _); [discriminate|]. intros [= <-]. eauto.
  - intros [= <-]. eapply check_supported_X; eauto.
Qed.

Lemma cc_exec cfg data c tr x : exec (cc_token cfg data c) tr x ->
  (tr = [] /\ exists d, x = X (oerr InvalidScope (Some d) None [])) \/
  (validate_requested_scopes cfg (cc_scopes data) c None = V tt /\
   exists r, tr = [OCreateAT c (OwnClient c) (cl_allowed c (cc_scopes data)) r] /\
     x = match r with
         | X e => X e
         | V t => V (create_token t (cf_token_lifespan cfg) None
                      (match cc_scopes data with
                       | Some l => if eql (cl_allowed c (cc_scopes data)) l then [] else cl_allowed c (cc_scopes data)
                       | None => cl_allowed c (cc_scopes data) end))
         end).
Proof.
  unfold cc_token. intros H.
  apply exec_pbind in H as [([] & t1 & t2 & -> & H1 & H) | (e & -> & H1)]; apply exec_Ret in H1 as [-> H1]; symmetry in H1.
  - right. split; [auto|].
    apply exec_pbind in H as [(a & t3 & t4 & -> & H2 & H) | (e & -> & H2)]; apply exec_call in H2 as ->.
    + apply exec_Ret in H as [-> ->]. exists (V a). auto.
    + exists (X e). auto.
  - left. split; [auto|]. apply validate_scopes_X in H1 as [d ->]. eauto.
Qed.

Lemma vrt_exec t c tr : exec (validate_refresh_token t c) tr (V tt) ->
  exists now off d, tr = [ONow (V (now, off))] /\ rt_client t = cl_id c /\ rt_exp t = Naive d /\ (now < d)%Z.
Proof.
  unfold validate_refresh_token. destruct (eqs_spec (rt_client t) (cl_id c)) as [E1|]; cbn [negb]; [|intros H; xinv; discriminate].
  intros H. apply exec_pbind in H as [([now off] & t3 & t4 & -> & H2 & H) | (e & ? & _)]; [|discriminate].
  apply exec_call in H2 as ->.
  apply exec_pbind in H as [(late & t5 & t6 & -> & H3 & H) | (e & ? & _)]; [|discriminate].
  apply exec_Ret in H3 as [-> H3]. symmetry in H3. apply lift_V in H3.
  destruct late; [xinv; discriminate|]. apply exec_Ret in H as [-> _].
  unfold expired in H3. destruct (rt_exp t) as [d|] eqn:Ex; [|discriminate]. injection H3 as H3. apply Z.leb_gt in H3.
  exists now, off, d. auto.
Qed.

(** The scopes of a refreshed token before [get_allowed_scopes] *)
Lemma refresh_scopes_V cfg t req c sc : validate_refresh_scopes E cfg t req c = V sc ->
  match req with
  | None | Some [] => sc = rt_scopes t
  | Some l => incl l (cf_scopes cfg) /\ incl l (cl_allowed c (Some l)) /\ incl l (rt_scopes t) /\ sc = e_set_order E (inter (rt_scopes t) l)
  end.
Proof.
  unfold validate_refresh_scopes. intros H. apply vbind_V in H as ([] & H1 & H).
  destruct req as [[|s l]|]; [congruence| |congruence].
  destruct (subsetb (s :: l) (rt_scopes t)) eqn:Es; simpl in H; [|discriminate].
  apply subsetb_incl in Es. apply validate_scopes_V in H1 as [H1 H2]. injection H as <-. auto.
Qed.

Definition refresh_checked (cfg : config) (data : params) (c : client) (tr : list obs) (token : str) (t : refresh_token) (sc : list str) (ou : option user) (t2 : list obs) : Prop :=
  arg "refresh_token" data = Some token /\ rt_client t = cl_id c /\
  validate_refresh_scopes E cfg t (cc_scopes data) c = V sc /\
  exists now off d, tr = OGetRT token (V (Some t)) :: ONow (V (now, off)) :: OFindUser (rt_user t) (V ou) :: t2 /\
    rt_exp t = Naive d /\ (now < d)%Z.
Definition refresh_shape (cfg : config) (c : client) (o : owner) (sc old : list str) (tr : list obs) (x : res pdict) : Prop :=
  (exists e, tr = [OCreateAT c o sc (X e)] /\ x = X e) \/
  exists a, (exists e, tr = [OCreateAT c o sc (V a); OCreateRT c o sc (X e)] /\ x = X e /\ In (lit "refresh_token") (cl_grants c)) \/
    exists rt t1, tr = OCreateAT c o sc (V a) :: t1 /\
      (if ins (lit "refresh_token") (cl_grants c) then t1 = [OCreateRT c o sc (V rt)] else t1 = [] /\ rt = None) /\
      x = V (create_token a (cf_token_lifespan cfg) rt (if eql sc old then [] else sc)).
Lemma refresh_exec cfg data c tr x : exec (refresh_grant E cfg data c) tr x ->
  (Forall quiet tr /\ (exists e, x = X e)) \/
  exists token t sc ou t2, refresh_checked cfg data c tr token t sc ou t2 /\
    refresh_shape cfg c (owner_of ou) (cl_allowed c (Some sc)) (rt_scopes t) t2 x.
Proof.
  unfold refresh_grant. intros H.
  apply exec_pbind in H as [([token req] & t0 & t0' & -> & H0 & H) | (e & -> & H0)]; apply exec_Ret in H0 as [-> H0]; symmetry in H0; [|left; split; [constructor|eauto]].
  assert (Harg : arg "refresh_token" data = Some token /\ req = cc_scopes data).
  { unfold validate_refresh_request in H0. destruct (arg "refresh_token" data); [|discriminate]. injection H0 as -> ->. auto. }
  destruct Harg as [Harg ->].
  apply exec_pbind in H as [(ot & t1 & t2 & -> & H1 & H) | (e & -> & H1)]; apply exec_call in H1 as ->; cbn [observe app]; [|left; split; [fa|eauto]].
  destruct ot as [t|]; [|apply exec_Ret in H as [-> ->]; left; split; [fa|unfold oraise; eauto]].
  assert (Hnow : forall t, Forall is_now t -> Forall quiet t).
  { intros l. apply Forall_impl. intros o [y ->]. simpl. auto. }
  apply exec_pbind in H as [([] & t3 & t4 & -> & H2 & H) | (e & -> & H2)];
    pose proof (Hnow _ (calls_exec _ _ (vrt_calls t c) _ _ H2)) as Hn; [|left; split; [fa|eauto]].
  apply exec_pbind in H as [(sc & t5 & t6 & -> & H3 & H) | (e & -> & H3)]; apply exec_Ret in H3 as [-> H3]; symmetry in H3;
    [|left; split; [rewrite ?app_nil_r; fa|eauto]].
  apply exec_pbind in H as [(ou & t7 & t8 & -> & H4 & H) | (e & -> & H4)]; apply exec_call in H4 as ->; cbn [observe app];
    [|left; split; [fa|eauto]].
  right. exists token, t, sc, ou, t8. split.
  - apply vrt_exec in H2 as (now & off & d & -> & E1 & E2 & E3). unfold refresh_checked. do 3 (split; [solve [auto]|]).
    exists now, off, d. auto.
  - unfold refresh_shape.
    apply exec_pbind in H as [(a & t9 & t10 & -> & H5 & H) | (e & -> & H5)]; apply exec_call in H5 as ->; cbn [observe app]; [|left; eauto].
    right. exists a. unfold maybe_refresh in H.
    apply exec_pbind in H as [(rt & t11 & t12 & -> & H6 & H) | (e & -> & H6)];
      destruct (ins (lit "refresh_token") (cl_grants c)) eqn:Ei.
    + apply exec_call in H6 as ->. apply exec_Ret in H as [-> ->]. right. exists rt, [OCreateRT c (owner_of ou) (cl_allowed c (Some sc)) (V rt)]. auto.
    + apply exec_Ret in H6 as [-> H6]. injection H6 as ->. apply exec_Ret in H as [-> ->]. right. exists None, []. auto.
    + apply exec_call in H6 as ->. left. exists e. apply ins_In in Ei. auto.
    + apply exec_Ret in H6 as [_ H6]. discriminate.
Qed.

End WithEnv.
