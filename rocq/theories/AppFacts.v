(** Lemmas about the example application. *)
From Coq Require Import String Ascii List NArith ZArith Bool Arith Lia.
From Verif Require Import Base BaseFacts Utf8 Utf8Facts SpecCodec SpecWeb Json Url UrlFacts Webtools WebtoolsFacts Crypto Jwk Prog ProgFacts Http OAuth SpecOAuth SpecHistory SpecFlow Example ExampleFacts HistoryFacts StoreFacts LineageFacts EndpointFacts RaiseFacts SpecUrl UrlQuoteFacts UrlWriteFacts App SpecApp.
Import ListNotations.
Open Scope N_scope.

(** ** Executions *)
Lemma aexec_ARet {A} (x : res A) tr r : aexec (ARet x) tr r <-> tr = [] /\ r = x. Proof. simpl. tauto. Qed.
Lemma aexec_ADo {A T} (e : aeff T) (k : res T -> aprog A) tr r : aexec (ADo e k) tr r <-> exists x tr', tr = aobserve e x :: tr' /\ aexec (k x) tr' r.
Proof. simpl. tauto. Qed.
Lemma aexec_acall {T} (e : aeff T) tr r : aexec (acall e) tr r <-> tr = [aobserve e r].
Proof.
  unfold acall. rewrite aexec_ADo. split.
  - intros (x & tr' & -> & H). apply aexec_ARet in H as [-> ->]. auto.
  - intros ->. exists r, []. split; auto. apply aexec_ARet. auto.
Qed.
Lemma aexec_atry {A B} (p : aprog A) (f : res A -> aprog B) : forall tr r,
  aexec (atry p f) tr r <-> exists x t1 t2, tr = t1 ++ t2 /\ aexec p t1 x /\ aexec (f x) t2 r.
Proof.
  induction p as [x | T e k IH]; intros tr r; simpl atry.
  - split.
    + intros H. exists x, [], tr. simpl; auto.
    + intros (x' & t1 & t2 & -> & H1 & H2). apply aexec_ARet in H1 as [-> ->]. auto.
  - rewrite aexec_ADo. split.
    + intros (x & tr' & -> & H). apply IH in H as (y & t1 & t2 & -> & H1 & H2).
      exists y, (aobserve e x :: t1), t2. split; [auto|]. split; [|auto]. apply aexec_ADo. eauto.
    + intros (y & t1 & t2 & -> & H1 & H2). apply aexec_ADo in H1 as (x & t1' & -> & H1).
      exists x, (t1' ++ t2). split; [auto|]. apply IH. eauto 6.
Qed.
Lemma aexec_abind {A B} (p : aprog A) (f : A -> aprog B) tr r :
  aexec (abind p f) tr r <->
  (exists a t1 t2, tr = t1 ++ t2 /\ aexec p t1 (V a) /\ aexec (f a) t2 r) \/ (exists e, r = X e /\ aexec p tr (X e)).
Proof.
  unfold abind. rewrite aexec_atry. split.
  - intros (x & t1 & t2 & -> & H1 & H2). destruct x as [a | e].
    + left. eauto 6.
    + right. apply aexec_ARet in H2 as [-> ->]. rewrite app_nil_r. eauto.
  - intros [(a & t1 & t2 & -> & H1 & H2) | (e & -> & H)].
    + exists (V a), t1, t2. auto.
    + exists (X e), tr, []. rewrite app_nil_r. split; [auto|]. split; [auto|]. apply aexec_ARet. auto.
Qed.
Lemma aexec_library {A} (p : prog A) : forall tr r, aexec (library p) tr r <-> exists tr0, tr = map OLib tr0 /\ exec p tr0 r.
Proof.
  induction p as [x | T e k IH]; intros tr r; simpl library.
  - rewrite aexec_ARet. split; [intros [-> ->]; exists []; simpl; auto|]. intros (tr0 & -> & H). apply exec_Ret in H as [-> ->]. auto.
  - rewrite aexec_ADo. split.
    + intros (x & tr' & -> & H). apply IH in H as (tr0 & -> & H). exists (observe e x :: tr0). split; [reflexivity|]. apply exec_Do. eauto.
    + intros (tr0 & -> & H). apply exec_Do in H as (x & tr' & -> & H). exists x, (map OLib tr'). split; [reflexivity|]. apply IH. eauto.
Qed.
Lemma lib_calls_app a b : lib_calls (a ++ b) = lib_calls a ++ lib_calls b. Proof. apply flat_map_app. Qed.
Lemma lib_calls_map l : lib_calls (map OLib l) = l. Proof. induction l as [|o l IH]; [reflexivity|]. unfold lib_calls in *. cbn [map flat_map app]. f_equal. exact IH. Qed.
Lemma lib_calls_In o l : In o (lib_calls l) <-> In (OLib o) l.
Proof.
  unfold lib_calls. rewrite in_flat_map. split.
  - intros (x & Hx & Ho). destruct x; try destruct Ho as [->|[]]; try destruct Ho. auto.
  - intros H. exists (OLib o). split; [auto|left; reflexivity].
Qed.

(** ** What the pages do *)
Ltac aret H := apply aexec_ARet in H as [-> ->].
Lemma redirect_exec url c tr x : aexec (redirect url c) tr x -> tr = [].
Proof. intros H. apply aexec_ARet in H as [-> _]. auto. Qed.
(** The middleware *)
Lemma session_exec w tr x : aexec (session_user w) tr x ->
  (wb_cookie w = None /\ tr = [] /\ x = V (Some None)) \/
  exists uid sid y, wb_cookie w = Some (uid, sid) /\ tr = [OGetSession sid uid y] /\
    x = match y with X e => X e | V None => V (Some None) | V (Some None) => V None | V (Some (Some u)) => V (Some (Some u)) end.
Proof.
  unfold session_user. destruct (wb_cookie w) as [[uid sid]|]; intros H; [right|left; aret H; auto].
  exists uid, sid. apply aexec_abind in H as [(row & t1 & t2 & -> & H1 & H2)|(e & -> & H)].
  - apply aexec_acall in H1 as ->. exists (V row). split; [auto|]. destruct row as [[u|]|]; aret H2; auto.
  - apply aexec_acall in H as ->. exists (X e). auto.
Qed.
Section WithEnv.
Variable E : env.
Variable p : provider.
Variable hs : hooks.
Lemma application_exec g w tr x : aexec (application E p hs g w) tr x ->
  (exists ou t2, aexec (session_user w) (firstn (match wb_cookie w with None => 0 | _ => 1 end) tr) (V (Some ou)) /\
     tr = firstn (match wb_cookie w with None => 0 | _ => 1 end) tr ++ t2 /\ aexec (view E p hs g w ou) t2 x) \/
  (forall o, In o tr -> exists sid uid y, o = OGetSession sid uid y).
Proof.
  intros H. unfold application in H. apply aexec_abind in H as [(ou & t1 & t2 & -> & H1 & H2)|(e & -> & H)].
  - pose proof (session_exec _ _ _ H1) as Hs. destruct ou as [ou|].
    + left. exists ou, t2. destruct Hs as [(Hc & -> & _)|(uid & sid & y & Hc & -> & _)]; rewrite Hc; cbn [firstn app]; auto.
    + right. aret H2. rewrite app_nil_r. destruct Hs as [(_ & -> & _)|(uid & sid & y & _ & -> & _)]; [intros o []|]. intros o [<-|[]]. eauto.
  - right. destruct (session_exec _ _ _ H) as [(_ & -> & _)|(uid & sid & y & _ & -> & _)]; [intros o []|]. intros o [<-|[]]. eauto.
Qed.

(** The calls of the login *)
Lemma login_traces w u tr x : aexec (login_post w u) tr x ->
  tr = [] \/ (u = None /\ form_ok (wb_form w) = true /\ ((exists y, tr = [OFindAccount (lf_email (wb_form w)) y]) \/
  exists a y rest, tr = OFindAccount (lf_email (wb_form w)) (V (Some a)) :: OUserSession (a_id a) y :: rest /\ a_password a = lf_password (wb_form w) /\
    ((rest = [] /\ exists z, y = z /\ forall s, y = V s -> s <> None) \/ y = V None /\
     ((exists z, rest = [OSessionToken z]) \/ exists t q, rest = [OSessionToken (V t); ONewSession t (a_id a) q])))).
Proof.
  intros H. unfold login_post in H. destruct u as [u|]; [left; eapply redirect_exec; eauto|].
  destruct (form_ok (wb_form w)); cbn [negb] in H; [|aret H; auto]. right. split; [auto|]. split; [auto|].
  apply aexec_abind in H as [(a & s1 & s2 & -> & H1 & H2)|(e & _ & H)]; [|apply aexec_acall in H; left; eexists; exact H].
  apply aexec_acall in H1 as ->. destruct a as [a|]; [|aret H2; left; eexists; reflexivity].
  destruct (eqs_spec (a_password a) (lf_password (wb_form w))) as [Hp|]; cbn [negb] in H2; [|aret H2; left; eexists; reflexivity].
  right. exists a. cbn [app]. apply aexec_abind in H2 as [(s & s3 & s4 & -> & H3 & H4)|(e & _ & H)].
  2:{ apply aexec_acall in H. subst s2. exists (X e), []. split; [reflexivity|]. split; [auto|]. left. split; [auto|]. exists (X e). split; [auto|]. discriminate. }
  apply aexec_acall in H3 as ->. exists (V s), s4. split; [reflexivity|]. split; [auto|].
  assert (Hs : exists v, aexec (match s with Some sid => aret sid | None => ado t <- acall SessionToken ;; ado _ <- acall (NewSession t (a_id a)) ;; aret t end) s4 v).
  { apply aexec_abind in H4 as [(sid' & s5 & s6 & -> & H5 & H6)|(e & _ & H)]; [|eauto]. apply redirect_exec in H6. subst s6. rewrite app_nil_r. eauto. }
  clear H4. destruct Hs as [v Hv]. destruct s as [s|].
  { aret Hv. left. split; [auto|]. exists (V (Some s)). split; [auto|]. congruence. }
  right. split; [auto|]. apply aexec_abind in Hv as [(t & s5 & s6 & -> & H5 & H6)|(e & _ & H)]; [|apply aexec_acall in H; left; eexists; exact H].
  apply aexec_acall in H5 as ->. right. exists t. cbn [app].
  apply aexec_abind in H6 as [([] & s7 & s8 & -> & H7 & H8)|(e & _ & H)].
  - apply aexec_acall in H7 as ->. aret H8. exists (V tt). reflexivity.
  - apply aexec_acall in H. subst s6. exists (X e). reflexivity.
Qed.
(** A session is only started by a login with the password of the account. *)
Lemma login_new w u tr x t1 sid uid y t2 : aexec (login_post w u) tr x -> tr = t1 ++ ONewSession sid uid y :: t2 ->
  exists a, In (OFindAccount (lf_email (wb_form w)) (V (Some a))) t1 /\ a_id a = uid /\ a_password a = lf_password (wb_form w).
Proof.
  intros H Ht. apply login_traces in H as [->|(_ & _ & [(z & ->)|(a & z & rest & -> & Hp & Hr)])].
  - destruct t1; discriminate.
  - destruct t1 as [|? [|? ?]]; discriminate.
  - exists a. destruct t1 as [|o1 t1]; [discriminate|]. injection Ht as <- Ht. split; [left; reflexivity|]. split; [|auto].
    destruct t1 as [|o2 t1]; [discriminate|]. injection Ht as _ Ht.
    destruct Hr as [[-> _]|(_ & [(z' & ->)|(t & q & ->)])].
    + destruct t1; discriminate.
    + destruct t1 as [|? [|? ?]]; discriminate.
    + destruct t1 as [|o3 t1]; [discriminate|]. injection Ht as _ Ht. destruct t1 as [|o4 t1]; [injection Ht; auto|]. injection Ht as _ Ht. destruct t1; discriminate.
Qed.
Lemma logout_traces w u tr x : aexec (logout_get w u) tr x ->
  (tr = [] /\ (u = None \/ wb_cookie w = None)) \/ exists u0 uid sid y z, u = Some u0 /\ wb_cookie w = Some (uid, sid) /\ tr = [ODropRefresh uid y; ODropSessions uid z] /\
    (forall r, x = V r -> y = V tt /\ z = V tt).
Proof.
  intros H. unfold logout_get in H. destruct u as [u|]; [|left; split; [eapply redirect_exec; eauto|auto]].
  destruct (wb_cookie w) as [[uid sid]|]; [|aret H; auto]. right. exists u, uid, sid.
  apply aexec_atry in H as (y & s1 & s2 & -> & H1 & H2). apply aexec_acall in H1 as ->.
  apply aexec_atry in H2 as (z & s3 & s4 & -> & H3 & H4). apply aexec_acall in H3 as ->. exists y, z. split; [auto|]. split; [auto|].
  destruct y as [[]|e]; [destruct z as [[]|e]|].
  - apply aexec_ARet in H4 as [-> _]. auto.
  - aret H4. split; [reflexivity|discriminate].
  - aret H4. split; [reflexivity|discriminate].
Qed.

(** ** The calls of the library *)
(** Which request the library gets *)
Definition lib_service (g : page) : option service :=
  match g with AuthorizePage => Some Authorize | RevokePage => Some Revoke | TokenPage => Some Token | _ => None end.
(** The user is that of the session. *)
Definition session_of (w : web) (tr : list aobs) (ou : option user) : Prop :=
  match ou with None => True | Some u => exists uid sid, wb_cookie w = Some (uid, sid) /\ In (OGetSession sid uid (V (Some (Some u)))) tr end.
Lemma view_calls g w ou tr x : aexec (view E p hs g w ou) tr x -> lib_calls tr = [] \/
  exists sv r l, lib_service g = Some sv /\ tr = map OLib l /\ make_request (wb_method w) (wb_url w) (wb_headers w) (Some (wb_body w)) ou = Ok r /\
    (sv = Authorize -> ou <> None) /\ exists an, served E {| in_service := sv; in_provider := p; in_hooks := hs; in_request := r |} l an.
Proof.
  assert (Hreq : forall (f : request -> aprog reply), aexec (ado r <- create_request w ou ;; f r) tr x -> lib_calls tr = [] \/
     exists r, make_request (wb_method w) (wb_url w) (wb_headers w) (Some (wb_body w)) ou = Ok r /\ aexec (f r) tr x).
  { intros f H. apply aexec_abind in H as [(r & s1 & s2 & -> & H1 & H2)|(e & -> & H)].
    - apply aexec_ARet in H1 as [-> H1]. right. exists r. split; [|auto]. destruct (make_request _ _ _ _ _); [injection H1 as ->; auto|discriminate].
    - apply aexec_ARet in H as [-> _]. auto. }
  assert (Hlib : forall A (q : prog A) (k : A -> aprog reply), (forall a t y, aexec (k a) t y -> t = []) -> aexec (ado a <- library q ;; k a) tr x ->
     exists l y, tr = map OLib l /\ exec q l y).
  { intros A q k Hk H. apply aexec_abind in H as [(a & s1 & s2 & -> & H1 & H2)|(e & -> & H)].
    - apply Hk in H2. subst s2. rewrite app_nil_r. apply aexec_library in H1 as (l & -> & H1). eauto.
    - apply aexec_library in H as (l & -> & H). eauto. }
  assert (Hresp : forall o t y, aexec (create_response o) t y -> t = []).
  { intros [r|] t y H; apply aexec_ARet in H as [-> _]; auto. }
  intros H. destruct g; cbn [view] in H.
  - destruct (is_get w); aret H; auto.
  - left. destruct (is_get w); [|destruct (is_post w); [|aret H; auto]].
    + unfold login_get in H. destruct ou; [apply redirect_exec in H; subst; auto|aret H; auto].
    + apply login_traces in H as [->|(_ & _ & [(z & ->)|(a & z & rest & -> & _ & Hr)])]; [auto|auto|].
      destruct Hr as [[-> _]|(_ & [(z' & ->)|(t & q & ->)])]; auto.
  - left. destruct (is_get w); [|destruct (is_post w); [apply redirect_exec in H; subst; auto|aret H; auto]].
    apply logout_traces in H as [[-> _]|(u & uid & sid & y & z & _ & _ & -> & _)]; auto.
  - destruct (is_get w); [|aret H; auto]. unfold authorize_get in H. destruct ou as [u|].
    + apply Hreq in H as [H|(r & Hr & H)]; [auto|]. apply Hlib in H as (l & y & -> & H); [|intros; eapply Hresp; eauto].
      right. exists Authorize, r, l. split; [auto|]. split; [auto|]. split; [auto|]. split; [discriminate|]. eexists. exists y. split; [exact H|reflexivity].
    + left. apply aexec_abind in H as [(a & s1 & s2 & -> & H1 & H2)|(e & -> & H)].
      * apply aexec_ARet in H1 as [-> _]. apply redirect_exec in H2. subst. auto.
      * apply aexec_ARet in H as [-> _]. auto.
  - destruct (is_get w); aret H; auto.
  - destruct (is_post w); [|aret H; auto]. apply Hreq in H as [H|(r & Hr & H)]; [auto|]. apply Hlib in H as (l & y & -> & H); [|intros; eapply Hresp; eauto].
    right. exists Revoke, r, l. split; [auto|]. split; [auto|]. split; [auto|]. split; [discriminate|]. eexists. exists y. split; [exact H|reflexivity].
  - destruct (is_post w); [|aret H; auto]. apply Hreq in H as [H|(r & Hr & H)]; [auto|]. apply Hlib in H as (l & y & -> & H); [|intros; eapply Hresp; eauto].
    right. exists Token, r, l. split; [auto|]. split; [auto|]. split; [auto|]. split; [discriminate|]. eexists. exists y. split; [exact H|reflexivity].
Qed.
End WithEnv.

(** ** The tables *)
Lemma lib_step C aware t o t1 : app_step C aware t (OLib o) t1 ->
  ex_step C aware (tb_store t) o (tb_store t1) /\ tb_sessions t1 = tb_sessions t /\ tb_accounts t1 = tb_accounts t.
Proof.
  intros H. remember (OLib o) as z eqn:Ez. destruct H as [ch T e t|T e x t].
  - destruct e; cbn [app_do fst snd aobserve] in Ez; try discriminate; try (destruct (existsb _ _); discriminate).
    cbn [app_do]. pose proof (ex_ok C aware ch T e (tb_store t)) as Hs. destruct (ex_do C aware ch e (tb_store t)) as [x s]. cbn [fst snd] in *. injection Ez as <-. auto.
  - destruct e; cbn [aobserve] in Ez; try discriminate. injection Ez as <-. split; [apply ex_raise|auto].
Qed.
Lemma other_step C aware t o t1 : app_step C aware t o t1 -> (forall z, o <> OLib z) ->
  st_codes (tb_store t1) = st_codes (tb_store t) /\ st_clients (tb_store t1) = st_clients (tb_store t) /\ st_users (tb_store t1) = st_users (tb_store t) /\
  incl (st_rts (tb_store t1)) (st_rts (tb_store t)) /\ tb_accounts t1 = tb_accounts t.
Proof.
  intros H Hn. destruct H as [ch T e t|T e x t]; [|auto using incl_refl].
  destruct e; cbn [app_do fst snd aobserve] in *; auto using incl_refl.
  - destruct (existsb _ _); cbn [fst snd set_sessions tb_store tb_accounts]; auto using incl_refl.
  - cbn [set_store tb_store set_rts st_codes st_clients st_users st_rts tb_accounts]. split; [auto|]. split; [auto|]. split; [auto|]. split; [|auto]. intros z Hz. apply filter_In in Hz. tauto.
  - exfalso. destruct (ex_do C aware ch e (tb_store t)) as [x s]. eapply Hn. reflexivity.
Qed.
Lemma is_lib (o : aobs) : (exists z, o = OLib z) \/ forall z, o <> OLib z.
Proof. destruct o; try (right; discriminate). left; eauto. Qed.
(** Clients, users and accounts stay. *)
Lemma ex_step_same C aware s o s' : ex_step C aware s o s' -> st_clients s' = st_clients s /\ st_users s' = st_users s.
Proof.
  intros Ho. destruct Ho as [ch T e s|T e x s]; [|auto]. destruct e; cbn [ex_do fst snd]; auto.
  - destruct (ad_nonce data); [|auto]. destruct (has code (st_codes s)); auto.
  - destruct (owner_id o) as [u|]; [|auto]. destruct (find _ _) as [[? ?]|]; [auto|]. destruct (has _ _); auto.
Qed.
Lemma app_step_same C aware t o t1 : app_step C aware t o t1 ->
  st_clients (tb_store t1) = st_clients (tb_store t) /\ st_users (tb_store t1) = st_users (tb_store t) /\ tb_accounts t1 = tb_accounts t.
Proof.
  intros H. destruct (is_lib o) as [[z ->]|Hn].
  - apply lib_step in H as (H & _ & Ha). apply ex_step_same in H. tauto.
  - apply other_step in H; tauto.
Qed.
Lemma app_steps_In C aware : forall tr t t' o, app_steps C aware t tr t' -> In o tr -> exists t1 t2, app_step C aware t1 o t2 /\
  st_clients (tb_store t1) = st_clients (tb_store t) /\ st_users (tb_store t1) = st_users (tb_store t) /\ tb_accounts t1 = tb_accounts t.
Proof.
  induction tr as [|o' tr IH]; intros t t' o Hs Hin; [destruct Hin|]. inversion Hs as [|? ? t1 ? ? Ho Ht]; subst. destruct Hin as [<-|Hin]; [eauto 6|].
  destruct (IH _ _ _ Ht Hin) as (t2 & t3 & H1 & H2 & H3 & H4). apply app_step_same in Ho as (A & B & D). exists t2, t3. split; [auto|]. rewrite H2, H3, H4. auto.
Qed.
Lemma app_steps_app C aware : forall a b t t', app_steps C aware t (a ++ b) t' <-> exists t1, app_steps C aware t a t1 /\ app_steps C aware t1 b t'.
Proof.
  induction a as [|o a IH]; intros b t t'; cbn [app].
  - split; [intros H; exists t; split; [constructor|auto]|]. intros (t1 & H1 & H2). inversion H1; subst. auto.
  - split.
    + intros H. inversion H as [|? ? t1 ? ? Ho Ht]; subst. apply IH in Ht as (t2 & H1 & H2). exists t2. split; [econstructor; eauto|auto].
    + intros (t2 & H1 & H2). inversion H1 as [|? ? t1 ? ? Ho Ht]; subst. econstructor; [exact Ho|]. apply IH. eauto.
Qed.

(** The adapter keeps its contract in the application, too. *)
Lemma app_honours C aware : forall tr t t' pre, app_steps C aware t tr t' ->
  HistoryFacts.kept pre (tb_store t) -> honours pre -> rt_kept pre (tb_store t) -> honours_rt pre ->
  honours (pre ++ lib_calls tr) /\ honours_rt (pre ++ lib_calls tr).
Proof.
  induction tr as [|o tr IH]; intros t t' pre Hs K1 H1 K2 H2; [rewrite app_nil_r; auto|]. inversion Hs as [|? ? t1 ? ? Ho Ht]; subst.
  destruct (is_lib o) as [[z ->]|Hn].
  - apply lib_step in Ho as (Ho & _). cbn [lib_calls flat_map app]. change (flat_map _ tr) with (lib_calls tr).
    replace (pre ++ z :: lib_calls tr) with ((pre ++ [z]) ++ lib_calls tr) by (rewrite <- app_assoc; auto).
    assert (Hz : ex_steps C aware (tb_store t) [z] (tb_store t1)) by (econstructor; [exact Ho|constructor]).
    eapply IH; [exact Ht|eapply HistoryFacts.kept_step; eauto|eapply ex_honours_aux; eauto|eapply rt_kept_step; eauto|eapply ex_honours_rt_aux; eauto].
  - replace (lib_calls (o :: tr)) with (lib_calls tr). 2:{ cbn [lib_calls flat_map]. destruct o; try reflexivity. exfalso. eapply Hn. reflexivity. }
    apply other_step in Ho as (O1 & O2 & O3 & O4 & O5); [|auto]. eapply IH; [exact Ht| |auto| |auto].
    + intros code ac Hl. apply K1. rewrite <- O1. auto.
    + intros k rt Hl. apply K2. auto.
Qed.
Lemma app_lib_each C aware t tr t' o : app_steps C aware t tr t' -> In o (lib_calls tr) -> exists s s', ex_steps C aware s [o] s' /\
  st_clients s = st_clients (tb_store t).
Proof.
  intros Hs Hin. apply lib_calls_In in Hin. destruct (app_steps_In _ _ _ _ _ _ Hs Hin) as (t1 & t2 & Ho & Hc & _). apply lib_step in Ho as (Ho & _).
  exists (tb_store t1), (tb_store t2). split; [econstructor; [exact Ho|constructor]|auto].
Qed.
Lemma app_contract C aware t tr t' : app_steps C aware t tr t' -> st_codes (tb_store t) = [] -> st_rts (tb_store t) = [] -> (forall c, In c (st_clients (tb_store t)) -> restricts c) ->
  honours (lib_calls tr) /\ honours_rt (lib_calls tr) /\ users_by_id (lib_calls tr) /\ owned (lib_calls tr) /\ clients_restrict (lib_calls tr).
Proof.
  intros Hs Hc Hr Hres. destruct (app_honours C aware tr t t' [] Hs) as [A B].
  - intros code ac Hl. rewrite Hc in Hl. discriminate.
  - intros t1 t0 rt t2 E. destruct t1; discriminate.
  - intros k rt Hl. rewrite Hr in Hl. destruct Hl.
  - intros t1 t0 rt t2 E. destruct t1; discriminate.
  - split; [exact A|]. split; [exact B|]. split; [|split].
    + intros i u Hin. destruct (app_lib_each _ _ _ _ _ _ Hs Hin) as (s & s' & H & _). eapply p_example_users; [exact H|left; reflexivity].
    + intros c sc k Hin. destruct (app_lib_each _ _ _ _ _ _ Hs Hin) as (s & s' & H & _). eapply p_example_owned; [exact H|left; reflexivity].
    + intros i c Hin. destruct (app_lib_each _ _ _ _ _ _ Hs Hin) as (s & s' & H & He). eapply p_example_restrict; [exact H|rewrite He; exact Hres|left; reflexivity].
Qed.

(** ** Sessions *)
Definition ses_kept (tr : list aobs) (t : tables) : Prop := forall sid uid, In (sid, uid) (tb_sessions t) ->
  exists a b, tr = a ++ ONewSession sid uid (V tt) :: b /\ ~ In (ODropSessions uid (V tt)) b.
Lemma ses_step C aware tr t o t1 : app_step C aware t o t1 -> ses_kept tr t -> ses_kept (tr ++ [o]) t1.
Proof.
  intros Hs Hk. assert (Hw : forall t1, (forall sid uid, In (sid, uid) (tb_sessions t1) -> In (sid, uid) (tb_sessions t) /\ o <> ODropSessions uid (V tt)) -> ses_kept (tr ++ [o]) t1).
  { intros t2 H sid uid Hin. apply H in Hin as [Hin Ho]. destruct (Hk _ _ Hin) as (a & b & -> & Hb). exists a, (b ++ [o]). rewrite <- app_assoc. split; [auto|].
    intros Hi. apply in_app_iff in Hi as [Hi|[Hi|[]]]; auto. }
  destruct Hs as [ch T e t|T e x t].
  - destruct e; cbn [app_do fst snd aobserve] in *; try (apply Hw; intros; split; [auto|discriminate]; fail).
    + destruct (existsb _ _) eqn:Ee; cbn [fst snd]; [apply Hw; intros; split; [auto|discriminate]|].
      intros sid' uid' [Hin|Hin]; [injection Hin as <- <-; exists tr, []; split; [auto|intros []]|].
      destruct (Hk _ _ Hin) as (a & b & -> & Hb). exists a, (b ++ [ONewSession sid uid (V tt)]). rewrite <- app_assoc. split; [auto|].
      intros Hi. apply in_app_iff in Hi as [Hi|[Hi|[]]]; [auto|discriminate].
    + apply Hw. cbn [tb_sessions set_sessions]. intros sid uid' Hin. apply filter_In in Hin as [Hin Hf]. split; [auto|]. intros [= ->]. cbn [snd] in Hf. rewrite eqs_refl in Hf. discriminate.
    + destruct (ex_do C aware ch e (tb_store t)) as [x s]. apply Hw. intros; split; [auto|discriminate].
  - apply Hw. intros; split; [auto|]. destruct e; discriminate.
Qed.
Lemma ses_steps C aware : forall tr t t' pre, app_steps C aware t tr t' -> ses_kept pre t -> ses_kept (pre ++ tr) t'.
Proof.
  induction tr as [|o tr IH]; intros t t' pre Hs Hk; inversion Hs as [|? ? t1 ? ? Ho Ht]; subst; [rewrite app_nil_r; auto|].
  replace (pre ++ o :: tr) with ((pre ++ [o]) ++ tr) by (rewrite <- app_assoc; auto). eapply IH; [exact Ht|]. eapply ses_step; eauto.
Qed.
Lemma get_step C aware t sid uid y t1 : app_step C aware t (OGetSession sid uid (V (Some y))) t1 -> In (sid, uid) (tb_sessions t) /\ forall u, y = Some u -> us_id u = uid.
Proof.
  intros H. remember (OGetSession sid uid (V (Some y))) as z eqn:Ez. destruct H as [ch T e t|T e x t]; [|destruct e; discriminate].
  destruct e; cbn [app_do fst snd aobserve] in Ez; try discriminate.
  injection Ez as -> -> Ez. destruct (existsb _ _) eqn:Ee in Ez; [|discriminate]. injection Ez as <-. split.
  - apply existsb_exists in Ee as ([a b] & Hin & Hab). cbn [fst snd] in Hab. apply andb_true_iff in Hab as [H1 H2]. apply eqs_true in H1. apply eqs_true in H2. subst. auto.
  - intros u Hu. apply find_some in Hu as [_ Hu]. apply eqs_true in Hu. auto.
Qed.
Lemma get_started C aware t tr t' a sid uid y b : app_steps C aware t tr t' -> tb_sessions t = [] -> tr = a ++ OGetSession sid uid (V (Some y)) :: b ->
  (forall u, y = Some u -> us_id u = uid) /\ exists a1 a2, a = a1 ++ ONewSession sid uid (V tt) :: a2 /\ ~ In (ODropSessions uid (V tt)) a2.
Proof.
  intros Hs He ->. apply app_steps_app in Hs as (t1 & H1 & H2). inversion H2 as [|? ? t2 ? ? Ho Ht]; subst. apply get_step in Ho as [Ho Hu]. split; [auto|].
  apply (ses_steps _ _ _ _ _ [] H1) in Ho; [exact Ho|]. intros s u Hin. rewrite He in Hin. destruct Hin.
Qed.
Lemma account_step C aware t email a t1 : app_step C aware t (OFindAccount email (V (Some a))) t1 -> In a (tb_accounts t) /\ a_email a = email.
Proof.
  intros H. remember (OFindAccount email (V (Some a))) as z eqn:Ez. destruct H as [ch T e t|T e x t]; [|destruct e; discriminate].
  destruct e; cbn [app_do fst snd aobserve] in Ez; try discriminate.
  injection Ez as -> Ez. apply find_some in Ez as [H1 H2]. apply eqs_true in H2. auto.
Qed.

(** ** From a token back to the login *)
Definition lib_log (log : list (nat * aobs)) : list (nat * obs) := flat_map (fun x => match snd x with OLib o => [(fst x, o)] | _ => [] end) log.
Lemma lib_log_snd log : map snd (lib_log log) = lib_calls (map snd log).
Proof. induction log as [|[n o] log IH]; [reflexivity|]. unfold lib_log, lib_calls in *. cbn [flat_map map snd fst]. rewrite map_app, IH. destruct o; reflexivity. Qed.
Lemma lib_log_calls n log : calls_of n (lib_log log) = lib_calls (acalls_of n log).
Proof.
  unfold calls_of, acalls_of. induction log as [|[m o] log IH]; [reflexivity|]. unfold lib_log, lib_calls in *. cbn [flat_map map snd fst filter]. rewrite filter_app, map_app, IH.
  destruct (Nat.eqb m n) eqn:Em; destruct o; cbn [filter fst map snd app flat_map]; rewrite ?Em; reflexivity.
Qed.
Lemma lib_log_In n o log : In (n, o) (lib_log log) <-> In (n, OLib o) log.
Proof.
  unfold lib_log. rewrite in_flat_map. split.
  - intros ([m z] & Hz & Hin). cbn [snd fst] in Hin. destruct z; try (destruct Hin; fail). destruct Hin as [Hin|[]]. injection Hin as <- <-. auto.
  - intros H. exists (n, OLib o). split; [auto|left; reflexivity].
Qed.
Lemma acalls_In n o log : In o (acalls_of n log) <-> In (n, o) log.
Proof.
  unfold acalls_of. rewrite in_map_iff. split.
  - intros ([m z] & <- & H). apply filter_In in H as [H1 H2]. cbn [fst] in H2. apply Nat.eqb_eq in H2. subst. auto.
  - intros H. exists (n, o). split; [auto|]. apply filter_In. split; [auto|]. apply Nat.eqb_refl.
Qed.
Lemma prefix_of (a b s : list aobs) l : a ++ b = s ++ map OLib l -> lib_calls s = [] -> lib_calls a <> [] -> exists r, a = s ++ r.
Proof.
  revert s. induction a as [|x a IH]; intros s H Hs Ha; [destruct Ha; reflexivity|]. destruct s as [|y s]; [exists (x :: a); auto|].
  cbn [app] in H. injection H as -> H. destruct (is_lib y) as [[z ->]|Hn]; [discriminate|].
  assert (Hy : forall l, lib_calls (y :: l) = lib_calls l) by (intros l0; cbn [lib_calls flat_map]; destruct y; try reflexivity; exfalso; eapply Hn; reflexivity).
  rewrite Hy in Hs, Ha. destruct (IH _ H Hs Ha) as [r ->]. exists r. reflexivity.
Qed.
Section WithEnv.
Variable E : env.
Variable p : provider.
Variable hs : hooks.
(** The request that the library gets for a request to a page *)
Definition passed (g : page) (w : web) (a : list aobs) (q : incoming) : Prop :=
  exists sv r ou, q = {| in_service := sv; in_provider := p; in_hooks := hs; in_request := r |} /\ lib_service g = Some sv /\
    make_request (wb_method w) (wb_url w) (wb_headers w) (Some (wb_body w)) ou = Ok r /\ (sv = Authorize -> ou <> None) /\ session_of w a ou.
Lemma request_calls g w a tr x : aexec (application E p hs g w) (a ++ tr) x ->
  exists q, stopped E q (lib_calls a) /\ (lib_calls a <> [] -> passed g w a q).
Proof.
  intros H. assert (Hd : lib_calls a = [] \/ exists q, stopped E q (lib_calls a) /\ passed g w a q).
  2:{ destruct Hd as [Hd|(q & H1 & H2)]; [|eauto]. rewrite Hd.
      exists {| in_service := Revoke; in_provider := p; in_hooks := hs; in_request := {| rq_method := []; rq_url := []; rq_headers := []; rq_user := None; rq_body := None; rq_data := [] |} |}.
      split; [|congruence]. destruct (exec_exists (revocation_endpoint {| rq_method := []; rq_url := []; rq_headers := []; rq_user := None; rq_body := None; rq_data := [] |})) as (t & r & Ht).
      exists t. eexists. exists r. split; [exact Ht|reflexivity]. }
  apply application_exec in H as [(ou & t2 & H1 & H2 & H3)|H].
  2:{ left. assert (Ha : forall o, In o a -> exists sid uid y, o = OGetSession sid uid y) by (intros; apply H, in_app_iff; auto). clear H.
      induction a as [|o a IH]; [reflexivity|]. destruct (Ha o (or_introl eq_refl)) as (sid & uid & y & ->). cbn [lib_calls flat_map app]. apply IH. intros; apply Ha; right; auto. }
  set (s := firstn _ (a ++ tr)) in *. apply session_exec in H1.
  assert (Hs : lib_calls s = []) by (destruct H1 as [(_ & -> & _)|(uid & sid & y & _ & -> & _)]; reflexivity).
  destruct (lib_calls a) as [|o0 l0] eqn:Ea; [auto|]. right. rewrite <- Ea.
  apply view_calls in H3 as [H3|(sv & r & l & Hg & -> & Hr & Hou & an & Hse)].
  { exfalso. assert (Hz : lib_calls (a ++ tr) = []) by (rewrite H2, lib_calls_app, Hs; exact H3). rewrite lib_calls_app, Ea in Hz. discriminate. }
  destruct (prefix_of a tr s l H2 Hs ltac:(congruence)) as [z Hz].
  exists {| in_service := sv; in_provider := p; in_hooks := hs; in_request := r |}. split.
  - exists (lib_calls tr), an. rewrite <- lib_calls_app, H2, lib_calls_app, Hs, lib_calls_map. exact Hse.
  - exists sv, r, ou. split; [auto|]. split; [auto|]. split; [auto|]. split; [auto|]. destruct ou as [u|]; [|exact I]. cbn [session_of].
    destruct H1 as [(_ & _ & H1)|(uid & sid & y & Hc & Es & H1)]; [discriminate|]. exists uid, sid. split; [auto|]. rewrite Hz. apply in_app_iff. left. rewrite Es. left.
    destruct y as [[[u'|]|]|e]; try discriminate. injection H1 as <-. reflexivity.
Qed.
Lemma choose {A B} (P : nat -> A -> B -> Prop) : forall (l : list A) k, (forall n x, nth_error l n = Some x -> exists y, P (k + n)%nat x y) ->
  exists l', (forall n x, nth_error l n = Some x -> exists y, nth_error l' n = Some y /\ P (k + n)%nat x y) /\ (forall n y, nth_error l' n = Some y -> exists x, nth_error l n = Some x /\ P (k + n)%nat x y).
Proof.
  induction l as [|a l IH]; intros k H.
  - exists []. split; intros [|n] x Hx; discriminate.
  - destruct (H 0%nat a eq_refl) as [b Hb]. destruct (IH (S k)) as (l' & H1 & H2).
    { intros n x Hx. destruct (H (S n) x Hx) as [y Hy]. exists y. replace (S k + n)%nat with (k + S n)%nat by lia. auto. }
    exists (b :: l'). split; intros [|n] x Hx; cbn [nth_error] in *.
    + injection Hx as <-. eauto.
    + destruct (H1 n x Hx) as (y & Hy & Hp). exists y. split; [auto|]. replace (k + S n)%nat with (S k + n)%nat by lia. auto.
    + injection Hx as <-. eauto.
    + destruct (H2 n x Hx) as (y & Hy & Hp). exists y. split; [auto|]. replace (k + S n)%nat with (S k + n)%nat by lia. auto.
Qed.
Lemma app_lib_running qs log : app_running E p hs qs log -> exists iqs, running E iqs (lib_log log) /\
  forall n q, nth_error iqs n = Some q -> exists g w, nth_error qs n = Some (g, w) /\ (lib_calls (acalls_of n log) <> [] -> passed g w (acalls_of n log) q).
Proof.
  intros [H1 H2]. destruct (choose (fun n (gw : page * web) q => stopped E q (lib_calls (acalls_of n log)) /\ (lib_calls (acalls_of n log) <> [] -> passed (fst gw) (snd gw) (acalls_of n log) q)) qs 0) as (iqs & A & B).
  { intros n [g w] Hn. destruct (H2 _ _ _ Hn) as (tr & x & Hx). apply request_calls in Hx. exact Hx. }
  exists iqs. split; [split|].
  - intros n o Hin. apply lib_log_In, H1 in Hin as [q Hq]. destruct (A _ _ Hq) as (y & Hy & _). eauto.
  - intros n q Hq. rewrite lib_log_calls. destruct (B _ _ Hq) as (x & _ & Hs & _). exact Hs.
  - intros n q Hq. destruct (B _ _ Hq) as ([g w] & Hx & _ & Hp). exists g, w. auto.
Qed.

(** Where a session was started *)
Lemma lib_only g w ou tr x : lib_service g <> None -> aexec (view E p hs g w ou) tr x -> forall o, In o tr -> exists z, o = OLib z.
Proof.
  intros Hg H o Ho. destruct (is_lib o) as [?|Hn]; [auto|]. exfalso.
  assert (Hreq : forall A (q : request -> prog A) (k : A -> aprog reply), (forall a t y, aexec (k a) t y -> t = []) ->
     aexec (ado r <- create_request w ou ;; ado a <- library (q r) ;; k a) tr x -> False).
  { intros A q k Hk Hx. apply aexec_abind in Hx as [(r & s1 & s2 & -> & H1 & H2)|(e & -> & H1)]; apply aexec_ARet in H1 as [-> H1]; [|destruct Ho]. cbn [app] in Ho.
    apply aexec_abind in H2 as [(a & s3 & s4 & -> & H2 & H3)|(e & -> & H2)].
    - apply Hk in H3. subst s4. rewrite app_nil_r in Ho. apply aexec_library in H2 as (l & -> & _). apply in_map_iff in Ho as (z & <- & _). eapply Hn. reflexivity.
    - apply aexec_library in H2 as (l & -> & _). apply in_map_iff in Ho as (z & <- & _). eapply Hn. reflexivity. }
  assert (Hresp : forall r t y, aexec (create_response r) t y -> t = []) by (intros [r|] t y Hx; apply aexec_ARet in Hx as [-> _]; auto).
  destruct g; cbn [view lib_service] in *; try congruence.
  - destruct (is_get w); [|aret H; destruct Ho]. unfold authorize_get in H. destruct ou as [u|]; [eapply Hreq; [|exact H]; intros; eapply Hresp; eauto|].
    apply aexec_abind in H as [(a & s1 & s2 & -> & H1 & H2)|(e & -> & H1)]; apply aexec_ARet in H1 as [-> _]; [|destruct Ho]. apply redirect_exec in H2. subst. destruct Ho.
  - destruct (is_post w); [|aret H; destruct Ho]. eapply Hreq; [|exact H]. intros; eapply Hresp; eauto.
  - destruct (is_post w); [|aret H; destruct Ho]. eapply Hreq; [|exact H]. intros; eapply Hresp; eauto.
Qed.
Lemma view_new g w ou tr x sid uid y : aexec (view E p hs g w ou) tr x -> In (ONewSession sid uid y) tr ->
  g = LoginPage /\ wb_method w = lit "POST" /\ aexec (login_post w ou) tr x.
Proof.
  intros H Hin. destruct (lib_service g) as [sv|] eqn:Eg.
  { exfalso. destruct (lib_only g w ou tr x ltac:(congruence) H _ Hin) as [z Hz]. discriminate. }
  destruct g; try discriminate; cbn [view] in H.
  - exfalso. destruct (is_get w); aret H; destruct Hin.
  - destruct (is_get w); [exfalso|].
    + unfold login_get in H. destruct ou; [apply redirect_exec in H; subst; destruct Hin|aret H; destruct Hin].
    + destruct (is_post w) eqn:Ep; [|aret H; destruct Hin]. apply eqs_true in Ep. auto.
  - exfalso. destruct (is_get w).
    + apply logout_traces in H as [[-> _]|(u & u' & s & y' & z & _ & _ & -> & _)]; [destruct Hin|]. destruct Hin as [Hin|[Hin|[]]]; discriminate.
    + destruct (is_post w); [apply redirect_exec in H; subst; destruct Hin|aret H; destruct Hin].
  - exfalso. destruct (is_get w); aret H; destruct Hin.
Qed.
Lemma application_new g w tr x t1 sid uid y t2 : aexec (application E p hs g w) tr x -> tr = t1 ++ ONewSession sid uid y :: t2 ->
  g = LoginPage /\ wb_method w = lit "POST" /\
  exists a, In (OFindAccount (lf_email (wb_form w)) (V (Some a))) t1 /\ a_id a = uid /\ a_password a = lf_password (wb_form w).
Proof.
  intros H Ht. apply application_exec in H as [(ou & s2 & H1 & H2 & H3)|H].
  2:{ exfalso. destruct (H (ONewSession sid uid y)) as (? & ? & ? & He); [rewrite Ht; apply in_app_iff; right; left; reflexivity|discriminate]. }
  set (s := firstn _ tr) in *. apply session_exec in H1.
  assert (Hpre : exists t1', t1 = s ++ t1' /\ s2 = t1' ++ ONewSession sid uid y :: t2).
  { rewrite Ht in H2. clear - H1 H2. destruct H1 as [(_ & Es & _)|(u' & sid' & z & _ & Es & _)]; rewrite Es in H2 |- *; cbn [app] in *; [eauto|].
    destruct t1 as [|o t1]; [discriminate|]. injection H2 as -> H2. exists t1. auto. }
  destruct Hpre as (t1' & -> & Hs2). clear H2.
  destruct (view_new g w ou s2 x sid uid y H3) as (-> & Hp & Hl); [rewrite Hs2; apply in_app_iff; right; left; reflexivity|].
  split; [auto|]. split; [auto|]. destruct (login_new _ _ _ _ _ _ _ _ _ Hl Hs2) as (a & Ha & Hb). exists a. split; [apply in_app_iff; auto|auto].
Qed.
End WithEnv.

(** ** Sessions in histories *)
Lemma log_split {A B} (log : list (A * B)) a o b : map snd log = a ++ o :: b -> exists l1 n l2, log = l1 ++ (n, o) :: l2 /\ map snd l1 = a /\ map snd l2 = b.
Proof.
  revert a. induction log as [|[n x] log IH]; intros a H; [destruct a; discriminate|]. destruct a as [|y a]; cbn [map app snd] in H; injection H as -> H.
  - exists [], n, log. auto.
  - destruct (IH _ H) as (l1 & m & l2 & -> & <- & <-). exists ((n, y) :: l1), m, l2. auto.
Qed.
Lemma acalls_app n a b : acalls_of n (a ++ b) = acalls_of n a ++ acalls_of n b.
Proof. unfold acalls_of. rewrite filter_app, map_app. auto. Qed.
Lemma acalls_here n o l : acalls_of n ((n, o) :: l) = o :: acalls_of n l.
Proof. unfold acalls_of. cbn [filter fst]. rewrite Nat.eqb_refl. reflexivity. Qed.
(** A session is started by a request with the password. *)
Lemma new_submits E p hs C aware qs log t t' l1 k sid uid y l2 : app_running E p hs qs log -> app_steps C aware t (map snd log) t' ->
  log = l1 ++ (k, ONewSession sid uid y) :: l2 -> exists q, nth_error qs k = Some q /\ submits_password t uid q.
Proof.
  intros [R1 R2] Hs El. destruct (R1 k (ONewSession sid uid y)) as [[g w] Hq]; [rewrite El; apply in_app_iff; right; left; reflexivity|].
  exists (g, w). split; [auto|]. destruct (R2 _ _ _ Hq) as (tr & x & Hx). rewrite El, acalls_app, acalls_here, <- app_assoc in Hx. cbn [app] in Hx.
  destruct (application_new _ _ _ _ _ _ _ _ _ _ _ _ Hx eq_refl) as (-> & Hm & a & Ha & Hid & Hpw).
  split; [reflexivity|]. split; [exact Hm|]. exists a. apply acalls_In in Ha. cbn [snd].
  assert (Hin : In (OFindAccount (lf_email (wb_form w)) (V (Some a))) (map snd log)).
  { rewrite El, map_app. apply in_app_iff. left. change (OFindAccount (lf_email (wb_form w)) (V (Some a))) with (snd (k, OFindAccount (lf_email (wb_form w)) (V (Some a)))). apply in_map. auto. }
  destruct (app_steps_In _ _ _ _ _ _ Hs Hin) as (t1 & t2 & Ho & _ & _ & Hacc). apply account_step in Ho as [Ho He]. rewrite Hacc in Ho. auto.
Qed.
Lemma p_session E p hs C aware qs log t t' m sid uid y : app_running E p hs qs log -> app_steps C aware t (map snd log) t' -> tb_sessions t = [] ->
  In (m, OGetSession sid uid (V (Some y))) log -> (forall u, y = Some u -> us_id u = uid) /\ logged_in t qs log uid sid m.
Proof.
  intros Hrun Hs He Hin. apply in_split in Hin as (l1 & l3 & El).
  assert (Em : map snd log = map snd l1 ++ OGetSession sid uid (V (Some y)) :: map snd l3) by (rewrite El, map_app; auto).
  destruct (get_started _ _ _ _ _ _ _ _ _ _ Hs He Em) as (Hu & a1 & a2 & Ea & Hno). split; [auto|].
  apply log_split in Ea as (l0 & k & l2 & -> & <- & <-). rewrite <- app_assoc in El. cbn [app] in El.
  destruct (new_submits _ _ _ _ _ _ _ _ _ _ _ _ _ _ _ Hrun Hs El) as (q & Hq & Hsub).
  exists l0, k, l2, y, l3, q. split; [auto|]. split; [|auto]. intros n Hn. apply Hno. change (ODropSessions uid (V tt)) with (snd (n, ODropSessions uid (V tt))). apply in_map. auto.
Qed.
(** From a token for a user back to their login *)
Lemma p_login E p hs C aware qs log t t' n o c u sc : (forall b, bytes_ok (e_sha256 E b)) -> order_ok E -> app_running E p hs qs log -> app_steps C aware t (map snd log) t' -> fresh_tables t ->
  In (n, OLib o) log -> (exists y, o = OCreateAT c (OwnUser u) sc y) \/ (exists y, o = OCreateRT c (OwnUser u) sc y) ->
  exists m w q0 sid, nth_error qs m = Some (AuthorizePage, w) /\ handed_over w q0 /\ granted_by q0 (lib_calls (acalls_of m log)) c u sc /\
    wb_cookie w = Some (us_id u, sid) /\ logged_in t qs log (us_id u) sid m.
Proof.
  intros Hb Hord Hrun Hs (F1 & F2 & F3 & F4) Hin Ho. destruct (app_lib_running _ _ _ _ _ Hrun) as (iqs & Hr & Hp).
  destruct (app_contract _ _ _ _ _ Hs F1 F2 F4) as (C1 & C2 & C3 & C4 & C5). rewrite <- lib_log_snd in C1, C2, C3, C4, C5.
  destruct (p_lineage E Hb Hord iqs (lib_log log) n o c u sc Hr C1 C2 C3 C4 C5) as (m & q0 & Hq & Hg); [apply lib_log_In; auto|auto|].
  rewrite lib_log_calls in Hg. destruct (Hp _ _ Hq) as (g & w & Hw & Hpass).
  destruct Hg as (G1 & (u0 & G2 & G3) & (i0 & c0 & G4 & G5 & G6) & G7).
  assert (Hne : lib_calls (acalls_of m log) <> []) by (intros Hz; rewrite Hz in G5; destruct G5).
  destruct (Hpass Hne) as (sv & r & ou & -> & Hsv & Hmk & _ & Hses). cbn [in_service in_request] in *. subst sv.
  assert (g = AuthorizePage) by (destruct g; try discriminate; auto). subst g.
  assert (Hou : ou = Some u0).
  { rewrite <- G2. unfold make_request in Hmk. destruct (raise_if _ RuntimeError) in Hmk; [|discriminate]. cbn beta iota delta [rbind] in Hmk. destruct (raise_if _ ValueError) in Hmk; [|discriminate]. cbn beta iota delta [rbind] in Hmk. injection Hmk as <-. reflexivity. }
  subst ou. destruct Hses as (uid & sid & Hck & Hget). apply acalls_In in Hget.
  destruct (p_session _ _ _ _ _ _ _ _ _ _ _ _ _ Hrun Hs F3 Hget) as [Hu Hl]. specialize (Hu _ eq_refl).
  rewrite <- Hu, G3 in Hck, Hl.
  exists m, w, {| in_service := Authorize; in_provider := p; in_hooks := hs; in_request := r |}, sid.
  split; [auto|]. split; [exists u0; exact Hmk|]. split; [|split; [auto|auto]].
  split; [reflexivity|]. split; [exists u0; auto|]. split; [exists i0, c0; auto|exact G7].
Qed.

(** ** The logout *)
Lemma p_logout E p hs w tr r sid uid u : aexec (application E p hs LogoutPage w) tr (V r) -> is_get w = true -> In (OGetSession sid uid (V (Some (Some u)))) tr ->
  wb_cookie w = Some (uid, sid) /\ tr = [OGetSession sid uid (V (Some (Some u))); ODropRefresh uid (V tt); ODropSessions uid (V tt)] /\
  exists l, header_text (login_url w) l /\ r = RRedirect l None.
Proof.
  intros H Hg Hin. unfold application in H. apply aexec_abind in H as [(ou & t1 & t2 & -> & H1 & H2)|(e & [=] & _)].
  destruct (session_exec _ _ _ H1) as [(Hc & -> & Ex)|(uid' & sid' & y & Hc & -> & Ex)].
  - injection Ex as ->. cbn [view] in H2. rewrite Hg in H2. unfold logout_get in H2. apply redirect_exec in H2. subst. destruct Hin.
  - assert (Hy : sid' = sid /\ uid' = uid /\ y = V (Some (Some u))).
    { destruct Hin as [Hin|Hin]; [injection Hin; auto|]. exfalso. destruct ou as [ou|]; [|apply aexec_ARet in H2 as [-> _]; destruct Hin]. cbn [view] in H2. rewrite Hg in H2.
      apply logout_traces in H2 as [[-> _]|(? & ? & ? & ? & ? & _ & _ & -> & _)]; [destruct Hin|destruct Hin as [Hin|[Hin|[]]]; discriminate]. }
    destruct Hy as (-> & -> & ->). injection Ex as ->. split; [auto|]. cbn [view] in H2. rewrite Hg in H2. pose proof H2 as H3.
    apply logout_traces in H2 as [[_ [?|?]]|(u' & uid' & sid' & y & z & _ & Hc' & -> & Hv)]; [discriminate|congruence|].
    rewrite Hc in Hc'. injection Hc' as <- <-. destruct (Hv _ eq_refl) as [-> ->]. split; [reflexivity|].
    unfold logout_get in H3. rewrite Hc in H3. apply aexec_atry in H3 as (y & s1 & s2 & E1 & H3 & H4). apply aexec_acall in H3 as ->.
    injection E1 as <- <-. apply aexec_atry in H4 as (z & s3 & s4 & E1 & H3 & H4). apply aexec_acall in H3 as ->. injection E1 as <- <-.
    apply aexec_ARet in H4 as [_ H4]. destruct (location (login_url w)) as [l|] eqn:El; [|discriminate]. injection H4 as ->. apply location_iff in El. eauto.
Qed.
Definition ses_since (uid : str) (tr : list aobs) (t : tables) : Prop := forall sid, In (sid, uid) (tb_sessions t) -> In (ONewSession sid uid (V tt)) tr.
Lemma ses_since_step C aware uid tr t o t1 : app_step C aware t o t1 -> ses_since uid tr t -> ses_since uid (tr ++ [o]) t1.
Proof.
  intros Hs Hk. assert (Hw : forall t1, incl (tb_sessions t1) (tb_sessions t) -> ses_since uid (tr ++ [o]) t1) by (intros t2 H sid Hin; apply in_app_iff; left; apply Hk, H, Hin).
  destruct Hs as [ch T e t|T e x t]; [|apply Hw, incl_refl].
  destruct e; cbn [app_do fst snd aobserve] in *; try (apply Hw, incl_refl).
  - destruct (existsb _ _); cbn [fst snd]; [apply Hw, incl_refl|]. intros s [Hin|Hin]; apply in_app_iff; [injection Hin as <- <-; right; left; reflexivity|left; apply Hk, Hin].
  - apply Hw. cbn [tb_sessions set_sessions]. intros z Hz. apply filter_In in Hz. tauto.
  - destruct (ex_do C aware ch e (tb_store t)) as [x s]. apply Hw, incl_refl.
Qed.
Lemma ses_since_steps C aware uid : forall tr t t' pre, app_steps C aware t tr t' -> ses_since uid pre t -> ses_since uid (pre ++ tr) t'.
Proof.
  induction tr as [|o tr IH]; intros t t' pre Hs Hk; inversion Hs as [|? ? t1 ? ? Ho Ht]; subst; [rewrite app_nil_r; auto|].
  replace (pre ++ o :: tr) with ((pre ++ [o]) ++ tr) by (rewrite <- app_assoc; auto). eapply IH; [exact Ht|]. eapply ses_since_step; eauto.
Qed.
Lemma drop_step C aware t uid t1 : app_step C aware t (ODropSessions uid (V tt)) t1 -> forall sid, ~ In (sid, uid) (tb_sessions t1).
Proof.
  intros H. remember (ODropSessions uid (V tt)) as z eqn:Ez. destruct H as [ch T e t|T e x t]; [|destruct e; discriminate].
  destruct e; cbn [app_do fst snd aobserve] in Ez |- *; try discriminate; try (destruct (existsb _ _); discriminate).
  - injection Ez as ->. intros sid Hin. cbn [tb_sessions set_sessions] in Hin. apply filter_In in Hin as [_ Hf]. cbn [snd] in Hf. rewrite eqs_refl in Hf. discriminate.
Qed.
Lemma p_logout_session E p hs C aware qs log t t' l1 k l2 m l3 sid uid y : app_running E p hs qs log -> app_steps C aware t (map snd log) t' ->
  log = l1 ++ (k, ODropSessions uid (V tt)) :: l2 ++ (m, OGetSession sid uid (V (Some y))) :: l3 ->
  exists j q, In (j, ONewSession sid uid (V tt)) l2 /\ nth_error qs j = Some q /\ submits_password t uid q.
Proof.
  intros Hrun Hs El. assert (Hn : In (ONewSession sid uid (V tt)) (map snd l2)).
  { pose proof Hs as Hs'. rewrite El, map_app in Hs'. cbn [map snd] in Hs'. rewrite map_app in Hs'. cbn [map snd] in Hs'.
    apply app_steps_app in Hs' as (t1 & _ & H1). inversion H1 as [|? ? t2 ? ? Ho Ht]; subst. apply app_steps_app in Ht as (t3 & H2 & H3).
    inversion H3 as [|? ? t4 ? ? Hg Ht']; subst. apply get_step in Hg as [Hg _].
    apply (ses_since_steps _ _ uid _ _ _ [] H2) in Hg; [exact Hg|]. intros s Hin. destruct (drop_step _ _ _ _ _ Ho _ Hin). }
  apply in_map_iff in Hn as ([j o] & Ho & Hin). cbn [snd] in Ho. subst o. apply in_split in Hin as (a & b & ->).
  exists j. rewrite <- app_assoc in El. cbn [app] in El.
  destruct (new_submits E p hs C aware qs log t t' (l1 ++ (k, ODropSessions uid (V tt)) :: a) j sid uid (V tt) (b ++ (m, OGetSession sid uid (V (Some y))) :: l3) Hrun Hs) as (q & Hq & Hp).
  { rewrite El, <- app_assoc. reflexivity. }
  exists q. split; [apply in_app_iff; right; left; reflexivity|auto].
Qed.
Definition rt_since (uid : str) (tr : list aobs) (t : tables) : Prop := forall k rt, In (k, rt) (st_rts (tb_store t)) -> rt_user rt = uid ->
  exists c o sc, In (OLib (OCreateRT c o sc (V (Some k)))) tr /\ rt_holds rt c o sc.
Lemma ex_rt_step C aware s o s' k rt : ex_step C aware s o s' -> In (k, rt) (st_rts s') -> In (k, rt) (st_rts s) \/ exists c w sc, o = OCreateRT c w sc (V (Some k)) /\ rt_holds rt c w sc.
Proof.
  intros Hs Hin. destruct Hs as [ch T e s|T e x s]; [|auto]. destruct e; cbn [ex_do fst snd observe] in *; auto.
  - destruct (ad_nonce data); [|auto]. destruct (has code (st_codes s)); auto.
  - destruct (owner_id o) as [u|] eqn:Eo; cbn [fst snd] in *; [|auto]. destruct (find _ (st_rts s)) as [[t ?]|]; cbn [fst snd] in *; [auto|].
    destruct (has (ch_token ch) (st_rts s)); cbn [fst snd] in *; [auto|]. destruct Hin as [Hin|Hin]; [|auto]. injection Hin as <- <-. right. exists c, o, scopes. split; [auto|].
    split; [reflexivity|]. split; [reflexivity|]. cbn [rt_user]. destruct o; cbn [owner_id] in Eo; [congruence|congruence|exact I].
  - left. cbn [st_rts set_rts] in Hin. apply filter_In in Hin. tauto.
Qed.
Lemma rt_since_steps C aware uid : forall tr t t' pre, app_steps C aware t tr t' -> rt_since uid pre t -> rt_since uid (pre ++ tr) t'.
Proof.
  induction tr as [|o tr IH]; intros t t' pre Hs Hk; inversion Hs as [|? ? t1 ? ? Ho Ht]; subst; [rewrite app_nil_r; auto|].
  replace (pre ++ o :: tr) with ((pre ++ [o]) ++ tr) by (rewrite <- app_assoc; auto). eapply IH; [exact Ht|]. intros k rt Hin Hu.
  destruct (is_lib o) as [[z ->]|Hn].
  - apply lib_step in Ho as (Ho & _). destruct (ex_rt_step _ _ _ _ _ _ _ Ho Hin) as [H|(c & w & sc & -> & H)].
    + destruct (Hk _ _ H Hu) as (c & w & sc & H1 & H2). exists c, w, sc. split; [apply in_app_iff; auto|auto].
    + exists c, w, sc. split; [apply in_app_iff; right; left; reflexivity|auto].
  - apply other_step in Ho as (_ & _ & _ & Hi & _); [|auto]. destruct (Hk _ _ (Hi _ Hin) Hu) as (c & w & sc & H1 & H2). exists c, w, sc. split; [apply in_app_iff; auto|auto].
Qed.
Lemma p_logout_refresh C aware t t' l1 l2 l3 k rt uid : app_steps C aware t (l1 ++ ODropRefresh uid (V tt) :: l2 ++ OLib (OGetRT k (V (Some rt))) :: l3) t' -> rt_user rt = uid ->
  exists c o sc, In (OLib (OCreateRT c o sc (V (Some k)))) l2 /\ rt_holds rt c o sc.
Proof.
  intros Hs Hu. apply app_steps_app in Hs as (t1 & _ & H1). inversion H1 as [|? ? t2 ? ? Ho Ht]; subst. apply app_steps_app in Ht as (t3 & H2 & H3).
  inversion H3 as [|? ? t4 ? ? Hg Ht']; subst. apply lib_step in Hg as (Hg & _).
  assert (Hin : In (k, rt) (st_rts (tb_store t3))).
  { clear - Hg. remember (OGetRT k (V (Some rt))) as o eqn:Eo. destruct Hg as [ch T e s|T e x s]; [|destruct e; discriminate].
    destruct e; cbn [ex_do fst snd observe] in Eo; try discriminate. injection Eo as -> Hl. apply lookup_In. auto. }
  apply (rt_since_steps _ _ (rt_user rt) _ _ _ [] H2) in Hin; [apply Hin; reflexivity|]. clear - Ho. intros k0 rt0 Hin Hu. exfalso.
  remember (ODropRefresh (rt_user rt) (V tt)) as z eqn:Ez. destruct Ho as [ch T e t|T e x t]; [|destruct e; discriminate].
  destruct e; cbn [app_do fst snd aobserve] in Ez, Hin; try discriminate; try (destruct (existsb _ _); discriminate).
  - injection Ez as ->. cbn [set_store tb_store set_rts st_rts] in Hin. apply filter_In in Hin as [_ Hf]. cbn [snd] in Hf. rewrite Hu, eqs_refl in Hf. discriminate.
Qed.

(** ** The way to the login and back *)
Lemma uri_char_ok c : uri_char c -> always_safe c || inc c location_safe = true.
Proof.
  intros H. assert (Hf : forallb (fun c => always_safe c || inc c location_safe) (lit "ABCDEFGHIJKLMNOPQRSTUVWXYZabcdefghijklmnopqrstuvwxyz0123456789-._~:/?#[]@!$&'()*+,;=%") = true) by (vm_compute; reflexivity).
  rewrite forallb_forall in Hf. apply Hf. exact H.
Qed.
Lemma is_url_location u : is_url u -> location u = Ok u.
Proof. intros H. apply location_id. eapply Forall_impl; [|exact H]. exact uri_char_ok. Qed.
Lemma parse_blank p x : parse_piece p = [x] -> parse_piece_blank p = [x].
Proof. unfold parse_piece, parse_piece_blank. destruct p as [|c p]; [discriminate|]. destruct (split1 61 (c :: p)) as [[n [|v0 v]]|]; try discriminate. auto. Qed.
Lemma next_query u v L : urlencode u [(lit "next", PStr v)] = Ok L -> v <> [] -> ~ In 63 u -> ~ In 35 u ->
  query_param L (lit "next") = Some v /\ (location u = Ok u -> location L = Ok L).
Proof.
  intros H Hv H1 H2. change [(lit "next", PStr v)] with (str_params [(lit "next", v)]) in H.
  destruct (urlencode_query _ _ _ H) as (q & HL & Hq & Hp); [repeat constructor; auto|auto|auto|].
  assert (Hu : urlencode_ [(lit "next", v)] = Ok q).
  { unfold urlencode in H. destruct (has _ _) in H; [discriminate|]. rewrite full_str_params in H. unfold str_params in H. rewrite str_items_map in H. cbn [rbind] in H.
    destruct (urlencode_ [(lit "next", v)]) as [q'|]; cbn [rbind] in H; [|discriminate]. injection H as <-. apply app_inv_head in HL. injection HL as ->. reflexivity. }
  assert (Hs : split_on 38 q = [q]).
  { apply split_on_none. unfold urlencode_ in Hu. cbn [urlencode_items] in Hu. destruct (quote_plus [] (lit "next")) as [k'|] eqn:Ek; cbn [rbind] in Hu; [|discriminate].
    destruct (quote_plus [] v) as [v'|] eqn:Ev; cbn [rbind] in Hu; [|discriminate]. cbn [join] in Hu. injection Hu as <-.
    apply quote_plus_chars in Ek, Ev. intros Hin. apply in_app_iff in Hin as [Hin|[Hin|Hin]]; [|discriminate|].
    - eapply quoted_no_sep in Hin; eauto.
    - eapply quoted_no_sep in Hin; eauto. }
  split.
  - unfold query_param. rewrite Hq, Hs. cbn [flat_map]. unfold parse_qsl in Hp. rewrite Hs in Hp. cbn [flat_map] in Hp. rewrite app_nil_r in Hp |- *.
    rewrite (parse_blank _ _ Hp). cbn [rev app lookup]. rewrite eqs_refl. reflexivity.
  - intros Hl. rewrite HL. apply location_app. exists u, (63 :: q). split; [auto|]. split; [|auto]. apply query_location. eapply urlencode_chars. exact Hu.
Qed.
Lemma login_url_ok w : is_origin (wb_base w) -> ~ In 63 (login_url w) /\ ~ In 35 (login_url w) /\ location (login_url w) = Ok (login_url w).
Proof.
  intros (H1 & H2 & H3). unfold login_url. split; [|split].
  - rewrite in_app_iff. intros [H|H]; [auto|]. revert H. vm_compute. intuition discriminate.
  - rewrite in_app_iff. intros [H|H]; [auto|]. revert H. vm_compute. intuition discriminate.
  - apply is_url_location. unfold is_url in *. apply Forall_app. split; [auto|]. apply Forall_forall. intros c Hc. apply inc_In. revert c Hc. apply forallb_forall. vm_compute. reflexivity.
Qed.
Lemma urlencode_next u v : scalar_str v -> exists L, urlencode u [(lit "next", PStr v)] = Ok L.
Proof.
  intros Hv. unfold urlencode. replace (has _ _) with false by reflexivity. change [(lit "next", PStr v)] with (str_params [(lit "next", v)]). rewrite full_str_params. unfold str_params. rewrite str_items_map. cbn [rbind].
  unfold urlencode_. cbn [urlencode_items]. destruct (quote_plus_scalar [] v Hv) as [q ->]. destruct (quote_plus [] (lit "next")) eqn:E; [|vm_compute in E; discriminate]. cbn [rbind]. eauto.
Qed.
(** Without a session the authorization endpoint sends the user to the login. *)
Lemma p_to_login E p hs w tr x : aexec (application E p hs AuthorizePage w) tr x -> is_get w = true -> is_origin (wb_base w) -> scalar_str (wb_url w) -> wb_url w <> [] ->
  (tr = [] \/ exists sid uid, tr = [OGetSession sid uid (V None)]) ->
  exists L, x = V (RRedirect L None) /\ query_param L (lit "next") = Some (wb_url w).
Proof.
  intros H Hg Ho Hsc Hne Htr. unfold application in H.
  assert (Hv : aexec (authorize_get E p hs w None) [] x).
  { apply aexec_abind in H as [(ou & t1 & t2 & -> & H1 & H2)|(e & -> & H)].
    - destruct (session_exec _ _ _ H1) as [(_ & -> & Ex)|(uid & sid & y & _ & -> & Ex)].
      + injection Ex as ->. cbn [view] in H2. rewrite Hg in H2. cbn [app] in Htr. destruct Htr as [->|(s & u & ->)]; [auto|].
        exfalso. unfold authorize_get in H2. apply aexec_abind in H2 as [(a & s1 & s2 & Et & H2 & H3)|(e & _ & H2)]; apply aexec_ARet in H2 as [E0 _]; [|discriminate].
        apply redirect_exec in H3. subst. discriminate.
      + destruct Htr as [Htr|(s & u & Htr)]; [discriminate|]. injection Htr as <- <- -> ->. injection Ex as ->. cbn [view] in H2. rewrite Hg in H2. auto.
    - exfalso. destruct (session_exec _ _ _ H) as [(_ & _ & Ex)|(uid & sid & y & _ & -> & Ex)]; [discriminate|].
      destruct Htr as [Htr|(s & u & Htr)]; [discriminate|]. injection Htr as <- <- ->. discriminate. }
  destruct (login_url_ok _ Ho) as (L1 & L2 & L3). destruct (urlencode_next (login_url w) _ Hsc) as [L HL].
  destruct (next_query _ _ _ HL Hne L1 L2) as [Hq Hl]. exists L. split; [|auto].
  unfold authorize_get in Hv. rewrite HL in Hv. cbn [lift] in Hv. unfold abind in Hv. cbn [atry] in Hv. unfold redirect in Hv. rewrite (Hl L3) in Hv. apply aexec_ARet in Hv as [_ ->]. reflexivity.
Qed.
(** A login with a target leads there. *)
Lemma p_from_login E p hs w tr l ck target : aexec (application E p hs LoginPage w) tr (V (RRedirect l (Some ck))) -> query_param (wb_url w) (lit "next") = Some target -> target <> [] ->
  location target = Ok l.
Proof.
  intros H Hq Hne. unfold application in H. apply aexec_abind in H as [(ou & t1 & t2 & -> & H1 & H2)|(e & [=] & _)].
  assert (Hred : forall u c t, aexec (redirect u c) t (V (RRedirect l (Some ck))) -> c = Some ck /\ location u = Ok l).
  { intros u c t Hx. apply aexec_ARet in Hx as [_ Hx]. destruct (location u) as [l'|]; [|discriminate]. injection Hx as <- <-. auto. }
  destruct ou as [ou|]; [|apply aexec_ARet in H2 as [_ H2]; discriminate]. cbn [view] in H2. destruct (is_get w).
  { unfold login_get in H2. destruct ou; [apply Hred in H2 as [? _]; discriminate|apply aexec_ARet in H2 as [_ H2]; discriminate]. }
  destruct (is_post w); [|apply aexec_ARet in H2 as [_ H2]; discriminate].
  unfold login_post in H2. destruct ou; [apply Hred in H2 as [? _]; discriminate|].
  destruct (negb (form_ok (wb_form w))); [apply aexec_ARet in H2 as [_ H2]; discriminate|].
  apply aexec_abind in H2 as [(a & s1 & s2 & -> & _ & H2)|(e & [=] & _)]. destruct a as [a|]; [|apply aexec_ARet in H2 as [_ H2]; discriminate].
  destruct (negb _); [apply aexec_ARet in H2 as [_ H2]; discriminate|].
  apply aexec_abind in H2 as [(s & s3 & s4 & -> & _ & H2)|(e & [=] & _)]. apply aexec_abind in H2 as [(s' & s5 & s6 & -> & _ & H2)|(e & [=] & _)].
  cbv zeta in H2. rewrite Hq in H2. destruct target as [|c0 target]; [congruence|]. apply Hred in H2 as [_ H2]. exact H2.
Qed.

(** ** Answers *)
Lemma acall_value {T} (e : aeff T) tr r : aexec (acall e) tr r -> ano_raise tr -> exists a, r = V a.
Proof.
  intros H Hn. apply aexec_acall in H as ->. destruct r as [a|x]; [eauto|]. exfalso.
  specialize (Hn _ (or_introl eq_refl)). destruct e; try discriminate. cbn [aobserve araised] in Hn. destruct e; discriminate.
Qed.
Lemma ano_raise_app a b : ano_raise (a ++ b) -> ano_raise a /\ ano_raise b.
Proof. intros H. split; intros o Ho; apply H, in_app_iff; auto. Qed.
Lemma redirect_value u c tr x : aexec (redirect u c) tr x -> scalar_str u -> exists r, x = V r.
Proof. intros H Hu. apply aexec_ARet in H as [_ ->]. destruct (quote_plus_scalar location_safe u Hu) as [l Hl]. unfold location. rewrite Hl. cbn [lift]. eexists. reflexivity. Qed.
Lemma acall_bind {T B} (e : aeff T) (f : T -> aprog B) tr x : aexec (abind (acall e) f) tr x -> ano_raise tr -> exists a t2, aexec (f a) t2 x /\ ano_raise t2.
Proof.
  intros H Hn. apply aexec_abind in H as [(a & t1 & t2 & -> & H1 & H2)|(e' & -> & H)].
  - exists a, t2. split; [auto|]. apply ano_raise_app in Hn. tauto.
  - apply acall_value in H as [a Ha]; [discriminate|auto].
Qed.
Lemma uri_scalar s : is_url s -> scalar_str s.
Proof.
  intros H. eapply Forall_impl; [|exact H]. intros c Hc. cbv beta.
  assert (Hf : forallb (fun c => c <? 128) (lit "ABCDEFGHIJKLMNOPQRSTUVWXYZabcdefghijklmnopqrstuvwxyz0123456789-._~:/?#[]@!$&'()*+,;=%") = true) by (vm_compute; reflexivity).
  rewrite forallb_forall in Hf. specialize (Hf c Hc). apply N.ltb_lt in Hf. unfold is_scalar. lia.
Qed.
Lemma query_scalar u : scalar_str u -> scalar_str (url_query u).
Proof.
  intros H. unfold url_query, url_nofrag. destruct (split1 35 u) as [[a b]|] eqn:E1.
  - destruct (split1_parts _ _ _ _ _ E1 H) as [Ha _]. destruct (split1 63 a) as [[c d]|] eqn:E2; [|constructor]. exact (proj2 (split1_parts _ _ _ _ _ E2 Ha)).
  - destruct (split1 63 u) as [[c d]|] eqn:E2; [|constructor]. exact (proj2 (split1_parts _ _ _ _ _ E2 H)).
Qed.
Lemma query_param_scalar u k v : scalar_str u -> query_param u k = Some v -> scalar_str v.
Proof.
  intros Hu Hq. unfold query_param in Hq. apply lookup_In, in_rev, in_flat_map in Hq as (q & Hq & Hv).
  assert (Hs : scalar_str q) by (pose proof (split_on_parts _ 38 _ (query_scalar _ Hu)) as Hf; rewrite Forall_forall in Hf; apply Hf, Hq).
  unfold parse_piece_blank in Hv. destruct q as [|c q]; [destruct Hv|]. destruct (split1 61 (c :: q)) as [[n w]|] eqn:E1; destruct Hv as [Hv|[]]; injection Hv as _ <-; [|constructor].
  apply unquote_plus_scalar. exact (proj2 (split1_parts _ _ _ _ _ E1 Hs)).
Qed.
Lemma p_app_answers E p hs g w tr x : aexec (application E p hs g w) tr x -> ano_raise tr -> is_url (wb_base w) -> scalar_str (wb_url w) -> lib_service g = None -> exists r, x = V r.
Proof.
  intros H Hn Hb Hu Hg. unfold application in H.
  assert (Hl : forall b, is_url b -> scalar_str (wb_base w ++ b)) by (intros b Hb'; apply uri_scalar, Forall_app; split; auto).
  assert (Hlit : forall b, forallb (fun c => inc c (lit "ABCDEFGHIJKLMNOPQRSTUVWXYZabcdefghijklmnopqrstuvwxyz0123456789-._~:/?#[]@!$&'()*+,;=%")) b = true -> is_url b).
  { intros b Hb'. rewrite forallb_forall in Hb'. apply Forall_forall. intros c Hc. apply inc_In. apply Hb', Hc. }
  assert (Hhome : scalar_str (home_url w)) by (apply Hl, Hlit; vm_compute; reflexivity).
  assert (Hin : scalar_str (login_url w)) by (apply Hl, Hlit; vm_compute; reflexivity).
  assert (Hout : scalar_str (logout_url w)) by (apply Hl, Hlit; vm_compute; reflexivity).
  assert (Hses : exists ou t2, ano_raise t2 /\ (match ou with None => aexec (aret (RStatus 400)) t2 x | Some u => aexec (view E p hs g w u) t2 x end) /\ (forall u, ou = Some (Some u) -> wb_cookie w <> None)).
  { apply aexec_abind in H as [(ou & t1 & t2 & -> & H1 & H2)|(e & -> & H)].
    - exists ou, t2. apply ano_raise_app in Hn. split; [tauto|]. split; [destruct ou; auto|]. intros u ->.
      apply session_exec in H1 as [(_ & _ & Ex)|(? & ? & ? & Hc & _)]; [discriminate|congruence].
    - exfalso. apply session_exec in H as [(_ & _ & Ex)|(uid & sid & y & _ & -> & Ex)]; [discriminate|]. destruct y as [[[]|]|]; try discriminate. specialize (Hn _ (or_introl eq_refl)). discriminate. }
  clear H Hn. destruct Hses as (ou & t2 & Hn & H & Hck). destruct ou as [ou|]; [|aret H; eauto].
  destruct g; try discriminate; cbn [view] in H.
  - destruct (is_get w); aret H; eauto.
  - destruct (is_get w); [|destruct (is_post w); [|aret H; eauto]].
    + unfold login_get in H. destruct ou; [eapply redirect_value; eauto|aret H; eauto].
    + unfold login_post in H. destruct ou; [eapply redirect_value; eauto|]. destruct (negb (form_ok _)); [aret H; eauto|].
      apply acall_bind in H as (a & t3 & H & Hn3); [|auto]. destruct a as [a|]; [|aret H; eauto]. destruct (negb _); [aret H; eauto|].
      apply acall_bind in H as (s & t4 & H & Hn4); [|auto].
      assert (Hr : forall sid t, aexec (let target := match query_param (wb_url w) (lit "next") with Some (c :: n) => c :: n | _ => home_url w end in redirect target (Some (a_id a, sid))) t x -> exists r, x = V r).
      { intros sid t Hx. cbv zeta in Hx. eapply redirect_value; [exact Hx|]. destruct (query_param _ _) as [[|c0 n]|] eqn:Eq; auto. exact (query_param_scalar _ _ _ Hu Eq). }
      destruct s as [s|].
      * apply aexec_abind in H as [(sid & s1 & s2 & -> & H1 & H2)|(e & -> & H)]; [eapply Hr; exact H2|apply aexec_ARet in H as [_ H]; discriminate].
      * apply aexec_abind in H as [(sid & s1 & s2 & -> & H1 & H2)|(e & -> & H)]; [eapply Hr; exact H2|].
        apply acall_bind in H as (tk & t5 & H & Hn5); [|auto]. apply acall_bind in H as (z & t6 & H & _); [|auto]. apply aexec_ARet in H as [_ H]. discriminate.
  - destruct (is_get w); [|destruct (is_post w); [|aret H; eauto]].
    + unfold logout_get in H. destruct ou as [u|]; [|eapply redirect_value; eauto]. destruct (wb_cookie w) as [[uid sid]|] eqn:Ec; [|destruct (Hck _ eq_refl eq_refl)].
      apply aexec_atry in H as (y & s1 & s2 & -> & H1 & H). apply ano_raise_app in Hn as [Hn1 Hn]. apply acall_value in H1 as [[] ->]; [|auto].
      apply aexec_atry in H as (z & s3 & s4 & -> & H1 & H). apply ano_raise_app in Hn as [Hn3 Hn]. apply acall_value in H1 as [[] ->]; [|auto]. eapply redirect_value; eauto.
    + eapply redirect_value; eauto.
  - destruct (is_get w); aret H; eauto.
Qed.
(** Requests without an answer *)
Lemma p_head_raises E p hs w tr x sid uid u : aexec (application E p hs AuthorizePage w) tr x -> wb_method w = lit "HEAD" -> In (OGetSession sid uid (V (Some (Some u)))) tr -> x = X (Py RuntimeError).
Proof.
  intros H Hm Hin. assert (Hg : is_get w = true) by (unfold is_get; rewrite Hm; reflexivity).
  unfold application in H. apply aexec_abind in H as [(ou & t1 & t2 & -> & H1 & H2)|(e & -> & H)].
  - assert (Hl : In (OGetSession sid uid (V (Some (Some u)))) t1).
    { apply in_app_iff in Hin as [Hin|Hin]; [auto|]. exfalso. destruct ou as [ou|]; [|aret H2; destruct Hin].
      destruct (lib_only E p hs AuthorizePage w ou t2 x ltac:(discriminate) H2 _ Hin) as [z Hz]. discriminate. }
    apply session_exec in H1 as [(_ & -> & _)|(uid' & sid' & y & _ & -> & Ex)]; [destruct Hl|]. destruct Hl as [Hl|[]]. injection Hl as -> -> ->. injection Ex as ->.
    cbn [view] in H2. rewrite Hg in H2. assert (Hr : make_request (wb_method w) (wb_url w) (wb_headers w) (Some (wb_body w)) (Some u) = Err RuntimeError) by (unfold make_request; rewrite Hm; reflexivity).
    unfold authorize_get, create_request in H2. rewrite Hr in H2. unfold abind in H2. cbn [lift atry] in H2. apply aexec_ARet in H2 as [_ H2]. exact H2.
  - exfalso. apply session_exec in H as [(_ & -> & _)|(uid' & sid' & y & _ & -> & Ex)]; [destruct Hin|]. destruct Hin as [Hin|[]]. injection Hin as -> -> ->. discriminate.
Qed.
Lemma p_revoke_answers E p hs w tr x : aexec (application E p hs RevokePage w) tr x -> ano_raise tr ->
  (exists r, x = V r) \/ x = X (Py RuntimeError) \/ (x = X (Py ValueError)) \/
  exists u r, make_request (wb_method w) (wb_url w) (wb_headers w) (Some (wb_body w)) u = Ok r /\ x = X (Py AttributeError) /\ form_lacks r "token".
Proof.
  intros H Hn. unfold application in H. apply aexec_abind in H as [(ou & t1 & t2 & -> & H1 & H2)|(e & -> & H)].
  2:{ exfalso. apply session_exec in H as [(_ & _ & Ex)|(uid & sid & y & _ & -> & Ex)]; [discriminate|]. destruct y as [[[]|]|]; try discriminate. specialize (Hn _ (or_introl eq_refl)). discriminate. }
  destruct ou as [ou|]; [|aret H2; eauto]. cbn [view] in H2. destruct (is_post w); [|aret H2; eauto]. apply ano_raise_app in Hn as [_ Hn].
  unfold revoke_post in H2. apply aexec_abind in H2 as [(r & s1 & s2 & -> & H2 & H3)|(e & -> & H)].
  2:{ apply aexec_ARet in H as [_ H]. unfold make_request in H. unfold raise_if in H. destruct (negb _) in H; cbn [rbind lift] in H; [injection H as <-; auto|].
      destruct (bad_netloc _) in H; cbn [rbind lift] in H; [injection H as <-; auto|discriminate]. }
  apply aexec_ARet in H2 as [-> H2]. destruct (make_request _ _ _ _ _) as [r'|] eqn:Er in H2; [|discriminate]. injection H2 as <-. cbn [app] in Hn.
  apply aexec_abind in H3 as [(o & s3 & s4 & -> & H3 & H4)|(e & -> & H3)]; apply aexec_library in H3 as (l & -> & H3).
  - destruct o as [z|]; [aret H4; eauto|]. apply aexec_ARet in H4 as [_ ->]. right. right. right. exists ou, r. split; [auto|]. split; [auto|].
    destruct (p_revocation_raises _ _ _ H3) as [[z Hz]|[[_ Hz]|[Hz _]]]; try discriminate; auto. intros o Ho. apply (Hn (OLib o)), in_app_iff. left. apply in_map. auto.
  - destruct (p_revocation_raises _ _ _ H3) as [[z Hz]|[[Hz _]|[Hz _]]]; try discriminate; [|injection Hz as ->; auto]. intros o Ho. apply (Hn (OLib o)). apply in_map. auto.
Qed.
(** A cookie is only given for the password. *)
Lemma user_session_step C aware t uid sid t1 : app_step C aware t (OUserSession uid (V (Some sid))) t1 -> t1 = t /\ In (sid, uid) (tb_sessions t).
Proof.
  intros H. remember (OUserSession uid (V (Some sid))) as z eqn:Ez. destruct H as [ch T e t|T e x t]; destruct e; cbn [app_do fst snd aobserve] in Ez |- *; try discriminate;
    try (destruct (existsb _ _); discriminate); try (destruct (ex_do _ _ _ _ _); discriminate).
  split; [reflexivity|]. destruct (find _ _) as [[a b]|] eqn:F; cbn [option_map fst] in Ez; [|discriminate]. injection Ez as Eu Ea. apply find_some in F as [F1 F2]. cbn [snd] in F2. apply eqs_true in F2. subst. exact F1.
Qed.
Lemma new_session_step C aware t uid sid t1 : app_step C aware t (ONewSession sid uid (V tt)) t1 -> In (sid, uid) (tb_sessions t1).
Proof.
  intros H. remember (ONewSession sid uid (V tt)) as z eqn:Ez. destruct H as [ch T e t|T e x t]; destruct e; cbn [app_do fst snd aobserve] in Ez |- *; try discriminate;
    try (destruct (ex_do _ _ _ _ _); discriminate).
  destruct (existsb _ _); cbn [fst snd aobserve] in Ez |- *; [discriminate|]. injection Ez as -> ->. left. reflexivity.
Qed.
Lemma p_cookie E p hs C aware g w tr l uid sid t t' : aexec (application E p hs g w) tr (V (RRedirect l (Some (uid, sid)))) -> app_steps C aware t tr t' ->
  submits_password t uid (g, w) /\ In (sid, uid) (tb_sessions t').
Proof.
  intros H Hst. unfold application in H. apply aexec_abind in H as [(ou & t1 & t2 & -> & H1 & H2)|(e & [=] & _)].
  destruct ou as [ou|]; [|apply aexec_ARet in H2 as [_ H2]; discriminate].
  assert (Hred : forall u c t, aexec (redirect u c) t (V (RRedirect l (Some (uid, sid)))) -> c = Some (uid, sid)).
  { intros u c s Hx. apply aexec_ARet in Hx as [_ Hx]. destruct (location u) as [l'|]; [|discriminate]. injection Hx as _ <-. auto. }
  assert (Hresp : forall A (q : prog A) (f : A -> option response) tr, aexec (ado a <- library q ;; create_response (f a)) tr (V (RRedirect l (Some (uid, sid)))) -> False).
  { intros A q f s Hx. apply aexec_abind in Hx as [(a & s1 & s2 & -> & _ & Hx)|(e & [=] & _)]. destruct (f a); apply aexec_ARet in Hx as [_ Hx]; discriminate. }
  destruct g; cbn [view] in H2.
  - destruct (is_get w); apply aexec_ARet in H2 as [_ H2]; discriminate.
  - destruct (is_get w).
    { unfold login_get in H2. destruct ou; [apply Hred in H2; discriminate|apply aexec_ARet in H2 as [_ H2]; discriminate]. }
    destruct (is_post w) eqn:Ep; [|apply aexec_ARet in H2 as [_ H2]; discriminate]. apply eqs_true in Ep.
    unfold login_post in H2. destruct ou; [apply Hred in H2; discriminate|].
    destruct (negb (form_ok (wb_form w))); [apply aexec_ARet in H2 as [_ H2]; discriminate|].
    apply aexec_abind in H2 as [(a & s1 & s2 & -> & H2 & H3)|(e & [=] & _)]. apply aexec_acall in H2 as ->. destruct a as [a|]; [|apply aexec_ARet in H3 as [_ H3]; discriminate].
    destruct (eqs_spec (a_password a) (lf_password (wb_form w))) as [Hp|]; cbn [negb] in H3; [|apply aexec_ARet in H3 as [_ H3]; discriminate].
    apply aexec_abind in H3 as [(s & s3 & s4 & -> & Hu & H3)|(e & [=] & _)]. apply aexec_abind in H3 as [(s' & s5 & s6 & -> & Hn & H3)|(e & [=] & _)].
    cbv zeta in H3. pose proof H3 as H4. apply aexec_ARet in H4 as [-> _]. apply Hred in H3. injection H3 as <- <-. apply aexec_acall in Hu as ->. rewrite app_nil_r in Hst.
    assert (Hl : In (s', a_id a) (tb_sessions t')).
    { apply app_steps_app in Hst as (t3 & _ & Hst). apply app_steps_app in Hst as (t4 & _ & Hst). apply app_steps_app in Hst as (t5 & Hs & Hst). inversion Hs as [|? ? t6 ? ? Ho Ht]; subst. inversion Ht; subst.
      destruct s as [s|].
      - apply aexec_ARet in Hn as [-> Hn]. injection Hn as <-. inversion Hst; subst. apply user_session_step in Ho as [-> Ho]. exact Ho.
      - apply aexec_abind in Hn as [(k & s7 & s8 & -> & Hk & Hn)|(e & [=] & _)]. apply aexec_abind in Hn as [([] & s9 & s10 & -> & Hn & Hr)|(e & [=] & _)]. apply aexec_acall in Hn as ->. apply aexec_ARet in Hr as [-> Hr]. injection Hr as <-.
        apply app_steps_app in Hst as (t7 & _ & Hst). inversion Hst as [|? ? t8 ? ? Hq Ht']; subst. inversion Ht'; subst. eapply new_session_step. exact Hq. }
    split; [|exact Hl]. rewrite <- (app_nil_r s5) in Hst. split; [reflexivity|]. split; [exact Ep|]. cbn [snd].
    destruct (app_steps_In C aware _ _ _ (OFindAccount (lf_email (wb_form w)) (V (Some a))) Hst) as (u1 & u2 & Ho & _ & _ & Hacc); [apply in_app_iff; right; left; reflexivity|].
    apply account_step in Ho as [Ho He]. rewrite Hacc in Ho. exists a. auto.
  - exfalso. destruct (is_get w); [|destruct (is_post w); [apply Hred in H2; discriminate|apply aexec_ARet in H2 as [_ H2]; discriminate]].
    unfold logout_get in H2. destruct ou; [|apply Hred in H2; discriminate]. destruct (wb_cookie w) as [[? ?]|]; [|apply aexec_ARet in H2 as [_ H2]; discriminate].
    apply aexec_atry in H2 as (y & s1 & s2 & -> & _ & H2). apply aexec_atry in H2 as (z & s3 & s4 & -> & _ & H2).
    destruct y as [[]|]; [destruct z as [[]|]|]; try (apply aexec_ARet in H2 as [_ H2]; discriminate). apply Hred in H2. discriminate.
  - exfalso. destruct (is_get w); [|apply aexec_ARet in H2 as [_ H2]; discriminate]. unfold authorize_get in H2. destruct ou.
    + apply aexec_abind in H2 as [(r & s1 & s2 & -> & _ & H2)|(e & [=] & _)]. eapply (Hresp _ _ Some). exact H2.
    + apply aexec_abind in H2 as [(r & s1 & s2 & -> & _ & H2)|(e & [=] & _)]. apply Hred in H2. discriminate.
  - exfalso. destruct (is_get w); apply aexec_ARet in H2 as [_ H2]; discriminate.
  - exfalso. destruct (is_post w); [|apply aexec_ARet in H2 as [_ H2]; discriminate].
    apply aexec_abind in H2 as [(r & s1 & s2 & -> & _ & H2)|(e & [=] & _)]. eapply (Hresp _ _ (fun x => x)). exact H2.
  - exfalso. destruct (is_post w); [|apply aexec_ARet in H2 as [_ H2]; discriminate].
    apply aexec_abind in H2 as [(r & s1 & s2 & -> & _ & H2)|(e & [=] & _)]. eapply (Hresp _ _ Some). exact H2.
Qed.
Lemma p_round_trip E p hs w tr x : aexec (application E p hs AuthorizePage w) tr x -> is_get w = true -> is_origin (wb_base w) -> is_url (wb_url w) -> wb_url w <> [] ->
  (tr = [] \/ exists sid uid, tr = [OGetSession sid uid (V None)]) ->
  exists L, x = V (RRedirect L None) /\
    forall w' tr' l ck, wb_url w' = L -> aexec (application E p hs LoginPage w') tr' (V (RRedirect l (Some ck))) -> l = wb_url w.
Proof.
  intros H Hg Ho Hu Hne Htr. destruct (p_to_login _ _ _ _ _ _ H Hg Ho (uri_scalar _ Hu) Hne Htr) as (L & Hx & Hq). exists L. split; [auto|].
  intros w' tr' l ck <- Hl. pose proof (p_from_login _ _ _ _ _ _ _ _ Hl Hq Hne) as Hloc. rewrite (is_url_location _ Hu) in Hloc. congruence.
Qed.
Lemma p_open_redirect E p hs w tr l ck target : aexec (application E p hs LoginPage w) tr (V (RRedirect l (Some ck))) -> is_origin (wb_base w) ->
  url_with (login_url w) [(lit "next", PStr target)] (wb_url w) -> is_url target -> target <> [] -> l = target.
Proof.
  intros H Ho Hu Ht Hne. apply urlencode_iff in Hu. destruct (login_url_ok _ Ho) as (L1 & L2 & _). destruct (next_query _ _ _ Hu Hne L1 L2) as [Hq _].
  pose proof (p_from_login _ _ _ _ _ _ _ _ H Hq Hne) as Hloc. rewrite (is_url_location _ Ht) in Hloc. congruence.
Qed.
Lemma p_pages_answer E p hs g w tr x : aexec (application E p hs g w) tr x -> ano_raise tr -> is_url (wb_base w) -> scalar_str (wb_url w) ->
  g = Home \/ g = LoginPage \/ g = LogoutPage \/ g = ErrorPage -> exists r, x = V r.
Proof. intros H Hn Hb Hu Hg. eapply p_app_answers; eauto. destruct Hg as [-> | [-> | [-> | ->]]]; reflexivity. Qed.
