(** Only the user and the client end sessions and refresh tokens: lemmas for C174. *)
From Coq Require Import String Ascii List NArith ZArith Bool Arith.
From Verif Require Import Base BaseFacts SpecReaders Webtools Crypto Jwk Prog ProgFacts Http OAuth SpecOAuth EndpointFacts IssueFacts SpecHistory SpecFlow Example ExampleFacts App SpecApp AppFacts GrantFacts LifeFacts StoreFacts SpecKeep.
Import ListNotations.
Open Scope N_scope.

Lemma session_lost C aware t o t1 sid uid : app_step C aware t o t1 -> In (sid, uid) (tb_sessions t) -> ~ In (sid, uid) (tb_sessions t1) -> o = ODropSessions uid (V tt).
Proof.
  intros H Hi Hn. destruct (is_lib o) as [[z ->]|_]; [apply lib_step in H as (_ & E & _); rewrite E in Hn; contradiction|].
  destruct H as [ch T e t|T e x t]; [|contradiction]. destruct e; cbn [app_do fst snd aobserve] in *; try contradiction.
  - destruct (existsb _ _); cbn [fst snd set_sessions tb_sessions] in *; [contradiction|]. destruct Hn. right. exact Hi.
  - cbn [set_sessions tb_sessions] in Hn. destruct (eqs uid uid0) eqn:Eu; [apply eqs_true in Eu; subst; reflexivity|]. destruct Hn. apply filter_In. split; [exact Hi|]. cbn [snd]. rewrite Eu. reflexivity.
  - destruct (ex_do C aware ch e (tb_store t)). contradiction.
Qed.
Lemma refresh_lost C aware t o t1 k v : app_step C aware t o t1 -> In (k, v) (st_rts (tb_store t)) -> ~ In (k, v) (st_rts (tb_store t1)) ->
  o = ODropRefresh (rt_user v) (V tt) \/ exists c h, o = OLib (ORevokeToken c k h (V tt)) /\ cl_id c = rt_client v.
Proof.
  intros H Hi Hn. destruct (is_lib o) as [[z ->]|Ho].
  - right. apply lib_step in H as (H & _ & _).
    assert (Hz : (exists c k' h y, z = ORevokeToken c k' h y) \/ forall c k' h y, z <> ORevokeToken c k' h y) by (destruct z; first [left; eauto 5; fail | right; discriminate]).
    destruct Hz as [(c & k' & h & y & ->)|Hz]; [|destruct Hn; eapply step_keeps_pair; eauto].
    apply step_revoke in H as [[-> E]|[E _]]; rewrite E in Hn; [|contradiction]. cbn [set_rts st_rts] in Hn. exists c, h.
    destruct (eqs_spec k k') as [<-|Hk].
    + split; [reflexivity|]. destruct (eqs_spec (rt_client v) (cl_id c)) as [Hc|Hc]; [auto|]. destruct Hn. apply filter_In. split; [exact Hi|]. cbn [fst snd]. rewrite eqs_refl. apply eqs_false in Hc. rewrite Hc. reflexivity.
    + destruct Hn. apply filter_In. split; [exact Hi|]. cbn [fst snd]. apply eqs_false in Hk. rewrite Hk. reflexivity.
  - left. destruct H as [ch T e t|T e x t]; [|contradiction]. destruct e; cbn [app_do fst snd aobserve] in *; try contradiction.
    + destruct (existsb _ _); contradiction.
    + cbn [set_store tb_store set_rts st_rts] in Hn. destruct (eqs_spec (rt_user v) uid) as [->|Hu]; [reflexivity|]. destruct Hn. apply filter_In. split; [exact Hi|]. cbn [snd]. apply eqs_false in Hu. rewrite Hu. reflexivity.
    + destruct (ex_do C aware ch e (tb_store t)) as [x s]. destruct (Ho _ eq_refl).
Qed.
(** A loss over a history is due to one of its calls. *)
Lemma lost_at C aware (P : tables -> Prop) (B : aobs -> Prop) : (forall t, P t \/ ~ P t) -> (forall t o t1, app_step C aware t o t1 -> P t -> ~ P t1 -> B o) ->
  forall l t t', app_steps C aware t (map snd l) t' -> P t -> ~ P t' -> exists (n : nat) o, In (n, o) l /\ B o.
Proof.
  intros Hd Hstep. induction l as [|[n o] l IH]; intros t t' Hs Hp Hn; inversion Hs as [|? ? t1 ? ? Ho Ht]; subst; [contradiction|].
  destruct (Hd t1) as [H1|H1].
  - destruct (IH _ _ Ht H1 Hn) as (m & z & Hm & Hb). exists m, z. split; [right; exact Hm|exact Hb].
  - exists n, o. split; [left; reflexivity|]. exact (Hstep _ _ _ Ho Hp H1).
Qed.

Lemma find_stored C aware s i c s' : ex_step C aware s (OFindClient i (V (Some c))) s' -> In c (st_clients s).
Proof.
  intros H. remember (OFindClient i (V (Some c))) as o eqn:Eo. destruct H as [ch T e s|T e x s]; destruct e; cbn [ex_do fst snd observe] in Eo; try discriminate.
  injection Eo as -> Eo. apply find_some in Eo. tauto.
Qed.

Section WithEnv.
Variable E : env.
Variable p : provider.
Variable hs : hooks.
Definition drops (uid : str) (o : aobs) : Prop := (exists y, o = ODropRefresh uid y) \/ exists y, o = ODropSessions uid y.
(** Only the logout page drops sessions. *)
Lemma view_drops g w ou tr x o uid : aexec (view E p hs g w ou) tr x -> In o tr -> drops uid o ->
  g = LogoutPage /\ is_get w = true /\ exists u sid, ou = Some u /\ wb_cookie w = Some (uid, sid).
Proof.
  intros H Hi Ho.
  assert (Hno : forall z, o <> OLib z) by (destruct Ho as [[y ->]|[y ->]]; discriminate).
  assert (Hlg : lib_service g = None).
  { destruct (lib_service g) eqn:Eg; [|reflexivity]. destruct (lib_only E p hs g w ou tr x) with (o := o) as [z Hz]; [rewrite Eg; discriminate|exact H|exact Hi|]. destruct (Hno _ Hz). }
  destruct g; try discriminate; cbn [view] in H.
  - destruct (is_get w); apply aexec_ARet in H as [-> _]; destruct Hi.
  - exfalso. destruct (is_get w).
    + unfold login_get in H. destruct ou; [apply redirect_exec in H; subst; destruct Hi|apply aexec_ARet in H as [-> _]; destruct Hi].
    + destruct (is_post w); [|apply aexec_ARet in H as [-> _]; destruct Hi].
      apply login_traces in H as [->|(_ & _ & [(z & ->)|(a & z & rest & -> & _ & Hr)])]; [destruct Hi| |].
      * destruct Hi as [<-|[]]. destruct Ho as [[y Hy]|[y Hy]]; discriminate.
      * assert (Hd : drops uid o -> In o rest -> False); [|destruct Hi as [<-|[<-|Hi]]; [destruct Ho as [[y Hy]|[y Hy]]; discriminate|destruct Ho as [[y Hy]|[y Hy]]; discriminate|auto]].
        intros _ Hir. destruct Hr as [[-> _]|(_ & [(z' & ->)|(t & q & ->)])]; [destruct Hir| |].
        -- destruct Hir as [<-|[]]. destruct Ho as [[y Hy]|[y Hy]]; discriminate.
        -- destruct Hir as [<-|[<-|[]]]; destruct Ho as [[y Hy]|[y Hy]]; discriminate.
  - destruct (is_get w); [|exfalso; destruct (is_post w); [apply redirect_exec in H; subst; destruct Hi|apply aexec_ARet in H as [-> _]; destruct Hi]].
    split; [reflexivity|]. split; [reflexivity|]. apply logout_traces in H as [[-> _]|(u & uid' & sid & y & z & -> & Hc & -> & _)]; [destruct Hi|].
    exists u, sid. split; [reflexivity|]. rewrite Hc. destruct Hi as [<-|[<-|[]]]; destruct Ho as [[q Hq]|[q Hq]]; try discriminate; injection Hq as -> _; reflexivity.
  - destruct (is_get w); apply aexec_ARet in H as [-> _]; destruct Hi.
Qed.
Lemma authz_revokes_not q r : calls (fun o => revokes o = false) (authorization_endpoint E q hs r).
Proof. unfold authorization_endpoint, validate_client, grant_authorize, authorize. calls_go; reflexivity. Qed.
Lemma view_revokes g w ou tr x c k h y : aexec (view E p hs g w ou) tr x -> In (OLib (ORevokeToken c k h y)) tr ->
  g = RevokePage /\ is_post w = true /\ exists r i, make_request (wb_method w) (wb_url w) (wb_headers w) (Some (wb_body w)) ou = Ok r /\
    tr = [OLib (OFindClient i (V (Some c))); OLib (ORevokeToken c k h y)] /\ authenticates r i c /\ form_has r "token" k.
Proof.
  intros H Hi. pose proof H as Hv. apply view_calls in H as [H|(sv & r & l & Hg & -> & Hr & _ & an & Hs)].
  { exfalso. assert (Hl : In (ORevokeToken c k h y) (lib_calls tr)) by (unfold lib_calls; apply in_flat_map; eexists; split; [exact Hi|left; reflexivity]). rewrite H in Hl. destruct Hl. }
  apply in_map_iff in Hi as (z & Hz & Hi). injection Hz as ->.
  destruct g; try discriminate; injection Hg as <-; unfold served in Hs; cbn [in_service in_provider in_hooks in_request] in Hs; destruct Hs as (a & Hs & _).
  - exfalso. pose proof (calls_exec _ _ (authz_revokes_not p r) _ _ Hs) as Hf. rewrite Forall_forall in Hf. apply Hf in Hi. discriminate.
  - split; [reflexivity|]. split.
    { cbn [view] in Hv. destruct (is_post w); [reflexivity|]. apply aexec_ARet in Hv as [Hv _]. destruct l; [destruct Hi|discriminate]. }
    destruct (p_revoke_sound _ _ _ _ _ _ _ Hs Hi) as (i & -> & Ha & Hf & _). exists r, i. auto.
  - exfalso. eapply p_token_no_revoke; eauto.
Qed.

Lemma is_get_cases w : is_get w = true -> wb_method w = chars "GET" \/ wb_method w = chars "HEAD".
Proof. unfold is_get. intros H. apply orb_prop in H as [H|H]; apply eqs_true in H; auto. Qed.
(** What was called before a call of a request, is in the log. *)
Lemma prefix_has {A} (a t s1 s2 : list A) z o : a ++ t = s1 ++ z :: s2 -> In o a -> ~ In o (s1 ++ [z]) -> In z a.
Proof.
  revert a. induction s1 as [|y s1 IH]; intros [|b a] He Hi Hn; try destruct Hi; cbn [app] in He; injection He as -> He; try (left; reflexivity).
  - destruct Hn. left. auto.
  - right. eapply IH; [exact He|exact H|]. intros Hc. apply Hn. right. exact Hc.
Qed.
Lemma drop_page qs log n o uid : app_running E p hs qs log -> In (n, o) log -> drops uid o -> exists q, nth_error qs n = Some q /\ logs_out log n q uid.
Proof.
  intros [R1 R2] Hi Ho. destruct (R1 _ _ Hi) as [[g w] Hq]. exists (g, w). split; [exact Hq|]. destruct (R2 _ _ _ Hq) as (tr & x & Hx).
  apply acalls_In in Hi. assert (Hia : In o (acalls_of n log ++ tr)) by (apply in_app_iff; auto).
  apply application_exec in Hx as [(ou & t2 & Hs & He & Hv)|Hx]; [|exfalso; destruct (Hx _ Hia) as (a & b & y & ->); destruct Ho as [[z Hz]|[z Hz]]; discriminate].
  apply session_exec in Hs. rewrite He in Hia. apply in_app_iff in Hia as [Hia|Hia].
  { exfalso. destruct Hs as [(_ & Hs & _)|(a & b & y & _ & Hs & _)]; rewrite Hs in Hia; [destruct Hia|]. destruct Hia as [<-|[]]. destruct Ho as [[z Hz]|[z Hz]]; discriminate. }
  destruct (view_drops _ _ _ _ _ _ _ Hv Hia Ho) as (-> & Hm & u & sid & -> & Hc). split; [reflexivity|]. split; [apply is_get_cases; exact Hm|].
  exists sid, u. cbn [snd]. split; [exact Hc|]. destruct Hs as [(Hn & _)|(uid' & sid' & y & Hc' & Hs & Hy)]; [congruence|].
  rewrite Hc in Hc'. injection Hc' as <- <-. rewrite Hs in He. cbn [app] in He.
  assert (y = V (Some (Some u))) as -> by (destruct y as [[[z|]|]|]; congruence).
  apply acalls_In. eapply (prefix_has _ _ [] _ _ o); [exact He|exact Hi|]. intros [<-|[]]. destruct Ho as [[z Hz]|[z Hz]]; discriminate.
Qed.
Lemma revoke_page C aware t t' qs log n c k h y : app_running E p hs qs log -> app_steps C aware t (map snd log) t' -> In (n, OLib (ORevokeToken c k h y)) log -> exists q, nth_error qs n = Some q /\ revokes_for t log n q (cl_id c) k.
Proof.
  intros [R1 R2] Hst Hi. destruct (R1 _ _ Hi) as [[g w] Hq]. exists (g, w). split; [exact Hq|]. destruct (R2 _ _ _ Hq) as (tr & x & Hx).
  apply acalls_In in Hi. assert (Hia : In (OLib (ORevokeToken c k h y)) (acalls_of n log ++ tr)) by (apply in_app_iff; auto).
  apply application_exec in Hx as [(ou & t2 & Hs & He & Hv)|Hx]; [|exfalso; destruct (Hx _ Hia) as (a & b & z & Hz); discriminate].
  apply session_exec in Hs. set (s := firstn _ _) in *. assert (Hns : ~ In (OLib (ORevokeToken c k h y)) s).
  { intros Hc. destruct Hs as [(_ & Hs & _)|(a & b & z & _ & Hs & _)]; rewrite Hs in Hc; [destruct Hc|]. destruct Hc as [Hc|[]]. discriminate. }
  rewrite He in Hia. apply in_app_iff in Hia as [Hia|Hia]; [contradiction|].
  destruct (view_revokes _ _ _ _ _ _ _ _ _ Hv Hia) as (-> & Hm & r & i & Hr & -> & Ha & Hf). split; [reflexivity|]. split; [apply eqs_true; exact Hm|].
  exists ou, r, i, c. split; [exact Hr|].
  assert (Hfi : In (n, OLib (OFindClient i (V (Some c)))) log); [|split; [exact Hfi|]; split; [|auto]].
  2:{ assert (Hin : In (OLib (OFindClient i (V (Some c)))) (map snd log)) by (apply (in_map snd) in Hfi; exact Hfi).
      destruct (app_steps_In _ _ _ _ _ _ Hst Hin) as (t1 & t3 & Hf1 & Hcl & _). apply lib_step in Hf1 as (Hf1 & _). rewrite <- Hcl. eapply find_stored; exact Hf1. }
  apply acalls_In. eapply (prefix_has _ _ s _ _ (OLib (ORevokeToken c k h y))); [exact He|exact Hi|].
  intros Hc. apply in_app_iff in Hc as [Hc|[Hc|[]]]; [contradiction|discriminate].
Qed.

Theorem c174_sessions C aware qs l1 l2 t t' sid uid : app_running E p hs qs (l1 ++ l2) -> app_steps C aware t (map snd l2) t' ->
  In (sid, uid) (tb_sessions t) -> ~ In (sid, uid) (tb_sessions t') ->
  exists n q, acted n l2 /\ nth_error qs n = Some q /\ logs_out (l1 ++ l2) n q uid.
Proof.
  intros Hr Hs Hi Hn.
  destruct (lost_at C aware (fun t => In (sid, uid) (tb_sessions t)) (fun o => o = ODropSessions uid (V tt))) with (l := l2) (t := t) (t' := t') as (n & o & Ho & ->); auto.
  - intros t0. destruct (in_dec (fun a b : str * str => ltac:(repeat decide equality)) (sid, uid) (tb_sessions t0)); auto.
  - intros; eapply session_lost; eauto.
  - destruct (drop_page qs (l1 ++ l2) n (ODropSessions uid (V tt)) uid Hr) as (q & Hq & Hl); [apply in_app_iff; auto|right; eauto|]. exists n, q. split; [eexists; exact Ho|auto].
Qed.
Theorem c174_refresh C aware qs l1 l2 t0 t t' k rt : app_running E p hs qs (l1 ++ l2) -> app_steps C aware t0 (map snd l1) t -> app_steps C aware t (map snd l2) t' ->
  In (k, rt) (st_rts (tb_store t)) -> ~ In (k, rt) (st_rts (tb_store t')) ->
  exists n q, acted n l2 /\ nth_error qs n = Some q /\ (logs_out (l1 ++ l2) n q (rt_user rt) \/ revokes_for t0 (l1 ++ l2) n q (rt_client rt) k).
Proof.
  intros Hr Hs0 Hs Hi Hn.
  destruct (lost_at C aware (fun t => In (k, rt) (st_rts (tb_store t))) (fun o => o = ODropRefresh (rt_user rt) (V tt) \/ exists c h, o = OLib (ORevokeToken c k h (V tt)) /\ cl_id c = rt_client rt)) with (l := l2) (t := t) (t' := t') as (n & o & Ho & Hb); auto.
  - intros t1. destruct (in_dec (fun a b : str * refresh_token => ltac:(repeat decide equality)) (k, rt) (st_rts (tb_store t1))); auto.
  - intros; eapply refresh_lost; eauto.
  - assert (Hin : In (n, o) (l1 ++ l2)) by (apply in_app_iff; auto). destruct Hb as [->|(c & h & -> & Hc)].
    + destruct (drop_page _ _ _ _ (rt_user rt) Hr Hin) as (q & Hq & Hl); [left; eauto|]. exists n, q. split; [eexists; exact Ho|auto].
    + assert (Hst : app_steps C aware t0 (map snd (l1 ++ l2)) t') by (rewrite map_app; apply app_steps_app; eauto).
      destruct (revoke_page _ _ _ _ _ _ _ _ _ _ _ Hr Hst Hin) as (q & Hq & Hl). rewrite Hc in Hl. exists n, q. split; [eexists; exact Ho|auto].
Qed.
(** If nobody was logged in at first: the session that is logged out was started with the password. *)
Theorem c174_password C aware qs log t t' n q uid : app_running E p hs qs log -> app_steps C aware t (map snd log) t' -> tb_sessions t = [] ->
  logs_out log n q uid -> exists sid, wb_cookie (snd q) = Some (uid, sid) /\ logged_in t qs log uid sid n.
Proof.
  intros Hr Hs He (_ & _ & sid & u & Hc & Hi). exists sid. split; [exact Hc|]. exact (proj2 (p_session _ _ _ _ _ _ _ _ _ _ _ _ _ Hr Hs He Hi)).
Qed.
End WithEnv.
