(** The store of the example adapter under the endpoints. *)
From Coq Require Import String Ascii List NArith ZArith Bool.
From Verif Require Import Base BaseFacts Jwk Crypto Prog ProgFacts Http OAuth SpecOAuth OAuthFacts EndpointFacts IssueFacts Example ExampleFacts.
Import ListNotations.
Open Scope N_scope.

Lemma step_find_client C aware s i y s' : ex_step C aware s (OFindClient i y) s' ->
  s' = s /\ (y = V (find (fun c => eqs (cl_id c) i) (st_clients s)) \/ exists e, y = X (Py e)).
Proof.
  intros H. remember (OFindClient i y) as o eqn:Eo. destruct H as [ch T e s|T e x s]; destruct e; cbn [ex_do fst snd observe] in Eo |- *; try discriminate.
  - injection Eo as -> <-. auto.
  - injection Eo as -> <-. eauto.
Qed.
Lemma step_revoke C aware s c t h y s' : ex_step C aware s (ORevokeToken c t h y) s' ->
  (y = V tt /\ s' = set_rts (filter (fun kt => negb (eqs (fst kt) t && eqs (rt_client (snd kt)) (cl_id c))) (st_rts s)) s) \/
  (s' = s /\ exists e, y = X (Py e)).
Proof.
  intros H. remember (ORevokeToken c t h y) as o eqn:Eo. destruct H as [ch T e s|T e x s]; destruct e; cbn [ex_do fst snd observe] in Eo |- *; try discriminate.
  - injection Eo as -> -> -> <-. auto.
  - injection Eo as -> -> -> <-. eauto.
Qed.
(** Calls that only look something up leave the store as it is. *)
Lemma steps_finds C aware : forall tr s s', Forall is_find tr -> ex_steps C aware s tr s' -> s' = s.
Proof.
  induction tr as [|o tr IH]; intros s s' Hf Hs; inversion Hs; subst; [auto|]. inversion Hf as [|? ? Ho Hf']; subst.
  destruct Ho as (i & y & ->). apply step_find_client in H2 as [-> _]. eauto.
Qed.
(** Two executions of a program make the same first call. *)
Lemma exec_same_call {A} (p : prog A) o t x o' t' x' : exec p (o :: t) x -> exec p (o' :: t') x' ->
  exists T (e : eff T) k y y', o = observe e y /\ o' = observe e y' /\ exec (k y) t x /\ exec (k y') t' x' /\
    (forall y t x, exec (k y) t x -> exec p (observe e y :: t) x).
Proof.
  destruct p as [r|T e k]; [intros [H _]; discriminate|]. intros H1 H2. apply exec_Do in H1 as (y & s & E1 & H1). apply exec_Do in H2 as (y' & s' & E2 & H2).
  injection E1 as -> ->. injection E2 as -> ->. exists T, e, k, y, y'. do 4 (split; [solve [auto]|]). intros z u w Hz. apply exec_Do. eauto.
Qed.
Lemma exec_nil_cons {A} (p : prog A) x o t y : exec p [] x -> exec p (o :: t) y -> False.
Proof. destruct p as [r|T e k]; [intros _ [H _]; discriminate|]. intros H _. apply exec_Do in H as (z & s & E & _). discriminate. Qed.

Lemma p_revoke_store C aware r tr x s s' : exec (revocation_endpoint r) tr x -> ex_steps C aware s tr s' ->
  st_clients s' = st_clients s /\ st_users s' = st_users s /\ st_codes s' = st_codes s /\
  (forall k v, In (k, v) (st_rts s') -> In (k, v) (st_rts s)) /\
  (forall k v, In (k, v) (st_rts s) -> In (k, v) (st_rts s') \/
     (form_has r "token" k /\ exists i c, authenticates r i c /\ In c (st_clients s) /\ rt_client v = cl_id c)).
Proof.
  intros H Hs. apply revocation_exec in H as (z & Hz & _).
  assert (Hsame : s' = s -> st_clients s' = st_clients s /\ st_users s' = st_users s /\ st_codes s' = st_codes s /\
    (forall k v, In (k, v) (st_rts s') -> In (k, v) (st_rts s)) /\
    (forall k v, In (k, v) (st_rts s) -> In (k, v) (st_rts s') \/
     (form_has r "token" k /\ exists i c, authenticates r i c /\ In c (st_clients s) /\ rt_client v = cl_id c))).
  { intros ->. do 4 (split; [solve [auto]|]). auto. }
  destruct Hz as [tr e Ha | i c Ha Hn | i c h' e Ha Hh Hne Hns Hk Hde Hl | i c t' hint e Ha Ht Hne Hh Hsu | i c t' hint Ha Ht Hne Hh Hsu].
  - apply Hsame. eapply steps_finds; [|exact Hs]. eapply authenticate_trace; eauto.
  - apply Hsame. eapply steps_finds; [|exact Hs]. constructor; [unfold is_find; eauto|constructor].
  - apply Hsame. eapply steps_finds; [|exact Hs]. constructor; [unfold is_find; eauto|constructor].
  - apply Hsame. inversion Hs as [|? ? s1 ? ? H1 H2]; subst. apply step_find_client in H1 as [-> _]. inversion H2 as [|? ? s2 ? ? H3 H4]; subst.
    inversion H4; subst. apply step_revoke in H3 as [[E _]|[-> _]]; [discriminate|auto].
  - inversion Hs as [|? ? s1 ? ? H1 H2]; subst. apply step_find_client in H1 as [-> Hc]. inversion H2 as [|? ? s2 ? ? H3 H4]; subst.
    inversion H4; subst. apply step_revoke in H3 as [[_ ->]|[-> _]]; [|auto]. cbn [st_clients st_users st_codes st_rts set_rts].
    do 3 (split; [reflexivity|]). split.
    + intros k v Hin. apply filter_In in Hin. tauto.
    + intros k v Hin. destruct (eqs k t' && eqs (rt_client v) (cl_id c)) eqn:Eb.
      * right. apply andb_true_iff in Eb as [E1 E2]. apply eqs_true in E1, E2. subst k. split; [exact Ht|]. exists i, c. split; [auto|]. split; [|auto].
        destruct Hc as [Hc|[? Hc]]; [|discriminate]. injection Hc as Hc. symmetry in Hc. apply find_some in Hc. tauto.
      * left. apply filter_In. cbn [fst snd]. rewrite Eb. auto.
Qed.
Lemma p_revoke_removes C aware r tr z s s' t : exec (revocation_endpoint r) tr (V (Some z)) -> rs_status z = 200 ->
  ex_steps C aware s tr s' -> form_has r "token" t ->
  exists i c, authenticates r i c /\ In c (st_clients s) /\ forall v, In (t, v) (st_rts s') -> rt_client v <> cl_id c.
Proof.
  intros H Hst Hs Ht. apply revocation_exec in H as (y & Hz & Hx).
  destruct Hz as [tr e Ha | i c Ha Hn | i c h' e Ha Hh Hne Hns Hk Hde Hl | i c t' hint e Ha Ht' Hne Hh Hsu | i c t' hint Ha Ht' Hne Hh Hsu].
  - exfalso. destruct e as [e|e]; [|discriminate]. symmetry in Hx. apply revoke_error_status in Hx as [Hx _]. rewrite Hst in Hx. destruct (oe_kind e); discriminate.
  - discriminate.
  - exfalso. symmetry in Hx. apply revoke_error_status in Hx as [Hx _]. rewrite Hst in Hx. destruct (oe_kind e); discriminate.
  - exfalso. destruct e as [e|e]; [|discriminate]. symmetry in Hx. apply revoke_error_status in Hx as [Hx _]. rewrite Hst in Hx. destruct (oe_kind e); discriminate.
  - inversion Hs as [|? ? s1 ? ? H1 H2]; subst. apply step_find_client in H1 as [-> Hc]. inversion H2 as [|? ? s2 ? ? H3 H4]; subst.
    inversion H4; subst. apply step_revoke in H3 as [[_ ->]|[-> [? E]]]; [|discriminate]. exists i, c. split; [auto|].
    split. { destruct Hc as [Hc|[? Hc]]; [|discriminate]. injection Hc as Hc. symmetry in Hc. apply find_some in Hc. tauto. }
    intros v Hin Hv. cbn [st_rts set_rts] in Hin. apply filter_In in Hin as [_ Hin]. cbn [fst snd] in Hin. 
    unfold form_has in Ht. assert (Et : Some t = Some t') by (rewrite <- Ht; exact Ht'). injection Et as <-. rewrite Hv, !eqs_refl in Hin. discriminate.
Qed.
Lemma filter_all {A} (f : A -> bool) l : Forall (fun x => f x = true) l -> filter f l = l.
Proof. induction 1 as [|x l Hx Hl IH]; [reflexivity|]. cbn [filter]. rewrite Hx, IH. reflexivity. Qed.
Lemma p_revoke_idempotent C aware r tr x s s' tr2 x2 s2 : exec (revocation_endpoint r) tr (V x) -> ex_steps C aware s tr s' ->
  exec (revocation_endpoint r) tr2 x2 -> ex_steps C aware s' tr2 s2 -> s2 = s'.
Proof.
  intros H Hs H2 Hs2. destruct (p_revoke_store _ _ _ _ _ _ _ H Hs) as (Ecl & _).
  assert (Hraise : forall o e, In o tr -> raised o = Some (Py e) -> False).
  { intros o e Hin Hr. pose proof H as H'. apply revocation_exec in H' as (y & Hz & Hx).
    destruct Hz as [tr e' Ha | i c Ha Hn | i c h' e' Ha Hh Hne Hns Hk Hde Hl | i c t' hint e' Ha Ht' Hne Hh Hsu | i c t' hint Ha Ht' Hne Hh Hsu].
    - apply authenticate_exec in Ha as [[-> _] | (? & ? & ? & ? & ? & _ & _ & _ & _ & oc & -> & Ha)]; [destruct Hin|].
      destruct Hin as [<-|[]]. cbn [raised] in Hr. destruct oc as [oc|e0]; [discriminate|]. injection Hr as ->. injection Ha as ->. discriminate.
    - destruct Hin as [<-|[]]; discriminate.
    - destruct Hin as [<-|[]]; discriminate.
    - destruct Hin as [<-|[<-|[]]]; [discriminate|]. cbn [raised] in Hr. injection Hr as ->. discriminate.
    - destruct Hin as [<-|[<-|[]]]; discriminate. }
  pose proof H2 as H2'. apply revocation_exec in H2' as (y & Hz & _).
  destruct Hz as [tr2 e Ha | i c Ha Hn | i c h' e Ha Hh Hne Hns Hk Hde Hl | i c t' hint e Ha Ht Hne Hh Hsu | i c t' hint Ha Ht Hne Hh Hsu].
  - eapply steps_finds; [|exact Hs2]. eapply authenticate_trace; eauto.
  - eapply steps_finds; [|exact Hs2]. constructor; [unfold is_find; eauto|constructor].
  - eapply steps_finds; [|exact Hs2]. constructor; [unfold is_find; eauto|constructor].
  - inversion Hs2 as [|? ? s1 ? ? H3 H4]; subst. apply step_find_client in H3 as [-> _]. inversion H4 as [|? ? s3 ? ? H5 H6]; subst.
    inversion H6; subst. apply step_revoke in H5 as [[E _]|[-> _]]; [discriminate|auto].
  - inversion Hs2 as [|? ? s1 ? ? H3 H4]; subst. apply step_find_client in H3 as [-> Hc]. inversion H4 as [|? ? s3 ? ? H5 H6]; subst.
    inversion H6; subst. apply step_revoke in H5 as [[_ ->]|[-> [? E]]]; [|discriminate].
    destruct Hc as [Hc|[? Hc]]; [|discriminate]. rewrite Ecl in Hc.
    destruct tr as [|o1 t1]; [destruct (exec_nil_cons _ _ _ _ _ H H2)|].
    destruct (exec_same_call _ _ _ _ _ _ _ H H2) as (T & e & k & y1 & y2 & E1 & E2 & Hk1 & Hk2 & _).
    inversion Hs as [|? ? s1 ? ? H7 H8]; subst. destruct e; cbn [observe] in E2, H7; try discriminate. injection E2 as <- <-.
    pose proof H7 as H7'. apply step_find_client in H7' as [-> [->|[e ->]]]; [|exfalso; eapply Hraise; [left; reflexivity|reflexivity]].
    rewrite <- Hc in Hk1, Hraise. destruct t1 as [|o1 t1]; [destruct (exec_nil_cons _ _ _ _ _ Hk1 Hk2)|].
    destruct (exec_same_call _ _ _ _ _ _ _ Hk1 Hk2) as (T & e & k' & y1 & y2 & E1 & E2 & _ & _ & _). subst o1.
    destruct e; cbn [observe] in E2; try discriminate. injection E2 as <- <- <- <-.
    inversion H8 as [|? ? s4 ? ? H9 H10]; subst. pose proof H9 as H9'. apply step_revoke in H9' as [[-> ->]|[-> [e ->]]]; [|exfalso; eapply Hraise; [right; left; reflexivity|reflexivity]].
    assert (Hend : t1 = []).
    { pose proof H as H'. apply revocation_exec in H' as (y & Hz & _). inversion Hz as [tr0 e0 Ha0| | | |]; subst; auto.
      apply authenticate_trace in Ha0. inversion Ha0 as [|? ? _ Hb]; subst. inversion Hb as [|? ? Hq _]; subst. destruct Hq as (? & ? & Hq). discriminate. }
    subst t1. inversion H10; subst. unfold set_rts. cbn [st_clients st_users st_codes st_rts]. f_equal. apply filter_all. rewrite Forall_forall.
    intros kt Hkt. apply filter_In in Hkt. tauto.
Qed.

(** No call of the token endpoint takes a refresh token out of the store. *)
Lemma step_keeps_rt C aware s o s' t v : ex_step C aware s o s' -> (forall c k h y, o <> ORevokeToken c k h y) ->
  lookup t (st_rts s) = Some v -> lookup t (st_rts s') = Some v.
Proof.
  intros H Hr Hl. destruct H as [ch T e s|T e x s]; [|auto]. destruct e; cbn [ex_do fst snd]; auto.
  - destruct (ad_nonce _); [|auto]. destruct (has _ _); auto.
  - destruct (owner_id _); cbn [snd]; [|auto]. destruct (find _ _) as [[? ?]|]; cbn [snd]; [auto|]. destruct (has (ch_token ch) (st_rts s)) eqn:Eh; cbn [snd]; [auto|].
    cbn [st_rts set_rts lookup]. destruct (eqs_spec t (ch_token ch)) as [->|]; [|auto]. unfold has in Eh. rewrite Hl in Eh. discriminate.
  - exfalso. eapply Hr. reflexivity.
Qed.
Lemma p_refresh_survives E C aware p hs r tr x s s' t v : exec (token_endpoint E p hs r) tr x -> ex_steps C aware s tr s' ->
  lookup t (st_rts s) = Some v -> lookup t (st_rts s') = Some v.
Proof.
  intros H Hs. pose proof (p_token_no_revoke E _ _ _ _ _ H) as Hn. clear H. revert s Hs. induction tr as [|o tr IH]; intros s Hs Hl; inversion Hs; subst; [auto|].
  eapply IH; [intros; intro Hin; eapply Hn; right; exact Hin|eassumption|]. eapply step_keeps_rt; [eassumption| |exact Hl]. intros c k h y ->. eapply Hn. left. reflexivity.
Qed.
