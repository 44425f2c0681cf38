(** Who changes what in the data base of the example: lemmas for C175. *)
From Coq Require Import String Ascii List NArith ZArith Bool Arith.
From Verif Require Import Base BaseFacts SpecReaders Webtools Crypto Jwk Prog ProgFacts Http OAuth SpecOAuth EndpointFacts GrantFacts TokenFacts IssueFacts AuthzFacts RfcFacts SpecHistory LineageFacts SpecFlow FlowFacts Example ExampleFacts App SpecApp AppFacts LifeFacts StoreFacts SpecKeep KeepFacts SpecWho.
Import ListNotations.
Open Scope N_scope.

(** ** Steps *)
Lemma code_lost C aware t o t1 k v : app_step C aware t o t1 -> In (k, v) (st_codes (tb_store t)) -> ~ In (k, v) (st_codes (tb_store t1)) -> o = OLib (ODeleteCode k (V tt)).
Proof.
  intros H Hi Hn. destruct (is_lib o) as [[z ->]|Ho]; [|apply other_step in H as (E & _); [rewrite E in Hn; contradiction|exact Ho]].
  apply lib_step in H as (H & _). destruct H as [ch T e s|T e x s]; [|contradiction]. destruct e; cbn [ex_do fst snd observe] in *; try contradiction.
  - destruct (ad_nonce data); [|contradiction]. destruct (has code (st_codes s)); [contradiction|]. destruct Hn. right. exact Hi.
  - destruct (eqs_spec k code) as [<-|Hk]; [reflexivity|]. destruct Hn. cbn [set_codes st_codes]. unfold dremove. apply filter_In. split; [exact Hi|]. cbn [fst]. apply eqs_false in Hk. first [rewrite Hk; reflexivity|rewrite eqs_sym, Hk; reflexivity].
  - destruct (owner_id o) as [u|]; [|contradiction]. destruct (find _ (st_rts s)) as [[? ?]|]; [contradiction|]. destruct (has _ _); contradiction.
Qed.
Lemma code_new C aware t o t1 k v : app_step C aware t o t1 -> ~ In (k, v) (st_codes (tb_store t)) -> In (k, v) (st_codes (tb_store t1)) ->
  exists ad c u, o = OLib (OSaveCode k ad c u (V tt)) /\ ac_client v = cl_id c /\ ac_user v = us_id u /\ ac_redirect v = ad_redirect ad.
Proof.
  intros H Hn Hi. destruct (is_lib o) as [[z ->]|Ho]; [|apply other_step in H as (E & _); [rewrite E in Hi; contradiction|exact Ho]].
  apply lib_step in H as (H & _). destruct H as [ch T e s|T e x s]; [|contradiction]. destruct e; cbn [ex_do fst snd observe] in *; try contradiction.
  - destruct (ad_nonce data); [|contradiction]. destruct (has code (st_codes s)); [contradiction|]. cbn [fst snd set_codes st_codes] in Hi. destruct Hi as [Hi|Hi]; [|contradiction].
    injection Hi as <- <-. exists data, c, u. auto.
  - cbn [set_codes st_codes] in Hi. unfold dremove in Hi. apply filter_In in Hi. tauto.
  - destruct (owner_id o) as [u|]; [|contradiction]. destruct (find _ (st_rts s)) as [[? ?]|]; [contradiction|]. destruct (has _ _); contradiction.
Qed.
Lemma refresh_new C aware t o t1 k v : app_step C aware t o t1 -> ~ In (k, v) (st_rts (tb_store t)) -> In (k, v) (st_rts (tb_store t1)) ->
  exists c w sc y, o = OLib (OCreateRT c w sc y) /\ rt_client v = cl_id c.
Proof.
  intros H Hn Hi. destruct (is_lib o) as [[z ->]|Ho]; [|apply other_step in H as (_ & _ & _ & E & _); [apply E in Hi; contradiction|exact Ho]].
  apply lib_step in H as (H & _). destruct (ex_rt_step _ _ _ _ _ _ _ H Hi) as [?|(c & w & sc & -> & Hr)]; [contradiction|]. exists c, w, sc, (V (Some k)). split; [reflexivity|apply Hr].
Qed.
Lemma session_new C aware t o t1 sid uid : app_step C aware t o t1 -> ~ In (sid, uid) (tb_sessions t) -> In (sid, uid) (tb_sessions t1) -> o = ONewSession sid uid (V tt).
Proof.
  intros H Hn Hi. destruct (is_lib o) as [[z ->]|_]; [apply lib_step in H as (_ & E & _); rewrite E in Hi; contradiction|].
  destruct H as [ch T e t|T e x t]; [|contradiction]. destruct e; cbn [app_do fst snd aobserve] in *; try contradiction.
  - destruct (existsb _ _); cbn [fst snd set_sessions tb_sessions] in *; [contradiction|]. destruct Hi as [Hi|Hi]; [|contradiction]. injection Hi as -> ->. reflexivity.
  - cbn [set_sessions tb_sessions] in Hi. apply filter_In in Hi. tauto.
  - destruct (ex_do C aware ch e (tb_store t)). contradiction.
Qed.
Lemma find_id C aware s i c s' : ex_step C aware s (OFindClient i (V (Some c))) s' -> cl_id c = i.
Proof.
  intros H. remember (OFindClient i (V (Some c))) as o eqn:Eo. destruct H as [ch T e s|T e x s]; destruct e; cbn [ex_do fst snd observe] in Eo; try discriminate.
  injection Eo as -> Eo. apply find_some in Eo as [_ Eo]. apply eqs_true in Eo. exact Eo.
Qed.
(** A change over a history is due to one of its calls. *)
Lemma gained_at C aware (P : tables -> Prop) (B : aobs -> Prop) : (forall t, P t \/ ~ P t) -> (forall t o t1, app_step C aware t o t1 -> ~ P t -> P t1 -> B o) ->
  forall l t t', app_steps C aware t (map snd l) t' -> ~ P t -> P t' -> exists (n : nat) o, In (n, o) l /\ B o.
Proof.
  intros Hd Hstep l t t' Hs Hn Hp. apply (lost_at C aware (fun t => ~ P t) B) with (t := t) (t' := t'); [|intros t0 o t1 Ho H0 H1|exact Hs|exact Hn|tauto].
  - intros t0. destruct (Hd t0); tauto.
  - destruct (Hd t1); [|tauto]. eapply Hstep; eauto.
Qed.

Section WithEnv.
Variable E : env.
Variable p : provider.
Variable hs : hooks.
(** A call of the library in the log: the page, the request and what was called before *)
Lemma lib_page qs log n z : app_running E p hs qs log -> In (n, OLib z) log ->
  exists g w ou sv r l an, nth_error qs n = Some (g, w) /\ lib_service g = Some sv /\ taken_as w ou r /\
    served E {| in_service := sv; in_provider := p; in_hooks := hs; in_request := r |} l an /\ In z l /\
    (forall u, ou = Some u -> exists uid sid, wb_cookie w = Some (uid, sid) /\ In (n, OGetSession sid uid (V (Some (Some u)))) log) /\
    (forall a y b, l = a ++ y :: b -> ~ In z (a ++ [y]) -> In (n, OLib y) log) /\ (match sv with Authorize => is_get w | _ => is_post w end = true).
Proof.
  intros [R1 R2] Hi. destruct (R1 _ _ Hi) as [[g w] Hq]. destruct (R2 _ _ _ Hq) as (tr & x & Hx).
  apply acalls_In in Hi. assert (Hia : In (OLib z) (acalls_of n log ++ tr)) by (apply in_app_iff; auto).
  apply application_exec in Hx as [(ou & t2 & Hs & He & Hv)|Hx]; [|exfalso; destruct (Hx _ Hia) as (a & b & y & Hz); discriminate].
  apply session_exec in Hs. set (s := firstn _ _) in *. assert (Hns : ~ In (OLib z) s).
  { intros Hc. destruct Hs as [(_ & Hs & _)|(a & b & y & _ & Hs & _)]; rewrite Hs in Hc; [destruct Hc|]. destruct Hc as [Hc|[]]. discriminate. }
  rewrite He in Hia. apply in_app_iff in Hia as [Hia|Hia]; [contradiction|].
  pose proof Hv as Hv'. apply view_calls in Hv as [Hv|(sv & r & l & Hg & -> & Hr & _ & an & Hsv)].
  { exfalso. assert (Hl : In z (lib_calls t2)) by (unfold lib_calls; apply in_flat_map; eexists; split; [exact Hia|left; reflexivity]). rewrite Hv in Hl. destruct Hl. }
  apply in_map_iff in Hia as (z' & Hz & Hia). injection Hz as ->.
  exists g, w, ou, sv, r, l, an. do 5 (split; [solve [auto]|]). split; [|split].
  - intros u ->. destruct Hs as [(_ & _ & Hs)|(uid & sid & y & Hc & Hs & Hy)]; [discriminate|]. exists uid, sid. split; [exact Hc|].
    assert (y = V (Some (Some u))) as -> by (destruct y as [[[?|]|]|]; congruence). rewrite Hs in He.
    apply acalls_In. eapply (prefix_has _ _ [] _ _ (OLib z)); [exact He|exact Hi|]. intros [Hc'|[]]. discriminate.
  - intros a y b -> Hny. apply acalls_In. rewrite map_app in He. cbn [map] in He. rewrite app_assoc in He. eapply (prefix_has _ _ _ _ _ (OLib z)); [exact He|exact Hi|].
    rewrite <- app_assoc. intros Hc. apply in_app_iff in Hc as [Hc|Hc]; [contradiction|]. apply Hny. change [OLib y] with (map OLib [y]) in Hc. rewrite <- map_app in Hc.
    apply in_map_iff in Hc as (q & Hq' & Hc). injection Hq' as ->. exact Hc.
  - destruct g; try discriminate; injection Hg as <-; cbn [view] in Hv'.
    + destruct (is_get w); [reflexivity|]. apply aexec_ARet in Hv' as [Hv' _]. destruct l; [destruct Hia|discriminate].
    + destruct (is_post w); [reflexivity|]. apply aexec_ARet in Hv' as [Hv' _]. destruct l; [destruct Hia|discriminate].
    + destruct (is_post w); [reflexivity|]. apply aexec_ARet in Hv' as [Hv' _]. destruct l; [destruct Hia|discriminate].
Qed.
Lemma found_stored C aware t t' (log : list (nat * aobs)) (n : nat) i c : app_steps C aware t (map snd log) t' -> In (n, OLib (OFindClient i (V (Some c)))) log -> In c (st_clients (tb_store t)) /\ cl_id c = i.
Proof.
  intros Hst Hi. apply (in_map snd) in Hi. cbn [snd] in Hi. destruct (app_steps_In _ _ _ _ _ _ Hst Hi) as (t1 & t3 & Hf & Hcl & _). apply lib_step in Hf as (Hf & _).
  rewrite <- Hcl. split; [eapply find_stored; exact Hf|eapply find_id; exact Hf].
Qed.
Lemma session_id C aware t t' (log : list (nat * aobs)) (n : nat) sid uid u : app_steps C aware t (map snd log) t' -> In (n, OGetSession sid uid (V (Some (Some u)))) log -> us_id u = uid.
Proof.
  intros Hst Hi. apply (in_map snd) in Hi. cbn [snd] in Hi. destruct (app_steps_In _ _ _ _ _ _ Hst Hi) as (t1 & t3 & Hf & _). apply get_step in Hf as [_ Hf]. auto.
Qed.
Lemma get_only w ou r : is_get w = true -> taken_as w ou r -> wb_method w = chars "GET".
Proof.
  intros Hm Hr. apply is_get_cases in Hm as [Hm|Hm]; [exact Hm|]. exfalso. unfold taken_as in Hr. rewrite Hm in Hr. unfold make_request in Hr.
  replace (negb (ins (lower (chars "HEAD")) [lit "get"; lit "post"])) with true in Hr by reflexivity. discriminate.
Qed.
Lemma no_call {A} (P : obs -> Prop) (q : prog A) tr x o : calls P q -> exec q tr x -> In o tr -> P o.
Proof. intros Hc He Hi. pose proof (calls_exec _ _ Hc _ _ He) as Hf. rewrite Forall_forall in Hf. auto. Qed.
(** Codes are saved at the authorization endpoint only. *)
Definition not_saving (o : obs) : Prop := match o with OSaveCode _ _ _ _ _ => False | _ => True end.
Lemma token_not_saving r : calls not_saving (token_endpoint E p hs r).
Proof.
  unfold token_endpoint. apply calls_pexcept; [|intros; exact I]. apply calls_pbind; [exact I|]. intros _. apply calls_pbind; [exact I|]. intros g.
  apply calls_pbind; [eapply calls_weaken; [|apply authenticate_calls]; intros o (i & z & ->); exact I|]. intros c'.
  destruct (negb _); [exact I|]. apply calls_pbind; [|intros; exact I].
  assert (Hh : forall l d c u, calls not_saving (run_token_hooks E l d c u)).
  { intros l d c0 u. eapply calls_weaken; [|apply token_hooks_calls]. intros []; simpl; tauto. }
  assert (Hn : forall o, is_now o -> not_saving o) by (intros o (z & ->); exact I).
  destruct g; cbn [grant_token].
  - unfold code_token, pfinally. apply calls_ptry.
    + unfold code_exchange, maybe_refresh. calls_go; try exact I; try apply Hh; eapply calls_weaken; [exact Hn|apply vac_calls].
    + intros z. apply calls_ptry; [destruct (param "code" _); calls_go; exact I|]. intros []; exact I.
  - unfold cc_token. calls_go; exact I.
  - unfold refresh_grant, maybe_refresh. calls_go; try exact I; (eapply calls_weaken; [exact Hn|apply vrt_calls]).
Qed.
Lemma revocation_not_saving r : calls not_saving (revocation_endpoint r).
Proof.
  unfold revocation_endpoint. apply calls_pexcept; [|intros; calls_go; exact I].
  apply calls_pbind; [eapply calls_weaken; [|apply authenticate_calls]; intros o (i & z & ->); exact I|]. intros c. calls_go; exact I.
Qed.
Definition not_deleting (o : obs) : Prop := match o with ODeleteCode _ _ => False | _ => True end.
Lemma authz_not_deleting r : calls not_deleting (authorization_endpoint E p hs r).
Proof. unfold authorization_endpoint, validate_client, grant_authorize, authorize. calls_go; exact I. Qed.
Lemma revocation_not_deleting r : calls not_deleting (revocation_endpoint r).
Proof.
  unfold revocation_endpoint. apply calls_pexcept; [|intros; calls_go; exact I].
  apply calls_pbind; [eapply calls_weaken; [|apply authenticate_calls]; intros o (i & z & ->); exact I|]. intros c. calls_go; exact I.
Qed.

Lemma saved_page C aware t t' qs log n k ad c u y : app_running E p hs qs log -> app_steps C aware t (map snd log) t' -> In (n, OLib (OSaveCode k ad c u y)) log ->
  exists q, nth_error qs n = Some q /\ forall row, ac_client row = cl_id c -> ac_user row = us_id u -> ac_redirect row = ad_redirect ad -> authorizes t log n q row.
Proof.
  intros Hr Hst Hi. destruct (lib_page _ _ _ _ Hr Hi) as (g & w & ou & sv & r & l & an & Hq & Hg & Hm & Hs & Hil & Hu & Hb & Hme). exists (g, w). split; [exact Hq|].
  destruct g; try discriminate; injection Hg as <-; unfold served in Hs; cbn [in_service in_provider in_hooks in_request] in Hs; destruct Hs as (x & Hs & _).
  - destruct (p_code_saved _ _ _ _ _ _ _ _ _ _ _ Hs Hil) as (cid & uri & -> & Hru & Hcid & Hduri & Hreg & Hadr & _).
    assert (ou = Some u) as ->. { unfold taken_as, make_request in Hm. destruct (raise_if _ _); [|discriminate]. cbn [rbind] in Hm. destruct (raise_if _ _); [|discriminate]. cbn [rbind] in Hm. injection Hm as <-. exact Hru. }
    destruct (Hu u eq_refl) as (uid & sid & Hc & Hses). pose proof (session_id _ _ _ _ _ _ _ _ _ Hst Hses) as <-.
    assert (Hf : In (n, OLib (OFindClient cid (V (Some c)))) log) by (eapply (Hb []); [reflexivity|]; intros [Hc'|[]]; discriminate).
    destruct (found_stored _ _ _ _ _ _ _ _ Hst Hf) as [Hcl <-].
    intros row Hrc Hruid Hrr. split; [reflexivity|]. split; [eapply get_only; [exact Hme|exact Hm]|]. exists u, r, c. rewrite Hrc, Hruid, Hrr, Hadr.
    split; [exact Hm|]. split; [exists sid; split; [exact Hc|exact Hses]|]. do 3 (split; [auto|]). split; [exact Hcid|]. split; [exact Hduri|exact Hreg].
  - destruct (no_call _ _ _ _ _ (revocation_not_saving r) Hs Hil).
  - destruct (no_call _ _ _ _ _ (token_not_saving r) Hs Hil).
Qed.
Lemma deleted_page C aware t t' qs log n k y : app_running E p hs qs log -> app_steps C aware t (map snd log) t' -> In (n, OLib (ODeleteCode k y)) log ->
  exists q r c, nth_error qs n = Some q /\ asks_token t q r c /\ data_has r "grant_type" (chars "authorization_code") /\ data_has r "code" k.
Proof.
  intros Hr Hst Hi. destruct (lib_page _ _ _ _ Hr Hi) as (g & w & ou & sv & r & l & an & Hq & Hg & Hm & Hs & Hil & Hu & Hb & Hme). exists (g, w), r.
  destruct g; try discriminate; injection Hg as <-; unfold served in Hs; cbn [in_service in_provider in_hooks in_request] in Hs; destruct Hs as (x & Hs & _).
  - destruct (no_call _ _ _ _ _ (authz_not_deleting r) Hs Hil).
  - destruct (no_call _ _ _ _ _ (revocation_not_deleting r) Hs Hil).
  - destruct (p_code_burnt _ _ _ _ _ _ _ _ Hs Hil) as (Hgt & Hcode & _ & i & c & Hfi & Ha & _). exists c.
    destruct (p_code_deleted_endpoint _ _ _ _ _ _ _ _ Hs Hgt Hcode Hil) as (i0 & c0 & tr' & y0 & -> & Hnd); [discriminate|].
    assert (Hf : In (n, OLib (OFindClient i (V (Some c)))) log).
    { assert (Hfi' : In (OFindClient i (V (Some c))) (OFindClient i0 (V (Some c0)) :: tr')).
      { destruct Hfi as [Hfi|Hfi]; [left; exact Hfi|]. apply in_app_iff in Hfi as [Hfi|[Hfi|[]]]; [right; exact Hfi|discriminate]. }
      apply in_split in Hfi' as (a & b & Hab). apply (Hb a _ (b ++ [ODeleteCode k y0])).
      - change (OFindClient i0 (V (Some c0)) :: tr' ++ [ODeleteCode k y0]) with ((OFindClient i0 (V (Some c0)) :: tr') ++ [ODeleteCode k y0]). rewrite Hab, <- app_assoc. reflexivity.
      - intros Hc. assert (Hin : In (ODeleteCode k y) (OFindClient i0 (V (Some c0)) :: tr')) by (rewrite Hab; apply in_app_iff; apply in_app_iff in Hc as [Hc|[Hc|[]]]; [auto|discriminate]).
        destruct Hin as [Hin|Hin]; [discriminate|]. exact (Hnd _ _ Hin). }
    destruct (found_stored _ _ _ _ _ _ _ _ Hst Hf) as [Hcl <-]. split; [exact Hq|]. split; [|auto]. split; [reflexivity|]. split; [apply eqs_true; exact Hme|]. split; [eauto|]. auto.
Qed.
Lemma created_page C aware t t' qs log n c w sc y : app_running E p hs qs log -> app_steps C aware t (map snd log) t' -> In (n, OLib (OCreateRT c w sc y)) log ->
  exists q r, nth_error qs n = Some q /\ asks_token t q r c.
Proof.
  intros Hr Hst Hi. destruct (lib_page _ _ _ _ Hr Hi) as (g & w' & ou & sv & r & l & an & Hq & Hg & Hm & Hs & Hil & Hu & Hb & Hme). exists (g, w'), r. split; [exact Hq|].
  destruct (served_issuing E _ _ _ _ Hs Hil) as [Hsv (x & Hx)]; [right; reflexivity|]. cbn [in_service in_provider in_hooks in_request] in Hsv, Hx. subst sv.
  destruct g; try discriminate. destruct (p_registered_grants _ _ _ _ _ _ _ Hx Hil) as (g & i & c1 & tr' & _ & _ & _ & -> & Ha & Hc); [right; reflexivity|].
  assert (c1 = c) as -> by (destruct Hc as [(? & ? & ? & Hc)|((? & ? & ? & Hc) & _)]; [discriminate|congruence]).
  assert (Hf : In (n, OLib (OFindClient i (V (Some c)))) log) by (eapply (Hb []); [reflexivity|]; intros [Hc'|[]]; discriminate).
  destruct (found_stored _ _ _ _ _ _ _ _ Hst Hf) as [Hcl <-]. split; [reflexivity|]. split; [apply eqs_true; exact Hme|]. split; [eauto|]. auto.
Qed.

Section History.
Variable C : crypto.
Variable aware : bool.
Variable qs : list (page * web).
Variable l1 l2 : list (nat * aobs).
Variable t0 t t' : tables.
Hypothesis Hrun : app_running E p hs qs (l1 ++ l2).
Hypothesis Hs0 : app_steps C aware t0 (map snd l1) t.
Hypothesis Hs1 : app_steps C aware t (map snd l2) t'.
Lemma all_steps : app_steps C aware t0 (map snd (l1 ++ l2)) t'.
Proof. rewrite map_app. apply app_steps_app. eauto. Qed.
Lemma in_all (n : nat) (o : aobs) : In (n, o) l2 -> In (n, o) (l1 ++ l2).
Proof. intros H. apply in_app_iff. auto. Qed.
Theorem c175_code_saved k row : ~ In (k, row) (st_codes (tb_store t)) -> In (k, row) (st_codes (tb_store t')) ->
  exists n q, acted n l2 /\ nth_error qs n = Some q /\ authorizes t0 (l1 ++ l2) n q row.
Proof.
  intros Hn Hi.
  destruct (gained_at C aware (fun t => In (k, row) (st_codes (tb_store t))) (fun o => exists ad c u, o = OLib (OSaveCode k ad c u (V tt)) /\ ac_client row = cl_id c /\ ac_user row = us_id u /\ ac_redirect row = ad_redirect ad)) with (l := l2) (t := t) (t' := t') as (n & o & Ho & ad & c & u & -> & A1 & A2 & A3); auto.
  - intros x. destruct (in_dec (fun a b : str * auth_code => ltac:(repeat decide equality)) (k, row) (st_codes (tb_store x))); auto.
  - intros; eapply code_new; eauto.
  - destruct (saved_page C aware t0 t' qs _ n k ad c u (V tt) Hrun all_steps (in_all _ _ Ho)) as (q & Hq & Ha). exists n, q. split; [eexists; exact Ho|auto].
Qed.
Theorem c175_code_deleted k row : In (k, row) (st_codes (tb_store t)) -> ~ In (k, row) (st_codes (tb_store t')) ->
  exists n q r c, acted n l2 /\ nth_error qs n = Some q /\ asks_token t0 q r c /\ data_has r "grant_type" (chars "authorization_code") /\ data_has r "code" k.
Proof.
  intros Hi Hn.
  destruct (lost_at C aware (fun t => In (k, row) (st_codes (tb_store t))) (fun o => o = OLib (ODeleteCode k (V tt)))) with (l := l2) (t := t) (t' := t') as (n & o & Ho & ->); auto.
  - intros x. destruct (in_dec (fun a b : str * auth_code => ltac:(repeat decide equality)) (k, row) (st_codes (tb_store x))); auto.
  - intros; eapply code_lost; eauto.
  - destruct (deleted_page C aware t0 t' qs _ n k (V tt) Hrun all_steps (in_all _ _ Ho)) as (q & r & c & Hq & Ha & Hb). exists n, q, r, c. split; [eexists; exact Ho|auto].
Qed.
Theorem c175_refresh_created k rt : ~ In (k, rt) (st_rts (tb_store t)) -> In (k, rt) (st_rts (tb_store t')) ->
  exists n q r c, acted n l2 /\ nth_error qs n = Some q /\ asks_token t0 q r c /\ cl_id c = rt_client rt.
Proof.
  intros Hn Hi.
  destruct (gained_at C aware (fun t => In (k, rt) (st_rts (tb_store t))) (fun o => exists c w sc y, o = OLib (OCreateRT c w sc y) /\ rt_client rt = cl_id c)) with (l := l2) (t := t) (t' := t') as (n & o & Ho & c & w & sc & y & -> & A1); auto.
  - intros x. destruct (in_dec (fun a b : str * refresh_token => ltac:(repeat decide equality)) (k, rt) (st_rts (tb_store x))); auto.
  - intros; eapply refresh_new; eauto.
  - destruct (created_page C aware t0 t' qs _ n c w sc y Hrun all_steps (in_all _ _ Ho)) as (q & r & Hq & Ha). exists n, q, r, c. split; [eexists; exact Ho|auto].
Qed.
Theorem c175_session_started sid uid : ~ In (sid, uid) (tb_sessions t) -> In (sid, uid) (tb_sessions t') ->
  exists n q, acted n l2 /\ nth_error qs n = Some q /\ submits_password t0 uid q.
Proof.
  intros Hn Hi.
  destruct (gained_at C aware (fun t => In (sid, uid) (tb_sessions t)) (fun o => o = ONewSession sid uid (V tt))) with (l := l2) (t := t) (t' := t') as (n & o & Ho & ->); auto.
  - intros x. destruct (in_dec (fun a b : str * str => ltac:(repeat decide equality)) (sid, uid) (tb_sessions x)); auto.
  - intros; eapply session_new; eauto.
  - destruct (in_split _ _ (in_all _ _ Ho)) as (a & b & Hab). destruct (new_submits _ _ _ _ _ _ _ _ _ _ _ _ _ _ _ Hrun all_steps Hab) as (q & Hq & Hp).
    exists n, q. split; [eexists; exact Ho|auto].
Qed.
Theorem c175_same : st_clients (tb_store t') = st_clients (tb_store t) /\ st_users (tb_store t') = st_users (tb_store t) /\ tb_accounts t' = tb_accounts t.
Proof.
  clear Hrun Hs0. revert t Hs1. induction l2 as [|[n o] l IH]; intros x H; inversion H as [|? ? t1 ? ? Ho Ht]; subst; [auto|].
  apply app_step_same in Ho as (A & B & D). destruct (IH _ Ht) as (A' & B' & D'). rewrite A', B', D'. auto.
Qed.
End History.
(** If nobody was logged in at first: the user of the code logged in with the password. *)
Theorem c175_password C aware qs log t t' n q row : app_running E p hs qs log -> app_steps C aware t (map snd log) t' -> tb_sessions t = [] ->
  authorizes t log n q row -> exists sid, wb_cookie (snd q) = Some (ac_user row, sid) /\ logged_in t qs log (ac_user row) sid n.
Proof.
  intros Hr Hs He (_ & _ & u & r & c & _ & (sid & Hc & Hi) & Hu & _). exists sid. rewrite <- Hu. split; [exact Hc|]. exact (proj2 (p_session _ _ _ _ _ _ _ _ _ _ _ _ _ Hr Hs He Hi)).
Qed.
End WithEnv.
