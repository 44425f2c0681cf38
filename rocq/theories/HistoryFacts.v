(** Lemmas about histories: C52-C54. *)
From Coq Require Import String Ascii List NArith ZArith Bool Arith Lia.
From Verif Require Import Base BaseFacts Utf8 SpecCodec SpecKey Json Url Webtools Crypto Jwk Jws Jwt Prog ProgFacts Http OAuth SpecOAuth SpecHistory Example ExampleFacts OAuthFacts GrantFacts EndpointFacts RequestFacts AuthzFacts TokenFacts ResponseFacts IssueFacts IdTokenFacts.
Import ListNotations.
Open Scope N_scope.

Section WithEnv.
Variable E : env.
Hypothesis sha_bytes : forall b, bytes_ok (e_sha256 E b).

(** ** A successful exchange *)
Definition plain_call (o : obs) : Prop := match o with OSaveCode _ _ _ _ _ | ODeleteCode _ _ | OGetCode _ _ => False | _ => True end.
Lemma exchange_ok p hs r tr x : exec (token_endpoint E p hs r) tr (V x) -> rs_status x = 200 ->
  data_has r "grant_type" (lit "authorization_code") ->
  exists i c code uri v ac u a d now off t rest,
    tr = OFindClient i (V (Some c)) :: OGetCode code (V (Some ac)) :: ONow (V (now, off)) :: OFindUser (ac_user ac) (V (Some u)) ::
         OCreateAT c (OwnUser u) (ac_scopes ac) (V a) :: rest ++ [ODeleteCode code (V tt)] /\
    Forall plain_call rest /\ authenticates r i c /\ data_has r "code" code /\ data_has r "redirect_uri" uri /\ uri = ac_redirect ac /\
    In uri (cl_redirects c) /\ ac_client ac = cl_id c /\ ac_exp ac = Naive t /\ (now < t)%Z /\
    data_has r "code_verifier" v /\ pkce_ok (e_sha256 E) (ac_method ac) (ac_challenge ac) v /\
    json_body x d /\ lookup (lit "access_token") d = Some (PStr a).
Proof.
  intros H Hst Hgt. pose proof H as H0. apply token_exec in H as (y & Hy & Hx). destruct y as [y|[e|e]]; [| |discriminate].
  2:{ exfalso. symmetry in Hx. unfold token_error in Hx. apply json_response_V in Hx as (Hs & _); [congruence|apply dump_wf]. }
  injection Hx as <-. apply token_body_exec in Hy. inversion Hy as [| | |g i c tr' y' Hg Hd Ha Hm Hin Hex E1 E2]. subst tr.
  pose proof (grant_type_code _ (data_gt _ _ _ Hd Hgt)) as ->. destruct y' as [d|]; [|discriminate].
  pose proof Hex as Hdict. apply grant_dict in Hdict as (a0 & ow & sc0 & _ & Hw & _). cbn [grant_token] in Hex.
  apply json_response_V in E2 as (Hs & Hj & Hh); [|auto].
  apply code_token_exec in Hex as (t1 & y & Hx & [(_ & _ & He)|(code & z & Hcode & -> & He)]); [discriminate|].
  destruct z as [[]|]; [|discriminate]. subst y.
  apply exchange_issues in Hx as [[_ [e He]] | (code' & uri & v & ac & u & t2 & Hck & Hi)]; [discriminate|].
  destruct Hck as (Hc & _ & _ & _ & _ & now & off & t & -> & _).
  assert (code' = code) by (apply arg_Some in Hc as [Hc _]; unfold param in Hcode; congruence). subst code'.
  destruct Hi as [(e & _ & He) | (a & [(e & _ & He & _) | (rt & t3 & t4 & -> & Hrt & Hx)])]; try discriminate.
  pose proof (hooks_dict E _ _ a _ _ _ _ (create_token_dict a (cf_token_lifespan (pv_config p)) rt (ac_scopes ac)) Hx) as (_ & Hacc & _).
  assert (Hp : Forall plain_call (t3 ++ t4)).
  { apply Forall_app. split.
    - destruct (ins _ _); [subst t3; repeat constructor|destruct Hrt as [-> _]; constructor].
    - pose proof (calls_exec _ _ (token_hooks_calls E _ _ _ _) _ _ Hx) as Hk. eapply Forall_impl; [|exact Hk]. intros []; simpl; tauto. }
  match type of H0 with exec _ ?T _ => set (tr := T) in * end.
  assert (Hin' : In (OCreateAT c (OwnUser u) (ac_scopes ac) (V a)) tr) by (unfold tr; cbn [app]; do 4 right; left; auto).
  destruct (p_code_grant E p hs r tr _ _ sha_bytes H0 Hgt Hin' (or_introl eq_refl)) as
    (i' & c' & code' & uri' & v' & ac' & u' & now' & off' & t' & rest & Etr & Ha' & Hd1 & Hd2 & Hd3 & Hd4 & Hd5 & Hd6 & Hd7 & Hd8 & Hd9 & _).
  unfold tr in Etr. cbn [app] in Etr. injection Etr as <- <- <- <- <- <- _ <- <-.
  exists i, c, code, uri', v', ac, u, a, d, now, off, t', (t3 ++ t4).
  split; [unfold tr; cbn [app]; rewrite <- app_assoc; reflexivity|]. do 12 (split; [solve [auto]|]). auto.
Qed.

(** ** Which requests save and delete codes *)
Definition no_save (o : obs) : Prop := saves o = false.
Definition no_save_delete (o : obs) : Prop := saves o = false /\ deletes o = false.
Lemma token_no_save p hs r : calls no_save (token_endpoint E p hs r).
Proof.
  unfold token_endpoint. apply calls_pexcept; [|intros; exact I]. apply calls_pbind; [exact I|]. intros _. apply calls_pbind; [exact I|]. intros g.
  apply calls_pbind; [eapply calls_weaken; [|apply authenticate_calls]; intros o (i & z & ->); reflexivity|]. intros c'.
  destruct (negb _); [exact I|]. apply calls_pbind; [|intros; exact I].
  assert (Hh : forall l d c u, calls no_save (run_token_hooks E l d c u)).
  { intros l d c0 u. eapply calls_weaken; [|apply token_hooks_calls]. intros []; simpl; unfold no_save; simpl; tauto. }
  assert (Hn : forall o, is_now o -> no_save o) by (intros o (z & ->); reflexivity).
  destruct g; cbn [grant_token].
  - unfold code_token, pfinally. apply calls_ptry.
    + unfold code_exchange, maybe_refresh. calls_go; try reflexivity; try apply Hh; eapply calls_weaken; [exact Hn|apply vac_calls].
    + intros z. apply calls_ptry; [destruct (param "code" _); calls_go; reflexivity|]. intros []; exact I.
  - unfold cc_token. calls_go; reflexivity.
  - unfold refresh_grant, maybe_refresh. calls_go; try reflexivity; (eapply calls_weaken; [exact Hn|apply vrt_calls]).
Qed.
Lemma revocation_no_save r : calls no_save (revocation_endpoint r).
Proof.
  unfold revocation_endpoint. apply calls_pexcept; [|intros; calls_go; exact I].
  apply calls_pbind; [eapply calls_weaken; [|apply authenticate_calls]; intros o (i & z & ->); reflexivity|]. intros c.
  calls_go; reflexivity.
Qed.
Lemma consent_no_save p r : calls no_save (get_consent_data p r).
Proof. unfold get_consent_data, validate_client. calls_go; reflexivity. Qed.
Lemma served_saves q tr an o : served E q tr an -> In o tr -> saves o = true -> in_service q = Authorize.
Proof.
  unfold served. destruct (in_service q); [auto| | |]; intros (x & H & _) Hin Hs; exfalso.
  - pose proof (calls_exec _ _ (token_no_save _ _ _) _ _ H) as Hf. rewrite Forall_forall in Hf. apply Hf in Hin. unfold no_save in Hin. congruence.
  - pose proof (calls_exec _ _ (revocation_no_save _) _ _ H) as Hf. rewrite Forall_forall in Hf. apply Hf in Hin. unfold no_save in Hin. congruence.
  - pose proof (calls_exec _ _ (consent_no_save _ _) _ _ H) as Hf. rewrite Forall_forall in Hf. apply Hf in Hin. unfold no_save in Hin. congruence.
Qed.
Lemma saves_code_saves code o : saves_code code o = true -> saves o = true.
Proof. destruct o; simpl; try discriminate. auto. Qed.
Lemma exchanged_inv code q x : exchanged code q x = true ->
  in_service q = Token /\ exists y, x = Some y /\ rs_status y = 200 /\ data_has (in_request q) "grant_type" (lit "authorization_code") /\ data_has (in_request q) "code" code.
Proof.
  unfold exchanged, data_has. destruct (in_service q); try discriminate. destruct x as [y|]; [|discriminate].
  intros H. apply andb_true_iff in H as [H1 H2]. apply N.eqb_eq in H1. split; [auto|]. exists y. split; [auto|]. split; [auto|].
  destruct (lookup (lit "grant_type") _) as [g|]; [|discriminate]. destruct (lookup (lit "code") _) as [k|]; [|discriminate].
  apply andb_true_iff in H2 as [H2 H3]. apply eqs_true in H2, H3. subst. auto.
Qed.

(** ** Counting *)
(** Is the code stored, according to the calls so far? *)
Definition live_step (code : str) (b : bool) (o : obs) : bool := if saves_code code o then true else if deletes_code code o then false else b.
Definition live (code : str) (b : bool) (tr : list obs) : bool := fold_left (live_step code) tr b.
Definition b2n (b : bool) : nat := if b then 1%nat else 0%nat.
Lemma live_app code b t1 t2 : live code b (t1 ++ t2) = live code (live code b t1) t2.
Proof. apply fold_left_app. Qed.
Lemma count_app f t1 t2 : count f (t1 ++ t2) = (count f t1 + count f t2)%nat.
Proof. unfold count. rewrite filter_app, app_length. auto. Qed.
Lemma live_bound code tr : forall b, (b2n (live code b tr) <= b2n b + count (saves_code code) tr)%nat.
Proof.
  induction tr as [|o tr IH]; intros b; cbn [live fold_left]; [unfold count; simpl; lia|].
  specialize (IH (live_step code b o)). unfold live in IH. unfold count in *. cbn [filter]. unfold live_step in *.
  destruct (saves_code code o) eqn:Es; cbn [length b2n] in *; [lia|]. destruct (deletes_code code o); destruct b; cbn [b2n] in *; lia.
Qed.
Lemma live_still code b tr : (forall o, In o tr -> deletes_code code o = false) -> b = true -> live code b tr = true.
Proof.
  intros H ->. induction tr as [|o tr IH]; [auto|]. cbn [live fold_left]. unfold live_step at 2. rewrite (H o (or_introl eq_refl)).
  destruct (saves_code code o); apply IH; intros; apply H; right; auto.
Qed.
Lemma live_dead code tr : (forall o, In o tr -> saves_code code o = false) -> live code false tr = false.
Proof.
  induction tr as [|o tr IH]; intros H; [auto|]. cbn [live fold_left]. unfold live_step at 2. rewrite (H o (or_introl eq_refl)).
  destruct (deletes_code code o); apply IH; intros; apply H; right; auto.
Qed.
Lemma honours_live code ac t1 t2 : honours (t1 ++ OGetCode code (V (Some ac)) :: t2) -> live code false t1 = true.
Proof.
  intros H. destruct (H t1 code ac t2 eq_refl) as (a & ad & c & u & b & -> & _ & Hd).
  rewrite live_app. cbn [live fold_left]. apply live_still; [auto|]. unfold live_step. cbn [saves_code]. rewrite eqs_refl. auto.
Qed.

(** ** Single use *)
Definition ev_ok (e : event) : Prop := served E (ev_in e) (ev_calls e) (ev_answer e) \/ (stopped E (ev_in e) (ev_calls e) /\ ev_answer e = None).
Lemma exchange_calls code e : ev_ok e -> exchanged code (ev_in e) (ev_answer e) = true ->
  exists y p0 ac t1 rest, ev_answer e = Some y /\ ev_calls e = p0 :: OGetCode code (V (Some ac)) :: t1 ++ rest ++ [ODeleteCode code (V tt)] /\
    saves_code code p0 = false /\ deletes_code code p0 = false /\
    (forall o, In o (t1 ++ rest) -> saves_code code o = false).
Proof.
  intros He Hx. destruct (exchanged_inv _ _ _ Hx) as (Hs & y & Ey & Hst & Hg & Hc).
  destruct He as [He|[_ He]]; [|congruence]. unfold served in He. rewrite Hs, Ey in He. destruct He as (x & He & Ex). destruct x as [x|]; [|discriminate]. injection Ex as <-.
  pose proof (calls_exec _ _ (token_no_save _ _ _) _ _ He) as Hns. rewrite Forall_forall in Hns.
  destruct (exchange_ok _ _ _ _ _ He Hst Hg) as (i & c & code' & uri & v & ac & u & a & d & now & off & t & rest & Etr & _ & _ & Hc' & _).
  unfold data_has in Hc, Hc'. assert (code' = code) by congruence. subst code'.
  exists y, (OFindClient i (V (Some c))), ac, [ONow (V (now, off)); OFindUser (ac_user ac) (V (Some u)); OCreateAT c (OwnUser u) (ac_scopes ac) (V a)], rest.
  split; [auto|]. split; [exact Etr|]. split; [auto|]. split; [auto|].
  intros o Ho. destruct (saves_code code o) eqn:Es; [|auto]. apply saves_code_saves in Es. exfalso.
  specialize (Hns o). unfold no_save in Hns. rewrite Hns in Es; [discriminate|]. rewrite Etr. cbn [app] in Ho.
  destruct Ho as [Ho|[Ho|[Ho|Ho]]]; cbn [In]; auto 10. do 5 right. apply in_app_iff. auto.
Qed.
Lemma single_use_aux code l : forall pre suf, Forall ev_ok l -> honours (pre ++ all_calls l ++ suf) ->
  (exchanges code l + b2n (live code false (pre ++ all_calls l)) <= b2n (live code false pre) + count (saves_code code) (all_calls l))%nat.
Proof.
  induction l as [|e l IH]; intros pre suf Hok Hh.
  - unfold exchanges, count, all_calls. simpl. rewrite app_nil_r. lia.
  - inversion Hok as [|e' l' He Hl]; subst. unfold all_calls in *. cbn [flat_map] in *.
    specialize (IH (pre ++ ev_calls e) suf Hl). rewrite <- app_assoc in IH. rewrite <- app_assoc in Hh. specialize (IH Hh). rewrite <- app_assoc in IH.
    rewrite count_app. unfold exchanges in *. cbn [filter].
    destruct (exchanged code (ev_in e) (ev_answer e)) eqn:Ex; cbn [length].
    + destruct (exchange_calls code e He Ex) as (y & p0 & ac & t1 & rest & _ & Etr & Hp1 & Hp2 & Hns).
      assert (Hpre : live code false pre = true).
      { rewrite Etr in Hh. cbn [app] in Hh.
        assert (Hl1 : live code false (pre ++ [p0]) = true). { eapply honours_live. rewrite <- app_assoc. cbn [app]. exact Hh. }
        rewrite live_app in Hl1. cbn [live fold_left] in Hl1. unfold live_step in Hl1. rewrite Hp1, Hp2 in Hl1. exact Hl1. }
      assert (Hpost : live code false (pre ++ ev_calls e) = false).
      { rewrite Etr. change (p0 :: OGetCode code (V (Some ac)) :: t1 ++ rest ++ [ODeleteCode code (V tt)]) with ([p0; OGetCode code (V (Some ac))] ++ t1 ++ rest ++ [ODeleteCode code (V tt)]).
        rewrite !app_assoc, live_app. cbn [live fold_left]. unfold live_step. cbn [saves_code deletes_code]. rewrite eqs_refl. auto. }
      rewrite Hpre. rewrite Hpost in IH. cbn [b2n] in *. lia.
    + pose proof (live_bound code (ev_calls e) (live code false pre)) as Hb. rewrite <- live_app in Hb. lia.
Qed.
Lemma p_single_use l code : with_crashes E l -> honours (all_calls l) -> (exchanges code l <= count (saves_code code) (all_calls l))%nat.
Proof.
  intros Hok Hh. pose proof (single_use_aux code l [] [] Hok) as H. cbn [app] in H. rewrite app_nil_r in H. specialize (H Hh). cbn [live fold_left b2n] in H. lia.
Qed.
Lemma p_single_use_fresh l code : with_crashes E l -> honours (all_calls l) -> fresh code (all_calls l) -> (exchanges code l <= 1)%nat.
Proof. intros H1 H2 H3. pose proof (p_single_use l code H1 H2). unfold fresh in H3. lia. Qed.
Lemma sequential_crashes l : sequential E l -> with_crashes E l.
Proof. apply Forall_impl. auto. Qed.
Lemma p_single_use_seq l code : sequential E l -> honours (all_calls l) -> fresh code (all_calls l) -> (exchanges code l <= 1)%nat.
Proof. intros H. apply p_single_use_fresh, sequential_crashes. auto. Qed.

(** ** Provenance *)
Lemma provenance_one code q tr x q0 tr0 a0 ad c0 u0 ac : served E q tr (Some x) -> exchanged code q (Some x) = true ->
  In (OGetCode code (V (Some ac))) tr -> holds ac ad c0 u0 -> stopped E q0 tr0 \/ served E q0 tr0 a0 -> In (OSaveCode code ad c0 u0 (V tt)) tr0 ->
  comes_from E code q0 tr0 q tr x.
Proof.
  intros Hq Hx Hget Hh Hq0 Hsave.
  assert (Hfull : exists t' a, served E q0 (tr0 ++ t') a /\ (t' = [] \/ True)).
  { destruct Hq0 as [(t' & a & H)|H]; [eauto|]. exists [], a0. rewrite app_nil_r. auto. }
  destruct Hfull as (t' & a0' & Hs0 & _).
  assert (Hsv : in_service q0 = Authorize) by (eapply served_saves; [exact Hs0|apply in_app_iff; left; exact Hsave|reflexivity]).
  split; [exact Hsv|].
  destruct (exchanged_inv _ _ _ Hx) as (Hs & y & Ey & Hst & Hg & Hc). injection Ey as <-.
  unfold served in Hq. rewrite Hs in Hq. destruct Hq as (z & Hq & Ez). destruct z as [z|]; [|discriminate]. injection Ez as <-.
  destruct (exchange_ok _ _ _ _ _ Hq Hst Hg) as (i & c & code' & uri & v & ac' & u & a & d & now & off & t & rest & Etr & Hplain & Hau & Hc' & Huri & Hueq & Hreg & Hcl & _ & _ & Hv & Hpk & Hj & Hacc).
  unfold data_has in Hc, Hc'. assert (code' = code) by congruence. subst code'.
  assert (ac' = ac).
  { rewrite Etr in Hget. destruct Hget as [H|[H|[H|[H|[H|H]]]]]; try discriminate; [injection H as ->; auto|].
    apply in_app_iff in H as [H|[H|[]]]; [|discriminate]. rewrite Forall_forall in Hplain. destruct (Hplain _ H). }
  subst ac'. destruct Hh as (H1 & H2 & H3 & H4 & H5 & H6).
  unfold served in Hs0. rewrite Hsv in Hs0. destruct Hs0 as (x0 & Hs0 & _).
  assert (Hin : In (OSaveCode code ad c0 u0 (V tt)) (tr0 ++ t')) by (apply in_app_iff; auto).
  destruct (p_code_saved _ _ _ _ _ _ _ _ _ _ _ Hs0 Hin) as (cid & uri0 & Etr0 & Hu0 & Hcid & Huri0 & _ & Had & _ & _).
  destruct (p_saved_scopes _ _ _ _ _ _ _ _ _ _ _ Hs0 Hin) as [Hsc _].
  destruct (p_saved_challenge _ _ _ _ _ _ _ _ _ _ _ Hs0 Hin) as (Hch & _ & Hme & _).
  exists ad, c0, u0, i, c, u, uri, v, a, d. split; [auto|]. split; [auto|].
  split. { exists cid. split; [auto|]. destruct tr0 as [|o tr0]; [destruct Hsave|]. cbn [app] in Etr0. injection Etr0 as -> _. left. auto. }
  split. { unfold data_has in *. congruence. }
  split; [auto|]. split; [auto|]. split; [auto|]. split; [auto|]. split; [congruence|]. split; [auto|]. split; [auto|].
  split. { rewrite <- H5, <- H6. auto. }
  rewrite Etr, <- H2, <- H4. split; [do 3 right; left; auto|]. split; [do 4 right; left; auto|]. auto.
Qed.
Lemma in_flat_split {A B} (f : A -> list B) l : forall t1 b t2, flat_map f l = t1 ++ b :: t2 -> exists l1 a l2 u1 u2, l = l1 ++ a :: l2 /\ f a = u1 ++ b :: u2 /\ t1 = flat_map f l1 ++ u1.
Proof.
  induction l as [|a l IH]; intros t1 b t2 H; [destruct t1; discriminate|]. cbn [flat_map] in H.
  revert H. remember (f a) as fa eqn:Efa. revert t1. 
  assert (Hcase : forall fa t1, fa ++ flat_map f l = t1 ++ b :: t2 -> (exists u2, fa = t1 ++ b :: u2) \/ exists u1, t1 = fa ++ u1 /\ flat_map f l = u1 ++ b :: t2).
  { clear. induction fa as [|x fa IHf]; intros t1 H; [right; exists t1; auto|]. destruct t1 as [|y t1]; cbn [app] in H.
    - injection H as -> H. left. exists fa. auto.
    - injection H as -> H. destruct (IHf _ H) as [(u2 & ->)|(u1 & -> & Hu)]; [left; exists u2; auto|right; exists u1; auto]. }
  intros t1 H. destruct (Hcase _ _ H) as [(u2 & Hf)|(u1 & -> & Hu)].
  - exists [], a, l, t1, u2. rewrite <- Efa. auto.
  - destruct (IH _ _ _ Hu) as (l1 & a' & l2 & v1 & v2 & -> & Hf & ->). exists (a :: l1), a', l2, v1, v2. split; [auto|]. split; [auto|].
    cbn [flat_map]. rewrite Efa, app_assoc. auto.
Qed.
Lemma p_provenance l1 e l2 code x : with_crashes E (l1 ++ e :: l2) -> honours (all_calls (l1 ++ e :: l2)) ->
  ev_answer e = Some x -> exchanged code (ev_in e) (Some x) = true ->
  exists e0, In e0 l1 /\ comes_from E code (ev_in e0) (ev_calls e0) (ev_in e) (ev_calls e) x.
Proof.
  intros Hok Hh Ea Hx. apply Forall_app in Hok as [Hok1 Hok2]. inversion Hok2 as [|? ? He _]; subst.
  pose proof He as He'. destruct He' as [He'|[_ He']]; [|congruence]. rewrite Ea in He'.
  rewrite <- Ea in Hx. destruct (exchange_calls code e He Hx) as (y & p0 & ac & t1 & rest & _ & Etr & Hp1 & Hp2 & Hns). rewrite Ea in Hx.
  unfold all_calls in Hh. rewrite flat_map_app in Hh. cbn [flat_map] in Hh.
  destruct (Hh (flat_map ev_calls l1 ++ [p0]) code ac (t1 ++ rest ++ [ODeleteCode code (V tt)] ++ flat_map ev_calls l2)) as (a & ad & c & u & b & Esplit & Hho & _).
  { rewrite Etr. cbn [app]. rewrite <- !app_assoc. cbn [app]. repeat rewrite <- app_assoc. reflexivity. }
  assert (Hsplit : exists b', flat_map ev_calls l1 = a ++ OSaveCode code ad c u (V tt) :: b').
  { destruct (exists_last (l := OSaveCode code ad c u (V tt) :: b)) as (b' & z & Eb); [discriminate|]. rewrite Eb, app_assoc in Esplit.
    apply app_inj_tail in Esplit as [Esplit <-]. destruct b' as [|s b']; [cbn [app] in Eb; injection Eb as Eb _; subst p0; cbn [saves_code] in Hp1; rewrite eqs_refl in Hp1; discriminate|].
    cbn [app] in Eb. injection Eb as <- Eb. exists b'. auto. }
  destruct Hsplit as (b' & Hsplit). destruct (in_flat_split _ _ _ _ _ Hsplit) as (m1 & e0 & m2 & u1 & u2 & -> & Hf & _).
  exists e0. split; [apply in_app_iff; right; left; auto|].
  apply Forall_app in Hok1 as [_ Hok1]. inversion Hok1 as [|? ? He0 _]; subst.
  eapply provenance_one with (a0 := ev_answer e0) (ac := ac).
  - exact He'.
  - exact Hx.
  - rewrite Etr. right. left. auto.
  - exact Hho.
  - destruct He0 as [He0|[He0 _]]; auto.
  - rewrite Hf. apply in_app_iff. right. left. auto.
Qed.
End WithEnv.

(** ** Interleavings *)
Section Interleaved.
Variable E : env.
Hypothesis sha_bytes : forall b, bytes_ok (e_sha256 E b).
Lemma calls_of_In n o (log : list (nat * obs)) : In o (calls_of n log) <-> In (n, o) log.
Proof.
  unfold calls_of. rewrite in_map_iff. split.
  - intros ((m & o') & <- & H). apply filter_In in H as [H1 H2]. cbn [fst snd] in *. apply Nat.eqb_eq in H2. subst. auto.
  - intros H. exists (n, o). split; [auto|]. apply filter_In. split; [auto|]. apply Nat.eqb_refl.
Qed.
Lemma map_split {A B} (f : A -> B) l : forall a b c, map f l = a ++ b :: c -> exists l1 x l2, l = l1 ++ x :: l2 /\ map f l1 = a /\ f x = b /\ map f l2 = c.
Proof.
  induction l as [|y l IH]; intros a b c H; [destruct a; discriminate|]. destruct a as [|z a]; cbn [map app] in H.
  - injection H as <- <-. exists [], y, l. auto.
  - injection H as <- H. destruct (IH _ _ _ H) as (l1 & x & l2 & -> & <- & <- & <-). exists (y :: l1), x, l2. auto.
Qed.
Lemma exchange_get q tr code x : served E q tr (Some x) -> exchanged code q (Some x) = true -> exists ac, In (OGetCode code (V (Some ac))) tr.
Proof.
  intros Hs Hx. destruct (exchange_calls E sha_bytes code {| ev_in := q; ev_calls := tr; ev_answer := Some x |} (or_introl Hs) Hx)
    as (y & p0 & ac & t1 & rest & _ & Etr & _). cbn [ev_calls] in Etr. exists ac. rewrite Etr. right. left. auto.
Qed.
Lemma honours_at (log l1 : list (nat * obs)) n code ac l2 : honours (map snd log) -> log = l1 ++ (n, OGetCode code (V (Some ac))) :: l2 ->
  exists m ad c u k1 k2, l1 = k1 ++ (m, OSaveCode code ad c u (V tt)) :: k2 /\ holds ac ad c u /\ (forall i, ~ In (i, ODeleteCode code (V tt)) k2).
Proof.
  intros Hh ->. rewrite map_app in Hh. cbn [map snd] in Hh. destruct (Hh _ code ac _ eq_refl) as (a & ad & c & u & b & Em & Hho & Hd).
  apply map_split in Em as (k1 & [m o] & k2 & -> & _ & Ho & Hb). cbn [snd] in Ho. subst o. exists m, ad, c, u, k1, k2. split; [auto|]. split; [auto|].
  intros i Hin. specialize (Hd (ODeleteCode code (V tt))). cbn [deletes_code] in Hd. rewrite eqs_refl in Hd. rewrite <- Hb in Hd.
  discriminate Hd. change (ODeleteCode code (V tt)) with (snd (i, ODeleteCode code (V tt))). apply in_map. auto.
Qed.
Lemma p_interleaved_provenance qs log n q x code : interleaved E qs log -> honours (map snd log) ->
  nth_error qs n = Some (q, Some x) -> exchanged code q (Some x) = true ->
  exists m q0 a0, nth_error qs m = Some (q0, a0) /\ comes_from E code q0 (calls_of m log) q (calls_of n log) x.
Proof.
  intros [Hid Hs] Hh Hn Hx. pose proof (Hs _ _ _ Hn) as Hq. destruct (exchange_get _ _ _ _ Hq Hx) as (ac & Hg). pose proof Hg as Hg'.
  apply calls_of_In in Hg'. apply in_split in Hg' as (l1 & l2 & El).
  destruct (honours_at _ _ _ _ _ _ Hh El) as (m & ad & c & u & k1 & k2 & -> & Hho & _).
  assert (Hm : In (m, OSaveCode code ad c u (V tt)) log). { rewrite El, <- app_assoc. apply in_app_iff. right. left. auto. }
  destruct (Hid _ _ Hm) as [[q0 a0] Hq0]. exists m, q0, a0. split; [auto|].
  eapply provenance_one with (ac := ac) (a0 := a0); eauto. apply calls_of_In. auto.
Qed.
(** Once a request has found the code, another one finds it only after the first has deleted it. *)
Definition exclusive (code : str) (log : list (nat * obs)) : Prop :=
  forall i j a ac b ac' c, i <> j -> log = a ++ (i, OGetCode code (V (Some ac))) :: b ++ (j, OGetCode code (V (Some ac'))) :: c ->
    In (i, ODeleteCode code (V tt)) b.
Lemma later_In {A} (X : list A) : forall d Y a s b, X ++ d :: Y = a ++ s :: b -> s <> d -> ~ In d b -> In s Y.
Proof.
  induction X as [|x X IH]; intros d Y a s b H Hn Hb.
  - destruct a as [|z a]; cbn [app] in H; [injection H as -> _; congruence|]. injection H as _ ->. apply in_app_iff. right. left. auto.
  - destruct a as [|z a]; cbn [app] in H.
    + injection H as _ <-. exfalso. apply Hb. apply in_app_iff. right. left. auto.
    + injection H as _ H. eapply IH; eauto.
Qed.
Lemma count_In f (l : list obs) o : In o l -> f o = true -> (1 <= count f l)%nat.
Proof. intros H Hf. unfold count. destruct (filter f l) eqn:Ef; [|simpl; lia]. exfalso. assert (Hi : In o (filter f l)) by (apply filter_In; auto). rewrite Ef in Hi. destruct Hi. Qed.
Lemma exclusive_two code (log : list (nat * obs)) i j l1 ac b ac' c : exclusive code log -> honours (map snd log) -> fresh code (map snd log) -> i <> j ->
  log = l1 ++ (i, OGetCode code (V (Some ac))) :: b ++ (j, OGetCode code (V (Some ac'))) :: c -> False.
Proof.
  intros He Hh Hf Hij El. pose proof (He _ _ _ _ _ _ _ Hij El) as Hd. apply in_split in Hd as (b1 & b3 & ->).
  destruct (honours_at _ _ _ _ _ _ Hh El) as (m & ad & cl & u & k1 & k2 & E1 & _ & _).
  assert (El2 : log = (l1 ++ (i, OGetCode code (V (Some ac))) :: b1 ++ (i, ODeleteCode code (V tt)) :: b3) ++ (j, OGetCode code (V (Some ac'))) :: c).
  { rewrite El. repeat (rewrite <- app_assoc; cbn [app]). reflexivity. }
  destruct (honours_at _ _ _ _ _ _ Hh El2) as (m' & ad' & cl' & u' & k1' & k2' & E2 & _ & Hnd).
  assert (Hin : In (m', OSaveCode code ad' cl' u' (V tt)) b3).
  { apply (later_In (l1 ++ (i, OGetCode code (V (Some ac))) :: b1) (i, ODeleteCode code (V tt)) b3 k1' _ k2'); [|discriminate|auto].
    rewrite <- app_assoc. exact E2. }
  assert (H1 : (1 <= count (saves_code code) (map snd l1))%nat).
  { apply (count_In _ _ (OSaveCode code ad cl u (V tt))); [|cbn [saves_code]; apply eqs_refl]. rewrite E1, map_app. apply in_app_iff. right. left. auto. }
  assert (H2 : (1 <= count (saves_code code) (map snd b3))%nat).
  { apply (count_In _ _ (OSaveCode code ad' cl' u' (V tt))); [|cbn [saves_code]; apply eqs_refl].
    change (OSaveCode code ad' cl' u' (V tt)) with (snd (m', OSaveCode code ad' cl' u' (V tt))). apply in_map. auto. }
  assert (Hc : forall x l, (count (saves_code code) l <= count (saves_code code) (x :: l))%nat).
  { intros x l. unfold count. cbn [filter]. destruct (saves_code code x); cbn [length]; lia. }
  unfold fresh in Hf. rewrite El2 in Hf. rewrite !map_app in Hf. cbn [map snd] in Hf. rewrite !map_app in Hf. cbn [map snd] in Hf. rewrite !count_app in Hf.
  pose proof (Hc (OGetCode code (V (Some ac))) (map snd b1 ++ ODeleteCode code (V tt) :: map snd b3)) as Hc1.
  pose proof (Hc (ODeleteCode code (V tt)) (map snd b3)) as Hc2. rewrite count_app in Hc1. lia.
Qed.
Lemma p_interleaved_exclusive qs log code i j qi xi qj xj : interleaved E qs log -> honours (map snd log) -> fresh code (map snd log) -> exclusive code log ->
  nth_error qs i = Some (qi, Some xi) -> exchanged code qi (Some xi) = true ->
  nth_error qs j = Some (qj, Some xj) -> exchanged code qj (Some xj) = true -> i = j.
Proof.
  intros [Hid Hs] Hh Hf He Hi Hxi Hj Hxj. destruct (Nat.eq_dec i j) as [|Hij]; [auto|]. exfalso.
  destruct (exchange_get _ _ _ _ (Hs _ _ _ Hi) Hxi) as (aci & Hgi). destruct (exchange_get _ _ _ _ (Hs _ _ _ Hj) Hxj) as (acj & Hgj).
  apply calls_of_In in Hgi, Hgj. apply in_split in Hgi as (l1 & l2 & El). rewrite El in Hgj. apply in_app_iff in Hgj as [Hg|[Hg|Hg]].
  - apply in_split in Hg as (a & b & ->). rewrite <- app_assoc in El. cbn [app] in El. apply (exclusive_two code log j i a acj b aci l2); auto.
  - injection Hg as ->. congruence.
  - apply in_split in Hg as (b & c & ->). apply (exclusive_two code log i j l1 aci b acj c); auto.
Qed.
End Interleaved.

(** ** The example adapter keeps the contract. *)
Lemma lookup_dremove_same {A} k (d : list (str * A)) : lookup k (dremove k d) = None.
Proof.
  unfold dremove. induction d as [|[k' v] d IH]; [reflexivity|]. cbn [filter fst]. destruct (eqs_spec k k') as [->|Hne]; cbn [negb]; [auto|].
  cbn [lookup]. destruct (eqs_spec k k'); [congruence|auto].
Qed.
Definition kept (tr : list obs) (s : store) : Prop := forall code ac, lookup code (st_codes s) = Some ac ->
  exists a ad c u b, tr = a ++ OSaveCode code ad c u (V tt) :: b /\ holds ac ad c u /\ forall o, In o b -> deletes_code code o = false.
Lemma kept_weaken tr s s' o : kept tr s -> (forall code ac, lookup code (st_codes s') = Some ac -> lookup code (st_codes s) = Some ac /\ deletes_code code o = false) -> kept (tr ++ [o]) s'.
Proof.
  intros Hk H code ac Hl. apply H in Hl as [Hl Hd]. destruct (Hk _ _ Hl) as (a & ad & c & u & b & -> & Hh & Hb).
  exists a, ad, c, u, (b ++ [o]). rewrite <- app_assoc. split; [auto|]. split; [auto|]. intros o' Ho. apply in_app_iff in Ho as [Ho|[<-|[]]]; auto.
Qed.
Lemma kept_step C aware s o s' tr : ex_step C aware s o s' -> kept tr s -> kept (tr ++ [o]) s'.
Proof.
  intros Hs Hk. destruct Hs as [ch T e s | T e x s].
  - destruct e; cbn [ex_do fst snd observe]; try (eapply kept_weaken; [exact Hk|auto; fail]).
    + destruct (ad_nonce data) as [n|]; [|cbn [fst snd]; eapply kept_weaken; [exact Hk|auto]].
      destruct (has code (st_codes s)) eqn:Eh; cbn [fst snd]; [eapply kept_weaken; [exact Hk|auto]|].
      intros code' ac Hl. cbn [st_codes set_codes lookup] in Hl. destruct (eqs_spec code' code) as [->|Hne].
      * injection Hl as <-. exists tr, data, c, u, []. split; [auto|]. split; [unfold holds; simpl; auto 10|]. intros o [].
      * destruct (Hk _ _ Hl) as (a & ad & c0 & u0 & b & -> & Hh & Hb). exists a, ad, c0, u0, (b ++ [OSaveCode code data c u (V tt)]).
        rewrite <- app_assoc. split; [auto|]. split; [auto|]. intros o Ho. apply in_app_iff in Ho as [Ho|[<-|[]]]; auto.
    + eapply kept_weaken; [exact Hk|]. intros code' ac Hl. cbn [st_codes set_codes] in Hl. cbn [deletes_code].
      destruct (eqs_spec code code') as [->|Hne]; [|rewrite lookup_dremove_other in Hl by auto; auto].
      exfalso. revert Hl. clear. generalize (st_codes s). intros l. rewrite lookup_dremove_same. discriminate.
    + destruct (owner_id o) as [u|]; cbn [fst snd]; [|eapply kept_weaken; [exact Hk|auto]].
      destruct (find _ (st_rts s)) as [[t ?]|]; cbn [fst snd]; [eapply kept_weaken; [exact Hk|auto]|].
      destruct (has (ch_token ch) (st_rts s)); cbn [fst snd]; (eapply kept_weaken; [exact Hk|auto]).
  - eapply kept_weaken; [exact Hk|]. intros code ac Hl. split; [auto|]. destruct e; reflexivity.
Qed.
Lemma ex_honours_aux C aware : forall tr s s' pre, ex_steps C aware s tr s' -> kept pre s -> honours pre -> honours (pre ++ tr).
Proof.
  induction tr as [|o tr IH]; intros s s' pre Hs Hk Hh; [rewrite app_nil_r; auto|]. inversion Hs as [|? ? s1 ? ? Ho Ht]; subst.
  replace (pre ++ o :: tr) with ((pre ++ [o]) ++ tr) by (rewrite <- app_assoc; auto).
  eapply IH; [exact Ht|eapply kept_step; eauto|].
  intros t1 code ac t2 E. destruct (exists_last (l := OGetCode code (V (Some ac)) :: t2)) as (t3 & z & Ez); [discriminate|].
  rewrite Ez, app_assoc in E. apply app_inj_tail in E as [E <-]. destruct t3 as [|g t3]; cbn [app] in Ez.
  - injection Ez as <- _. rewrite app_nil_r in E. subst t1.
    assert (Hl : lookup code (st_codes s) = Some ac).
    { clear - Ho. remember (OGetCode code (V (Some ac))) as o eqn:Eo. destruct Ho as [ch T e s|T e x s].
      - destruct e; cbn [ex_do fst snd observe] in Eo; try discriminate.
        injection Eo as -> Hl. auto.
      - destruct e; discriminate. }
    destruct (Hk _ _ Hl) as (a & ad & c & u & b & -> & Hh' & Hb). exists a, ad, c, u, b. auto.
  - injection Ez as <- Ez. eapply Hh. exact E.
Qed.
Lemma p_example_honours C aware s tr s' : ex_steps C aware s tr s' -> st_codes s = [] -> honours tr.
Proof.
  intros Hs He. change tr with ([] ++ tr). eapply ex_honours_aux; [exact Hs| |].
  - intros code ac Hl. rewrite He in Hl. discriminate.
  - intros t1 code ac t2 E. destruct t1; discriminate.
Qed.
Lemma p_provenance_seq E : (forall b, bytes_ok (e_sha256 E b)) -> forall l1 e l2 code x, sequential E (l1 ++ e :: l2) -> honours (all_calls (l1 ++ e :: l2)) ->
  ev_answer e = Some x -> exchanged code (ev_in e) (Some x) = true ->
  exists e0, In e0 l1 /\ comes_from E code (ev_in e0) (ev_calls e0) (ev_in e) (ev_calls e) x.
Proof. intros Hs l1 e l2 code x H. apply p_provenance; [exact Hs|]. apply sequential_crashes. exact H. Qed.
