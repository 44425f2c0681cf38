(** Whose tokens answers hand out: lemmas for C183. *)
From Coq Require Import String Ascii List NArith ZArith Bool Arith.
From Verif Require Import Base BaseFacts SpecReaders ReaderFacts Json JsonFacts Utf8 Webtools Crypto Jwk Prog ProgFacts Http OAuth SpecOAuth OAuthFacts EndpointFacts GrantFacts TokenFacts IssueFacts ResponseFacts DescFacts Example ExampleFacts App SpecApp AppFacts SpecKeep SpecWho SpecHistory LifeFacts JwsFacts StoreFacts KeepFacts WhoFacts AvailFacts LastFacts HandFacts SpecOwner.
Import ListNotations.
Open Scope N_scope.

(** The owner that a grant makes tokens for, from the calls *)
Definition owned (g : grant) (data : params) (c : client) (tr : list obs) (ow : owner) : Prop :=
  (g = GCode /\ exists x ac u, arg "code" data = Some x /\ In (OGetCode x (V (Some ac))) tr /\ ac_client ac = cl_id c /\ In (OFindUser (ac_user ac) (V (Some u))) tr /\ ow = OwnUser u) \/
  (g = GRefresh /\ exists x rt ou, arg "refresh_token" data = Some x /\ In (OGetRT x (V (Some rt))) tr /\ rt_client rt = cl_id c /\ In (OFindUser (rt_user rt) (V ou)) tr /\ ow = owner_of ou) \/
  (g = GClientCredentials /\ ow = OwnClient c).
Lemma created_at a n rt sc v : lookup (lit "access_token") (create_token a n rt sc) = Some v -> v = PStr a.
Proof. unfold create_token. intros H. destruct rt, sc; injection H as <-; reflexivity. Qed.
Lemma grant_owner E cfg hs g data c tr d : exec (grant_token E cfg hs g data c) tr (V d) -> exists ow sc, owned g data c tr ow /\
  (forall v, lookup (lit "access_token") d = Some v -> exists a, v = PStr a /\ In (OCreateAT c ow sc (V a)) tr) /\
  (forall v, lookup (lit "refresh_token") d = Some v -> g <> GClientCredentials /\ exists k, v = PStr k /\ In (OCreateRT c ow sc (V (Some k))) tr).
Proof.
  intros H. destruct g; cbn [grant_token] in H.
  - apply code_token_exec in H as (t1 & y & Hx & [(_ & _ & He)|(code & z & _ & -> & He)]); [discriminate|].
    destruct z as [[]|]; [|discriminate]. subst y.
    apply exchange_issues in Hx as [[_ [e He]] | (code' & uri & v' & ac & u & t2 & Hck & Hi)]; [discriminate|].
    destruct Hck as (Hc & _ & _ & Hb & _ & now & off & t & -> & _).
    destruct Hi as [(e & _ & He) | (a & [(e & _ & He & _) | (rt & t3 & t4 & -> & Ht & Hx)])]; try discriminate.
    exists (OwnUser u), (ac_scopes ac). split; [|split].
    + left. split; [reflexivity|]. exists code', ac, u. destruct Hb as (_ & Hb & _). split; [exact Hc|]. split; [left; reflexivity|]. split; [congruence|]. split; [right; right; left; reflexivity|reflexivity].
    + intros v Hv. apply (hooks_others E (lit "access_token")) in Hx as Hl; [|discriminate]. rewrite Hl in Hv. apply created_at in Hv as ->. exists a. split; [reflexivity|]. simpl. auto 10.
    + intros v Hv. split; [discriminate|]. apply (hooks_others E (lit "refresh_token")) in Hx as Hl; [|discriminate]. rewrite Hl in Hv. apply created_rt in Hv as (k & -> & ->).
      destruct (ins _ _); [subst t3|destruct Ht; discriminate]. exists k. split; [reflexivity|]. simpl. auto 10.
  - apply cc_exec in H as [[_ [d' H]]|(_ & [a|e] & -> & H)]; try discriminate. injection H as ->. eexists (OwnClient c), _. split; [right; right; auto|]. split.
    + intros v Hv. apply created_at in Hv as ->. exists a. split; [reflexivity|left; reflexivity].
    + intros v Hv. apply created_rt in Hv as (k & _ & H). discriminate.
  - apply refresh_exec in H as [[_ [e He]] | (token & t & sc & ou & t2 & (Hc & Hb & _ & now & off & dd & -> & _) & Hs)]; [discriminate|].
    destruct Hs as [(e & _ & He) | (a & [(e & _ & He & _) | (rt & t3 & -> & Ht & Hx)])]; try discriminate. injection Hx as ->.
    eexists (owner_of ou), _. split; [|split].
    + right. left. split; [reflexivity|]. exists token, t, ou. split; [exact Hc|]. split; [left; reflexivity|]. split; [exact Hb|]. split; [right; right; left; reflexivity|reflexivity].
    + intros v Hv. apply created_at in Hv as ->. exists a. split; [reflexivity|]. simpl. eauto 10.
    + intros v Hv. split; [discriminate|]. apply created_rt in Hv as (k & -> & ->). destruct (ins _ _); [subst t3|destruct Ht; discriminate].
      exists k. split; [reflexivity|]. simpl. auto 10.
Qed.

Section WithEnv.
Variable E : env.
Variable p : provider.
Variable hs : hooks.
Lemma token_owner r tr z d k0 v0 : exec (token_endpoint E p hs r) tr (V z) -> json_body z d -> (k0 = lit "access_token" \/ k0 = lit "refresh_token") -> lookup k0 d = Some v0 ->
  exists g i c ow sc, data_has r "grant_type" (grant_type g) /\ authenticates r i c /\ In (OFindClient i (V (Some c))) tr /\ owned g (rq_data r) c tr ow /\
  (forall v, lookup (lit "access_token") d = Some v -> exists a, v = PStr a /\ In (OCreateAT c ow sc (V a)) tr) /\
  (forall v, lookup (lit "refresh_token") d = Some v -> g <> GClientCredentials /\ exists k, v = PStr k /\ In (OCreateRT c ow sc (V (Some k))) tr).
Proof.
  intros H Hj Hk0 Hv0. apply token_exec in H as (y & Hy & Hx). destruct y as [y|[e|e]]; [| |discriminate].
  - injection Hx as <-. apply token_body_exec in Hy. inversion Hy as [| | |g i c tr' y' Hg Hgt Ha Hm Hin Hex E1 E2]. subst tr.
    destruct y' as [d'|]; [|discriminate]. pose proof (grant_dict _ _ _ _ _ _ _ _ Hex) as (a0 & ow0 & sc0 & _ & Hw & _).
    apply json_response_V in E2 as (_ & Hj' & _); [|auto]. rewrite <- (json_same _ _ _ Hj Hj') in *.
    destruct (grant_owner _ _ _ _ _ _ _ _ Hex) as (ow & sc & How & G1 & G2). exists g, i, c, ow, sc. split; [exact Hgt|]. split; [exact Ha|]. split; [left; reflexivity|]. split; [|split].
    + destruct How as [(-> & x & ac & u & A1 & A2 & A3 & A4 & A5)|[(-> & x & rt & ou & A1 & A2 & A3 & A4 & A5)|[-> ->]]]; [left|right; left|right; right; auto]; (split; [reflexivity|]);
        rewrite arg_dremove in A1 by discriminate; [exists x, ac, u|exists x, rt, ou]; (split; [exact A1|]); (split; [right; exact A2|]); (split; [exact A3|]); (split; [right; exact A4|exact A5]).
    + intros v Hv. destruct (G1 _ Hv) as (a & -> & Hi). exists a. split; [reflexivity|right; exact Hi].
    + intros v Hv. destruct (G2 _ Hv) as (Hn & k & -> & Hi). split; [exact Hn|]. exists k. split; [reflexivity|right; exact Hi].
  - exfalso. symmetry in Hx. unfold token_error in Hx. apply json_response_V in Hx as (_ & Hj' & _); [|apply dump_wf]. rewrite (json_same _ _ _ Hj Hj') in Hv0. destruct (dump_access e) as [D1 D2].
    destruct Hk0 as [-> | ->]; congruence.
Qed.
Lemma page_owner w tr z d k0 v0 : aexec (application E p hs TokenPage w) tr (V (RResponse z)) -> json_body z d -> (k0 = lit "access_token" \/ k0 = lit "refresh_token") -> lookup k0 d = Some v0 ->
  exists ou r l g i c ow sc, taken_as w ou r /\ (forall o, In o l -> In (OLib o) tr) /\ data_has r "grant_type" (grant_type g) /\ authenticates r i c /\ In (OFindClient i (V (Some c))) l /\ owned g (rq_data r) c l ow /\
  (forall v, lookup (lit "access_token") d = Some v -> exists a, v = PStr a /\ In (OCreateAT c ow sc (V a)) l) /\
  (forall v, lookup (lit "refresh_token") d = Some v -> g <> GClientCredentials /\ exists k, v = PStr k /\ In (OCreateRT c ow sc (V (Some k))) l).
Proof.
  intros H Hj Hk0 Hv0. unfold application in H. apply aexec_abind in H as [(ou & t1 & t2 & -> & _ & H)|(e & H & _)]; [|discriminate].
  destruct ou as [ou|]; [|apply aexec_ARet in H as [_ H]; discriminate]. cbn [view] in H. destruct (is_post w); [|apply aexec_ARet in H as [_ H]; discriminate]. unfold token_post in H.
  apply aexec_abind in H as [(r & s1 & s2 & -> & Hr & H)|(e & H & _)]; [|discriminate]. apply aexec_abind in H as [(z' & s3 & s4 & -> & H1 & H)|(e & H & _)]; [|discriminate].
  unfold create_request in Hr. apply aexec_ARet in Hr as [-> Hr]. symmetry in Hr. apply lift_V in Hr. apply aexec_library in H1 as (l & -> & H1). apply aexec_ARet in H as [-> H]. injection H as ->.
  destruct (token_owner _ _ _ _ _ _ H1 Hj Hk0 Hv0) as (g & i & c & ow & sc & T). exists ou, r, l, g, i, c, ow, sc. split; [exact Hr|]. split; [|exact T].
  intros o Ho. rewrite app_nil_r. apply in_app_iff; right. apply (in_map OLib). exact Ho.
Qed.
Lemma found_id C aware (log : list (nat * aobs)) t0 t n i u : app_steps C aware t0 (map snd log) t -> In (n, OLib (OFindUser i (V (Some u)))) log -> us_id u = i.
Proof.
  intros Hst Hi. destruct (in_split _ _ Hi) as (l1 & l2 & ->). rewrite map_app in Hst. apply app_steps_app in Hst as (ta & Ha & Hs). cbn [map snd] in Hs.
  inversion Hs as [|? ? tb ? ? Hm Hs2]; subst. apply lib_step in Hm as (Hm & _). apply finds_by_id in Hm. symmetry in Hm. apply find_some in Hm as [_ Hm]. apply eqs_true in Hm. exact Hm.
Qed.
Lemma owned_granted C aware log t0 t n g r c l ow who : app_steps C aware t0 (map snd log) t -> (forall o, In o l -> In (n, OLib o) log) -> data_has r "grant_type" (grant_type g) ->
  owned g (rq_data r) c l ow -> owner_id ow = Ok who -> (exists u, ow = OwnUser u) /\ granted_to r c n log who \/ g = GClientCredentials /\ ow = OwnClient c.
Proof.
  intros Hst Hl Hg How Hid. destruct How as [(-> & x & ac & u & A1 & A2 & A3 & A4 & ->)|[(-> & x & rt & ou & A1 & A2 & A3 & A4 & ->)|[-> ->]]]; [| |right; auto]; left; apply arg_Some in A1 as [A1 _].
  - split; [eauto|]. left. split; [exact Hg|]. exists x, ac. split; [exact A1|]. split; [apply Hl, A2|]. split; [exact A3|]. injection Hid as <-. symmetry. eapply found_id; [exact Hst|apply Hl, A4].
  - destruct ou as [u|]; [|discriminate]. split; [cbn [owner_of]; eauto|]. right. split; [exact Hg|]. exists x, rt. split; [exact A1|]. split; [apply Hl, A2|]. split; [exact A3|]. injection Hid as <-. symmetry. eapply found_id; [exact Hst|apply Hl, A4].
Qed.
Lemma at_owner C aware t t1 c o sc a : app_step C aware t (OLib (OCreateAT c o sc (V a))) t1 -> exists who, owner_id o = Ok who.
Proof.
  intros H. apply lib_step in H as (H & _). remember (OCreateAT c o sc (V a)) as q eqn:Eq. destruct H as [ch T e s|T e x s]; destruct e; cbn [ex_do fst snd observe] in Eq; try discriminate.
  injection Eq as -> -> -> H. symmetry in H. unfold ex_access_token in H. destruct (owner_id o) as [who|]; [eauto|discriminate].
Qed.
Lemma c183_refresh C aware log t0 t n g w z d v : app_steps C aware t0 (map snd log) t ->
  aexec (application E p hs g w) (acalls_of n log) (V (RResponse z)) -> json_body z d -> lookup (chars "refresh_token") d = Some v ->
  exists ou r i c k l1 l2 t1 row, taken_as w ou r /\ authenticates r i c /\ In (n, OLib (OFindClient i (V (Some c)))) log /\ v = PStr k /\
    log = l1 ++ l2 /\ app_steps C aware t0 (map snd l1) t1 /\ acted n l1 /\ In (k, row) (st_rts (tb_store t1)) /\ rt_client row = cl_id c /\ granted_to r c n log (rt_user row).
Proof.
  intros Hst Hx Hj Hv. destruct (c182_handed _ _ _ _ _ _ _ _ v Hx Hj) as [_ Hh]. destruct (Hh Hv) as [-> _].
  destruct (page_owner _ _ _ _ _ _ Hx Hj (or_intror eq_refl) Hv) as (ou & r & l & g & i & c & ow & sc & A1 & A2 & A3 & A4 & A5 & A6 & _ & A7). destruct (A7 _ Hv) as (Hn & k & -> & A8).
  assert (Hl : forall o, In o l -> In (n, OLib o) log) by (intros o Ho; apply acalls_In, A2, Ho). pose proof Hst as Hst0. pose proof (Hl _ A8) as Hi.
  destruct (in_split _ _ Hi) as (l1 & l2 & Hlog). rewrite Hlog in Hst. rewrite map_app in Hst. apply app_steps_app in Hst as (ta & Ha & Hs). cbn [map snd] in Hs.
  inversion Hs as [|? ? tb ? ? Hmade Hs2]; subst. apply refresh_made in Hmade as Hm. destruct Hm as (row & R1 & R2 & R3).
  exists ou, r, i, c, k, (l1 ++ [(n, OLib (OCreateRT c ow sc (V (Some k))))]), l2, tb, row. split; [exact A1|]. split; [exact A4|]. split; [exact (Hl _ A5)|]. split; [reflexivity|]. split; [rewrite <- app_assoc; reflexivity|].
  split; [rewrite map_app; apply app_steps_app; exists ta; split; [exact Ha|econstructor; [exact Hmade|constructor]]|]. split; [eexists; apply in_app_iff; right; left; reflexivity|].
  split; [exact R1|]. split; [exact R2|]. destruct (owned_granted _ _ _ _ _ _ _ _ _ _ _ _ Hst0 Hl A3 A6 R3) as [[_ Ho]|[Ho _]]; [exact Ho|contradiction].
Qed.
Lemma c183_access C aware log t0 t n g w z d v : app_steps C aware t0 (map snd log) t ->
  aexec (application E p hs g w) (acalls_of n log) (V (RResponse z)) -> json_body z d -> lookup (chars "access_token") d = Some v ->
  exists ou r i c a ow sc, taken_as w ou r /\ authenticates r i c /\ In (n, OLib (OFindClient i (V (Some c)))) log /\ v = PStr a /\
    In (n, OLib (OCreateAT c ow sc (V a))) log /\
    ((exists u, ow = OwnUser u /\ granted_to r c n log (us_id u)) \/ ow = OwnClient c /\ data_has r "grant_type" (chars "client_credentials")).
Proof.
  intros Hst Hx Hj Hv. destruct (c182_handed _ _ _ _ _ _ _ _ v Hx Hj) as [Hh _]. destruct (Hh Hv) as [-> _].
  destruct (page_owner _ _ _ _ _ _ Hx Hj (or_introl eq_refl) Hv) as (ou & r & l & g & i & c & ow & sc & A1 & A2 & A3 & A4 & A5 & A6 & A7 & _). destruct (A7 _ Hv) as (a & -> & A8).
  assert (Hl : forall o, In o l -> In (n, OLib o) log) by (intros o Ho; apply acalls_In, A2, Ho). pose proof Hst as Hst0. pose proof (Hl _ A8) as Hi.
  assert (exists who, owner_id ow = Ok who) as [who Hw].
  { destruct (in_split _ _ Hi) as (l1 & l2 & Hlog). rewrite Hlog in Hst. rewrite map_app in Hst. apply app_steps_app in Hst as (ta & Ha & Hs). cbn [map snd] in Hs.
    inversion Hs as [|? ? tb ? ? Hmade Hs2]; subst. apply at_owner in Hmade. exact Hmade. }
  exists ou, r, i, c, a, ow, sc. split; [exact A1|]. split; [exact A4|]. split; [exact (Hl _ A5)|]. split; [reflexivity|]. split; [exact Hi|].
  destruct (owned_granted _ _ _ _ _ _ _ _ _ _ _ _ Hst0 Hl A3 A6 Hw) as [[[u ->] Ho]|[-> ->]]; [left|right; split; [reflexivity|exact A3]]. exists u. split; [reflexivity|]. injection Hw as <-. exact Ho.
Qed.
End WithEnv.
