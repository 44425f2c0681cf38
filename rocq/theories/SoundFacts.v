(** The data base of the example stays consistent: lemmas for C176. *)
From Coq Require Import String Ascii List NArith ZArith Bool Arith Lia.
From Verif Require Import Base BaseFacts SpecReaders Webtools Crypto Jwk Prog ProgFacts Http OAuth SpecOAuth EndpointFacts GrantFacts TokenFacts IssueFacts AuthzFacts SpecHistory LineageFacts SpecFlow Example ExampleFacts SpecLife App SpecApp AppFacts LifeFacts LifetimeFacts StoreFacts SpecKeep KeepFacts SpecWho WhoFacts SpecSound.
Import ListNotations.
Open Scope N_scope.

(** ** Keys *)
Lemma nodup_fst {A} (f : str * A -> bool) d : NoDup (map fst d) -> NoDup (map fst (filter f d)).
Proof.
  induction d as [|[k v] d IH]; intros H; cbn [filter map fst] in *; [constructor|]. inversion H as [|? ? Hn Hd]; subst. destruct (f (k, v)); [|auto].
  cbn [map fst]. constructor; [|auto]. intros Hc. apply Hn. apply in_map_iff in Hc as (z & <- & Hz). apply filter_In in Hz as [Hz _]. apply in_map. exact Hz.
Qed.
Lemma not_has {A} k (d : list (str * A)) : has k d = false -> ~ In k (map fst d).
Proof.
  intros H Hin. apply in_map_iff in Hin as ([k' v] & <- & Hin). unfold has in H. cbn [fst] in *.
  assert (Hl : exists v', lookup k' d = Some v'). { clear H. induction d as [|[a b] d IH]; [destruct Hin|]. cbn [lookup]. destruct (eqs_spec k' a); [eauto|]. destruct Hin as [[= -> _]|Hin]; [congruence|auto]. }
  apply has_lookup in Hl. unfold has in Hl. rewrite Hl in H. discriminate.
Qed.
Definition keyed (t : tables) : Prop := NoDup (map fst (st_codes (tb_store t))) /\ NoDup (map fst (st_rts (tb_store t))) /\ NoDup (map fst (tb_sessions t)).
Lemma ex_keyed C aware s o s' : ex_step C aware s o s' -> NoDup (map fst (st_codes s)) /\ NoDup (map fst (st_rts s)) -> NoDup (map fst (st_codes s')) /\ NoDup (map fst (st_rts s')).
Proof.
  intros H [H1 H2]. destruct H as [ch T e s|T e x s]; [|auto]. destruct e; cbn [ex_do fst snd]; auto.
  - destruct (ad_nonce data); [|auto]. destruct (has code (st_codes s)) eqn:Eh; [auto|]. cbn [snd set_codes st_codes st_rts map fst]. split; [|auto]. constructor; [apply not_has; exact Eh|exact H1].
  - cbn [set_codes st_codes st_rts]. split; [apply nodup_fst; exact H1|exact H2].
  - destruct (owner_id o) as [u|]; [|auto]. destruct (find _ (st_rts s)) as [[? ?]|]; [auto|]. destruct (has (ch_token ch) (st_rts s)) eqn:Eh; [auto|].
    cbn [snd set_rts st_codes st_rts map fst]. split; [auto|]. constructor; [apply not_has; exact Eh|exact H2].
  - cbn [set_rts st_codes st_rts]. split; [exact H1|apply nodup_fst; exact H2].
Qed.
Lemma keyed_step C aware t o t1 : app_step C aware t o t1 -> keyed t -> keyed t1.
Proof.
  intros H (K1 & K2 & K3). destruct (is_lib o) as [[z ->]|Ho].
  - apply lib_step in H as (H & E & _). apply ex_keyed in H as [A B]; [|auto]. split; [exact A|]. split; [exact B|]. rewrite E. exact K3.
  - destruct H as [ch T e t|T e x t]; [|split; auto]. destruct e; cbn [app_do fst snd aobserve] in *; try (split; [exact K1|split; [exact K2|exact K3]]; fail).
    + destruct (existsb _ _) eqn:Ee; [split; auto|]. split; [exact K1|]. split; [exact K2|]. cbn [snd set_sessions tb_sessions map fst]. constructor; [|exact K3].
      intros Hc. apply in_map_iff in Hc as ([s' u'] & Hs & Hc). cbn [fst] in Hs. subst s'. assert (Ht : existsb (fun s => eqs (fst s) sid) (tb_sessions t) = true) by (apply existsb_exists; exists (sid, u'); split; [exact Hc|apply eqs_refl]). congruence.
    + split; [exact K1|]. split; [|exact K3]. apply nodup_fst. exact K2.
    + split; [exact K1|]. split; [exact K2|]. apply nodup_fst. exact K3.
    + destruct (ex_do C aware ch e (tb_store t)) as [x s]. destruct (Ho _ eq_refl).
Qed.
Lemma keyed_steps C aware : forall l t t', app_steps C aware t l t' -> keyed t -> keyed t'.
Proof. induction l as [|o l IH]; intros t t' H; inversion H as [|? ? t1 ? ? Ho Ht]; subst; [auto|]. intros Hk. eapply IH; [exact Ht|]. eapply keyed_step; eauto. Qed.

(** ** Histories *)
Lemma running_prefix E p hs qs a b : app_running E p hs qs (a ++ b) -> app_running E p hs qs a.
Proof.
  intros [R1 R2]. split; [intros n o H; apply (R1 n o), in_app_iff; auto|]. intros n g w Hq. destruct (R2 n g w Hq) as (tr & x & Hx). rewrite acalls_app, <- app_assoc in Hx. eauto.
Qed.
Lemma code_new_row C aware t o t1 k v : app_step C aware t o t1 -> ~ In (k, v) (st_codes (tb_store t)) -> In (k, v) (st_codes (tb_store t1)) ->
  exists ad c u, o = OLib (OSaveCode k ad c u (V tt)) /\ ac_client v = cl_id c /\ ac_user v = us_id u /\ ac_redirect v = ad_redirect ad /\ ac_scopes v = ad_scopes ad.
Proof.
  intros H Hn Hi. destruct (is_lib o) as [[z ->]|Ho]; [|apply other_step in H as (E & _); [rewrite E in Hi; contradiction|exact Ho]].
  apply lib_step in H as (H & _). destruct H as [ch T e s|T e x s]; [|contradiction]. destruct e; cbn [ex_do fst snd observe] in *; try contradiction.
  - destruct (ad_nonce data); [|contradiction]. destruct (has code (st_codes s)); [contradiction|]. cbn [fst snd set_codes st_codes] in Hi. destruct Hi as [Hi|Hi]; [|contradiction].
    injection Hi as <- <-. exists data, c, u. auto.
  - cbn [set_codes st_codes] in Hi. unfold dremove in Hi. apply filter_In in Hi. tauto.
  - destruct (owner_id o) as [u|]; [|contradiction]. destruct (find _ (st_rts s)) as [[? ?]|]; [contradiction|]. destruct (has _ _); contradiction.
Qed.
Lemma refresh_new_row C aware t o t1 k v : app_step C aware t o t1 -> ~ In (k, v) (st_rts (tb_store t)) -> In (k, v) (st_rts (tb_store t1)) ->
  exists c w sc, o = OLib (OCreateRT c w sc (V (Some k))) /\ rt_client v = cl_id c /\ rt_scopes v = sc /\ owner_id w = Ok (rt_user v).
Proof.
  intros H Hn Hi. destruct (is_lib o) as [[z ->]|Ho]; [|apply other_step in H as (_ & _ & _ & E & _); [apply E in Hi; contradiction|exact Ho]].
  apply lib_step in H as (H & _). destruct H as [ch T e s|T e x s]; [|contradiction]. destruct e; cbn [ex_do fst snd observe] in *; try contradiction.
  - destruct (ad_nonce data); [|contradiction]. destruct (has code (st_codes s)); contradiction.
  - destruct (owner_id o) as [u|] eqn:Eo; [|contradiction]. destruct (find _ (st_rts s)) as [[? ?]|]; [contradiction|]. destruct (has _ _); [contradiction|].
    cbn [fst snd set_rts st_rts] in Hi. destruct Hi as [Hi|Hi]; [|contradiction]. injection Hi as <- <-. exists c, o, scopes. auto.
  - cbn [set_rts st_rts] in Hi. apply filter_In in Hi. tauto.
Qed.
Lemma user_stored C aware s i u s' : ex_step C aware s (OFindUser i (V (Some u))) s' -> In u (st_users s) /\ us_id u = i.
Proof.
  intros H. remember (OFindUser i (V (Some u))) as o eqn:Eo. destruct H as [ch T e s|T e x s]; destruct e; cbn [ex_do fst snd observe] in Eo; try discriminate.
  injection Eo as -> Eo. apply find_some in Eo as [H1 H2]. apply eqs_true in H2. auto.
Qed.
Lemma session_user_stored C aware t sid uid u t1 : app_step C aware t (OGetSession sid uid (V (Some (Some u)))) t1 -> In u (st_users (tb_store t)).
Proof.
  intros H. remember (OGetSession sid uid (V (Some (Some u)))) as z eqn:Ez. destruct H as [ch T e t|T e x t]; [|destruct e; discriminate].
  destruct e; cbn [app_do fst snd aobserve] in Ez; try discriminate. destruct (existsb _ _); [|discriminate].
  injection Ez as -> -> Ez. apply find_some in Ez. tauto.
Qed.
Lemma step_at C aware (l : list (nat * aobs)) t t' n o : app_steps C aware t (map snd l) t' -> In (n, o) l ->
  exists a b t1 t2, l = a ++ (n, o) :: b /\ app_steps C aware t (map snd a) t1 /\ app_step C aware t1 o t2.
Proof.
  intros Hs Hi. apply in_split in Hi as (a & b & ->). rewrite map_app in Hs. apply app_steps_app in Hs as (t1 & H1 & H2). cbn [map snd] in H2. inversion H2; subst. eauto 8.
Qed.
Lemma same_client t id c c' : NoDup (map cl_id (st_clients (tb_store t))) -> client_of t id c -> client_of t id c' -> c = c'.
Proof.
  intros Hd [H1 <-] [H2 He]. induction (st_clients (tb_store t)) as [|d l IH]; [destruct H1|]. cbn [map] in Hd. inversion Hd as [|? ? Hn Hd']; subst.
  destruct H1 as [<-|H1], H2 as [<-|H2]; auto; exfalso; apply Hn; [rewrite <- He; apply in_map; auto|rewrite He; apply in_map; auto].
Qed.

Section WithEnv.
Variable E : env.
Variable p : provider.
Variable hs : hooks.
Hypothesis sha_bytes : forall b, bytes_ok (e_sha256 E b).
Hypothesis set_order : order_ok E.
Variable C : crypto.
Variable aware : bool.
Variable qs : list (page * web).
Variable t0 : tables.
Let scopes := cf_scopes (pv_config p).
Hypothesis Hup : set_up t0.
Hypothesis Hcons : consistent scopes t0.

Lemma codes_good l t : app_running E p hs qs l -> app_steps C aware t0 (map snd l) t -> forall k row, In (k, row) (st_codes (tb_store t)) -> good_code scopes t0 row.
Proof.
  intros Hr Hs k row Hi. destruct (in_dec (fun a b : str * auth_code => ltac:(repeat decide equality)) (k, row) (st_codes (tb_store t0))) as [Hold|Hnew].
  { exact (proj1 (proj2 (proj2 (proj2 (proj2 Hcons)))) _ _ Hold). }
  destruct (gained_at C aware (fun t => In (k, row) (st_codes (tb_store t))) (fun o => exists ad c u, o = OLib (OSaveCode k ad c u (V tt)) /\ ac_client row = cl_id c /\ ac_user row = us_id u /\ ac_redirect row = ad_redirect ad /\ ac_scopes row = ad_scopes ad)) with (l := l) (t := t0) (t' := t) as (n & o & Ho & ad & c & u & -> & A1 & A2 & A3 & A4); auto.
  { intros x. destruct (in_dec (fun a b : str * auth_code => ltac:(repeat decide equality)) (k, row) (st_codes (tb_store x))); auto. }
  { intros; eapply code_new_row; eauto. }
  destruct (lib_page E p hs _ _ _ _ Hr Ho) as (g & w & ou & sv & r & l' & an & Hq & Hg & Hm & Hsv & Hil & Hu & Hb & Hme).
  destruct g; try discriminate; injection Hg as <-; unfold served in Hsv; cbn [in_service in_provider in_hooks in_request] in Hsv; destruct Hsv as (x & Hx & _).
  - destruct (p_saved_scopes _ _ _ _ _ _ _ _ _ _ _ Hx Hil) as [_ Hsc].
    destruct (p_code_saved _ _ _ _ _ _ _ _ _ _ _ Hx Hil) as (cid & uri & -> & Hru & Hcid & Hduri & Hreg & Hadr & _ & _ & _ & Hresp).
    assert (ou = Some u) as ->. { unfold taken_as, make_request in Hm. destruct (raise_if _ _); [|discriminate]. cbn [rbind] in Hm. destruct (raise_if _ _); [|discriminate]. cbn [rbind] in Hm. injection Hm as <-. exact Hru. }
    destruct (Hu u eq_refl) as (uid & sid & Hc & Hses).
    assert (Hf : In (n, OLib (OFindClient cid (V (Some c)))) l) by (eapply (Hb []); [reflexivity|]; intros [Hc'|[]]; discriminate).
    destruct (found_stored _ _ _ _ _ _ _ _ Hs Hf) as [Hcl _]. split.
    + exists u. split; [|auto]. apply (in_map snd) in Hses. cbn [snd] in Hses. destruct (app_steps_In _ _ _ _ _ _ Hs Hses) as (t1 & t2 & Hst & _ & Hus & _). rewrite <- Hus. eapply session_user_stored; exact Hst.
    + exists c. split; [split; [exact Hcl|auto]|]. rewrite A3, A4, Hadr. split; [exact Hreg|]. split; [exact Hresp|]. intros s Hsi. destruct (Hsc s Hsi) as [S1 S2]. split; [exact S1|]. eauto.
  - destruct (no_call _ _ _ _ _ (revocation_not_saving r) Hx Hil).
  - destruct (no_call _ _ _ _ _ (token_not_saving E p hs r) Hx Hil).
Qed.
Lemma sessions_good l t : app_running E p hs qs l -> app_steps C aware t0 (map snd l) t -> forall sid uid, In (sid, uid) (tb_sessions t) -> user_of t0 uid.
Proof.
  intros Hr Hs sid uid Hi. destruct (in_dec (fun a b : str * str => ltac:(repeat decide equality)) (sid, uid) (tb_sessions t0)) as [Hold|Hnew].
  { exact (proj2 (proj2 (proj2 (proj2 (proj2 (proj2 Hcons))))) _ _ Hold). }
  destruct (c175_session_started E p hs C aware qs [] l t0 t0 t Hr (app_nil _ _ _) Hs sid uid Hnew Hi) as (n & q & _ & _ & (_ & _ & a & Ha & <- & _)). apply Hup. exact Ha.
Qed.
Lemma tokens_good : forall m l t, (length l <= m)%nat -> app_running E p hs qs l -> app_steps C aware t0 (map snd l) t -> forall k row, In (k, row) (st_rts (tb_store t)) -> good_token scopes t0 row.
Proof.
  induction m as [m IH] using lt_wf_ind. intros l t Hlen Hr Hs k row Hi.
  destruct (in_dec (fun a b : str * refresh_token => ltac:(repeat decide equality)) (k, row) (st_rts (tb_store t0))) as [Hold|Hnew].
  { exact (proj1 (proj2 (proj2 (proj2 (proj2 (proj2 Hcons))))) _ _ Hold). }
  destruct (gained_at C aware (fun t => In (k, row) (st_rts (tb_store t))) (fun o => exists c w sc, o = OLib (OCreateRT c w sc (V (Some k))) /\ rt_client row = cl_id c /\ rt_scopes row = sc /\ owner_id w = Ok (rt_user row))) with (l := l) (t := t0) (t' := t) as (n & o & Ho & c & ow & sc & -> & A1 & A2 & A3); auto.
  { intros x. destruct (in_dec (fun a b : str * refresh_token => ltac:(repeat decide equality)) (k, row) (st_rts (tb_store x))); auto. }
  { intros; eapply refresh_new_row; eauto. }
  (* the history up to the creation *)
  set (o := OLib (OCreateRT c ow sc (V (Some k)))) in *.
  destruct (step_at _ _ _ _ _ _ _ Hs Ho) as (a & b & ta & tb & -> & Hsa & Hstep).
  assert (Hra : app_running E p hs qs (a ++ [(n, o)])) by (apply (running_prefix E p hs qs _ b); rewrite <- app_assoc; exact Hr).
  assert (Hsa' : app_steps C aware t0 (map snd (a ++ [(n, o)])) tb) by (rewrite map_app; apply app_steps_app; exists ta; split; [exact Hsa|]; cbn [map snd]; econstructor; [exact Hstep|constructor]).
  assert (Hoa : In (n, o) (a ++ [(n, o)])) by (apply in_app_iff; right; left; reflexivity).
  destruct (lib_page E p hs _ _ _ _ Hra Hoa) as (g & w & ou & sv & r & l' & an & Hq & Hg & Hm & Hsv & Hil & Hu & Hb & Hme).
  destruct (served_issuing E _ _ _ _ Hsv Hil) as [Hsvt (x & Hx)]; [right; reflexivity|]. cbn [in_service in_provider in_hooks in_request] in Hsvt, Hx. clear Hsv. subst sv.
  assert (Hbefore : forall pre y post, l' = pre ++ y :: post -> (forall z, In z (pre ++ [y]) -> z <> OCreateRT c ow sc (V (Some k))) -> In (n, OLib y) a).
  { intros pre y post El Hne. assert (Hin : In (n, OLib y) (a ++ [(n, o)])) by (eapply Hb; [exact El|]; intros Hc; exact (Hne _ Hc eq_refl)).
    apply in_app_iff in Hin as [Hin|[Hin|[]]]; [exact Hin|]. exfalso. injection Hin as Hin. eapply (Hne y); [apply in_app_iff; right; left; reflexivity|]. symmetry. exact Hin. }
  assert (Hfind : forall i u, In (n, OLib (OFindUser i (V (Some u)))) a -> In u (st_users (tb_store t0)) /\ us_id u = i).
  { intros i u Hf. apply (in_map snd) in Hf. cbn [snd] in Hf. destruct (app_steps_In _ _ _ _ _ _ Hsa Hf) as (t1 & t2 & Hst & _ & Hus & _). rewrite <- Hus. apply lib_step in Hst as (Hst & _). eapply user_stored; exact Hst. }
  assert (Hcl : forall i c', In (n, OLib (OFindClient i (V (Some c')))) a -> In c' (st_clients (tb_store t0))) by (intros i c' Hf; exact (proj1 (found_stored _ _ _ _ _ _ _ _ Hsa Hf))).
  destruct (issuing_grant _ _ _ _ _ _ _ Hx Hil) as [Hgt|[Hgt|Hgt]]; [right; reflexivity| | |].
  - destruct (p_code_grant E _ _ _ _ _ _ sha_bytes Hx Hgt Hil) as (i & c' & code & uri & v & ac & u & now & off & d & rest & El & _ & _ & _ & _ & _ & Hac & _ & _ & _ & _ & Hob); [right; reflexivity|].
    destruct Hob as [[z Hz]|[[z Hz] Hgr]]; [discriminate|]. injection Hz as <- -> -> _.
    assert (H1 : In (n, OLib (OFindClient i (V (Some c)))) a) by (apply (Hbefore [] _ _ El); intros z' [<-|[]]; discriminate).
    assert (H2 : In (n, OLib (OGetCode code (V (Some ac)))) a) by (apply (Hbefore [_] _ _ El); intros z' [<-|[<-|[]]]; discriminate).
    assert (H3 : In (n, OLib (OFindUser (ac_user ac) (V (Some u)))) a) by (apply (Hbefore [_; _; _] _ _ El); intros z' [<-|[<-|[<-|[<-|[]]]]]; discriminate).
    destruct (step_at _ _ _ _ _ _ _ Hsa H2) as (a1 & a2 & t1 & t2 & -> & Hs1 & Hg1). apply lib_step in Hg1 as (Hg1 & _). apply get_code_inv in Hg1. apply lookup_In in Hg1.
    assert (Hr1 : app_running E p hs qs a1) by (rewrite <- !app_assoc in Hra; exact (running_prefix E p hs qs _ _ Hra)).
    destruct (codes_good a1 t1 Hr1 Hs1 _ _ Hg1) as (_ & c2 & [Hc2 Hid2] & _ & _ & Hsc2).
    cbn [owner_id] in A3. injection A3 as A3. split; [exists u; split; [exact (proj1 (Hfind _ _ H3))|exact A3]|].
    exists c. split; [split; [exact (Hcl _ _ H1)|auto]|]. split; [exact Hgr|]. rewrite A2.
    assert (c2 = c) as -> by (eapply (same_client t0 (cl_id c)); [apply Hup|split; [exact Hc2|congruence]|split; [exact (Hcl _ _ H1)|reflexivity]]). exact Hsc2.
  - destruct (p_client_credentials E _ _ _ _ _ _ Hx Hgt Hil) as (? & ? & ? & ? & ? & _ & _ & _ & _ & _ & Heq & _); [right; reflexivity|]. discriminate.
  - destruct (p_refresh_grant E _ _ _ _ _ _ set_order Hx Hgt Hil) as (i & c' & token & rt & now & off & d & ou' & rest & sc' & El & _ & _ & Hrc & _ & _ & Hob & Hincl & _); [right; reflexivity|].
    destruct Hob as [[z Hz]|[[z Hz] Hgr]]; [discriminate|]. injection Hz as <- -> -> _.
    assert (H1 : In (n, OLib (OFindClient i (V (Some c)))) a) by (apply (Hbefore [] _ _ El); intros z' [<-|[]]; discriminate).
    assert (H2 : In (n, OLib (OGetRT token (V (Some rt)))) a) by (apply (Hbefore [_] _ _ El); intros z' [<-|[<-|[]]]; discriminate).
    assert (H3 : In (n, OLib (OFindUser (rt_user rt) (V ou'))) a) by (apply (Hbefore [_; _; _] _ _ El); intros z' [<-|[<-|[<-|[<-|[]]]]]; discriminate).
    destruct ou' as [u|]; [|discriminate]. cbn [owner_of owner_id] in A3. injection A3 as A3.
    destruct (step_at _ _ _ _ _ _ _ Hsa H2) as (a1 & a2 & t1 & t2 & -> & Hs1 & Hg1). apply lib_step in Hg1 as (Hg1 & _). apply get_rt_inv in Hg1. apply lookup_In in Hg1.
    assert (Hr1 : app_running E p hs qs a1) by (rewrite <- !app_assoc in Hra; exact (running_prefix E p hs qs _ _ Hra)).
    assert (Hl1 : (length a1 < m)%nat) by (rewrite !app_length in Hlen; cbn [length] in Hlen; lia).
    destruct (IH _ Hl1 a1 t1 (le_n _) Hr1 Hs1 _ _ Hg1) as (_ & c2 & [Hc2 Hid2] & _ & Hsc2).
    split; [exists u; split; [exact (proj1 (Hfind _ _ H3))|exact A3]|].
    exists c. split; [split; [exact (Hcl _ _ H1)|auto]|]. split; [exact Hgr|]. rewrite A2.
    assert (c2 = c) as -> by (eapply (same_client t0 (cl_id c)); [apply Hup|split; [exact Hc2|congruence]|split; [exact (Hcl _ _ H1)|reflexivity]]).
    intros s Hsi. apply Hsc2. apply Hincl; [apply Hup; exact Hc2|exact Hsi].
Qed.
Theorem c176 l t : app_running E p hs qs l -> app_steps C aware t0 (map snd l) t -> set_up t /\ consistent scopes t.
Proof.
  intros Hr Hs. destruct (c175_same C aware l t0 t Hs) as (Ec & Eu & Ea). pose proof Hcons as (N1 & N2 & N3 & N4 & _).
  destruct (keyed_steps _ _ _ _ _ Hs) as (K1 & K2 & K3); [split; auto|].
  assert (Hu : forall uid, user_of t0 uid -> user_of t uid) by (intros uid (u & H1 & H2); exists u; rewrite Eu; auto).
  split.
  - split; [rewrite Ec; apply Hup|]. split; [rewrite Ec; apply Hup|]. rewrite Ea. intros a Ha. apply Hu, Hup, Ha.
  - split; [exact K1|]. split; [exact K2|]. split; [eapply p_pairs; eauto|]. split; [exact K3|]. split; [|split].
    + intros k row Hi. destruct (codes_good l t Hr Hs _ _ Hi) as (G1 & c & [G2 G3] & G4). split; [auto|]. exists c. split; [split; [rewrite Ec; exact G2|exact G3]|exact G4].
    + intros k row Hi. destruct (tokens_good _ l t (le_n _) Hr Hs _ _ Hi) as (G1 & c & [G2 G3] & G4). split; [auto|]. exists c. split; [split; [rewrite Ec; exact G2|exact G3]|exact G4].
    + intros sid uid Hi. apply Hu. eapply sessions_good; eauto.
Qed.
End WithEnv.
