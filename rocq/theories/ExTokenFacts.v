(** The tokens and claims of the example application: lemmas for C96 and C97. *)
From Coq Require Import String Ascii List NArith ZArith Bool Lia.
From Verif Require Import Base BaseFacts Utf8 Utf8Facts Base64 SpecCodec SpecKey Json JsonFacts Url Webtools WebtoolsFacts Crypto Jwk Jws SpecJws JwsFacts Jwt SpecJwt JwtFacts Prog ProgFacts Http OAuth SpecOAuth SpecHistory SpecFlow OAuthFacts EndpointFacts ResponseFacts IdTokenFacts CompleteFacts Example ExampleFacts SpecHook.
Import ListNotations.
Open Scope N_scope.

Lemma secret_key_ok C : constructible C SECRET_KEY.
Proof. exists (jdata SECRET_KEY). split; [apply nodupb_spec; reflexivity|vm_compute; reflexivity]. Qed.
Lemma secret_key_correct C : mac_bytes C -> backend_correct C (jmat SECRET_KEY).
Proof. intros H h data. apply H. Qed.

(** ** Access tokens *)
Lemma decode_claims C C' n1 n2 n3 n4 t key key' alg1 alg2 v1 v2 o1 o2 tk1 tk2 :
  jwt_decode_str C n1 n2 t key alg1 v1 o1 = Ok tk1 -> jwt_decode_str C' n3 n4 t key' alg2 v2 o2 = Ok tk2 -> tclaims tk1 = tclaims tk2.
Proof.
  unfold jwt_decode_str. intros H1 H2. apply rbind_ok in H1 as (b & Hb & H1). rewrite Hb in H2. cbn [rbind] in H2.
  apply p_decode_iff in H1 as (j1 & s1 & c1 & D1 & U1 & L1 & _ & _ & _ & _ & _ & -> & _). apply p_decode_iff in H2 as (j2 & s2 & c2 & D2 & U2 & L2 & _ & _ & _ & _ & _ & -> & _).
  apply deserialize_header in D1 as (a1 & b1 & x1 & h1 & y1 & d1 & S1 & _ & _ & _ & _ & _ & P1 & _).
  apply deserialize_header in D2 as (a2 & b2 & x2 & h2 & y2 & d2 & S2 & _ & _ & _ & _ & _ & P2 & _).
  destruct (segments_inj _ _ _ _ _ _ _ S1 S2) as (_ & <- & _). assert (Ej : jpayload j1 = jpayload j2) by congruence.
  apply utf8_dec_rfc in U1. apply utf8_dec_rfc in U2. rewrite Ej, U2 in U1. injection U1 as ->. rewrite L1 in L2. injection L2 as ->. reflexivity.
Qed.
Lemma decode_in_time C n1 n2 t key alg o tk z : jwt_decode_str C n1 n2 t key alg true o = Ok tk -> lookup (lit "exp") (tclaims tk) = Some (PInt z) -> z <> 0%Z -> (n1 < z)%Z.
Proof.
  unfold jwt_decode_str. intros H Hl Hz. apply rbind_ok in H as (b & Hb & H).
  apply p_decode_iff in H as (j & s & c & D & U & L & _ & _ & Hm & _ & _ & Ht & _). rewrite Ht in Hl.
  assert (Hn : NoDup (keys c)) by (apply loads_dict in L; tauto). rewrite without_none_full in Hl.
  apply (claims_met_full n1 c Hn) in Hm. destruct Hm as (_ & He & _). destruct He as (z' & Hz' & Hlt).
  { apply PyFacts.true_spec. unfold dget. rewrite Hl. destruct z; [congruence|reflexivity|reflexivity]. }
  rewrite Hl in Hz'. injection Hz' as <-. auto.
Qed.
Lemma ex_access_token_ok C ch c o sc a : mac_bytes C -> ex_access_token C ch c o sc = Ok a ->
  exists sub, owner_id o = Ok sub /\ access_token C SECRET_KEY (utcnow_timestamp (ch_now ch) (ch_off ch)) sub c sc a.
Proof.
  intros Hm H. unfold ex_access_token in H. apply rbind_ok in H as (sub & Ho & H). cbv zeta in H. set (now := utcnow_timestamp _ _) in *.
  apply rbind_ok in H as (t & Ht & H). exists sub. split; [auto|]. unfold FullDict in Ht. cbn [dupdate fold_left] in Ht.
  set (claims := [(lit "iss", _); _; _; _; _; _; _]) in *. change (full claims) with claims in Ht.
  assert (Hdec : forall now1 now2, (now <= now1 < now + 3600)%Z -> (now <= now2 < now + 3600)%Z ->
     jwt_decode_str C now1 now2 a (Some SECRET_KEY) (PStr (lit "HS256")) true PNone = Ok t /\ tclaims t = claims).
  { intros n1 n2 H1 H2. 
    destruct (p_jwt_roundtrip C (ch_rand ch) now claims [(lit "alg", PStr (lit "HS256")); (lit "typ", PStr (lit "at+jwt"))] SECRET_KEY SECRET_KEY t a n1 n2 (PStr (lit "HS256")) PNone) as (R1 & _ & R3); auto using secret_key_ok, secret_key_correct; try reflexivity; try lia.
    - discriminate.
    - split; [left; reflexivity|auto].
    - intros z Hz. injection Hz as <-. right. lia.
    - discriminate. }
  exists claims. split.
  { unfold access_claims. do 6 (split; [reflexivity|]). split; [eexists; reflexivity|].
    intros k Hk. destruct (lookup k claims) as [v|] eqn:El; [|congruence]. apply lookup_In in El. apply (in_map fst) in El. exact El. }
  split.
  - intros n1 n2 H1 H2. exists t. auto.
  - intros Hz n1 n2 algv options tk Hn Hd. destruct (Hdec now now) as [D Hcl]; try lia.
    pose proof (decode_claims _ _ _ _ _ _ _ _ _ _ _ _ _ _ _ _ _ D Hd) as E. rewrite Hcl in E.
    apply decode_in_time with (z := (now + 3600)%Z) in Hd; auto; [lia|]. rewrite <- E. reflexivity.
Qed.

(** ** Operations of the adapter in a trace *)
Lemma ex_steps_In C aware tr : forall s s' o, ex_steps C aware s tr s' -> In o tr -> exists s1 s2, ex_step C aware s1 o s2.
Proof.
  induction tr as [|o0 tr IH]; intros s s' o H Hin; [destruct Hin|]. inversion H as [|? ? s1 ? ? H1 H2]; subst.
  destruct Hin as [<-|Hin]; eauto.
Qed.
Lemma step_access C aware s c o sc a s' : ex_step C aware s (OCreateAT c o sc (V a)) s' -> exists ch, ex_access_token C ch c o sc = Ok a.
Proof.
  intros H. remember (OCreateAT c o sc (V a)) as ob eqn:Eo. destruct H as [ch T e s | T e x s]; destruct e; try discriminate Eo.
  injection Eo as -> -> -> Ha. cbn [ex_do fst] in Ha. apply lift_V in Ha. eauto.
Qed.
Lemma step_key C aware s n x s' : ex_step C aware s (OGetKeyInfo n (V x)) s' -> x = (SECRET_KEY, lit "HS256").
Proof.
  intros H. remember (OGetKeyInfo n (V x)) as ob eqn:Eo. destruct H as [ch T e s | T e y s]; destruct e; try discriminate Eo.
  injection Eo as -> Ha. auto.
Qed.
Lemma step_info C aware s n u sc info s' : ex_step C aware s (OGetUserinfo n u sc (V info)) s' -> info = ex_userinfo u sc.
Proof.
  intros H. remember (OGetUserinfo n u sc (V info)) as ob eqn:Eo. destruct H as [ch T e s | T e y s]; destruct e; try discriminate Eo.
  injection Eo as -> -> -> Ha. auto.
Qed.
(** C96 *)
Lemma p_access_token C aware s c o sc a s' : mac_bytes C -> ex_step C aware s (OCreateAT c o sc (V a)) s' ->
  exists now sub, owner_id o = Ok sub /\ access_token C SECRET_KEY now sub c sc a.
Proof. intros Hm H. apply step_access in H as [ch H]. apply ex_access_token_ok in H as (sub & Ho & Ha); eauto. Qed.
Lemma p_access_response E C aware p hs r tr x s s' : mac_bytes C -> exec (token_endpoint E p hs r) tr (V x) -> rs_status x = 200 ->
  data_has r "grant_type" (lit "authorization_code") -> ex_steps C aware s tr s' ->
  exists i c code ac u d a now, authenticates r i c /\ In (OFindClient i (V (Some c))) tr /\ data_has r "code" code /\ In (OGetCode code (V (Some ac))) tr /\
    In (OFindUser (ac_user ac) (V (Some u))) tr /\
    json_body x d /\ lookup (lit "access_token") d = Some (PStr a) /\ access_token C SECRET_KEY now (us_id u) c (ac_scopes ac) a.
Proof.
  intros Hm H Hst Hgt Hs. destruct (code_response _ _ _ _ _ _ H Hst Hgt) as (i & c & code & ac & u & a & d & rt & t1 & t2 & t3 & Htr & Ha & Hf & Hc & Hg & Hu & Hat & Hj & Hl & _).
  destruct (ex_steps_In _ _ _ _ _ (OCreateAT c (OwnUser u) (ac_scopes ac) (V a)) Hs) as (s1 & s2 & Hst1); [rewrite Htr; apply in_app_iff; auto|].
  apply p_access_token in Hst1 as (now & sub & Ho & Hacc); [|auto]. injection Ho as <-.
  exists i, c, code, ac, u, d, a, now. rewrite Htr. split; [auto|]. split; [apply in_app_iff; auto|]. split; [auto|]. split; [apply in_app_iff; auto|].
  split; [apply in_app_iff; auto|]. auto.
Qed.

(** ** C97: user claims *)
Lemma pick_lookup u names k : lookup k (pick u names) = if existsb (fun n => eqs k (lit n)) names then Some (dget k (us_info u)) else None.
Proof.
  unfold pick. induction names as [|n names IH]; [reflexivity|]. cbn [map lookup existsb]. destruct (eqs_spec k (lit n)) as [->|Hne]; [reflexivity|]. exact IH.
Qed.
Lemma pick_rev u names k : lookup k (rev (pick u names)) = lookup k (pick u names).
Proof.
  assert (H : forall names, lookup k (rev (pick u names)) = if existsb (fun n => eqs k (lit n)) (rev names) then Some (dget k (us_info u)) else None).
  { intros l. unfold pick. rewrite <- map_rev. apply (pick_lookup u (rev l) k). }
  rewrite H, pick_lookup. replace (existsb _ (rev names)) with (existsb (fun n => eqs k (lit n)) names); [reflexivity|].
  apply eq_true_iff_eq. rewrite !existsb_exists. split; intros (x & Hx & He); exists x; (split; [|auto]); apply in_rev in Hx || (apply in_rev; rewrite rev_involutive); auto.
Qed.
Definition ex_table : list (string * list string) :=
  [("phone", ["phone_number"; "phone_number_verified"]); ("address", ["address"]); ("email", ["email"; "email_verified"]);
   ("profile", ["given_name"; "middle_name"; "family_name"; "nickname"; "preferred_username"; "profile";
                "picture"; "website"; "gender"; "birthdate"; "zoneinfo"; "locale"; "created_at"; "updated_at"])]%string.
Lemma userinfo_add u scopes (scope : string) names d k v :
  lookup k (if ins (lit scope) scopes then dupdate d (pick u names) else d) = Some v ->
  (In (lit scope) scopes /\ In k (map lit names) /\ v = dget k (us_info u)) \/ lookup k d = Some v.
Proof.
  destruct (ins (lit scope) scopes) eqn:Ei; [|auto]. apply ins_In in Ei. rewrite lookup_dupdate, pick_rev, pick_lookup.
  destruct (existsb _ names) eqn:Ex; [|auto]. intros H. injection H as <-. left. split; [auto|]. split; [|auto].
  apply existsb_exists in Ex as (n & Hn & He). apply eqs_true in He. subst k. apply in_map. auto.
Qed.
Definition row (u : user) (scopes : list str) (k : str) (scope : string) (names : list string) (r : option pyval) : option pyval :=
  if ins (lit scope) scopes then if existsb (fun n => eqs k (lit n)) names then Some (dget k (us_info u)) else r else r.
Lemma userinfo_row u scopes scope names d k :
  lookup k (if ins (lit scope) scopes then dupdate d (pick u names) else d) = row u scopes k scope names (lookup k d).
Proof. unfold row. destruct (ins _ _); [|auto]. rewrite lookup_dupdate, pick_rev, pick_lookup. destruct (existsb _ names); auto. Qed.
Lemma if_NoDup (b : bool) (d e : pdict) : NoDup (keys d) -> NoDup (keys (if b then dupdate d e else d)).
Proof. destruct b; [apply dupdate_NoDup|auto]. Qed.
Lemma userinfo_lookup u scopes k : lookup k (ex_userinfo u scopes) =
  match fold_right (fun e r => row u scopes k (fst e) (snd e) r) (lookup k [(lit "sub", PStr (us_id u))]) ex_table with Some PNone => None | r => r end.
Proof.
  unfold ex_userinfo. cbv zeta. unfold FullDict. cbn [dupdate fold_left]. rewrite lookup_full.
  2:{ repeat apply if_NoDup. repeat constructor. intros []. }
  rewrite !userinfo_row. reflexivity.
Qed.
Lemma userinfo_only u scopes k v : lookup k (ex_userinfo u scopes) = Some v ->
  (k = lit "sub" /\ v = PStr (us_id u)) \/ exists e, In e ex_table /\ In (lit (fst e)) scopes /\ In k (map lit (snd e)) /\ lookup k (us_info u) = Some v.
Proof.
  rewrite userinfo_lookup. intros H.
  assert (Hv : v <> PNone) by (destruct (fold_right _ _ _) as [[]|]; try discriminate; injection H as <-; discriminate).
  assert (H' : fold_right (fun e r => row u scopes k (fst e) (snd e) r) (lookup k [(lit "sub", PStr (us_id u))]) ex_table = Some v).
  { destruct (fold_right _ _ _) as [[]|]; try discriminate; exact H. }
  clear H. revert H'. generalize ex_table. intros l. induction l as [|e l IH]; cbn [fold_right].
  - cbn [lookup]. destruct (eqs_spec k (lit "sub")); [|discriminate]. intros [= <-]. auto.
  - unfold row at 1. destruct (ins (lit (fst e)) scopes) eqn:Ei.
    + destruct (existsb (fun n => eqs k (lit n)) (snd e)) eqn:Ex.
      * intros [= Hd]. right. exists e. split; [left; auto|]. split; [apply ins_In; auto|]. split.
        { apply existsb_exists in Ex as (n & Hn & He). apply eqs_true in He. subst k. apply in_map. auto. }
        unfold dget in Hd. destruct (lookup k (us_info u)); congruence.
      * intros H'. destruct (IH H') as [Hs|(e' & H1 & H2)]; [auto|]. right. exists e'. split; [right; auto|auto].
    + intros H'. destruct (IH H') as [Hs|(e' & H1 & H2)]; [auto|]. right. exists e'. split; [right; auto|auto].
Qed.
Lemma table_standard e k : In e ex_table -> In k (map lit (snd e)) -> k = lit "created_at" \/ In k (standard_claims (lit (fst e))).
Proof.
  intros He Hk. assert (Ht : forallb (fun e => forallb (fun k => eqs k (lit "created_at") || ins k (standard_claims (lit (fst e)))) (map lit (snd e))) ex_table = true) by reflexivity.
  rewrite forallb_forall in Ht. specialize (Ht e He). rewrite forallb_forall in Ht. specialize (Ht k Hk). apply orb_true_iff in Ht as [Ht|Ht]; [apply eqs_true in Ht|apply ins_In in Ht]; auto.
Qed.
Lemma p_userinfo_only u scopes k v : lookup k (ex_userinfo u scopes) = Some v -> k <> lit "created_at" ->
  (k = lit "sub" /\ v = PStr (us_id u)) \/ exists s, In s scopes /\ In k (standard_claims s) /\ lookup k (us_info u) = Some v.
Proof.
  intros H Hc. apply userinfo_only in H as [H|(e & He & Hs & Hk & Hl)]; [auto|]. right. exists (lit (fst e)). split; [auto|]. split; [|auto].
  destruct (table_standard e k He Hk); [contradiction|auto].
Qed.
Lemma p_userinfo_all u scopes s k v : In s scopes -> In k (standard_claims s) -> k <> lit "name" -> lookup k (us_info u) = Some v -> v <> PNone ->
  lookup k (ex_userinfo u scopes) = Some v.
Proof.
  intros Hs Hk Hn Hl Hv. rewrite userinfo_lookup. apply ins_In in Hs.
  assert (Hd : dget k (us_info u) = v) by (unfold dget; rewrite Hl; auto). clear Hl.
  assert (Hgoal : fold_right (fun e r => row u scopes k (fst e) (snd e) r) (lookup k [(lit "sub", PStr (us_id u))]) ex_table = Some v).
  { unfold ex_table. cbn [fold_right fst snd]. unfold row. rewrite Hd. unfold standard_claims in Hk.
    destruct (eqs_spec s (lit "profile")) as [->|_].
    { rewrite Hs. cbn [map In] in Hk. destruct Hk as [<-|Hk]; [contradiction|].
      repeat (destruct Hk as [<-|Hk]; [cbn; repeat match goal with |- context [if ins ?x ?l then _ else _] => destruct (ins x l) end; reflexivity|]). destruct Hk. }
    destruct (eqs_spec s (lit "email")) as [->|_].
    { rewrite Hs. cbn [map In] in Hk.
      repeat (destruct Hk as [<-|Hk]; [cbn; repeat match goal with |- context [if ins ?x ?l then _ else _] => destruct (ins x l) end; reflexivity|]). destruct Hk. }
    destruct (eqs_spec s (lit "address")) as [->|_].
    { rewrite Hs. cbn [map In] in Hk.
      repeat (destruct Hk as [<-|Hk]; [cbn; repeat match goal with |- context [if ins ?x ?l then _ else _] => destruct (ins x l) end; reflexivity|]). destruct Hk. }
    destruct (eqs_spec s (lit "phone")) as [->|_]; [|destruct Hk].
    rewrite Hs. cbn [map In] in Hk.
    repeat (destruct Hk as [<-|Hk]; [cbn; repeat match goal with |- context [if ins ?x ?l then _ else _] => destruct (ins x l) end; reflexivity|]). destruct Hk. }
  rewrite Hgoal. destruct v; auto. congruence.
Qed.

(** ID tokens *)
Lemma userinfo_wf u scopes : json_wf (PDict (us_info u)) = true -> json_wf (PDict (ex_userinfo u scopes)) = true.
Proof.
  intros H. assert (Hv : forall k, json_wf (dget k (us_info u)) = true).
  { intros k. unfold dget. destruct (lookup k (us_info u)) as [v|] eqn:El; [|reflexivity]. cbn [json_wf] in H. apply andb_true_iff in H as [_ H].
    rewrite forallb_forall in H. apply lookup_In in El. apply (H _ El). }
  assert (Ha : forall (b : bool) names d, nodupb (map lit names) = true -> json_wf (PDict d) = true -> json_wf (PDict (if b then dupdate d (pick u names) else d)) = true).
  { intros b names d Hn Hd. destruct b; [|auto]. apply json_wf_dupdate; [|auto]. cbn [json_wf]. apply andb_true_iff. split.
    - unfold pick, keys. rewrite map_map. exact Hn.
    - unfold pick. rewrite forallb_forall. intros kv Hin. apply in_map_iff in Hin as (n & <- & _). apply Hv. }
  unfold ex_userinfo. cbv zeta. unfold FullDict. cbn [dupdate fold_left]. apply json_wf_full. repeat (apply Ha; [reflexivity|]). reflexivity.
Qed.

Lemma p_id_discloses E C aware p hs r tr x s s' : mac_bytes (e_crypto E) -> exec (token_endpoint E p hs r) tr (V x) -> rs_status x = 200 ->
  data_has r "grant_type" (lit "authorization_code") -> ex_steps C aware s tr s' ->
  exists code ac u d, data_has r "code" code /\ In (OGetCode code (V (Some ac))) tr /\ In (OFindUser (ac_user ac) (V (Some u))) tr /\ json_body x d /\
    (json_wf (PDict (us_info u)) = true -> Forall scope_name (ac_scopes ac) ->
     forall t C' now1 now2 key algv v options tk, lookup (lit "id_token") d = Some (PStr t) -> jwt_decode_str C' now1 now2 t key algv v options = Ok tk ->
     forall k y, lookup k (tclaims tk) = Some y ->
       In k (lit "created_at" :: token_claims) \/ (k = lit "sub" /\ y = PStr (us_id u)) \/
       exists sc, In sc (ac_scopes ac) /\ In k (standard_claims sc) /\ lookup k (us_info u) = Some y).
Proof.
  intros Hm H Hst Hgt Hs. destruct (code_response _ _ _ _ _ _ H Hst Hgt) as (i & c & code & ac & u & a & d & rt & t1 & t2 & t3 & Htr & _ & _ & Hc & Hg & Hu & _ & Hj & _ & Hx).
  exists code, ac, u, d. split; [auto|]. split; [rewrite Htr; apply in_app_iff; auto|]. split; [rewrite Htr; apply in_app_iff; auto|]. split; [auto|].
  intros Hwf Hsn t C' now1 now2 key algv v options tk Ht Hd k y Hk.
  pose proof (create_token_scope a (cf_token_lifespan (pv_config p)) rt (ac_scopes ac)) as Hsc.
  destruct (hk_response hs) as [|h0 l0] eqn:Ehs.
  { simpl in Hx. destruct Hx as [_ Hx]. injection Hx as ->. rewrite create_token_id in Ht. discriminate. }
  rewrite <- Ehs in *. assert (Hne : hk_response hs <> []) by congruence.
  destruct (ac_scopes ac) as [|s0 sl] eqn:Eac.
  { exfalso. rewrite Ehs in Hx. simpl in Hx. apply exec_pbind in Hx as [(upd & u1 & u2 & -> & H1 & _)|(e & ? & _)]; [|discriminate].
    unfold oidc_token_response in H1. rewrite Hsc in H1. apply exec_Ret in H1 as [_ H1]. discriminate. }
  rewrite <- Eac in *. destruct (hooks_id _ _ _ _ _ _ _ _ Hx Hsc) as [H1 H2].
  destruct (substr (lit "openid") (unwords (ac_scopes ac))); [|rewrite (H1 eq_refl), create_token_id in Ht; discriminate].
  destruct H2 as (h & t' & dm & u1 & u2 & u3 & Hin & Hl & -> & Hgen & Hdm); [auto|auto|].
  assert (t' = t) by congruence. subst t'.
  destruct (id_token_exec _ _ _ _ _ _ _ _ Hgen) as (ky & alg & info & utc & off & a' & ah & utc1 & off1 & cl & kid & utc2 & off2 & tk0 & rand & -> & _ & _ & Hid & Hkid & Htk & Henc).
  assert (Hinc : forall o, In o [OGetKeyInfo (hk_adapter h) (V (ky, alg)); OGetUserinfo (hk_adapter h) u (words (unwords (ac_scopes ac))) (V info)] -> In o tr).
  { intros o Ho. rewrite Htr, !in_app_iff. right. left. right. left. cbn [In] in Ho |- *. tauto. }
  destruct (ex_steps_In _ _ _ _ _ _ Hs (Hinc _ (or_introl eq_refl))) as (sa & sb & Hst1). apply step_key in Hst1. injection Hst1 as -> ->.
  destruct (ex_steps_In _ _ _ _ _ _ Hs (Hinc _ (or_intror (or_introl eq_refl)))) as (sc & sd & Hst2). apply step_info in Hst2. 
  unfold unwords in Hst2. rewrite (words_join _ Hsn) in Hst2.
  pose proof (IDToken_ok _ _ _ Hid) as Hcl. set (nw := utcnow_timestamp utc2 off2) in *.
  assert (Hwi : json_wf (PDict info) = true) by (rewrite Hst2; apply userinfo_wf; auto).
  assert (Hwc : json_wf (PDict cl) = true). { rewrite Hcl, without_none_full. apply json_wf_full. apply json_wf_dupdate; [auto|reflexivity]. }
  assert (Hfull : without_none cl = cl) by (rewrite Hcl, !without_none_full; apply full_idem).
  injection Hkid as <-. pose proof Htk as Htk'. unfold JsonWebToken in Htk'. apply rbind_ok in Htk' as (hd & _ & Htk'). apply rbind_ok in Htk' as (cc & Ecc & _).
  apply p_claims_iff in Ecc as (c' & Ec' & Hne' & Hmet & _). injection Ec' as <-.
  destruct (p_jwt_roundtrip (e_crypto E) rand nw cl (id_header (lit "HS256") (PStr (lit "secret_key_id"))) SECRET_KEY SECRET_KEY tk0 t nw nw (PStr (lit "HS256")) PNone) as (R1 & _ & R3);
    auto using secret_key_ok, secret_key_correct; try reflexivity; try lia.
  - rewrite Hfull. auto.
  - split; [left; reflexivity|auto].
  - intros z Hz. destruct Hmet as (_ & Hexp & _). destruct (Z.eq_dec z 0) as [->|Hz0]; [auto|]. right.
    destruct Hexp as (z' & Hz' & Hlt); [unfold dget; rewrite Hz; intros F; inversion F; congruence|]. rewrite Hz in Hz'. injection Hz' as <-. auto.
  - discriminate.
  - rewrite <- (decode_claims _ _ _ _ _ _ _ _ _ _ _ _ _ _ _ _ _ R3 Hd) in Hk. rewrite R1, Hfull, Hcl in Hk.
    pose proof (id_claims_ok h c (utcnow_timestamp utc off) ah info (json_wf_NoDup _ Hwi) k) as Hik. rewrite Hk in Hik.
    destruct (lookup k info) as [w|] eqn:Ei.
    + assert (Hw : w = y \/ w = PNone). { destruct w; auto; injection Hik as ->; auto. }
      destruct Hw as [->| ->].
      2:{ exfalso. rewrite Hst2, userinfo_lookup in Ei. destruct (fold_right _ _ _) as [[]|]; discriminate. }
      destruct (eqs_spec k (lit "created_at")) as [->|Hnc]; [left; left; reflexivity|]. right.
      rewrite Hst2 in Ei. apply p_userinfo_only in Ei as [Ei|Ei]; auto.
    + left. right. apply ins_In. destruct (eqs_spec k (lit "iss")) as [->|]; [reflexivity|]. destruct (eqs_spec k (lit "aud")) as [->|]; [reflexivity|].
      destruct (eqs_spec k (lit "exp")) as [->|]; [reflexivity|]. destruct (eqs_spec k (lit "iat")) as [->|]; [reflexivity|]. destruct (eqs_spec k (lit "at_hash")) as [->|]; [reflexivity|]. discriminate.
Qed.
