(** Requests and client authentication: lemmas for C42-C44 and C69. *)
From Coq Require Import String Ascii List NArith ZArith Bool Lia ZifyBool ZifyN.
From Verif Require Import Base BaseFacts Utf8 Utf8Facts Base64 Base64Facts SpecCodec Json Url UrlFacts Webtools WebtoolsFacts Crypto Jwk Jws Jwt Prog ProgFacts Http OAuth SpecOAuth FormFacts HeaderFacts OAuthFacts.
Import ListNotations.
Open Scope N_scope.

(** ** Parameters are never blank *)
Lemma utf8_replace_nonempty b : b <> [] -> utf8_replace b <> [].
Proof.
  destruct b as [|x b]; [congruence|]. intros _. simpl.
  repeat match goal with |- context [if ?c then _ else _] => destruct c | |- context [match ?l with [] => _ | _ :: _ => _ end] => destruct l end; discriminate.
Qed.
Lemma unquote_bytes_nonempty s : s <> [] -> unquote_bytes s <> [].
Proof.
  destruct s as [|x s]; [congruence|]. intros _. simpl.
  destruct (x =? 37); [|discriminate]. destruct s as [|h [|l s]]; try discriminate. destruct (hexval h), (hexval l); discriminate.
Qed.
Lemma unquote_aux_nonempty s : forall acc, s <> [] \/ acc <> [] -> unquote_aux s acc <> [].
Proof.
  induction s as [|c s IH]; intros acc H; simpl.
  - apply utf8_replace_nonempty, unquote_bytes_nonempty. tauto.
  - destruct (c <? 128).
    + apply IH. right. destruct acc; discriminate.
    + destruct (utf8_replace _); discriminate.
Qed.
Lemma unquote_plus_nonempty s : s <> [] -> unquote_plus s <> [].
Proof. intros H. apply unquote_aux_nonempty. left. destruct s; [congruence|discriminate]. Qed.
Lemma parse_qsl_nonblank q : Forall (fun kv => snd kv <> []) (parse_qsl q).
Proof.
  unfold parse_qsl. induction (split_on 38 q) as [|p l IH]; simpl; [constructor|]. apply Forall_app. split; [|auto].
  unfold parse_piece. destruct (split1 61 p) as [[n v]|]; [|constructor]. destruct v as [|x v]; [constructor|].
  constructor; [|constructor]. apply unquote_plus_nonempty. discriminate.
Qed.
Lemma Forall_dset {V} (P : V -> Prop) k v (d : list (str * V)) : P v -> Forall (fun kv => P (snd kv)) d -> Forall (fun kv => P (snd kv)) (dset k v d).
Proof.
  intros Hv. induction d as [|[a b] d IH]; simpl; intros H.
  - repeat constructor; auto.
  - inversion H; subst. destruct (eqs k a); constructor; auto.
Qed.
Lemma Forall_dupdate {V} (P : V -> Prop) (e : list (str * V)) : Forall (fun kv => P (snd kv)) e ->
  forall d, Forall (fun kv => P (snd kv)) d -> Forall (fun kv => P (snd kv)) (dupdate d e).
Proof.
  unfold dupdate. induction e as [|[a b] e IH]; simpl; intros He d H; [auto|].
  inversion He; subst. apply IH; auto. apply Forall_dset; auto.
Qed.
Lemma urldecode_nonblank q : Forall (fun kv => snd kv <> []) (urldecode q).
Proof. apply (Forall_dupdate (fun v : str => v <> [])); [apply parse_qsl_nonblank|constructor]. Qed.
Lemma form_of_nonblank b : Forall (fun kv => snd kv <> []) (form_of b).
Proof. destruct b; [apply urldecode_nonblank|constructor]. Qed.
Lemma made_data r : made r -> Forall (fun kv => snd kv <> []) (rq_data r).
Proof.
  intros (m & url & h & b & u & H). unfold make_request in H.
  apply rbind_ok in H as ([] & _ & H). apply rbind_ok in H as ([] & _ & H). injection H as <-. simpl.
  apply (Forall_dupdate (fun v : str => v <> [])); [apply form_of_nonblank | apply urldecode_nonblank].
Qed.
Lemma made_nonblank r k : made r -> lookup k (rq_data r) <> Some [].
Proof.
  intros H E. apply made_data in H. apply lookup_In in E. rewrite Forall_forall in H. apply (H _ E). reflexivity.
Qed.
Lemma form_nonblank r k : lookup k (form r) <> Some [].
Proof.
  intros E. apply lookup_In in E. pose proof (form_of_nonblank (rq_body r)) as H. rewrite Forall_forall in H. apply (H _ E). reflexivity.
Qed.

(** ** C69 *)
Lemma make_request_ok m url h b u :
  (exists r, make_request m url h b u = Ok r) <-> (lower m = lit "get" \/ lower m = lit "post") /\ bad_netloc (clean_url url) = false.
Proof.
  unfold make_request. split.
  - intros [r H]. apply rbind_ok in H as ([] & H1 & H). apply rbind_ok in H as ([] & H2 & H).
    apply raise_if_ok in H1, H2. apply negb_false_iff, ins_In in H1. simpl in H1. split; [|auto]. intuition auto.
  - intros [H1 H2]. assert (E : ins (lower m) [lit "get"; lit "post"] = true).
    { apply ins_In. simpl. intuition auto. }
    rewrite E, H2. cbn. eauto.
Qed.
Lemma bad_method m url h b u : lower m <> lit "get" -> lower m <> lit "post" -> make_request m url h b u = Err RuntimeError.
Proof.
  intros H1 H2. unfold make_request. assert (E : ins (lower m) [lit "get"; lit "post"] = false).
  { apply ins_nIn. simpl. intuition congruence. }
  rewrite E. reflexivity.
Qed.

Lemma urldecode_NoDup q : NoDup (keys (urldecode q)).
Proof. apply dict_of_NoDup_keys. Qed.
Lemma form_of_NoDup b : NoDup (keys (form_of b)).
Proof. destruct b; [apply urldecode_NoDup|constructor]. Qed.
Lemma data_lookup m url h b u r k : make_request m url h b u = Ok r ->
  lookup k (rq_data r) = match lookup k (form_of b) with Some v => Some v | None => lookup k (urldecode (url_query (clean_url url))) end.
Proof.
  unfold make_request. intros H. apply rbind_ok in H as ([] & _ & H). apply rbind_ok in H as ([] & _ & H). injection H as <-. simpl.
  rewrite lookup_dupdate, lookup_rev by apply form_of_NoDup. auto.
Qed.

(** A URL that [urlsplit] leaves as it is *)
Definition url_clean (u : str) : Prop := Forall (fun c => 32 < c /\ c <> 63 /\ c <> 35) u.
Lemma clean_id u : Forall (fun c => 32 < c) u -> clean_url u = u.
Proof.
  intros H. unfold clean_url.
  assert (E : lstrip_ctl u = u). { destruct u as [|c u]; [auto|]. simpl. inversion H; subst. replace (c <=? 32) with false by lia. auto. }
  rewrite E. clear E. induction H as [|c u Hc H IH]; simpl; [auto|].
  replace (negb ((c =? 9) || (c =? 10) || (c =? 13))) with true by lia. f_equal. auto.
Qed.
Lemma quoted_gt c : quoted_char [38; 61] c = true -> 32 < c < 128 /\ c <> 63 /\ c <> 35.
Proof.
  unfold quoted_char. rewrite !orb_true_iff. intros [[[H|H]|H]|H].
  - unfold always_safe in H. lia.
  - apply inc_In in H. simpl in H. lia.
  - lia.
  - lia.
Qed.
(** The query can not change the network location. *)
Lemma netloc_app u q : netloc_of (u ++ 63 :: q) = netloc_of u.
Proof. induction u as [|c u IH]; simpl; [auto|]. destruct ((c =? 47) || (c =? 63) || (c =? 35)); [auto|]. rewrite IH. auto. Qed.
Lemma split1_app_l c a b x y : split1 c a = Some (x, y) -> split1 c (a ++ b) = Some (x, y ++ b).
Proof. intros H. apply split1_some in H as [-> Hn]. rewrite <- app_assoc. cbn [app]. apply split1_app. auto. Qed.
Lemma drop_scheme_app u q : ~ In 58 q -> drop_scheme (u ++ 63 :: q) = drop_scheme u ++ 63 :: q.
Proof.
  intros Hq. unfold drop_scheme. destruct (split1 58 u) as [[s rest]|] eqn:Es.
  - rewrite (split1_app_l _ _ (63 :: q) _ _ Es). destruct s as [|c s]; [auto|]. destruct (ascii_alpha c && forallb scheme_char s); auto.
  - rewrite (proj2 (split1_none 58 (u ++ 63 :: q))); [auto|]. apply split1_none in Es.
    intros Hin. apply in_app_iff in Hin as [Hin|[Hin|Hin]]; [auto|discriminate|auto].
Qed.
Lemma bad_netloc_app u q : ~ In 58 q -> bad_netloc (u ++ 63 :: q) = bad_netloc u.
Proof.
  intros Hq. unfold bad_netloc. rewrite drop_scheme_app by auto. destruct (drop_scheme u) as [|a [|b r]]; cbn [app].
  - destruct q; auto.
  - destruct ((a =? 47) && (63 =? 47)) eqn:E; [|auto]. rewrite andb_true_iff in E. destruct E. discriminate.
  - rewrite netloc_app. auto.
Qed.
Lemma request_roundtrip m u items1 items2 h usr :
  url_clean u -> bad_netloc u = false -> lower m = lit "get" \/ lower m = lit "post" ->
  NoDup (keys items1) -> NoDup (keys items2) ->
  Forall (fun kv => scalar_str (fst kv) /\ scalar_str (snd kv) /\ snd kv <> []) items1 ->
  Forall (fun kv => scalar_str (fst kv) /\ scalar_str (snd kv) /\ snd kv <> []) items2 ->
  exists q1 q2 r, urlencode_ items1 = Ok q1 /\ urlencode_ items2 = Ok q2 /\
    make_request m (u ++ 63 :: q1) h (Some q2) usr = Ok r /\
    forall k, lookup k (rq_data r) = match lookup k items2 with Some v => Some v | None => lookup k items1 end.
Proof.
  intros Hu Hb Hm N1 N2 F1 F2.
  destruct (p_query_roundtrip items1 N1 F1) as (q1 & E1 & D1). destruct (p_query_roundtrip items2 N2 F2) as (q2 & E2 & D2).
  pose proof (urlencode_chars _ _ E1) as C1. pose proof (urlencode_chars _ _ E2) as C2.
  assert (Hc : clean_url (u ++ 63 :: q1) = u ++ 63 :: q1).
  { apply clean_id. apply Forall_app. split; [eapply Forall_impl; [|exact Hu]; cbv beta; tauto|].
    constructor; [lia|]. eapply Forall_impl; [|exact C1]. intros c Hc. apply quoted_gt in Hc. lia. }
  assert (Hq : url_query (u ++ 63 :: q1) = q1).
  { unfold url_query, url_nofrag.
    assert (Hn : split1 35 (u ++ 63 :: q1) = None).
    { apply split1_none. intros Hin. apply in_app_iff in Hin as [Hin|[Hin|Hin]]; [|discriminate|].
      - unfold url_clean in Hu. rewrite Forall_forall in Hu. apply Hu in Hin. lia.
      - rewrite Forall_forall in C1. apply C1 in Hin. apply quoted_gt in Hin. lia. }
    rewrite Hn, split1_app; [auto|]. intros Hin. unfold url_clean in Hu. rewrite Forall_forall in Hu. apply Hu in Hin. lia. }
  assert (Hs : to_string q2 = q2).
  { apply to_string_ascii. eapply Forall_impl; [|exact C2]. intros c Hx. apply quoted_gt in Hx. lia. }
  destruct (proj2 (make_request_ok m (u ++ 63 :: q1) h (Some q2) usr)) as [r Hr].
  { rewrite Hc, bad_netloc_app; [auto|]. intros Hin. rewrite Forall_forall in C1. apply C1 in Hin. discriminate. }
  exists q1, q2, r. split; [auto|]. split; [auto|]. split; [auto|]. intros k.
  rewrite (data_lookup _ _ _ _ _ _ _ Hr). rewrite Hc, Hq. unfold form_of. rewrite Hs. unfold str, bytes in *. rewrite D1, D2. auto.
Qed.

(** ** C42-C44 *)
Lemma basic_header_get h i s : basic_header h i s -> get_basic_authorization h = Ok (Some (i, s)) /\ i <> [] /\ s <> [].
Proof.
  intros (m & b & Hm & Hi & Ni & Ns & Hsi & Hss & Hb & Ha). split; [|auto]. destruct (p_basic_reads m i s Hm Hi Hsi Hss) as (b' & Eb & H).
  assert (b' = b) by congruence. subst b'. apply (H h 32 []); [exact Ha|constructor; [apply white_spec; reflexivity|constructor]|left; reflexivity].
Qed.
Lemma no_basic_get h : no_basic h -> get_basic_authorization h = Ok None.
Proof.
  unfold get_basic_authorization. intros H. destruct (auth_text h) as [a|] eqn:E; [|auto]. apply auth_text_spec in E as [Hc Hi].
  destruct H as [H|(auth & m & t & H1 & H2 & H3)]; [destruct (H _ Hc Hi)|].
  assert (a = auth). { apply carries_spec in Hc as (x & Ex & _ & ->). apply carries_spec in H1 as (y & Ey & _ & ->). congruence. }
  subst a. apply split_two in H2. rewrite <- basic_letters in H3. unfold split_auth. rewrite H2. cbn [rbind]. destruct (eqs_spec (lower m) (lit "basic")); [contradiction|auto].
Qed.

Lemma arg_has r k v : form_has r k v -> v <> [] -> arg k (form r) = Some v.
Proof. intros H N. apply arg_Some. auto. Qed.
Lemma p_authenticate_complete r i c methods : presents r i c -> allowed_method methods (cl_auth_method c) ->
  exec (authenticate r methods) [OFindClient i (V (Some c))] (V c).
Proof.
  intros Hp Ha.
  assert (Hskip : forall name, (match methods with [] => false | _ => true end) && negb (ins name methods) = true -> ~ allowed_method methods name).
  { intros name Hb [->|Hin]; [discriminate|]. apply ins_In in Hin. rewrite Hin in Hb. destruct methods; discriminate. }
  unfold authenticate, auth_methods. cbn [authenticate_loop].
  destruct Hp as [s Hh Hs Hk | s Hg Ni Ns Hfi Hfs Hs Hk | Hg Ni Hfi Hfs Hs Hk]; rewrite Hk in Ha.
  - destruct (_ && negb (ins (lit "client_secret_basic") methods)) eqn:E1; [destruct (Hskip _ E1 Ha)|].
    apply basic_header_get in Hh as (Hg & Ni & Ns). unfold auth_basic. rewrite Hg.
    destruct i as [|i0 i]; [congruence|]. destruct s as [|s0 s]; [congruence|].
    cbn. exists (V (Some c)), []. split; [reflexivity|]. cbn -[lit eqs eqo]. rewrite Hs, Hk, eqs_refl, (proj2 (eqo_true _ _) eq_refl). cbn. auto.
  - destruct (_ && negb (ins (lit "client_secret_post") methods)) eqn:E2; [destruct (Hskip _ E2 Ha)|].
    assert (Hcont : exec (do oc <- auth_post r;; match oc with None => authenticate_loop [(lit "none", auth_none)] methods r | Some c => ret c end) [OFindClient i (V (Some c))] (V c)).
    { unfold auth_post. rewrite (arg_has _ _ _ Hfi Ni), (arg_has _ _ _ Hfs Ns).
      cbn. exists (V (Some c)), []. split; [reflexivity|]. cbn -[lit eqs eqo]. rewrite Hs, Hk, eqs_refl, (proj2 (eqo_true _ _) eq_refl). cbn. auto. }
    destruct (_ && negb (ins (lit "client_secret_basic") methods)); [exact Hcont|].
    unfold auth_basic at 1. rewrite (no_basic_get _ Hg). exact Hcont.
  - destruct (_ && negb (ins (lit "none") methods)) eqn:E3; [destruct (Hskip _ E3 Ha)|].
    assert (Hcont : exec (do oc <- auth_none r;; match oc with None => authenticate_loop [] methods r | Some c => ret c end) [OFindClient i (V (Some c))] (V c)).
    { unfold auth_none. rewrite (arg_has _ _ _ Hfi Ni). unfold param. unfold form_lacks in Hfs. rewrite Hfs.
      cbn. exists (V (Some c)), []. split; [reflexivity|]. cbn -[lit eqs eqo]. rewrite Hs, Hk, eqs_refl, (proj2 (eqo_true _ _) eq_refl). cbn. auto. }
    assert (Hpost : exec (do oc <- auth_post r;; match oc with None => do oc <- auth_none r;; match oc with None => authenticate_loop [] methods r | Some c => ret c end | Some c => ret c end) [OFindClient i (V (Some c))] (V c)).
    { unfold auth_post. rewrite (arg_has _ _ _ Hfi Ni). unfold arg. unfold form_lacks in Hfs. rewrite Hfs. exact Hcont. }
    destruct (_ && negb (ins (lit "client_secret_post") methods)) eqn:E2;
      (destruct (_ && negb (ins (lit "client_secret_basic") methods)); [|unfold auth_basic at 1; rewrite (no_basic_get _ Hg)]); first [exact Hcont | exact Hpost].
Qed.

Lemma p_auth_not_url m u1 u2 h b usr r1 r2 methods :
  make_request m u1 h b usr = Ok r1 -> make_request m u2 h b usr = Ok r2 -> authenticate r1 methods = authenticate r2 methods.
Proof.
  unfold make_request. intros H1 H2.
  apply rbind_ok in H1 as ([] & _ & H1). apply rbind_ok in H1 as ([] & _ & H1). injection H1 as <-.
  apply rbind_ok in H2 as ([] & _ & H2). apply rbind_ok in H2 as ([] & _ & H2). injection H2 as <-. reflexivity.
Qed.

Lemma p_basic_precedence r tr x i s : basic_header (rq_headers r) i s -> exec (authenticate r []) tr x ->
  exists oc, tr = [OFindClient i oc] /\ forall c, x = V c -> oc = V (Some c) /\ cl_secret c = Some s /\ cl_auth_method c = lit "client_secret_basic".
Proof.
  intros Hh. apply basic_header_get in Hh as (Hg & Ni & Ns). unfold authenticate, auth_methods. cbn [authenticate_loop andb]. unfold auth_basic at 1. rewrite Hg.
  destruct i as [|i0 i]; [congruence|]. destruct s as [|s0 s]; [congruence|].
  intros H. apply exec_pbind in H as [(a & t1 & t2 & -> & H1 & H) | (e & -> & H1)].
  - cbn [lift] in H1. apply exec_pbind in H1 as [(o & t3 & t4 & -> & H3 & H1) | (e & ? & H1)]; [|discriminate].
    apply exec_Ret in H3 as [-> H3]. injection H3 as ->. cbn [app].
    apply exec_pbind in H1 as [(oc & t3 & t5 & -> & H3 & H1) | (e & ? & H1)]; [|discriminate].
    apply exec_call in H3 as ->. cbn [observe app].
    destruct oc as [c|]; [|apply exec_Ret in H1 as [_ H1]; discriminate].
    destruct (eqo (cl_secret c) _) eqn:E1; cbn [negb] in H1; [|apply exec_Ret in H1 as [_ H1]; discriminate].
    destruct (eqs_spec (cl_auth_method c) (lit "client_secret_basic")) as [E2|]; cbn [negb] in H1; [|apply exec_Ret in H1 as [_ H1]; discriminate].
    apply exec_Ret in H1 as [-> H1]. injection H1 as ->. apply exec_Ret in H as [-> ->]. cbn [app].
    exists (V (Some c)). split; [auto|]. intros c' [= <-]. apply eqo_true in E1. auto.
  - cbn [lift] in H1. apply exec_pbind in H1 as [(o & t3 & t4 & -> & H3 & H1) | (e' & ? & H1)]; [|apply exec_Ret in H1 as [_ H1]; discriminate].
    apply exec_Ret in H3 as [-> H3]. injection H3 as ->. cbn [app].
    apply exec_pbind in H1 as [(oc & t3 & t5 & -> & H3 & H1) | (e' & ? & H1)].
    + apply exec_call in H3 as ->. cbn [observe app].
      destruct oc as [c|]; [destruct (negb _); [|destruct (negb _)]|]; apply exec_Ret in H1 as [-> H1]; eexists; (split; [reflexivity|]); discriminate.
    + apply exec_call in H1 as ->. eexists. split; [reflexivity|]. discriminate.
Qed.
