(** Requests and consent in terms of the texts of SpecReaders.v: lemmas for C69, C71 and C86. *)
From Coq Require Import String Ascii List NArith ZArith Bool.
From Verif Require Import Base BaseFacts SpecCodec Utf8 Utf8Facts Json Url UrlFacts Webtools WebtoolsFacts Jwk Prog ProgFacts Http OAuth SpecOAuth RequestFacts AuthzFacts RfcFacts
  SpecReaders ReaderFacts FormFacts HeaderFacts FormAllFacts UrlQuoteFacts.
Import ListNotations.
Open Scope N_scope.

Lemma method_lower m : (lower m = lit "get" \/ lower m = lit "post") <-> same_letters m (chars "get") \/ same_letters m (chars "post").
Proof. rewrite <- method_iff, ins_In. cbn [In]. intuition congruence. Qed.
Lemma request_error m url h b usr e : make_request m url h b usr = Err e <->
  (e = RuntimeError /\ ~ (same_letters m (chars "get") \/ same_letters m (chars "post"))) \/
  (e = ValueError /\ (same_letters m (chars "get") \/ same_letters m (chars "post")) /\ exists u, cleaned url u /\ ~ brackets_match u).
Proof.
  unfold make_request. rewrite <- method_iff. destruct (ins _ _) eqn:Em; cbn [negb raise_if rbind].
  - assert (B : (exists u, cleaned url u /\ ~ brackets_match u) <-> bad_netloc (clean_url url) = true).
    { split.
      - intros (u & Hu & Hb). apply cleaned_iff in Hu. subst u. rewrite brackets_iff in Hb. destruct (bad_netloc _); congruence.
      - intros Hb. exists (clean_url url). split; [apply cleaned_iff; reflexivity|]. rewrite brackets_iff. congruence. }
    rewrite B. destruct (bad_netloc _); cbn [raise_if rbind]; split.
    + intros H. injection H as <-. auto.
    + intros [[_ H]|[-> _]]; [congruence|reflexivity].
    + discriminate.
    + intros [[_ H]|(_ & _ & H)]; congruence.
  - split; [intros H; injection H as <-; left; split; [reflexivity|discriminate]|]. intros [[-> _]|(_ & H & _)]; [reflexivity|discriminate].
Qed.
Lemma r_roundtrip m u items1 items2 h usr : url_clean u -> brackets_match u -> (same_letters m (chars "get") \/ same_letters m (chars "post")) ->
  NoDup (keys items1) -> NoDup (keys items2) ->
  Forall (fun kv => scalar_str (fst kv) /\ scalar_str (snd kv) /\ snd kv <> []) items1 ->
  Forall (fun kv => scalar_str (fst kv) /\ scalar_str (snd kv) /\ snd kv <> []) items2 ->
  exists q1 q2 r, SpecUrl.query_text items1 q1 /\ SpecUrl.query_text items2 q2 /\
    make_request m (u ++ 63 :: q1) h (Some q2) usr = Ok r /\
    forall k, lookup k (rq_data r) = match lookup k items2 with Some v => Some v | None => lookup k items1 end.
Proof.
  intros H1 H2 H3 N1 N2 F1 F2. destruct (request_roundtrip m u items1 items2 h usr) as (q1 & q2 & r & E1 & E2 & E3); auto; [apply brackets_iff, H2|apply method_lower, H3|].
  exists q1, q2, r. split; [apply query_iff, E1|]. split; [apply query_iff, E2|exact E3].
Qed.
Lemma r_last_value m u items1 items2 h usr : url_clean u -> brackets_match u -> (same_letters m (chars "get") \/ same_letters m (chars "post")) ->
  Forall (fun kv => scalar_str (fst kv) /\ scalar_str (snd kv) /\ snd kv <> []) items1 ->
  Forall (fun kv => scalar_str (fst kv) /\ scalar_str (snd kv) /\ snd kv <> []) items2 ->
  exists q1 q2 r, SpecUrl.query_text items1 q1 /\ SpecUrl.query_text items2 q2 /\
    make_request m (u ++ 63 :: q1) h (Some q2) usr = Ok r /\
    forall k, lookup k (rq_data r) = lookup k (rev (items1 ++ items2)).
Proof.
  intros H1 H2 H3 F1 F2. destruct (p_last_value m u items1 items2 h usr) as (q1 & q2 & r & E1 & E2 & E3); auto; [apply brackets_iff, H2|apply method_lower, H3|].
  exists q1, q2, r. split; [apply query_iff, E1|]. split; [apply query_iff, E2|exact E3].
Qed.
Lemma r_consent p r tr c sc : exec (get_consent_data p r) tr (V (Consent c sc)) ->
  exists cid uri rt s l, tr = [OFindClient cid (V (Some c))] /\ data_has r "client_id" cid /\
    data_has r "redirect_uri" uri /\ In uri (cl_redirects c) /\ data_has r "response_type" rt /\ In rt (cl_responses c) /\
    data_has r "scope" s /\ word_list (fun c => In c white) s l /\ sc = cl_allowed c (Some l) /\ (restricts c -> forall x, In x sc -> In x l).
Proof.
  intros H. destruct (p_consent _ _ _ _ _ H) as (cid & uri & rt & s & H1 & H2 & H3 & H4 & H5 & H6 & H7 & H8 & H9).
  exists cid, uri, rt, s, (words s). do 7 (split; [assumption|]). split; [apply words_iff; reflexivity|]. split; [exact H8|].
  intros Hr x Hx. subst sc. apply Hr in Hx. exact Hx.
Qed.
