(** The whole flow among other requests: lemmas for C181. *)
From Coq Require Import String Ascii List NArith ZArith Bool Arith.
From Verif Require Import Base BaseFacts SpecReaders Webtools Crypto Jwk Prog ProgFacts Http OAuth SpecOAuth SpecFlow SpecHook Example App SpecApp AppFacts SpecKeep SpecWho SpecAvail AvailFacts LoginLastFacts ResponseFacts.
Import ListNotations.
Open Scope N_scope.

Section WithEnv.
Variable E : env.
Variable p : provider.
Variable hs : hooks.
Variable C : crypto.
Variable aware : bool.
Variable qs : list (page * web).
Variable log : list (nat * aobs).
Variable t0 t : tables.
Hypothesis Hrun : app_running E p hs qs log.
Hypothesis Hst : app_steps C aware t0 (map snd log) t.
Theorem c181_flow j n h wl loc sid u c l1 l2 l3 l4 w r x uri scopes ch md : (forall b, bytes_ok (e_sha256 E b)) -> hashes E -> hk_response hs <> [] ->
  NoDup (map us_id (st_users (tb_store t0))) -> In u (st_users (tb_store t0)) -> NoDup (map cl_id (st_clients (tb_store t0))) -> In c (st_clients (tb_store t0)) -> NoDup (map fst (st_codes (tb_store t0))) ->
  aexec (application E p hs LoginPage wl) (acalls_of j log) (V (RRedirect loc (Some (us_id u, sid)))) ->
  log = l1 ++ l2 ++ l3 ++ l4 -> ~ acted j l1 -> ~ acted j (l3 ++ l4) -> ~ acted n (l1 ++ l2) -> ~ acted n l4 -> ~ acted h (l1 ++ l2 ++ l3) ->
  (forall k q, acted k (l2 ++ l3) -> nth_error qs k = Some q -> ~ logs_out log k q (us_id u)) ->
  aexec (application E p hs AuthorizePage w) (acalls_of n log) x -> wb_cookie w = Some (us_id u, sid) -> wb_method w = chars "GET" -> taken_as w (Some u) r ->
  ano_raise (acalls_of n log) -> scalar_data (rq_data r) -> secrets_ok (lib_calls (acalls_of n log)) ->
  code_request p r u (cl_id c) uri scopes ch md -> In uri (cl_redirects c) -> In (chars "code") (cl_responses c) -> incl scopes (cl_allowed c (Some scopes)) ->
  exists z code, x = V (RResponse z) /\ redirects z uri ((chars "code", code) :: state_params (lookup (chars "state") (rq_data r))) /\
    forall w' r' x' v, (forall k q, acted k (l3 ++ l4) -> k <> h -> nth_error qs k = Some q -> ~ names_code q code) ->
    aexec (application E p hs TokenPage w') (acalls_of h log) x' -> wb_cookie w' = None -> wb_method w' = chars "POST" -> taken_as w' None r' ->
    exchange_request p r' (cl_id c) c code uri v -> pkce_ok (e_sha256 E) md ch v ->
    no_raise (lib_calls (acalls_of h log)) -> texts_ok (lib_calls (acalls_of h log)) ->
    (forall row e, In (OGetCode code (V (Some row))) (lib_calls (acalls_of h log)) -> ac_exp row = Naive e -> before e (lib_calls (acalls_of h log))) ->
    (forall hk, In hk (hk_response hs) -> hook_served E hk (lib_calls (acalls_of h log)) /\ quick (cf_id_token_lifespan (hk_config hk)) (lib_calls (acalls_of h log))) ->
    exists z' a rt, x' = V (RResponse z') /\ In (h, OLib (OCreateAT c (OwnUser u) scopes (V a))) log /\
      created_refresh c (OwnUser u) scopes rt (lib_calls (acalls_of h log)) /\ token_answer z' a (cf_token_lifespan (pv_config p)) rt scopes.
Proof.
  intros Hsha Hhash Hhk Hu1 Hu2 Hc1 Hc2 Hcd Hlog Hl Hj1 Hj3 Hn1 Hn4 Hh Hno Hx Hck Hget Htk Hnr Hsd Hsec Hreq Huri Hresp Hal.
  destruct (c180_authorize E p hs C aware qs log t0 t Hrun Hst j n wl loc sid u c l1 l2 l3 l4 w r x uri scopes ch md) as (z & code & ad & Hz & Hsave & A1 & A2 & A3 & A4 & Hred); auto.
  exists z, code. split; [exact Hz|]. split; [exact Hred|]. intros w' r' x' v Hname Hx' Hck' Hm' Htk' Hex Hpk Hnr' Htx Hbf Hhs. subst uri scopes ch md.
  assert (Hin : In (n, OLib (OSaveCode code ad c u (V tt))) l3).
  { rewrite Hl in Hsave. apply in_app_iff in Hsave as [Hs|Hs]; [destruct Hn1; eexists; apply in_app_iff; left; exact Hs|].
    apply in_app_iff in Hs as [Hs|Hs]; [destruct Hn1; eexists; apply in_app_iff; right; exact Hs|]. apply in_app_iff in Hs as [Hs|Hs]; [exact Hs|destruct Hn4; eexists; exact Hs]. }
  apply in_split in Hin as (a & b & ->).
  destruct Hreq as (_ & _ & Hcid & _ & Hask & _).
  refine (c178_exchange E p hs C aware qs log t0 t Hrun Hst n h code ad c u (l1 ++ l2 ++ a) (b ++ l4) w' r' x' v Hsha Hhash Hhk Hcd _ _ _ Hx' Hck' Hm' Htk' Hex Hpk _ _ Hnr' Htx Hbf Hhs).
  - rewrite Hl, <- !app_assoc. reflexivity.
  - intros (o & Ho). apply Hh. exists o. rewrite !in_app_iff in *. cbn [In]. tauto.
  - intros k q (o & Ho). apply Hname. exists o. rewrite !in_app_iff in *. cbn [In]. tauto.
  - intros Hs. destruct Hask as (Hn & _). apply Hn. exact Hs.
  - apply (ResponseFacts.scalar_data_lookup _ _ _ Hsd Hcid).
Qed.
End WithEnv.
