(** What remains true of refuted properties: parts of C19, C28, C75, C78, C100, C102, C104, C111 and C113. *)
From Coq Require Import String Ascii List NArith ZArith Bool.
From Verif Require Import Base BaseFacts SpecCodec SpecReaders SpecKey SpecPart Utf8 Base64 Json JsonFacts Url Webtools Crypto RefCrypto Jwk Jws SpecJws JwsRef Prog Http OAuth SpecOAuth SpecHistory SpecFlow Example OAuthRef OAuthWit HistoryWit FlowWit RequestFacts App SpecApp AppFacts AppWit SpecLife LifeFacts LifeWit SpecJoseErr TokenWriteFacts TokenWriteWit PartFacts LogoutFacts DescFacts LifetimeFacts LifetimeWit.
Import ListNotations.
Open Scope string_scope.
Open Scope list_scope.
Open Scope N_scope.

(** C19.  The export of a symmetric key is the Base64 text of what the secret itself, read as Base64, stands for. *)
Theorem C19_export_iff_partial : forall C k s pub b, jmat k = KOct s ->
  (jwk_export C k pub = Ok b <-> exists t, base64_text any_values (s ++ repeat 61 (Nat.modulo (length s) 4)) t /\ b = rfc4648 t).
Proof. exact p_export_iff. Qed.
Print Assumptions C19_export_iff_partial.
(** Only when the secret is the base64url text of some octets does the export return the Base64 text of these. *)
Theorem C19_nested_partial : forall C d k s pub t, JsonWebKey C (PDict d) = Ok k -> jmat k = KOct s -> bytes_ok t -> s = rfc4648_url t -> jwk_export C k pub = Ok (rfc4648 t).
Proof. exact p_export_inner. Qed.
Print Assumptions C19_nested_partial.
Example C19_partial_example : exists k, JsonWebKey ref (PDict [(lit "kty", PStr (lit "oct")); (lit "k", PStr (rfc4648_url (lit "-_8")))]) = Ok k /\ jmat k = KOct (lit "-_8") /\
  lit "-_8" = rfc4648_url [251; 255] /\ bytes_ok [251; 255] /\ jwk_export ref k true = Ok (lit "+/8=").
Proof. eexists. split; [vm_compute; reflexivity|]. split; [reflexivity|]. split; [reflexivity|]. split; [repeat constructor; reflexivity|]. vm_compute. reflexivity. Qed.

(** C28.  A key whose operations include another one than to sign or verify does neither. *)
Theorem C28_other_operations_partial : forall C k l x, constructible C k -> dget (lit "key_ops") (jdata k) = PList l -> In x l -> x <> PStr (lit "sign") -> x <> PStr (lit "verify") ->
  (forall token algv j, deserialize C token (Some k) algv true <> Ok j) /\
  (forall rand d h payload token, NoDup (keys d) -> JsonWebSignatureHeader (PDict d) = Ok h -> serialize C rand {| jheader := h; jpayload := payload |} (Some k) <> Ok token).
Proof. exact p_other_ops. Qed.
Print Assumptions C28_other_operations_partial.
Example C28_partial_example : let k := oct_key [(lit "key_ops", PList [PStr (lit "sign"); PStr (lit "encrypt")])] in
  constructible ref k /\ dget (lit "key_ops") (jdata k) = PList [PStr (lit "sign"); PStr (lit "encrypt")] /\ serialize ref [] hs_jws (Some k) = Err InvalidKey /\
  (exists h, JsonWebSignatureHeader (PDict [(lit "alg", PStr (lit "HS256"))]) = Ok h).
Proof.
  split; [exists (oct_dict [(lit "key_ops", PList [PStr (lit "sign"); PStr (lit "encrypt")])]); split; [apply nodupb_spec; reflexivity|vm_compute; reflexivity]|].
  split; [reflexivity|]. split; [vm_compute; reflexivity|]. eexists. vm_compute. reflexivity.
Qed.

(** C75.  A number of an EC key has the octets of its size, and all those of a coordinate exactly if its first octet is not 0. *)
Theorem C75_octets_partial : forall C d k c x y o pub out name n, JsonWebKey C (PDict d) = Ok k -> jmat k = KEC c x y o -> jwk_dump k pub = Ok out ->
  In (name, n) [(lit "x", x); (lit "y", y)] \/ (pub = false /\ name = lit "d" /\ o = Some n) ->
  exists b, lookup name out = Some (PStr (rfc4648_url b)) /\ bytes_ok b /\ be_value b = n /\
    (length b <= coord_octets c)%nat /\ (length b = coord_octets c <-> 256 ^ N.of_nat (coord_octets c - 1) <= n).
Proof. exact p_ec_octets. Qed.
Print Assumptions C75_octets_partial.
Example C75_partial_example : let ex_ec := [(lit "kty", PStr (lit "EC")); (lit "crv", PStr (lit "P-256")); (lit "x", num_str (fst (base_point P256))); (lit "y", num_str (snd (base_point P256)))] in exists k x y o out, JsonWebKey ref (PDict ex_ec) = Ok k /\ jmat k = KEC P256 x y o /\ jwk_dump k true = Ok out /\
  256 ^ N.of_nat (coord_octets P256 - 1) <= x /\ option_map (fun v => match v with PStr s => length s | _ => O end) (lookup (lit "x") out) = Some 43%nat.
Proof. cbv zeta. do 5 eexists. split; [vm_compute; reflexivity|]. split; [reflexivity|]. split; [vm_compute; reflexivity|]. split; [vm_compute; discriminate|vm_compute; reflexivity]. Qed.

(** C78.  An RSA key that signs has room for the encoded digest (RFC 8017 sections 8.1.1 and 8.2.1).  This is less than the 2048 bits
    of RFC 7518. *)
Theorem C78_rsa_room_partial : forall C rand d h payload k token name, NoDup (keys d) -> JsonWebSignatureHeader (PDict d) = Ok h -> constructible C k -> signs_by_size C (jmat k) ->
  serialize C rand {| jheader := h; jpayload := payload |} (Some k) = Ok token -> lookup (lit "alg") d = Some (PStr name) ->
  signing_room (jmat k) name.
Proof. exact p_rsa_room. Qed.
Print Assumptions C78_rsa_room_partial.
(** 512 bits are enough for RS256, not for RS384. *)
Example C78_partial_example : exists k, signer = Some k /\ constructible sized k /\ signs_by_size sized (jmat k) /\
  let signed name := match (let! h := JsonWebSignatureHeader (PDict [(lit "alg", PStr (lit name))]) in serialize sized [] {| jheader := h; jpayload := lit "x" |} (Some k)) with Ok _ => None | Err e => Some e end in
  signed "RS256" = None /\ signed "RS384" = Some ValueError.
Proof.
  destruct signer_good as (k & Hs & Hk & Hb). exists k. do 3 (split; [assumption|]). cbv zeta.
  assert (H : match signer with Some k => let signed name := match (let! h := JsonWebSignatureHeader (PDict [(lit "alg", PStr (lit name))]) in serialize sized [] {| jheader := h; jpayload := lit "x" |} (Some k)) with Ok _ => None | Err e => Some e end in
    signed "RS256" = None /\ signed "RS384" = Some ValueError | None => False end) by (vm_compute; split; reflexivity).
  rewrite Hs in H. exact H.
Qed.

(** C100.  When a user has neither a session nor a refresh token, as after the logout, and nobody submits their password, a
    token for them goes back to a code that was stored already. *)
Theorem C100_after_logout_partial : forall E p hs C aware qs log t t' l1 n o l2 c u sc, (forall b, bytes_ok (e_sha256 E b)) -> order_ok E ->
  app_running E p hs qs log -> app_steps C aware t (map snd log) t' -> logged_out (us_id u) t -> (forall q, In q qs -> ~ submits_password t (us_id u) q) ->
  log = l1 ++ (n, OLib o) :: l2 -> (exists y, o = OCreateAT c (OwnUser u) sc y) \/ (exists y, o = OCreateRT c (OwnUser u) sc y) ->
  exists m code ac, In (code, ac) (st_codes (tb_store t)) /\ ac_user ac = us_id u /\ In (m, OLib (OGetCode code (V (Some ac)))) l1.
Proof. exact p_after_logout. Qed.
Print Assumptions C100_after_logout_partial.
Example C100_partial_example : let w := after (firstn 3 late_visits) aworld0 in let qs := [(TokenPage, token_visit (plain_code (lit "tok6")))] in let t := aw_tables w in
  app_running ref_env prov oidc qs (log_of 0 qs w) /\ app_steps light false t (map snd (log_of 0 qs w)) (aw_tables (after qs w)) /\ logged_out (us_id alice) t /\
  (forall q, In q qs -> ~ submits_password t (us_id alice) q) /\
  (exists l1 l2 sc y, log_of 0 qs w = l1 ++ (0%nat, OLib (OCreateAT OAuthRef.web (OwnUser alice) sc (V y))) :: l2).
Proof.
  cbv zeta. split; [apply history_running|]. split; [exact (log_steps _ 0 _)|]. split.
  { split; [intros sid H|intros k rt H]; vm_compute in H; repeat (destruct H as [H|H]; [discriminate|]); destruct H. }
  split; [intros q [<-|[]] H; unfold submits_password in H; cbn in H; intuition discriminate|]. exists (firstn 4 (log_of 0 [(TokenPage, token_visit (plain_code (lit "tok6")))] (after (firstn 3 late_visits) aworld0))), (skipn 5 (log_of 0 [(TokenPage, token_visit (plain_code (lit "tok6")))] (after (firstn 3 late_visits) aworld0))). do 2 eexists. wit.
Qed.

(** C102.  Without a query the login leads to the home page, and so does the page of the login for a user who is logged in. *)
Theorem C102_home_partial : forall E p hs w tr l ck, aexec (application E p hs LoginPage w) tr (V (RRedirect l ck)) -> is_origin (wb_base w) ->
  ~ In 63 (wb_url w) \/ ck = None -> l = wb_base w ++ lit "/".
Proof. exact p_login_home. Qed.
Print Assumptions C102_home_partial.
Example C102_partial_example : let w := visit "POST" (lit "/auth/login") [] [] None right_form in
  aresult (ago (LoginPage, w) aworld0) = V (RRedirect (wb_base w ++ lit "/") (Some (lit "alice", lit "tok2"))) /\ is_origin (wb_base w) /\ existsb (N.eqb 63) (wb_url w) = false.
Proof. cbv zeta. split; [wit|]. split; [exact host_origin|wit]. Qed.

(** C113.  Every other character of a description than those of RFC 6749 is a quotation mark or comes from the request; *)
Theorem C113_token_partial : forall E p hs r tr z d v, exec (token_endpoint E p hs r) tr (V z) -> no_oauth_raise tr -> rs_status z = 400 -> json_body z d -> lookup (lit "error_description") d = Some v ->
  exists desc, v = PStr desc /\ Forall (fun c => description_char c \/ c = 34 \/ sent_char r c) desc.
Proof. exact p_token_descriptions. Qed.
Print Assumptions C113_token_partial.
Theorem C113_authorization_partial : forall E p hs r tr x, exec (authorization_endpoint E p hs r) tr (V x) -> made r -> no_oauth_raise tr -> tokens_ok tr ->
  exists uri ps, redirects x uri ps /\ forall v, In (lit "error_description", v) ps -> Forall (fun c => description_char c \/ c = 34 \/ sent_char r c) v.
Proof. exact p_authz_descriptions. Qed.
Print Assumptions C113_authorization_partial.
(** for the consent page and the revocation endpoint it is a quotation mark. *)
Theorem C113_consent_partial : forall p r tr x, exec (get_consent_data p r) tr (V (ConsentRedirect x)) -> made r -> no_oauth_raise tr ->
  exists uri ps, redirects x uri ps /\ forall v, In (lit "error_description", v) ps -> Forall (fun c => description_char c \/ c = 34) v.
Proof. exact p_consent_descriptions. Qed.
Print Assumptions C113_consent_partial.
Theorem C113_revocation_partial : forall r tr z d v, exec (revocation_endpoint r) tr (V (Some z)) -> no_oauth_raise tr -> rs_status z <> 200 -> json_body z d -> lookup (lit "error_description") d = Some v ->
  exists desc, v = PStr desc /\ Forall (fun c => description_char c \/ c = 34) desc.
Proof. exact p_revocation_descriptions. Qed.
Print Assumptions C113_revocation_partial.
Example C113_partial_example : let r := token_req (basic "web" "s3cret") [(lit "grant_type", [233; 34; 92])] in
  exec (token_endpoint ref_env prov oidc r) (trace_of (tok r world0)) (result_of (tok r world0)) /\ status_of (result_of (tok r world0)) = 400 /\ trace_of (tok r world0) = [] /\
  sent_char r 233 /\ sent_char r 92 /\ ~ sent_char r 91 /\ made no_scope_req /\ no_raise (trace_of consent1) /\
  option_map rs_status (answer (result_of (run_revoke (basic "web" "wrong") [L "token" "tok8"]))) = Some 401.
Proof.
  cbv zeta. split; [unfold tok; apply go_exec|]. split; [wit|]. split; [wit|]. split; [exists (lit "grant_type"), [233; 34; 92]; split; [left; reflexivity|left; reflexivity]|].
  split; [exists (lit "grant_type"), [233; 34; 92]; split; [left; reflexivity|right; right; left; reflexivity]|].
  split; [intros (k & v & Hd & Hv); replace (rq_data _) with [(lit "grant_type", [233; 34; 92])] in Hd by wit; destruct Hd as [Hd|[]]; apply (f_equal snd) in Hd; cbn [snd] in Hd; subst v; cbn in Hv; intuition discriminate|]. split; [unfold no_scope_req; apply req_made; wit|]. split; [apply no_raise_at; wit|wit].
Qed.

(** C104.  A refresh token of the example that is created, because none is stored for its client and owner, can be used for
    two weeks, unless the client revokes it, *)
Theorem C104_fresh_partial : forall E p hs C ch c o sc s k s1 l s2 r tr x s3 i ou, order_ok E ->
  ex_do C false ch (CreateRT c o sc) s = (V (Some k), s1) -> (forall k' v, In (k', v) (st_rts s) -> rt_client v = cl_id c -> ~ owned_by o (rt_user v)) ->
  ex_steps C false s1 l s2 -> (forall c' h, cl_id c' = cl_id c -> ~ In (ORevokeToken c' k h (V tt)) l) ->
  exec (token_endpoint E p hs r) tr x -> ex_steps C false s2 tr s3 -> no_raise tr -> texts_ok tr ->
  In GRefresh (pv_grants p) -> In (lit "refresh_token") (cl_grants c) -> presents r i c ->
  data_has r "grant_type" (lit "refresh_token") -> data_has r "refresh_token" k -> k <> [] -> asks_none r ->
  finds_client i c tr -> (forall uid y, owned_by o uid -> In (OFindUser uid y) tr -> y = V ou) -> before (ch_now ch + seconds 1209600) tr ->
  exists z a new sc' sc0, x = V z /\ (forall w, In w sc' <-> In w sc) /\
    In (OCreateAT c (match ou with Some u => OwnUser u | None => OwnNone end) (cl_allowed c (Some sc')) (V a)) tr /\
    token_answer z a (cf_token_lifespan (pv_config p)) new sc0.
Proof. exact p_refresh_within. Qed.
Print Assumptions C104_fresh_partial.
(** and not any longer. *)
Theorem C104_until_partial : forall E p hs C ch c o sc s k s1 l s2 r tr x s3,
  ex_do C false ch (CreateRT c o sc) s = (V (Some k), s1) -> (forall k' v, In (k', v) (st_rts s) -> rt_client v = cl_id c -> ~ owned_by o (rt_user v)) ->
  ex_steps C false s1 l s2 -> (forall c' h, cl_id c' = cl_id c -> ~ In (ORevokeToken c' k h (V tt)) l) ->
  exec (token_endpoint E p hs r) tr (V x) -> ex_steps C false s2 tr s3 -> rs_status x = 200 ->
  data_has r "grant_type" (lit "refresh_token") -> data_has r "refresh_token" k ->
  exists i z y now off rest, tr = OFindClient i z :: OGetRT k y :: ONow (V (now, off)) :: rest /\ (now < ch_now ch + seconds 1209600)%Z.
Proof. exact p_refresh_until. Qed.
Print Assumptions C104_until_partial.
Example C104_partial_example : let tr := trace_of last_refresh in
  ex_do light false choice_rt (CreateRT OAuthRef.web (OwnUser alice) [lit "openid"; lit "email"]) store0 = (V (Some (lit "tok8")), store_rt) /\
  exec (token_endpoint ref_env prov no_hooks (refresh_req (lit "tok8"))) tr (result_of last_refresh) /\
  ex_steps light false store_rt tr (w_store (world_of last_refresh)) /\ no_raise tr /\ texts_ok tr /\
  In GRefresh (pv_grants prov) /\ In (lit "refresh_token") (cl_grants OAuthRef.web) /\ presents (refresh_req (lit "tok8")) (lit "web") OAuthRef.web /\
  data_has (refresh_req (lit "tok8")) "grant_type" (lit "refresh_token") /\ data_has (refresh_req (lit "tok8")) "refresh_token" (lit "tok8") /\ lit "tok8" <> [] /\ asks_none (refresh_req (lit "tok8")) /\
  finds_client (lit "web") OAuthRef.web tr /\ (forall uid y, owned_by (OwnUser alice) uid -> In (OFindUser uid y) tr -> y = V (Some alice)) /\ before (ch_now choice_rt + seconds 1209600) tr /\
  status_of (result_of last_refresh) = 200 /\ status_of (result_of late_refresh) = 400.
Proof. exact last_refresh_premises. Qed.

(** C111.  For a day a code of the example can be exchanged, as long as nobody presented it. *)
Theorem C111_within_partial : forall E p hs C aware ch code ad c u s s1 l s2 r tr x s3 i v u', (forall b, bytes_ok (e_sha256 E b)) ->
  ex_do C aware ch (SaveCode code ad c u) s = (V tt, s1) -> ex_steps C aware s1 l s2 -> (forall o, In o l -> touches_code code o = false) ->
  exec (token_endpoint E p hs r) tr x -> ex_steps C aware s2 tr s3 -> no_raise tr -> texts_ok tr -> hk_response hs = [] ->
  exchange_request p r i c code (ad_redirect ad) v -> pkce_ok (e_sha256 E) (ad_method ad) (ad_challenge ad) v ->
  finds_client i c tr -> finds_user (us_id u) u' tr -> before (ch_now ch + seconds 86400) tr ->
  exists z a rt, x = V z /\ In (OCreateAT c (OwnUser u') (ad_scopes ad) (V a)) tr /\ created_refresh c (OwnUser u') (ad_scopes ad) rt tr /\
    token_answer z a (cf_token_lifespan (pv_config p)) rt (ad_scopes ad).
Proof. exact p_code_within. Qed.
Print Assumptions C111_within_partial.
Example C111_partial_example : ex_do light false choice1 (SaveCode the_code ad1 OAuthRef.web alice) store0 = (V tt, w_store (world_of run1)) /\ let tr := trace_of last_second in
  exec (token_endpoint ref_env prov no_hooks (code_req the_code)) tr (result_of last_second) /\
  ex_steps light false (w_store (world_of run1)) tr (w_store (world_of last_second)) /\ no_raise tr /\ texts_ok tr /\
  exchange_request prov (code_req the_code) (lit "web") OAuthRef.web the_code (ad_redirect ad1) (lit verifier) /\
  pkce_ok (e_sha256 ref_env) (ad_method ad1) (ad_challenge ad1) (lit verifier) /\
  finds_client (lit "web") OAuthRef.web tr /\ finds_user (us_id alice) alice tr /\ before (ch_now choice1 + seconds 86400) tr /\ status_of (result_of last_second) = 200.
Proof. exact (conj saved1 last_second_premises). Qed.
