(** Specifications used by the statements of PropsExt.v: what an application may rely on when it adds grants,
    client authentication methods and hooks. *)
From Coq Require Import String Ascii List NArith ZArith Bool.
From Verif Require Import Base SpecCodec Utf8 Json Url Webtools Prog Http OAuth SpecUrl SpecWrite SpecOAuth Ext.
Import ListNotations.
Open Scope N_scope.

(** ** Authentication *)

(** The methods of the list that are allowed were tried in turn, with the calls [tr], and none applied. *)
Inductive declined (methods : list str) (r : request) : list xmethod -> list xobs -> Prop :=
| declined_nil : declined methods r [] []
| declined_skip : forall m l tr, ~ allowed_method methods (xm_name m) -> declined methods r l tr -> declined methods r (m :: l) tr
| declined_none : forall m l t1 t2, allowed_method methods (xm_name m) -> xexec (xm_auth m r) t1 (V None) ->
    declined methods r l t2 -> declined methods r (m :: l) (t1 ++ t2).
(** The first allowed method that did not decline ended with [y]. *)
Definition decided (ms : list xmethod) (methods : list str) (r : request) (tr : list xobs) (y : res (option client)) : Prop :=
  exists l1 m l2 t1 t2, ms = l1 ++ m :: l2 /\ tr = t1 ++ t2 /\ declined methods r l1 t1 /\
    allowed_method methods (xm_name m) /\ xexec (xm_auth m r) t2 y /\ y <> V None.
Definition authenticated ms methods r tr c : Prop := decided ms methods r tr (V (Some c)).
(** A refusal: the method that applied raised [e], or none applied and [e] is invalid_client. *)
Definition refused ms methods r tr (e : oexn) : Prop :=
  decided ms methods r tr (X e) \/
  declined methods r ms tr /\ e = OA {| oe_kind := InvalidClient; oe_desc := None; oe_uri := None; oe_state := None; oe_headers := [] |}.

(** ** Endpoints *)

(** The first grant of the provider with this grant or response type *)
Definition chosen (name : xgrant -> option str) (gs : list xgrant) (t : str) (g : xgrant) : Prop :=
  exists l1 l2, gs = l1 ++ g :: l2 /\ name g = Some t /\ forall h, In h l1 -> name h <> Some t.
(** RFC 6749 sections 5.1 and 5.2: the response to what the grant did, [y].  Python's exceptions are not caught;
    a text without UTF-8 encoding raises one. *)
Definition json_answer (status : N) (v : pyval) (x : res response) : Prop :=
  (exists a, x = V a /\ rs_status a = status /\ octets_of v (rs_body a) /\ header_is a "Content-Type" "application/json" /\
     header_is a "Cache-Control" "no-store" /\ header_is a "Pragma" "no-cache") \/
  ((forall b, ~ octets_of v b) /\ x = X (Py UnicodeEncodeError)).
Definition optional (k : string) (o : option str) : params := match o with Some s => [(lit k, s)] | None => [] end.
Definition error_pairs (e : oauth_error) : params :=
  (lit "error", error_code (oe_kind e)) :: optional "error_description" (oe_desc e) ++ optional "error_uri" (oe_uri e) ++ optional "state" (oe_state e).
Definition error_dict (e : oauth_error) : pdict := map (fun kv => (fst kv, PStr (snd kv))) (error_pairs e).
Definition grant_answer (y : res pyval) (x : res response) : Prop :=
  match y with
  | V v => json_answer 200 v x
  | X (OA e) => ~ In (lit "Content-Type") (keys (oe_headers e)) -> NoDup (keys (oe_headers e)) -> json_answer 400 (PDict (error_dict e)) x
  | X (Py e) => x = X (Py e)
  end.
(** RFC 6749 sections 4.1.2 and 4.1.2.1: the response to what the grant did, [y]: to the URL that it made, or
    with an error to the redirect URI of the request, or to the error page of the provider. *)
Definition target (cfg : config) (uri : str) (e : oauth_error) : str :=
  match oe_kind e with Fatal _ => cf_error_url cfg | _ => uri end.
Definition redirect_answer (cfg : config) (uri : str) (y : res str) (x : res response) : Prop :=
  match y with
  | V url => (exists l a, header_text url l /\ x = V a /\ rs_status a = 303 /\ rs_body a = [] /\ lookup (lit "Location") (rs_headers a) = Some (PStr l)) \/
             ((forall l, ~ header_text url l) /\ x = X (Py UnicodeEncodeError))
  | X (OA e) => forall a, x = V a -> redirects a (target cfg uri e) (error_pairs e)
  | X (Py e) => x = X (Py e)
  end.

(** ** Hooks *)

(** The hooks of [l] ran in turn, with the calls [tr], starting from the dict [d], and answered [us]. *)
Inductive chain {B} (give : B -> pdict -> xprog pdict) : list B -> pdict -> list xobs -> list pdict -> Prop :=
| chain_nil : forall d, chain give [] d [] []
| chain_cons : forall h l d t1 u t2 us, xexec (give h d) t1 (V u) -> chain give l (dupdate d u) t2 us ->
    chain give (h :: l) d (t1 ++ t2) (u :: us).
(** The value of [k] after the dicts [us], of which the last one with [k] counts *)
Fixpoint latest (k : str) (v : option pyval) (us : list pdict) : option pyval :=
  match us with
  | [] => v
  | u :: r => latest k (match lookup k u with Some x => Some x | None => v end) r
  end.
Definition updated (d : pdict) (us : list pdict) (d' : pdict) : Prop :=
  Forall (fun u => NoDup (keys u)) us -> forall k, lookup k d' = latest k (lookup k d) us.

(** The number of grants of the provider that are instances of [cls] and have the table [i] *)
Definition sharing (grants : list grant_cls) (cls i : N) : nat :=
  length (filter (fun g => if in_dec N.eq_dec cls (gc_mro g) then gc_table g =? i else false) grants).

(** RFC 7636 section 4.3 and RFC 6749 section 4.1.1: the authorization request has what the code grant needs, and [d] are
    the members that it makes of them. *)
Definition authorization_members (data : params) (d : pdict) : Prop :=
  exists challenge method uri scope ws state,
    lookup (lit "code_challenge") data = Some challenge /\ (43 <= length challenge <= 128)%nat /\
    lookup (lit "code_challenge_method") data = Some method /\ (method = lit "plain" \/ method = lit "S256") /\
    lookup (lit "redirect_uri") data = Some uri /\ lookup (lit "scope") data = Some scope /\ (forall w, In w ws <-> token_of w scope) /\
    match lookup (lit "state") data with Some s => state = PStr s | None => state = PNone end /\
    d = [(lit "code_challenge", PStr challenge); (lit "code_challenge_method", PStr method); (lit "redirect_uri", PStr uri);
         (lit "scopes", PList (map PStr ws)); (lit "state", state)].
(** The member [k] of the dict is the text [s]. *)
Definition member (d : pdict) (k : string) (s : str) : Prop := lookup (lit k) d = Some (PStr s).
(** The token response before the hooks (RFC 6749 section 5.1) *)
Definition token_members (life : Z) (at_ : str) (rt : option str) (scopes : list str) (d : pdict) : Prop :=
  d = (lit "access_token", PStr at_) :: (lit "token_type", PStr (lit "Bearer")) :: (lit "expires_in", PInt life) ::
      match rt with Some t => [(lit "refresh_token", PStr t)] | None => [] end ++
      match scopes with [] => [] | _ => [(lit "scope", PStr (join [32] scopes))] end.

(** ** The library alone *)

(** The calls of the library with its own grants, methods and hooks, as they appear here: the dict that is
    saved with a code has the nonce when the OpenID Connect hook is registered and the request has one. *)
Definition saved_dict (ad : auth_data) : pdict :=
  [(lit "code_challenge", PStr (ad_challenge ad)); (lit "code_challenge_method", PStr (ad_method ad));
   (lit "redirect_uri", PStr (ad_redirect ad)); (lit "scopes", PList (map PStr (ad_scopes ad)));
   (lit "state", match ad_state ad with Some s => PStr s | None => PNone end)] ++
  match ad_nonce ad with Some n => [(lit "nonce", PStr n)] | None => [] end.
Definition seen (o : obs) : xobs :=
  match o with OSaveCode code ad c u r => XSave code (saved_dict ad) c u r | o => XO o end.
Definition same {A} (p : prog A) (q : xprog A) : Prop :=
  forall t x, xexec q t x <-> exists tr, t = map seen tr /\ exec p tr x.
(** RFC 6749 section 4.1.3 and RFC 7636 section 4.5: the members of the token request for a code *)
Definition exchange_members (data : params) (d : pdict) : Prop :=
  exists code uri verifier, lookup (lit "code") data = Some code /\ lookup (lit "redirect_uri") data = Some uri /\
    lookup (lit "code_verifier") data = Some verifier /\
    d = [(lit "code", PStr code); (lit "redirect_uri", PStr uri); (lit "code_verifier", PStr verifier)].
(** The provider with more grants after its own *)
Definition with_grants (p : xprovider) (gs : list xgrant) : xprovider :=
  {| xp_config := xp_config p; xp_grants := xp_grants p ++ gs; xp_methods := xp_methods p |}.
