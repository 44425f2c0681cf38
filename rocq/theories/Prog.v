(** Programs of the OAuth 2.1 part: the objects they exchange, the exceptions they raise, the calls they
    make to the application (the adapter, the clock, randomness), and what it means to execute one.

    src/psion/oauth2/adapter.py, mixins.py, config.py, exceptions.py. *)
From Coq Require Import String Ascii List NArith ZArith Bool.
From Verif Require Import Base Jwk.
Import ListNotations.
Open Scope N_scope.

(** ** Objects of the application *)

(** oauth2/mixins.py 108-202 [ClientMixin]: the results of its methods.  [get_allowed_scopes] is any
    function of the argument (None or a list).  Objects are truthy (the mixins define neither
    [__bool__] nor [__len__]). *)
Record client := {
  cl_id : str;
  cl_secret : option str;
  cl_auth_method : str;
  cl_redirects : list str;
  cl_grants : list str;
  cl_responses : list str;
  cl_allowed : option (list str) -> list str
}.

(** oauth2/mixins.py 264-280 [UserMixin]; [us_info] are the attributes that only the application reads. *)
Record user := { us_id : str; us_info : pdict }.

(** A [datetime] in microseconds since the epoch; without or with time zone. *)
Inductive dtime := Naive (us : Z) | Aware (us : Z).

(** oauth2/mixins.py 8-105 [AuthorizationCodeMixin] *)
Record auth_code := {
  ac_client : str; ac_user : str; ac_redirect : str; ac_scopes : list str;
  ac_challenge : str; ac_method : str; ac_nonce : option str; ac_exp : dtime
}.

(** oauth2/mixins.py 205-261 [RefreshTokenMixin] *)
Record refresh_token := { rt_client : str; rt_user : str; rt_scopes : list str; rt_exp : dtime }.

(** oauth2/config.py 10-17 [Config] (the [keyset] is never read) *)
Record config := {
  cf_issuer : str; cf_scopes : list str; cf_token_lifespan : Z; cf_id_token_lifespan : Z; cf_error_url : str
}.

(** The dict that [_validate_authorization_request] returns (grants/authorization_code.py 182-188); the
    member "nonce" is added by the hook of oidc/flows/authorization_code.py 33. *)
Record auth_data := {
  ad_challenge : str; ad_method : str; ad_redirect : str; ad_scopes : list str;
  ad_state : option str; ad_nonce : option str
}.

(** ** Exceptions *)

(** oauth2/exceptions.py 63-118.  [Fatal code] is [FatalError(error=code)]. *)
Inductive okind :=
| Fatal (code : str)
| InvalidRequest | InvalidClient | InvalidGrant | UnauthorizedClient | AccessDenied
| UnsupportedResponseType | UnsupportedGrantType | UnsupportedTokenType | InvalidScope
| ServerError | TemporarilyUnavailable.
(** oauth2/exceptions.py 35-45 [OAuth2Error.__init__] *)
Record oauth_error := {
  oe_kind : okind; oe_desc : option str; oe_uri : option str; oe_state : option str; oe_headers : pdict
}.
(** Anything that can be raised: an OAuth2Error or another Python exception. *)
Inductive oexn := OA (e : oauth_error) | Py (e : exn).

(** The outcome of a call: a value or an exception. *)
Inductive res (A : Type) : Type := V (a : A) | X (e : oexn).
Arguments V {A} a.
Arguments X {A} e.
Definition lift {A} (r : result A) : res A := match r with Ok a => V a | Err e => X (Py e) end.
Definition vbind {A B} (r : res A) (f : A -> res B) : res B := match r with V a => f a | X e => X e end.
Notation "'let?' x ':=' r 'in' k" := (vbind r (fun x => k))
  (at level 200, x pattern, r at level 100, k at level 200, right associativity).

(** ** Calls out of the library *)

(** The resource owner given to [create_access_token]: a user, the client itself, or None. *)
Inductive owner := OwnUser (u : user) | OwnClient (c : client) | OwnNone.
Definition owner_of (u : option user) : owner := match u with Some u => OwnUser u | None => OwnNone end.

(** oauth2/adapter.py 24-232, the clock [datetime.utcnow()] (microseconds; with the local UTC offset in
    microseconds, which [timestamp()] of a naive datetime depends on), [secret_token(n)] of webtools.py
    and the randomness of a signature.  The calls that only a hook makes carry the identity of the
    adapter, since a hook may belong to another provider (see [add_hook] in OAuth.v). *)
Inductive eff : Type -> Type :=
| FindClient (id : str) : eff (option client)
| FindUser (id : str) : eff (option user)
| SaveCode (code : str) (data : auth_data) (c : client) (u : user) : eff unit
| GetCode (code : str) : eff (option auth_code)
| DeleteCode (code : str) : eff unit
| CreateAT (c : client) (o : owner) (scopes : list str) : eff str
| CreateRT (c : client) (o : owner) (scopes : list str) : eff (option str)
| GetRT (token : str) : eff (option refresh_token)
| RevokeToken (c : client) (token : str) (hint : option str) : eff unit
| GetUserinfo (aid : N) (u : user) (scopes : list str) : eff pdict
| GetKeyInfo (aid : N) : eff (jwk * str)
| Now : eff (Z * Z)
| SecretToken (n : N) : eff str
| SignRand : eff bytes.

(** A call together with its outcome, as it appears in a trace. *)
Inductive obs :=
| OFindClient (id : str) (r : res (option client))
| OFindUser (id : str) (r : res (option user))
| OSaveCode (code : str) (data : auth_data) (c : client) (u : user) (r : res unit)
| OGetCode (code : str) (r : res (option auth_code))
| ODeleteCode (code : str) (r : res unit)
| OCreateAT (c : client) (o : owner) (scopes : list str) (r : res str)
| OCreateRT (c : client) (o : owner) (scopes : list str) (r : res (option str))
| OGetRT (token : str) (r : res (option refresh_token))
| ORevokeToken (c : client) (token : str) (hint : option str) (r : res unit)
| OGetUserinfo (aid : N) (u : user) (scopes : list str) (r : res pdict)
| OGetKeyInfo (aid : N) (r : res (jwk * str))
| ONow (r : res (Z * Z))
| OSecretToken (n : N) (r : res str)
| OSignRand (r : res bytes).

Definition observe {X} (e : eff X) : res X -> obs :=
  match e in eff X return res X -> obs with
  | FindClient id => OFindClient id
  | FindUser id => OFindUser id
  | SaveCode code data c u => OSaveCode code data c u
  | GetCode code => OGetCode code
  | DeleteCode code => ODeleteCode code
  | CreateAT c o s => OCreateAT c o s
  | CreateRT c o s => OCreateRT c o s
  | GetRT t => OGetRT t
  | RevokeToken c t h => ORevokeToken c t h
  | GetUserinfo a u s => OGetUserinfo a u s
  | GetKeyInfo a => OGetKeyInfo a
  | Now => ONow
  | SecretToken n => OSecretToken n
  | SignRand => OSignRand
  end.

(** ** Programs *)

(** A coroutine of the library: it ends with a value or an exception, or calls out and continues with
    the outcome of the call, whatever it is. *)
Inductive prog (A : Type) : Type :=
| Ret (r : res A)
| Do (T : Type) (e : eff T) (k : res T -> prog A).
Arguments Ret {A} r.
Arguments Do {A T} e k.

(** The only control structure: run [p], then go on with its outcome. *)
Fixpoint ptry {A B} (p : prog A) (f : res A -> prog B) : prog B :=
  match p with
  | Ret r => f r
  | Do e k => Do e (fun x => ptry (k x) f)
  end.
Definition ret {A} (a : A) : prog A := Ret (V a).
Definition throw {A} (e : oexn) : prog A := Ret (X e).
Definition call {T} (e : eff T) : prog T := Do e (fun r => Ret r).
Definition pbind {A B} (p : prog A) (f : A -> prog B) : prog B :=
  ptry p (fun r => match r with V a => f a | X e => Ret (X e) end).
Notation "'do' x '<-' p ';;' k" := (pbind p (fun x => k))
  (at level 200, x pattern, p at level 100, k at level 200, right associativity).
(** [try: p finally: d]: an exception of [d] replaces the outcome of [p]. *)
Definition pfinally {A} (p : prog A) (d : prog unit) : prog A :=
  ptry p (fun r => ptry d (fun r' => match r' with V _ => Ret r | X e => Ret (X e) end)).
(** [try: p except OAuth2Error as exc: h(exc)] *)
Definition pexcept {A} (p : prog A) (h : oauth_error -> prog A) : prog A :=
  ptry p (fun r => match r with X (OA e) => h e | r => Ret r end).

(** ** Executions *)

(** [exec p tr r]: running [p] may make exactly the calls [tr], with the outcomes recorded there, and end
    with [r].  The outcomes are arbitrary: every behaviour of the application is covered. *)
Fixpoint exec {A} (p : prog A) (tr : list obs) (r : res A) : Prop :=
  match p with
  | Ret x => tr = [] /\ r = x
  | Do e k => exists x tr', tr = observe e x :: tr' /\ exec (k x) tr' r
  end.

(** Running against an application with state [S]. *)
Definition handler (S : Type) := forall T, eff T -> S -> res T * S.
Fixpoint run {S A} (H : handler S) (p : prog A) (s : S) : list obs * res A * S :=
  match p with
  | Ret x => ([], x, s)
  | Do e k =>
      let (x, s1) := H _ e s in
      let '(tr, r, s2) := run H (k x) s1 in (observe e x :: tr, r, s2)
  end.
