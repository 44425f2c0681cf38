(** Model of what an application may add to the library: grants (classes derived from BaseGrant), client
    authentication methods (classes derived from BaseAuthentication) and hooks.  OAuth.v has only those of
    the library; ExtFacts.v proves that its endpoints are the instances of the ones here. *)
From Coq Require Import String Ascii List NArith ZArith Bool.
From Verif Require Import Base Json Url Webtools Prog Http OAuth.
Import ListNotations.
Open Scope N_scope.

(** ** Programs of the library with code of the application in them *)

(** The calls of Prog.v; [save_authorization_code] with a dict, to which hooks may have added anything
    (grants/authorization_code.py 101); and whatever else code of the application does, named and answered
    with any value or exception. *)
Inductive xeff : Type -> Type :=
| Lib (T : Type) (e : eff T) : xeff T
| SaveDict (code : str) (data : pdict) (c : client) (u : user) : xeff unit
| Other (name : str) : xeff pyval.
Arguments Lib {T} e.

Inductive xobs :=
| XO (o : obs)
| XSave (code : str) (data : pdict) (c : client) (u : user) (r : res unit)
| XOther (name : str) (r : res pyval).
Definition xobserve {T} (e : xeff T) : res T -> xobs :=
  match e in xeff T return res T -> xobs with
  | Lib e => fun r => XO (observe e r)
  | SaveDict code data c u => XSave code data c u
  | Other name => XOther name
  end.

(** As [prog], [ptry] and so on of Prog.v *)
Inductive xprog (A : Type) : Type :=
| XRet (r : res A)
| XDo (T : Type) (e : xeff T) (k : res T -> xprog A).
Arguments XRet {A} r.
Arguments XDo {A T} e k.
Fixpoint xtry {A B} (p : xprog A) (f : res A -> xprog B) : xprog B :=
  match p with
  | XRet r => f r
  | XDo e k => XDo e (fun x => xtry (k x) f)
  end.
Definition xret {A} (a : A) : xprog A := XRet (V a).
Definition xthrow {A} (e : oexn) : xprog A := XRet (X e).
Definition xcall {T} (e : xeff T) : xprog T := XDo e (fun r => XRet r).
Definition xbind {A B} (p : xprog A) (f : A -> xprog B) : xprog B :=
  xtry p (fun r => match r with V a => f a | X e => XRet (X e) end).
Notation "'xdo' x '<-' p ';;' k" := (xbind p (fun x => k))
  (at level 200, x pattern, p at level 100, k at level 200, right associativity).
Definition xfinally {A} (p : xprog A) (d : xprog unit) : xprog A :=
  xtry p (fun r => xtry d (fun r' => match r' with V _ => XRet r | X e => XRet (X e) end)).
Definition xexcept {A} (p : xprog A) (h : oauth_error -> xprog A) : xprog A :=
  xtry p (fun r => match r with X (OA e) => h e | r => XRet r end).
Fixpoint xexec {A} (p : xprog A) (tr : list xobs) (r : res A) : Prop :=
  match p with
  | XRet x => tr = [] /\ r = x
  | XDo e k => exists x tr', tr = xobserve e x :: tr' /\ xexec (k x) tr' r
  end.
(** Code of the library as a part of such a program *)
Fixpoint emb {A} (p : prog A) : xprog A :=
  match p with
  | Ret r => XRet r
  | Do e k => XDo (Lib e) (fun x => emb (k x))
  end.

(** ** Client authentication *)

(** authentication/methods/base.py 8-44: an object of a class derived from BaseAuthentication, with its
    [__method__] and [authenticate].  The client that [authenticate] returns is truthy. *)
Record xmethod := { xm_name : str; xm_auth : request -> xprog (option client) }.

(** authentication/client_authentication.py 34-65 [ClientAuthentication.__call__] *)
Fixpoint xauthenticate (l : list xmethod) (methods : list str) (r : request) : xprog client :=
  match l with
  | [] => xthrow (oerr InvalidClient None None [])
  | m :: rest =>
      if (match methods with [] => false | _ => true end) && negb (ins (xm_name m) methods)
      then xauthenticate rest methods r
      else xdo oc <- xm_auth m r ;;
           match oc with
           | None => xauthenticate rest methods r
           | Some c => xret c
           end
  end.

(** A class with BaseAuthentication among its ancestors: [None] as parent is BaseAuthentication itself.
    [mc_abstract]: it does not define [authenticate], nor does an ancestor. *)
Record method_class := { mc_id : N; mc_parent : option N; mc_abstract : bool; mc_method : xmethod }.
(** authentication/client_authentication.py 29-32 [ClientAuthentication.__init__]: of the classes that exist
    when the provider is made, in the order of their definition, the direct subclasses of BaseAuthentication
    ([__subclasses__] has no others).  An abstract class can not be instantiated. *)
Fixpoint load_methods (classes : list method_class) : result (list xmethod) :=
  match classes with
  | [] => Ok []
  | k :: rest =>
      match mc_parent k with
      | Some _ => load_methods rest
      | None =>
          if mc_abstract k then Err TypeError
          else let! l := load_methods rest in Ok (mc_method k :: l)
      end
  end.

(** ** Grants *)

(** grants/base.py 14-202: an object of a class derived from BaseGrant.  [xg_type] and [xg_response] are
    [__grant_type__] and [__response_type__]; [xg_methods] is [__authentication_methods__], None being the
    empty list.  [token] may return anything that can be made JSON. *)
Record xgrant := {
  xg_type : option str; xg_response : option str; xg_methods : list str;
  xg_token : params -> client -> xprog pyval;
  xg_authorize : params -> client -> user -> xprog str
}.
(** providers/base.py 20-66 *)
Record xprovider := { xp_config : config; xp_grants : list xgrant; xp_methods : list xmethod }.

Definition named (n : option str) (t : str) : bool := match n with Some s => eqs s t | None => false end.

(** endpoints/token.py 84-109 [_validate_grant_type] *)
Definition xvalidate_grant_type (p : xprovider) (gt : option str) : res xgrant :=
  match gt with
  | None | Some [] => oraise InvalidRequest (lit "Invalid parameter ""grant_type"".") None
  | Some t =>
      match find (fun g => named (xg_type g) t) (xp_grants p) with
      | Some g => V g
      | None => oraise UnsupportedGrantType (lit "Unsupported grant_type """ ++ t ++ lit """.") None
      end
  end.
(** endpoints/token.py 36-82 [TokenEndpoint.__call__] *)
Definition xtoken_endpoint (p : xprovider) (r : request) : xprog response :=
  xexcept
    (xdo _ <- XRet (match rq_data r with [] => oraise InvalidRequest (lit "Missing request parameters.") None | _ => V tt end) ;;
     xdo g <- XRet (xvalidate_grant_type p (param "grant_type" (rq_data r))) ;;
     let data := dremove (lit "grant_type") (rq_data r) in
     xdo c <- xauthenticate (xp_methods p) (xg_methods g) r ;;
     if negb (existsb (named (xg_type g)) (cl_grants c)) then xthrow (oerr UnauthorizedClient None None [])
     else xdo t <- xg_token g data c ;;
          XRet (JSONResponse 200 token_headers t))
    (fun e => XRet (JSONResponse 400 (dupdate (oe_headers e) token_headers) (PDict (dump e)))).

(** endpoints/authorization.py 180-207 [_validate_response_type] *)
Definition xvalidate_response_type (p : xprovider) (rt : str) (state : option str) : res xgrant :=
  match find (fun g => named (xg_response g) rt) (xp_grants p) with
  | Some g => V g
  | None => oraise UnsupportedResponseType (lit "Unsupported response_type """ ++ rt ++ lit """.") state
  end.
(** endpoints/authorization.py 42-101 [AuthorizationEndpoint.__call__] *)
Definition xauthorization_endpoint (p : xprovider) (r : request) : xprog response :=
  let data := rq_data r in
  xexcept
    (xdo (uri, cid, rt) <- XRet (validate_request data) ;;
     match rq_user r with
     | None => xthrow (oerr AccessDenied None None [])
     | Some u =>
         xdo g <- XRet (xvalidate_response_type p rt (param "state" data)) ;;
         xdo c <- emb (validate_client cid uri (match xg_response g with Some t => t | None => [] end) (param "state" data)) ;;
         xdo url <- xg_authorize g (dremove (lit "response_type") data) c u ;;
         XRet (RedirectResponse url [])
     end)
    (fun e => XRet (error_redirect (xp_config p) data e)).

(** endpoints/revocation.py 30-126 [RevocationEndpoint.__call__] *)
Definition xrevocation_endpoint (p : xprovider) (r : request) : xprog (option response) :=
  xexcept
    (xdo c <- xauthenticate (xp_methods p) [] r ;;
     let data := form r in
     match arg "token" data with
     | None => xret None
     | Some token =>
         let hint := param "token_type_hint" data in
         match arg "token_type_hint" data with
         | Some h =>
             if negb (ins h supported_tokens) then xthrow (oerr UnsupportedTokenType None None [])
             else xdo _ <- xcall (Lib (RevokeToken c token hint)) ;;
                  xdo x <- XRet (JSONResponse 200 [] PNone) ;; xret (Some x)
         | None => xdo _ <- xcall (Lib (RevokeToken c token hint)) ;;
                   xdo x <- XRet (JSONResponse 200 [] PNone) ;; xret (Some x)
         end
     end)
    (fun e => xdo x <- XRet (JSONResponse (match oe_kind e with InvalidClient => 401 | _ => 400 end) (oe_headers e) (PDict (dump e))) ;;
              xret (Some x)).

(** ** Hooks in the authorization code grant *)

(** grants/base.py 52-57 [__hooks__]: for each checkpoint the methods of the registered objects, in the order
    of iteration of the set.  What a method returns is a dict, [None] being the empty one (both are falsy).
    Methods do not change the dicts they are given. *)
Record xhooks := {
  xh_areq : list (params -> xprog pdict);
  xh_ares : list (str -> pdict -> client -> user -> xprog pdict);
  xh_treq : list (params -> xprog pdict);
  xh_tres : list (pdict -> pdict -> client -> user -> xprog pdict)
}.
(** grants/base.py 109-126 [_execute_hook] with the loops of grants/authorization_code.py 105-109, 190-192,
    310-314 and 423-425: each hook is given what [give] makes of the dict so far. *)
Fixpoint xrun {B} (l : list B) (give : B -> pdict -> xprog pdict) (d : pdict) : xprog pdict :=
  match l with
  | [] => xret d
  | h :: rest => xdo upd <- give h d ;; xrun rest give (dupdate d upd)
  end.

Section WithEnv.
Variable E : env.

(** The members of the dicts, of the types that the code relies on.  A hook that puts a value of another type
    there is taken to make it fail with TypeError. *)
Definition text_at (k : string) (d : pdict) : res str :=
  match lookup (lit k) d with Some (PStr s) => V s | Some _ => X (Py TypeError) | None => X (Py KeyError) end.
Definition state_at (d : pdict) : res (option str) :=
  match lookup (lit "state") d with Some (PStr s) => V (Some s) | Some PNone | None => V None | Some _ => X (Py TypeError) end.
Fixpoint texts (l : list pyval) : res (list str) :=
  match l with
  | [] => V []
  | PStr s :: r => let? t := texts r in V (s :: t)
  | _ => X (Py TypeError)
  end.
Definition scopes_at (d : pdict) : res (option (list str)) :=
  match lookup (lit "scopes") d with
  | Some (PList l) => let? t := texts l in V (Some t)
  | Some PNone => V None
  | Some _ => X (Py TypeError)
  | None => X (Py KeyError)
  end.

(** grants/authorization_code.py 113-188: the dict [response] before the hooks *)
Definition authorization_dict (ad : auth_data) : pdict :=
  [(lit "code_challenge", PStr (ad_challenge ad));
   (lit "code_challenge_method", PStr (ad_method ad));
   (lit "redirect_uri", PStr (ad_redirect ad));
   (lit "scopes", PList (map PStr (ad_scopes ad)));
   (lit "state", pstr (ad_state ad))].
(** grants/authorization_code.py 113-194 [_validate_authorization_request] *)
Definition xvalidate_authorization_request (hs : xhooks) (data : params) : xprog pdict :=
  xdo ad <- XRet (validate_authorization_request E no_hooks data) ;;
  xrun (xh_areq hs) (fun h _ => h data) (authorization_dict ad).
(** grants/authorization_code.py 56-111 [authorize], 470-485 *)
Definition xcode_authorize (cfg : config) (hs : xhooks) (data : params) (c : client) (u : user) : xprog str :=
  xdo d <- xvalidate_authorization_request hs data ;;
  xdo scopes <- XRet (scopes_at d) ;;
  xdo state <- XRet (state_at d) ;;
  xdo _ <- XRet (validate_requested_scopes cfg scopes c state) ;;
  xdo code <- xcall (Lib (SecretToken 64)) ;;
  xdo _ <- xcall (SaveDict code d c u) ;;
  xdo response <- xrun (xh_ares hs) (fun h _ => h code d c u) [(lit "code", PStr code); (lit "state", pstr state)] ;;
  xdo uri <- XRet (text_at "redirect_uri" d) ;;
  XRet (lift (urlencode uri response)).

(** grants/authorization_code.py 322-427 [_validate_token_request] *)
Definition xvalidate_code_request (hs : xhooks) (data : params) : xprog pdict :=
  xdo (code, uri, verifier) <- XRet (validate_code_request data) ;;
  xrun (xh_treq hs) (fun h _ => h data)
    [(lit "code", PStr code); (lit "redirect_uri", PStr uri); (lit "code_verifier", PStr verifier)].
(** grants/authorization_code.py 281-316: the body of [try] after line 280 *)
Definition xcode_exchange (cfg : config) (hs : xhooks) (d : pdict) (c : client) : xprog pdict :=
  xdo code <- XRet (text_at "code" d) ;;
  xdo oc <- xcall (Lib (GetCode code)) ;;
  match oc with
  | None => XRet (oraise InvalidRequest (lit "Invalid Authorization Grant.") None)
  | Some ac =>
      xdo uri <- XRet (text_at "redirect_uri" d) ;;
      xdo verifier <- XRet (text_at "code_verifier" d) ;;
      xdo _ <- emb (validate_authorization_code E uri verifier ac c) ;;
      xdo ou <- xcall (Lib (FindUser (ac_user ac))) ;;
      match ou with
      | None => XRet (oraise InvalidRequest (lit "No user found for this code.") None)
      | Some u =>
          xdo at_ <- xcall (Lib (CreateAT c (OwnUser u) (ac_scopes ac))) ;;
          xdo rt <- emb (maybe_refresh c (OwnUser u) (ac_scopes ac)) ;;
          xrun (xh_tres hs) (fun h token => h token d c u) (create_token at_ (cf_token_lifespan cfg) rt (ac_scopes ac))
      end
  end.
(** grants/authorization_code.py 318-320: the [finally] block, where [data] is that of the request when line
    280 raised, and the validated one otherwise *)
Definition xdelete (code : res str) : xprog unit :=
  xdo c <- XRet code ;; xcall (Lib (DeleteCode c)).
(** grants/authorization_code.py 196-320 [token] *)
Definition xcode_token (cfg : config) (hs : xhooks) (data : params) (c : client) : xprog pdict :=
  xtry (xvalidate_code_request hs data) (fun v =>
    match v with
    | X e => xfinally (XRet (X e)) (xdelete (match param "code" data with Some s => V s | None => X (Py KeyError) end))
    | V d => xfinally (xcode_exchange cfg hs d c) (xdelete (text_at "code" d))
    end).

(** The grants of the library.  [_execute_hook] is called in the authorization code grant only. *)
Definition xgrant_of (cfg : config) (hs : xhooks) (g : grant) : xgrant :=
  {| xg_type := Some (grant_type g); xg_response := response_type g; xg_methods := grant_methods g;
     xg_token := fun data c =>
       xdo t <- match g with
                | GCode => xcode_token cfg hs data c
                | GClientCredentials => emb (cc_token cfg data c)
                | GRefresh => emb (refresh_grant E cfg data c)
                end ;;
       xret (PDict t);
     xg_authorize := fun data c u => match g with GCode => xcode_authorize cfg hs data c u | _ => xthrow (Py TypeError) end |}.
(** The authentication methods of the library, as classes *)
Definition library_classes : list method_class :=
  map (fun nm => {| mc_id := fst nm; mc_parent := None; mc_abstract := false;
                    mc_method := {| xm_name := fst (snd nm); xm_auth := fun r => emb (snd (snd nm) r) |} |})
    (combine [1; 2; 3] auth_methods).

(** oidc/flows/authorization_code.py 28-41: the methods of an AuthorizationCodeFlow *)
Definition oidc_request (data : params) : xprog pdict :=
  xret (match oidc_authorization_request data with Some n => [(lit "nonce", PStr n)] | None => [] end).
Definition oidc_response (h : hook) (token data : pdict) (c : client) (u : user) : xprog pdict :=
  emb (oidc_token_response E h token c u).
Definition xhooks_of (hs : hooks) : xhooks :=
  {| xh_areq := map (fun _ => oidc_request) (hk_request hs); xh_ares := []; xh_treq := [];
     xh_tres := map oidc_response (hk_response hs) |}.
(** A provider with the grants, methods and hooks of the library only *)
Definition xprovider_of (p : provider) (hs : hooks) : xprovider :=
  {| xp_config := pv_config p; xp_grants := map (xgrant_of (pv_config p) (xhooks_of hs)) (pv_grants p);
     xp_methods := map mc_method library_classes |}.

End WithEnv.

(** ** Registration of hooks *)

Inductive checkpoint := AuthorizationRequest | AuthorizationResponse | TokenRequest | TokenResponse.
(** A grant class: the classes it is derived from, itself included (its [__mro__]), and the dict that its
    [__hooks__] is, 0 being that of BaseGrant (grants/base.py 52-57).  A class that does not assign
    [__hooks__] has that of its base. *)
Record grant_cls := { gc_mro : list N; gc_table : N }.
(** A hook class: its name and the checkpoints it has a method for *)
Record hook_cls := { hc_id : N; hc_has : checkpoint -> bool }.
(** The objects in the sets of the tables, in the order they were added: the class, and the provider whose
    adapter and configuration the object was made with *)
Definition tables := N -> checkpoint -> list (hook_cls * N).
(** providers/base.py 68-85 [add_hook]: [pid] is the provider, [grants] the classes of its grants *)
Definition xadd_hook (pid : N) (grants : list grant_cls) (cls : N) (h : hook_cls) (t : tables) : tables :=
  fold_left (fun t g =>
    if existsb (N.eqb cls) (gc_mro g) then
      fun i cp => if (i =? gc_table g) && hc_has h cp then t i cp ++ [(h, pid)] else t i cp
    else t) grants t.
(** What [_execute_hook] runs at a checkpoint of a grant *)
Definition hooks_run (t : tables) (g : grant_cls) (cp : checkpoint) : list (hook_cls * N) := t (gc_table g) cp.
Definition no_tables : tables := fun _ _ => [].
