(** Model of the web application in example/ (views, session middleware, provider), and of
    src/psion/oauth2/providers/starlette.py.

    Starlette 0.14.2, starlette-wtf, WTForms and Tortoise are not part of the repository; what is used of them is
    described where it is used. *)
From Coq Require Import String Ascii List NArith ZArith Bool.
From Verif Require Import Base Utf8 Base64 Json Url Webtools Crypto Jwk Jws Jwt Prog Http OAuth Example.
Import ListNotations.
Open Scope N_scope.

(** ** Calls of the application *)

(** example/models/users.py 14-17, 25: what the login reads of a user; [a_id] is [str(user.id)]. *)
Record account := { a_id : str; a_email : str; a_password : str }.

(** The accesses to the data base outside of the adapter, [secret_token], and the calls of the library. *)
Inductive aeff : Type -> Type :=
| GetSession (sid uid : str) : aeff (option (option user))  (* example/middlewares/authentication.py 18-21: the row, and its user *)
| FindAccount (email : str) : aeff (option account)         (* example/views/auth.py 54 *)
| UserSession (uid : str) : aeff (option str)               (* example/views/auth.py 80 *)
| SessionToken : aeff str                                   (* example/views/auth.py 83 *)
| NewSession (sid uid : str) : aeff unit                    (* example/views/auth.py 83-84 *)
| DropRefresh (uid : str) : aeff unit                       (* example/views/auth.py 104 *)
| DropSessions (uid : str) : aeff unit                      (* example/views/auth.py 105 *)
| Lib {T} (e : eff T) : aeff T.

Inductive aobs :=
| OGetSession (sid uid : str) (r : res (option (option user)))
| OFindAccount (email : str) (r : res (option account))
| OUserSession (uid : str) (r : res (option str))
| OSessionToken (r : res str)
| ONewSession (sid uid : str) (r : res unit)
| ODropRefresh (uid : str) (r : res unit)
| ODropSessions (uid : str) (r : res unit)
| OLib (o : obs).
Definition aobserve {T} (e : aeff T) : res T -> aobs :=
  match e in aeff T return res T -> aobs with
  | GetSession sid uid => OGetSession sid uid
  | FindAccount email => OFindAccount email
  | UserSession uid => OUserSession uid
  | SessionToken => OSessionToken
  | NewSession sid uid => ONewSession sid uid
  | DropRefresh uid => ODropRefresh uid
  | DropSessions uid => ODropSessions uid
  | Lib e => fun r => OLib (observe e r)
  end.

(** Programs and executions, as in Prog.v *)
Inductive aprog (A : Type) : Type :=
| ARet (r : res A)
| ADo (T : Type) (e : aeff T) (k : res T -> aprog A).
Arguments ARet {A} r.
Arguments ADo {A T} e k.
Fixpoint atry {A B} (p : aprog A) (f : res A -> aprog B) : aprog B :=
  match p with ARet r => f r | ADo e k => ADo e (fun x => atry (k x) f) end.
Definition acall {T} (e : aeff T) : aprog T := ADo e (fun r => ARet r).
Definition aret {A} (a : A) : aprog A := ARet (V a).
Definition abind {A B} (p : aprog A) (f : A -> aprog B) : aprog B :=
  atry p (fun r => match r with V a => f a | X e => ARet (X e) end).
Notation "'ado' x '<-' p ';;' k" := (abind p (fun x => k)) (at level 200, x pattern, p at level 100, k at level 200, right associativity).
Fixpoint library {A} (p : prog A) : aprog A :=
  match p with Ret r => ARet r | Do e k => ADo (Lib e) (fun x => library (k x)) end.
Fixpoint aexec {A} (p : aprog A) (tr : list aobs) (r : res A) : Prop :=
  match p with
  | ARet x => tr = [] /\ r = x
  | ADo e k => exists x tr', tr = aobserve e x :: tr' /\ aexec (k x) tr' r
  end.

(** ** Requests and replies *)

(** The submitted login form (example/forms/login.py 5-24).  [lf_valid] is what is not modelled of its validation:
    the CSRF token and the syntax of the address. *)
Record login_form := { lf_email : str; lf_password : str; lf_valid : bool }.
(** A request as the views see it.  [wb_url] is [str(request.url)]; [wb_base] is the scheme and authority, which
    [request.url_for] puts before the path of a route (example/main.py 21-26, routes/auth.py 6-9, routes/connect.py 11-16);
    [wb_cookie] is [request.session.get("psion")]: the user id and session id in the cookie, which Starlette's
    SessionMiddleware signs and verifies (main.py 16), so that only pairs made by the login occur. *)
Record web := {
  wb_method : str; wb_base : str; wb_url : str; wb_headers : pdict; wb_body : bytes;
  wb_cookie : option (str * str); wb_form : login_form
}.
Definition login_url (w : web) : str := wb_base w ++ lit "/auth/login".
Definition logout_url (w : web) : str := wb_base w ++ lit "/auth/logout".
Definition home_url (w : web) : str := wb_base w ++ lit "/".

(** A rendered template, with the message of the form if any; a redirection, with the new cookie if any; a
    response of the library; a response with only a status. *)
Inductive reply :=
| RPage (template : str) (message : option str)
| RRedirect (location : str) (cookie : option (str * str))
| RResponse (x : response)
| RStatus (n : N).
(** Starlette's RedirectResponse quotes the URL as psion's does (starlette/responses.py; models/http.py 194). *)
Definition redirect (url : str) (cookie : option (str * str)) : aprog reply :=
  ARet (let? l := lift (location url) in V (RRedirect l cookie)).

(** [request.query_params.get(name)]: Starlette's QueryParams is [parse_qsl(query, keep_blank_values=True)], the last
    value of a name counts. *)
Definition parse_piece_blank (p : str) : list (str * str) :=
  match p with
  | [] => []
  | _ => match split1 61 p with None => [(unquote_plus p, [])] | Some (n, v) => [(unquote_plus n, unquote_plus v)] end
  end.
Definition query_param (url : str) (name : str) : option str :=
  lookup name (rev (flat_map parse_piece_blank (split_on 38 (url_query url)))).

(** ** The middleware *)

(** example/middlewares/authentication.py 11-29; AuthenticationError is answered with status 400 by Starlette's
    AuthenticationMiddleware ([None] here). *)
Definition session_user (w : web) : aprog (option (option user)) :=
  match wb_cookie w with
  | None => aret (Some None)
  | Some (uid, sid) =>
      ado row <- acall (GetSession sid uid) ;;
      match row with
      | None => aret (Some None)
      | Some None => aret None
      | Some (Some u) => aret (Some (Some u))
      end
  end.

(** ** The views *)

(** example/views/auth.py 21-35 *)
Definition login_get (w : web) (u : option user) : aprog reply :=
  match u with
  | Some _ => redirect (home_url w) None
  | None => aret (RPage (lit "login.j2") None)
  end.
(** example/forms/login.py 6-24 [validate_on_submit]: both fields are required, the password has 8 to 64 characters.
    WTForms' DataRequired wants a text that is not blank. *)
Definition blank (s : str) : bool := forallb py_space s.
Definition form_ok (f : login_form) : bool :=
  lf_valid f && negb (blank (lf_email f)) && negb (blank (lf_password f)) &&
  (Nat.leb 8 (length (lf_password f))) && (Nat.leb (length (lf_password f)) 64).
(** example/views/auth.py 37-93 *)
Definition login_post (w : web) (u : option user) : aprog reply :=
  match u with
  | Some _ => redirect (home_url w) None
  | None =>
      let f := wb_form w in
      if negb (form_ok f) then aret (RPage (lit "login.j2") None)
      else
        ado a <- acall (FindAccount (lf_email f)) ;;
        match a with
        | None => aret (RPage (lit "login.j2") (Some (lit "Invalid Credentials.")))
        | Some a =>
            if negb (eqs (a_password a) (lf_password f)) then aret (RPage (lit "login.j2") (Some (lit "Invalid Credentials.")))
            else
              ado s <- acall (UserSession (a_id a)) ;;
              ado sid <- (match s with
                          | Some sid => aret sid
                          | None => ado t <- acall SessionToken ;; ado _ <- acall (NewSession t (a_id a)) ;; aret t
                          end) ;;
              let target := match query_param (wb_url w) (lit "next") with Some (c :: n) => c :: n | _ => home_url w end in
              redirect target (Some (a_id a, sid))
        end
  end.
(** example/views/auth.py 97-108.  [asyncio.gather] starts the two deletions in this order and raises if either does.
    The user id is the one of the cookie, which is there if there is a user. *)
Definition logout_get (w : web) (u : option user) : aprog reply :=
  match u, wb_cookie w with
  | Some _, Some (uid, _) =>
      atry (acall (DropRefresh uid)) (fun x =>
      atry (acall (DropSessions uid)) (fun y =>
        match x, y with
        | X e, _ => ARet (X e)
        | _, X e => ARet (X e)
        | _, _ => redirect (login_url w) None
        end))
  | Some _, None => ARet (X (Py KeyError))
  | None, _ => redirect (login_url w) None
  end.
(** example/views/auth.py 110-111 *)
Definition logout_post (w : web) : aprog reply := redirect (logout_url w) None.

(** src/psion/oauth2/providers/starlette.py 10-17 [create_request]; [dict(request.headers)] has lower-case names. *)
Definition create_request (w : web) (u : option user) : aprog request :=
  ARet (lift (make_request (wb_method w) (wb_url w) (wb_headers w) (Some (wb_body w)) u)).
(** src/psion/oauth2/providers/starlette.py 19-20 [create_response]: an AttributeError for None *)
Definition create_response (x : option response) : aprog reply :=
  match x with Some x => aret (RResponse x) | None => ARet (X (Py AttributeError)) end.

Section WithEnv.
Variable E : env.
(** example/provider.py 16-33: the provider and its hooks *)
Variable p : provider.
Variable hs : hooks.

(** example/views/connect.py 15-23 *)
Definition authorize_get (w : web) (u : option user) : aprog reply :=
  match u with
  | None =>
      ado url <- ARet (lift (urlencode (login_url w) [(lit "next", PStr (wb_url w))])) ;; redirect url None
  | Some _ =>
      ado r <- create_request w u ;;
      ado x <- library (authorization_endpoint E p hs r) ;;
      create_response (Some x)
  end.
(** example/views/connect.py 42-46 *)
Definition revoke_post (w : web) (u : option user) : aprog reply :=
  ado r <- create_request w u ;;
  ado x <- library (revocation_endpoint r) ;;
  create_response x.
(** example/views/connect.py 49-53 *)
Definition token_post (w : web) (u : option user) : aprog reply :=
  ado r <- create_request w u ;;
  ado x <- library (token_endpoint E p hs r) ;;
  create_response (Some x).

(** The routes (example/main.py 21-26, routes/auth.py, routes/connect.py); the static files are left out. *)
Inductive page := Home | LoginPage | LogoutPage | AuthorizePage | ErrorPage | RevokePage | TokenPage.
(** Starlette's HTTPEndpoint calls the method of the class called like the HTTP method, [get] for HEAD, and answers 405
    without one; the route of the home page accepts GET and HEAD. *)
Definition is_get (w : web) : bool := eqs (wb_method w) (lit "GET") || eqs (wb_method w) (lit "HEAD").
Definition is_post (w : web) : bool := eqs (wb_method w) (lit "POST").
Definition view (g : page) (w : web) (u : option user) : aprog reply :=
  match g with
  | Home => if is_get w then aret (RPage (lit "index.j2") None) else aret (RStatus 405)
  | LoginPage => if is_get w then login_get w u else if is_post w then login_post w u else aret (RStatus 405)
  | LogoutPage => if is_get w then logout_get w u else if is_post w then logout_post w else aret (RStatus 405)
  | AuthorizePage => if is_get w then authorize_get w u else aret (RStatus 405)
  | ErrorPage => if is_get w then aret (RPage (lit "error.j2") (query_param (wb_url w) (lit "error_description"))) else aret (RStatus 405)
  | RevokePage => if is_post w then revoke_post w u else aret (RStatus 405)
  | TokenPage => if is_post w then token_post w u else aret (RStatus 405)
  end.
(** example/main.py 15-19: the middleware, then the view *)
Definition application (g : page) (w : web) : aprog reply :=
  ado u <- session_user w ;;
  match u with None => aret (RStatus 400) | Some u => view g w u end.
End WithEnv.

(** ** The data base *)

(** example/models/sessions.py 6-13 *)
Record tables := { tb_store : store; tb_sessions : list (str * str); tb_accounts : list account }.
Definition set_store (s : store) (t : tables) : tables := {| tb_store := s; tb_sessions := tb_sessions t; tb_accounts := tb_accounts t |}.
Definition set_sessions (l : list (str * str)) (t : tables) : tables := {| tb_store := tb_store t; tb_sessions := l; tb_accounts := tb_accounts t |}.
(** The result of each access and the tables after it.  A session is the pair of its id and its user's id. *)
Definition app_do (C : crypto) (aware : bool) (ch : choice) {T} (e : aeff T) (t : tables) : res T * tables :=
  match e in aeff T return res T * tables with
  | GetSession sid uid =>
      (V (if existsb (fun s => eqs (fst s) sid && eqs (snd s) uid) (tb_sessions t)
          then Some (find (fun u => eqs (us_id u) uid) (st_users (tb_store t))) else None), t)
  | FindAccount email => (V (find (fun a => eqs (a_email a) email) (tb_accounts t)), t)
  | UserSession uid => (V (option_map fst (find (fun s => eqs (snd s) uid) (tb_sessions t))), t)
  | SessionToken => (V (ch_token ch), t)
  | NewSession sid uid =>
      if existsb (fun s => eqs (fst s) sid) (tb_sessions t) then (X (Py (Foreign 1)), t)
      else (V tt, set_sessions ((sid, uid) :: tb_sessions t) t)
  | DropRefresh uid => (V tt, set_store (set_rts (filter (fun kt => negb (eqs (rt_user (snd kt)) uid)) (st_rts (tb_store t))) (tb_store t)) t)
  | DropSessions uid => (V tt, set_sessions (filter (fun s => negb (eqs (snd s) uid)) (tb_sessions t)) t)
  | Lib e => let (x, s) := ex_do C aware ch e (tb_store t) in (x, set_store s t)
  end.
(** As for the adapter alone: an access completes, or fails and changes nothing. *)
Inductive app_step (C : crypto) (aware : bool) : tables -> aobs -> tables -> Prop :=
| app_ok : forall ch T (e : aeff T) t, app_step C aware t (aobserve e (fst (app_do C aware ch e t))) (snd (app_do C aware ch e t))
| app_raise : forall T (e : aeff T) x t, app_step C aware t (aobserve e (X (Py x))) t.
Inductive app_steps (C : crypto) (aware : bool) : tables -> list aobs -> tables -> Prop :=
| app_nil : forall t, app_steps C aware t [] t
| app_cons : forall t o t1 tr t2, app_step C aware t o t1 -> app_steps C aware t1 tr t2 -> app_steps C aware t (o :: tr) t2.

(** A concrete run, for the examples *)
Record aworld := { aw_tables : tables; aw_count : N; aw_now : Z }.
Definition aw_choice (w : aworld) : choice := {| ch_now := aw_now w; ch_off := 0; ch_token := lit "tok" ++ dec_N (aw_count w); ch_rand := [] |}.
Fixpoint arun {A} (C : crypto) (aware : bool) (p : aprog A) (w : aworld) : list aobs * res A * aworld :=
  match p with
  | ARet x => ([], x, w)
  | ADo e k =>
      let (x, t) := app_do C aware (aw_choice w) e (aw_tables w) in
      let '(tr, r, w') := arun C aware (k x) {| aw_tables := t; aw_count := aw_count w + 1; aw_now := aw_now w |} in
      (aobserve e x :: tr, r, w')
  end.
