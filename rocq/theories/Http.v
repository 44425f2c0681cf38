(** Model of src/psion/oauth2/models/http.py, and [OAuth2Error.dump] of exceptions.py. *)
From Coq Require Import String Ascii List NArith ZArith Bool.
From Verif Require Import Base Utf8 Json Url Webtools Jwk Prog.
Import ListNotations.
Open Scope N_scope.

Definition params := list (str * str).

(** ** Requests *)

(** [urlsplit] strips leading control characters and spaces, and removes tab, line feed and carriage return. *)
Fixpoint lstrip_ctl (s : str) : str :=
  match s with [] => [] | c :: r => if c <=? 32 then lstrip_ctl r else s end.
Definition clean_url (u : str) : str := filter (fun c => negb ((c =? 9) || (c =? 10) || (c =? 13))) (lstrip_ctl u).
(** The text before the first of "/", "?" and "#" *)
Fixpoint netloc_of (s : str) : str :=
  match s with
  | [] => []
  | c :: r => if (c =? 47) || (c =? 63) || (c =? 35) then [] else c :: netloc_of r
  end.
Definition ascii_alpha (c : N) : bool := ((65 <=? c) && (c <? 91)) || ((97 <=? c) && (c <? 123)).
Definition scheme_char (c : N) : bool :=
  ascii_alpha c || ((48 <=? c) && (c <? 58)) || (c =? 43) || (c =? 45) || (c =? 46).
(** The URL without its scheme *)
Definition drop_scheme (u : str) : str :=
  match split1 58 u with
  | Some (c :: s, rest) => if ascii_alpha c && forallb scheme_char s then rest else u
  | _ => u
  end.
(** [urlsplit] raises ValueError when exactly one kind of bracket occurs in the network location.  Its
    checks of the characters and of the address between two brackets are not modelled. *)
Definition bad_netloc (u : str) : bool :=
  match drop_scheme u with
  | a :: b :: r => if (a =? 47) && (b =? 47) then
                     let n := netloc_of r in xorb (inc 91 n) (inc 93 n)
                   else false
  | _ => false
  end.

(** models/http.py 54-71.  [path], [query] and [fragment] are not read elsewhere ([query] is the first
    part of [rq_data]); [client] is written only. *)
Record request := {
  rq_method : str; rq_url : str; rq_headers : pdict; rq_user : option user; rq_body : option bytes;
  rq_data : params
}.

(** models/http.py 73-82 [Request.form]; a missing body parses as no parameters. *)
Definition form_of (body : option bytes) : params :=
  match body with None => [] | Some b => urldecode (to_string b) end.
Definition form (r : request) : params := form_of (rq_body r).

(** models/http.py 47-71 [Request.__init__] *)
Definition make_request (method url : str) (headers : pdict) (body : option bytes) (u : option user) : result request :=
  let! _ := raise_if (negb (ins (lower method) [lit "get"; lit "post"])) RuntimeError in
  let! _ := raise_if (bad_netloc (clean_url url)) ValueError in
  let query := urldecode (url_query (clean_url url)) in
  Ok {| rq_method := method; rq_url := url;
        rq_headers := dict_of (map (fun kv => (lower (fst kv), snd kv)) headers);
        rq_user := u; rq_body := body;
        rq_data := dupdate query (form_of body) |}.

(** ** Responses *)
Record response := { rs_status : N; rs_headers : pdict; rs_body : bytes }.

(** models/http.py 115-131 [Response.parse_headers] *)
Definition parse_headers (media_type : pyval) (headers : pdict) : pdict :=
  FullDict [(lit "Content-Type", media_type)] headers.

(** models/http.py 149-172 [JSONResponse(status, headers, body)] *)
Definition JSONResponse (status : N) (headers : pdict) (body : pyval) : res response :=
  let? b := lift (to_bytes (json_dumps body)) in
  V {| rs_status := status; rs_headers := parse_headers (PStr (lit "application/json")) headers; rs_body := b |}.

(** models/http.py 175-194 [RedirectResponse(url, headers=headers)] *)
Definition RedirectResponse (url : str) (headers : pdict) : res response :=
  let? l := lift (location url) in
  V {| rs_status := 303; rs_headers := full_setitem (lit "Location") (PStr l) (parse_headers PNone headers); rs_body := [] |}.

(** ** Errors *)
(** oauth2/exceptions.py 72-118: the attribute [error] *)
Definition error_code (k : okind) : str :=
  match k with
  | Fatal code => code
  | InvalidRequest => lit "invalid_request"
  | InvalidClient => lit "invalid_client"
  | InvalidGrant => lit "invalid_grant"
  | UnauthorizedClient => lit "unauthorized_client"
  | AccessDenied => lit "access_denied"
  | UnsupportedResponseType => lit "unsupported_response_type"
  | UnsupportedGrantType => lit "unsupported_grant_type"
  | UnsupportedTokenType => lit "unsupported_token_type"
  | InvalidScope => lit "invalid_scope"
  | ServerError => lit "server_error"
  | TemporarilyUnavailable => lit "temporarily_unavailable"
  end.
Definition pstr (o : option str) : pyval := match o with Some s => PStr s | None => PNone end.
(** oauth2/exceptions.py 47-60 [OAuth2Error.dump] *)
Definition dump (e : oauth_error) : pdict :=
  FullDict [] [(lit "error", PStr (error_code (oe_kind e)));
               (lit "error_description", pstr (oe_desc e));
               (lit "error_uri", pstr (oe_uri e));
               (lit "state", pstr (oe_state e))].

(** [raise Kind(description=.., state=.., headers=..)] *)
Definition oerr (k : okind) (desc state : option str) (headers : pdict) : oexn :=
  OA {| oe_kind := k; oe_desc := desc; oe_uri := None; oe_state := state; oe_headers := headers |}.
(** [raise Kind(description=.., state=..)] *)
Definition oraise {A} (k : okind) (desc : str) (state : option str) : res A := X (oerr k (Some desc) state []).
