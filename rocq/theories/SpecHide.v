(** The same world with other secrets, for the statements of C169 and C170. *)
From Coq Require Import String Ascii List NArith ZArith Bool.
From Verif Require Import Base Webtools Jwk Prog Http OAuth SpecOAuth Example App SpecApp.
Import ListNotations.
Open Scope N_scope.

(** For each client another secret (or none), for each user other attributes, for each account another password. *)
Record disguise := { ds_secret : client -> option str; ds_info : user -> pdict; ds_password : account -> str }.

Section Disguise.
Variable d : disguise.
(** The disguised objects, calls with their outcomes, requests and tables *)
Definition other_client (c : client) : client :=
  {| cl_id := cl_id c; cl_secret := ds_secret d c; cl_auth_method := cl_auth_method c; cl_redirects := cl_redirects c;
     cl_grants := cl_grants c; cl_responses := cl_responses c; cl_allowed := cl_allowed c |}.
Definition other_user (u : user) : user := {| us_id := us_id u; us_info := ds_info d u |}.
Definition other_owner (o : owner) : owner :=
  match o with OwnUser u => OwnUser (other_user u) | OwnClient c => OwnClient (other_client c) | OwnNone => OwnNone end.
Definition outcome {A} (f : A -> A) (r : res A) : res A := match r with V a => V (f a) | X e => X e end.
Definition other_call (o : obs) : obs :=
  match o with
  | OFindClient i r => OFindClient i (outcome (option_map other_client) r)
  | OFindUser i r => OFindUser i (outcome (option_map other_user) r)
  | OSaveCode code data c u r => OSaveCode code data (other_client c) (other_user u) r
  | OCreateAT c o sc r => OCreateAT (other_client c) (other_owner o) sc r
  | OCreateRT c o sc r => OCreateRT (other_client c) (other_owner o) sc r
  | ORevokeToken c t h r => ORevokeToken (other_client c) t h r
  | OGetUserinfo a u sc r => OGetUserinfo a (other_user u) sc r
  | o => o
  end.
Definition other_request (r : request) : request :=
  {| rq_method := rq_method r; rq_url := rq_url r; rq_headers := rq_headers r; rq_body := rq_body r;
     rq_data := rq_data r; rq_user := option_map other_user (rq_user r) |}.
Definition other_consent (x : consent) : consent :=
  match x with Consent c sc => Consent (other_client c) sc | x => x end.
Definition other_account (a : account) : account := {| a_id := a_id a; a_email := a_email a; a_password := ds_password d a |}.
Definition other_app_call (o : aobs) : aobs :=
  match o with
  | OGetSession sid uid r => OGetSession sid uid (outcome (option_map (option_map other_user)) r)
  | OFindAccount e r => OFindAccount e (outcome (option_map other_account) r)
  | OLib o => OLib (other_call o)
  | o => o
  end.
Definition other_store (s : store) : store :=
  {| st_clients := map other_client (st_clients s); st_users := map other_user (st_users s); st_codes := st_codes s; st_rts := st_rts s |}.
Definition other_tables (t : tables) : tables :=
  {| tb_store := other_store (tb_store t); tb_sessions := tb_sessions t; tb_accounts := map other_account (tb_accounts t) |}.
Definition other_log (log : list (nat * aobs)) : list (nat * aobs) := map (fun x => (fst x, other_app_call (snd x))) log.
End Disguise.

(** Both are missing, or neither is and each of the texts [known] is either both or neither. *)
Definition alike (known : str -> Prop) (a b : option str) : Prop :=
  (a = None <-> b = None) /\ forall s, known s -> (a = Some s <-> b = Some s).
(** The request offers [s] as the secret of a client. *)
Definition offers (r : request) (s : str) : Prop := (exists i, basic_credentials (rq_headers r) i s) \/ form_has r "client_secret" s.
(** What the request offers is right for the same clients as before. *)
Definition hidden_from (d : disguise) (r : request) : Prop := forall c, alike (offers r) (cl_secret c) (ds_secret d c).
(** The same for a request to the example application, and the password that it submits. *)
Definition hidden_from_web (d : disguise) (w : web) : Prop :=
  (forall a, a_password a = lf_password (wb_form w) <-> ds_password d a = lf_password (wb_form w)) /\
  (forall u r, make_request (wb_method w) (wb_url w) (wb_headers w) (Some (wb_body w)) u = Ok r -> hidden_from d r).
