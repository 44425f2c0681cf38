(** Who changes what in the data base of the example, for the statement of C175. *)
From Coq Require Import String Ascii List NArith ZArith Bool.
From Verif Require Import Base SpecReaders Webtools Crypto Jwk Prog Http OAuth SpecOAuth Example App.
Import ListNotations.
Open Scope N_scope.

(** The library gets the request as [r], with the user [ou] of its session. *)
Definition taken_as (w : web) (ou : option user) (r : request) : Prop :=
  make_request (wb_method w) (wb_url w) (wb_headers w) (Some (wb_body w)) ou = Ok r.
(** The request [n] has a session of this user. *)
Definition signed_in (log : list (nat * aobs)) (n : nat) (w : web) (u : user) : Prop :=
  exists sid, wb_cookie w = Some (us_id u, sid) /\ In (n, OGetSession sid (us_id u) (V (Some (Some u)))) log.
(** An authorization request of the user that names the client and one of its redirect URIs *)
Definition authorizes (t : tables) (log : list (nat * aobs)) (n : nat) (q : page * web) (row : auth_code) : Prop :=
  fst q = AuthorizePage /\ wb_method (snd q) = chars "GET" /\
  exists u r c, taken_as (snd q) (Some u) r /\ signed_in log n (snd q) u /\ us_id u = ac_user row /\
    In c (st_clients (tb_store t)) /\ cl_id c = ac_client row /\ data_has r "client_id" (cl_id c) /\
    data_has r "redirect_uri" (ac_redirect row) /\ In (ac_redirect row) (cl_redirects c).
(** A token request with the credentials of the registered client *)
Definition asks_token (t : tables) (q : page * web) (r : request) (c : client) : Prop :=
  fst q = TokenPage /\ wb_method (snd q) = chars "POST" /\ (exists ou, taken_as (snd q) ou r) /\ In c (st_clients (tb_store t)) /\ authenticates r (cl_id c) c.
