(** Consent, authentication requests, sessions and guesses: specification of C156-C161. *)
From Coq Require Import String Ascii List NArith ZArith Bool Arith.
From Verif Require Import Base Webtools Prog Http OAuth SpecReaders SpecOAuth SpecHistory Example App SpecApp.
Import ListNotations.
Open Scope N_scope.

(** The request that the library gets from a page, with the user of the session *)
Definition passed_on (w : web) (u : user) (r : request) : Prop :=
  make_request (wb_method w) (wb_url w) (wb_headers w) (Some (wb_body w)) (Some u) = Ok r.
(** The page reads this session, and it is one of the user [u]. *)
Definition session_of (w : web) (u : user) (tr : list aobs) : Prop :=
  exists uid sid, wb_cookie w = Some (uid, sid) /\ In (OGetSession sid uid (V (Some (Some u)))) tr.
(** The page finds no session. *)
Definition no_session (tr : list aobs) : Prop := forall sid uid u, ~ In (OGetSession sid uid (V (Some u))) tr.
(** OpenID Connect Core section 3.1.2.1: the parameters that tell how the user is to be authenticated and asked *)
Definition authentication_params : list string := ["prompt"; "max_age"; "display"; "ui_locales"; "id_token_hint"; "login_hint"; "acr_values"; "claims"; "request"; "request_uri"; "response_mode"]%string.
(** Two requests whose parameters agree but for these *)
Definition agree_except (ks : list string) (d d' : params) : Prop := forall k, ~ In k (map chars ks) -> lookup k d = lookup k d'.
(** Every request is one to the login page that does not name the address and the password of an account. *)
Definition guesses (t : tables) (qs : list (page * web)) : Prop := forall q, In q qs -> fst q = LoginPage /\ forall uid, ~ submits_password t uid q.
