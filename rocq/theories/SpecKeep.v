(** Who may end a session or a refresh token, for the statement of C174. *)
From Coq Require Import String Ascii List NArith ZArith Bool.
From Verif Require Import Base SpecReaders Webtools Crypto Jwk Prog Http OAuth SpecOAuth Example App.
Import ListNotations.
Open Scope N_scope.

(** The request [n] is a visit to the logout page with a session of the user. *)
Definition logs_out (log : list (nat * aobs)) (n : nat) (q : page * web) (uid : str) : Prop :=
  fst q = LogoutPage /\ (wb_method (snd q) = chars "GET" \/ wb_method (snd q) = chars "HEAD") /\
  exists sid u, wb_cookie (snd q) = Some (uid, sid) /\ In (n, OGetSession sid uid (V (Some (Some u)))) log.
(** The request [n] is one to the revocation endpoint that names the token, with the credentials of the registered client. *)
Definition revokes_for (t : tables) (log : list (nat * aobs)) (n : nat) (q : page * web) (client token : str) : Prop :=
  fst q = RevokePage /\ wb_method (snd q) = chars "POST" /\
  exists ou r i c, make_request (wb_method (snd q)) (wb_url (snd q)) (wb_headers (snd q)) (Some (wb_body (snd q))) ou = Ok r /\
    In (n, OLib (OFindClient i (V (Some c)))) log /\ In c (st_clients (tb_store t)) /\ authenticates r i c /\ cl_id c = client /\ form_has r "token" token.
(** The request [n] made a call since. *)
Definition acted (n : nat) (l : list (nat * aobs)) : Prop := exists o, In (n, o) l.
