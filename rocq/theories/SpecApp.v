(** Specifications for the properties of the example application as a whole. *)
From Coq Require Import String Ascii List NArith ZArith Bool Arith.
From Verif Require Import Base Utf8 SpecCodec Json Url Webtools Crypto Jwk Prog Http OAuth SpecOAuth SpecHistory SpecFlow Example App.
Import ListNotations.

(** ** Histories: requests to pages, interleaving at calls, each of which may have stopped at any point. *)
Definition acalls_of (n : nat) (log : list (nat * aobs)) : list aobs := map snd (filter (fun x => Nat.eqb (fst x) n) log).
Definition app_running (E : env) (p : provider) (hs : hooks) (qs : list (page * web)) (log : list (nat * aobs)) : Prop :=
  (forall n o, In (n, o) log -> exists q, nth_error qs n = Some q) /\
  (forall n g w, nth_error qs n = Some (g, w) -> exists tr x, aexec (application E p hs g w) (acalls_of n log ++ tr) x).
(** The calls of the library among those of the application *)
Definition lib_calls (tr : list aobs) : list obs := flat_map (fun o => match o with OLib o => [o] | _ => [] end) tr.

(** Nobody is logged in and nothing was given out. *)
Definition fresh_tables (t : tables) : Prop :=
  st_codes (tb_store t) = [] /\ st_rts (tb_store t) = [] /\ tb_sessions t = [] /\ forall c, In c (st_clients (tb_store t)) -> restricts c.
(** The request submits the address and the password of an account with this user. *)
Definition submits_password (t : tables) (uid : str) (q : page * web) : Prop :=
  fst q = LoginPage /\ wb_method (snd q) = lit "POST" /\
  exists a, In a (tb_accounts t) /\ a_id a = uid /\ a_email a = lf_email (wb_form (snd q)) /\ a_password a = lf_password (wb_form (snd q)).
(** The session [sid] was started by a request that submitted the password, is read by the request [m], and all of the
    user's sessions were not ended in between. *)
Definition logged_in (t : tables) (qs : list (page * web)) (log : list (nat * aobs)) (uid sid : str) (m : nat) : Prop :=
  exists l1 k l2 y l3 q, log = l1 ++ (k, ONewSession sid uid (V tt)) :: l2 ++ (m, OGetSession sid uid (V (Some y))) :: l3 /\
    (forall n, ~ In (n, ODropSessions uid (V tt)) l2) /\ nth_error qs k = Some q /\ submits_password t uid q.

(** The user has no session and no refresh token. *)
Definition logged_out (uid : str) (t : tables) : Prop :=
  (forall sid, ~ In (sid, uid) (tb_sessions t)) /\ forall k rt, In (k, rt) (st_rts (tb_store t)) -> rt_user rt <> uid.

(** The library gets the request [w] as [q], with the user of the session. *)
Definition handed_over (w : web) (q : incoming) : Prop :=
  exists u, make_request (wb_method w) (wb_url w) (wb_headers w) (Some (wb_body w)) (Some u) = Ok (in_request q).

(** The characters that may occur in a URL (RFC 3986 section 2), and the percent sign *)
Definition uri_char (c : N) : Prop := In c (lit "ABCDEFGHIJKLMNOPQRSTUVWXYZabcdefghijklmnopqrstuvwxyz0123456789-._~:/?#[]@!$&'()*+,;=%").
Definition is_url (u : str) : Prop := Forall uri_char u.
(** The scheme and authority of the application *)
Definition is_origin (b : str) : Prop := is_url b /\ ~ In 35%N b /\ ~ In 63%N b.
(** The exception that a call raised, if any *)
Definition araised (o : aobs) : option oexn :=
  match o with
  | OGetSession _ _ (X e) | OFindAccount _ (X e) | OUserSession _ (X e) | OSessionToken (X e) | ONewSession _ _ (X e) | ODropRefresh _ (X e) | ODropSessions _ (X e) => Some e
  | OLib o => raised o
  | _ => None
  end.
Definition ano_raise (tr : list aobs) : Prop := forall o, In o tr -> araised o = None.
