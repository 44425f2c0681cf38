(** What a data base of the example holds when it is in order, for the statement of C176. *)
From Coq Require Import String Ascii List NArith ZArith Bool.
From Verif Require Import Base SpecReaders Webtools Crypto Jwk Prog Http OAuth SpecOAuth Example SpecLife App.
Import ListNotations.
Open Scope N_scope.

Definition user_of (t : tables) (uid : str) : Prop := exists u, In u (st_users (tb_store t)) /\ us_id u = uid.
Definition client_of (t : tables) (id : str) (c : client) : Prop := In c (st_clients (tb_store t)) /\ cl_id c = id.
(** The client may use the scope, and the provider supports it. *)
Definition may_use (scopes : list str) (c : client) (s : str) : Prop := In s scopes /\ exists l, In s (cl_allowed c (Some l)).
(** A code: for a user and a client there are, with a redirect URI and scopes of the client *)
Definition good_code (scopes : list str) (t : tables) (row : auth_code) : Prop :=
  user_of t (ac_user row) /\ exists c, client_of t (ac_client row) c /\ In (ac_redirect row) (cl_redirects c) /\
    In (chars "code") (cl_responses c) /\ forall s, In s (ac_scopes row) -> may_use scopes c s.
(** A refresh token: for a user and a client there are, which may use it, with scopes of the client *)
Definition good_token (scopes : list str) (t : tables) (row : refresh_token) : Prop :=
  user_of t (rt_user row) /\ exists c, client_of t (rt_client row) c /\ In (chars "refresh_token") (cl_grants c) /\
    forall s, In s (rt_scopes row) -> may_use scopes c s.
(** The tables that the application never changes: clients have different ids and permit of the requested scopes only,
    accounts are users. *)
Definition set_up (t : tables) : Prop :=
  NoDup (map cl_id (st_clients (tb_store t))) /\ (forall c, In c (st_clients (tb_store t)) -> restricts c) /\
  forall a, In a (tb_accounts t) -> user_of t (a_id a).
(** Those that it does change: no key twice, one refresh token for a client and a user, and only good rows. *)
Definition consistent (scopes : list str) (t : tables) : Prop :=
  NoDup (map fst (st_codes (tb_store t))) /\ NoDup (map fst (st_rts (tb_store t))) /\ NoDup (rt_pairs (tb_store t)) /\ NoDup (map fst (tb_sessions t)) /\
  (forall k row, In (k, row) (st_codes (tb_store t)) -> good_code scopes t row) /\
  (forall k row, In (k, row) (st_rts (tb_store t)) -> good_token scopes t row) /\
  (forall sid uid, In (sid, uid) (tb_sessions t) -> user_of t uid).
