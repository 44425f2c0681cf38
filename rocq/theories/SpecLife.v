(** Specifications for the properties about how long codes, tokens and sessions live, and about error responses. *)
From Coq Require Import String Ascii List NArith ZArith Bool Arith.
From Verif Require Import Base Utf8 SpecCodec Json Webtools Jwk Prog Http OAuth SpecOAuth SpecHistory SpecFlow Example App SpecApp.
Import ListNotations.
Open Scope N_scope.

(** The client and the user of every refresh token, as stored *)
Definition rt_pairs (s : store) : list (str * str) := map (fun kt => (rt_client (snd kt), rt_user (snd kt))) (st_rts s).
(** The identifier under which a refresh token for this owner is stored *)
Definition owned_by (o : owner) (uid : str) : Prop := match o with OwnUser u => us_id u = uid | OwnClient c => cl_id c = uid | OwnNone => False end.

(** RFC 7231 section 4.2.1: the safe methods *)
Definition safe_method (m : str) : Prop := m = lit "GET" \/ m = lit "HEAD".

(** No account has this address and password. *)
Definition wrong_login (t : tables) (w : web) : Prop :=
  forall a, In a (tb_accounts t) -> a_email a = lf_email (wb_form w) -> a_password a <> lf_password (wb_form w).

(** RFC 6749 section 4.1.2.1: the error codes of the authorization endpoint *)
Definition authorization_error_codes : list str :=
  map lit ["invalid_request"; "unauthorized_client"; "access_denied"; "unsupported_response_type"; "invalid_scope"; "server_error"; "temporarily_unavailable"]%string.
(** RFC 7009 section 2.2.1 *)
Definition revocation_error_codes : list str := lit "unsupported_token_type" :: token_error_codes.
(** RFC 6749 section 5.2: the characters of an error_description *)
Definition description_char (c : N) : Prop := 32 <= c <= 33 \/ 35 <= c <= 91 \/ 93 <= c <= 126.

(** [k] microseconds from seconds *)
Definition seconds (n : Z) : Z := (n * 1000000)%Z.
(** The character occurs in a value that the request sends. *)
Definition sent_char (r : request) (c : N) : Prop := exists k v, In (k, v) (rq_data r) /\ In c v.
