(** Specifications for the conformance properties C84-C93. *)
From Coq Require Import String Ascii List NArith ZArith Bool.
From Verif Require Import Base Utf8 SpecCodec Json Webtools Jwk Prog Http OAuth SpecReaders SpecOAuth.
Import ListNotations.
Open Scope N_scope.

(** RFC 6749 section 3.1/3.2: the parameters an endpoint recognises *)
Definition token_params : list string := ["grant_type"; "code"; "redirect_uri"; "code_verifier"; "refresh_token"; "scope"]%string.
Definition authorization_params : list string :=
  ["response_type"; "client_id"; "redirect_uri"; "scope"; "state"; "code_challenge"; "code_challenge_method"; "nonce"]%string.
Definition credential_params : list string := ["client_id"; "client_secret"]%string.
Definition revocation_params : list string := ["client_id"; "client_secret"; "token"; "token_type_hint"]%string.
(** Two lists of parameters give the same values to these names. *)
Definition agree (ks : list string) (d d' : params) : Prop := forall k, In k ks -> lookup (lit k) d = lookup (lit k) d'.
(** Two requests that differ in other parameters, their order, the method, the URL and other headers only *)
Definition same_credentials (r r' : request) : Prop :=
  (forall auth, carries (rq_headers r) auth <-> carries (rq_headers r') auth) /\ agree credential_params (form r) (form r').
(** Two programs behave the same whatever the application does. *)
Definition same_behaviour {A} (p q : prog A) : Prop := forall tr x, exec p tr x <-> exec q tr x.

(** An error response of RFC 6749 section 5.2 *)
Definition error_answer (x : response) (code : string) : Prop :=
  rs_status x = 400 /\ exists d, json_body x d /\ lookup (lit "error") d = Some (PStr (lit code)).
(** RFC 9110 section 5.5, without spaces at the ends being excluded: printable ASCII, so neither CR nor LF *)
Definition header_text (v : pyval) : Prop := exists s, v = PStr s /\ Forall (fun c => 32 <= c <= 126) s.
Definition clean_headers (x : response) : Prop := Forall (fun kv => Forall (fun c => 33 <= c <= 126) (fst kv) /\ header_text (snd kv)) (rs_headers x).

(** The credentials [s] of a Basic header are not those of the client found. *)
Definition denied (oc : option client) (s : str) : Prop :=
  match oc with None => True | Some c => cl_secret c <> Some s \/ cl_auth_method c <> lit "client_secret_basic" end.
(** The error_description of a response *)
Definition described (x : response) (d : string) : Prop := exists b, json_body x b /\ lookup (lit "error_description") b = Some (PStr (lit d)).
(** Every reading of the clock is [t] or later. *)
Definition late (t : Z) (tr : list obs) : Prop := forall now off, In (ONow (V (now, off))) tr -> (t <= now)%Z.
