(** Model of the adapter of the example application: example/adapter.py, example/models. *)
From Coq Require Import String Ascii List NArith ZArith Bool.
From Verif Require Import Base Utf8 Base64 Json Url Webtools Crypto Jwk Jws Jwt Prog Http OAuth.
Import ListNotations.
Open Scope N_scope.

(** example/adapter.py 16-22 [SECRET_KEY = JsonWebKey.parse(.., "oct", False, format="der", kid=..)] *)
Definition secret_bytes : bytes := lit "super_secret_key_that_no_one_will_be_able_to_guess".
Definition parse_secret_key (C : crypto) : result jwk :=
  jwk_parse C secret_bytes (lit "oct") false (lit "der") [(lit "kid", PStr (lit "secret_key_id"))].
Definition SECRET_KEY : jwk :=
  {| jdata := [(lit "kty", PStr (lit "oct"));
               (lit "k", PStr (lit "c3VwZXJfc2VjcmV0X2tleV90aGF0X25vX29uZV93aWxsX2JlX2FibGVfdG9fZ3Vlc3M"));
               (lit "kid", PStr (lit "secret_key_id"))];
     jmat := KOct secret_bytes |}.

(** example/models/clients.py 9-61; [get_allowed_scopes] is lines 43-47. *)
Definition ex_client (id : str) (secret : option str) (method : str) (redirects grants responses scopes : list str) : client :=
  {| cl_id := id; cl_secret := secret; cl_auth_method := method; cl_redirects := redirects;
     cl_grants := grants; cl_responses := responses;
     cl_allowed := fun o => match o with None => scopes | Some l => filter (fun s => ins s l) scopes end |}.

(** The tables that the adapter uses (example/models/clients.py, users.py, tokens.py), with the primary keys
    of codes and refresh tokens.  Foreign keys and maximal lengths are not checked here; that an operation
    may fail for such reasons is covered by [ex_raise] below. *)
Record store := {
  st_clients : list client; st_users : list user;
  st_codes : list (str * auth_code); st_rts : list (str * refresh_token)
}.
Definition set_codes (l : list (str * auth_code)) (s : store) : store :=
  {| st_clients := st_clients s; st_users := st_users s; st_codes := l; st_rts := st_rts s |}.
Definition set_rts (l : list (str * refresh_token)) (s : store) : store :=
  {| st_clients := st_clients s; st_users := st_users s; st_codes := st_codes s; st_rts := l |}.

(** What an operation takes from outside of the store: the clock, the result of [secret_token], the
    randomness of a signature. *)
Record choice := { ch_now : Z; ch_off : Z; ch_token : str; ch_rand : bytes }.

(** [str(resource_owner.id)]: AttributeError for None *)
Definition owner_id (o : owner) : result str :=
  match o with OwnUser u => Ok (us_id u) | OwnClient c => Ok (cl_id c) | OwnNone => Err AttributeError end.

(** example/adapter.py 54-83 [create_access_token]; [JsonWebToken] reads the clock again (jwt.py 43), here at
    the same second. *)
Definition ex_access_token (C : crypto) (ch : choice) (c : client) (o : owner) (scopes : list str) : result str :=
  let! sub := owner_id o in
  let now := utcnow_timestamp (ch_now ch) (ch_off ch) in
  let! t := JsonWebToken now
    (PDict (FullDict [(lit "iss", PStr (lit "http://localhost:8000"));
                      (lit "exp", PInt (now + 3600)%Z);
                      (lit "sub", PStr sub);
                      (lit "iat", PInt now);
                      (lit "jti", PStr (ch_token ch));
                      (lit "client_id", PStr (cl_id c));
                      (lit "scope", PStr (unwords scopes))] []))
    (PDict [(lit "alg", PStr (lit "HS256")); (lit "typ", PStr (lit "at+jwt"))]) in
  jwt_encode C (ch_rand ch) t (Some SECRET_KEY).

(** example/adapter.py 85-122 [get_userinfo]; [us_info] holds the attributes of the user, the dates already
    converted as in lines 100-105. *)
Definition pick (u : user) (names : list string) : pdict := map (fun n => (lit n, dget (lit n) (us_info u))) names.
Definition ex_userinfo (u : user) (scopes : list str) : pdict :=
  let add (scope : string) (names : list string) (d : pdict) :=
    if ins (lit scope) scopes then dupdate d (pick u names) else d in
  FullDict
    (add "phone" ["phone_number"; "phone_number_verified"]
      (add "address" ["address"]
        (add "email" ["email"; "email_verified"]
          (add "profile" ["given_name"; "middle_name"; "family_name"; "nickname"; "preferred_username"; "profile";
                          "picture"; "website"; "gender"; "birthdate"; "zoneinfo"; "locale"; "created_at"; "updated_at"]
            [(lit "sub", PStr (us_id u))]))))%string [].

(** A stored refresh token of this client and user *)
Definition rt_of (c u : str) (kt : str * refresh_token) : bool := eqs (rt_client (snd kt)) c && eqs (rt_user (snd kt)) u.

(** example/adapter.py 25-155: the result of each operation and the store after it.  [aware] tells whether the
    ORM returns the stored times with a time zone: tokens.py 52-53 strips it from the expiration of a code,
    tokens.py 82-83 does not strip it from that of a refresh token.  A violated primary key raises. *)
Definition ex_do (C : crypto) (aware : bool) (ch : choice) {T} (e : eff T) (s : store) : res T * store :=
  match e in eff T return res T * store with
  | FindClient id => (V (find (fun c => eqs (cl_id c) id) (st_clients s)), s)
  | FindUser id => (V (find (fun u => eqs (us_id u) id) (st_users s)), s)
  | SaveCode code ad c u =>
      match ad_nonce ad with
      | None => (X (Py KeyError), s)
      | Some n =>
          if has code (st_codes s) then (X (Py (Foreign 1)), s)
          else (V tt, set_codes ((code, {| ac_client := cl_id c; ac_user := us_id u; ac_redirect := ad_redirect ad;
                                           ac_scopes := ad_scopes ad; ac_challenge := ad_challenge ad;
                                           ac_method := ad_method ad; ac_nonce := Some n;
                                           ac_exp := Naive (ch_now ch + 86400000000) |}) :: st_codes s) s)
      end
  | GetCode code => (V (lookup code (st_codes s)), s)
  | DeleteCode code => (V tt, set_codes (dremove code (st_codes s)) s)
  | CreateAT c o sc => (lift (ex_access_token C ch c o sc), s)
  | CreateRT c o sc =>
      match owner_id o with
      | Err e => (X (Py e), s)
      | Ok u =>
          match find (rt_of (cl_id c) u) (st_rts s) with
          | Some (t, _) => (V (Some t), s)
          | None =>
              if has (ch_token ch) (st_rts s) then (X (Py (Foreign 1)), s)
              else (V (Some (ch_token ch)),
                    set_rts ((ch_token ch, {| rt_client := cl_id c; rt_user := u; rt_scopes := sc;
                                              rt_exp := (if aware then Aware else Naive) (ch_now ch + 1209600000000)%Z |}) :: st_rts s) s)
          end
      end
  | GetRT t => (V (lookup t (st_rts s)), s)
  | RevokeToken c t _ =>
      (V tt, set_rts (filter (fun kt => negb (eqs (fst kt) t && eqs (rt_client (snd kt)) (cl_id c))) (st_rts s)) s)
  | GetUserinfo _ u sc => (V (ex_userinfo u sc), s)
  | GetKeyInfo _ => (V (SECRET_KEY, lit "HS256"), s)
  | Now => (V (ch_now ch, ch_off ch), s)
  | SecretToken _ => (V (ch_token ch), s)
  | SignRand => (V (ch_rand ch), s)
  end.

(** One operation of the example adapter as seen in a trace: it completes, or fails (the data base, an
    identifier that is not a UUID, a value too long) and leaves the store as it was. *)
Inductive ex_step (C : crypto) (aware : bool) : store -> obs -> store -> Prop :=
| ex_ok : forall ch T (e : eff T) s, ex_step C aware s (observe e (fst (ex_do C aware ch e s))) (snd (ex_do C aware ch e s))
| ex_raise : forall T (e : eff T) x s, ex_step C aware s (observe e (X (Py x))) s.
Inductive ex_steps (C : crypto) (aware : bool) : store -> list obs -> store -> Prop :=
| ex_nil : forall s, ex_steps C aware s [] s
| ex_cons : forall s o s1 tr s2, ex_step C aware s o s1 -> ex_steps C aware s1 tr s2 -> ex_steps C aware s (o :: tr) s2.

(** A concrete run, for the examples: the choices come from a counter and a clock that stands still. *)
Record world := { w_store : store; w_count : N; w_now : Z }.
Definition w_choice (w : world) : choice :=
  {| ch_now := w_now w; ch_off := 0; ch_token := lit "tok" ++ dec_N (w_count w); ch_rand := [] |}.
Definition ex_handler (C : crypto) (aware : bool) : handler world := fun T e w =>
  let (x, s) := ex_do C aware (w_choice w) e (w_store w) in
  (x, {| w_store := s; w_count := w_count w + 1; w_now := w_now w |}).
