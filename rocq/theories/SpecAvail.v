(** What other requests leave of a code, for the statement of C178. *)
From Coq Require Import String Ascii List NArith ZArith Bool.
From Verif Require Import Base SpecReaders Webtools Crypto Jwk Prog Http OAuth SpecOAuth Example App SpecApp SpecWho.
Import ListNotations.
Open Scope N_scope.

(** A request to the token endpoint that names the code *)
Definition names_code (q : page * web) (k : str) : Prop := fst q = TokenPage /\ exists ou r, taken_as (snd q) ou r /\ data_has r "code" k.
(** The row holds what was saved for the client and the user. *)
Definition as_saved (ad : auth_data) (c : client) (u : user) (row : auth_code) : Prop :=
  ac_client row = cl_id c /\ ac_user row = us_id u /\ ac_redirect row = ad_redirect ad /\ ac_scopes row = ad_scopes ad /\
  ac_challenge row = ad_challenge ad /\ ac_method row = ad_method ad /\ ac_nonce row = ad_nonce ad /\ exists t, ac_exp row = Naive t.
