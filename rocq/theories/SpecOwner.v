(** Whose tokens a request may get: specification for C183. *)
From Coq Require Import String Ascii List NArith ZArith Bool.
From Verif Require Import Base SpecReaders Webtools Prog Http OAuth SpecOAuth App SpecApp.
Import ListNotations.

(** RFC 6749 sections 4.1.3 and 6: the request number [n], made by the client [c], presents a code or a refresh token
    that was found in the data base and belongs to [c] and to the user called [who]. *)
Definition granted_to (r : request) (c : client) (n : nat) (log : list (nat * aobs)) (who : str) : Prop :=
  (data_has r "grant_type" (chars "authorization_code") /\ exists x ac, data_has r "code" x /\ In (n, OLib (OGetCode x (V (Some ac)))) log /\ ac_client ac = cl_id c /\ ac_user ac = who) \/
  (data_has r "grant_type" (chars "refresh_token") /\ exists x rt, data_has r "refresh_token" x /\ In (n, OLib (OGetRT x (V (Some rt)))) log /\ rt_client rt = cl_id c /\ rt_user rt = who).
