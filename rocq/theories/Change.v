(** Objects of src/psion/jose that are changed after they were made: nothing is validated again.  The other files take them as
    they were made. *)
From Coq Require Import String Ascii List NArith ZArith Bool.
From Verif Require Import Base Json Webtools Crypto Jwk Jws Jwt.
Import ListNotations.
Open Scope N_scope.

(** [d[name] = v], [d.update(e)], [del d[name]] (which raises and changes nothing if there is no such name) *)
Inductive change := Assign (name : str) (v : pyval) | Update (e : pdict) | Delete (name : str).
(** of a dict *)
Definition changed (d : pdict) (c : change) : pdict :=
  match c with Assign n v => dset n v d | Update e => dupdate d e | Delete n => dremove n d end.
(** of a FullDict: webtools.py 27-29 *)
Definition changed_full (d : pdict) (c : change) : pdict :=
  match c with Assign n v => full_setitem n v d | Update e => full_update d e | Delete n => dremove n d end.

(** [key.data] is a FullDict; [key._algorithm] was made from the first one (jwk.py 44-45). *)
Definition change_key (cs : list change) (k : jwk) : jwk := {| jdata := fold_left changed_full cs (jdata k); jmat := jmat k |}.
(** A header is a dict; [header.algorithm] was set once (jws.py 89-90). *)
Definition change_header (cs : list change) (h : header) : header := {| hdict := fold_left changed cs (hdict h); halg := halg h |}.
(** [token.claims]; the payload was written from the first one (jwt.py 166-168). *)
Definition change_claims (cs : list change) (t : jwt) : jwt := {| tclaims := fold_left changed cs (tclaims t); tjws := tjws t |}.

(** jwk.py 276-288 [get_key] of a set whose list or keys were changed: [key.data["kid"]] raises KeyError. *)
Fixpoint get_key_any (ks : list jwk) (kid : pyval) : result (option jwk) :=
  match ks with
  | [] => Ok None
  | k :: r => match lookup (lit "kid") (jdata k) with
              | None => Err KeyError
              | Some v => if py_eq v kid then Ok (Some k) else get_key_any r kid
              end
  end.
