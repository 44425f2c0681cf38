(** Model of the reading of raw keys in src/psion/jose/jwa/jwk.py: [_parse_raw]. *)
From Coq Require Import String Ascii List NArith ZArith Bool.
From Verif Require Import Base Crypto Jwk.
Import ListNotations.
Open Scope N_scope.

(** What [open(path, "rb")] and [read()] do with a [bytes] path: an oracle, the file system. *)
Inductive opened :=
| Content (b : bytes)
| FileNotFound
| IsADirectory
| OpenRaises (e : exn).
Definition files := bytes -> opened.

(** jwa/jwk.py 63-68 [_parse_raw]; [to_bytes] leaves a [bytes] object as it is. *)
Definition parse_raw (F : files) (path_or_secret : bytes) : result bytes :=
  match F path_or_secret with
  | Content b => Ok b
  | FileNotFound | IsADirectory => Ok path_or_secret
  | OpenRaises e => Err e
  end.

(** jwk.py 82-133 [JsonWebKey.parse]: the class is looked up first, each of the three classes begins with [_parse_raw]
    (jwa/jwk.py 307, 515, 770).  The options are those Python takes as such (not "cls", "password", ...). *)
Definition key_parse (C : crypto) (F : files) (path_or_secret : bytes) (algorithm : str) (public : bool) (format : str) (options : pdict) : result jwk :=
  if ins algorithm key_types then
    let! raw := parse_raw F path_or_secret in
    jwk_parse C raw algorithm public format options
  else Err UnsupportedAlgorithm.
(** jwa/jwk.py 487-542 [OCTKey.parse] *)
Definition oct_key_parse (F : files) (path_or_secret : bytes) (format : str) : result kmat :=
  let! raw := parse_raw F path_or_secret in
  oct_parse raw format.
