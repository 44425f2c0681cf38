(** Specifications used by the statements of PropsJwt. *)
From Coq Require Import String Ascii List NArith ZArith Bool.
From Verif Require Import Base SpecPy SpecCodec.
Import ListNotations.

(** A time claim as the code enforces it: absent or falsy (None, 0, False, "" ...), or an integer in range. *)
Definition time_met (c : pdict) (name : string) (ok : Z -> Prop) : Prop :=
  ~ false_value (dget (lit name) c) -> exists z, lookup (lit name) c = Some (PInt z) /\ ok z.
(** A time claim as RFC 7519 section 4.1 describes it. *)
Definition time_strict (c : pdict) (name : string) (ok : Z -> Prop) : Prop :=
  forall v, lookup (lit name) c = Some v -> exists z, v = PInt z /\ ok z.
Definition text_or_null (c : pdict) (name : string) : Prop :=
  forall v, lookup (lit name) c = Some v -> v = PNone \/ exists s, v = PStr s.
Definition aud_met (c : pdict) : Prop :=
  forall v, lookup (lit "aud") c = Some v -> ~ false_value v ->
    (exists s, v = PStr s) \/ (exists l, v = PList l /\ forall x, In x l -> exists s, x = PStr s).

(** The default claims, at the time [now]. *)
Definition claims_met (now : Z) (c : pdict) : Prop :=
  aud_met c /\ time_met c "exp" (fun z => (now < z)%Z) /\ time_met c "iat" (fun z => (z <= now)%Z) /\
  time_met c "nbf" (fun z => (z <= now)%Z) /\ text_or_null c "iss" /\ text_or_null c "jti" /\ text_or_null c "sub".

(** One validation option, [o], for the claim [name]: jwt.py 20-25. *)
Definition option_met (c : pdict) (name : str) (o : pdict) : Prop :=
  (~ false_value (dget (lit "essential") o) -> dget name c <> PNone) /\
  (~ false_value (dget (lit "value") o) -> same (dget name c) (dget (lit "value") o)) /\
  (~ false_value (dget (lit "values") o) ->
     exists l, dget (lit "values") o = PList l /\
       (among (dget name c) l \/ exists items x, dget name c = PList items /\ In x items /\ among x l)).
(** The loop stops at this option: a list claim that meets its "values". *)
Definition stops (c : pdict) (kv : str * pyval) : Prop :=
  exists o l items x, snd kv = PDict o /\ dget (lit "values") o = PList l /\
    dget (fst kv) c = PList items /\ In x items /\ among x l.

Definition jwt_errors : list exn := [InvalidJWTClaim; ExpiredToken; NotYetValidToken].
