(** For the statements of C165 to C168 *)
From Coq Require Import String Ascii List NArith ZArith Bool.
From Verif Require Import Base SpecCodec Webtools Crypto Jwk SpecKey SpecReaders Change.
Import ListNotations.
Open Scope N_scope.

(** RFC 7518 section 6: the type of a key and its parameters *)
Definition own_members (m : kmat) : list str :=
  chars "kty" :: map chars
    match m with
    | KOct _ => ["k"]
    | KRSA _ _ _ => ["n"; "e"; "d"; "p"; "q"; "dp"; "dq"; "qi"]
    | KEC _ _ _ _ => ["crv"; "x"; "y"; "d"]
    end%string.
(** RFC 7518 section 3.1 *)
Definition signing_names : list str :=
  map chars ["HS256"; "HS384"; "HS512"; "RS256"; "RS384"; "RS512"; "ES256"; "ES384"; "ES512"; "PS256"; "PS384"; "PS512"]%string.

(** What the member [n] is after changes, the last one last.  A FullDict ([full]) ignores the assignment of None, not None in an update. *)
Definition ignored (full : bool) (v : pyval) : Prop := full = true /\ v = PNone.
Definition touches (full : bool) (n : str) (c : change) : Prop :=
  match c with Assign m v => m = n /\ ~ ignored full v | Update e => exists v, In (n, v) e | Delete m => m = n end.
Inductive member_after (full : bool) (d : pdict) (n : str) : list change -> option pyval -> Prop :=
| ma_first : member_after full d n [] (lookup n d)
| ma_assign cs v : ~ ignored full v -> member_after full d n (cs ++ [Assign n v]) (Some v)
| ma_update cs e v : In (n, v) e -> (forall u, In (n, u) e -> u = v) -> member_after full d n (cs ++ [Update e]) (Some v)
| ma_delete cs : member_after full d n (cs ++ [Delete n]) None
| ma_other cs c v : ~ touches full n c -> member_after full d n cs v -> member_after full d n (cs ++ [c]) v.
