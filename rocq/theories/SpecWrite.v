(** How values are written as JSON, from RFC 8259 and the documentation of json.dumps with [ensure_ascii=False]; independent
    of the model's writer. *)
From Coq Require Import String Ascii List NArith ZArith Bool.
From Verif Require Import Base SpecCodec SpecReaders.
Import ListNotations.
Open Scope N_scope.

Definition lower_hex (v : N) : N := nth (N.to_nat v) (chars "0123456789abcdef") 0.
(** One character: the two-character escape, where there is one, the slash excepted; "\u00" and two hexadecimal digits for
    another control character; otherwise itself. *)
Inductive char_written : N -> list N -> Prop :=
| cw_plain c : 32 <= c -> c <> 34 -> c <> 92 -> char_written c [c]
| cw_short e c : In (e, c) escapes -> c <> 47 -> char_written c [92; e]
| cw_control c x y : c < 32 -> (forall e, ~ In (e, c) escapes) -> x < 16 -> y < 16 -> c = 16 * x + y ->
    char_written c (chars "\u00" ++ [lower_hex x; lower_hex y]).
Inductive chars_written : list N -> list N -> Prop :=
| sw_nil : chars_written [] []
| sw_more c w s t : char_written c w -> chars_written s t -> chars_written (c :: s) (w ++ t).
Definition string_written (s t : list N) : Prop := exists w, chars_written s w /\ t = [34] ++ w ++ [34].

(** Values: members and elements in their order, separated by a comma and a space, names and values by a colon and a space.
    A float is kept as its text. *)
Inductive written : pyval -> list N -> Prop :=
| wr_none : written PNone (chars "null")
| wr_true : written (PBool true) (chars "true")
| wr_false : written (PBool false) (chars "false")
| wr_int z t : number_text t (PInt z) -> t <> chars "-0" -> written (PInt z) t
| wr_float t : written (PFloat t) t
| wr_string s t : string_written s t -> written (PStr s) t
| wr_list0 : written (PList []) (chars "[]")
| wr_list l t : elements_written l t -> written (PList l) (chars "[" ++ t ++ chars "]")
| wr_dict0 : written (PDict []) (chars "{}")
| wr_dict d t : members_written d t -> written (PDict d) (chars "{" ++ t ++ chars "}")
with elements_written : list pyval -> list N -> Prop :=
| ew_last v t : written v t -> elements_written [v] t
| ew_more v t r u : written v t -> elements_written r u -> elements_written (v :: r) (t ++ chars ", " ++ u)
with members_written : pdict -> list N -> Prop :=
| mw_last k n v t : string_written k n -> written v t -> members_written [(k, v)] (n ++ chars ": " ++ t)
| mw_more k n v t r u : string_written k n -> written v t -> members_written r u ->
    members_written ((k, v) :: r) (n ++ chars ": " ++ t ++ chars ", " ++ u).
(** The octets of a value written in UTF-8 *)
Definition octets_of (v : pyval) (b : list N) : Prop := exists t, written v t /\ rfc3629_str t = Some b.
