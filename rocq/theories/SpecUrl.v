(** How texts are written into URLs, from RFC 3986, RFC 3629 and the documentation of urllib.parse; independent of the
    model's writers. *)
From Coq Require Import String Ascii List NArith ZArith Bool.
From Verif Require Import Base SpecCodec SpecReaders.
Import ListNotations.
Open Scope N_scope.

(** RFC 3986, section 2.3 *)
Definition unreserved : list N := chars "ABCDEFGHIJKLMNOPQRSTUVWXYZabcdefghijklmnopqrstuvwxyz0123456789-._~".
Definition upper_hex (v : N) : N := nth (N.to_nat v) (chars "0123456789ABCDEF") 0.
(** One character: an unreserved one, or one of [safe], is itself; a space is "+"; another one is the octets of its UTF-8,
    each as "%" and two hexadecimal digits.  A surrogate cannot be written. *)
Definition quoted (safe : list N) (c : N) : option (list N) :=
  if in_dec N.eq_dec c (unreserved ++ safe) then Some [c]
  else if c =? 32 then Some [43]
  else option_map (flat_map (fun o => [37; upper_hex (o / 16); upper_hex (o mod 16)])) (rfc3629 c).
Inductive quoted_text (safe : list N) : list N -> list N -> Prop :=
| qt_nil : quoted_text safe [] []
| qt_cons c w s t : quoted safe c = Some w -> quoted_text safe s t -> quoted_text safe (c :: s) (w ++ t).
(** A URL in a Location header: the reserved characters of RFC 3986 section 2.2 and "%" stay as they are. *)
Definition header_text : list N -> list N -> Prop := quoted_text (chars ":/%#?&=@[]!$&'()*+,;").
(** Pairs, joined by "&" *)
Inductive query_text : list (str * str) -> list N -> Prop :=
| qy_nil : query_text [] []
| qy_one k k' v v' : quoted_text [] k k' -> quoted_text [] v v' -> query_text [(k, v)] (k' ++ 61 :: v')
| qy_more k k' v v' i r t : quoted_text [] k k' -> quoted_text [] v v' -> query_text (i :: r) t ->
    query_text ((k, v) :: i :: r) (k' ++ 61 :: v' ++ 38 :: t).

(** [str(v)]; the texts of floats, lists and dicts are not modelled. *)
Inductive shown : pyval -> list N -> Prop :=
| sh_str s : shown (PStr s) s
| sh_int z t : number_text t (PInt z) -> t <> chars "-0" -> shown (PInt z) t
| sh_true : shown (PBool true) (chars "True")
| sh_false : shown (PBool false) (chars "False").
Definition simple (v : pyval) : Prop := match v with PFloat _ | PList _ | PDict _ => False | _ => True end.

(** The parameters that are not None, shown *)
Inductive shown_items : pdict -> list (str * str) -> Prop :=
| si_nil : shown_items [] []
| si_none k d l : shown_items d l -> shown_items ((k, PNone) :: d) l
| si_more k v t d l : shown v t -> shown_items d l -> shown_items ((k, v) :: d) ((k, t) :: l).
Definition url_with (u : str) (d : pdict) (r : str) : Prop :=
  (forall v, ~ In (chars "url", v) d) /\ exists l q, shown_items d l /\ query_text l q /\ r = u ++ 63 :: q.
