(** Specifications of the codecs, written from the RFCs and independent of the model. *)
From Coq Require Import List NArith ZArith Bool String Ascii.
Import ListNotations.
Open Scope N_scope.

(** RFC 4648 section 5, without padding: the bit string of the input, most significant bit
    first, zero-padded to a multiple of six, each six-bit group indexes the alphabet. *)
Definition bits8 (b : N) : list bool :=
  map (N.testbit b) [7; 6; 5; 4; 3; 2; 1; 0].
Definition bits (l : list N) : list bool := flat_map bits8 l.
Definition num_of_bits (l : list bool) : N :=
  fold_left (fun acc b => 2 * acc + (if b : bool then 1 else 0)) l 0.
Fixpoint groups6 (l : list bool) : list (list bool) :=
  match l with
  | [] => []
  | a :: b :: c :: d :: e :: f :: r => [a; b; c; d; e; f] :: groups6 r
  | short => [short ++ repeat false (6 - List.length short)]
  end.
Definition url_alphabet : list N :=
  map N_of_ascii (list_ascii_of_string
    "ABCDEFGHIJKLMNOPQRSTUVWXYZabcdefghijklmnopqrstuvwxyz0123456789-_").
Definition rfc4648_url (l : list N) : list N :=
  map (fun g => nth (N.to_nat (num_of_bits g)) url_alphabet 0) (groups6 (bits l)).

(** Big-endian value of a byte string. *)
Definition be_value (l : list N) : N := fold_left (fun acc b => acc * 256 + b) l 0.

(** RFC 3629 section 3: the UTF-8 octets of a code point, by bits. *)
Definition take_bits (c lo n : N) : N := N.land (N.shiftr c lo) (N.ones n).
Definition rfc3629 (c : N) : option (list N) :=
  if N.leb c 127 then Some [c]
  else if N.leb c 2047 then Some [N.lor 192 (take_bits c 6 5); N.lor 128 (take_bits c 0 6)]
  else if N.leb 55296 c && N.leb c 57343 then None
  else if N.leb c 65535 then
    Some [N.lor 224 (take_bits c 12 4); N.lor 128 (take_bits c 6 6); N.lor 128 (take_bits c 0 6)]
  else if N.leb c 1114111 then
    Some [N.lor 240 (take_bits c 18 3); N.lor 128 (take_bits c 12 6); N.lor 128 (take_bits c 6 6);
          N.lor 128 (take_bits c 0 6)]
  else None.

(** All strings of a list of optional encodings, concatenated. *)
Fixpoint concat_opt (l : list (option (list N))) : option (list N) :=
  match l with
  | [] => Some []
  | Some x :: r => match concat_opt r with Some y => Some (x ++ y) | None => None end
  | None :: _ => None
  end.
Definition rfc3629_str (s : list N) : option (list N) := concat_opt (map rfc3629 s).

(** The 64 characters of a secret token. *)
Definition token_char (c : N) : bool :=
  (N.leb 97 c && N.leb c 122) || (N.leb 65 c && N.leb c 90) || (N.leb 48 c && N.leb c 57)
  || N.eqb c 45 || N.eqb c 95.

(** RFC 3986 section 2: unreserved, reserved and "%". *)
Definition rfc3986_char (c : N) : bool :=
  (N.leb 97 c && N.leb c 122) || (N.leb 65 c && N.leb c 90) || (N.leb 48 c && N.leb c 57)
  || existsb (N.eqb c) (map N_of_ascii (list_ascii_of_string "-._~:/?#[]@!$&'()*+,;=%")).
