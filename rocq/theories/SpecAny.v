(** What the conversion helpers give for every argument, from their documentation and that of Python, RFC 3629, RFC 4648 and
    RFC 8259; independent of the model's functions. *)
From Coq Require Import String Ascii List NArith ZArith Bool.
From Verif Require Import Base SpecCodec SpecPy SpecReaders SpecUrl WebAny.
Import ListNotations.
Open Scope N_scope.

Section Any.
Variable float_text : str -> str.

(** The text of a str or a number *)
Inductive text_of : parg -> str -> Prop :=
| tx_shown v t : shown v t -> text_of (AVal v) t
| tx_float l : text_of (AVal (PFloat l)) (float_text l).
Inductive collection : parg -> Prop :=
| co_list l : collection (AVal (PList l))
| co_dict d : collection (AVal (PDict d)).
Inductive number : parg -> Prop :=
| nu_whole v z : whole v z -> number (AVal v)
| nu_float l : number (AVal (PFloat l)).

Inductive bytes_for : parg -> result (option bytes) -> Prop :=
| by_bytes b : bytes_for (ABytes b) (Ok (Some b))
| by_none : bytes_for (AVal PNone) (Ok None)
| by_text a t b : text_of a t -> rfc3629_str t = Some b -> bytes_for a (Ok (Some b))
| by_surrogate a t : text_of a t -> rfc3629_str t = None -> bytes_for a (Err UnicodeEncodeError)
| by_collection a : collection a -> bytes_for a (Err TypeError).

Inductive string_for : parg -> result (option str) -> Prop :=
| sf_text s : string_for (AVal (PStr s)) (Ok (Some s))
| sf_none : string_for (AVal PNone) (Ok None)
| sf_utf8 b s : rfc3629_str s = Some b -> string_for (ABytes b) (Ok (Some s))
| sf_octets b : (forall s, rfc3629_str s <> Some b) -> string_for (ABytes b) (Ok (Some (rfc4648_url b)))
| sf_number a : number a -> string_for a (Err TypeError)
| sf_collection a : collection a -> string_for a (Err TypeError).

Inductive encoded : parg -> result bytes -> Prop :=
| en_bytes a b : bytes_for a (Ok (Some b)) -> encoded a (Ok (rfc4648_url b))
| en_none a : bytes_for a (Ok None) -> encoded a (Err TypeError)
| en_error a e : bytes_for a (Err e) -> encoded a (Err e).

Inductive decoded : parg -> result bytes -> Prop :=
| de_octets t b : url_octets t b -> decoded (ABytes t) (Ok b)
| de_other t : (forall b, ~ url_octets t b) -> decoded (ABytes t) (Err BinasciiError)
| de_type v : decoded (AVal v) (Err TypeError).

(** bytes, or the characters of a str in ASCII *)
Inductive ascii_of : parg -> bytes -> Prop :=
| as_bytes t : ascii_of (ABytes t) t
| as_str t : Forall (fun c => c < 128) t -> ascii_of (AVal (PStr t)) t.
Inductive number_read : parg -> result (option N) -> Prop :=
| nr_none : number_read (AVal PNone) (Ok None)
| nr_value a t b : ascii_of a t -> url_octets t b -> b <> [] -> number_read a (Ok (Some (be_value b)))
| nr_empty a t : ascii_of a t -> url_octets t [] -> number_read a (Err ValueError)
| nr_other a t : ascii_of a t -> (forall b, ~ url_octets t b) -> number_read a (Err BinasciiError)
| nr_ascii s c : In c s -> 128 <= c -> number_read (AVal (PStr s)) (Err UnicodeEncodeError)
| nr_number a : number a -> number_read a (Err TypeError)
| nr_collection a : collection a -> number_read a (Err TypeError).

(** The octets of a number, most significant first, none of them needlessly *)
Inductive number_written : parg -> result bytes -> Prop :=
| nw_whole v z l : whole v z -> bytes_ok l -> Z.of_N (be_value l) = z -> firstn 1 l <> [0] -> number_written (AVal v) (Ok (rfc4648_url l))
| nw_negative v z : whole v z -> (z < 0)%Z -> number_written (AVal v) (Err ValueError)
| nw_other a : (forall v z, a = AVal v -> ~ whole v z) -> number_written a (Err ValueError).

Inductive loaded : parg -> result pyval -> Prop :=
| lo_json a s v : string_for a (Ok (Some s)) -> json_text true s v -> loaded a (Ok v)
| lo_other a s : string_for a (Ok (Some s)) -> (forall v, ~ json_text true s v) -> loaded a (Err JSONDecodeError)
| lo_none : loaded (AVal PNone) (Err TypeError)
| lo_type a : string_for a (Err TypeError) -> loaded a (Err TypeError).

Inductive token_made (choose : nat -> nat) : parg -> result str -> Prop :=
| tm_size v z t : whole v z -> (0 < z)%Z -> Z.of_nat (List.length t) = z ->
    (forall i, (i < List.length t)%nat -> nth_error t i = nth_error (chars "abcdefghijklmnopqrstuvwxyzABCDEFGHIJKLMNOPQRSTUVWXYZ0123456789-_") (choose i)) ->
    token_made choose (AVal v) (Ok t)
| tm_small v z : whole v z -> (z <= 0)%Z -> token_made choose (AVal v) (Err TypeError)
| tm_type a : (forall v z, a = AVal v -> ~ whole v z) -> token_made choose a (Err TypeError).
End Any.
