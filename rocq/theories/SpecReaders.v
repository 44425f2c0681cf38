(** Specifications of the texts that the library reads: JSON (RFC 8259), application/x-www-form-urlencoded, lists of
    words.  Written from the documents and independent of the model's readers. *)
From Coq Require Import String Ascii List NArith ZArith Bool.
From Verif Require Import Base SpecCodec.
From Verif Require Export SpecPy.
Import ListNotations.
Open Scope N_scope.

(** What a dict becomes when members come one after the other: the order is that of the first occurrence of each
    name, the value that of the last. *)
Definition same_text : forall a b : str, {a = b} + {a <> b} := list_eq_dec N.eq_dec.
Definition first_names {V} (l : list (str * V)) : list str := rev (nodup same_text (rev (map fst l))).
Definition last_of {V} (k : str) (l : list (str * V)) : list V :=
  match find (fun kv => if same_text (fst kv) k then true else false) (rev l) with Some kv => [snd kv] | None => [] end.
Definition merged {V} (l : list (str * V)) : list (str * V) :=
  flat_map (fun k => map (pair k) (last_of k l)) (first_names l).

(** Characters *)
Definition chars (s : string) : list N := map N_of_ascii (list_ascii_of_string s).
Definition digit (c : N) : Prop := 48 <= c <= 57.
(** Hexadecimal digits of either case with their values *)
Definition hex_digits : list (N * N) :=
  combine (chars "0123456789abcdefABCDEF") [0; 1; 2; 3; 4; 5; 6; 7; 8; 9; 10; 11; 12; 13; 14; 15; 10; 11; 12; 13; 14; 15].

(** ** RFC 8259 *)
(** Section 2: insignificant white space *)
Definition ws (t : list N) : Prop := Forall (fun c => In c [32; 9; 10; 13]) t.
(** Section 7: the two-character escapes *)
Definition escapes : list (N * N) := [(34, 34); (92, 92); (47, 47); (98, 8); (102, 12); (110, 10); (114, 13); (116, 9)].
Definition four_digits (t : list N) (u : N) : Prop :=
  exists a b c d x y z w, t = [a; b; c; d] /\ In (a, x) hex_digits /\ In (b, y) hex_digits /\ In (c, z) hex_digits /\ In (d, w) hex_digits /\
    u = 4096 * x + 256 * y + 16 * z + w.
Definition high (u : N) : Prop := 55296 <= u <= 56319.
Definition low (u : N) : Prop := 56320 <= u <= 57343.
(** The text between the quotation marks and the characters it stands for.  [ext]: also what section 8.2 calls
    unpredictable, surrogates without their partner. *)
Inductive string_text (ext : bool) : list N -> list N -> Prop :=
| st_nil : string_text ext [] []
| st_plain c t v : 32 <= c -> c <> 34 -> c <> 92 -> string_text ext t v -> string_text ext (c :: t) (c :: v)
| st_escape e x t v : In (e, x) escapes -> string_text ext t v -> string_text ext (92 :: e :: t) (x :: v)
| st_unicode h u t v : four_digits h u -> ~ high u -> ~ low u -> string_text ext t v -> string_text ext (92 :: 117 :: h ++ t) (u :: v)
| st_pair h u l w t v : four_digits h u -> high u -> four_digits l w -> low w -> string_text ext t v ->
    string_text ext (92 :: 117 :: h ++ 92 :: 117 :: l ++ t) (65536 + 1024 * (u - 55296) + (w - 56320) :: v)
| st_lone h u t v : ext = true -> four_digits h u -> high u \/ low u ->
    (high u -> forall l w t', t = 92 :: 117 :: l ++ t' -> four_digits l w -> ~ low w) ->
    string_text ext t v -> string_text ext (92 :: 117 :: h ++ t) (u :: v).
(** Section 6: numbers.  An integer without fraction and exponent is an [int], another number a [float]. *)
Fixpoint decimal (ds : list N) : Z :=
  match ds with [] => 0 | d :: r => (Z.of_N d - 48) * 10 ^ Z.of_nat (List.length r) + decimal r end.
Inductive int_text : list N -> Prop :=
| int_zero : int_text [48]
| int_more d r : digit d -> d <> 48 -> Forall digit r -> int_text (d :: r).
Inductive frac_text : list N -> Prop :=
| frac_none : frac_text []
| frac_some d r : digit d -> Forall digit r -> frac_text (46 :: d :: r).
Inductive exp_text : list N -> Prop :=
| exp_none : exp_text []
| exp_some e s d r : In e [101; 69] -> In s [[]; [43]; [45]] -> digit d -> Forall digit r -> exp_text (e :: s ++ d :: r).
Inductive number_text : list N -> pyval -> Prop :=
| num_pos i : int_text i -> number_text i (PInt (decimal i))
| num_neg i : int_text i -> number_text (45 :: i) (PInt (- decimal i))
| num_float s i f x : In s [[]; [45]] -> int_text i -> frac_text f -> exp_text x -> f <> [] \/ x <> [] ->
    number_text (s ++ i ++ f ++ x) (PFloat (s ++ i ++ f ++ x)).
(** Sections 3-5: values.  [ext]: also NaN, Infinity and -Infinity. *)
Inductive value_text (ext : bool) : list N -> pyval -> Prop :=
| vt_null : value_text ext (chars "null") PNone
| vt_true : value_text ext (chars "true") (PBool true)
| vt_false : value_text ext (chars "false") (PBool false)
| vt_other t : ext = true -> In t [chars "NaN"; chars "Infinity"; chars "-Infinity"] -> value_text ext t (PFloat t)
| vt_number t v : number_text t v -> value_text ext t v
| vt_string t s : string_text ext t s -> value_text ext (34 :: t ++ [34]) (PStr s)
| vt_array0 w : ws w -> value_text ext (91 :: w ++ [93]) (PList [])
| vt_array t l : elements_text ext t l -> value_text ext (91 :: t ++ [93]) (PList l)
| vt_object0 w : ws w -> value_text ext (123 :: w ++ [125]) (PDict [])
| vt_object t d : members_text ext t d -> value_text ext (123 :: t ++ [125]) (PDict (merged d))
with elements_text (ext : bool) : list N -> list pyval -> Prop :=
| et_last w t v w' : ws w -> value_text ext t v -> ws w' -> elements_text ext (w ++ t ++ w') [v]
| et_more w t v w' r l : ws w -> value_text ext t v -> ws w' -> elements_text ext r l -> elements_text ext (w ++ t ++ w' ++ 44 :: r) (v :: l)
with members_text (ext : bool) : list N -> list (str * pyval) -> Prop :=
| mt_last w k n w1 w2 t v w' : ws w -> string_text ext k n -> ws w1 -> ws w2 -> value_text ext t v -> ws w' ->
    members_text ext (w ++ 34 :: k ++ 34 :: w1 ++ 58 :: w2 ++ t ++ w') [(n, v)]
| mt_more w k n w1 w2 t v w' r l : ws w -> string_text ext k n -> ws w1 -> ws w2 -> value_text ext t v -> ws w' -> members_text ext r l ->
    members_text ext (w ++ 34 :: k ++ 34 :: w1 ++ 58 :: w2 ++ t ++ w' ++ 44 :: r) ((n, v) :: l).
Inductive json_text (ext : bool) : list N -> pyval -> Prop :=
| jt w t v w' : ws w -> value_text ext t v -> ws w' -> json_text ext (w ++ t ++ w') v.

(** ** Forms *)
(** A text that stands for a string: "+" for a space, "%" and two hexadecimal digits for an octet of UTF-8, other
    ASCII characters for themselves. *)
Definition percent (t : list N) (o : N) : Prop :=
  exists a b x y, t = [37; a; b] /\ In (a, x) hex_digits /\ In (b, y) hex_digits /\ o = 16 * x + y.
Inductive percents : list N -> list N -> Prop :=
| pc_nil : percents [] []
| pc_cons t o r os : percent t o -> percents r os -> percents (t ++ r) (o :: os).
Inductive form_text : list N -> list N -> Prop :=
| ft_nil : form_text [] []
| ft_space t s : form_text t s -> form_text (43 :: t) (32 :: s)
| ft_plain c t s : c < 128 -> ~ In c [37; 38; 43; 61] -> form_text t s -> form_text (c :: t) (c :: s)
| ft_percent p c os t s : rfc3629 c = Some os -> percents p os -> form_text t s -> form_text (p ++ t) (c :: s).
(** The pairs of a form, joined by "&"; [n=v] *)
Inductive form_pairs : list N -> list (str * str) -> Prop :=
| fp_one n n' v v' : form_text n n' -> form_text v v' -> form_pairs (n ++ 61 :: v) [(n', v')]
| fp_more n n' v v' r l : form_text n n' -> form_text v v' -> form_pairs r l -> form_pairs (n ++ 61 :: v ++ 38 :: r) ((n', v') :: l).
Definition non_blank (l : list (str * str)) : list (str * str) :=
  filter (fun kv => match snd kv with [] => false | _ => true end) l.

(** ** Any form *)
(** Octets read as UTF-8 where every unreadable part becomes U+FFFD.  The part that is replaced (Unicode, section 3.9) is
    the longest that begins a character, or one octet. *)
Definition begins (p : list N) : Prop := exists c q, q <> [] /\ rfc3629 c = Some (p ++ q).
Inductive lossy : list N -> list N -> Prop :=
| ly_nil : lossy [] []
| ly_char c os t s : rfc3629 c = Some os -> lossy t s -> lossy (os ++ t) (c :: s)
| ly_bad p t s : p <> [] -> begins p \/ List.length p = 1%nat ->
    (forall c os r, p ++ t = os ++ r -> rfc3629 c <> Some os) -> (forall x r, t = x :: r -> ~ begins (p ++ [x])) ->
    lossy t s -> lossy (p ++ t) (65533 :: s).
(** The octets of ASCII text: "%" that is not followed by two hexadecimal digits stands for itself. *)
Inductive form_octets : list N -> list N -> Prop :=
| fo_nil : form_octets [] []
| fo_space t os : form_octets t os -> form_octets (43 :: t) (32 :: os)
| fo_percent p o t os : percent p o -> form_octets t os -> form_octets (p ++ t) (o :: os)
| fo_plain c t os : c < 128 -> c <> 43 -> (forall p o r, c :: t = p ++ r -> ~ percent p o) -> form_octets t os -> form_octets (c :: t) (c :: os).
(** Characters outside of ASCII stand for themselves. *)
Inductive form_string : list N -> list N -> Prop :=
| fs_last a os s : form_octets a os -> lossy os s -> form_string a s
| fs_more a os s c t u : form_octets a os -> lossy os s -> 128 <= c -> form_string t u -> form_string (a ++ c :: t) (s ++ c :: u).
(** A piece between two "&": nothing without "=" or without a text after the first one *)
Inductive piece_text : list N -> list (str * str) -> Prop :=
| pi_none p : ~ In 38 p -> ~ In 61 p -> piece_text p []
| pi_blank n : ~ In 38 n -> ~ In 61 n -> piece_text (n ++ [61]) []
| pi_pair n n' v v' : ~ In 38 n -> ~ In 61 n -> ~ In 38 v -> v <> [] -> form_string n n' -> form_string v v' -> piece_text (n ++ 61 :: v) [(n', v')].
Inductive form_all : list N -> list (str * str) -> Prop :=
| fa_last p l : piece_text p l -> form_all p l
| fa_more p l t m : piece_text p l -> form_all t m -> form_all (p ++ 38 :: t) (l ++ m).

(** ** URLs *)
(** The URL without what is before its first printable character and without tabs and line ends *)
Definition cleaned (url u : list N) : Prop :=
  exists b r, url = b ++ r /\ Forall (fun c => c <= 32) b /\ (forall c r', r = c :: r' -> 32 < c) /\
    u = filter (fun c => negb (existsb (N.eqb c) [9; 10; 13])) r.
(** RFC 3986 section 3: the query is between the first "?" and the first "#". *)
Inductive query_text : list N -> list N -> Prop :=
| qt_some a q f : ~ In 35 a -> ~ In 63 a -> ~ In 35 q -> In (firstn 1 f) [[]; [35]] -> query_text (a ++ 63 :: q ++ f) q
| qt_none a f : ~ In 35 a -> ~ In 63 a -> In (firstn 1 f) [[]; [35]] -> query_text (a ++ f) [].
(** The authority is between "//", at the start or after the scheme, and the next of "/", "?", "#". *)
Definition scheme_text (p : list N) : Prop :=
  p = [] \/ exists c s, p = c :: s ++ [58] /\ (65 <= c <= 90 \/ 97 <= c <= 122) /\
    Forall (fun x => 65 <= x <= 90 \/ 97 <= x <= 122 \/ digit x \/ In x (chars "+-.")) s.
Definition authority (u n : list N) : Prop :=
  exists p f, u = p ++ 47 :: 47 :: n ++ f /\ scheme_text p /\ Forall (fun c => ~ In c (chars "/?#")) n /\ In (firstn 1 f) [[]; [47]; [63]; [35]].
(** "[" and "]" only together *)
Definition brackets_match (u : list N) : Prop := forall n, authority u n -> (In 91 n <-> In 93 n).

(** ** Requests *)
(** The pairs of a body, which has none when it is not UTF-8 *)
Definition body_pairs (b : option (list N)) (l : list (str * str)) : Prop :=
  match b with
  | None => l = []
  | Some b => (exists t, rfc3629_str t = Some b /\ form_all t l) \/ ((forall t, rfc3629_str t <> Some b) /\ l = [])
  end.
(** Letters of ASCII in lower case *)
Definition lowered (s : list N) : list N := map (fun c => if (65 <=? c) && (c <=? 90) then c + 32 else c) s.

(** ** Words *)
(** White space: the Unicode property White_Space and the separators U+001C to U+001F *)
Definition white : list N :=
  [9; 10; 11; 12; 13; 28; 29; 30; 31; 32; 133; 160; 5760; 8192; 8193; 8194; 8195; 8196; 8197; 8198; 8199; 8200; 8201; 8202; 8232; 8233; 8239; 8287; 12288].
(** Words separated by white space, which may also be before the first and after the last *)
Inductive word_list (space : N -> Prop) : list N -> list (list N) -> Prop :=
| wl_nil b : Forall space b -> word_list space b []
| wl_one b w e : Forall space b -> w <> [] -> Forall (fun c => ~ space c) w -> Forall space e -> word_list space (b ++ w ++ e) [w]
| wl_more b w x r l : Forall space b -> w <> [] -> Forall (fun c => ~ space c) w -> space x -> word_list space r l -> l <> [] ->
    word_list space (b ++ w ++ x :: r) (w :: l).

(** ** Base64 *)
(** RFC 4648 section 4: six-bit groups of the input, padded with "=" to a multiple of four characters *)
Definition std_alphabet : list N := chars "ABCDEFGHIJKLMNOPQRSTUVWXYZabcdefghijklmnopqrstuvwxyz0123456789+/".
Definition rfc4648 (l : list N) : list N :=
  let t := map (fun g => nth (N.to_nat (num_of_bits g)) std_alphabet 0) (groups6 (bits l)) in
  t ++ repeat 61 (Nat.modulo (4 - Nat.modulo (List.length t) 4) 4).
(** Alphabets as characters with their values; [any_values]: the alphabets of sections 4 and 5 together *)
Definition sixty_four : list N := map N.of_nat (seq 0 64).
Definition std_values : list (N * N) := combine std_alphabet sixty_four.
Definition any_values : list (N * N) := std_values ++ combine url_alphabet sixty_four.
(** The values of the characters of the alphabet that are in a text, in order *)
Definition value_of (al : list (N * N)) (c : N) : list N := map snd (firstn 1 (filter (fun p => fst p =? c) al)).
Definition values (al : list (N * N)) (t : list N) : list N := flat_map (value_of al) t.
(** The number of "=" after the last character of the alphabet; the text is given from its end *)
Fixpoint closing (al : list (N * N)) (r : list N) : nat :=
  match r with
  | [] => 0
  | c :: r' => match value_of al c with [] => (if N.eqb c 61 then 1 else 0) + closing al r' | _ => 0 end
  end.
(** A text ends where "=" complete a last group of two or three characters to four *)
Definition quantum (al : list (N * N)) (t : list N) : nat := Nat.modulo (List.length (values al t)) 4.
Definition complete (al : list (N * N)) (t : list N) : Prop :=
  (2 <= quantum al t)%nat /\ (quantum al t + closing al (rev t) = 4)%nat.
Definition bits6 (v : N) : list bool := map (N.testbit v) [5; 4; 3; 2; 1; 0].
(** The octets of the whole groups of eight bits *)
Definition whole_octets (bs : list bool) (b : list N) : Prop :=
  Forall (fun o => o < 256) b /\ exists z, bs = bits b ++ z /\ (List.length z < 8)%nat.
(** What a reader that skips other characters reads: the characters up to the first place where the text is complete or,
    when there is none, all of them, which then come in groups of four. *)
Inductive base64_text (al : list (N * N)) : list N -> list N -> Prop :=
| b64t p rest b :
    (forall p1 p2, p = p1 ++ p2 -> p2 <> [] -> ~ complete al p1) ->
    complete al p \/ (rest = [] /\ quantum al p = 0%nat) ->
    whole_octets (flat_map bits6 (values al p)) b ->
    base64_text al (p ++ rest) b.

(** base64url without padding, as RFC 7515 section 2 uses it *)
Definition url_octets (t b : list N) : Prop := base64_text any_values (t ++ repeat 61 (Nat.modulo (List.length t) 4)) b.
(** The octets of a JSON text in UTF-8 *)
Definition json_utf8 (b : list N) (v : pyval) : Prop := exists s, rfc3629_str s = Some b /\ json_text true s v.
Definition json_object (b : list N) (d : pdict) : Prop := json_utf8 b (PDict d).
(** ... or octets that are not UTF-8, whose base64url text is read instead (webtools.py 58-76) *)
Definition json_octets (b : list N) (v : pyval) : Prop :=
  json_utf8 b v \/ ((forall s, rfc3629_str s <> Some b) /\ json_text true (rfc4648_url b) v).

(** ** Checks in order: the first that does not hold decides; [ok] if all hold. *)
Fixpoint decided {A} (checks : list (Prop * A)) (ok v : A) : Prop :=
  match checks with
  | [] => v = ok
  | (P, w) :: l => (P /\ decided l ok v) \/ (~ P /\ v = w)
  end.

(** ** The Authorization header *)
(** The text of the header: the name in lower case first, then the capitalised one *)
Definition carries (h : pdict) (auth : str) : Prop :=
  auth <> [] /\
  (lookup (chars "authorization") h = Some (PStr auth) \/
   (lookup (chars "Authorization") h = Some (PStr auth) /\
    forall v, lookup (chars "authorization") h = Some v -> false_value v)).
(** A scheme, white space and a token; other white space may come before the scheme *)
Inductive scheme_and_token : list N -> list N -> list N -> Prop :=
| sat b m x g c t : Forall (fun c => In c white) b -> m <> [] -> Forall (fun c => ~ In c white) m -> In x white ->
    Forall (fun c => In c white) g -> ~ In c white -> scheme_and_token (b ++ m ++ x :: g ++ c :: t) m (c :: t).
(** [w] in letters of either case *)
Definition same_letters (m w : list N) : Prop := Forall2 (fun x y => x = y \/ (97 <= y <= 122 /\ x + 32 = y)) m w.
