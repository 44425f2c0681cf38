(** urllib.parse as used by psion: [quote_plus], [urlencode], [parse_qsl]
    (src/psion/webtools.py 210-236, src/psion/oauth2/models/http.py 194), and str/bytes splitting. *)
From Coq Require Import String Ascii List NArith Bool.
From Verif Require Import Base Utf8 Json.
Import ListNotations.
Open Scope N_scope.

(** [s.split(c)] for a one-character separator *)
Fixpoint split_on (c : N) (s : list N) : list (list N) :=
  match s with
  | [] => [[]]
  | x :: r =>
      if x =? c then [] :: split_on c r
      else match split_on c r with
           | h :: t => (x :: h) :: t
           | [] => [[x]]
           end
  end.

(** [s.partition(c)]: text before and after the first occurrence, [None] when absent *)
Fixpoint split1 (c : N) (s : list N) : option (list N * list N) :=
  match s with
  | [] => None
  | x :: r => if x =? c then Some ([], r)
              else match split1 c r with Some (a, b) => Some (x :: a, b) | None => None end
  end.

(** urllib.parse._ALWAYS_SAFE: letters, digits and "_.-~" *)
Definition always_safe (c : N) : bool :=
  ((65 <=? c) && (c <? 91)) || ((97 <=? c) && (c <? 123)) || ((48 <=? c) && (c <? 58))
  || (c =? 95) || (c =? 46) || (c =? 45) || (c =? 126).

Definition HEXDIG (v : N) : N := if v <? 10 then 48 + v else 65 + (v - 10).

(** One byte of [quote_plus(_, safe)]: space becomes "+", other unsafe bytes %XX. *)
Definition quote1 (safe : list N) (b : N) : str :=
  if b =? 32 then [43]
  else if always_safe b || inc b safe then [b]
  else [37; HEXDIG (b / 16); HEXDIG (b mod 16)].

(** [urllib.parse.quote_plus(s, safe)] *)
Definition quote_plus (safe : list N) (s : str) : result str :=
  let! b := utf8_encode s in Ok (flat_map (quote1 safe) b).

(** [urllib.parse.urlencode(items)] for [str] keys and values *)
Fixpoint urlencode_items (items : list (str * str)) : result (list str) :=
  match items with
  | [] => Ok []
  | (k, v) :: r =>
      let! k' := quote_plus [] k in
      let! v' := quote_plus [] v in
      let! t := urlencode_items r in
      Ok ((k' ++ 61 :: v') :: t)
  end.
Definition urlencode_ (items : list (str * str)) : result str :=
  let! l := urlencode_items items in Ok (join [38] l).

(** [urllib.parse.unquote_to_bytes] on ASCII text *)
Fixpoint unquote_bytes (s : str) : bytes :=
  match s with
  | [] => []
  | c :: r =>
      if c =? 37 then
        match r with
        | a :: b :: r' =>
            match hexval a, hexval b with
            | Some x, Some y => (x * 16 + y) :: unquote_bytes r'
            | _, _ => c :: unquote_bytes r
            end
        | _ => c :: unquote_bytes r
        end
      else c :: unquote_bytes r
  end.

(** [urllib.parse.unquote(s)]: each maximal ASCII run is unquoted and decoded with
    errors="replace"; other characters stay. [acc] is the current run. *)
Fixpoint unquote_aux (s acc : str) : str :=
  match s with
  | [] => utf8_replace (unquote_bytes acc)
  | c :: r => if c <? 128 then unquote_aux r (acc ++ [c])
              else utf8_replace (unquote_bytes acc) ++ c :: unquote_aux r []
  end.
Definition unquote (s : str) : str := unquote_aux s [].
(** [urllib.parse.unquote_plus] *)
Definition unquote_plus (s : str) : str := unquote (map (fun c => if c =? 43 then 32 else c) s).

(** [urllib.parse.parse_qsl(qs)] with default arguments: pieces without "=" or with a blank
    value are dropped. *)
Definition parse_piece (p : str) : list (str * str) :=
  match split1 61 p with
  | None => []
  | Some (n, v) => match v with [] => [] | _ => [(unquote_plus n, unquote_plus v)] end
  end.
Definition parse_qsl (qs : str) : list (str * str) := flat_map parse_piece (split_on 38 qs).

(** webtools.py 225-236 [urldecode] *)
Definition urldecode (qs : str) : list (str * str) := dict_of (parse_qsl qs).

(** [urlparse(url).query]: between the first "?" and the first "#" (of the text before the fragment). *)
Definition url_nofrag (u : str) : str := match split1 35 u with Some (a, _) => a | None => u end.
Definition url_query (u : str) : str := match split1 63 (url_nofrag u) with Some (_, q) => q | None => [] end.

(** oauth2/models/http.py 194: the safe characters of the Location header *)
Definition location_safe : list N := lit ":/%#?&=@[]!$&'()*+,;".
Definition location (url : str) : result str := quote_plus location_safe url.
