(** Model of src/psion/webtools.py. *)
From Coq Require Import String Ascii List NArith ZArith Bool.
From Verif Require Import Base Utf8 Base64 Json Url.
Import ListNotations.
Open Scope N_scope.

(** webtools.py 17-29 [FullDict].  [full] is the filter of line 25.
    Deep copying is invisible in the model: values are immutable. *)
Definition full (d : pdict) : pdict := filter (fun kv => negb (is_none (snd kv))) d.
(** webtools.py 22-25 [FullDict.__init__(data, **kwargs)] *)
Definition FullDict (data kwargs : pdict) : pdict := full (dupdate data kwargs).
(** webtools.py 27-29 [FullDict.__setitem__] *)
Definition full_setitem (k : str) (v : pyval) (d : pdict) : pdict :=
  if is_none v then d else dset k v d.
(** [dict.update], inherited unchanged by FullDict (it does not call [__setitem__]). *)
Definition full_update (d e : pdict) : pdict := dupdate d e.

(** webtools.py 32-55 [to_bytes] on [str] (other types of argument do not occur on the modelled paths). *)
Definition to_bytes (s : str) : result bytes := utf8_encode s.

(** webtools.py 58-81 [to_string] on [bytes]: falls back to base64url text. *)
Definition to_string (b : bytes) : str :=
  match utf8_decode b with
  | Some s => s
  | None => base64url_encode b
  end.

(** [int("".join("%02x" % byte ...), 16)]: ValueError on the empty string. *)
Definition int_of_hex (b : bytes) : result N :=
  match b with
  | [] => Err ValueError
  | _ => Ok (fold_left (fun acc x => acc * 256 + x) b 0)
  end.

(** webtools.py 113-135 [b64_to_int] for [bytes] *)
Definition b64_to_int_bytes (data : bytes) : result N :=
  let! x := base64url_decode data in int_of_hex x.
(** webtools.py 113-135 [b64_to_int] for a JSON value: None passes through, a str is encoded as ASCII. *)
Definition b64_to_int (v : pyval) : result (option N) :=
  match v with
  | PNone => Ok None
  | PStr s => let! b := ascii_encode s in let! n := b64_to_int_bytes b in Ok (Some n)
  | _ => Err TypeError
  end.

(** [n.to_bytes(len, "big")] *)
Fixpoint be_bytes (len : nat) (n : N) : bytes :=
  match len with
  | O => []
  | S l => be_bytes l (n / 256) ++ [n mod 256]
  end.
(** [(n.bit_length() + 7) // 8] *)
Definition byte_len (n : N) : nat := N.to_nat ((N.size n + 7) / 8).

(** webtools.py 138-159 [int_to_b64] *)
Definition int_to_b64 (z : Z) : result bytes :=
  if (z <? 0)%Z then Err ValueError
  else let n := Z.to_N z in Ok (base64url_encode (be_bytes (byte_len n) n)).

(** webtools.py 162-173 [json_dumps] *)
Definition json_dumps (v : pyval) : str := dumps v.
(** webtools.py 176-192 [json_loads] for [bytes] *)
Definition json_loads (b : bytes) : result pyval := loads (to_string b).

(** webtools.py 195-207 [secret_token]; [choices] are the results of the [size] calls
    [secrets.choice(alphabet)], as indices into the alphabet.  [reduce] of an empty
    sequence without initial value raises TypeError. *)
Definition token_alphabet : str :=
  lit "abcdefghijklmnopqrstuvwxyzABCDEFGHIJKLMNOPQRSTUVWXYZ0123456789-_".
Definition secret_token (choices : list nat) : result str :=
  match choices with
  | [] => Err TypeError
  | _ => Ok (map (fun i => nth i token_alphabet 0) choices)
  end.

(** [str(v)] of a value: urllib.parse.urlencode writes each value that is not bytes as its [str].  The text of a float,
    a list or a dict is not modelled. *)
Definition str_text (v : pyval) : result str :=
  match v with
  | PStr s => Ok s
  | PInt z => Ok (dec_Z z)
  | PBool true => Ok (lit "True")
  | PBool false => Ok (lit "False")
  | PNone => Ok (lit "None")
  | PFloat _ | PList _ | PDict _ => Err Unmodelled
  end.
Fixpoint str_items (d : pdict) : result (list (str * str)) :=
  match d with
  | [] => Ok []
  | (k, v) :: r => let! s := str_text v in let! t := str_items r in Ok ((k, s) :: t)
  end.
(** webtools.py 210-222 [urlencode(url, **params)]: a parameter named "url" collides with the first argument. *)
Definition urlencode (url : str) (params : pdict) : result str :=
  if has (lit "url") params then Err TypeError
  else
    let! items := str_items (FullDict params []) in
    let! q := urlencode_ items in
    Ok (url ++ 63 :: q).

(** [str.isspace] for one character: the separators of [str.split(None)]. *)
Definition py_space (c : N) : bool :=
  ((9 <=? c) && (c <=? 13)) || ((28 <=? c) && (c <=? 32)) || (c =? 133) || (c =? 160) || (c =? 5760)
  || ((8192 <=? c) && (c <=? 8202)) || (c =? 8232) || (c =? 8233) || (c =? 8239) || (c =? 8287) || (c =? 12288).
Fixpoint lstrip (s : str) : str :=
  match s with [] => [] | c :: r => if py_space c then lstrip r else s end.
Fixpoint span_word (s : str) : str * str :=
  match s with
  | [] => ([], [])
  | c :: r => if py_space c then ([], s) else let (a, b) := span_word r in (c :: a, b)
  end.
(** [s.split(None, 1)] *)
Definition split_none1 (s : str) : list str :=
  match lstrip s with
  | [] => []
  | s' => let (w, r) := span_word s' in
          match lstrip r with [] => [w] | t => [w; t] end
  end.
(** [s.lower()] restricted to ASCII letters.  Outside of ASCII only U+0130 and U+212A have a lower case
    containing ASCII letters ("i" + combining dot, "k"); neither result equals "basic" or "bearer",
    so comparing with these words is unaffected. *)
Definition lower1 (c : N) : N := if (65 <=? c) && (c <? 91) then c + 32 else c.
Definition lower (s : str) : str := map lower1 s.

(** [headers.get("authorization") or headers.get("Authorization")] (webtools.py 250, 287) *)
Definition auth_header (headers : pdict) : pyval :=
  let a := dget (lit "authorization") headers in
  if truthy a then a else dget (lit "Authorization") headers.

(** webtools.py 252 and 289: the header value when it is a non-empty str containing a space *)
Definition auth_text (headers : pdict) : option str :=
  match auth_header headers with
  | PStr s => match s with [] => None | _ => if inc 32 s then Some s else None end
  | _ => None
  end.

(** [method, token = auth.split(None, 1)] *)
Definition split_auth (s : str) : result (str * str) :=
  match split_none1 s with
  | [m; t] => Ok (m, t)
  | _ => Err ValueError
  end.

(** [base64.b64decode(token)] for a [str]: non-ASCII text raises ValueError. *)
Definition b64decode_str (s : str) : result bytes :=
  if forallb (fun c => c <? 128) s then b64decode s else Err ValueError.

(** webtools.py 239-273 [get_basic_authorization]; [None] stands for (None, None). *)
Definition get_basic_authorization (headers : pdict) : result (option (str * str)) :=
  match auth_text headers with
  | None => Ok None
  | Some auth =>
      let! (method, token) := split_auth auth in
      if negb (eqs (lower method) (lit "basic")) then Ok None
      else match b64decode_str token with
           | Err BinasciiError => Ok None
           | Err TypeError => Ok None
           | Err e => Err e
           | Ok b =>
               match split1 58 (to_string b) with
               | None => Ok None
               | Some (i, s) => Ok (Some (i, s))
               end
           end
  end.

(** webtools.py 276-297 [get_bearer_authorization] *)
Definition get_bearer_authorization (headers : pdict) : result (option str) :=
  match auth_text headers with
  | None => Ok None
  | Some auth =>
      let! (method, token) := split_auth auth in
      if negb (eqs (lower method) (lit "bearer")) then Ok None else Ok (Some token)
  end.

(** webtools.py 300-321 [create_half_hash]; [hashlib name] is the hash function
    [getattr(hashlib, name)], [None] when there is no such attribute. *)
Definition create_half_hash (hashlib : str -> option (bytes -> bytes)) (token alg : str) : result str :=
  match hashlib (lit "sha" ++ skipn 2 alg) with
  | None => Err AttributeError
  | Some h =>
      let! b := to_bytes token in
      let d := h b in
      Ok (to_string (base64url_encode (firstn (Nat.div (length d) 2) d)))
  end.
