(** [json.dumps(v, ensure_ascii=False)] and [json.loads(s)] of the CPython standard library,
    as called from src/psion/webtools.py 162-192.
    Simplifications: a float is its lexeme; the interpreter's recursion limit and the 4300 digit
    limit of int/str conversion are not modelled. *)
From Coq Require Import String Ascii List NArith ZArith Bool.
From Verif Require Import Base.
Import ListNotations.
Open Scope N_scope.

(** * Printing *)

Definition hexdig (v : N) : N := if v <? 10 then 48 + v else 97 + (v - 10).

(** json.encoder.ESCAPE_DCT *)
Definition esc1 (c : N) : str :=
  if c =? 34 then [92; 34]
  else if c =? 92 then [92; 92]
  else if c =? 10 then [92; 110]
  else if c =? 13 then [92; 114]
  else if c =? 9 then [92; 116]
  else if c =? 12 then [92; 102]
  else if c =? 8 then [92; 98]
  else if c <? 32 then [92; 117; 48; 48; hexdig (c / 16); hexdig (c mod 16)]
  else [c].

(** json.encoder.encode_basestring *)
Definition dumps_str (s : str) : str := 34 :: flat_map esc1 s ++ [34].

(** [str(n)] for a natural number *)
Fixpoint dec_aux (fuel : nat) (n : N) (acc : str) : str :=
  match fuel with
  | O => acc
  | S f => let acc' := (48 + n mod 10) :: acc in
           if n <? 10 then acc' else dec_aux f (n / 10) acc'
  end.
Definition dec_N (n : N) : str := dec_aux (S (N.size_nat n)) n [].
Definition dec_Z (z : Z) : str :=
  match z with
  | Z0 => [48]
  | Zpos p => dec_N (Npos p)
  | Zneg p => 45 :: dec_N (Npos p)
  end.

Fixpoint join (sep : str) (l : list str) : str :=
  match l with
  | [] => []
  | [x] => x
  | x :: r => x ++ sep ++ join sep r
  end.

Fixpoint dumps (v : pyval) : str :=
  match v with
  | PNone => lit "null"
  | PBool true => lit "true"
  | PBool false => lit "false"
  | PInt z => dec_Z z
  | PFloat s => s
  | PStr s => dumps_str s
  | PList l => 91 :: join [44; 32] (map dumps l) ++ [93]
  | PDict d => 123 :: join [44; 32] (map (fun kv => dumps_str (fst kv) ++ [58; 32] ++ dumps (snd kv)) d) ++ [125]
  end.

(** * Scanning *)

Definition is_ws (c : N) : bool := (c =? 32) || (c =? 9) || (c =? 10) || (c =? 13).
Fixpoint skip_ws (s : str) : str :=
  match s with
  | [] => []
  | c :: r => if is_ws c then skip_ws r else s
  end.

Definition hexval (c : N) : option N :=
  if (48 <=? c) && (c <? 58) then Some (c - 48)
  else if (97 <=? c) && (c <? 103) then Some (c - 97 + 10)
  else if (65 <=? c) && (c <? 71) then Some (c - 65 + 10)
  else None.
Definition hex4 (a b c d : N) : option N :=
  match hexval a, hexval b, hexval c, hexval d with
  | Some x, Some y, Some z, Some w => Some (((x * 16 + y) * 16 + z) * 16 + w)
  | _, _, _, _ => None
  end.

(** json.decoder.BACKSLASH *)
Definition unesc (e : N) : option N :=
  if e =? 34 then Some 34
  else if e =? 92 then Some 92
  else if e =? 47 then Some 47
  else if e =? 98 then Some 8
  else if e =? 102 then Some 12
  else if e =? 110 then Some 10
  else if e =? 114 then Some 13
  else if e =? 116 then Some 9
  else None.

Definition high_surr (u : N) : bool := (55296 <=? u) && (u <? 56320).
Definition low_surr (u : N) : bool := (56320 <=? u) && (u <? 57344).

Definition pcons (c : N) (r : result (str * str)) : result (str * str) :=
  match r with Ok (s, t) => Ok (c :: s, t) | Err e => Err e end.

(** json.decoder.scanstring (strict): the text after the opening quote to the closing quote. *)
Fixpoint scan_str (s : str) : result (str * str) :=
  match s with
  | [] => Err JSONDecodeError
  | c :: r =>
      if c =? 34 then Ok ([], r)
      else if c =? 92 then
        match r with
        | [] => Err JSONDecodeError
        | e :: r1 =>
            if e =? 117 then
              match r1 with
              | a1 :: a2 :: a3 :: a4 :: r2 =>
                  match hex4 a1 a2 a3 a4 with
                  | None => Err JSONDecodeError
                  | Some u =>
                      if high_surr u then
                        match r2 with
                        | x :: y :: b1 :: b2 :: b3 :: b4 :: r3 =>
                            if (x =? 92) && (y =? 117) then
                              match hex4 b1 b2 b3 b4 with
                              | None => Err JSONDecodeError
                              | Some w =>
                                  if low_surr w
                                  then pcons (65536 + (u - 55296) * 1024 + (w - 56320)) (scan_str r3)
                                  else pcons u (scan_str r2)
                              end
                            else pcons u (scan_str r2)
                        | _ => pcons u (scan_str r2)
                        end
                      else pcons u (scan_str r2)
                  end
              | _ => Err JSONDecodeError
              end
            else match unesc e with
            | None => Err JSONDecodeError
            | Some x => pcons x (scan_str r1)
            end
        end
      else if c <? 32 then Err JSONDecodeError
      else pcons c (scan_str r)
  end.

Definition is_digit (c : N) : bool := (48 <=? c) && (c <? 58).
Fixpoint span_digits (s : str) : str * str :=
  match s with
  | [] => ([], [])
  | c :: r => if is_digit c then let (a, b) := span_digits r in (c :: a, b) else ([], s)
  end.
Definition digits_val (ds : str) : N := fold_left (fun acc d => acc * 10 + (d - 48)) ds 0.

(** json.scanner.NUMBER_RE:  (-?(?:0|[1-9]\d* ))(\.\d+)?([eE][-+]?\d+)?  *)
Definition scan_int (s : str) : option (str * str) :=
  match s with
  | [] => None
  | c :: r => if c =? 48 then Some ([48], r)
              else if is_digit c then Some (span_digits s) else None
  end.
Definition scan_frac (s : str) : str * str :=
  match s with
  | p :: d :: r => if (p =? 46) && is_digit d then let (a, b) := span_digits (d :: r) in (p :: a, b) else ([], s)
  | _ => ([], s)
  end.
Definition scan_exp (s : str) : str * str :=
  match s with
  | e :: r =>
      if (e =? 101) || (e =? 69) then
        match r with
        | d :: r' =>
            if is_digit d then let (a, b) := span_digits r in (e :: a, b)
            else if (d =? 43) || (d =? 45) then
              match r' with
              | d' :: _ => if is_digit d' then let (a, b) := span_digits r' in (e :: d :: a, b) else ([], s)
              | [] => ([], s)
              end
            else ([], s)
        | [] => ([], s)
        end
      else ([], s)
  | [] => ([], s)
  end.
Definition scan_number (s : str) : result (pyval * str) :=
  let '(neg, s1) := match s with c :: r => if c =? 45 then (true, r) else (false, s) | [] => (false, s) end in
  match scan_int s1 with
  | None => Err JSONDecodeError
  | Some (ds, s2) =>
      let (f, s3) := scan_frac s2 in
      let (x, s4) := scan_exp s3 in
      match f, x with
      | [], [] => let v := Z.of_N (digits_val ds) in Ok (PInt (if neg : bool then Z.opp v else v), s4)
      | _, _ => Ok (PFloat ((if neg : bool then [45] else []) ++ ds ++ f ++ x), s4)
      end
  end.

Fixpoint strip_prefix (p s : str) : option str :=
  match p, s with
  | [], _ => Some s
  | a :: p', b :: s' => if a =? b then strip_prefix p' s' else None
  | _, [] => None
  end.

Section Loops.
  Variable pv : str -> result (pyval * str).

  (** Elements of an array, at the start of an element (json.scanner JSONArray). *)
  Fixpoint elems (m : nat) (s : str) : result (list pyval * str) :=
    match m with
    | O => Err OutOfFuel
    | S m' =>
        let! (v, r) := pv s in
        match skip_ws r with
        | [] => Err JSONDecodeError
        | c :: r' =>
            if c =? 93 then Ok ([v], r')
            else if c =? 44 then let! (vs, t) := elems m' (skip_ws r') in Ok (v :: vs, t)
            else Err JSONDecodeError
        end
    end.

  (** Members of an object, at the start of a key (json.scanner JSONObject). *)
  Fixpoint members (m : nat) (s : str) : result (list (str * pyval) * str) :=
    match m with
    | O => Err OutOfFuel
    | S m' =>
        match s with
        | [] => Err JSONDecodeError
        | q :: s0 =>
            if q =? 34 then
              let! (k, r) := scan_str s0 in
              match skip_ws r with
              | [] => Err JSONDecodeError
              | c :: r' =>
                  if c =? 58 then
                    let! (v, t) := pv (skip_ws r') in
                    match skip_ws t with
                    | [] => Err JSONDecodeError
                    | c' :: t' =>
                        if c' =? 125 then Ok ([(k, v)], t')
                        else if c' =? 44 then let! (kvs, z) := members m' (skip_ws t') in Ok ((k, v) :: kvs, z)
                        else Err JSONDecodeError
                    end
                  else Err JSONDecodeError
              end
            else Err JSONDecodeError
        end
    end.
End Loops.

(** json.scanner scan_once *)
Fixpoint pval (n : nat) (s : str) : result (pyval * str) :=
  match n with
  | O => Err OutOfFuel
  | S n' =>
      match s with
      | [] => Err JSONDecodeError
      | c :: r =>
          if c =? 34 then let! (x, t) := scan_str r in Ok (PStr x, t)
          else if c =? 123 then
            match skip_ws r with
            | [] => Err JSONDecodeError
            | c' :: r' =>
                if c' =? 125 then Ok (PDict [], r')
                else let! (kvs, t) := members (pval n') n' (skip_ws r) in Ok (PDict (dict_of kvs), t)
            end
          else if c =? 91 then
            match skip_ws r with
            | [] => Err JSONDecodeError
            | c' :: r' =>
                if c' =? 93 then Ok (PList [], r')
                else let! (vs, t) := elems (pval n') n' (skip_ws r) in Ok (PList vs, t)
            end
          else
            match strip_prefix (lit "null") s with Some t => Ok (PNone, t) | None =>
            match strip_prefix (lit "true") s with Some t => Ok (PBool true, t) | None =>
            match strip_prefix (lit "false") s with Some t => Ok (PBool false, t) | None =>
            match strip_prefix (lit "NaN") s with Some t => Ok (PFloat (lit "NaN"), t) | None =>
            match strip_prefix (lit "Infinity") s with Some t => Ok (PFloat (lit "Infinity"), t) | None =>
            match strip_prefix (lit "-Infinity") s with Some t => Ok (PFloat (lit "-Infinity"), t) | None =>
            scan_number s
            end end end end end end
      end
  end.

(** [json.loads(s)] for a [str] *)
Definition loads (s : str) : result pyval :=
  match s with
  | c :: _ => if c =? 65279 then Err JSONDecodeError
              else let! (v, r) := pval (S (length s)) (skip_ws s) in
                   match skip_ws r with [] => Ok v | _ => Err JSONDecodeError end
  | [] => Err JSONDecodeError
  end.

(** Float-free values whose dicts have distinct keys: what a Python program can hold,
    minus floats. *)
Fixpoint nodupb (l : list str) : bool :=
  match l with [] => true | x :: r => negb (ins x r) && nodupb r end.
Fixpoint json_wf (v : pyval) : bool :=
  match v with
  | PFloat _ => false
  | PList l => forallb json_wf l
  | PDict d => nodupb (map fst d) && forallb (fun kv => json_wf (snd kv)) d
  | _ => true
  end.
