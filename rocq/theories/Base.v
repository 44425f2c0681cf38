(** Strings, byte strings, results, exceptions and JSON-like Python values.

    Python [str] is a list of code points, [bytes] a list of numbers below 256.
    Both are [list N]; the predicates [scalar_str] (Utf8.v) and [bytes_ok] separate
    the well-formed ones.  No file of /repo is modelled here: these are the Python
    built-in types and operators that the cited functions of the other files use. *)

From Coq Require Import String Ascii List NArith ZArith Bool.
Import ListNotations.
Open Scope N_scope.

#[global] Arguments N.add : simpl never.
#[global] Arguments N.sub : simpl never.
#[global] Arguments N.mul : simpl never.
#[global] Arguments N.div : simpl never.
#[global] Arguments N.modulo : simpl never.
#[global] Arguments N.eqb : simpl never.
#[global] Arguments N.ltb : simpl never.
#[global] Arguments N.leb : simpl never.

Definition str := list N.
Definition bytes := list N.

(** ASCII literal.  [lit "alg"] is the Python literal "alg" (or b"alg"). *)
Definition lit (s : string) : list N := map N_of_ascii (list_ascii_of_string s).
Arguments lit : simpl never.

Definition bytes_ok (b : bytes) : Prop := Forall (fun x => x < 256) b.
Definition bytes_okb (b : bytes) : bool := forallb (fun x => x <? 256) b.

(** Equality of strings: Python [==] on two [str] (or two [bytes]). *)
Fixpoint eqs (a b : list N) : bool :=
  match a, b with
  | [], [] => true
  | x :: a', y :: b' => (x =? y) && eqs a' b'
  | _, _ => false
  end.

(** [x in l] for a list of strings. *)
Definition ins (x : str) (l : list str) : bool := existsb (eqs x) l.

(** [c in s] for a one-character string. *)
Definition inc (c : N) (s : str) : bool := existsb (N.eqb c) s.

(** Python exceptions that occur in the modelled code.
    src/psion/jose/exceptions.py 4-60 for the first group. *)
Inductive exn : Type :=
| ExpiredToken | InvalidJWSHeader | InvalidJWSSerialization | InvalidJWTClaim
| InvalidKey | InvalidKeySet | InvalidSignature | NotYetValidToken
| UnsupportedAlgorithm | UnsupportedParsingMethod
(* built-in exceptions *)
| TypeError | ValueError | KeyError | AttributeError | OverflowError | OSError | RuntimeError
| ZeroDivisionError | BinasciiError | JSONDecodeError | UnicodeEncodeError | UnicodeDecodeError
(* an arbitrary exception raised by code outside of the library (adapter, crypto backend) *)
| Foreign (n : N)
(* the model's own: recursion fuel exhausted (excluded by theorems), construct outside of the model *)
| OutOfFuel | Unmodelled.

(** JoseError and its subclasses: src/psion/jose/exceptions.py. *)
Definition is_jose (e : exn) : bool :=
  match e with
  | ExpiredToken | InvalidJWSHeader | InvalidJWSSerialization | InvalidJWTClaim
  | InvalidKey | InvalidKeySet | InvalidSignature | NotYetValidToken
  | UnsupportedAlgorithm | UnsupportedParsingMethod => true
  | _ => false
  end.

Inductive result (A : Type) : Type :=
| Ok (a : A)
| Err (e : exn).
Arguments Ok {A} a.
Arguments Err {A} e.

Definition rbind {A B} (r : result A) (f : A -> result B) : result B :=
  match r with Ok a => f a | Err e => Err e end.
Definition rmap {A B} (f : A -> B) (r : result A) : result B :=
  match r with Ok a => Ok (f a) | Err e => Err e end.
Declare Scope res_scope.
Delimit Scope res_scope with res.
Notation "'let!' x ':=' r 'in' k" := (rbind r (fun x => k))
  (at level 200, x pattern, r at level 100, k at level 200, right associativity) : res_scope.
Notation "'let!' x ':=' r 'in' k" := (rbind r (fun x => k))
  (at level 200, x pattern, r at level 100, k at level 200, right associativity).
(** [if c: raise e] *)
Definition raise_if (c : bool) (e : exn) : result unit := if c then Err e else Ok tt.

Definition of_opt {A} (e : exn) (o : option A) : result A :=
  match o with Some a => Ok a | None => Err e end.

(** JSON-like Python values.  A [dict] is its item list in insertion order; keys are [str].
    A [float] is represented by its JSON lexeme only (simplification, see DESIGN.md). *)
Inductive pyval : Type :=
| PNone
| PBool (b : bool)
| PInt (z : Z)
| PFloat (lexeme : str)
| PStr (s : str)
| PList (l : list pyval)
| PDict (d : list (str * pyval)).

Definition pdict := list (str * pyval).

Section PyvalInd.
  Variable P : pyval -> Prop.
  Hypothesis HNone : P PNone.
  Hypothesis HBool : forall b, P (PBool b).
  Hypothesis HInt : forall z, P (PInt z).
  Hypothesis HFloat : forall s, P (PFloat s).
  Hypothesis HStr : forall s, P (PStr s).
  Hypothesis HList : forall l, Forall P l -> P (PList l).
  Hypothesis HDict : forall d, Forall (fun kv => P (snd kv)) d -> P (PDict d).
  (** Structural induction that reaches into lists and dicts. *)
  Fixpoint pyval_ind' (v : pyval) : P v :=
    match v with
    | PNone => HNone
    | PBool b => HBool b
    | PInt z => HInt z
    | PFloat s => HFloat s
    | PStr s => HStr s
    | PList l => HList l ((fix go (l : list pyval) : Forall P l :=
        match l with [] => Forall_nil _ | x :: r => Forall_cons _ (pyval_ind' x) (go r) end) l)
    | PDict d => HDict d ((fix go (d : list (str * pyval)) : Forall (fun kv => P (snd kv)) d :=
        match d with [] => Forall_nil _ | kv :: r => Forall_cons _ (pyval_ind' (snd kv)) (go r) end) d)
    end.
End PyvalInd.

(** Is a float lexeme zero?  All mantissa digits are 0 (underflow of denormal literals is ignored). *)
Fixpoint lexeme_zero (s : str) : bool :=
  match s with
  | [] => true
  | c :: r => if (c =? 101) || (c =? 69) then true            (* e, E *)
              else if (c =? 45) || (c =? 46) || (c =? 48) then lexeme_zero r  (* - . 0 *)
              else false
  end.

(** Python truthiness. *)
Definition truthy (v : pyval) : bool :=
  match v with
  | PNone => false
  | PBool b => b
  | PInt z => negb (Z.eqb z 0)
  | PFloat s => negb (lexeme_zero s)
  | PStr s => match s with [] => false | _ => true end
  | PList l => match l with [] => false | _ => true end
  | PDict d => match d with [] => false | _ => true end
  end.

Definition is_none (v : pyval) : bool := match v with PNone => true | _ => false end.
Definition is_str (v : pyval) : bool := match v with PStr _ => true | _ => false end.

(** Hashable values: those usable as a dict key or set element. *)
Definition hashable (v : pyval) : bool :=
  match v with PList _ | PDict _ => false | _ => true end.

(** dict operations on insertion-ordered item lists. *)
Section Dict.
  Context {V : Type}.
  Fixpoint lookup (k : str) (d : list (str * V)) : option V :=
    match d with
    | [] => None
    | (k', v) :: r => if eqs k k' then Some v else lookup k r
    end.
  Definition has (k : str) (d : list (str * V)) : bool :=
    match lookup k d with Some _ => true | None => false end.
  (** [d[k] = v]: keeps the position of an existing key. *)
  Fixpoint dset (k : str) (v : V) (d : list (str * V)) : list (str * V) :=
    match d with
    | [] => [(k, v)]
    | (k', v') :: r => if eqs k k' then (k', v) :: r else (k', v') :: dset k v r
    end.
  (** [d.update(e)] *)
  Definition dupdate (d e : list (str * V)) : list (str * V) :=
    fold_left (fun acc kv => dset (fst kv) (snd kv) acc) e d.
  (** [dict(items)] *)
  Definition dict_of (items : list (str * V)) : list (str * V) := dupdate [] items.
  (** [d.pop(k, None)] without its value *)
  Definition dremove (k : str) (d : list (str * V)) : list (str * V) :=
    filter (fun kv => negb (eqs k (fst kv))) d.
  Definition keys (d : list (str * V)) : list str := map fst d.
End Dict.

(** [d.get(k)]: None when absent. *)
Definition dget (k : str) (d : pdict) : pyval :=
  match lookup k d with Some v => v | None => PNone end.

(** Python [==] on values.  [True == 1], [False == 0]; lists elementwise; dicts without order.
    int/float cross equality is not modelled: floats are equal only with equal lexemes. *)
Fixpoint py_eq (a b : pyval) {struct a} : bool :=
  match a, b with
  | PNone, PNone => true
  | PBool x, PBool y => Bool.eqb x y
  | PBool x, PInt y => Z.eqb (Z.b2z x) y
  | PInt x, PBool y => Z.eqb x (Z.b2z y)
  | PInt x, PInt y => Z.eqb x y
  | PFloat x, PFloat y => eqs x y
  | PStr x, PStr y => eqs x y
  | PList x, PList y =>
      (fix go (x y : list pyval) : bool :=
         match x, y with
         | [], [] => true
         | u :: x', v :: y' => py_eq u v && go x' y'
         | _, _ => false
         end) x y
  | PDict x, PDict y =>
      Nat.eqb (length x) (length y) &&
      (fix go (x : list (str * pyval)) : bool :=
         match x with
         | [] => true
         | (k, u) :: x' =>
             match lookup k y with Some v => py_eq u v | None => false end && go x'
         end) x
  | _, _ => false
  end.

(** [x in l] for a list of values. *)
Definition py_in (x : pyval) (l : list pyval) : bool := existsb (fun y => py_eq x y) l.
