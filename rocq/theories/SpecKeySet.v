(** Which error a key set gets (RFC 7517 section 5, as psion reads it): specification of C136. *)
From Coq Require Import String Ascii List NArith ZArith Bool.
From Verif Require Import Base Crypto Jwk SpecReaders SpecJwkErr.
Import ListNotations.
Open Scope N_scope.

(** What a loop over the value goes through: the elements of a list, the characters of a string, the names of a dict *)
Definition elements (v : pyval) : list pyval :=
  match v with
  | PList l => l
  | PStr s => map (fun c => PStr [c]) s
  | PDict d => map (fun kv => PStr (fst kv)) d
  | _ => []
  end.
Definition no_loop (v : pyval) : Prop := (forall l, v <> PList l) /\ (forall s, v <> PStr s) /\ (forall d, v <> PDict d).
(** The id of a key *)
Definition has_id (x i : pyval) : Prop := exists d, x = PDict d /\ member d "kid" i /\ i <> PNone.
(** Ids that Python takes for the same: True is 1, False is 0. *)
Definition equal_ids (i j : pyval) : Prop :=
  i = j \/ exists b, (i = PBool b /\ j = PInt (Z.b2z b)) \/ (i = PInt (Z.b2z b) /\ j = PBool b).
Definition id_checks (l : list pyval) : list check :=
  [(l <> [], Some InvalidKeySet);
   (forall x, In x l -> exists i, has_id x i, Some InvalidKeySet);
   (forall x i, In x l -> has_id x i -> (forall m, i <> PList m) /\ (forall m, i <> PDict m), Some TypeError);
   (forall l1 x l2 y l3 i j, l = l1 ++ x :: l2 ++ y :: l3 -> has_id x i -> has_id y j -> ~ equal_ids i j, Some InvalidKeySet)].
(** The keys are made one after the other, then the ids are looked at. *)
Definition keyset_checks (C : crypto) (v : pyval) : list check :=
  match v with
  | PDict [(name, w)] =>
      [(name = chars "keys", Some InvalidKeySet); (~ no_loop w, Some TypeError)] ++
      flat_map (jwk_checks C) (elements w) ++ id_checks (elements w)
  | _ => [(False, Some InvalidKeySet)]
  end.
(** The dicts of Python have every name once. *)
Definition names_once (x : pyval) : Prop := forall d, x = PDict d -> NoDup (map fst d).
