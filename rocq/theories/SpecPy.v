(** Which Python values count as false and which are equal (The Python Language Reference, 6.10.1 and
    "Truth Value Testing" of the library reference), independent of the model's functions. *)
From Coq Require Import String Ascii List NArith ZArith Bool.
From Verif Require Import Base.
Import ListNotations.
Open Scope N_scope.

(** Values that count as false; a float counts as false when its digits before the exponent are 0 *)
Inductive false_value : pyval -> Prop :=
| fv_none : false_value PNone
| fv_false : false_value (PBool false)
| fv_zero : false_value (PInt 0)
| fv_float m e : Forall (fun c => In c [45; 46; 48]) m -> In (firstn 1 e) [[]; [69]; [101]] -> false_value (PFloat (m ++ e))
| fv_str : false_value (PStr [])
| fv_list : false_value (PList [])
| fv_dict : false_value (PDict []).

(** Integers, of which False is 0 and True is 1 *)
Inductive whole : pyval -> Z -> Prop :=
| wh_int z : whole (PInt z) z
| wh_false : whole (PBool false) 0
| wh_true : whole (PBool true) 1.
(** Equal values.  Dicts are equal when they have equally many members and each of the one is in the other. *)
Inductive same : pyval -> pyval -> Prop :=
| same_none : same PNone PNone
| same_whole a b z : whole a z -> whole b z -> same a b
| same_float s : same (PFloat s) (PFloat s)
| same_str s : same (PStr s) (PStr s)
| same_list l m : Forall2 same l m -> same (PList l) (PList m)
| same_dict d e : List.length d = List.length e ->
    Forall (fun kv => exists pre w post, e = pre ++ (fst kv, w) :: post /\ ~ In (fst kv) (map fst pre) /\ same (snd kv) w) d ->
    same (PDict d) (PDict e).
(** [x in l] *)
Definition among (x : pyval) (l : list pyval) : Prop := exists y, In y l /\ same x y.
