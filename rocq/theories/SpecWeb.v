(** Specifications used by the statements of PropsWebtools. *)
From Coq Require Import String Ascii List NArith Bool.
From Verif Require Import Base Webtools.
Import ListNotations.
Open Scope N_scope.

(** A sequence of item assignments [d[k] = v]. *)
Definition run_sets (d : pdict) (ops : list (str * pyval)) : pdict :=
  fold_left (fun acc kv => full_setitem (fst kv) (snd kv) acc) ops d.

(** The last non-None value assigned to a key. *)
Fixpoint last_non_none (k : str) (ops : list (str * pyval)) (init : option pyval) : option pyval :=
  match ops with
  | [] => init
  | (k', v) :: r => last_non_none k r (if eqs k k' then (if is_none v then init else Some v) else init)
  end.

(** Parameters of a redirect as the dict of strings given to [urlencode]. *)
Definition str_params (items : list (str * str)) : pdict := map (fun kv => (fst kv, PStr (snd kv))) items.
