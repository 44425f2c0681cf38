(** Requests one after the other, for the statement of C177. *)
From Coq Require Import String Ascii List NArith ZArith Bool.
From Verif Require Import Base Webtools Crypto Jwk Prog Http OAuth Example App.
Import ListNotations.
Open Scope N_scope.

(** Each request begins when the one before has ended, or stopped at some call. *)
Inductive one_by_one (E : env) (p : provider) (hs : hooks) (C : crypto) (aware : bool) (t0 : tables) : tables -> Prop :=
| obo_start : one_by_one E p hs C aware t0 t0
| obo_next : forall t g w tr rest x t', one_by_one E p hs C aware t0 t -> aexec (application E p hs g w) (tr ++ rest) x -> app_steps C aware t tr t' -> one_by_one E p hs C aware t0 t'.
(** At most one session for each user *)
Definition one_session (t : tables) : Prop := NoDup (map snd (tb_sessions t)).
