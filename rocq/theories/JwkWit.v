(** A file system for the examples of C72, C134 and C135. *)
From Coq Require Import String Ascii List NArith ZArith Bool Lia.
From Verif Require Import Base BaseFacts Crypto RefCrypto Jwk JwkFile SpecKey SpecReaders SpecJwkErr.
Import ListNotations.
Open Scope N_scope.

(** A member of a dict *)
Definition L (k v : string) : str * pyval := (lit k, PStr (lit v)).

Definition one_of (c : N) (x : bytes) : bool := existsb (N.eqb c) x.
Definition disk : files := fun x =>
  if one_of 0 x then OpenRaises ValueError
  else if negb (one_of 47 x) && Nat.ltb 255 (List.length x) then OpenRaises OSError
  else if eqs x (lit "hunter2") then Content (lit "YWJj")
  else if eqs x (lit "/") then IsADirectory
  else FileNotFound.
Lemma one_of_In c x : one_of c x = true <-> In c x.
Proof. unfold one_of. rewrite existsb_exists. split; [intros (y & H & E); apply N.eqb_eq in E; subst; auto|]. intros H. exists c. split; auto. apply N.eqb_refl. Qed.
Lemma disk_linux : linux disk.
Proof.
  split; [|split].
  - intros x H. unfold disk. apply one_of_In in H. rewrite H. reflexivity.
  - intros x H0 H1 H2. unfold disk. replace (one_of 0 x) with false by (symmetry; apply not_true_iff_false; rewrite one_of_In; auto).
    replace (one_of 47 x) with false by (symmetry; apply not_true_iff_false; rewrite one_of_In; auto). cbn [negb andb].
    apply Nat.ltb_lt in H2. rewrite H2. reflexivity.
  - reflexivity.
Qed.
Lemma ref_recover : recover_raises ref.
Proof. intros n e x err H. injection H as <-. reflexivity. Qed.
