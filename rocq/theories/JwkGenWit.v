(** A random source for the example of C137. *)
From Coq Require Import String Ascii List NArith ZArith Bool Lia ZifyBool ZifyNat.
From Verif Require Import Base BaseFacts SpecCodec Crypto RefCrypto Jwk JwkFacts JwkGen SpecKey SpecJwkErr SpecJwkGen.
Import ListNotations.
Open Scope N_scope.

(** A member of a dict *)
Definition L (k v : string) : str * pyval := (lit k, PStr (lit v)).

Definition toy_priv : rsa_priv := {| r_d := 29953; r_p := 257; r_q := 263; r_dmp1 := 1; r_dmq1 := 85; r_iqmp := 43 |}.
Definition dice : generator := {|
  g_bytes z := repeat 7 (Z.to_nat z);
  g_rsa z := if (z =? 1000)%Z then Err ValueError else Ok (67591, toy_priv);
  g_ec c := (fst (base_point c), snd (base_point c), 1)
|}.
Lemma dice_sound : sound ref dice.
Proof.
  split; [|split; [|split; [|split]]].
  - intros z. apply Forall_forall. intros x Hx. apply repeat_spec in Hx. subst. reflexivity.
  - intros z Hz. cbn [dice g_bytes]. rewrite repeat_length. lia.
  - intros z n k. cbn [dice g_rsa]. destruct (z =? 1000)%Z; [discriminate|]. intros [= <- <-]. split; [|vm_compute; reflexivity].
    split; [split; lia|reflexivity].
  - intros z e. cbn [dice g_rsa]. destruct (z =? 1000)%Z; congruence.
  - intros c x y d [= <- <- <-]. split; [apply on_curve_spec; destruct c; vm_compute; reflexivity|]. split; [destruct c; vm_compute; reflexivity|].
    destruct c; split; vm_compute; discriminate.
Qed.
