(** Texts of keys for the example of C142. *)
From Coq Require Import String Ascii List NArith ZArith Bool Lia.
From Verif Require Import Base BaseFacts SpecCodec Crypto RefCrypto Jwk JwkFacts JwkFile JwkGen SpecKey SpecJwkErr SpecJwkGen JwkGenWit SpecJwkParse.
Import ListNotations.
Open Scope N_scope.

(** The reference back end with a reader of a few texts *)
Definition some_key (word : string) (private : bool) (raw : bytes) : result pem_key :=
  let p {A} (x : A) := if private then Some x else None in
  let is s := eqs raw (lit (word ++ s)) in
  if is " RSA"%string then Ok (PemRSA 67591 65537 (p toy_priv))
  else if is " EC"%string then Ok (PemEC (Some P256) (fst (base_point P256)) (snd (base_point P256)) (p 1))
  else if is " brainpool"%string then Ok (PemEC None 5 7 (p 1))
  else if is " DSA"%string then Ok PemOther
  else if is " locked"%string then Err TypeError
  else Err ValueError.
Definition shelf : crypto := {|
  c_hmac := c_hmac ref; c_prime := c_prime ref; c_rsa_recover := c_rsa_recover ref;
  c_rsa_iqmp := c_rsa_iqmp ref; c_rsa_sign := c_rsa_sign ref; c_rsa_verify := c_rsa_verify ref;
  c_ec_mul := c_ec_mul ref; c_ec_sign := c_ec_sign ref; c_ec_verify := c_ec_verify ref;
  c_pem_private := some_key "PRIVATE" true; c_pem_public := some_key "PUBLIC" false;
  c_pem_export_private := c_pem_export_private ref; c_pem_export_public := c_pem_export_public ref |}.
Lemma shelf_sound : pem_sound shelf.
Proof.
  assert (H : forall w b raw k, some_key w b raw = Ok k -> pem_fit shelf k).
  { intros w b raw k. unfold some_key. cbv zeta.
    destruct (eqs raw _). { intros [= <-]. split; [split; [split; lia|reflexivity]|]. intros p. destruct b; [|discriminate]. intros [= <-]. vm_compute. reflexivity. }
    destruct (eqs raw _).
    { intros H. apply Ok_inj in H. subst k. split; [apply on_curve_spec; vm_compute; reflexivity|]. split; [vm_compute; discriminate|]. split; [vm_compute; discriminate|].
      intros d. destruct b; [|discriminate]. intros [= <-]. vm_compute. reflexivity. }
    destruct (eqs raw _). { intros [= <-]. exact I. }
    destruct (eqs raw _). { intros [= <-]. exact I. }
    destruct (eqs raw _); discriminate. }
  intros raw k [E|E]; eapply H; exact E.
Qed.
(** One file *)
Definition drawer : files := fun x => if eqs x (lit "key.pem") then Content (lit "PRIVATE EC") else if eqs x (lit "secret") then OpenRaises OSError else FileNotFound.
