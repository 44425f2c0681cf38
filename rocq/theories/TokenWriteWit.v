(** A private RSA key with room for a signature, for the example of C141. *)
From Coq Require Import String Ascii List NArith ZArith Bool Lia.
From Verif Require Import Base BaseFacts SpecCodec Base64 Webtools Crypto RefCrypto Jwk JwkFacts SpecKey Jws SpecJws SpecJoseErr.
Import ListNotations.
Open Scope N_scope.

(** The reference back end is too slow on numbers of 512 bits.  This one has the size of its signatures only. *)
Definition sized : crypto := {|
  c_hmac := c_hmac ref; c_prime := fun _ => true; c_rsa_recover := c_rsa_recover ref; c_rsa_iqmp := c_rsa_iqmp ref;
  c_rsa_sign := fun _ n _ pad h _ =>
    if Nat.ltb (byte_len n) (digest_size h + match pad with PKCS1v15 => 30 | PSS _ => 2 end) then Err ValueError else Ok (repeat 0 (byte_len n));
  c_rsa_verify := c_rsa_verify ref; c_ec_mul := c_ec_mul ref; c_ec_sign := c_ec_sign ref; c_ec_verify := c_ec_verify ref;
  c_pem_private := c_pem_private ref; c_pem_public := c_pem_public ref;
  c_pem_export_private := c_pem_export_private ref; c_pem_export_public := c_pem_export_public ref |}.
Lemma sized_signs m : signs_by_size sized m.
Proof.
  intros n e k rand h data E. cbn [sized c_rsa_sign]. split; [|split]; intros H.
  - destruct (Nat.ltb_spec (byte_len n) (digest_size h + 30)); [lia|eauto].
  - destruct (Nat.ltb_spec (byte_len n) (digest_size h + 30)); [reflexivity|lia].
  - destruct (Nat.ltb_spec (byte_len n) (digest_size h + 2)); [lia|eauto].
Qed.
(** 512 bits: room for SHA-256, and with PSS for SHA-384 *)
Definition signer_dict : pdict := map (fun kv => (lit (fst kv), num_str (snd kv)))
  [("n", 9006461462066401633945148397525923166658241632511947446409105257569247507781058744292150806323141586698006793877366535593082306748192535671622633739591513);
   ("e", 65537);
   ("d", 3735227772692750605163939964367526613512535019480213186343584248603569697445473647725439029761419690556212018518051010487193930208502486167640087829415873);
   ("p", 101402628834225542234238117639832549262060538178373027534501833011942772434781);
   ("q", 88818816293118916515801119643375690962860842275949759119128909669247402902573);
   ("dp", 79795174851437808628776541540220703275142073560508625295776866992567750431153);
   ("dq", 41883905542500268778260121802623338407421980416226365344411232636954559816653);
   ("qi", 87772241618680764205005830257064291651475358086847814890021028442501947531101)]%string ++ [(lit "kty", PStr (lit "RSA"))].
Definition signer : option jwk := match JsonWebKey sized (PDict signer_dict) with Ok k => Some k | Err _ => None end.
Lemma signer_good : exists k, signer = Some k /\ constructible sized k /\ signs_by_size sized (jmat k).
Proof.
  assert (E : exists k, JsonWebKey sized (PDict signer_dict) = Ok k).
  { destruct (JsonWebKey sized (PDict signer_dict)) as [k|x] eqn:E; [eauto|]. exfalso.
    assert (H : match JsonWebKey sized (PDict signer_dict) with Ok _ => true | Err _ => false end = true) by (vm_compute; reflexivity). rewrite E in H. discriminate. }
  destruct E as (k & E). exists k. split; [unfold signer; rewrite E; reflexivity|]. split; [|apply sized_signs].
  exists signer_dict. split; [|exact E]. vm_compute. repeat constructor; simpl; intuition discriminate.
Qed.
