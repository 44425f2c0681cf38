(** Which error the claims of a JWT and of an ID token raise: lemmas for C140. *)
From Coq Require Import String Ascii List NArith ZArith Bool Lia.
From Verif Require Import Base BaseFacts SpecPy PyFacts Json Webtools WebtoolsFacts SpecKey Jws SpecJws JwsFacts Jwt SpecJwt JwtFacts SpecReaders SpecJoseErr JoseErrFacts.
Import ListNotations.
Open Scope N_scope.

Lemma tells_int c : tells [(int_claim c "max_age", Some InvalidJWTClaim)] (validate_auth_time c).
Proof.
  apply tells_one.
  - unfold int_claim, validate_auth_time. change chars with lit. unfold dget. destruct (lookup (lit "max_age") c) as [v|].
    2:{ split; [intros _; exists tt; reflexivity|]. intros _ v E. discriminate. }
    cbv zeta. rewrite andb_negb_r. cbn [raise_if rbind]. split.
    + intros H. destruct (H v eq_refl) as [->|(z & ->)]; eexists; reflexivity.
    + intros (u & H) w E. injection E as <-. destruct v; try discriminate; eauto.
  - intros e H. unfold validate_auth_time in H. cbv zeta in H. apply rbind_err in H as [H|(? & _ & H)]; apply raise_if_err in H; tauto.
Qed.
Lemma tells_nonce options c : tells [(false_value options \/ exists o, options = PDict o, Some AttributeError); (nonce_met options c, Some InvalidJWTClaim)] (validate_nonce options c).
Proof.
  assert (D : (exists o, options = PDict o) \/ (forall o, options <> PDict o)) by (destruct options; eauto; right; discriminate).
  destruct D as [(o & ->)|D].
  - apply tells_pass; [right; eauto|].
    assert (E : validate_nonce (PDict o) c = raise_if (truthy (dget (lit "nonce") o) && negb (py_eq (dget (lit "nonce") o) (dget (lit "nonce") c))) InvalidJWTClaim) by (destruct o; reflexivity).
    rewrite E. apply tells_one; [|intros e H; apply raise_if_err in H; tauto].
    unfold nonce_met. change chars with lit. split.
    + intros H. exists tt. unfold dget at 1 2. destruct (lookup (lit "nonce") o) as [n|] eqn:En; [|reflexivity].
      destruct (truthy n) eqn:T; [|reflexivity]. destruct (H _ _ eq_refl En (proj1 (true_spec n) T)) as (w & Hw & Hs). unfold dget. rewrite Hw.
      apply same_iff in Hs. rewrite Hs. reflexivity.
    + intros ([] & H) o' n E' En Hn. injection E' as <-. apply raise_if_ok in H. unfold dget at 1 2 in H. rewrite En in H. apply true_spec in Hn. rewrite Hn in H. cbn [andb] in H.
      apply negb_false_iff in H. unfold dget in H. destruct (lookup (lit "nonce") c) as [w|]; [exists w; split; [reflexivity|apply same_iff, H]|].
      destruct n; discriminate.
  - destruct (truthy options) eqn:T.
    + assert (E : validate_nonce options c = Err AttributeError) by (unfold validate_nonce; rewrite T; destruct options; try reflexivity; destruct (D d eq_refl)).
      rewrite E. apply tells_fail. intros [F|(o & F)]; [apply false_spec in F; congruence|exact (D _ F)].
    + assert (E : validate_nonce options c = Ok tt) by (unfold validate_nonce; rewrite T; reflexivity). rewrite E.
      apply tells_pass; [left; apply false_spec, T|]. apply tells_pass; [|apply tells_nil]. intros o n F. destruct (D _ F).
Qed.
Lemma tells_init now v options (id : bool) : tells (claims_checks id now v options) (if id then IDToken now v options else JsonWebTokenClaims now v options).
Proof.
  unfold claims_checks. cbn [app].
  assert (D : (exists c, v = PDict c) \/ (forall c, v <> PDict c)) by (destruct v; eauto; right; discriminate).
  destruct D as [(c & ->)|D].
  2:{ assert (E : (if id then IDToken now v options else JsonWebTokenClaims now v options) = Err InvalidJWTClaim) by (destruct id, v; try reflexivity; destruct (D d eq_refl)).
      rewrite E. apply tells_fail. intros (c & F & _). exact (D _ F). }
  assert (HI : forall P : pdict -> Prop, (exists c', PDict c = PDict c' /\ P c') <-> P c) by (intros P; split; [intros (c' & [= <-] & H); exact H|eauto]).
  destruct c as [|kv c']; [destruct id; apply tells_fail; rewrite HI; auto|]. set (c := kv :: c') in *.
  apply tells_pass; [apply HI; discriminate|].
  assert (E : (if id then IDToken now (PDict c) options else JsonWebTokenClaims now (PDict c) options) =
    let! _ := validate_default_claims now c in
    let! _ := (if id then let! _ := validate_auth_time c in validate_nonce options c else Ok tt) in
    let! _ := match options with PDict o => validate_claims o c | _ => Ok tt end in Ok (FullDict c [])).
  { unfold IDToken, JsonWebTokenClaims, claims_init. subst c. destruct id; [|reflexivity]. destruct (validate_default_claims now (kv :: c')); reflexivity. }
  rewrite E. apply tells_bind; [repeat constructor; discriminate|apply tells_claims_in; exact HI|intros _ _].
  apply tells_bind; [destruct id; repeat constructor; discriminate| |intros _ _].
  { destruct id; [|apply tells_nil]. apply (tells_bind [_]); [repeat constructor; discriminate| |intros _ _].
    - eapply tells_iff; [apply HI|]. apply tells_int.
    - pose proof (tells_nonce options c) as T. intros w. rewrite <- (T w). cbn [decided]. rewrite HI. reflexivity. }
  apply (tells_bind [_] []); [repeat constructor; discriminate| |intros; apply tells_nil].
  apply tells_one.
  - split.
    + intros H. destruct options as [| | | | | |o]; eauto. exists tt. apply options_iff. apply HI. apply H. reflexivity.
    + intros ([] & H) o ->. apply HI. apply options_iff. exact H.
  - intros e H. destruct options; try discriminate. eapply options_err; eauto.
Qed.
Lemma c140 now v options e :
  (decided (claims_checks false now v options) None e <-> match JsonWebTokenClaims now v options with Ok _ => e = None | Err x => e = Some x end) /\
  (decided (claims_checks true now v options) None e <-> match IDToken now v options with Ok _ => e = None | Err x => e = Some x end).
Proof.
  split; [rewrite (tells_init now v options false e)|rewrite (tells_init now v options true e)]; [destruct (JsonWebTokenClaims now v options)|destruct (IDToken now v options)]; reflexivity.
Qed.
Lemma c140_value now v options r : JsonWebTokenClaims now v options = Ok r \/ IDToken now v options = Ok r -> exists c, v = PDict c /\ r = without_none c.
Proof.
  intros H. assert (exists f, claims_init f v options = Ok r) as (f & H1) by (destruct H; eexists; eassumption).
  unfold claims_init in H1. destruct v as [| | | | | |c]; try discriminate. destruct c as [|kv c]; [discriminate|].
  apply BaseFacts.rbind_ok in H1 as (? & _ & H1). apply BaseFacts.rbind_ok in H1 as (? & _ & H1). injection H1 as <-. exists (kv :: c). split; [reflexivity|]. rewrite FullDict_nil, without_none_full. reflexivity.
Qed.
