(** Facts about the example adapter. *)
From Coq Require Import String Ascii List NArith ZArith Bool.
From Verif Require Import Base BaseFacts Crypto Jwk Prog ProgFacts Example.
Import ListNotations.
Open Scope N_scope.

Lemma parse_secret_key_eq C : parse_secret_key C = Ok SECRET_KEY.
Proof. vm_compute. reflexivity. Qed.

Lemma run_ex_steps C aware {A} (p : prog A) : forall w tr r w', run (ex_handler C aware) p w = (tr, r, w') ->
  ex_steps C aware (w_store w) tr (w_store w').
Proof.
  induction p as [x | T e k IH]; intros w tr r w' H; simpl in H.
  - injection H as <- <- <-. constructor.
  - unfold ex_handler in H at 1. destruct (ex_do C aware (w_choice w) e (w_store w)) as [x s] eqn:Ee. 
    destruct (run _ _ _) as [[tr1 r1] w1] eqn:Er. injection H as <- <- <-.
    apply IH in Er. eapply ex_cons; [|exact Er]. simpl.
    pose proof (ex_ok C aware (w_choice w) T e (w_store w)) as Hs. rewrite Ee in Hs. exact Hs.
Qed.
Lemma ex_steps_app C aware t1 : forall s t2 s', ex_steps C aware s (t1 ++ t2) s' <-> exists s1, ex_steps C aware s t1 s1 /\ ex_steps C aware s1 t2 s'.
Proof.
  induction t1 as [|o t1 IH]; intros s t2 s'; simpl.
  - split; [intros H; exists s; split; [constructor|auto] | intros (s1 & H & H2); inversion H; subst; auto].
  - split.
    + intros H. inversion H; subst. apply IH in H5 as (s3 & H5 & H6). exists s3. split; [econstructor; eauto|auto].
    + intros (s1 & H & H2). inversion H; subst. econstructor; eauto. apply IH. eauto.
Qed.
