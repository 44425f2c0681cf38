(** Facts about Base.v. *)
From Coq Require Import String Ascii List NArith ZArith Bool Lia.
From Verif Require Import Base.
Import ListNotations.
Open Scope N_scope.

Lemma eqs_spec a b : reflect (a = b) (eqs a b).
Proof.
  revert b; induction a as [|x a IH]; destruct b as [|y b]; simpl; try (constructor; congruence).
  destruct (N.eqb_spec x y); simpl.
  - destruct (IH b); constructor; congruence.
  - constructor; congruence.
Qed.
Lemma eqs_refl a : eqs a a = true.
Proof. destruct (eqs_spec a a); congruence. Qed.
Lemma eqs_true a b : eqs a b = true <-> a = b.
Proof. destruct (eqs_spec a b); split; congruence. Qed.
Lemma eqs_false a b : eqs a b = false <-> a <> b.
Proof. destruct (eqs_spec a b); split; congruence. Qed.
Lemma eqs_sym a b : eqs a b = eqs b a.
Proof. destruct (eqs_spec a b), (eqs_spec b a); congruence. Qed.

Lemma ins_In x l : ins x l = true <-> In x l.
Proof.
  unfold ins; rewrite existsb_exists; split.
  - intros (y & Hy & E). apply eqs_true in E; subst; auto.
  - intros H; exists x; split; auto using eqs_refl.
Qed.
Lemma ins_nIn x l : ins x l = false <-> ~ In x l.
Proof. rewrite <- ins_In; destruct (ins x l); split; congruence. Qed.
Lemma inc_In c s : inc c s = true <-> In c s.
Proof.
  unfold inc; rewrite existsb_exists; split.
  - intros (y & Hy & E). apply N.eqb_eq in E; subst; auto.
  - intros H; exists c; split; auto using N.eqb_refl.
Qed.
Lemma inc_nIn c s : inc c s = false <-> ~ In c s.
Proof. rewrite <- inc_In; destruct (inc c s); split; congruence. Qed.

Lemma bytes_okb_spec b : bytes_okb b = true <-> bytes_ok b.
Proof.
  unfold bytes_okb, bytes_ok; rewrite forallb_forall, Forall_forall.
  split; intros H x Hx; specialize (H x Hx); apply N.ltb_lt; auto.
Qed.

Lemma str_eq_dec : forall a b : str, {a = b} + {a <> b}.
Proof. intros; destruct (eqs_spec a b); auto. Qed.

Section Dict.
  Context {V : Type}.
  Implicit Types d e : list (str * V).

  Lemma lookup_In k v d : lookup k d = Some v -> In (k, v) d.
  Proof.
    induction d as [|[k' v'] d IH]; simpl; try congruence.
    destruct (eqs_spec k k'); intros H; [left; congruence | right; auto].
  Qed.
  Lemma lookup_keys k d : (exists v, lookup k d = Some v) <-> In k (keys d).
  Proof.
    induction d as [|[k' v'] d IH]; simpl.
    - split; [intros [v H]; congruence | tauto].
    - destruct (eqs_spec k k') as [->|Hn].
      + split; eauto.
      + rewrite IH. split; [auto | intros [H|H]; [congruence|auto]].
  Qed.
  Lemma lookup_None k d : lookup k d = None <-> ~ In k (keys d).
  Proof.
    rewrite <- lookup_keys. destruct (lookup k d) as [v|]; split; intros H; try congruence.
    - exfalso; apply H; eauto.
    - intros [v' Hv]; congruence.
  Qed.
  Lemma lookup_NoDup k v d : NoDup (keys d) -> In (k, v) d -> lookup k d = Some v.
  Proof.
    induction d as [|[k' v'] d IH]; simpl; [tauto|].
    intros Hn [H|H]; inversion Hn; subst.
    - inversion H; subst. rewrite eqs_refl; auto.
    - destruct (eqs_spec k k') as [->|]; [|auto].
      exfalso. apply H2. apply in_map_iff. exists (k', v); auto.
  Qed.

  Lemma lookup_dset k v d k' :
    lookup k' (dset k v d) = if eqs k' k then Some v else lookup k' d.
  Proof.
    induction d as [|[k0 v0] d IH]; simpl; [destruct (eqs k' k); auto|].
    destruct (eqs_spec k k0) as [->|Hn]; simpl.
    - destruct (eqs k' k0); auto.
    - rewrite IH. destruct (eqs_spec k' k0) as [->|]; auto.
      destruct (eqs_spec k0 k); congruence.
  Qed.
  Lemma lookup_dset_same k v d : lookup k (dset k v d) = Some v.
  Proof. rewrite lookup_dset, eqs_refl; auto. Qed.
  Lemma lookup_dset_other k v d k' : k' <> k -> lookup k' (dset k v d) = lookup k' d.
  Proof. intros H; rewrite lookup_dset. apply eqs_false in H; rewrite H; auto. Qed.

  Lemma keys_dset k v d : keys (dset k v d) = if ins k (keys d) then keys d else keys d ++ [k].
  Proof.
    induction d as [|[k0 v0] d IH]; simpl; auto.
    destruct (eqs_spec k k0) as [->|Hn]; simpl; auto.
    unfold keys in *; rewrite IH. unfold ins. destruct (existsb _ _); auto.
  Qed.
  Lemma dset_NoDup k v d : NoDup (keys d) -> NoDup (keys (dset k v d)).
  Proof.
    intros H. rewrite keys_dset. destruct (ins k (keys d)) eqn:E; auto.
    apply ins_nIn in E. rewrite <- (rev_involutive (keys d)) at 1.
    rewrite <- (rev_involutive (rev (keys d) ++ [k])) || idtac.
    apply NoDup_rev in H.
    assert (NoDup (rev (k :: rev (keys d)))).
    { apply NoDup_rev. constructor; auto. rewrite <- in_rev; auto. }
    simpl in H0; auto.
  Qed.
  Lemma dset_absent k v d : ~ In k (keys d) -> dset k v d = d ++ [(k, v)].
  Proof.
    induction d as [|[k0 v0] d IH]; simpl; auto.
    intros H. destruct (eqs_spec k k0) as [->|]; [tauto|].
    f_equal; auto.
  Qed.
  Lemma dupdate_NoDup d e : NoDup (keys d) -> NoDup (keys (dupdate d e)).
  Proof.
    unfold dupdate; revert d; induction e as [|[k v] e IH]; simpl; auto using dset_NoDup.
  Qed.
  Lemma dict_of_NoDup_keys e : NoDup (keys (dict_of e)).
  Proof. apply dupdate_NoDup; constructor. Qed.
  Lemma dupdate_app d e : NoDup (keys (d ++ e)) -> dupdate d e = d ++ e.
  Proof.
    unfold dupdate; revert d; induction e as [|[k v] e IH]; simpl; intros d H.
    - rewrite app_nil_r; auto.
    - rewrite dset_absent.
      + rewrite IH; rewrite <- app_assoc; auto.
      + unfold keys in *. rewrite map_app in H; simpl in H. apply NoDup_remove_2 in H.
        intros Hin; apply H; apply in_or_app; auto.
  Qed.
  Lemma dict_of_id e : NoDup (keys e) -> dict_of e = e.
  Proof. intros; unfold dict_of; rewrite dupdate_app; auto. Qed.
  Lemma lookup_app k d e :
    lookup k (d ++ e) = match lookup k d with Some v => Some v | None => lookup k e end.
  Proof. induction d as [|[k0 v0] d IH]; simpl; auto. destruct (eqs k k0); auto. Qed.

  (** The last binding of [k] in [e] wins over [d]. *)
  Lemma lookup_dupdate k d e :
    lookup k (dupdate d e) = match lookup k (rev e) with Some v => Some v | None => lookup k d end.
  Proof.
    unfold dupdate; revert d; induction e as [|[k0 v0] e IH]; simpl; intros d; auto.
    rewrite IH, lookup_app, lookup_dset. simpl.
    destruct (lookup k (rev e)); auto. destruct (eqs k k0); auto.
  Qed.
  Lemma lookup_rev k e : NoDup (keys e) -> lookup k (rev e) = lookup k e.
  Proof.
    intros H. destruct (lookup k e) as [v|] eqn:E.
    - apply lookup_NoDup.
      + unfold keys; rewrite map_rev. apply NoDup_rev; auto.
      + rewrite <- in_rev. apply lookup_In; auto.
    - apply lookup_None. apply lookup_None in E. unfold keys. rewrite map_rev, <- in_rev; auto.
  Qed.
  Lemma lookup_filter k (f : str * V -> bool) d :
    NoDup (keys d) ->
    lookup k (filter f d) = match lookup k d with
                            | Some v => if f (k, v) then Some v else None
                            | None => None end.
  Proof.
    induction d as [|[k0 v0] d IH]; simpl; intros Hn; auto. inversion Hn; subst.
    destruct (eqs_spec k k0) as [->|Hne].
    - destruct (f (k0, v0)) eqn:E; simpl; [rewrite eqs_refl; auto|].
      rewrite IH; auto. apply lookup_None in H1. unfold str in *. rewrite H1. auto.
    - destruct (f (k0, v0)); simpl; auto.
      apply eqs_false in Hne; rewrite Hne; auto.
  Qed.
  Lemma keys_filter_incl (f : str * V -> bool) d : incl (keys (filter f d)) (keys d).
  Proof.
    intros k H. apply in_map_iff in H as ([k' v] & E & H). apply filter_In in H as [H _].
    apply in_map_iff. eauto.
  Qed.
  Lemma keys_filter_NoDup (f : str * V -> bool) d : NoDup (keys d) -> NoDup (keys (filter f d)).
  Proof.
    induction d as [|[k v] d IH]; simpl; intros H; auto. inversion H; subst.
    destruct (f (k, v)); simpl; auto. constructor; auto.
    intros Hin; apply keys_filter_incl in Hin; auto.
  Qed.
  Lemma has_lookup k d : has k d = true <-> exists v, lookup k d = Some v.
  Proof. unfold has; destruct (lookup k d); split; eauto; try congruence. intros [v Hv]; congruence. Qed.
End Dict.

Lemma rbind_ok {A B} (r : result A) (f : A -> result B) b :
  rbind r f = Ok b <-> exists a, r = Ok a /\ f a = Ok b.
Proof.
  destruct r; simpl; split; eauto; try congruence.
  - intros (a' & E & H). congruence.
  - intros (a' & E & H). congruence.
Qed.
Lemma rbind_err {A B} (r : result A) (f : A -> result B) e :
  rbind r f = Err e <-> r = Err e \/ exists a, r = Ok a /\ f a = Err e.
Proof.
  destruct r; simpl; split; eauto.
  - intros [H|(a' & E & H)]; congruence.
  - intros H; left; congruence.
  - intros [H|(a' & E & H)]; congruence.
Qed.
Lemma raise_if_ok c e : raise_if c e = Ok tt <-> c = false.
Proof. destruct c; simpl; split; congruence. Qed.

(** [py_eq] on strings is equality. *)
Lemma py_eq_str v s : py_eq v (PStr s) = true <-> v = PStr s.
Proof. destruct v; simpl; try (split; congruence). rewrite eqs_true; split; congruence. Qed.
Lemma py_eq_str_l v s : py_eq (PStr s) v = true <-> v = PStr s.
Proof. destruct v; simpl; try (split; congruence). rewrite eqs_true; split; congruence. Qed.
