(** Facts about executions of programs (Prog.v). *)
From Coq Require Import String Ascii List NArith ZArith Bool.
From Verif Require Import Base Prog.
Import ListNotations.
Open Scope N_scope.

Lemma exec_Ret {A} (x : res A) tr r : exec (Ret x) tr r <-> tr = [] /\ r = x.
Proof. simpl. tauto. Qed.
Lemma exec_Do {A T} (e : eff T) (k : res T -> prog A) tr r :
  exec (Do e k) tr r <-> exists x tr', tr = observe e x :: tr' /\ exec (k x) tr' r.
Proof. simpl. tauto. Qed.
Lemma exec_call {T} (e : eff T) tr r : exec (call e) tr r <-> tr = [observe e r].
Proof.
  unfold call. rewrite exec_Do. split.
  - intros (x & tr' & -> & H). apply exec_Ret in H as [-> ->]. auto.
  - intros ->. exists r, []. split; auto. apply exec_Ret. auto.
Qed.
Lemma exec_ptry {A B} (p : prog A) (f : res A -> prog B) : forall tr r,
  exec (ptry p f) tr r <-> exists x t1 t2, tr = t1 ++ t2 /\ exec p t1 x /\ exec (f x) t2 r.
Proof.
  induction p as [x | T e k IH]; intros tr r; simpl ptry.
  - split.
    + intros H. exists x, [], tr. simpl; auto.
    + intros (x' & t1 & t2 & -> & H1 & H2). apply exec_Ret in H1 as [-> ->]. auto.
  - rewrite exec_Do. split.
    + intros (x & tr' & -> & H). apply IH in H as (y & t1 & t2 & -> & H1 & H2).
      exists y, (observe e x :: t1), t2. split; [auto|]. split; [|auto]. apply exec_Do. eauto.
    + intros (y & t1 & t2 & -> & H1 & H2). apply exec_Do in H1 as (x & t1' & -> & H1).
      exists x, (t1' ++ t2). split; [auto|]. apply IH. eauto 6.
Qed.
Lemma exec_pbind {A B} (p : prog A) (f : A -> prog B) tr r :
  exec (pbind p f) tr r <->
  (exists a t1 t2, tr = t1 ++ t2 /\ exec p t1 (V a) /\ exec (f a) t2 r) \/ (exists e, r = X e /\ exec p tr (X e)).
Proof.
  unfold pbind. rewrite exec_ptry. split.
  - intros (x & t1 & t2 & -> & H1 & H2). destruct x as [a | e].
    + left. eauto 6.
    + right. apply exec_Ret in H2 as [-> ->]. rewrite app_nil_r. eauto.
  - intros [(a & t1 & t2 & -> & H1 & H2) | (e & -> & H)].
    + exists (V a), t1, t2. auto.
    + exists (X e), tr, []. rewrite app_nil_r. split; [auto|]. split; [auto|]. apply exec_Ret. auto.
Qed.
Lemma exec_pexcept {A} (p : prog A) h tr r :
  exec (pexcept p h) tr r <->
  (exists e t1 t2, tr = t1 ++ t2 /\ exec p t1 (X (OA e)) /\ exec (h e) t2 r) \/
  (exec p tr r /\ forall e, r <> X (OA e)).
Proof.
  unfold pexcept. rewrite exec_ptry. split.
  - intros (x & t1 & t2 & -> & H1 & H2). destruct x as [a | [e | e]].
    + right. apply exec_Ret in H2 as [-> ->]. rewrite app_nil_r. split; [auto|]. congruence.
    + left. eauto 6.
    + right. apply exec_Ret in H2 as [-> ->]. rewrite app_nil_r. split; [auto|]. congruence.
  - intros [(e & t1 & t2 & -> & H1 & H2) | [H N]].
    + exists (X (OA e)), t1, t2. auto.
    + exists r, tr, []. rewrite app_nil_r. split; [auto|]. split; [auto|].
      destruct r as [a | [e | e]]; [|congruence|]; apply exec_Ret; auto.
Qed.
Lemma exec_pfinally {A} (p : prog A) d tr r :
  exec (pfinally p d) tr r <->
  exists x t1 y t2, tr = t1 ++ t2 /\ exec p t1 x /\ exec d t2 y /\ r = match y with V _ => x | X e => X e end.
Proof.
  unfold pfinally. rewrite exec_ptry. split.
  - intros (x & t1 & t2 & -> & H1 & H2). apply exec_ptry in H2 as (y & t3 & t4 & -> & H3 & H4).
    exists x, t1, y, t3. destruct y; apply exec_Ret in H4 as [-> ->]; rewrite app_nil_r; auto.
  - intros (x & t1 & y & t2 & -> & H1 & H2 & ->). exists x, t1, t2. split; [auto|]. split; [auto|].
    apply exec_ptry. exists y, t2, []. rewrite app_nil_r. split; [auto|]. split; [auto|].
    destruct y; apply exec_Ret; auto.
Qed.

(** A program is determined by the outcomes of its calls. *)
Lemma observe_inj {T} (e : eff T) x y : observe e x = observe e y -> x = y.
Proof. destruct e; simpl; intros H; congruence. Qed.
Lemma exec_prefix {A} (p : prog A) : forall t1 t2 x y, exec p t1 x -> exec p (t1 ++ t2) y -> t2 = [] /\ x = y.
Proof.
  induction p as [r | T e k IH]; intros t1 t2 x y H1 H2.
  - apply exec_Ret in H1 as [-> ->]. apply exec_Ret in H2 as [H2 ->]. auto.
  - apply exec_Do in H1 as (a & t3 & -> & H1). apply exec_Do in H2 as (b & t4 & E & H2). cbn [app] in E. injection E as E1 E2.
    apply observe_inj in E1. subst b. subst t4. eapply IH; eauto.
Qed.
Lemma exec_det {A} (p : prog A) tr x y : exec p tr x -> exec p tr y -> x = y.
Proof. intros H1 H2. rewrite <- (app_nil_r tr) in H2. eapply exec_prefix; eauto. Qed.

(** Every program ends, whatever the application answers; a prefix of an execution can be continued. *)
Lemma exec_exists {A} (p : prog A) : exists tr r, exec p tr r.
Proof.
  induction p as [x | T e k IH].
  - exists [], x. apply exec_Ret. auto.
  - destruct (IH (X (Py RuntimeError))) as (tr & r & H). eexists _, r. apply exec_Do. eauto.
Qed.

Lemma run_exec {S A} (H : handler S) (p : prog A) : forall s tr r s', run H p s = (tr, r, s') -> exec p tr r.
Proof.
  induction p as [x | T e k IH]; intros s tr r s' E; simpl in E.
  - apply exec_Ret. split; congruence.
  - destruct (H T e s) as [x s1] eqn:EH. destruct (run H (k x) s1) as [[tr1 r1] s2] eqn:ER.
    injection E as <- <- <-. apply exec_Do. exists x, tr1. split; [auto|]. eapply IH; eauto.
Qed.

Lemma lift_V {A} (r : result A) a : lift r = V a <-> r = Ok a.
Proof. destruct r; simpl; split; congruence. Qed.
Lemma lift_X {A} (r : result A) e : lift r = X e <-> exists x, e = Py x /\ r = Err x.
Proof. destruct r; simpl; split; intros H; try congruence; [destruct H as (x & _ & H); congruence | exists e0; split; congruence | destruct H as (x & -> & H); congruence]. Qed.
Lemma lift_OA {A} (r : result A) e : lift r <> X (OA e).
Proof. destruct r; simpl; congruence. Qed.
Lemma vbind_V {A B} (r : res A) (f : A -> res B) b : vbind r f = V b <-> exists a, r = V a /\ f a = V b.
Proof. destruct r; simpl; split; intros H; eauto; try congruence; destruct H as (x & E & H); congruence. Qed.
Lemma vbind_X {A B} (r : res A) (f : A -> res B) e : vbind r f = X e <-> r = X e \/ exists a, r = V a /\ f a = X e.
Proof.
  destruct r; simpl; split; intros H; eauto.
  - destruct H as [H | (x & E & H)]; congruence.
  - left; congruence.
  - destruct H as [H | (x & E & H)]; congruence.
Qed.
