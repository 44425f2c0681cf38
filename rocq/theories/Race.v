(** Running two programs against one application with a given schedule, for the examples about concurrency
    and crashes. *)
From Coq Require Import String Ascii List NArith ZArith Bool Arith.
From Verif Require Import Base BaseFacts Jwk Crypto Prog ProgFacts Example ExampleFacts.
Import ListNotations.

Fixpoint race {S A B} (H : handler S) (sched : list bool) (p : prog A) (q : prog B) (s : S) : list (bool * obs) * prog A * prog B * S :=
  match sched with
  | [] => ([], p, q, s)
  | true :: sched =>
      match p with
      | Ret _ => race H sched p q s
      | Do e k => let (x, s1) := H _ e s in
                  let '(log, p', q', s2) := race H sched (k x) q s1 in ((true, observe e x) :: log, p', q', s2)
      end
  | false :: sched =>
      match q with
      | Ret _ => race H sched p q s
      | Do e k => let (x, s1) := H _ e s in
                  let '(log, p', q', s2) := race H sched p (k x) s1 in ((false, observe e x) :: log, p', q', s2)
      end
  end.
Definition side (b : bool) (log : list (bool * obs)) : list obs := map snd (filter (fun x => Bool.eqb (fst x) b) log).
Lemma race_exec {S A B} (H : handler S) sched : forall (p : prog A) (q : prog B) s log p' q' s', race H sched p q s = (log, p', q', s') ->
  (forall t x, exec p' t x -> exec p (side true log ++ t) x) /\ (forall t x, exec q' t x -> exec q (side false log ++ t) x).
Proof.
  induction sched as [|[|] sched IH]; intros p q s log p' q' s' E; cbn [race] in E.
  - injection E as <- <- <- <-. auto.
  - destruct p as [r|T e k]; [eapply IH; eauto|]. destruct (H T e s) as [x s1]. destruct (race H sched (k x) q s1) as [[[l p1] q1] s2] eqn:Er.
    injection E as <- <- <- <-. apply IH in Er as [H1 H2]. unfold side in *. cbn [filter fst Bool.eqb map app]. split; [|auto].
    intros t y Hy. apply exec_Do. exists x, (map snd (filter (fun z => Bool.eqb (fst z) true) l) ++ t). auto.
  - destruct q as [r|T e k]; [eapply IH; eauto|]. destruct (H T e s) as [x s1]. destruct (race H sched p (k x) s1) as [[[l p1] q1] s2] eqn:Er.
    injection E as <- <- <- <-. apply IH in Er as [H1 H2]. unfold side in *. cbn [filter fst Bool.eqb map app]. split; [auto|].
    intros t y Hy. apply exec_Do. exists x, (map snd (filter (fun z => Bool.eqb (fst z) false) l) ++ t). auto.
Qed.
Lemma race_steps C aware {A B} sched : forall (p : prog A) (q : prog B) w log p' q' w', race (ex_handler C aware) sched p q w = (log, p', q', w') ->
  ex_steps C aware (w_store w) (map snd log) (w_store w').
Proof.
  induction sched as [|[|] sched IH]; intros p q w log p' q' w' E; cbn [race] in E.
  - injection E as <- <- <- <-. constructor.
  - destruct p as [r|T e k]; [eapply IH; eauto|]. unfold ex_handler in E at 1. destruct (ex_do C aware (w_choice w) e (w_store w)) as [x s] eqn:Ee.
    destruct (race _ sched (k x) q _) as [[[l p1] q1] s2] eqn:Er. injection E as <- <- <- <-. apply IH in Er. cbn [map snd]. eapply ex_cons; [|exact Er].
    pose proof (ex_ok C aware (w_choice w) T e (w_store w)) as Hs. rewrite Ee in Hs. exact Hs.
  - destruct q as [r|T e k]; [eapply IH; eauto|]. unfold ex_handler in E at 1. destruct (ex_do C aware (w_choice w) e (w_store w)) as [x s] eqn:Ee.
    destruct (race _ sched p (k x) _) as [[[l p1] q1] s2] eqn:Er. injection E as <- <- <- <-. apply IH in Er. cbn [map snd]. eapply ex_cons; [|exact Er].
    pose proof (ex_ok C aware (w_choice w) T e (w_store w)) as Hs. rewrite Ee in Hs. exact Hs.
Qed.
