(** Histories of the reference run: sequential, with a crash, and with a race. *)
From Coq Require Import String Ascii List NArith ZArith Bool Arith.
From Verif Require Import Base BaseFacts Webtools Crypto RefCrypto Jwk Prog ProgFacts Http OAuth SpecOAuth SpecHistory Example ExampleFacts Race OAuthRef OAuthWit HistoryFacts StoreFacts.
Import ListNotations.

Definition inc (s : service) (r : request) : incoming := {| in_service := s; in_provider := prov; in_hooks := oidc; in_request := r |}.
Definition answer_of (x : res response) : option response := match x with V r => Some r | X _ => None end.

(** One request after the other: the code is given, exchanged, and refused the second time. *)
Definition run2b := go (token_endpoint ref_env prov oidc (code_req the_code)) (world_of run2).
Definition history : list event :=
  [{| ev_in := inc Authorize authz_req; ev_calls := trace_of run1; ev_answer := answer_of (result_of run1) |};
   {| ev_in := inc Token (code_req the_code); ev_calls := trace_of run2; ev_answer := answer_of (result_of run2) |};
   {| ev_in := inc Token (code_req the_code); ev_calls := trace_of run2b; ev_answer := answer_of (result_of run2b) |}].
Lemma run1_served : served ref_env (inc Authorize authz_req) (trace_of run1) (answer_of (result_of run1)).
Proof. exists (result_of run1). split; [unfold run1; apply go_exec|reflexivity]. Qed.
Lemma token_served w : served ref_env (inc Token (code_req the_code)) (trace_of (go (token_endpoint ref_env prov oidc (code_req the_code)) w))
  (answer_of (result_of (go (token_endpoint ref_env prov oidc (code_req the_code)) w))).
Proof. exists (result_of (go (token_endpoint ref_env prov oidc (code_req the_code)) w)). split; [apply go_exec|reflexivity]. Qed.
Lemma history_seq : sequential ref_env history.
Proof.
  unfold history. constructor; [exact run1_served|]. constructor; [exact (token_served (world_of run1))|]. constructor; [exact (token_served (world_of run2))|]. constructor.
Qed.
Lemma go_steps {A} (p : prog A) w : ex_steps light false (w_store w) (trace_of (go p w)) (w_store (world_of (go p w))).
Proof. unfold go, trace_of, world_of. destruct (run _ p w) as [[tr r] w'] eqn:H. cbn [fst snd]. eapply run_ex_steps. exact H. Qed.
Lemma three_calls q1 t1 a1 q2 t2 a2 q3 t3 a3 : all_calls [{| ev_in := q1; ev_calls := t1; ev_answer := a1 |}; {| ev_in := q2; ev_calls := t2; ev_answer := a2 |};
  {| ev_in := q3; ev_calls := t3; ev_answer := a3 |}] = t1 ++ t2 ++ t3.
Proof. unfold all_calls. cbn [flat_map ev_calls]. rewrite app_nil_r. reflexivity. Qed.
Lemma three_steps C aware t1 t2 t3 s s1 s2 s3 : ex_steps C aware s t1 s1 -> ex_steps C aware s1 t2 s2 -> ex_steps C aware s2 t3 s3 -> ex_steps C aware s (t1 ++ t2 ++ t3) s3.
Proof. intros H1 H2 H3. apply ex_steps_app. exists s1. split; [exact H1|]. apply ex_steps_app. exists s2. auto. Qed.
Lemma run1_steps : ex_steps light false store0 (trace_of run1) (w_store (world_of run1)).
Proof. exact (go_steps (authorization_endpoint ref_env prov oidc authz_req) world0). Qed.
Lemma run2_steps : ex_steps light false (w_store (world_of run1)) (trace_of run2) (w_store (world_of run2)).
Proof. exact (go_steps (token_endpoint ref_env prov oidc (code_req the_code)) (world_of run1)). Qed.
Lemma run2b_steps : ex_steps light false (w_store (world_of run2)) (trace_of run2b) (w_store (world_of run2b)).
Proof. exact (go_steps (token_endpoint ref_env prov oidc (code_req the_code)) (world_of run2)). Qed.
Lemma history_steps : exists s, ex_steps light false store0 (all_calls history) s.
Proof. exists (w_store (world_of run2b)). unfold history. rewrite three_calls. exact (three_steps _ _ _ _ _ _ _ _ _ run1_steps run2_steps run2b_steps). Qed.
Lemma history_honours : honours (all_calls history).
Proof. destruct history_steps as [s H]. eapply p_example_honours; [exact H|reflexivity]. Qed.
Lemma history_exchanges : exchanges the_code history = 1%nat.
Proof. wit. Qed.
Lemma history_fresh : fresh the_code (all_calls history).
Proof. unfold fresh. assert (E : count (saves_code the_code) (all_calls history) = 1%nat) by wit. rewrite E. auto. Qed.

(** A race: the second request looks the code up before the first deletes it. *)
Definition token_prog : prog response := token_endpoint ref_env prov oidc (code_req the_code).
Definition schedule : list bool := repeat true 5 ++ repeat false 5 ++ repeat true 20 ++ repeat false 20.
Definition the_race := race (ex_handler light false) schedule token_prog token_prog (world_of run1).
Definition race_log : list (bool * obs) := fst (fst (fst the_race)).
Definition race_left : prog response := snd (fst (fst the_race)).
Definition race_right : prog response := snd (fst the_race).
Definition race_world : world := snd the_race.
Definition outcome {A} (p : prog A) : option (res A) := match p with Ret x => Some x | Do _ _ => None end.
Lemma outcome_exec {A} (p : prog A) x : outcome p = Some x -> exec p [] x.
Proof. destruct p; [|discriminate]. intros [= <-]. apply exec_Ret. auto. Qed.
Definition race_answer (p : prog response) : option response := match outcome p with Some x => answer_of x | None => None end.
Definition race_out (p : prog response) : response := match outcome p with Some x => response_of x | None => response_of (X (Py TypeError)) end.
Lemma filter_map {A B} (f : A -> B) g l : filter g (map f l) = map f (filter (fun x => g (f x)) l).
Proof. induction l as [|x l IH]; [reflexivity|]. cbn [map filter]. destruct (g (f x)); cbn [map]; rewrite IH; reflexivity. Qed.
Lemma filter_none {A} (f : A -> bool) l : (forall x, f x = false) -> filter f l = [].
Proof. intros H. induction l as [|x l IH]; [reflexivity|]. cbn [filter]. rewrite H. auto. Qed.
Lemma calls_of_tag n m (tr : list obs) : calls_of n (map (fun o => (m, o)) tr) = if Nat.eqb m n then tr else [].
Proof.
  unfold calls_of. rewrite filter_map. cbn [fst]. destruct (Nat.eqb m n).
  - rewrite filter_all by (apply Forall_forall; auto). rewrite map_map. apply map_id.
  - rewrite filter_none by auto. reflexivity.
Qed.
Lemma calls_of_app n a b : calls_of n (a ++ b) = calls_of n a ++ calls_of n b.
Proof. unfold calls_of. rewrite filter_app, map_app. reflexivity. Qed.
Lemma calls_of_race n (log : list (bool * obs)) : calls_of n (map (fun x : bool * obs => (if fst x then 1%nat else 2%nat, snd x)) log) =
  match n with 1%nat => side true log | 2%nat => side false log | _ => [] end.
Proof.
  unfold calls_of, side. induction log as [|[[] o] log IH]; [destruct n as [|[|[|]]]; reflexivity| |];
    cbn [map filter fst snd]; destruct n as [|[|[|]]]; cbn [Nat.eqb Bool.eqb map filter fst snd] in *; rewrite IH; reflexivity.
Qed.
Lemma race_runs : exists xl xr, outcome race_left = Some (V xl) /\ outcome race_right = Some (V xr) /\ rs_status xl = 200%N /\ rs_status xr = 200%N /\
  member "access_token" (json_loads (rs_body xl)) <> member "access_token" (json_loads (rs_body xr)).
Proof.
  exists (race_out race_left), (race_out race_right).
  split; [wit|]. split; [wit|]. split; [wit|]. split; [wit|]. vm_compute. discriminate.
Qed.
Definition tagged (t0 : list obs) (log : list (bool * obs)) : list (nat * obs) :=
  map (fun o => (0%nat, o)) t0 ++ map (fun x : bool * obs => (if fst x then 1%nat else 2%nat, snd x)) log.
Lemma tagged_In t0 log n o : In (n, o) (tagged t0 log) -> (n < 3)%nat.
Proof.
  intros H. unfold tagged in H. apply in_app_iff in H as [H|H]; apply in_map_iff in H as (x & E & _); injection E as <- _; [auto|]. destruct (fst x); auto.
Qed.
Lemma tagged_calls t0 log n : calls_of n (tagged t0 log) = match n with 0%nat => t0 | 1%nat => side true log | 2%nat => side false log | _ => [] end.
Proof. unfold tagged. rewrite calls_of_app, calls_of_tag, calls_of_race. destruct n as [|[|[|]]]; cbn [Nat.eqb app]; auto. apply app_nil_r. Qed.
Lemma tagged_interleaved E q0 t0 a0 q1 a1 q2 a2 log : served E q0 t0 a0 -> served E q1 (side true log) a1 -> served E q2 (side false log) a2 ->
  interleaved E [(q0, a0); (q1, a1); (q2, a2)] (tagged t0 log).
Proof.
  intros H0 H1 H2. split.
  - intros n o H. apply tagged_In in H. destruct n as [|[|[|n]]]; [eexists; reflexivity| eexists; reflexivity | eexists; reflexivity |].
    do 3 apply Nat.succ_lt_mono in H. inversion H.
  - intros n q a H. rewrite tagged_calls. destruct n as [|[|[|n]]]; cbn [nth_error] in H; [| | |destruct n; discriminate]; injection H as <- <-; assumption.
Qed.
Lemma tagged_steps C aware s t0 s1 log s2 : ex_steps C aware s t0 s1 -> ex_steps C aware s1 (map snd log) s2 -> ex_steps C aware s (map snd (tagged t0 log)) s2.
Proof.
  intros H0 H1. unfold tagged. rewrite map_app, !map_map. cbn [snd]. rewrite map_id. apply ex_steps_app. exists s1. auto.
Qed.
Lemma race_served_left E r H sched (p q : prog response) (s : world) rc pl log0 xl : p = token_endpoint E prov oidc r -> rc = race H sched p q s ->
  pl = snd (fst (fst rc)) -> log0 = fst (fst (fst rc)) -> outcome pl = Some (V xl) -> served E (inc Token r) (side true log0) (Some xl).
Proof.
  intros -> -> -> ->. destruct (race H sched _ q s) as [[[log p'] q'] s'] eqn:Hr. cbn [fst snd]. intros Ho. apply race_exec in Hr as [Hl _]. exists (V xl). split; [|reflexivity].
  cbn [in_provider in_hooks in_request inc]. rewrite <- (app_nil_r (side true log)). apply Hl. apply outcome_exec. exact Ho.
Qed.
Lemma race_served_right E r H sched (p q : prog response) (s : world) rc pr log0 xr : q = token_endpoint E prov oidc r -> rc = race H sched p q s ->
  pr = snd (fst rc) -> log0 = fst (fst (fst rc)) -> outcome pr = Some (V xr) -> served E (inc Token r) (side false log0) (Some xr).
Proof.
  intros -> -> -> ->. destruct (race H sched p _ s) as [[[log p'] q'] s'] eqn:Hr. cbn [fst snd]. intros Ho. apply race_exec in Hr as [_ Hl]. exists (V xr). split; [|reflexivity].
  cbn [in_provider in_hooks in_request inc]. rewrite <- (app_nil_r (side false log)). apply Hl. apply outcome_exec. exact Ho.
Qed.
Lemma token_prog_eq : token_prog = token_endpoint ref_env prov oidc (code_req the_code). Proof. unfold token_prog. reflexivity. Qed.
Lemma the_race_eq : the_race = race (ex_handler light false) schedule token_prog token_prog (world_of run1). Proof. unfold the_race. reflexivity. Qed.
Lemma race_left_eq : race_left = snd (fst (fst the_race)). Proof. unfold race_left. reflexivity. Qed.
Lemma race_right_eq : race_right = snd (fst the_race). Proof. unfold race_right. reflexivity. Qed.
Lemma race_log_eq : race_log = fst (fst (fst the_race)). Proof. unfold race_log. reflexivity. Qed.
Lemma race_world_eq : race_world = snd the_race. Proof. unfold race_world. reflexivity. Qed.
(** The log of the whole history: request 0 is the authorization, requests 1 and 2 are the exchanges. *)
Definition full_log : list (nat * obs) := tagged (trace_of run1) race_log.
Lemma full_log_eq : full_log = tagged (trace_of run1) race_log. Proof. unfold full_log. reflexivity. Qed.
Lemma raced_interleaved xl xr : outcome race_left = Some (V xl) -> outcome race_right = Some (V xr) -> interleaved ref_env
  [(inc Authorize authz_req, answer_of (result_of run1)); (inc Token (code_req the_code), Some xl); (inc Token (code_req the_code), Some xr)] full_log.
Proof.
  intros El Er.
  pose proof (race_served_left ref_env (code_req the_code) (ex_handler light false) schedule token_prog token_prog (world_of run1) the_race race_left race_log xl token_prog_eq the_race_eq race_left_eq race_log_eq El) as H1.
  pose proof (race_served_right ref_env (code_req the_code) (ex_handler light false) schedule token_prog token_prog (world_of run1) the_race race_right race_log xr token_prog_eq the_race_eq race_right_eq race_log_eq Er) as H2.
  rewrite full_log_eq. exact (tagged_interleaved ref_env (inc Authorize authz_req) (trace_of run1) (answer_of (result_of run1)) (inc Token (code_req the_code)) (Some xl)
    (inc Token (code_req the_code)) (Some xr) race_log run1_served H1 H2).
Qed.
Lemma race_steps_at C aware sched (p q : prog response) w rc log0 w0 : rc = race (ex_handler C aware) sched p q w -> log0 = fst (fst (fst rc)) -> w0 = snd rc ->
  ex_steps C aware (w_store w) (map snd log0) (w_store w0).
Proof. intros -> -> ->. destruct (race _ sched p q w) as [[[log p'] q'] w'] eqn:Hr. cbn [fst snd]. eapply race_steps. exact Hr. Qed.
Lemma raced_steps : ex_steps light false store0 (map snd full_log) (w_store race_world).
Proof.
  pose proof (race_steps_at light false schedule token_prog token_prog (world_of run1) the_race race_log race_world the_race_eq race_log_eq race_world_eq) as H.
  rewrite full_log_eq. exact (tagged_steps light false store0 (trace_of run1) (w_store (world_of run1)) race_log (w_store race_world) run1_steps H).
Qed.
Lemma raced_fresh : fresh the_code (map snd full_log).
Proof. unfold fresh. assert (E : count (saves_code the_code) (map snd full_log) = 1%nat) by wit. rewrite E. auto. Qed.
(** C53: both requests get a token for the one code. *)
Lemma wit_race : exists q0 a0 q1 x1 q2 x2 log s, interleaved ref_env [(q0, a0); (q1, Some x1); (q2, Some x2)] log /\
  ex_steps light false store0 (map snd log) s /\ honours (map snd log) /\ fresh the_code (map snd log) /\
  exchanged the_code q1 (Some x1) = true /\ exchanged the_code q2 (Some x2) = true /\
  member "access_token" (json_loads (rs_body x1)) <> member "access_token" (json_loads (rs_body x2)).
Proof.
  destruct race_runs as (xl & xr & El & Er & Sl & Sr & Hne). pose proof (raced_interleaved _ _ El Er) as Hi.
  assert (Hg : match lookup (lit "grant_type") (rq_data (code_req the_code)), lookup (lit "code") (rq_data (code_req the_code)) with
      | Some g, Some k => eqs g (lit "authorization_code") && eqs k the_code | _, _ => false end = true) by wit.
  exists (inc Authorize authz_req), (answer_of (result_of run1)), (inc Token (code_req the_code)), xl, (inc Token (code_req the_code)), xr, full_log, (w_store race_world).
  split; [exact Hi|]. split; [exact raced_steps|]. split; [exact (p_example_honours _ _ _ _ _ raced_steps eq_refl)|]. split; [exact raced_fresh|].
  split. { unfold exchanged. cbn [in_service in_request inc]. rewrite Hg, Sl. reflexivity. }
  split; [|exact Hne]. unfold exchanged. cbn [in_service in_request inc]. rewrite Hg, Sr. reflexivity.
Qed.

(** C54: the process stops after create_access_token, and the code is exchanged again. *)
Definition crash := race (ex_handler light false) (repeat true 6) token_prog (Ret (V tt)) (world_of run1).
Definition crash_calls : list obs := map snd (fst (fst (fst crash))).
Definition crash_world : world := snd crash.
Definition run2c := go (token_endpoint ref_env prov oidc (code_req the_code)) crash_world.
Definition crashed : list event :=
  [{| ev_in := inc Authorize authz_req; ev_calls := trace_of run1; ev_answer := answer_of (result_of run1) |};
   {| ev_in := inc Token (code_req the_code); ev_calls := crash_calls; ev_answer := None |};
   {| ev_in := inc Token (code_req the_code); ev_calls := trace_of run2c; ev_answer := answer_of (result_of run2c) |}].

Lemma crash_eq : crash = race (ex_handler light false) (repeat true 6) token_prog (Ret (V tt)) (world_of run1). Proof. unfold crash. reflexivity. Qed.
Lemma crash_world_eq : crash_world = snd crash. Proof. unfold crash_world. reflexivity. Qed.
Definition crash_log : list (bool * obs) := fst (fst (fst crash)).
Lemma crash_log_eq : crash_log = fst (fst (fst crash)). Proof. unfold crash_log. reflexivity. Qed.
Lemma crash_side : side true crash_log = crash_calls. Proof. wit. Qed.
Lemma crash_map : crash_calls = map snd crash_log. Proof. unfold crash_calls, crash_log. reflexivity. Qed.
Lemma race_stopped E r H sched (p : prog response) (q : prog unit) (s : world) rc log0 : p = token_endpoint E prov oidc r -> rc = race H sched p q s ->
  log0 = fst (fst (fst rc)) -> stopped E (inc Token r) (side true log0).
Proof.
  intros -> -> ->. destruct (race H sched _ q s) as [[[log p'] q'] s'] eqn:Hr. cbn [fst snd]. apply race_exec in Hr as [Hl _].
  destruct (exec_exists p') as (t & x & Hx). exists t, (answer_of x). exists x. split; [|reflexivity]. apply Hl. exact Hx.
Qed.
Lemma crash_steps_at C aware sched (p : prog response) (q : prog unit) w rc log0 w0 : rc = race (ex_handler C aware) sched p q w -> log0 = fst (fst (fst rc)) -> w0 = snd rc ->
  ex_steps C aware (w_store w) (map snd log0) (w_store w0).
Proof. intros -> -> ->. destruct (race _ sched p q w) as [[[log p'] q'] w'] eqn:Hr. cbn [fst snd]. eapply race_steps. exact Hr. Qed.
Lemma crash_steps : ex_steps light false (w_store (world_of run1)) crash_calls (w_store crash_world).
Proof.
  pose proof (crash_steps_at light false (repeat true 6) token_prog (Ret (V tt)) (world_of run1) crash crash_log crash_world crash_eq crash_log_eq crash_world_eq) as H.
  rewrite crash_map. exact H.
Qed.
Lemma run2c_steps : ex_steps light false (w_store crash_world) (trace_of run2c) (w_store (world_of run2c)).
Proof. exact (go_steps (token_endpoint ref_env prov oidc (code_req the_code)) crash_world). Qed.
Lemma crashed_steps : ex_steps light false store0 (all_calls crashed) (w_store (world_of run2c)).
Proof. unfold crashed. rewrite three_calls. exact (three_steps _ _ _ _ _ _ _ _ _ run1_steps crash_steps run2c_steps). Qed.
Lemma crashed_ok : with_crashes ref_env crashed.
Proof.
  unfold crashed. constructor; [left; exact run1_served|]. constructor; [right; cbn [ev_answer ev_calls ev_in]; split; [|reflexivity]|].
  - rewrite <- crash_side. exact (race_stopped ref_env (code_req the_code) (ex_handler light false) (repeat true 6) token_prog (Ret (V tt)) (world_of run1) crash crash_log token_prog_eq crash_eq crash_log_eq).
  - constructor; [left; exact (token_served crash_world)|]. constructor.
Qed.
Definition access_tokens (tr : list obs) : list str := flat_map (fun o => match o with OCreateAT _ _ _ (V a) => [a] | _ => [] end) tr.
Lemma wit_crash : exists l s, with_crashes ref_env l /\ ex_steps light false store0 (all_calls l) s /\ honours (all_calls l) /\ fresh the_code (all_calls l) /\
  exchanges the_code l = 1%nat /\ exists a1 a2, access_tokens (all_calls l) = [a1; a2] /\ a1 <> a2.
Proof.
  exists crashed, (w_store (world_of run2c)). split; [exact crashed_ok|]. split; [exact crashed_steps|]. split; [exact (p_example_honours _ _ _ _ _ crashed_steps eq_refl)|].
  split. { unfold fresh. assert (E : count (saves_code the_code) (all_calls crashed) = 1%nat) by wit. rewrite E. auto. }
  split; [wit|]. exists (nth 0 (access_tokens (all_calls crashed)) []), (nth 1 (access_tokens (all_calls crashed)) []). split; [wit|]. vm_compute. discriminate.
Qed.
