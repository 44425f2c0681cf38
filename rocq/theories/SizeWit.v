(** Many codes and many sessions of one user, for the refutations of C177. *)
From Coq Require Import String Ascii List NArith ZArith Bool Arith Lia ZifyNat ZifyN.
From Verif Require Import Base BaseFacts SpecReaders Webtools Crypto Jwk Prog Http OAuth SpecOAuth Example OAuthRef OAuthWit FlowWit SpecLife App SpecApp AppFacts AppWit LifeWit KeepWit WhoWit SpecSound SoundFacts SoundWit SpecSize SizeFacts.
Import ListNotations.
Open Scope string_scope.
Open Scope list_scope.
Open Scope N_scope.

(** Different tokens of a given length *)
Definition nth_token (size : nat) (i : nat) : str := map (fun j => if N.testbit (N.of_nat i) (N.of_nat j) then 49 else 48) (seq 0 size).
Lemma nth_token_length size i : length (nth_token size i) = size.
Proof. unfold nth_token. rewrite map_length, seq_length. reflexivity. Qed.
Lemma map_eq_in {A B} (f g : A -> B) l : map f l = map g l -> forall x, In x l -> f x = g x.
Proof. induction l as [|y l IH]; intros H x; [intros []|]. cbn [map] in H. injection H as H1 H2. intros [<-|Hi]; auto. Qed.
Lemma high_bits n size j : n < 2 ^ size -> size <= j -> N.testbit n j = false.
Proof.
  intros Hn Hj. destruct (N.eq_dec n 0) as [->|Hz]; [apply N.bits_0|]. apply N.bits_above_log2. apply N.log2_lt_pow2 in Hn; lia.
Qed.
Lemma nth_token_inj size i j : N.of_nat i < 2 ^ N.of_nat size -> N.of_nat j < 2 ^ N.of_nat size -> nth_token size i = nth_token size j -> i = j.
Proof.
  intros Hi Hj H. apply Nat2N.inj, N.bits_inj. intros k. destruct (N.lt_ge_cases k (N.of_nat size)) as [Hk|Hk]; [|rewrite (high_bits _ _ _ Hi Hk), (high_bits _ _ _ Hj Hk); reflexivity].
  pose proof (map_eq_in _ _ _ H (N.to_nat k)) as He. cbv beta in He. rewrite N2Nat.id in He. specialize (He ltac:(apply in_seq; lia)).
  destruct (N.testbit (N.of_nat i) k), (N.testbit (N.of_nat j) k); auto; discriminate.
Qed.

(** ** Codes *)
Definition code_no (i : nat) : str := nth_token 64 i.
Definition with_session (cs : list (str * auth_code)) : tables :=
  {| tb_store := set_codes cs store0; tb_sessions := [(lit "tok2", lit "alice")]; tb_accounts := tb_accounts tables0 |}.
Definition authz : page * App.web := (AuthorizePage, authz_visit "GET" cookie1).
(** What the data base answers when the code is [code] *)
Definition authz_answers (code : str) : forall T, aeff T -> res T := fun T e =>
  match e in aeff T return res T with
  | GetSession _ _ => V (Some (Some alice))
  | Lib e => match e in eff T return res T with
             | FindClient _ => V (Some OAuthRef.web)
             | SecretToken _ => V code
             | SaveCode _ _ _ _ => V tt
             | _ => X (Py KeyError)
             end
  | _ => X (Py KeyError)
  end.
Definition authz_calls (code : str) : list aobs := first_calls 4 (authz_answers code) (application ref_env prov oidc (fst authz) (snd authz)).
Definition saved_data : auth_data := match authz_calls [] with [_; _; _; OLib (OSaveCode _ ad _ _ _)] => ad | _ => {| ad_redirect := []; ad_scopes := []; ad_challenge := []; ad_method := []; ad_state := None; ad_nonce := None |} end.
Lemma authz_calls_are code : authz_calls code =
  [OGetSession (lit "tok2") (lit "alice") (V (Some (Some alice))); OLib (OFindClient (lit "web") (V (Some OAuthRef.web))); OLib (OSecretToken 64 (V code)); OLib (OSaveCode code saved_data OAuthRef.web alice (V tt))].
Proof. vm_compute. reflexivity. Qed.
Definition at_start (code : str) : choice := {| ch_now := 1700000000000000; ch_off := 0; ch_token := code; ch_rand := [] |}.
Lemma step_of C aware ch T (e : aeff T) t x t' : app_do C aware ch e t = (x, t') -> app_step C aware t (aobserve e x) t'.
Proof. intros H. pose proof (app_ok C aware ch T e t) as Hs. rewrite H in Hs. exact Hs. Qed.
Definition saved_row : auth_code :=
  {| ac_client := lit "web"; ac_user := lit "alice"; ac_redirect := ad_redirect saved_data; ac_scopes := ad_scopes saved_data; ac_challenge := ad_challenge saved_data;
     ac_method := ad_method saved_data; ac_nonce := ad_nonce saved_data; ac_exp := Naive (1700000000000000 + 86400000000) |}.
Lemma authz_steps code cs : has code cs = false -> app_steps light false (with_session cs) (authz_calls code) (with_session ((code, saved_row) :: cs)).
Proof.
  intros Hh. rewrite authz_calls_are.
  econstructor; [exact (step_of light false (at_start code) _ (GetSession (lit "tok2") (lit "alice")) (with_session cs) _ _ eq_refl)|].
  econstructor; [exact (step_of light false (at_start code) _ (Lib (FindClient (lit "web"))) (with_session cs) _ _ eq_refl)|].
  econstructor; [exact (step_of light false (at_start code) _ (Lib (SecretToken 64)) (with_session cs) _ _ eq_refl)|].
  econstructor; [|constructor].
  apply (step_of light false (at_start code) _ (Lib (SaveCode code saved_data OAuthRef.web alice)) (with_session cs)).
  cbn [app_do ex_do]. unfold with_session at 1. cbn [tb_store]. replace (ad_nonce saved_data) with (Some (match ad_nonce saved_data with Some n => n | None => [] end)) by (vm_compute; reflexivity).
  cbn [set_codes st_codes]. rewrite Hh. unfold saved_row, with_session, set_store, set_codes, at_start. cbn [tb_store tb_sessions tb_accounts st_codes st_clients st_users st_rts ch_now].
  replace (ad_nonce saved_data) with (Some (match ad_nonce saved_data with Some n => n | None => [] end)) by (vm_compute; reflexivity). reflexivity.
Qed.
Fixpoint many_codes (n : nat) : list (str * auth_code) := match n with O => [] | S n => (code_no n, saved_row) :: many_codes n end.
Lemma many_fresh n : N.of_nat n < 2 ^ 64 -> forall m, (m <= n)%nat -> has (code_no n) (many_codes m) = false.
Proof.
  intros Hb. induction m as [|m IH]; intros Hm; [reflexivity|]. unfold has in *. cbn [many_codes lookup]. destruct (eqs_spec (code_no n) (code_no m)) as [He|_]; [apply (nth_token_inj 64) in He; [lia|exact Hb|change (N.of_nat m < 2 ^ 64); lia]|]. apply IH. lia.
Qed.
Definition code_log (n : nat) : list (nat * aobs) := calls_in_turn (fun i => authz_calls (code_no i)) n.
Lemma code_steps : forall n, N.of_nat n <= 2 ^ 64 -> app_steps light false (with_session []) (map snd (code_log n)) (with_session (many_codes n)).
Proof.
  intros n. unfold code_log. rewrite turn_snd. induction n as [|n IH]; intros Hb; [constructor|]. rewrite seq_S, flat_map_app. apply app_steps_app. exists (with_session (many_codes n)). split; [apply IH; lia|].
  cbn [flat_map Nat.add]. rewrite app_nil_r. apply authz_steps. apply many_fresh; lia.
Qed.
Lemma code_running n : app_running ref_env prov oidc (repeat authz n) (code_log n).
Proof.
  split.
  - intros i o H. apply turn_In in H. exists authz. apply nth_error_repeat. exact H.
  - intros i g w H. pose proof (nth_error_In _ _ H) as Hin. apply repeat_spec in Hin. injection Hin as -> ->. unfold code_log. rewrite turn_calls.
    replace (i <? n)%nat with true by (symmetry; apply Nat.ltb_lt; rewrite <- (repeat_length authz n); apply nth_error_Some; rewrite H; discriminate). apply first_calls_exec.
Qed.
Lemma session_start scopes : consistent scopes (with_session []) /\ set_up (with_session []).
Proof.
  split; [|exact sound_set_up]. do 3 (split; [constructor|]). split; [constructor; [intros []|constructor]|]. split; [intros k row []|]. split; [intros k row []|].
  intros sid uid [[= <- <-]|[]]. exists alice. split; [left; reflexivity|reflexivity].
Qed.
Theorem c177_codes : forall n, N.of_nat n <= 2 ^ 64 -> exists qs log t0 t, app_running ref_env prov oidc qs log /\ app_steps light false t0 (map snd log) t /\
  set_up t0 /\ consistent (cf_scopes (pv_config prov)) t0 /\ st_codes (tb_store t0) = [] /\
  length (st_codes (tb_store t)) = n /\ forall k row, In (k, row) (st_codes (tb_store t)) -> length k = 64%nat /\ ac_client row = lit "web" /\ ac_user row = lit "alice".
Proof.
  intros n Hb. exists (repeat authz n), (code_log n), (with_session []), (with_session (many_codes n)). split; [apply code_running|]. split; [apply code_steps; exact Hb|].
  split; [apply (session_start [])|]. split; [apply session_start|]. split; [reflexivity|]. cbn [with_session tb_store set_codes st_codes].
  assert (Hl : length (many_codes n) = n) by (clear; induction n; cbn [many_codes length]; congruence). split; [exact Hl|].
  clear. induction n as [|n IH]; cbn [many_codes]; intros k row; [intros []|]. intros [[= <- <-]|H]; [split; [apply nth_token_length|split; reflexivity]|exact (IH _ _ H)].
Qed.

(** ** Sessions *)
Definition session_no (i : nat) : str := nth_token 32 i.
Definition login : page * App.web := login_again.
Definition login_answers (sid : str) : forall T, aeff T -> res T := fun T e =>
  match e in aeff T return res T with
  | FindAccount _ => V (hd_error (tb_accounts tables0))
  | UserSession _ => V None
  | SessionToken => V sid
  | NewSession _ _ => V tt
  | _ => X (Py KeyError)
  end.
Definition login_calls (sid : str) : list aobs := first_calls 4 (login_answers sid) (application ref_env prov oidc (fst login) (snd login)).
Lemma login_calls_are sid : login_calls sid =
  [OFindAccount (lit "a@x.example") (V (hd_error (tb_accounts tables0))); OUserSession (lit "alice") (V None); OSessionToken (V sid); ONewSession sid (lit "alice") (V tt)].
Proof. vm_compute. reflexivity. Qed.
Definition with_sessions (l : list (str * str)) : tables := set_sessions l tables0.
(** All look for a session before the first starts one. *)
Definition login_log (n : nat) : list (nat * aobs) := calls_in_turn (fun i => firstn 2 (login_calls (session_no i))) n ++ calls_in_turn (fun i => skipn 2 (login_calls (session_no i))) n.
Fixpoint many_sessions (n : nat) : list (str * str) := match n with O => [] | S n => (session_no n, lit "alice") :: many_sessions n end.
Lemma many_new n : N.of_nat n < 2 ^ 32 -> forall m, (m <= n)%nat -> existsb (fun s : str * str => eqs (fst s) (session_no n)) (many_sessions m) = false.
Proof.
  intros Hb. induction m as [|m IH]; intros Hm; [reflexivity|]. cbn [many_sessions existsb fst]. destruct (eqs_spec (session_no m) (session_no n)) as [He|_]; [apply (nth_token_inj 32) in He; [lia|change (N.of_nat m < 2 ^ 32); lia|exact Hb]|]. apply IH. lia.
Qed.
Lemma login_steps n : N.of_nat n <= 2 ^ 32 -> app_steps light false tables0 (map snd (login_log n)) (with_sessions (many_sessions n)).
Proof.
  intros Hb. unfold login_log. rewrite map_app, !turn_snd. apply app_steps_app. exists tables0. split.
  - clear Hb. induction (seq 0 n) as [|i l IH]; [constructor|]. cbn [flat_map]. rewrite login_calls_are. cbn [firstn app].
    econstructor; [exact (step_of light false (at_start []) _ (FindAccount (lit "a@x.example")) tables0 _ _ eq_refl)|].
    econstructor; [exact (step_of light false (at_start []) _ (UserSession (lit "alice")) tables0 _ _ eq_refl)|]. exact IH.
  - induction n as [|n IH]; [constructor|]. rewrite seq_S, flat_map_app. apply app_steps_app. exists (with_sessions (many_sessions n)). split; [apply IH; lia|].
    cbn [flat_map Nat.add]. rewrite app_nil_r, login_calls_are. cbn [skipn].
    econstructor; [exact (step_of light false (at_start (session_no n)) _ SessionToken (with_sessions (many_sessions n)) _ _ eq_refl)|].
    econstructor; [|constructor]. apply (step_of light false (at_start []) _ (NewSession (session_no n) (lit "alice")) (with_sessions (many_sessions n))).
    cbn [app_do]. unfold with_sessions at 1. cbn [set_sessions tb_sessions]. rewrite many_new by lia. reflexivity.
Qed.
Lemma login_running n : app_running ref_env prov oidc (repeat login n) (login_log n).
Proof.
  split.
  - intros i o H. unfold login_log in H. apply in_app_iff in H as [H|H]; apply turn_In in H; exists login; apply nth_error_repeat; exact H.
  - intros i g w H. pose proof (nth_error_In _ _ H) as Hin. apply repeat_spec in Hin. unfold login_log. rewrite acalls_app, !turn_calls.
    replace (i <? n)%nat with true by (symmetry; apply Nat.ltb_lt; rewrite <- (repeat_length login n); apply nth_error_Some; rewrite H; discriminate). rewrite firstn_skipn.
    unfold login_calls. rewrite <- Hin. cbn [fst snd]. apply first_calls_exec.
Qed.
Theorem c177_sessions_refuted : forall n, N.of_nat n <= 2 ^ 32 -> exists qs log t, app_running ref_env prov oidc qs log /\ app_steps light false tables0 (map snd log) t /\
  tb_sessions tables0 = [] /\ length (tb_sessions t) = n /\ forall sid uid, In (sid, uid) (tb_sessions t) -> length sid = 32%nat /\ uid = lit "alice".
Proof.
  intros n Hb. exists (repeat login n), (login_log n), (with_sessions (many_sessions n)). split; [apply login_running|]. split; [apply login_steps; exact Hb|]. split; [reflexivity|].
  cbn [with_sessions set_sessions tb_sessions]. assert (Hl : length (many_sessions n) = n) by (clear; induction n; cbn [many_sessions length]; congruence). split; [exact Hl|].
  clear. induction n as [|n IH]; cbn [many_sessions]; intros sid uid; [intros []|]. intros [[= <- <-]|H]; [split; [apply nth_token_length|reflexivity]|exact (IH _ _ H)].
Qed.

(** ** One request after the other *)
Lemma one_by_one_after : forall l w, one_by_one ref_env prov oidc light false (aw_tables w) (aw_tables (after l w)).
Proof.
  induction l as [|q l IH] using rev_ind; intros w; [constructor|]. rewrite after_app. cbn [after].
  apply obo_next with (t := aw_tables (after l w)) (g := fst q) (w := snd q) (tr := atrace (ago q (after l w))) (rest := []) (x := aresult (ago q (after l w))); [apply IH| |].
  - rewrite app_nil_r. apply arun_exec.
  - apply arun_steps.
Qed.
Lemma size_example : one_by_one ref_env prov oidc light false tables0 early_tables /\ one_session tables0 /\ length (tb_sessions early_tables) = 1%nat /\ length (st_rts (tb_store early_tables)) = 1%nat.
Proof. split; [exact (one_by_one_after early aworld0)|]. split; [constructor|]. split; wit. Qed.
