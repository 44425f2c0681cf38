(** A login, a code and a token, for the example of C176. *)
From Coq Require Import String Ascii List NArith ZArith Bool Arith Lia.
From Verif Require Import Base SpecReaders Webtools Crypto Jwk Prog Http OAuth SpecOAuth LineageFacts Example OAuthRef OAuthWit FlowWit SpecLife App SpecApp AppFacts AppWit LifeWit KeepWit WhoWit SpecSound.
Import ListNotations.
Open Scope string_scope.
Open Scope list_scope.
Open Scope N_scope.

Lemma sound_set_up : set_up tables0.
Proof.
  split; [|split].
  - cbn [tb_store tables0 store0 st_clients map]. repeat constructor; intros H; repeat (destruct H as [H|H]; [discriminate|]); exact H.
  - intros c [<-|[<-|[<-|[]]]]; exact (p_ex_client_restricts _ _ _ _ _ _ _).
  - intros a [<-|[]]. exists alice. split; [left; reflexivity|reflexivity].
Qed.
Lemma sound_start scopes : consistent scopes tables0.
Proof. do 4 (split; [constructor|]). split; [intros k row []|]. split; [intros k row []|intros sid uid []]. Qed.
Lemma sound_example : (forall b, bytes_ok (e_sha256 ref_env b)) /\ order_ok ref_env /\ set_up tables0 /\ consistent (cf_scopes (pv_config prov)) tables0 /\
  (forall k, (k <= 3)%nat -> app_running ref_env prov oidc early (log_before k ++ log_since k) /\ app_steps light false tables0 (map snd (log_before k)) (tables_at k)) /\
  (exists row, st_codes (tb_store (tables_at 2)) = [(lit "tok6", row)] /\ ac_scopes row = [lit "openid"; lit "email"]) /\
  (exists rt, st_rts (tb_store (tables_at 3)) = [(lit "tok13", rt)] /\ rt_scopes rt = [lit "openid"; lit "email"]) /\
  tb_sessions (tables_at 3) = [(lit "tok2", lit "alice")].
Proof.
  split; [exact ref_sha|]. split; [exact ref_order|]. split; [exact sound_set_up|]. split; [apply sound_start|].
  split; [intros k Hk; split; [apply who_running; exact Hk|exact (proj1 (who_steps k Hk))]|].
  split; [eexists; split; wit|]. split; [eexists; split; wit|wit].
Qed.
(** Two clients with one id: the data base is not set up. *)
Lemma not_set_up : ~ set_up {| tb_store := {| st_clients := [OAuthRef.web; OAuthRef.web]; st_users := []; st_codes := []; st_rts := [] |}; tb_sessions := []; tb_accounts := [] |}.
Proof. intros (H & _). inversion H as [|? ? Hn _]. apply Hn. left. reflexivity. Qed.
