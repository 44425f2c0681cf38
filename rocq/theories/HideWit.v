(** Runs with other secrets, for the examples of C169 and C170. *)
From Coq Require Import String Ascii List NArith ZArith Bool.
From Verif Require Import Base BaseFacts Webtools Jwk Prog ProgFacts Http OAuth SpecOAuth HeaderFacts Example OAuthRef App SpecApp AppWit SpecHide.
Import ListNotations.
Open Scope N_scope.

(** Another secret for the client "web", another password for Alice, and with [full] also other attributes for every user *)
Definition masked (old new s : str) : str := if eqs s old then new else s.
Definition mask (full : bool) : disguise :=
  {| ds_secret := fun c => option_map (masked (lit "s3cret") (lit "0ther")) (cl_secret c);
     ds_info := fun u => if full then [(lit "email", PStr (us_id u))] else us_info u;
     ds_password := fun a => masked (lit "correct horse") (lit "battery") (a_password a) |}.
Lemma masked_iff old new s x : x <> old -> x <> new -> s = x <-> masked old new s = x.
Proof. intros Ho Hn. unfold masked. destruct (eqs s old) eqn:E; [|tauto]. apply eqs_true in E. subst. split; intros H; exfalso; [apply Ho|apply Hn]; auto. Qed.
Lemma mask_hides full r : (forall s, offers r s -> s <> lit "s3cret" /\ s <> lit "0ther") -> hidden_from (mask full) r.
Proof.
  intros H c. cbn [ds_secret mask]. split; [destruct (cl_secret c); cbn [option_map]; split; congruence|]. intros s Hs. apply H in Hs as [H1 H2].
  destruct (cl_secret c) as [x|]; cbn [option_map]; [|split; discriminate]. pose proof (masked_iff _ _ x s H1 H2) as [A B]. split; intros E; injection E as E; f_equal; auto.
Qed.
(** What a request offers can be computed. *)
Lemma offers_at r s : offers r s -> (exists i, get_basic_authorization (rq_headers r) = Ok (Some (i, s))) \/ lookup (lit "client_secret") (form r) = Some s.
Proof. intros [[i H]|H]; [left; exists i; apply basic_iff; exact H|right; exact H]. Qed.

Definition guess_req : request := token_req (basic "web" "s3cre") [L "grant_type" "client_credentials"].
Definition guess_run := go (token_endpoint ref_env prov oidc guess_req) world0.
Definition other_run := go (token_endpoint ref_env prov oidc (cc_req [])) world0.
Lemma guess_hidden : hidden_from (mask true) guess_req.
Proof.
  apply mask_hides. intros s H. apply offers_at in H as [[i H]|H]; vm_compute in H; [|discriminate]. injection H as _ <-. split; intros E; vm_compute in E; discriminate.
Qed.
Lemma cc_hidden : hidden_from (mask true) (cc_req []).
Proof.
  apply mask_hides. intros s H. apply offers_at in H as [[i H]|H]; vm_compute in H; [discriminate|]. injection H as <-. split; intros E; vm_compute in E; discriminate.
Qed.
Definition secrets (tr : list obs) : list (option str) := flat_map (fun o => match o with OFindClient _ (V (Some c)) => [cl_secret c] | _ => [] end) tr.
Lemma c169_example : hidden_from (mask true) guess_req /\ exec (token_endpoint ref_env prov oidc guess_req) (trace_of guess_run) (result_of guess_run) /\
  member "error" (body_of (result_of guess_run)) = PStr (lit "invalid_client") /\ secrets (trace_of guess_run) = [Some (lit "s3cret")] /\
  secrets (map (other_call (mask true)) (trace_of guess_run)) = [Some (lit "0ther")] /\
  hidden_from (mask true) (cc_req []) /\ exec (token_endpoint ref_env prov oidc (cc_req [])) (trace_of other_run) (result_of other_run) /\
  status_of (result_of other_run) = 200 /\ secrets (trace_of other_run) = [Some (lit "hush")].
Proof.
  split; [exact guess_hidden|]. split; [apply go_exec|]. do 3 (split; [vm_compute; reflexivity|]). split; [exact cc_hidden|]. split; [apply go_exec|]. split; vm_compute; reflexivity.
Qed.

Definition wrong_form : login_form := {| lf_email := lit "a@x.example"; lf_password := lit "correct"; lf_valid := true |}.
Definition wrong_visits : list (page * App.web) :=
  [(LoginPage, visit "POST" (lit "/auth/login") [] [] None wrong_form);
   (TokenPage, visit "POST" (lit "/connect/token") (basic "web" "s3cre") (query [L "grant_type" "client_credentials"]) None no_form);
   (RevokePage, visit "POST" (lit "/connect/revoke") (basic "web" "S3cret") (query [L "token" "tok1"]) None no_form);
   (TokenPage, visit "POST" (lit "/connect/token") [] (query [L "grant_type" "client_credentials"; L "client_id" "post"; L "client_secret" "hush"]) None no_form)].
Definition wrong_log : list (nat * aobs) := log_of 0 wrong_visits aworld0.
Lemma wrong_hidden n g w : nth_error wrong_visits n = Some (g, w) -> hidden_from_web (mask false) w.
Proof.
  intros H. apply nth_error_In in H. destruct H as [H|[H|[H|[H|[]]]]]; injection H as <- <-; split;
    try (intros a; apply masked_iff; intros E; vm_compute in E; discriminate); intros u r Hr; vm_compute in Hr; injection Hr as <-; apply mask_hides; intros s Hs;
    apply offers_at in Hs as [[i Hs]|Hs]; vm_compute in Hs; try discriminate; injection Hs; intros; subst; split; intros E; vm_compute in E; discriminate.
Qed.
Lemma c170_example : (forall u, ds_info (mask false) u = us_info u) /\ (forall n g w, nth_error wrong_visits n = Some (g, w) -> hidden_from_web (mask false) w) /\
  app_running ref_env prov oidc wrong_visits wrong_log /\ app_steps light false tables0 (map snd wrong_log) (aw_tables (AppWit.after wrong_visits aworld0)) /\
  map a_password (tb_accounts tables0) = [lit "correct horse"] /\ map a_password (tb_accounts (other_tables (mask false) tables0)) = [lit "battery"] /\
  map cl_secret (st_clients (tb_store (other_tables (mask false) tables0))) = [Some (lit "0ther"); Some (lit "hush"); None].
Proof.
  split; [reflexivity|]. split; [exact wrong_hidden|]. split; [apply history_running|]. split; [exact (log_steps wrong_visits 0 aworld0)|]. split; [reflexivity|]. split; vm_compute; reflexivity.
Qed.
