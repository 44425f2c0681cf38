(** Reference runs for C80-C83. *)
From Coq Require Import String Ascii List NArith ZArith Bool Arith Lia.
From Verif Require Import Base BaseFacts Utf8 Base64 SpecCodec Json Webtools Crypto RefCrypto Jwk Prog ProgFacts Http OAuth SpecOAuth SpecHistory SpecFlow Example ExampleFacts OAuthRef OAuthFacts RequestFacts ResponseFacts RaiseFacts OAuthWit OAuthEx StoreFacts HistoryFacts HistoryWit CompleteFacts FlowFacts LineageFacts AuthzFacts ReaderFacts WriteFacts.
Import ListNotations.
Open Scope N_scope.

Lemma ref_sha : forall b, bytes_ok (e_sha256 ref_env b). Proof. exact (JwsRef.sha_ok SHA256). Qed.
Lemma ref_order : order_ok ref_env. Proof. intros l x. reflexivity. Qed.

(** ** The requests of the reference run follow the protocol. *)
Lemma asks_at r l : match l with [] => false | _ => true end = true ->
  forallb (fun w => match w with [] => false | _ => forallb (fun c => negb (py_space c)) w end) l = true -> lookup (lit "scope") (rq_data r) = Some (join [32] l) -> asks r l.
Proof.
  intros H1 H2 H3. split; [destruct l; discriminate|]. split; [|exact H3]. rewrite forallb_forall in H2. apply Forall_forall. intros w Hw. apply H2 in Hw.
  split; [destruct w; discriminate|]. apply nowhite, Forall_forall. intros c Hc. destruct w; [destruct Hc|]. rewrite forallb_forall in Hw. apply Hw in Hc. apply negb_true_iff. auto.
Qed.
Lemma authz_code_request : code_request prov authz_req alice (lit "web") cb [lit "openid"; lit "email"] (lit challenge) (lit "S256").
Proof.
  split; [wit|]. split; [wit|]. split; [wit|]. split; [wit|]. split; [apply asks_at; wit|]. split; [wit|]. split; [vm_compute; lia|]. split; [wit|].
  split; [right; reflexivity|]. split; [left; reflexivity|]. intros w Hw. apply ins_In. destruct Hw as [<-|[<-|[]]]; wit.
Qed.
Lemma basic_web r : auth_header (rq_headers r) = PStr (lit "Basic" ++ 32 :: SpecReaders.rfc4648 (lit "web:s3cret")) -> presents r (lit "web") web.
Proof.
  intros H. apply by_basic with (s := lit "s3cret"); [|reflexivity|reflexivity].
  exists (lit "Basic"), (lit "web:s3cret"). split; [apply HeaderFacts.basic_letters; reflexivity|]. split; [intros Hi; apply inc_In in Hi; discriminate|].
  split; [discriminate|]. split; [discriminate|]. split; [slit|]. split; [slit|]. split; [wit|]. apply HeaderFacts.carries_at. exact H.
Qed.
Lemma code_exchange_request : exchange_request prov (code_req the_code) (lit "web") web the_code cb (lit verifier).
Proof.
  split; [left; reflexivity|]. split; [left; reflexivity|]. split; [apply basic_web; wit|]. split; [wit|]. split; [wit|]. split; [wit|]. split; [wit|].
  split; [discriminate|]. split; [discriminate|]. split; [discriminate|]. left. reflexivity.
Qed.
Lemma the_pkce : pkce_ok (e_sha256 ref_env) (lit "S256") (lit challenge) (lit verifier).
Proof. right. split; [reflexivity|]. split; [apply Forall_forall; assert (H : forallb (fun c => c <? 128) (lit verifier) = true) by wit; rewrite forallb_forall in H; intros c Hc; apply N.ltb_lt; auto|]. wit. Qed.
(** The exchange without the hook *)
Definition run2n := go (token_endpoint ref_env prov no_hooks (code_req the_code)) (world_of run1).
Lemma run2n_exec : exec (token_endpoint ref_env prov no_hooks (code_req the_code)) (trace_of run2n) (result_of run2n). Proof. unfold run2n. apply go_exec. Qed.
Lemma run2n_good : no_raise (trace_of run2n). Proof. apply no_raise_at. wit. Qed.

(** ** Numbering the events of a history *)
Fixpoint number (k : nat) (l : list event) : list (nat * obs) :=
  match l with [] => [] | e :: r => map (fun o => (k, o)) (ev_calls e) ++ number (S k) r end.
Lemma number_calls : forall l k, map snd (number k l) = all_calls l.
Proof. induction l as [|e l IH]; intros k; [reflexivity|]. cbn [number all_calls flat_map]. rewrite map_app, map_map. cbn [snd]. rewrite map_id. f_equal. apply IH. Qed.
Lemma number_calls_of : forall l k n, calls_of n (number k l) = if Nat.ltb n k then [] else match nth_error l (n - k) with Some e => ev_calls e | None => [] end.
Proof.
  induction l as [|e l IH]; intros k n.
  - cbn [number]. destruct (Nat.ltb n k); [reflexivity|]. destruct (n - k)%nat; reflexivity.
  - cbn [number]. rewrite HistoryWit.calls_of_app, calls_of_tag, IH. destruct (Nat.eqb_spec k n) as [->|Hne].
    + replace (Nat.ltb n (S n)) with true by (symmetry; apply Nat.ltb_lt; lia). replace (Nat.ltb n n) with false by (symmetry; apply Nat.ltb_ge; lia).
      rewrite Nat.sub_diag, app_nil_r. reflexivity.
    + cbn [app]. destruct (Nat.ltb_spec n k).
      * replace (Nat.ltb n (S k)) with true by (symmetry; apply Nat.ltb_lt; lia). reflexivity.
      * replace (Nat.ltb n (S k)) with false by (symmetry; apply Nat.ltb_ge; lia). replace (n - k)%nat with (S (n - S k)) by lia. reflexivity.
Qed.
Lemma number_lt : forall l k n o, In (n, o) (number k l) -> (k <= n < k + length l)%nat.
Proof.
  induction l as [|e l IH]; intros k n o H; [destruct H|]. cbn [number length] in *. apply in_app_iff in H as [H|H].
  - apply in_map_iff in H as (x & [= <- _] & _). lia.
  - apply IH in H. lia.
Qed.
Lemma number_running E l : with_crashes E l -> running E (map ev_in l) (number 0 l).
Proof.
  intros H. unfold with_crashes in H. rewrite Forall_forall in H. split.
  - intros n o Hin. apply number_lt in Hin. destruct (nth_error (map ev_in l) n) as [q|] eqn:En; [eauto|]. apply nth_error_None in En. rewrite map_length in En. lia.
  - intros n q Hq. rewrite number_calls_of, Nat.sub_0_r. change (Nat.ltb n 0) with false. cbv iota.
    destruct (nth_error l n) as [e|] eqn:En.
    + rewrite (map_nth_error ev_in n l En) in Hq. injection Hq as <-. destruct (H e (nth_error_In _ _ En)) as [He|[He _]]; [|exact He].
      exists [], (ev_answer e). rewrite app_nil_r. exact He.
    + exfalso. apply nth_error_None in En. assert (Hl : nth_error (map ev_in l) n = None) by (apply nth_error_None; rewrite map_length; auto). congruence.
Qed.
Lemma p_lineage_history E C aware s s' l e o c u sc : (forall b, bytes_ok (e_sha256 E b)) -> order_ok E -> with_crashes E l -> ex_steps C aware s (all_calls l) s' ->
  st_codes s = [] -> st_rts s = [] -> (forall c, In c (st_clients s) -> restricts c) ->
  In e l -> In o (ev_calls e) -> (exists y, o = OCreateAT c (OwnUser u) sc y) \/ (exists y, o = OCreateRT c (OwnUser u) sc y) ->
  exists e0, In e0 l /\ granted_by (ev_in e0) (ev_calls e0) c u sc.
Proof.
  intros Hb Hord Hl Hs H1 H2 H3 He Ho Hy. apply In_nth_error in He as [n Hn].
  assert (Hin : In (n, o) (number 0 l)).
  { apply calls_of_In. rewrite number_calls_of, Nat.sub_0_r. change (Nat.ltb n 0) with false. cbv iota. rewrite Hn. auto. }
  rewrite <- (number_calls l 0) in Hs.
  destruct (p_lineage_example E C aware s s' _ _ n o c u sc Hb Hord (number_running E l Hl) Hs H1 H2 H3 Hin Hy) as (m & q0 & Hq & Hg).
  rewrite number_calls_of, Nat.sub_0_r in Hg. change (Nat.ltb m 0) with false in Hg. cbv iota in Hg.
  destruct (nth_error l m) as [e0|] eqn:Em.
  - rewrite (map_nth_error ev_in m l Em) in Hq. injection Hq as <-. exists e0. split; [eapply nth_error_In; eauto|auto].
  - exfalso. apply nth_error_None in Em. assert (Hm : nth_error (map ev_in l) m = None) by (apply nth_error_None; rewrite map_length; auto). congruence.
Qed.

(** ** Refresh tokens of the example adapter keep the scopes of the first exchange. *)
Definition narrow_items : params :=
  [L "response_type" "code"; L "client_id" "web"; (lit "redirect_uri", cb); L "scope" "openid"; L "code_challenge" challenge; L "code_challenge_method" "S256"; L "nonce" "n2"].
Definition narrow_req : request := req "GET" (authorization_url narrow_items) [] None (Some alice).
Definition narrow1 := go (authorization_endpoint ref_env prov oidc narrow_req) (world_of run2).
Definition narrow_code : str := lit "tok17".
Definition narrow2 := go (token_endpoint ref_env prov oidc (code_req narrow_code)) (world_of narrow1).
Definition email_req (token : string) : request := token_req (basic "web" "s3cret") [L "grant_type" "refresh_token"; L "refresh_token" token; L "scope" "email"].
Definition narrow3 := go (token_endpoint ref_env prov oidc (email_req "tok8")) (world_of narrow2).

(** The first refresh token of a client and user has the scopes it was created with. *)
Definition none_of (c u : str) (s : store) : Prop := find (rt_of c u) (st_rts s) = None.
Definition creates_for (c u : str) (o : obs) : bool :=
  match o with OCreateRT c' w _ _ => eqs (cl_id c') c && match owner_id w with Ok u' => eqs u' u | Err _ => false end | _ => false end.
Lemma find_filter_none {A} (f g : A -> bool) l : find f l = None -> find f (filter g l) = None.
Proof. induction l as [|x l IH]; [auto|]. cbn [find filter]. destruct (f x) eqn:Ef; [discriminate|]. intros H. destruct (g x); cbn [find]; [rewrite Ef|]; auto. Qed.
Lemma none_step C aware c u s o s' : ex_step C aware s o s' -> creates_for c u o = false -> none_of c u s -> none_of c u s'.
Proof.
  intros Hs Ho Hn. destruct Hs as [ch T e s|T e x s]; [|auto]. unfold none_of in *.
  destruct e; cbn [ex_do fst snd observe creates_for] in *; auto.
  - destruct (ad_nonce data); cbn [snd]; auto. destruct (has code (st_codes s)); cbn [snd]; auto.
  - destruct (owner_id o) as [w|] eqn:Ew; cbn [fst snd] in *; [|auto]. destruct (find (rt_of (cl_id c0) w) (st_rts s)) as [[t ?]|] eqn:Ef; cbn [snd]; [auto|].
    destruct (has (ch_token ch) (st_rts s)); cbn [snd]; [auto|]. cbn [st_rts set_rts find]. unfold rt_of at 1. cbn [snd rt_client rt_user]. rewrite Ho. auto.
  - cbn [st_rts set_rts]. apply find_filter_none. auto.
Qed.
Lemma none_steps C aware c u : forall tr s s', ex_steps C aware s tr s' -> (forall o, In o tr -> creates_for c u o = false) -> none_of c u s -> none_of c u s'.
Proof.
  induction tr as [|o tr IH]; intros s s' Hs Ht Hn; inversion Hs as [|? ? s1 ? ? Ho Hr]; subst; [auto|].
  eapply IH; [exact Hr|intros; apply Ht; right; auto|]. eapply none_step; [exact Ho|apply Ht; left; reflexivity|auto].
Qed.
Definition kept (t : str) (c : client) (o : owner) (sc : list str) (s : store) : Prop := exists rt, lookup t (st_rts s) = Some rt /\ rt_holds rt c o sc.
Lemma lookup_filter_key {A} k (f : str * A -> bool) : forall l v, lookup k l = Some v -> f (k, v) = true -> lookup k (filter f l) = Some v.
Proof.
  induction l as [|[k' v'] l IH]; intros v H Hf; [discriminate|]. cbn [lookup filter] in *. destruct (eqs_spec k k') as [->|Hne].
  - injection H as ->. rewrite Hf. cbn [lookup]. rewrite eqs_refl. auto.
  - destruct (f (k', v')); cbn [lookup]; [|auto]. destruct (eqs_spec k k'); [contradiction|]. auto.
Qed.
Lemma kept_step C aware t c w sc s o s' : ex_step C aware s o s' -> (forall c' h y, cl_id c' = cl_id c -> o <> ORevokeToken c' t h y) -> kept t c w sc s -> kept t c w sc s'.
Proof.
  intros Hs Ho (rt & Hl & Hh). destruct Hs as [ch T e s|T e x s]; [|exists rt; auto]. unfold kept.
  destruct e; cbn [ex_do fst snd observe] in *; try (exists rt; auto; fail).
  - destruct (ad_nonce data); cbn [snd]; [|exists rt; auto]. destruct (has code (st_codes s)); cbn [snd]; exists rt; auto.
  - destruct (owner_id o) as [v|] eqn:Ew; cbn [fst snd] in *; [|exists rt; auto]. destruct (find (rt_of (cl_id c0) v) (st_rts s)) as [[t' ?]|]; cbn [snd]; [exists rt; auto|].
    destruct (has (ch_token ch) (st_rts s)) eqn:Eh; cbn [snd]; [exists rt; auto|]. cbn [st_rts set_rts lookup]. destruct (eqs_spec t (ch_token ch)) as [E|]; [|exists rt; auto].
    subst t. unfold has in Eh. rewrite Hl in Eh. discriminate.
  - cbn [st_rts set_rts]. exists rt. split; [|auto]. apply lookup_filter_key; [auto|]. cbn [fst snd]. destruct (eqs_spec t token) as [->|]; [|reflexivity]. cbn [andb].
    destruct (eqs_spec (rt_client rt) (cl_id c0)) as [E|]; [|reflexivity]. exfalso. destruct Hh as (Hc & _). eapply Ho; [|reflexivity]. congruence.
Qed.
Lemma kept_steps C aware t c w sc : forall tr s s', ex_steps C aware s tr s' -> (forall c' h y, cl_id c' = cl_id c -> ~ In (ORevokeToken c' t h y) tr) -> kept t c w sc s -> kept t c w sc s'.
Proof.
  induction tr as [|o tr IH]; intros s s' Hs Ht Hn; inversion Hs as [|? ? s1 ? ? Ho Hr]; subst; [auto|].
  eapply IH; [exact Hr|intros c' h y E Hin; eapply Ht; [exact E|right; exact Hin]|]. eapply kept_step; [exact Ho| |auto]. intros c' h y E ->. eapply Ht; [exact E|left; reflexivity].
Qed.
Lemma p_first_token C aware s s' a c w sc t b u : ex_steps C aware s (a ++ OCreateRT c w sc (V (Some t)) :: b) s' -> owner_id w = Ok u ->
  (forall k rt, In (k, rt) (st_rts s) -> ~ (rt_client rt = cl_id c /\ rt_user rt = u)) ->
  (forall c' w' sc' y, In (OCreateRT c' w' sc' y) a -> ~ (cl_id c' = cl_id c /\ owner_id w' = Ok u)) ->
  (forall c' h y, cl_id c' = cl_id c -> ~ In (ORevokeToken c' t h y) b) ->
  exists rt, lookup t (st_rts s') = Some rt /\ rt_holds rt c w sc.
Proof.
  intros Hs Hw Hnone Ha Hb. apply steps_app in Hs as (s1 & H1 & H2). inversion H2 as [|? ? s2 ? ? Ho Hr]; subst. clear H2.
  assert (Hn1 : none_of (cl_id c) u s1).
  { eapply none_steps; [exact H1| |].
    - intros o Hin. destruct o; try reflexivity. cbn [creates_for]. destruct (eqs_spec (cl_id c0) (cl_id c)) as [E|]; [|reflexivity]. cbn [andb]. destruct (owner_id o) as [u'|] eqn:Eo; [|reflexivity].
      destruct (eqs_spec u' u) as [->|]; [|reflexivity]. exfalso. eapply Ha; eauto.
    - unfold none_of. destruct (find (rt_of (cl_id c) u) (st_rts s)) as [[k rt]|] eqn:Ef; [|auto]. apply find_some in Ef as [Hin Hf]. exfalso. unfold rt_of in Hf. cbn [snd] in Hf.
      apply andb_true_iff in Hf as [F1 F2]. apply eqs_true in F1. apply eqs_true in F2. eapply Hnone; eauto. }
  eapply kept_steps; [exact Hr|exact Hb|].
  clear - Ho Hn1 Hw. remember (OCreateRT c w sc (V (Some t))) as o eqn:Eo. destruct Ho as [ch T e s|T e x s]; [|destruct e; discriminate].
  destruct e; cbn [ex_do fst snd observe] in Eo; try discriminate. injection Eo as -> -> -> H. unfold kept. cbn [ex_do]. rewrite Hw in *. rewrite Hn1 in *.
  destruct (has (ch_token ch) (st_rts s)); cbn [fst snd] in *; [discriminate|]. injection H as <-. eexists. split; [cbn [st_rts set_rts lookup]; rewrite eqs_refl; reflexivity|].
  unfold rt_holds. cbn [rt_client rt_scopes rt_user]. split; [auto|]. split; [auto|]. destruct w; cbn [owner_id] in Hw; [injection Hw as ->; auto|injection Hw as ->; auto|auto].
Qed.

Lemma narrow_steps : ex_steps light false (w_store (world_of run2)) (trace_of narrow1) (w_store (world_of narrow1)) /\
  ex_steps light false (w_store (world_of narrow1)) (trace_of narrow2) (w_store (world_of narrow2)) /\
  ex_steps light false (w_store (world_of narrow2)) (trace_of narrow3) (w_store (world_of narrow3)).
Proof.
  split; [exact (go_steps (authorization_endpoint ref_env prov oidc narrow_req) (world_of run2))|].
  split; [exact (go_steps (token_endpoint ref_env prov oidc (code_req narrow_code)) (world_of narrow1))|exact (go_steps (token_endpoint ref_env prov oidc (email_req "tok8")) (world_of narrow2))].
Qed.
Definition broader : list event :=
  [{| ev_in := inc Authorize authz_req; ev_calls := trace_of run1; ev_answer := answer_of (result_of run1) |};
   {| ev_in := inc Token (code_req the_code); ev_calls := trace_of run2; ev_answer := answer_of (result_of run2) |};
   {| ev_in := inc Authorize narrow_req; ev_calls := trace_of narrow1; ev_answer := answer_of (result_of narrow1) |};
   {| ev_in := inc Token (code_req narrow_code); ev_calls := trace_of narrow2; ev_answer := answer_of (result_of narrow2) |};
   {| ev_in := inc Token (email_req "tok8"); ev_calls := trace_of narrow3; ev_answer := answer_of (result_of narrow3) |}].
Lemma any_served p r w s : (match s with Authorize => p = authorization_endpoint ref_env prov oidc r | Token => p = token_endpoint ref_env prov oidc r | _ => False end) ->
  served ref_env (inc s r) (trace_of (go p w)) (answer_of (result_of (go p w))).
Proof. intros H. unfold served. destruct s; cbn [in_service inc in_provider in_hooks in_request]; subst; try contradiction; (eexists; split; [apply go_exec|reflexivity]). Qed.
Lemma broader_seq : sequential ref_env broader.
Proof.
  unfold broader. constructor; [exact run1_served|]. constructor; [exact (token_served (world_of run1))|].
  constructor; [exact (any_served (authorization_endpoint ref_env prov oidc narrow_req) narrow_req (world_of run2) Authorize eq_refl)|].
  constructor; [exact (any_served (token_endpoint ref_env prov oidc (code_req narrow_code)) (code_req narrow_code) (world_of narrow1) Token eq_refl)|].
  constructor; [exact (any_served (token_endpoint ref_env prov oidc (email_req "tok8")) (email_req "tok8") (world_of narrow2) Token eq_refl)|]. constructor.
Qed.
Lemma five_calls (t1 t2 t3 t4 t5 : list obs) q1 q2 q3 q4 q5 a1 a2 a3 a4 a5 : all_calls [{| ev_in := q1; ev_calls := t1; ev_answer := a1 |}; {| ev_in := q2; ev_calls := t2; ev_answer := a2 |};
  {| ev_in := q3; ev_calls := t3; ev_answer := a3 |}; {| ev_in := q4; ev_calls := t4; ev_answer := a4 |}; {| ev_in := q5; ev_calls := t5; ev_answer := a5 |}] = t1 ++ t2 ++ t3 ++ t4 ++ t5.
Proof. unfold all_calls. cbn [flat_map ev_calls]. rewrite app_nil_r. reflexivity. Qed.
Lemma five_steps C aware t1 t2 t3 t4 t5 s s1 s2 s3 s4 s5 : ex_steps C aware s t1 s1 -> ex_steps C aware s1 t2 s2 -> ex_steps C aware s2 t3 s3 -> ex_steps C aware s3 t4 s4 -> ex_steps C aware s4 t5 s5 ->
  ex_steps C aware s (t1 ++ t2 ++ t3 ++ t4 ++ t5) s5.
Proof. intros H1 H2 H3 H4 H5. apply ex_steps_app. exists s1. split; [exact H1|]. apply ex_steps_app. exists s2. split; [exact H2|]. eapply three_steps; eauto. Qed.
Lemma broader_steps : exists s, ex_steps light false store0 (all_calls broader) s.
Proof.
  exists (w_store (world_of narrow3)). unfold broader. rewrite five_calls.
  exact (five_steps _ _ _ _ _ _ _ _ _ _ _ _ _ run1_steps run2_steps (proj1 narrow_steps) (proj1 (proj2 narrow_steps)) (proj2 (proj2 narrow_steps))).
Qed.
Definition dict_of (x : res response) : pdict := match body_of x with Ok (PDict d) => d | _ => [] end.
Lemma wit_broader : exists l e4 e5 z d t y s, sequential ref_env (l ++ [e4; e5]) /\ ex_steps light false store0 (all_calls (l ++ [e4; e5])) s /\
  in_service (ev_in e4) = Token /\ ev_answer e4 = Some z /\ json_body z d /\
  lookup (lit "scope") d = Some (PStr (lit "openid")) /\ lookup (lit "refresh_token") d = Some (PStr t) /\
  in_service (ev_in e5) = Token /\ data_has (in_request (ev_in e5)) "refresh_token" t /\
  In (OCreateAT web (OwnUser alice) [lit "email"] (V y)) (ev_calls e5) /\ exists z', ev_answer e5 = Some z' /\ rs_status z' = 200.
Proof.
  exists (firstn 3 broader), {| ev_in := inc Token (code_req narrow_code); ev_calls := trace_of narrow2; ev_answer := answer_of (result_of narrow2) |},
   {| ev_in := inc Token (email_req "tok8"); ev_calls := trace_of narrow3; ev_answer := answer_of (result_of narrow3) |}.
  destruct broader_steps as [s Hs].
  exists (response_of (result_of narrow2)), (dict_of (result_of narrow2)), (lit "tok8"). eexists. exists s.
  split; [exact broader_seq|]. split; [exact Hs|]. split; [reflexivity|]. split; [wit|]. split; [exists (json_dumps (PDict (dict_of (result_of narrow2)))); split; [wit|]; split; [apply dumps_written|apply dumps_json; wit]|]. split; [wit|]. split; [wit|]. split; [reflexivity|]. split; [wit|].
  split; [apply nth_error_In with (n := 4%nat); wit|]. eexists. split; wit.
Qed.

Definition scalar_b (s : str) : bool := forallb is_scalar s.
Lemma scalar_b_ok s : scalar_b s = true -> scalar_str s.
Proof. intros H. apply Forall_forall. unfold scalar_b in H. rewrite forallb_forall in H. auto. Qed.
(** The premises of the completeness theorem hold in the exchange of the reference run. *)
Definition the_auth_code : auth_code :=
  {| ac_client := lit "web"; ac_user := lit "alice"; ac_redirect := cb; ac_scopes := [lit "openid"; lit "email"]; ac_challenge := lit challenge;
     ac_method := lit "S256"; ac_nonce := Some (lit "n1"); ac_exp := Naive 1700086400000000 |}.
Ltac scan H := vm_compute in H; repeat (destruct H as [H|H]; [try discriminate H; try (injection H as <-; reflexivity)|]); try destruct H.
Lemma code_premises : no_raise (trace_of run2n) /\ texts_ok (trace_of run2n) /\ exchange_request prov (code_req the_code) (lit "web") web the_code cb (lit verifier) /\
  matching_code ref_env web cb (lit verifier) (trace_of run2n) the_auth_code /\ finds_client (lit "web") web (trace_of run2n) /\
  finds_code the_code the_auth_code (trace_of run2n) /\ finds_user (lit "alice") alice (trace_of run2n) /\ status_of (result_of run2n) = 200.
Proof.
  split; [exact run2n_good|]. split.
  { split.
    - intros c o sc a H. assert (E : forallb (fun o => match o with OCreateAT _ _ sc (V a) => scalar_b a && forallb scalar_b sc | _ => true end) (trace_of run2n) = true) by wit.
      rewrite forallb_forall in E. apply E in H. apply andb_true_iff in H as [H1 H2]. split; [apply scalar_b_ok; auto|]. apply Forall_forall. rewrite forallb_forall in H2. intros w Hw. apply scalar_b_ok. auto.
    - intros c o sc a H. assert (E : forallb (fun o => match o with OCreateRT _ _ sc (V (Some a)) => scalar_b a | _ => true end) (trace_of run2n) = true) by wit.
      rewrite forallb_forall in E. apply E in H. apply scalar_b_ok; auto. }
  split; [exact code_exchange_request|]. split.
  { split; [reflexivity|]. split; [reflexivity|]. split; [exact the_pkce|]. eexists. split; [reflexivity|]. intros now off H.
    assert (E : forallb (fun o => match o with ONow (V (n, _)) => (n <? 1700086400000000)%Z | _ => true end) (trace_of run2n) = true) by wit.
    rewrite forallb_forall in E. apply E in H. apply Z.ltb_lt. exact H. }
  split; [intros y H; scan H|]. split; [intros y H; scan H|]. split; [intros y H; scan H|]. wit.
Qed.

(** A history: the code is given, another client asks for a token of its own, the code is exchanged. *)
Definition inc_n (s : service) (r : request) : incoming := {| in_service := s; in_provider := prov; in_hooks := no_hooks; in_request := r |}.
Definition between := go (token_endpoint ref_env prov oidc (cc_req [])) (world_of run1).
Definition later := go (token_endpoint ref_env prov no_hooks (code_req the_code)) (world_of between).
Definition flow_first : event := {| ev_in := inc Authorize authz_req; ev_calls := trace_of run1; ev_answer := answer_of (result_of run1) |}.
Definition flow_between : event := {| ev_in := inc Token (cc_req []); ev_calls := trace_of between; ev_answer := answer_of (result_of between) |}.
Definition flow_last : event := {| ev_in := inc_n Token (code_req the_code); ev_calls := trace_of later; ev_answer := answer_of (result_of later) |}.
Definition flow : list event := [flow_first; flow_between; flow_last].
Lemma flow_seq : sequential ref_env flow.
Proof.
  unfold flow. constructor; [exact run1_served|].
  constructor; [exact (any_served (token_endpoint ref_env prov oidc (cc_req [])) (cc_req []) (world_of run1) Token eq_refl)|].
  constructor; [|constructor]. exists (result_of later). split; [unfold later; apply go_exec|reflexivity].
Qed.
Lemma flow_steps : exists s, ex_steps light false store0 (all_calls flow) s.
Proof.
  exists (w_store (world_of later)). unfold flow, flow_first, flow_between, flow_last. rewrite three_calls.
  exact (three_steps _ _ _ _ _ _ _ _ _ run1_steps (go_steps (token_endpoint ref_env prov oidc (cc_req [])) (world_of run1)) (go_steps (token_endpoint ref_env prov no_hooks (code_req the_code)) (world_of between))).
Qed.
Lemma count_le (f g : obs -> bool) l : (forall x, f x = true -> g x = true) -> (count f l <= count g l)%nat.
Proof. intros H. unfold count. induction l as [|x l IH]; [auto|]. cbn [filter]. destruct (f x) eqn:Ef; [rewrite (H x Ef); cbn [length]; lia|]. destruct (g x); cbn [length]; lia. Qed.
Definition any_save (o : obs) : bool := match o with OSaveCode _ _ _ _ _ => true | _ => false end.
Lemma flow_fresh code : fresh code (all_calls flow).
Proof.
  unfold fresh. assert (E : count any_save (all_calls flow) = 1%nat) by wit. 
  assert (L : (count (saves_code code) (all_calls flow) <= count any_save (all_calls flow))%nat) by (apply count_le; intros []; cbn; auto; discriminate).
  rewrite E in L. exact L.
Qed.
Lemma flow_keeps : keeps_codes (all_calls flow).
Proof. destruct flow_steps as [s H]. exact (p_example_keeps _ _ _ _ _ H). Qed.
Lemma authz_grants : granted_by (inc Authorize authz_req) (trace_of run1) web alice [lit "email"].
Proof.
  split; [reflexivity|]. split; [exists alice; split; [wit|reflexivity]|].
  split; [exists (lit "web"), web; split; [wit|]; split; [apply nth_error_In with (n := 0%nat); wit|reflexivity]|].
  intros w [<-|[]]. exists (lit "openid email"). split; [wit|]. split; [discriminate|].
  split; [apply nowhite; repeat constructor|]. exists (lit "openid "), []. split; [reflexivity|]. split; [right; exists (lit "openid"), 32; split; [reflexivity|apply FormFacts.white_spec; reflexivity]|left; reflexivity].
Qed.
