(** What the executions of the functions of OAuth.v look like. *)
From Coq Require Import String Ascii List NArith ZArith Bool Lia.
From Verif Require Import Base BaseFacts Utf8 Utf8Facts Base64 Base64Facts Json Url Webtools SpecCodec WebtoolsFacts HeaderFacts Crypto Jwk Jws Jwt Prog ProgFacts Http OAuth SpecOAuth.
Import ListNotations.
Open Scope N_scope.

(** Decompose the executions in the hypotheses. *)
Ltac xstep :=
  match goal with
  | H : exec (pbind _ _) _ _ |- _ => apply exec_pbind in H as [(? & ? & ? & ? & ? & H) | (? & ? & H)]
  | H : exec (Ret _) _ _ |- _ => apply exec_Ret in H as [? ?]
  | H : exec (ret _) _ _ |- _ => apply exec_Ret in H as [? ?]
  | H : exec (throw _) _ _ |- _ => apply exec_Ret in H as [? ?]
  | H : exec (call _) _ _ |- _ => apply exec_call in H; cbn [observe] in H
  end.
Ltac xinv := repeat (xstep; subst); cbn [app] in *.

Lemma arg_Some k d v : arg k d = Some v <-> lookup (lit k) d = Some v /\ v <> [].
Proof.
  unfold arg. destruct (lookup (lit k) d) as [[|c s]|]; (split; [intros H; try discriminate; injection H as <-; split; congruence | intros [H N]; congruence]).
Qed.
Lemma eqo_true a b : eqo a b = true <-> a = b.
Proof.
  destruct a, b; simpl; try (split; congruence).
  rewrite eqs_true. split; congruence.
Qed.
Lemma subsetb_incl a b : subsetb a b = true <-> incl a b.
Proof.
  unfold subsetb. rewrite forallb_forall. unfold incl. split; intros H x Hx; specialize (H x Hx); apply ins_In; auto.
Qed.
Lemma eql_true a : forall b, eql a b = true <-> a = b.
Proof.
  induction a as [|x a IH]; destruct b as [|y b]; simpl; try (split; congruence).
  rewrite andb_true_iff, eqs_true, IH. split; [intros [-> ->]; auto | intros [= -> ->]; auto].
Qed.
Lemma inter_In a b x : In x (inter a b) <-> In x a /\ In x b.
Proof.
  induction a as [|y a IH]; simpl; [tauto|].
  destruct (ins y b && negb (ins y a)) eqn:Eb.
  - apply andb_true_iff in Eb as [E1 E2]. apply ins_In in E1. simpl. rewrite IH. split.
    + intros [->|[H H']]; auto.
    + intros [[->|H] H']; auto.
  - rewrite IH. split; [tauto|]. intros [[->|H] H']; [|auto]. split; [|auto].
    apply ins_In in H'. rewrite H' in Eb. simpl in Eb. apply negb_false_iff in Eb. apply ins_In in Eb. auto.
Qed.

(** ** Client authentication *)
Definition is_find (o : obs) : Prop := exists i x, o = OFindClient i x.

(** The three methods, in one shape: no call and no client, or one look-up and its consequences. *)
Definition auth_shape (i : str) (c_ok : client -> bool) (headers : pdict) (tr : list obs) (x : res (option client)) : Prop :=
  (exists oc, tr = [OFindClient i oc] /\
    match oc with
    | X e => x = X e
    | V None => exists d, x = X (oerr InvalidClient (Some d) None headers)
    | V (Some c) => if c_ok c then x = V (Some c) else exists d, x = X (oerr InvalidClient (Some d) None headers)
    end).

Lemma find_shape i s m headers tr x (d1 d2 d3 : str) :
  exec (do oc <- call (FindClient i) ;;
      match oc with
      | None => throw (oerr InvalidClient (Some d1) None headers)
      | Some c =>
          if negb (eqo (cl_secret c) s) then throw (oerr InvalidClient (Some d2) None headers)
          else if negb (eqs (cl_auth_method c) m) then throw (oerr InvalidClient (Some d3) None headers)
          else ret (Some c)
      end) tr x ->
  auth_shape i (fun c => eqo (cl_secret c) s && eqs (cl_auth_method c) m) headers tr x.
Proof.
  intros H. apply exec_pbind in H as [(oc & t1 & t2 & -> & H1 & H)|(e & -> & H1)]; apply exec_call in H1 as ->; cbn [observe].
  - exists (V oc). destruct oc as [c|].
    + destruct (eqo (cl_secret c) s), (eqs (cl_auth_method c) m); simpl in H |- *; apply exec_Ret in H as [-> ->]; split; eauto.
    + apply exec_Ret in H as [-> ->]. split; eauto.
  - exists (X e). auto.
Qed.

(** What a method does when its credentials are present. *)
Definition method_creds (name : str) (r : request) : result (option (str * option str * pdict)) :=
  if eqs name (lit "client_secret_basic") then
    match get_basic_authorization (rq_headers r) with
    | Ok (Some (((_ :: _) as i), ((_ :: _) as s))) => Ok (Some (i, Some s, [(lit "WWW-Authenticate", PStr (lit "Basic"))]))
    | Ok _ => Ok None
    | Err e => Err e
    end
  else if eqs name (lit "client_secret_post") then
    match arg "client_id" (form r), arg "client_secret" (form r) with
    | Some i, Some s => Ok (Some (i, Some s, []))
    | _, _ => Ok None
    end
  else match arg "client_id" (form r), param "client_secret" (form r) with
       | Some i, None => Ok (Some (i, None, []))
       | _, _ => Ok None
       end.
Lemma method_exec name m r tr x : In (name, m) auth_methods ->
  exec (m r) tr x ->
  match method_creds name r with
  | Err e => tr = [] /\ x = X (Py e)
  | Ok None => tr = [] /\ x = V None
  | Ok (Some (i, s, headers)) => auth_shape i (fun c => eqo (cl_secret c) s && eqs (cl_auth_method c) name) headers tr x
  end.
Proof.
  unfold auth_methods. intros Hin H. simpl in Hin.
  destruct Hin as [Hin | [Hin | [Hin | []]]]; injection Hin as <- <-.
  - unfold method_creds. rewrite eqs_refl. unfold auth_basic in H.
    apply exec_pbind in H as [(o & t1 & t2 & -> & H1 & H)|(e' & -> & H1)]; apply exec_Ret in H1 as [-> E2]; symmetry in E2.
    + apply lift_V in E2. rewrite E2. destruct o as [[[|a i] [|b s]]|]; try (apply exec_Ret in H as [-> ->]; auto; fail).
      apply find_shape in H. exact H.
    + apply lift_X in E2 as (e & -> & E2). rewrite E2. auto.
  - unfold method_creds. replace (eqs (lit "client_secret_post") (lit "client_secret_basic")) with false by reflexivity.
    rewrite eqs_refl. unfold auth_post in H.
    destruct (arg "client_id" (form r)) as [i|]; [|xinv; auto].
    destruct (arg "client_secret" (form r)) as [s|]; [|xinv; auto].
    apply find_shape in H. exact H.
  - unfold method_creds. replace (eqs (lit "none") (lit "client_secret_basic")) with false by reflexivity.
    replace (eqs (lit "none") (lit "client_secret_post")) with false by reflexivity. unfold auth_none in H.
    destruct (arg "client_id" (form r)) as [i|]; [|xinv; auto].
    destruct (param "client_secret" (form r)) as [s|]; [xinv; auto|].
    apply find_shape in H. exact H.
Qed.


(** An authentication makes no call and fails, or looks up one client by the first usable credentials. *)
Lemma authenticate_exec r methods tr x : exec (authenticate r methods) tr x ->
  (tr = [] /\ (x = X (oerr InvalidClient None None []) \/
     exists e, x = X (Py e) /\ get_basic_authorization (rq_headers r) = Err e /\ allowed_method methods (lit "client_secret_basic"))) \/
  exists name m i s headers, In (name, m) auth_methods /\ allowed_method methods name /\
    method_creds name r = Ok (Some (i, s, headers)) /\ (name <> lit "client_secret_basic" -> headers = []) /\
    exists oc, tr = [OFindClient i oc] /\
    match oc with
    | X e => x = X e
    | V None => exists d, x = X (oerr InvalidClient (Some d) None headers)
    | V (Some c) => if eqo (cl_secret c) s && eqs (cl_auth_method c) name then x = V c
                    else exists d, x = X (oerr InvalidClient (Some d) None headers)
    end.
Proof.
  unfold authenticate.
  assert (Hall : forall n m, In (n, m) auth_methods -> In (n, m) auth_methods) by auto.
  revert Hall. generalize auth_methods at 1 3. intros l Hall H. revert tr x H.
  induction l as [|[name m] l IH]; intros tr x H; simpl in H.
  - apply exec_Ret in H as [-> ->]. left. auto.
  - destruct (_ && _) eqn:Eb.
    { apply IH in H; [|intros; apply Hall; simpl; auto]. exact H. }
    assert (Hal : allowed_method methods name).
    { unfold allowed_method. destruct methods as [|n0 methods]; [auto|]. right. apply ins_In.
      destruct (ins name (n0 :: methods)); [auto|discriminate]. }
    assert (Hm : In (name, m) auth_methods) by (apply Hall; simpl; auto).
    apply exec_pbind in H as [(oc & t1 & t2 & -> & H1 & H) | (e & -> & H1)].
    + apply (method_exec name m r t1 (V oc) Hm) in H1.
      destruct (method_creds name r) as [[[[i s] headers]|]|e] eqn:Ec.
      * destruct H1 as (oc' & -> & H1). destruct oc' as [[c|]|e]; [|destruct H1; discriminate|discriminate].
        destruct (eqo _ _ && eqs _ _) eqn:Eo; [|destruct H1; discriminate].
        injection H1 as ->. apply exec_Ret in H as [-> ->].
        right. exists name, m, i, s, headers. do 3 (split; [solve [auto]|]). split.
        -- intros Hne. unfold method_creds in Ec. destruct (eqs_spec name (lit "client_secret_basic")); [tauto|].
           destruct (eqs name _); destruct (arg "client_id" _); [destruct (arg "client_secret" _)| |destruct (param _ _)|]; congruence.
        -- exists (V (Some c)). split; [auto|]. rewrite Eo. auto.
      * destruct H1 as [-> H1]. injection H1 as ->. simpl. apply IH; [intros; apply Hall; simpl; auto|auto].
      * destruct H1; discriminate.
    + apply (method_exec name m r tr (X e) Hm) in H1.
      destruct (method_creds name r) as [[[[i s] headers]|]|e'] eqn:Ec.
      * destruct H1 as (oc' & -> & H1).
        right. exists name, m, i, s, headers. do 3 (split; [solve [auto]|]). split.
        -- intros Hne. unfold method_creds in Ec. destruct (eqs_spec name (lit "client_secret_basic")); [tauto|].
           destruct (eqs name _); destruct (arg "client_id" _); [destruct (arg "client_secret" _)| |destruct (param _ _)|]; congruence.
        -- exists oc'. split; [auto|]. destruct oc' as [[c|]|e0].
           ++ destruct (eqo _ _ && eqs _ _); [discriminate|]. destruct H1 as [d H1]. exists d. congruence.
           ++ destruct H1 as [d H1]. exists d. congruence.
           ++ congruence.
      * destruct H1; discriminate.
      * destruct H1 as [-> H1]. left. split; [auto|]. right. exists e'. injection H1 as ->. split; [auto|].
        unfold method_creds in Ec. destruct (eqs_spec name (lit "client_secret_basic")) as [->|].
        -- destruct (get_basic_authorization _) as [[[[|] [|]]|]|]; try discriminate. split; [congruence|auto].
        -- destruct (eqs name _); destruct (arg "client_id" _); [destruct (arg "client_secret" _)| |destruct (param _ _)|]; discriminate.
Qed.

Lemma creds_authenticates r name i s headers c :
  method_creds name r = Ok (Some (i, s, headers)) -> eqo (cl_secret c) s && eqs (cl_auth_method c) name = true ->
  (exists m, In (name, m) auth_methods) -> authenticates r i c.
Proof.
  intros Hc Hb [m Hm]. apply andb_true_iff in Hb as [Hs Hn]. apply eqo_true in Hs. apply eqs_true in Hn.
  unfold auth_methods in Hm. simpl in Hm. destruct Hm as [Hm|[Hm|[Hm|[]]]]; injection Hm as <- <-; unfold method_creds in Hc.
  - rewrite eqs_refl in Hc. destruct (get_basic_authorization _) as [[[[|a i'] [|b s']]|]|] eqn:Eb; try discriminate.
    injection Hc as <- <- <-. split; [discriminate|]. left. exists (b :: s'). split; [discriminate|].
    split; [|auto]. apply basic_iff, Eb.
  - change (eqs (lit "client_secret_post") (lit "client_secret_basic")) with false in Hc. rewrite eqs_refl in Hc.
    destruct (arg "client_id" (form r)) as [i'|] eqn:E1; [|discriminate].
    destruct (arg "client_secret" (form r)) as [s'|] eqn:E2; [|discriminate].
    injection Hc as <- <- <-. apply arg_Some in E1 as [E1 N1]. apply arg_Some in E2 as [E2 N2].
    split; [auto|]. right. left. exists s'. auto.
  - change (eqs (lit "none") (lit "client_secret_basic")) with false in Hc.
    change (eqs (lit "none") (lit "client_secret_post")) with false in Hc.
    destruct (arg "client_id" (form r)) as [i'|] eqn:E1; [|discriminate].
    destruct (param "client_secret" (form r)) as [s'|] eqn:E2; [discriminate|].
    injection Hc as <- <- <-. apply arg_Some in E1 as [E1 N1].
    split; [auto|]. right. right. auto.
Qed.

Lemma p_authenticate_sound r methods tr c : exec (authenticate r methods) tr (V c) ->
  exists i, tr = [OFindClient i (V (Some c))] /\ authenticates r i c /\ allowed_method methods (cl_auth_method c).
Proof.
  intros H. apply authenticate_exec in H as [[_ [H|(e & H & _)]] | (name & m & i & s & headers & Hm & Hal & Hc & _ & oc & -> & H)]; try discriminate.
  destruct oc as [[c'|]|e]; [|destruct H; discriminate|discriminate].
  destruct (eqo _ _ && eqs _ _) eqn:Eb; [|destruct H; discriminate].
  injection H as <-. exists i. split; [auto|]. split.
  - eapply creds_authenticates; eauto.
  - apply andb_true_iff in Eb as [_ Eb]. apply eqs_true in Eb. rewrite Eb. auto.
Qed.
Lemma authenticate_trace r methods tr x : exec (authenticate r methods) tr x -> Forall is_find tr.
Proof.
  intros H. apply authenticate_exec in H as [[-> _] | (? & ? & ? & ? & ? & _ & _ & _ & _ & oc & -> & _)]; constructor; [|constructor].
  unfold is_find; eauto.
Qed.
