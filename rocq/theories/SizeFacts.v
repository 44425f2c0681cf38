(** How large the tables of the example become: lemmas for C177. *)
From Coq Require Import String Ascii List NArith ZArith Bool Arith Lia.
From Verif Require Import Base BaseFacts SpecReaders Webtools Crypto Jwk Prog ProgFacts Http OAuth SpecOAuth SpecFlow Example ExampleFacts SpecLife App SpecApp AppFacts LifeFacts KeepFacts SpecSound SoundFacts SpecSize.
Import ListNotations.
Open Scope N_scope.

(** ** Refresh tokens *)
Theorem c177_refresh scopes t : set_up t -> consistent scopes t -> (length (st_rts (tb_store t)) <= length (st_clients (tb_store t)) * length (st_users (tb_store t)))%nat.
Proof.
  intros _ (_ & _ & Hp & _ & _ & Hg & _). rewrite <- (map_length cl_id), <- (map_length us_id), <- prod_length.
  replace (length (st_rts (tb_store t))) with (length (rt_pairs (tb_store t))) by (unfold rt_pairs; apply map_length).
  apply NoDup_incl_length; [exact Hp|]. intros [a b] Hi. unfold rt_pairs in Hi. apply in_map_iff in Hi as ([k row] & [= <- <-] & Hi). cbn [snd].
  destruct (Hg _ _ Hi) as ((u & Hu & <-) & c & [Hc <-] & _). apply in_prod; apply in_map; assumption.
Qed.
Theorem c177_refresh_bound E p hs : (forall b, bytes_ok (e_sha256 E b)) -> order_ok E -> forall C aware qs t0, set_up t0 -> consistent (cf_scopes (pv_config p)) t0 ->
  forall log t, app_running E p hs qs log -> app_steps C aware t0 (map snd log) t -> (length (st_rts (tb_store t)) <= length (st_clients (tb_store t0)) * length (st_users (tb_store t0)))%nat.
Proof.
  intros Hb Ho C aware qs t0 Hu Hc log t Hr Hs. destruct (c176 E p hs Hb Ho C aware qs t0 Hu Hc log t Hr Hs) as [Hu' Hc'].
  destruct (WhoFacts.c175_same C aware log t0 t Hs) as (<- & <- & _). eapply c177_refresh; eauto.
Qed.

(** ** Sessions *)
Lemma nodup_snd (f : str * str -> bool) d : NoDup (map snd d) -> NoDup (map snd (filter f d)).
Proof.
  induction d as [|z d IH]; intros H; cbn [filter map] in *; [constructor|]. inversion H as [|? ? Hn Hd]; subst. destruct (f z); [|auto].
  cbn [map]. constructor; [|auto]. intros Hc. apply Hn. apply in_map_iff in Hc as (y & <- & Hy). apply filter_In in Hy as [Hy _]. apply in_map. exact Hy.
Qed.
Lemma quiet_step C aware t o t1 : app_step C aware t o t1 -> (forall sid uid, o <> ONewSession sid uid (V tt)) -> one_session t -> one_session t1.
Proof.
  intros H Hn H0. destruct (is_lib o) as [[z ->]|Ho]; [apply lib_step in H as (_ & E & _); unfold one_session; rewrite E; exact H0|].
  destruct H as [ch T e t|T e x t]; [|exact H0]. destruct e; cbn [app_do fst snd aobserve] in *; try exact H0.
  - destruct (existsb _ _) eqn:Ee; [exact H0|]. cbn [fst] in Hn. destruct (Hn sid uid eq_refl).
  - apply nodup_snd. exact H0.
  - destruct (ex_do C aware ch e (tb_store t)) as [x s]. destruct (Ho _ eq_refl).
Qed.
Lemma quiet_steps C aware : forall tr t t', app_steps C aware t tr t' -> (forall sid uid, ~ In (ONewSession sid uid (V tt)) tr) -> one_session t -> one_session t'.
Proof.
  induction tr as [|o tr IH]; intros t t' H Hn H0; inversion H as [|? ? t1 ? ? Ho Ht]; subst; [exact H0|].
  eapply IH; [exact Ht|intros s u Hi; apply (Hn s u); right; exact Hi|]. eapply quiet_step; [exact Ho|intros s u ->; apply (Hn s u); left; reflexivity|exact H0].
Qed.
Lemma no_user_session C aware t uid t1 : app_step C aware t (OUserSession uid (V None)) t1 -> t1 = t /\ ~ In uid (map snd (tb_sessions t)).
Proof.
  intros H. remember (OUserSession uid (V None)) as z eqn:Ez. destruct H as [ch T e t|T e x t]; [|destruct e; discriminate].
  destruct e; cbn [app_do fst snd aobserve] in Ez |- *; try discriminate. injection Ez as -> Ez. split; [reflexivity|].
  intros Hi. apply in_map_iff in Hi as ([s u'] & <- & Hi). cbn [snd] in *. match type of Ez with option_map fst ?z = None => destruct z eqn:Ef; [discriminate|] end.
  pose proof (find_none _ _ Ef _ Hi) as Hf. cbn [snd] in Hf. rewrite eqs_refl in Hf. discriminate.
Qed.
Lemma token_same C aware t y t1 : app_step C aware t (OSessionToken y) t1 -> t1 = t.
Proof.
  intros H. remember (OSessionToken y) as z eqn:Ez. destruct H as [ch T e t|T e x t]; [|reflexivity].
  destruct e; cbn [app_do fst snd aobserve] in Ez |- *; try discriminate; reflexivity.
Qed.
Lemma new_one C aware t sid uid y t1 : app_step C aware t (ONewSession sid uid y) t1 -> ~ In uid (map snd (tb_sessions t)) -> one_session t -> one_session t1.
Proof.
  intros H Hn H0. remember (ONewSession sid uid y) as z eqn:Ez. destruct H as [ch T e t|T e x t]; [|exact H0].
  destruct e; cbn [app_do fst snd aobserve] in Ez |- *; try discriminate. destruct (existsb _ _); cbn [fst snd] in *; injection Ez as -> -> _; [exact H0|].
  unfold one_session. cbn [set_sessions tb_sessions map snd]. constructor; assumption.
Qed.
Section WithEnv.
Variable E : env.
Variable p : provider.
Variable hs : hooks.
Lemma one_request C aware g w tr rest x t t' : aexec (application E p hs g w) (tr ++ rest) x -> app_steps C aware t tr t' -> one_session t -> one_session t'.
Proof.
  intros Hx Hs H0. destruct (in_dec (fun a b : bool => bool_dec a b) true (map (fun o => match o with ONewSession _ _ _ => true | _ => false end) tr)) as [Hi|Hi].
  2:{ eapply quiet_steps; [exact Hs| |exact H0]. intros s u Hc. apply Hi. apply in_map_iff. eexists. split; [|exact Hc]. reflexivity. }
  apply in_map_iff in Hi as (o & Eo & Hi). destruct o; try discriminate.
  apply application_exec in Hx as [(ou & s2 & H1 & H2 & H3)|Hx].
  2:{ exfalso. destruct (Hx _ (in_or_app _ _ _ (or_introl Hi))) as (? & ? & ? & He). discriminate. }
  set (s := firstn _ _) in *. apply session_exec in H1. clearbody s.
  assert (Hns : forall a b c, ~ In (ONewSession a b c) s) by (intros a b c Hc; destruct H1 as [(_ & Es & _)|(? & ? & ? & _ & Es & _)]; rewrite Es in Hc; [destruct Hc|destruct Hc as [Hc|[]]; discriminate]).
  assert (Hpre : exists m, tr = s ++ m /\ s2 = m ++ rest).
  { clear - H1 H2 Hi. destruct H1 as [(_ & -> & _)|(u' & sid' & z & _ & -> & _)]; cbn [app] in *; [eauto|].
    destruct tr as [|o tr]; [destruct Hi|]. injection H2 as -> H2. eauto. }
  destruct Hpre as (m & -> & ->). clear H2.
  assert (Him : In (ONewSession sid uid r) m) by (apply in_app_iff in Hi as [Hi|Hi]; [destruct (Hns _ _ _ Hi)|exact Hi]).
  destruct (view_new E p hs _ _ _ _ _ _ _ _ H3 (in_or_app _ _ _ (or_introl Him))) as (_ & _ & Hl).
  apply app_steps_app in Hs as (t1 & Hs1 & Hs2).
  assert (H01 : one_session t1) by (eapply quiet_steps; [exact Hs1|intros a b; apply Hns|exact H0]).
  apply login_traces in Hl as [Hl|(_ & _ & [(z & Hl)|(a & z & tl & Hl & _ & Hr)])].
  - apply app_eq_nil in Hl as [-> _]. destruct Him.
  - destruct m as [|o1 m]; [destruct Him|]. injection Hl as -> Hl. apply app_eq_nil in Hl as [-> _]. destruct Him as [Him|[]]. discriminate.
  - destruct m as [|o1 m]; [destruct Him|]. injection Hl as -> Hl. destruct Him as [Him|Him]; [discriminate|].
    destruct m as [|o2 m]; [destruct Him|]. injection Hl as -> Hl. destruct Him as [Him|Him]; [discriminate|].
    destruct Hr as [[-> _]|(-> & [(z' & ->)|(k & q & ->)])].
    + apply app_eq_nil in Hl as [-> _]. destruct Him.
    + destruct m as [|o3 m]; [destruct Him|]. injection Hl as -> Hl. apply app_eq_nil in Hl as [-> _]. destruct Him as [Him|[]]. discriminate.
    + destruct m as [|o3 m]; [destruct Him|]. injection Hl as -> Hl. destruct Him as [Him|Him]; [discriminate|]. destruct m as [|o4 m]; [destruct Him|]. injection Hl as -> Hl. apply app_eq_nil in Hl as [-> _].
      inversion Hs2 as [|? ? t2 ? ? Q1 Q2]; subst. inversion Q2 as [|? ? t3 ? ? Q3 Q4]; subst. inversion Q4 as [|? ? t4 ? ? Q5 Q6]; subst. inversion Q6 as [|? ? t5 ? ? Q7 Q8]; subst. inversion Q8; subst.
      assert (H02 : one_session t2) by (eapply quiet_step; [exact Q1|intros; discriminate|exact H01]).
      apply no_user_session in Q3 as [-> Hno]. apply token_same in Q5 as ->. eapply new_one; eauto.
Qed.
Theorem c177_sessions C aware t t' : one_by_one E p hs C aware t t' -> one_session t -> one_session t'.
Proof. intros H H0. induction H; [exact H0|]. eapply one_request; eauto. Qed.
End WithEnv.

(** ** A request that stops after some calls *)
Lemma aexec_total {A} (q : aprog A) : exists tr x, aexec q tr x.
Proof.
  induction q as [x|T e k IH]; [exists [], x; split; reflexivity|]. destruct (IH (X (Py KeyError))) as (tr & x & H). exists (aobserve e (X (Py KeyError)) :: tr), x. cbn [aexec]. eauto.
Qed.
Fixpoint first_calls {A} (n : nat) (H : forall T, aeff T -> res T) (q : aprog A) : list aobs :=
  match n, q with
  | S n, ADo e k => aobserve e (H _ e) :: first_calls n H (k (H _ e))
  | _, _ => []
  end.
Lemma first_calls_exec {A} H : forall n (q : aprog A), exists tr x, aexec q (first_calls n H q ++ tr) x.
Proof.
  induction n as [|n IH]; intros q; [apply aexec_total|]. destruct q as [x|T e k]; [apply aexec_total|].
  destruct (IH (k (H _ e))) as (tr & x & Hx). exists tr, x. cbn [first_calls app aexec]. eauto.
Qed.

(** ** Many requests, of which one after the other makes the calls [f i] *)
Definition calls_in_turn (f : nat -> list aobs) (n : nat) : list (nat * aobs) := flat_map (fun i => map (pair i) (f i)) (seq 0 n).
Lemma turn_calls f i : forall n, acalls_of i (calls_in_turn f n) = if (i <? n)%nat then f i else [].
Proof.
  intros n. unfold calls_in_turn. induction n as [|n IH]; [reflexivity|]. rewrite seq_S, flat_map_app. cbn [flat_map Nat.add]. rewrite app_nil_r, acalls_app, IH.
  assert (Hm : forall l : list aobs, acalls_of i (map (pair n) l) = if (n =? i)%nat then l else []).
  { induction l as [|o l IHl]; [destruct (n =? i)%nat; reflexivity|]. unfold acalls_of in *. cbn [map filter fst]. destruct (n =? i)%nat; cbn [map snd]; rewrite IHl; reflexivity. }
  rewrite Hm. destruct (Nat.eqb_spec n i) as [->|Hne].
  - rewrite Nat.ltb_irrefl. replace (i <? S i)%nat with true by (symmetry; apply Nat.ltb_lt; lia). reflexivity.
  - rewrite app_nil_r. destruct (Nat.ltb_spec i n), (Nat.ltb_spec i (S n)); auto; lia.
Qed.
Lemma turn_In f n i o : In (i, o) (calls_in_turn f n) -> (i < n)%nat.
Proof. unfold calls_in_turn. intros H. apply in_flat_map in H as (j & Hj & H). apply in_map_iff in H as (z & [= <- _] & _). apply in_seq in Hj. lia. Qed.
Lemma turn_snd f n : map snd (calls_in_turn f n) = flat_map f (seq 0 n).
Proof. unfold calls_in_turn. induction (seq 0 n) as [|i l IH]; [reflexivity|]. cbn [flat_map]. rewrite map_app, IH, map_map. cbn [snd]. rewrite map_id. reflexivity. Qed.
