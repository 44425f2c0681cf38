(** Any form, URL and request: the readers of the model read the texts of SpecReaders.v. *)
From Coq Require Import String Ascii List NArith ZArith Bool Lia Arith.
From Coq Require Import ZifyBool ZifyNat ZifyN.
From Verif Require Import Base BaseFacts Utf8 Utf8Facts Base64 Base64Facts Json Url UrlFacts Webtools WebtoolsFacts Http SpecCodec SpecReaders ReaderFacts FormFacts HeaderFacts.
Import ListNotations.
Open Scope N_scope.
Ltac Zify.zify_post_hook ::= Z.div_mod_to_equations.

(** ** UTF-8 with replacement *)
Lemma enc1_shape c os : enc1 c = Some os ->
  (exists a, os = [a] /\ a < 128) \/ (exists a b, os = [a; b] /\ lead2 a = true /\ is_cont b = true) \/
  (exists a b d, os = [a; b; d] /\ lead3 a = true /\ cont3 a b = true /\ is_cont d = true) \/
  (exists a b d e, os = [a; b; d; e] /\ lead4 a = true /\ cont4 a b = true /\ is_cont d = true /\ is_cont e = true).
Proof.
  unfold enc1. destruct (c <? 128) eqn:E1; [intros H; injection H as <-; left; exists c; split; [auto|lia]|].
  destruct (c <? 2048) eqn:E2; [intros H; injection H as <-; right; left; eexists _, _; split; [reflexivity|]; unfold lead2, is_cont; lia|].
  destruct (is_scalar c) eqn:Es; cbn [negb]; [|discriminate]. unfold is_scalar in Es.
  destruct (c <? 65536) eqn:E3; intros H; injection H as <-; right; right; [left|right].
  - eexists _, _, _. split; [reflexivity|]. unfold lead3, cont3, is_cont. lia.
  - eexists _, _, _, _. split; [reflexivity|]. unfold lead4, cont4, is_cont. lia.
Qed.
Ltac bl H := repeat match type of H with _ /\ _ => let H1 := fresh in destruct H as [H1 H]; rewrite ?H1 end; rewrite ?H; rewrite ?orb_true_r; reflexivity.
Lemma begins_iff p : p <> [] -> (begins p <->
  (exists a, p = [a] /\ (lead2 a || lead3 a || lead4 a) = true) \/
  (exists a b, p = [a; b] /\ ((lead3 a && cont3 a b) || (lead4 a && cont4 a b)) = true) \/
  (exists a b d, p = [a; b; d] /\ (lead4 a && cont4 a b && is_cont d) = true)).
Proof.
  intros Hp. split.
  - intros (c & q & Hq & E). rewrite <- enc1_rfc in E.
    apply enc1_shape in E as [(a & E & H)|[(a & b & E & H)|[(a & b & d & E & H)|(a & b & d & e & E & H)]]];
      (destruct p as [|x p]; [congruence|]); cbn [app] in E; injection E as -> E.
    + destruct p; [cbn [app] in E; subst; congruence|discriminate].
    + destruct p as [|y p]; [left; exists a; split; [auto|bl H]|]. cbn [app] in E. injection E as -> E.
      destruct p; [cbn [app] in E; subst; congruence|discriminate].
    + destruct p as [|y p]; [left; exists a; split; [auto|bl H]|]. cbn [app] in E. injection E as -> E.
      destruct p as [|z p]; [right; left; exists a, b; split; [auto|bl H]|]. cbn [app] in E. injection E as -> E.
      destruct p; [cbn [app] in E; subst; congruence|discriminate].
    + destruct p as [|y p]; [left; exists a; split; [auto|bl H]|]. cbn [app] in E. injection E as -> E.
      destruct p as [|z p]; [right; left; exists a, b; split; [auto|bl H]|]. cbn [app] in E. injection E as -> E.
      destruct p as [|w p]; [right; right; exists a, b, d; split; [auto|bl H]|]. cbn [app] in E. injection E as -> E.
      destruct p; [cbn [app] in E; subst; congruence|discriminate].
  - intros [(a & -> & H)|[(a & b & -> & H)|(a & b & d & -> & H)]].
    + destruct (lead2 a) eqn:L2; [exists (cp2 a 128), [128]; split; [discriminate|]; rewrite <- enc1_rfc; apply enc_dec2; auto|].
      destruct (lead3 a) eqn:L3.
      * exists (cp3 a (if a =? 224 then 160 else 128) 128), [if a =? 224 then 160 else 128; 128]. split; [discriminate|]. rewrite <- enc1_rfc.
        apply enc_dec3; auto. unfold cont3, is_cont, lead3 in *. destruct (N.eqb_spec a 224); lia.
      * cbn [orb] in H. exists (cp4 a (if a =? 240 then 144 else 128) 128 128), [if a =? 240 then 144 else 128; 128; 128]. split; [discriminate|]. rewrite <- enc1_rfc.
        apply enc_dec4; auto. unfold cont4, is_cont, lead4 in *. destruct (N.eqb_spec a 240); lia.
    + apply orb_prop in H as [H|H]; apply andb_prop in H as [H1 H2].
      * exists (cp3 a b 128), [128]. split; [discriminate|]. rewrite <- enc1_rfc. apply enc_dec3; auto.
      * exists (cp4 a b 128 128), [128; 128]. split; [discriminate|]. rewrite <- enc1_rfc. apply enc_dec4; auto.
    + apply andb_prop in H as [H H3]. apply andb_prop in H as [H1 H2].
      exists (cp4 a b d 128), [128]. split; [discriminate|]. rewrite <- enc1_rfc. apply enc_dec4; auto.
Qed.
Lemma no_char a t : (a <? 128) = false ->
  (lead2 a = true -> forall b r, t = b :: r -> is_cont b = false) ->
  (lead3 a = true -> forall b d r, t = b :: d :: r -> cont3 a b && is_cont d = false) ->
  (lead4 a = true -> forall b d e r, t = b :: d :: e :: r -> cont4 a b && is_cont d && is_cont e = false) ->
  forall c os r, a :: t = os ++ r -> rfc3629 c <> Some os.
Proof.
  intros Ha H2 H3 H4 c os r E K. rewrite <- enc1_rfc in K.
  apply enc1_shape in K as [(x & -> & H)|[(x & b & -> & H & H')|[(x & b & d & -> & H & H' & H'')|(x & b & d & e & -> & H & H' & H'' & H''')]]];
    cbn [app] in E; injection E as -> ->.
  - lia.
  - rewrite (H2 H b r eq_refl) in H'. discriminate.
  - specialize (H3 H b d r eq_refl). rewrite H', H'' in H3. discriminate.
  - specialize (H4 H b d e r eq_refl). rewrite H', H'', H''' in H4. discriminate.
Qed.
Lemma not_begins p : p <> [] ->
  (forall a, p = [a] -> lead2 a = false /\ lead3 a = false /\ lead4 a = false) ->
  (forall a b, p = [a; b] -> lead3 a && cont3 a b = false /\ lead4 a && cont4 a b = false) ->
  (forall a b d, p = [a; b; d] -> lead4 a && cont4 a b && is_cont d = false) -> ~ begins p.
Proof.
  intros Hp H1 H2 H3 H. apply begins_iff in H; auto. destruct H as [(a & E & H)|[(a & b & E & H)|(a & b & d & E & H)]].
  - destruct (H1 _ E) as (K1 & K2 & K3). rewrite K1, K2, K3 in H. discriminate.
  - destruct (H2 _ _ E) as (K1 & K2). rewrite K1, K2 in H. discriminate.
  - rewrite (H3 _ _ _ E) in H. discriminate.
Qed.
Ltac lists := repeat match goal with H : _ :: _ = _ |- _ => first [discriminate H | inversion H; subst; clear H] | H : [] = _ :: _ |- _ => discriminate H end.
Ltac falsify :=
  repeat match goal with |- _ /\ _ => split end;
  match goal with |- ?x = false => let K := fresh in destruct x eqn:K; [exfalso; bd; try congruence; unfold lead2, lead3, lead4 in *; lia|reflexivity] end.
Ltac refute := apply no_char; [assumption| | |]; intros; lists; falsify.
Ltac nobegin := intros; lists; apply not_begins; [discriminate| | |]; intros; lists; falsify.
Lemma lossy_replace t : lossy t (utf8_replace t).
Proof.
  remember (length t) as n eqn:Hn. revert t Hn. induction n as [n IH] using (well_founded_induction Nat.lt_wf_0). intros t ->.
  assert (K : forall u, (length u < length t)%nat -> lossy u (utf8_replace u)) by (intros; eapply IH; eauto). clear IH.
  destruct t as [|a t]; [constructor|]. cbn [utf8_replace].
  destruct (a <? 128) eqn:E0; [apply (ly_char a [a]); [rewrite <- enc1_rfc; apply enc1_ascii; lia|apply K; cbn; lia]|].
  assert (One : forall u s, (forall c os r, a :: u = os ++ r -> rfc3629 c <> Some os) -> (forall x r, u = x :: r -> ~ begins [a; x]) -> lossy u s -> lossy (a :: u) (FFFD :: s)).
  { intros u s H1 H2 H3. apply (ly_bad [a]); auto. discriminate. }
  destruct (lead2 a) eqn:L2.
  { destruct t as [|b t]; [apply One; [refute|intros; discriminate|constructor]|].
    destruct (is_cont b) eqn:C1; [apply (ly_char _ [a; b]); [rewrite <- enc1_rfc; apply enc_dec2; auto|apply K; cbn; lia]|].
    apply One; [refute|nobegin|apply K; cbn; lia]. }
  destruct (lead3 a) eqn:L3.
  { destruct t as [|b t]; [apply One; [refute|intros; discriminate|constructor]|].
    destruct (cont3 a b) eqn:C1; [|apply One; [refute|nobegin|apply K; cbn; lia]].
    assert (B : begins [a; b]) by (apply begins_iff; [discriminate|]; right; left; exists a, b; rewrite L3, C1; auto).
    destruct t as [|d t]; [apply (ly_bad [a; b]); [discriminate|auto|cbn [app]; refute|intros; discriminate|constructor]|].
    destruct (is_cont d) eqn:C2; [apply (ly_char _ [a; b; d]); [rewrite <- enc1_rfc; apply enc_dec3; auto|apply K; cbn; lia]|].
    apply (ly_bad [a; b]); [discriminate|auto|cbn [app]; refute|cbn [app]; nobegin|apply K; cbn; lia]. }
  destruct (lead4 a) eqn:L4.
  { destruct t as [|b t]; [apply One; [refute|intros; discriminate|constructor]|].
    destruct (cont4 a b) eqn:C1; [|apply One; [refute|nobegin|apply K; cbn; lia]].
    assert (B : begins [a; b]) by (apply begins_iff; [discriminate|]; right; left; exists a, b; rewrite L4, C1, orb_true_r; auto).
    destruct t as [|d t]; [apply (ly_bad [a; b]); [discriminate|auto|cbn [app]; refute|intros; discriminate|constructor]|].
    destruct (is_cont d) eqn:C2; [|apply (ly_bad [a; b]); [discriminate|auto|cbn [app]; refute|cbn [app]; nobegin|apply K; cbn; lia]].
    assert (B3 : begins [a; b; d]) by (apply begins_iff; [discriminate|]; right; right; exists a, b, d; rewrite L4, C1, C2; auto).
    destruct t as [|e t]; [apply (ly_bad [a; b; d]); [discriminate|auto|cbn [app]; refute|intros; discriminate|constructor]|].
    destruct (is_cont e) eqn:C3; [apply (ly_char _ [a; b; d; e]); [rewrite <- enc1_rfc; apply enc_dec4; auto|apply K; cbn; lia]|].
    apply (ly_bad [a; b; d]); [discriminate|auto|cbn [app]; refute|cbn [app]; nobegin|apply K; cbn; lia]. }
  apply One; [refute|nobegin|apply K; cbn; lia].
Qed.
Lemma prefix_begins p q : p <> [] -> begins (p ++ q) -> begins p.
Proof. intros Hp (c & r & Hr & E). exists c, (q ++ r). rewrite app_assoc. split; auto. intros K. apply app_eq_nil in K as [_ K]. auto. Qed.
Lemma app_cases {A} (p t q u : list A) : p ++ t = q ++ u -> (exists x r, q = p ++ x :: r) \/ (exists x r, p = q ++ x :: r) \/ (p = q /\ t = u).
Proof.
  revert q. induction p as [|a p IH]; intros [|b q] E; cbn [app] in *.
  - auto.
  - left. exists b, q. reflexivity.
  - right. left. exists a, p. reflexivity.
  - injection E as -> E. destruct (IH _ E) as [(x & r & ->)|[(x & r & ->)|[-> ->]]]; [left; exists x, r; reflexivity|right; left; exists x, r; reflexivity|auto].
Qed.
Lemma lossy_inv t s : lossy t s -> (t = [] /\ s = []) \/
  (exists c os t' s', t = os ++ t' /\ s = c :: s' /\ rfc3629 c = Some os /\ lossy t' s') \/
  (exists p t' s', t = p ++ t' /\ s = 65533 :: s' /\ p <> [] /\ (begins p \/ List.length p = 1%nat) /\
    (forall c os r, p ++ t' = os ++ r -> rfc3629 c <> Some os) /\ (forall x r, t' = x :: r -> ~ begins (p ++ [x])) /\ lossy t' s').
Proof.
  destruct 1 as [|c os t s Hc H|p t s Hp Hb Hn Hm H]; [auto|right; left; exists c, os, t, s; auto|right; right; exists p, t, s].
  do 6 (split; [auto|]). auto.
Qed.
Lemma char_nonempty c os : rfc3629 c = Some os -> os <> [].
Proof. rewrite <- enc1_rfc. intros H. apply enc1_inv in H. tauto. Qed.
Lemma lossy_fun t s : lossy t s -> forall s', lossy t s' -> s = s'.
Proof.
  induction 1 as [|c os t s Hc H IH|p t s Hp Hb Hn Hm H IH]; intros s' H'; apply lossy_inv in H' as
    [(E1 & ->)|[(c' & os' & t' & u & E1 & -> & Hc' & H2)|(p' & t' & u & E1 & -> & Hp' & Hb' & Hn' & Hm' & H2)]].
  - reflexivity.
  - symmetry in E1. apply app_eq_nil in E1 as [-> _]. destruct (char_nonempty _ _ Hc' eq_refl).
  - symmetry in E1. apply app_eq_nil in E1 as [-> _]. congruence.
  - apply app_eq_nil in E1 as [-> _]. destruct (char_nonempty _ _ Hc eq_refl).
  - pose proof Hc as K. pose proof Hc' as K'. rewrite <- enc1_rfc in K, K'.
      pose proof (enc1_decode _ _ [] K) as D. pose proof (enc1_decode _ _ [] K') as D'. rewrite app_nil_r in D, D'. cbn [utf8_decode ocons] in D, D'.
      assert (M : forall a b x r, enc1 a = Some b -> enc1 x = Some (b ++ r) -> r = []).
      { intros a b x r Ea Ex. destruct r as [|y r]; auto. exfalso. apply enc1_shape in Ea, Ex.
        destruct Ea as [(? & -> & ?)|[(? & ? & -> & ? & ?)|[(? & ? & ? & -> & ? & ? & ?)|(? & ? & ? & ? & -> & ? & ? & ? & ?)]]];
        destruct Ex as [(? & Ex & ?)|[(? & ? & Ex & ? & ?)|[(? & ? & ? & Ex & ? & ? & ?)|(? & ? & ? & ? & Ex & ? & ? & ? & ?)]]];
        cbn [app] in Ex; injection Ex; intros; subst; unfold lead2, lead3, lead4 in *; try lia; try discriminate. }
      destruct (app_cases _ _ _ _ E1) as [(x & r & ->)|[(x & r & ->)|[-> ->]]].
      * specialize (M _ _ _ _ K K'). discriminate.
      * specialize (M _ _ _ _ K' K). discriminate.
      * f_equal; [congruence|auto].
  - exfalso. eapply Hn'; [symmetry; exact E1|exact Hc].
  - apply app_eq_nil in E1 as [-> _]. congruence.
  - exfalso. eapply Hn; [exact E1|exact Hc'].
  - destruct (app_cases _ _ _ _ E1) as [(x & r & ->)|[(x & r & ->)|[-> ->]]]; [| |f_equal; auto].
    + exfalso. rewrite <- app_assoc in E1. apply app_inv_head in E1. eapply Hm; [cbn [app] in E1; exact E1|].
      destruct Hb' as [Hb'|Hb']; [|rewrite app_length in Hb'; cbn in Hb'; destruct p; [congruence|cbn in Hb'; lia]].
      apply (prefix_begins _ r); [destruct p; discriminate|]. rewrite <- app_assoc. exact Hb'.
    + exfalso. rewrite <- app_assoc in E1. symmetry in E1. apply app_inv_head in E1. eapply Hm'; [cbn [app] in E1; exact E1|].
      destruct Hb as [Hb|Hb]; [|rewrite app_length in Hb; cbn in Hb; destruct p'; [congruence|cbn in Hb; lia]].
      apply (prefix_begins _ r); [destruct p'; discriminate|]. rewrite <- app_assoc. exact Hb.
Qed.
Lemma lossy_iff t s : lossy t s <-> utf8_replace t = s.
Proof. split; [intros H; eapply lossy_fun; [apply lossy_replace|exact H]|intros <-; apply lossy_replace]. Qed.

(** ** The octets of a text *)
Lemma unquote_percent c t : (forall p o r, c :: t = p ++ r -> ~ percent p o) -> c <> 43 -> unquote_bytes (map plus_sp (c :: t)) = c :: unquote_bytes (map plus_sp t).
Proof.
  intros H Hc. cbn [map]. assert (plus_sp c = c) as -> by (unfold plus_sp; replace (c =? 43) with false by lia; reflexivity).
  cbn [unquote_bytes]. destruct (N.eqb_spec c 37) as [->|]; auto. destruct t as [|a [|b t]]; cbn [map]; auto.
  destruct (hexval (plus_sp a)) as [x|] eqn:Ea; auto. destruct (hexval (plus_sp b)) as [y|] eqn:Eb; auto. exfalso.
  assert (P : forall e z, hexval (plus_sp e) = Some z -> In (e, z) hex_digits).
  { intros e z. unfold plus_sp. destruct (N.eqb_spec e 43) as [->|]; [cbn; discriminate|]. apply hex_in. }
  apply (H [37; a; b] (16 * x + y) t eq_refl). exists a, b, x, y. auto.
Qed.
Lemma octets_read t os : form_octets t os -> Forall (fun c => c < 128) t /\ unquote_bytes (map plus_sp t) = os.
Proof.
  induction 1 as [|t os H [IH1 IH2]|p o t os Hp H [IH1 IH2]|c t os Hc Hn Hp H [IH1 IH2]].
  - split; [constructor|reflexivity].
  - split; [constructor; [lia|auto]|]. cbn [map]. change (plus_sp 43) with 32. cbn [unquote_bytes]. change (32 =? 37) with false. cbv iota. congruence.
  - split; [|rewrite map_app, (percent_unquote _ _ _ Hp); congruence]. apply Forall_app. split; auto.
    destruct Hp as (a & b & x & y & -> & Ha & Hb & _). apply hex_char in Ha, Hb. repeat constructor; lia.
  - split; [constructor; auto|]. rewrite unquote_percent by auto. congruence.
Qed.
Lemma percent_dec t : (exists p o r, t = p ++ r /\ percent p o) \/ (forall p o r, t = p ++ r -> ~ percent p o).
Proof.
  destruct t as [|c [|a [|b t]]];
    try (right; intros p o r E (a' & b' & x & y & -> & _); cbn [app] in E; discriminate E).
  destruct (N.eqb_spec c 37) as [->|Hc]; [|right; intros p o r E (a' & b' & x & y & -> & _); cbn [app] in E; congruence].
  destruct (hexval a) as [x|] eqn:Ea; [destruct (hexval b) as [y|] eqn:Eb|].
  - left. exists [37; a; b], (16 * x + y), t. split; auto. exists a, b, x, y. apply hex_in in Ea, Eb. auto.
  - right. intros p o r E (a' & b' & x' & y' & -> & _ & Hb & _). cbn [app] in E. injection E as -> -> ->. apply hex_in in Hb. congruence.
  - right. intros p o r E (a' & b' & x' & y' & -> & Ha & _). cbn [app] in E. injection E as -> -> ->. apply hex_in in Ha. congruence.
Qed.
Lemma octets_of t : Forall (fun c => c < 128) t -> form_octets t (unquote_bytes (map plus_sp t)).
Proof.
  remember (length t) as n eqn:Hn. revert t Hn. induction n as [n IH] using (well_founded_induction Nat.lt_wf_0). intros t -> Ht.
  destruct (percent_dec t) as [(p & o & r & -> & Hp)|Hno].
  - rewrite map_app, (percent_unquote _ _ _ Hp). apply Forall_app in Ht as [_ Ht]. apply fo_percent; auto. apply (IH (length r)); [|reflexivity|exact Ht].
    destruct Hp as (a & b & x & y & -> & _). cbn. lia.
  - destruct t as [|c t]; [constructor|]. inversion Ht as [|? ? Hc Ht']; subst. assert (K : form_octets t (unquote_bytes (map plus_sp t))) by (apply (IH (length t)); [cbn; lia|reflexivity|exact Ht']).
    destruct (N.eqb_spec c 43) as [->|Hc3].
    + cbn [map]. change (plus_sp 43) with 32. cbn [unquote_bytes]. change (32 =? 37) with false. cbv iota. apply fo_space. exact K.
    + rewrite unquote_percent by auto. apply fo_plain; auto.
Qed.
Lemma unquote_more a c t acc : Forall (fun x => x < 128) a -> 128 <= c ->
  unquote_aux (a ++ c :: t) acc = utf8_replace (unquote_bytes (acc ++ a)) ++ c :: unquote_aux t [].
Proof.
  intros Ha Hc. revert acc. induction Ha as [|x a Hx Ha IH]; intros acc; cbn [app unquote_aux].
  - replace (c <? 128) with false by lia. rewrite app_nil_r. reflexivity.
  - replace (x <? 128) with true by lia. rewrite IH, <- app_assoc. reflexivity.
Qed.
Lemma plus_ascii a : Forall (fun x => x < 128) a -> Forall (fun x => x < 128) (map plus_sp a).
Proof. intros H. apply Forall_map. eapply Forall_impl; [|exact H]. intros x Hx. cbv beta in *. unfold plus_sp. destruct (x =? 43); lia. Qed.
Lemma string_read t s : form_string t s -> unquote_plus t = s.
Proof.
  unfold unquote_plus, unquote. change (fun c => if c =? 43 then 32 else c) with plus_sp.
  induction 1 as [a os s Ha Hs|a os s c t u Ha Hs Hc H IH]; apply octets_read in Ha as [H1 H2]; apply lossy_iff in Hs.
  - rewrite unquote_aux_ascii by (apply plus_ascii; auto). cbn [app]. congruence.
  - rewrite map_app. cbn [map]. assert (plus_sp c = c) as -> by (unfold plus_sp; replace (c =? 43) with false by lia; reflexivity).
    rewrite unquote_more by (auto using plus_ascii). cbn [app]. congruence.
Qed.
Lemma ascii_split t : Forall (fun x => x < 128) t \/ exists a c r, t = a ++ c :: r /\ Forall (fun x => x < 128) a /\ 128 <= c.
Proof.
  induction t as [|x t IH]; [left; constructor|]. destruct (N.lt_ge_cases x 128) as [Hx|Hx]; [|right; exists [], x, t; auto].
  destruct IH as [H|(a & c & r & -> & Ha & Hc)]; [left; constructor; auto|]. right. exists (x :: a), c, r. split; auto.
Qed.
Lemma string_of t : form_string t (unquote_plus t).
Proof.
  remember (length t) as n eqn:Hn. revert t Hn. induction n as [n IH] using (well_founded_induction Nat.lt_wf_0). intros t ->.
  unfold unquote_plus, unquote in *. change (fun c => if c =? 43 then 32 else c) with plus_sp in *.
  destruct (ascii_split t) as [Ht|(a & c & r & -> & Ha & Hc)].
  - rewrite unquote_aux_ascii by (apply plus_ascii; auto). apply (fs_last _ (unquote_bytes (map plus_sp t))); [apply octets_of; auto|apply lossy_replace].
  - rewrite map_app. cbn [map]. assert (plus_sp c = c) as -> by (unfold plus_sp; replace (c =? 43) with false by lia; reflexivity).
    rewrite unquote_more by (auto using plus_ascii). apply (fs_more a (unquote_bytes (map plus_sp a))); [apply octets_of; auto|apply lossy_replace|auto|].
    apply (IH (length r)); [|reflexivity]. rewrite app_length. cbn. lia.
Qed.
Lemma string_iff t s : form_string t s <-> unquote_plus t = s.
Proof. split; [apply string_read|intros <-; apply string_of]. Qed.

(** ** Forms *)
Lemma piece_iff p l : ~ In 38 p -> (piece_text p l <-> parse_piece p = l).
Proof.
  intros Hp. unfold parse_piece. split.
  - destruct 1 as [p _ H|n _ H|n n' v v' _ H _ Hv Hn' Hv'].
    + apply split1_none in H. rewrite H. reflexivity.
    + rewrite split1_app by auto. reflexivity.
    + rewrite split1_app by auto. apply string_iff in Hn', Hv'. rewrite Hn', Hv'. destruct v; [congruence|reflexivity].
  - destruct (split1 61 p) as [[n v]|] eqn:E; [|intros <-; apply pi_none; auto; apply split1_none; auto].
    apply split1_some in E as [-> Hn]. assert (~ In 38 n /\ ~ In 38 v) as [K1 K2] by (split; intros K; apply Hp, in_app_iff; cbn [In]; auto).
    destruct v as [|x v]; intros <-; [apply pi_blank; auto|]. apply pi_pair; auto using string_of. discriminate.
Qed.
Lemma piece_sep p l : piece_text p l -> ~ In 38 p.
Proof. destruct 1; auto; rewrite in_app_iff; cbn [In]; intuition discriminate. Qed.
Lemma all_read t l : form_all t l -> parse_qsl t = l.
Proof.
  unfold parse_qsl. induction 1 as [p l H|p l t m H Ht IH]; pose proof (piece_sep _ _ H) as K; apply piece_iff in H; auto.
  - rewrite split_on_none by auto. cbn [flat_map]. rewrite app_nil_r. exact H.
  - rewrite split_on_app by auto. cbn [flat_map]. congruence.
Qed.
Lemma all_of t : form_all t (parse_qsl t).
Proof.
  remember (length t) as n eqn:Hn. revert t Hn. induction n as [n IH] using (well_founded_induction Nat.lt_wf_0). intros t ->. unfold parse_qsl in *.
  destruct (split1 38 t) as [[p r]|] eqn:E.
  - apply split1_some in E as [-> Hp]. rewrite split_on_app by auto. cbn [flat_map]. apply fa_more; [apply piece_iff; auto|].
    apply (IH (length r)); [|reflexivity]. rewrite app_length. cbn. lia.
  - apply split1_none in E. rewrite split_on_none by auto. cbn [flat_map]. rewrite app_nil_r. apply fa_last. apply piece_iff; auto.
Qed.
Lemma all_iff t l : form_all t l <-> parse_qsl t = l.
Proof. split; [apply all_read|intros <-; apply all_of]. Qed.
Lemma form_total t d : urldecode t = d <-> exists l, form_all t l /\ d = merged l.
Proof.
  unfold urldecode. rewrite merged_dict. split; [intros <-; exists (parse_qsl t); split; [apply all_of|reflexivity]|].
  intros (l & H & ->). apply all_iff in H. congruence.
Qed.

(** ** URLs *)
Lemma cleaned_iff url u : cleaned url u <-> clean_url url = u.
Proof.
  unfold cleaned, clean_url.
  assert (F : forall r, filter (fun c => negb (existsb (N.eqb c) [9; 10; 13])) r = filter (fun c => negb ((c =? 9) || (c =? 10) || (c =? 13))) r).
  { intros r. apply filter_ext. intros c. cbn [existsb]. rewrite orb_false_r, orb_assoc. reflexivity. }
  split.
  - intros (b & r & -> & Hb & Hr & ->). rewrite F. f_equal. induction Hb as [|c b Hc Hb IH]; cbn [app].
    + destruct r as [|c r]; auto. specialize (Hr c r eq_refl). cbn [lstrip_ctl]. replace (c <=? 32) with false by lia. reflexivity.
    + cbn [lstrip_ctl]. replace (c <=? 32) with true by lia. exact IH.
  - intros <-. induction url as [|c url IH]; [exists [], []; split; auto; split; [constructor|]; split; [intros; discriminate|reflexivity]|].
    cbn [lstrip_ctl]. destruct (c <=? 32) eqn:E.
    + destruct IH as (b & r & -> & Hb & Hr & E2). exists (c :: b), r. split; auto. split; [constructor; [lia|auto]|]. auto.
    + exists [], (c :: url). split; auto. split; [constructor|]. split; [intros ? ? K; injection K as <- <-; lia|]. rewrite F. reflexivity.
Qed.
Lemma fragment f : In (firstn 1 f) [[]; [35]] <-> f = [] \/ exists r, f = 35 :: r.
Proof.
  destruct f as [|c f]; cbn [firstn In]; [split; auto|]. split.
  - intros [H|[H|[]]]; [discriminate|]. injection H as <-. right. exists f. reflexivity.
  - intros [H|(r & H)]; [discriminate|]. injection H as -> ->. auto.
Qed.
Lemma nofrag_app a f : ~ In 35 a -> In (firstn 1 f) [[]; [35]] -> url_nofrag (a ++ f) = a.
Proof.
  intros Ha Hf. unfold url_nofrag. apply fragment in Hf as [->|(r & ->)].
  - rewrite app_nil_r. apply split1_none in Ha. rewrite Ha. reflexivity.
  - rewrite split1_app by auto. reflexivity.
Qed.
Lemma query_iff u q : query_text u q <-> url_query u = q.
Proof.
  unfold url_query. split.
  - destruct 1 as [a q f H1 H2 H3 Hf|a f H1 H2 Hf].
    + replace (a ++ 63 :: q ++ f) with ((a ++ 63 :: q) ++ f) by (rewrite <- app_assoc; reflexivity).
      rewrite nofrag_app; [|intros K; apply in_app_iff in K as [K|[K|K]]; [auto|discriminate|auto]|auto]. rewrite split1_app by auto. reflexivity.
    + rewrite nofrag_app by auto. apply split1_none in H2. rewrite H2. reflexivity.
  - assert (N : exists a f, u = a ++ f /\ ~ In 35 a /\ In (firstn 1 f) [[]; [35]] /\ url_nofrag u = a).
    { unfold url_nofrag. destruct (split1 35 u) as [[a f]|] eqn:E.
      - apply split1_some in E as [-> Ha]. exists a, (35 :: f). split; [auto|]. split; [auto|]. split; [right; left; reflexivity|reflexivity].
      - apply split1_none in E. exists u, []. rewrite app_nil_r. split; [auto|]. split; [auto|]. split; [left; reflexivity|reflexivity]. }
    destruct N as (a & f & -> & Ha & Hf & ->). destruct (split1 63 a) as [[b q']|] eqn:E.
    + intros <-. apply split1_some in E as [-> Hb]. rewrite <- app_assoc. cbn [app]. apply qt_some; auto; intros K; apply Ha, in_app_iff; cbn [In]; auto.
    + intros <-. apply split1_none in E. apply qt_none; auto.
Qed.
Lemma scheme_iff c : scheme_char c = true <-> 65 <= c <= 90 \/ 97 <= c <= 122 \/ digit c \/ In c (chars "+-.").
Proof. change (chars "+-.") with [43; 45; 46]. unfold scheme_char, ascii_alpha, digit. cbn [In]. lia. Qed.
Lemma drop_iff u r : drop_scheme u = 47 :: r <-> exists p, u = p ++ 47 :: r /\ scheme_text p.
Proof.
  unfold drop_scheme. split.
  - destruct (split1 58 u) as [[[|c s] rest]|] eqn:E; [intros ->; exists []; split; [reflexivity|left; reflexivity]| |intros ->; exists []; split; [reflexivity|left; reflexivity]].
    destruct (ascii_alpha c && forallb scheme_char s) eqn:Es; [|intros ->; exists []; split; [reflexivity|left; reflexivity]].
    intros ->. apply split1_some in E as [-> _]. apply andb_prop in Es as [Ec Es]. exists (c :: s ++ [58]). cbn [app]. rewrite <- app_assoc.
    split; [reflexivity|]. right. exists c, s. split; [reflexivity|]. split; [unfold ascii_alpha in Ec; lia|].
    apply Forall_forall. intros x Hx. rewrite forallb_forall in Es. apply scheme_iff, Es, Hx.
  - intros (p & -> & [->|(c & s & -> & Hc & Hs)]).
    + cbn [app]. destruct (split1 58 (47 :: r)) as [[[|c s] rest]|] eqn:E; auto. apply split1_some in E as [E _]. cbn [app] in E. injection E as <- _. reflexivity.
    + replace ((c :: s ++ [58]) ++ 47 :: r) with ((c :: s) ++ 58 :: 47 :: r) by (cbn [app]; rewrite <- app_assoc; reflexivity).
      rewrite split1_app.
      * replace (ascii_alpha c) with true by (unfold ascii_alpha; lia). replace (forallb scheme_char s) with true; [reflexivity|]. symmetry.
        apply forallb_forall. intros x Hx. rewrite Forall_forall in Hs. apply scheme_iff, Hs, Hx.
      * intros [K|K]; [lia|]. rewrite Forall_forall in Hs. apply Hs in K. change (chars "+-.") with [43; 45; 46] in K. unfold digit in K. cbn [In] in K. lia.
Qed.
Lemma netloc_iff r n : netloc_of r = n <-> exists f, r = n ++ f /\ Forall (fun c => ~ In c (chars "/?#")) n /\ In (firstn 1 f) [[]; [47]; [63]; [35]].
Proof.
  change (chars "/?#") with [47; 63; 35]. split.
  - intros <-. induction r as [|c r (f & E & H1 & H2)]; [exists []; cbn; auto|]. cbn [netloc_of]. destruct ((c =? 47) || (c =? 63) || (c =? 35)) eqn:Ec.
    + exists (c :: r). split; [reflexivity|]. split; [constructor|]. cbn [firstn In]. assert (c = 47 \/ c = 63 \/ c = 35) as [->|[->| ->]] by lia; auto.
    + exists f. cbn [app]. split; [congruence|]. split; [|auto]. constructor; [|auto]. cbn [In]. lia.
  - intros (f & -> & H & Hf). induction H as [|c n Hc H IH]; cbn [app].
    + destruct f as [|c f]; auto. cbn [firstn In] in Hf. cbn [netloc_of].
      replace ((c =? 47) || (c =? 63) || (c =? 35)) with true; auto. symmetry.
      destruct Hf as [Hf|[Hf|[Hf|[Hf|[]]]]]; [discriminate| | |]; injection Hf as <-; reflexivity.
    + cbn [netloc_of]. cbn [In] in Hc. replace ((c =? 47) || (c =? 63) || (c =? 35)) with false by lia. congruence.
Qed.
Lemma authority_iff u n : authority u n <-> exists r, drop_scheme u = 47 :: 47 :: r /\ netloc_of r = n.
Proof.
  unfold authority. split.
  - intros (p & f & -> & Hp & Hn & Hf). exists (n ++ f). split; [apply drop_iff; exists p; auto|]. apply netloc_iff. exists f. auto.
  - intros (r & Hd & Hn). apply drop_iff in Hd as (p & -> & Hp). apply netloc_iff in Hn as (f & -> & Hn & Hf). exists p, f. auto.
Qed.
Lemma inc_In c l : inc c l = true <-> In c l.
Proof.
  unfold inc. rewrite existsb_exists. split; [intros (x & Hx & E); apply N.eqb_eq in E; congruence|intros H; exists c; split; [auto|apply N.eqb_refl]].
Qed.
Lemma brackets_iff u : brackets_match u <-> bad_netloc u = false.
Proof.
  unfold brackets_match, bad_netloc. split.
  - intros H. destruct (drop_scheme u) as [|a [|b r]] eqn:E; auto. destruct ((a =? 47) && (b =? 47)) eqn:Eab; auto.
    assert (a = 47 /\ b = 47) as [-> ->] by lia. specialize (H (netloc_of r)). rewrite <- !inc_In in H.
    assert (K : authority u (netloc_of r)) by (apply authority_iff; exists r; auto). apply H in K. cbv zeta. destruct (inc 91 _), (inc 93 _); intuition discriminate.
  - intros H n Hn. apply authority_iff in Hn as (r & E & <-). rewrite E in H. change ((47 =? 47) && (47 =? 47)) with true in H. cbv iota zeta in H.
    rewrite <- !inc_In. destruct (inc 91 _), (inc 93 _); intuition discriminate.
Qed.

(** ** Requests *)
Lemma body_iff b l : (forall x, b = Some x -> bytes_ok x) -> (body_pairs b l <-> match b with None => [] | Some x => parse_qsl (to_string x) end = l).
Proof.
  intros Hb. unfold body_pairs. destruct b as [b|]; [|split; intros H; symmetry; exact H]. specialize (Hb b eq_refl). unfold to_string.
  destruct (utf8_decode b) as [s|] eqn:E.
  - apply utf8_encode_decode in E. pose proof E as E'. apply utf8_rfc in E'. split.
    + intros [(t & Et & H)|[H _]]; [|destruct (H s E')]. apply utf8_rfc in Et. rewrite (utf8_encode_inj _ _ _ E Et). apply all_iff, H.
    + intros <-. left. exists s. split; [auto|apply all_of].
  - assert (Nt : forall t, rfc3629_str t <> Some b) by (intros t K; apply utf8_rfc, utf8_decode_encode in K; congruence).
    assert (P : parse_qsl (base64url_encode b) = []).
    { unfold parse_qsl. pose proof (base64url_encode_url b Hb) as U. rewrite Forall_forall in U.
      rewrite split_on_none by (intros K; apply U in K; discriminate). cbn [flat_map]. rewrite app_nil_r. unfold parse_piece.
      replace (split1 61 (base64url_encode b)) with (@None (list N * list N)); auto. symmetry. apply split1_none. intros K. apply U in K. discriminate. }
    rewrite P. split; [intros [(t & Et & _)|[_ ->]]; [destruct (Nt t Et)|auto]|intros <-; auto].
Qed.
Lemma dset_swap {V} k (v : V) j w d : j <> k -> In k (keys d) -> dset k v (dset j w d) = dset j w (dset k v d).
Proof.
  intros Hn. induction d as [|[a x] d IH]; cbn [keys map fst In]; [tauto|]. intros Hk. cbn [dset].
  destruct (eqs_spec j a) as [->|Hj]; destruct (eqs_spec k a) as [->|Hka]; cbn [dset]; rewrite ?eqs_refl.
  - congruence.
  - destruct (eqs_spec k a); [congruence|]. reflexivity.
  - destruct (eqs_spec j a); [congruence|]. reflexivity.
  - destruct (eqs_spec j a), (eqs_spec k a); try congruence. f_equal. apply IH. destruct Hk; [congruence|auto].
Qed.
Lemma keys_dset_in {V} k (v : V) d : In k (keys (dset k v d)).
Proof. rewrite keys_dset. destruct (ins k (keys d)) eqn:E; [apply ins_In; auto|]. apply in_app_iff. right. left. reflexivity. Qed.
Lemma keys_dset_keep {V} j k (v : V) d : In j (keys d) -> In j (keys (dset k v d)).
Proof. rewrite keys_dset. destruct (ins k (keys d)); auto. intros H. apply in_app_iff. auto. Qed.
Lemma dset_twice {V} k (v w : V) d : dset k v (dset k w d) = dset k v d.
Proof. induction d as [|[a x] d IH]; cbn [dset]; [rewrite eqs_refl; reflexivity|]. destruct (eqs_spec k a) as [->|]; cbn [dset]; [rewrite eqs_refl; reflexivity|]. destruct (eqs_spec k a); congruence. Qed.
Lemma dset_dupdate {V} k (v : V) e : forall d, ~ In k (keys e) -> In k (keys d) -> dset k v (dupdate d e) = dupdate (dset k v d) e.
Proof.
  unfold dupdate. induction e as [|[j w] e IH]; intros d H Hd; cbn [fold_left fst snd]; auto. cbn [keys map fst In] in H.
  rewrite IH by (auto using keys_dset_keep). f_equal. apply dset_swap; auto.
Qed.
Lemma dupdate_dset {V} k (v : V) e : NoDup (keys e) -> forall d, dupdate d (dset k v e) = dset k v (dupdate d e).
Proof.
  induction e as [|[j w] e IH]; intros Hnd d; [reflexivity|]. cbn [keys map fst] in Hnd. inversion Hnd as [|? ? H1 H2]; subst. cbn [dset].
  destruct (eqs_spec k j) as [->|Hk].
  - change (dupdate d ((j, v) :: e)) with (dupdate (dset j v d) e). change (dupdate d ((j, w) :: e)) with (dupdate (dset j w d) e).
    rewrite dset_dupdate by (auto using keys_dset_in). rewrite dset_twice. reflexivity.
  - change (dupdate d ((j, w) :: dset k v e)) with (dupdate (dset j w d) (dset k v e)). change (dupdate d ((j, w) :: e)) with (dupdate (dset j w d) e). apply IH; auto.
Qed.
Lemma dupdate_dict {V} (l : list (str * V)) : forall d, dupdate d (dict_of l) = dupdate d l.
Proof.
  induction l as [|[k v] l IH] using rev_ind; intros d; [reflexivity|]. unfold dict_of, dupdate at 2 3. rewrite !fold_left_app. cbn [fold_left fst snd].
  change (fold_left (fun acc kv => dset (fst kv) (snd kv) acc) l []) with (dict_of l). change (fold_left (fun acc kv => dset (fst kv) (snd kv) acc) l d) with (dupdate d l).
  rewrite dupdate_dset by apply dict_of_NoDup_keys. rewrite IH. reflexivity.
Qed.
Lemma merged_app {V} (a b : list (str * V)) : dupdate (dict_of a) (dict_of b) = merged (a ++ b).
Proof. rewrite dupdate_dict, <- merged_dict. unfold dict_of, dupdate. rewrite fold_left_app. reflexivity. Qed.
Lemma lower_lowered s : lower s = lowered s.
Proof. unfold lower, lowered. apply map_ext. intros c. unfold lower1. destruct (65 <=? c); cbn [andb]; auto. replace (c <? 91) with (c <=? 90) by lia. reflexivity. Qed.
Lemma method_iff m : ins (lower m) [lit "get"; lit "post"] = true <-> same_letters m (chars "get") \/ same_letters m (chars "post").
Proof.
  rewrite ins_In. change chars with lit. rewrite <- !letters_spec.
  - cbn [In]. intuition congruence.
  - change (lit "post") with [112; 111; 115; 116]. repeat constructor; lia.
  - change (lit "get") with [103; 101; 116]. repeat constructor; lia.
Qed.
Lemma request_iff m url h b usr r : (forall x, b = Some x -> bytes_ok x) ->
  (make_request m url h b usr = Ok r <->
   exists u q lq lb, (same_letters m (chars "get") \/ same_letters m (chars "post")) /\ cleaned url u /\ brackets_match u /\
     query_text u q /\ form_all q lq /\ body_pairs b lb /\
     rq_method r = m /\ rq_url r = url /\ rq_user r = usr /\ rq_body r = b /\
     rq_headers r = merged (map (fun kv => (lowered (fst kv), snd kv)) h) /\ rq_data r = merged (lq ++ lb)).
Proof.
  intros Hb. unfold make_request.
  assert (Hh : dict_of (map (fun kv => (lower (fst kv), snd kv)) h) = merged (map (fun kv => (lowered (fst kv), snd kv)) h)).
  { rewrite merged_dict. f_equal. apply map_ext. intros kv. rewrite lower_lowered. reflexivity. }
  assert (Hd : forall lq lb, parse_qsl (url_query (clean_url url)) = lq -> body_pairs b lb -> dupdate (urldecode (url_query (clean_url url))) (form_of b) = merged (lq ++ lb)).
  { intros lq lb <- Hl. apply body_iff in Hl; auto. rewrite <- merged_app. unfold urldecode, form_of. destruct b as [b|]; rewrite <- Hl; reflexivity. }
  split.
  - destruct (ins _ _) eqn:Em; cbn [negb raise_if rbind]; [|discriminate]. destruct (bad_netloc _) eqn:En; cbn [raise_if rbind]; [discriminate|].
    intros E. injection E as <-. cbn [rq_method rq_url rq_user rq_body rq_headers rq_data].
    exists (clean_url url), (url_query (clean_url url)), (parse_qsl (url_query (clean_url url))), (match b with None => [] | Some x => parse_qsl (to_string x) end).
    assert (Hl : body_pairs b (match b with None => [] | Some x => parse_qsl (to_string x) end)) by (apply body_iff; auto).
    split; [apply method_iff; auto|]. split; [apply cleaned_iff; auto|]. split; [apply brackets_iff; auto|]. split; [apply query_iff; auto|]. split; [apply all_of|].
    do 6 (split; [auto|]). apply Hd; auto.
  - intros (u & q & lq & lb & Hm & Hu & Hn & Hq & Hlq & Hlb & <- & <- & <- & <- & E1 & E2). apply cleaned_iff in Hu. subst u.
    apply query_iff in Hq. subst q. apply all_iff in Hlq. apply brackets_iff in Hn. apply method_iff in Hm. rewrite Hm, Hn. cbn [negb raise_if rbind].
    rewrite (Hd _ _ Hlq Hlb), Hh, <- E1, <- E2. destruct r; reflexivity.
Qed.
