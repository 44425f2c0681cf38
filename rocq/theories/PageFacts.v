(** The pages as HTML documents: lemmas for C171-C173. *)
From Coq Require Import String Ascii List NArith ZArith Bool Arith Lia.
From Verif Require Import Base BaseFacts SpecReaders Url Webtools UrlFacts UrlQuoteFacts SpecUrl Jwk Prog Http OAuth SpecOAuth App SpecApp AppFacts SpecLogin LoginFacts SpecHistory SpecFlow SpecError SpecConsent ConsentFacts Page SpecPage.
Import ListNotations.
Open Scope N_scope.

(** ** One reading *)
Lemma tag_body_app a b : tag_body a -> tag_body b -> tag_body (a ++ b).
Proof.
  intros H Hb. induction H as [|c s H1 H2 H3 H4 H IH|q s Hq H IH]; cbn [app]; [exact Hb|constructor; auto|]. rewrite <- app_assoc. cbn [app]. apply tb_value; auto.
Qed.
Lemma cut_at (c : N) : forall a b x y, ~ In c a -> ~ In c b -> a ++ c :: x = b ++ c :: y -> a = b /\ x = y.
Proof.
  induction a as [|h a IH]; intros [|k b] x y Ha Hb H; cbn [app] in H.
  - injection H as <-. auto.
  - injection H as <- _. exfalso. apply Hb. left. reflexivity.
  - injection H as -> _. exfalso. apply Ha. left. reflexivity.
  - injection H as <- H. apply IH in H as [-> ->]; [auto| |]; intros Hi; [apply Ha|apply Hb]; right; auto.
Qed.
Lemma tag_end : forall a, tag_body a -> forall b x y, tag_body b -> a ++ 62 :: x = b ++ 62 :: y -> a = b /\ x = y.
Proof.
  intros a Ha. induction Ha as [|c s H1 H2 H3 H4 H IH|q s Hq H IH]; intros b x y Hb E.
  - destruct Hb as [|c' s' K1 K2 K3 K4 K|q' s' Kq K]; cbn [app] in E; [injection E as <-; auto|injection E as E1 E2; symmetry in E1; contradiction|discriminate].
  - destruct Hb as [|c' s' K1 K2 K3 K4 K|q' s' Kq K]; cbn [app] in E; [injection E as E1 E2; contradiction| |].
    + injection E as <- E. destruct (IH _ _ _ K E) as [-> ->]. auto.
    + injection E as -> E. exfalso. destruct s as [|c2 s2]; cbn [app] in E; [discriminate|]. injection E as -> _. inversion H; congruence.
  - destruct Hb as [|c' s' K1 K2 K3 K4 K|q' s' Kq K]; cbn [app] in E; [discriminate| |].
    + injection E as <- E. exfalso. destruct s' as [|c2 s2]; cbn [app] in E; [discriminate|]. injection E as <- _. inversion K; congruence.
    + injection E as E. rewrite <- !app_assoc in E. cbn [app] in E. apply cut_at in E as [-> E]; auto. destruct (IH _ _ _ K E) as [-> ->]. auto.
Qed.
Lemma char_ref_head e c : char_ref e c -> exists r, e = 38 :: r.
Proof. destruct 1; eexists; reflexivity. Qed.
Lemma char_ref_one e c x e' c' y : char_ref e c -> char_ref e' c' -> e ++ x = e' ++ y -> c = c' /\ x = y.
Proof. intros H H' E. destruct H, H'; cbn in E; try discriminate; injection E as <-; auto. Qed.
Lemma html_one s : forall t, html s t -> forall t', html s t' -> t = t'.
Proof.
  intros t H. induction H as [|c s t H1 H2 H IH|e c s t He H IH|raw s t H1 H2 H IH]; intros t' H'.
  - inversion H' as [|? ? ? ? ? ?|e c s t He ? E|]; [reflexivity|]. destruct (char_ref_head _ _ He) as [r ->]. discriminate.
  - inversion H' as [|c' s' t2 K1 K2 K|e c' s' t2 He K E|raw s' t2 K1 K2 K]; subst; [f_equal; auto| |congruence]. destruct (char_ref_head _ _ He) as [r ->]. injection E as <- _. congruence.
  - remember (e ++ s) as es eqn:Ees. destruct H' as [|c' s' t2 K1 K2 K|e' c' s' t2 He' K|raw s' t2 K1 K2 K].
    + destruct (char_ref_head _ _ He) as [r ->]. discriminate.
    + destruct (char_ref_head _ _ He) as [r ->]. injection Ees as -> _. congruence.
    + symmetry in Ees. destruct (char_ref_one _ _ _ _ _ _ He He' Ees) as [<- <-]. f_equal; auto.
    + destruct (char_ref_head _ _ He) as [r ->]. discriminate.
  - remember (60 :: raw ++ 62 :: s) as es eqn:Ees. destruct H' as [|c' s' t2 K1 K2 K|e' c' s' t2 He' K|raw' s' t2 K1 K2 K].
    + discriminate.
    + injection Ees as -> _. congruence.
    + destruct (char_ref_head _ _ He') as [r ->]. discriminate.
    + injection Ees as Ees. destruct (tag_end _ K2 _ _ _ H2 Ees) as [<- <-]. f_equal; auto.
Qed.
Lemma text_one v : forall a, text_of v a -> forall b, text_of v b -> a = b.
Proof.
  intros a H. induction H as [|c r s H1 H2 H3 H IH|e c r s He H IH]; intros b H'.
  - remember [] as v eqn:E. destruct H' as [| |e c r s He]; [reflexivity|discriminate|]. destruct (char_ref_head _ _ He) as [x ->]. discriminate.
  - remember (c :: r) as v eqn:E. destruct H' as [|c' r' s' K1 K2 K3 K|e c' r' s' He K]; [discriminate| |].
    + injection E as -> ->. f_equal; auto.
    + destruct (char_ref_head _ _ He) as [x ->]. injection E as <- _. congruence.
  - remember (e ++ r) as v eqn:E. destruct H' as [|c' r' s' K1 K2 K3 K|e' c' r' s' He' K].
    + destruct (char_ref_head _ _ He) as [x ->]. discriminate.
    + destruct (char_ref_head _ _ He) as [x ->]. injection E as -> _. congruence.
    + symmetry in E. destruct (char_ref_one _ _ _ _ _ _ He He' E) as [<- <-]. f_equal; auto.
Qed.
Lemma html_app a ta b tb : html a ta -> html b tb -> html (a ++ b) (ta ++ tb).
Proof.
  intros H Hb. induction H as [|c s t H1 H2 H IH|e c s t He H IH|raw s t H1 H2 H IH]; cbn [app]; [exact Hb|constructor; auto| |].
  - rewrite <- app_assoc. apply ht_ref; auto.
  - rewrite <- app_assoc. cbn [app]. apply ht_tag; auto.
Qed.

(** ** Escaped text *)
Lemma escape1_cases c : (exists e, escape1 c = e /\ char_ref e c) \/ (escape1 c = [c] /\ c <> 38 /\ c <> 60 /\ c <> 62 /\ c <> 39 /\ c <> 34).
Proof.
  unfold escape1. destruct (N.eqb_spec c 38) as [->|]; [left; eexists; split; [reflexivity|constructor]|]. destruct (N.eqb_spec c 62) as [->|]; [left; eexists; split; [reflexivity|constructor]|].
  destruct (N.eqb_spec c 60) as [->|]; [left; eexists; split; [reflexivity|constructor]|]. destruct (N.eqb_spec c 39) as [->|]; [left; eexists; split; [reflexivity|constructor]|].
  destruct (N.eqb_spec c 34) as [->|]; [left; eexists; split; [reflexivity|constructor]|]. right. auto 10.
Qed.
Lemma escape_html s : html (escape s) (letters s).
Proof.
  induction s as [|c s IH]; [constructor|]. cbn [escape flat_map letters map]. destruct (escape1_cases c) as [(e & -> & He)|(-> & H)]; [exact (ht_ref _ _ _ _ He IH)|].
  cbn [app]. constructor; tauto.
Qed.
Lemma escape_text s : text_of (escape s) s.
Proof.
  induction s as [|c s IH]; [constructor|]. cbn [escape flat_map]. destruct (escape1_cases c) as [(e & -> & He)|(-> & H)]; [exact (to_ref _ _ _ _ He IH)|].
  cbn [app]. constructor; tauto.
Qed.
Lemma char_ref_quote e c : char_ref e c -> ~ In 34 e.
Proof. intros H Hi. destruct H; repeat (destruct Hi as [Hi|Hi]; [discriminate|]); destruct Hi. Qed.
Lemma escape_quote s : ~ In 34 (escape s).
Proof.
  induction s as [|c s IH]; [intros []|]. cbn [escape flat_map]. intros Hi. apply in_app_or in Hi as [Hi|Hi]; [|exact (IH Hi)].
  destruct (escape1_cases c) as [(e & E & He)|(E & H)]; rewrite E in Hi; [exact (char_ref_quote _ _ He Hi)|]. destruct Hi as [Hi|[]]. tauto.
Qed.
Lemma escape_value_html o : html (escape_value o) (letters (shown o)).
Proof. destruct o as [s|]; [apply escape_html|]. cbn [escape_value shown]. repeat (constructor; [discriminate|discriminate|]). constructor. Qed.

(** ** Reading the constant parts *)
Fixpoint body (n : nat) (s : str) : option (str * str) :=
  match n with
  | O => None
  | S n =>
      match s with
      | [] => None
      | c :: r =>
          if c =? 62 then Some ([], r)
          else if (c =? 61) && match r with 34 :: _ => true | _ => false end then
            match split1 34 (tl r) with
            | Some (q, r') => match body n r' with Some (raw, r2) => Some (61 :: 34 :: q ++ 34 :: raw, r2) | None => None end
            | None => None
            end
          else if (c =? 34) || (c =? 39) || (c =? 60) then None
          else match body n r with Some (raw, r2) => Some (c :: raw, r2) | None => None end
      end
  end.
Lemma body_ok : forall n s raw r, body n s = Some (raw, r) -> s = raw ++ 62 :: r /\ tag_body raw.
Proof.
  induction n as [|n IH]; intros s raw r H; cbn [body] in H; [discriminate|]. destruct s as [|c s]; [discriminate|].
  destruct (N.eqb_spec c 62) as [->|N1]; [injection H as <- <-; split; [reflexivity|constructor]|].
  destruct ((c =? 61) && _) eqn:Eq.
  - apply andb_true_iff in Eq as [Ec Eq]. apply N.eqb_eq in Ec as ->.
    assert (K : exists s', s = 34 :: s'). { destruct s as [|h s']; [discriminate|]. exists s'. f_equal. revert Eq. clear. destruct h as [|p]; [discriminate|]. do 6 (destruct p; try discriminate). reflexivity. }
    destruct K as [s' ->]. cbn [tl] in H. destruct (split1 34 s') as [[q r']|] eqn:Es; [|discriminate]. destruct (body n r') as [[raw' r2]|] eqn:Eb; [|discriminate].
    injection H as <- <-. apply split1_some in Es as [-> Hq]. apply IH in Eb as [-> Hb]. split; [|apply tb_value; auto]. cbn [app]. rewrite <- app_assoc. reflexivity.
  - destruct ((c =? 34) || (c =? 39) || (c =? 60)) eqn:Eo; [discriminate|]. apply orb_false_iff in Eo as [Eo E3]. apply orb_false_iff in Eo as [E1 E2].
    apply N.eqb_neq in E1, E2, E3. destruct (body n s) as [[raw' r2]|] eqn:Eb; [|discriminate]. injection H as <- <-. apply IH in Eb as [-> Hb]. split; [reflexivity|constructor; auto].
Qed.
Definition smallb (c : N) : bool := (97 <=? c) && (c <=? 122).
Definition startb (raw : str) : bool :=
  match raw with
  | [] => false
  | c :: r => smallb c || ((c =? 47) && match r with d :: _ => smallb d | [] => false end) || eqs raw (lit "!DOCTYPE html")
  end.
Lemma startb_ok raw : startb raw = true -> tag_start raw.
Proof.
  unfold startb. destruct raw as [|c r]; [discriminate|]. intros H. apply orb_true_iff in H as [H|H]; [apply orb_true_iff in H as [H|H]|].
  - left. exists c, r. split; [reflexivity|]. unfold smallb, small in *. lia.
  - right. left. apply andb_true_iff in H as [Hc H]. apply N.eqb_eq in Hc as ->. destruct r as [|d r]; [discriminate|]. exists d, r. split; [reflexivity|]. unfold smallb, small in *. lia.
  - right. right. apply eqs_true in H. exact H.
Qed.
Fixpoint lex (n : nat) (s : str) : option (list token) :=
  match n with
  | O => None
  | S n =>
      match s with
      | [] => Some []
      | c :: r =>
          if c =? 60 then
            match body n r with
            | Some (raw, r') => if startb raw then option_map (cons (Markup raw)) (lex n r') else None
            | None => None
            end
          else if c =? 38 then None else option_map (cons (Letter c)) (lex n r)
      end
  end.
Lemma lex_ok : forall n s t, lex n s = Some t -> html s t.
Proof.
  induction n as [|n IH]; intros s t H; cbn [lex] in H; [discriminate|]. destruct s as [|c s]; [injection H as <-; constructor|].
  destruct (N.eqb_spec c 60) as [->|N1].
  - destruct (body n s) as [[raw r]|] eqn:Eb; [|discriminate]. destruct (startb raw) eqn:Es; [|discriminate]. destruct (lex n r) as [t'|] eqn:El; [|discriminate].
    injection H as <-. apply body_ok in Eb as [-> Hb]. apply ht_tag; [apply startb_ok; auto|auto|apply IH; auto].
  - destruct (N.eqb_spec c 38) as [->|N2]; [discriminate|]. destruct (lex n s) as [t'|] eqn:El; [|discriminate]. injection H as <-. constructor; auto.
Qed.
Definition tokens (s : string) : list token := match lex (S (String.length s)) (lit s) with Some t => t | None => [] end.
Lemma tokens_ok s : lex (S (String.length s)) (lit s) <> None -> html (lit s) (tokens s).
Proof. unfold tokens. destruct (lex _ _) as [t|] eqn:E; [|congruence]. intros _. eapply lex_ok; eauto. Qed.
(** A tag with an escaped value: [a] up to the quote, [b] from the quote after it *)
Lemma html_value a b v : startb (lit a ++ v ++ lit b) = true -> (exists r, lit a = r ++ [61; 34] /\ tag_body r) -> (exists r, lit b = 34 :: r /\ tag_body r) -> ~ In 34 v ->
  forall s t, html s t -> html (60 :: (lit a ++ v ++ lit b) ++ 62 :: s) (Markup (lit a ++ v ++ lit b) :: t).
Proof.
  intros Hs (r1 & E1 & H1) (r2 & E2 & H2) Hv s t H. apply ht_tag; [apply startb_ok; exact Hs| |exact H]. rewrite E1, E2, <- app_assoc. apply tag_body_app; [exact H1|]. cbn [app]. apply tb_value; auto.
Qed.

(** ** The pages *)
Definition base1 := tokens "<!DOCTYPE html>
<html lang=""en-us"">
<head>
    <meta charset=""UTF-8"">
    <meta name=""viewport"" content=""width=device-width, initial-scale=1, shrink-to-fit=no"">

    <title>".
Definition base2 := tokens " - Psion</title>

    <link href=""https://cdn.jsdelivr.net/npm/bootstrap@5.0.0-beta1/dist/css/bootstrap.min.css"" rel=""stylesheet"" integrity=""sha384-giJF6kkoqNQ00vy+HMDP7azOuL0xtbfIcaT9wjKHr8RbDVddVHyTfAAsrekwKmP1"" crossorigin=""anonymous"">
    ".
Definition base3 := tokens "
</head>

<body>
    <div class=""container-fluid"">
        ".
Definition base4 := tokens "
    </div>

    <script src=""https://cdn.jsdelivr.net/npm/bootstrap@5.0.0-beta1/dist/js/bootstrap.bundle.min.js"" integrity=""sha384-ygbV9kiqUc6oa4msXn9868pTtWMgiQaeYH7/t7LECLbyPA2x65Kgf80OJFdroafW"" crossorigin=""anonymous""></script>
    
</body>
</html>".
Ltac const := apply tokens_ok; vm_compute; discriminate.
Lemma html_base title st s main m : html st s -> html main m ->
  html (base_document title st main) (base1 ++ letters title ++ base2 ++ s ++ base3 ++ m ++ base4).
Proof.
  intros Hs Hm. unfold base_document. apply html_app; [const|]. apply html_app; [apply escape_html|]. apply html_app; [const|]. apply html_app; [exact Hs|].
  apply html_app; [const|]. apply html_app; [exact Hm|]. const.
Qed.
Definition err1 := tokens "
<strong>Description: </strong><span>".
Definition err2 := tokens "</span>
<br>
<strong>Error code: </strong><span>".
Definition err3 := tokens "</span>
".
Lemma html_error d e : html (error_document d e) ((base1 ++ letters (lit "Error") ++ base2 ++ base3 ++ err1) ++ letters (shown d) ++ err2 ++ letters (shown e) ++ (err3 ++ base4)).
Proof.
  pose proof (html_base (lit "Error") [] [] (lit "
<strong>Description: </strong><span>" ++ escape_value d ++ lit "</span>
<br>
<strong>Error code: </strong><span>" ++ escape_value e ++ lit "</span>
") (err1 ++ letters (shown d) ++ err2 ++ letters (shown e) ++ err3) ht_nil) as H.
  rewrite <- !app_assoc. cbn [app] in H. unfold error_document. rewrite <- !app_assoc in H. apply H.
  apply html_app; [const|]. apply html_app; [apply escape_value_html|]. apply html_app; [const|]. apply html_app; [apply escape_value_html|]. const.
Qed.

Definition tag_at (f : string * string) (value : str) : token := Markup (lit (fst f) ++ escape value ++ lit (snd f)).
Lemma is_tag_at f value : is_tag f value (tag_at f value).
Proof. exists (escape value). split; [reflexivity|apply escape_text]. Qed.
(** The check of the two parts of a tag *)
Definition opens (a : str) : bool :=
  match rev a with
  | 34 :: 61 :: r => match body (S (length r)) (rev r ++ [62]) with Some (raw, []) => eqs raw (rev r) | _ => false end
  | _ => false
  end && match a with c :: _ => smallb c | [] => false end.
Definition closes (b : str) : bool :=
  match b with 34 :: r => match body (S (length r)) (r ++ [62]) with Some (raw, []) => eqs raw r | _ => false end | _ => false end.
Lemma opens_ok a : opens a = true -> (exists r, a = r ++ [61; 34] /\ tag_body r) /\ exists c r, a = c :: r /\ smallb c = true.
Proof.
  unfold opens. intros H. apply andb_true_iff in H as [H Hs]. split.
  - rewrite <- (rev_involutive a). destruct (rev a) as [|x [|y r]]; try discriminate; try (destruct x as [|p]; [discriminate|]; do 6 (destruct p; try discriminate)).
    destruct y as [|p]; [discriminate|]. do 6 (destruct p; try discriminate). exists (rev r). cbn [rev]. split; [rewrite <- app_assoc; reflexivity|].
    destruct (body _ _) as [[raw [|? ?]]|] eqn:Eb; try discriminate. apply eqs_true in H as ->. apply body_ok in Eb as [_ Hb]. exact Hb.
  - destruct a as [|c r]; [discriminate|]. eauto.
Qed.
Lemma closes_ok b : closes b = true -> exists r, b = 34 :: r /\ tag_body r.
Proof.
  unfold closes. destruct b as [|x r]; [discriminate|]. destruct x as [|p]; [discriminate|]. do 6 (destruct p; try discriminate). intros H. exists r. split; [reflexivity|].
  destruct (body _ _) as [[raw [|? ?]]|] eqn:Eb; try discriminate. apply eqs_true in H as ->. apply body_ok in Eb as [_ Hb]. exact Hb.
Qed.
Lemma html_tag f value s t : opens (lit (fst f)) = true -> closes (lit (snd f)) = true -> html s t ->
  html (60 :: lit (fst f) ++ escape value ++ lit (snd f) ++ 62 :: s) (tag_at f value :: t).
Proof.
  intros Ho Hc H. apply opens_ok in Ho as [(r & Er & Hr) (c & r' & Ec & Hs)]. apply closes_ok in Hc as (q & Eq & Hq).
  replace (60 :: lit (fst f) ++ escape value ++ lit (snd f) ++ 62 :: s) with (60 :: (lit (fst f) ++ escape value ++ lit (snd f)) ++ 62 :: s) by (rewrite <- !app_assoc; reflexivity).
  apply html_value; [|exists r; auto|exists q; auto|apply escape_quote|exact H]. rewrite Ec. cbn [app startb]. rewrite Hs. reflexivity.
Qed.
Definition log0_s : string := "
".
Definition log0 := tokens log0_s.
Definition log00_s : string := "
".
Definition log00 := tokens log00_s.
Definition log1_s : string := "
<div class=""row align-items-center background"">
    <div class=""col-1 col-md-3 col-lg-4 col-xl-5""></div>
    <div class=""col-10 col-md-6 col-lg-4 col-xl-2 jumbotron form-wrapper"">
        ".
Definition log1 := tokens log1_s.
Definition log2_s : string := "
            <h1 class=""mb-5 text-center"">Login</h1>

            ".
Definition log2 := tokens log2_s.
Definition alert1_s : string := "
            <div class=""alert alert-danger mb-4"">".
Definition alert1 := tokens alert1_s.
Definition alert2_s : string := "</div>
            ".
Definition alert2 := tokens alert2_s.
Definition log3_s : string := "

            ".
Definition log3 := tokens log3_s.
Definition log4_s : string := "

            <div class=""form-group mb-4"">
                ".
Definition log4 := tokens log4_s.
Definition log5_s : string := "
                <small id=""email-help"" class=""form-text text-muted"">Example: johndoe@gmail.com</small>
                ".
Definition log5 := tokens log5_s.
Definition eerr1_s : string := "
                <small id=""email-error"" class=""form-text text-danger"">".
Definition eerr1 := tokens eerr1_s.
Definition perr1_s : string := "
                <small id=""password-error"" class=""form-text text-danger"">".
Definition perr1 := tokens perr1_s.
Definition err9_s : string := "</small>
                ".
Definition err9 := tokens err9_s.
Definition log6_s : string := "
            </div>

            <div class=""form-group mb-4"">
                <input aria-describedby=""password-help"" class=""form-control"" id=""password"" name=""password"" placeholder=""Password*"" required type=""password"" value="""">
                <small id=""password-help"" class=""form-text text-muted"">Between 8 and 64 characteres.</small>
                ".
Definition log6 := tokens log6_s.
Definition log7_s : string := "
            </div>

            <button type=""submit"" class=""btn login-btn form-btn text-light"">Login</button>
        </form>
    </div>
    <div class=""col-1 col-md-3 col-lg-4 col-xl-5""></div>
</div>
".
Definition log7 := tokens log7_s.

Ltac const' := match goal with |- html _ (tokens ?u) => idtac | |- html _ ?t => unfold t end; match goal with |- html ?x (tokens ?u) => change x with (lit u) end; apply tokens_ok; vm_compute; discriminate.
Lemma html_errors (id : string) a l : html (lit "
                <small id=""" ++ lit id ++ lit """ class=""form-text text-danger"">") a -> html (field_errors id l) (messages_in a err9 l).
Proof.
  intros Ha. induction l as [|e l IH]; [constructor|]. unfold field_errors, messages_in in *. cbn [flat_map]. apply html_app; [|exact IH].
  replace (lit "
                <small id=""" ++ lit id ++ lit """ class=""form-text text-danger"">" ++ escape e ++ lit "</small>
                ") with ((lit "
                <small id=""" ++ lit id ++ lit """ class=""form-text text-danger"">") ++ escape e ++ lit err9_s) by (rewrite <- !app_assoc; reflexivity).
  apply html_app; [exact Ha|]. apply html_app; [apply escape_html|]. const.
Qed.
Definition login_tokens (static action : str) (m : option str) (token email : str) (ee pe : list str) : list SpecPage.token :=
  (base1 ++ letters (lit "Login") ++ base2 ++ log0) ++ tag_at link_tag static :: (log00 ++ base3 ++ log1) ++ tag_at form_tag action :: log2 ++ message_in alert1 alert2 m ++ log3 ++
  tag_at csrf_tag token :: log4 ++ tag_at email_tag email :: log5 ++ messages_in eerr1 err9 ee ++ log6 ++ messages_in perr1 err9 pe ++ (log7 ++ base4).
Lemma html_login static action m token email ee pe : html (login_document static action m token email ee pe) (login_tokens static action m token email ee pe).
Proof.
  assert (T : forall f v x s t, opens (lit (fst f)) = true -> closes (lit (snd f)) = true -> x = 60 :: lit (fst f) ++ escape v ++ lit (snd f) ++ 62 :: s -> html s t -> html x (tag_at f v :: t)).
  { intros f v x s t H1 H2 -> H. apply html_tag; auto. }
  set (main := log1 ++ tag_at form_tag action :: log2 ++ message_in alert1 alert2 m ++ log3 ++
     tag_at csrf_tag token :: log4 ++ tag_at email_tag email :: log5 ++ messages_in eerr1 err9 ee ++ log6 ++ messages_in perr1 err9 pe ++ log7).
  pose proof (html_base (lit "Login") (lit "
<link rel=""stylesheet"" type=""text/css"" href=""" ++ escape static ++ lit """>
") (log0 ++ tag_at link_tag static :: log00)) as H.
  assert (E : login_tokens static action m token email ee pe = base1 ++ letters (lit "Login") ++ base2 ++ (log0 ++ tag_at link_tag static :: log00) ++ base3 ++ main ++ base4).
  { unfold login_tokens, main. repeat (rewrite <- ?app_assoc; cbn [app]; f_equal). }
  rewrite E. unfold login_document. apply H; clear H E.
  - change (lit "
<link rel=""stylesheet"" type=""text/css"" href=""" ++ escape static ++ lit """>
") with (lit log0_s ++ (60 :: lit (fst link_tag) ++ escape static ++ lit (snd link_tag) ++ 62 :: lit log00_s)).
    apply html_app; [const|]. apply html_tag; [vm_compute; reflexivity|vm_compute; reflexivity|const].
  - unfold main; clear main. unfold login_document, csrf_input, email_input, attribute, password_input. rewrite <- ?app_assoc.
    match goal with |- html (?a ++ ?x) _ => change a with (lit log1_s ++ 60 :: lit (fst form_tag)) end. rewrite <- app_assoc. cbn [app].
    apply html_app; [const|].
    match goal with |- html (60 :: ?a ++ ?v ++ ?b ++ ?x) _ => change b with (lit (snd form_tag) ++ 62 :: lit log2_s) end. rewrite <- app_assoc. cbn [app].
    apply html_tag; [vm_compute; reflexivity|vm_compute; reflexivity|]. apply html_app; [const|].
    apply html_app.
    { destruct m as [[|c m]|]; [constructor| |constructor]. unfold message_in. apply html_app; [const|]. apply html_app; [apply escape_html|const]. }
    apply html_app; [const|].
    match goal with |- html (?a ++ ?b ++ ?c ++ ?x) _ => change (a ++ b ++ c ++ x) with (60 :: lit (fst csrf_tag) ++ x) end.
    match goal with |- html (60 :: ?a ++ ?v ++ ?b ++ ?c ++ ?d ++ ?x) _ => change (b ++ c ++ d ++ x) with (lit (snd csrf_tag) ++ 62 :: lit log4_s ++ x) end.
    apply html_tag; [vm_compute; reflexivity|vm_compute; reflexivity|]. apply html_app; [const|].
    match goal with |- html (?a ++ ?b ++ ?c ++ ?x) _ => change (a ++ b ++ c ++ x) with (60 :: lit (fst email_tag) ++ x) end.
    match goal with |- html (60 :: ?a ++ ?v ++ ?b ++ ?c ++ ?d ++ ?x) _ => change (b ++ c ++ d ++ x) with (lit (snd email_tag) ++ 62 :: lit log5_s ++ x) end.
    apply html_tag; [vm_compute; reflexivity|vm_compute; reflexivity|]. apply html_app; [const|].
    apply html_app; [apply html_errors; const'|].
    match goal with |- html (?a ++ ?b ++ ?c ++ ?x) _ => change (a ++ b ++ c ++ x) with (lit log6_s ++ x) end.
    apply html_app; [const|]. apply html_app; [apply html_errors; const'|]. const.
Qed.

(** ** C171-C173 *)
Definition err_pre := base1 ++ letters (lit "Error") ++ base2 ++ base3 ++ err1.
Definition err_post := err3 ++ base4.
Lemma frame_ok : error_frame err_pre err2 err_post.
Proof.
  assert (C : forall (x t s : list token), x = t ++ s -> exists t, x = t ++ s) by eauto.
  unfold error_frame. split; [|split; [|split]].
  - apply C with (firstn (length err_pre - 15) err_pre). vm_compute. reflexivity.
  - exists (firstn (length err2 - 15) (skipn 1 err2)). vm_compute. reflexivity.
  - exists (skipn 1 err_post). vm_compute. reflexivity.
  - vm_compute. reflexivity.
Qed.
Lemma error_reads d e t : html (error_document d e) t <-> t = err_pre ++ letters (SpecPage.shown d) ++ err2 ++ letters (SpecPage.shown e) ++ err_post.
Proof. split; [intros H; eapply html_one; [exact H|apply html_error]|intros ->; apply html_error]. Qed.
Theorem c171 : exists pre mid post, error_frame pre mid post /\ forall E p hs w f m doc, answers E p hs ErrorPage w f m doc ->
  exists d e, (forall r, param_of (wb_url w) (chars "error_description") r -> r = d) /\ (forall r, param_of (wb_url w) (chars "error") r -> r = e) /\
    forall t, html doc t <-> t = pre ++ letters (SpecPage.shown d) ++ mid ++ letters (SpecPage.shown e) ++ post.
Proof.
  exists err_pre, err2, err_post. split; [exact frame_ok|]. intros E p hs w f m doc (tr & tp & _ & Hd). cbn [document] in Hd. injection Hd as <-.
  exists (query_param (wb_url w) (lit "error_description")), (query_param (wb_url w) (lit "error")).
  split; [intros r Hr; symmetry; exact (param_is _ _ _ Hr)|]. split; [intros r Hr; symmetry; exact (param_is _ _ _ Hr)|]. intros t. unfold error_page. exact (error_reads _ _ t).
Qed.

Definition fixedb (t : list token) : bool :=
  forallb (fun k => match k with
                    | Letter _ => true
                    | Markup raw => negb (eqs (name_of raw) (lit "form")) && (negb (eqs (name_of raw) (lit "input")) || eqs raw (lit password_tag)) &&
                                    (negb (eqs (name_of raw) (lit "script")) || eqs raw (lit script_tag))
                    end) t.
Lemma fixedb_ok t : fixedb t = true -> fixed_part t.
Proof.
  intros H raw Hr. unfold fixedb in H. rewrite forallb_forall in H. specialize (H _ Hr). cbn in H. apply andb_true_iff in H as [H H3]. apply andb_true_iff in H as [H1 H2].
  apply negb_true_iff, eqs_false in H1. split; [exact H1|]. change chars with lit. split; intros Hn; rewrite Hn, eqs_refl in *; cbn [negb orb] in *; apply eqs_true; assumption.
Qed.
Lemma login_reads static action m token email ee pe t : html (login_document static action m token email ee pe) t <-> t = login_tokens static action m token email ee pe.
Proof. split; [intros H; eapply html_one; [exact H|apply html_login]|intros ->; apply html_login]. Qed.
Theorem c172 : exists t0 t1 t2 t3 t4 t5 t6 t7 a1 a2 e1 e2 p1 p2,
  fixed_part (t0 ++ t1 ++ t2 ++ t3 ++ t4 ++ t5 ++ t6 ++ t7 ++ a1 ++ a2 ++ e1 ++ e2 ++ p1 ++ p2) /\
  forall E p hs w f m doc, answers E p hs LoginPage w f m doc ->
  exists style form csrf email, is_tag link_tag (wb_base w ++ chars "/static/css/forms.css") style /\ is_tag form_tag (wb_url w) form /\ is_tag csrf_tag (fs_token f) csrf /\
    (wb_method w = chars "POST" -> is_tag email_tag (lf_email (wb_form w)) email) /\ (wb_method w <> chars "POST" -> is_tag email_tag [] email) /\
    forall t, html doc t <-> t = t0 ++ style :: t1 ++ form :: t2 ++ message_in a1 a2 m ++ t3 ++ csrf :: t4 ++ email :: t5 ++ messages_in e1 e2 (fs_email f) ++ t6 ++ messages_in p1 p2 (fs_password f) ++ t7.
Proof.
  exists (base1 ++ letters (lit "Login") ++ base2 ++ log0), (log00 ++ base3 ++ log1), log2, log3, log4, log5, log6, (log7 ++ base4), alert1, alert2, eerr1, err9, perr1, err9.
  split; [apply fixedb_ok; vm_compute; reflexivity|]. intros E p hs w f m doc (tr & tp & _ & Hd). cbn [document] in Hd. injection Hd as <-. do 4 eexists.
  do 3 (split; [apply is_tag_at|]). split; [|split; [|intros t; unfold login_page; rewrite login_reads; unfold login_tokens; reflexivity]].
  - intros Hw. unfold is_post. change chars with lit in Hw. rewrite Hw. apply is_tag_at.
  - intros Hw. unfold is_post. change chars with lit in Hw. destruct (eqs (wb_method w) (lit "POST")) eqn:Em; [apply eqs_true in Em; contradiction|]. apply is_tag_at.
Qed.

Lemma name_app a b : name_of a <> a -> name_of (a ++ b) = name_of a.
Proof. induction a as [|c a IH]; intros H; [elim H; reflexivity|]. cbn [app name_of] in *. destruct (c =? 32); [reflexivity|]. f_equal. apply IH. congruence. Qed.
Lemma tag_named f v k : is_tag f v k -> name_of (lit (fst f)) <> lit (fst f) -> exists raw, k = Markup raw /\ name_of raw = name_of (lit (fst f)).
Proof. intros (x & -> & _) H. eexists. split; [reflexivity|]. change chars with lit. apply name_app. exact H. Qed.
Lemma tag_value f v k u : is_tag f v k -> is_tag f u k -> u = v.
Proof.
  intros (x & -> & Hx) (y & E & Hy). injection E as E. apply app_inv_head in E. apply app_inv_tail in E. subst y. eapply text_one; eauto.
Qed.
Lemma in_message a b m raw : In (Markup raw) (message_in a b m) -> In (Markup raw) (a ++ b).
Proof.
  destruct m as [[|c s]|]; cbn [message_in]; [intros []| |intros []]. rewrite !in_app_iff. intros [H|[H|H]]; auto. apply in_map_iff in H as (x & E & _). discriminate.
Qed.
Lemma in_messages a b l raw : In (Markup raw) (messages_in a b l) -> In (Markup raw) (a ++ b).
Proof.
  intros H. apply in_flat_map in H as (s & _ & H). revert H. rewrite !in_app_iff. intros [H|[H|H]]; auto. apply in_map_iff in H as (x & E & _). discriminate.
Qed.
(** The only form of the page goes to its own address. *)
Lemma one_form E p hs w f m doc t k url : answers E p hs LoginPage w f m doc -> html doc t -> In k t -> is_tag form_tag url k -> url = wb_url w.
Proof.
  destruct c172 as (t0 & t1 & t2 & t3 & t4 & t5 & t6 & t7 & a1 & a2 & e1 & e2 & p1 & p2 & Hf & H). intros Ha Ht Hk Hu.
  destruct (H _ _ _ _ _ _ _ Ha) as (style & form & csrf & email & Hs & Hfo & Hc & He1 & He2 & Hr). apply Hr in Ht. subst t.
  destruct (tag_named _ _ _ Hu ltac:(vm_compute; discriminate)) as (raw & -> & Hn). change (name_of (lit (fst form_tag))) with (lit "form") in Hn.
  assert (No : forall t, In (Markup raw) t -> (forall x, In (Markup x) t -> In (Markup x) (t0 ++ t1 ++ t2 ++ t3 ++ t4 ++ t5 ++ t6 ++ t7 ++ a1 ++ a2 ++ e1 ++ e2 ++ p1 ++ p2)) -> False).
  { intros t Hi Hs'. apply Hs' in Hi. destruct (Hf _ Hi) as (Hno & _). contradiction. }
  assert (Nt : forall g v, is_tag g v (Markup raw) -> name_of (lit (fst g)) <> lit (fst g) -> name_of (lit (fst g)) <> lit "form" -> False).
  { intros g v Hg Hne Hno. destruct (tag_named _ _ _ Hg Hne) as (raw' & E' & Hn'). injection E' as <-. congruence. }
  assert (He : exists v, is_tag email_tag v email).
  { destruct (list_eq_dec N.eq_dec (wb_method w) (chars "POST")) as [Em|Em]; [exists (lf_email (wb_form w)); auto|exists []; auto]. }
  destruct He as [ve He].
  assert (Sub : forall t t', (forall x, In (Markup x) t -> In (Markup x) t') -> In (Markup raw) t -> In (Markup raw) t') by auto.
  repeat (apply in_app_iff in Hk as [Hk|Hk] || destruct Hk as [Hk|Hk]);
    try (exfalso; eapply No; [exact Hk|intros x Hx; try apply in_message in Hx; try apply in_messages in Hx; rewrite ?in_app_iff in *; tauto]);
    subst.
  - exfalso. eapply Nt; [exact Hs|vm_compute; discriminate|vm_compute; discriminate].
  - eapply tag_value; eauto.
  - exfalso. eapply Nt; [exact Hc|vm_compute; discriminate|vm_compute; discriminate].
  - exfalso. eapply Nt; [exact He|vm_compute; discriminate|vm_compute; discriminate].
Qed.
Lemma submitted_same E p hs start url : submitted_to E p hs start url -> url = start.
Proof.
  intros H. induction H as [w f m doc t k url Hw Ha Ht Hk Hi|w f m doc t k url H IH Ha Ht Hk Hi]; pose proof (one_form _ _ _ _ _ _ _ _ _ _ Ha Ht Hk Hi); congruence.
Qed.
Theorem c172_back E p hs w tr x : aexec (application E p hs AuthorizePage w) tr x -> is_get w = true -> is_origin (wb_base w) -> is_url (wb_url w) -> wb_url w <> [] ->
  (tr = [] \/ exists sid uid, tr = [OGetSession sid uid (V None)]) ->
  exists L, x = V (RRedirect L None) /\ forall w' tr' l ck, submitted_to E p hs L (wb_url w') -> aexec (application E p hs LoginPage w') tr' (V (RRedirect l (Some ck))) -> l = wb_url w.
Proof.
  intros H Hg Ho Hu Hne Htr. destruct (p_round_trip _ _ _ _ _ _ H Hg Ho Hu Hne Htr) as (L & Hx & Hb). exists L. split; [exact Hx|]. intros w' tr' l ck Hs Hl.
  apply submitted_same in Hs. eapply Hb; eauto.
Qed.

Lemma lookup_only (n v : str) ps : In (n, v) ps -> (forall u, In (n, u) ps -> u = v) -> lookup n ps = Some v.
Proof.
  induction ps as [|[k u] ps IH]; [intros []|]. intros Hi Hu. cbn [lookup]. destruct (eqs n k) eqn:Ek.
  - apply eqs_true in Ek. subst k. f_equal. apply Hu. left. reflexivity.
  - apply IH; [|intros x Hx; apply Hu; right; exact Hx]. destruct Hi as [[= -> ->]|Hi]; [rewrite eqs_refl in Ek; discriminate|exact Hi].
Qed.
Lemma lookup_value ps n o : only_value ps n o -> lookup (chars n) (rev ps) = o.
Proof.
  intros H. destruct o as [v|].
  - apply lookup_only; [apply -> in_rev; apply H; reflexivity|]. intros u Hu. apply in_rev in Hu. apply H in Hu. congruence.
  - destruct (lookup (chars n) (rev ps)) as [v|] eqn:E; [|reflexivity]. apply lookup_In in E. apply in_rev in E. apply H in E. discriminate.
Qed.
Theorem c173 E p hs z uri ps w f m doc d e : redirects z uri ps -> is_url uri -> ~ In 63 uri -> ~ In 35 uri -> is_origin (wb_base w) ->
  (forall l, lookup (chars "Location") (rs_headers z) = Some (PStr l) -> wb_url w = wb_base w ++ l) ->
  only_value ps "error_description" d -> only_value ps "error" e -> answers E p hs ErrorPage w f m doc -> error_shows doc (SpecPage.shown d) (SpecPage.shown e).
Proof.
  intros (q & (l & _ & Hl & Hh) & Hq) Hu H1 H2 (_ & Ho1 & Ho2) Hw Hd He Ha. apply location_iff in Hl. rewrite (is_url_location _ Hu) in Hl. injection Hl as <-.
  specialize (Hw _ Hh). destruct c171 as (pre & mid & post & Hfr & H). destruct (H _ _ _ _ _ _ _ Ha) as (d' & e' & Hd' & He' & Hr). exists pre, mid, post. split; [exact Hfr|].
  assert (P : forall n o, only_value ps n o -> param_of (wb_url w) (chars n) o).
  { intros n o Hn. rewrite <- (lookup_value _ _ _ Hn). apply (po_query _ _ (wb_base w ++ uri) ps q).
    - rewrite Hw, <- app_assoc. reflexivity.
    - rewrite in_app_iff. tauto.
    - rewrite in_app_iff. tauto.
    - exact Hq. }
  rewrite (Hd' _ (P _ _ Hd)), (He' _ (P _ _ He)). exact Hr.
Qed.
Theorem c173_missing E p hs r tr z w f m doc : exec (authorization_endpoint E p hs r) tr (V z) -> made r -> no_oauth_raise tr -> SpecOAuth.tokens_ok tr -> ~ supplied r "redirect_uri" ->
  is_url (cf_error_url (pv_config p)) -> ~ In 63 (cf_error_url (pv_config p)) -> ~ In 35 (cf_error_url (pv_config p)) -> is_origin (wb_base w) ->
  (forall l, lookup (chars "Location") (rs_headers z) = Some (PStr l) -> wb_url w = wb_base w ++ l) -> answers E p hs ErrorPage w f m doc ->
  exists d, error_shows doc d (chars "invalid_request").
Proof.
  intros H Hm Hn Ht Hs Hu H1 H2 (_ & Ho1 & Ho2) Hw Ha. destruct (c161 _ _ _ _ _ _ H Hm Hn Ht Hs) as (ps & (q & (l & _ & Hl & Hh) & Hq) & He).
  apply location_iff in Hl. rewrite (is_url_location _ Hu) in Hl. injection Hl as <-. specialize (Hw _ Hh).
  destruct c171 as (pre & mid & post & Hfr & H'). destruct (H' _ _ _ _ _ _ _ Ha) as (d' & e' & Hd' & He' & Hr). exists (SpecPage.shown d'), pre, mid, post. split; [exact Hfr|].
  assert (P : forall n, param_of (wb_url w) (chars n) (lookup (chars n) (rev ps))).
  { intros n. apply (po_query _ _ (wb_base w ++ cf_error_url (pv_config p)) ps q).
    - rewrite Hw, <- app_assoc. reflexivity.
    - rewrite in_app_iff. tauto.
    - rewrite in_app_iff. tauto.
    - exact Hq. }
  assert (Ee : lookup (chars "error") (rev ps) = Some (chars "invalid_request")).
  { apply lookup_value. intros v. rewrite He. split; [intros ->; reflexivity|intros Ev; injection Ev; auto]. }
  pose proof (He' _ (P "error"%string)) as E1. rewrite Ee in E1. subst e'. exact Hr.
Qed.
Lemma has_form E p hs w f m doc : answers E p hs LoginPage w f m doc -> exists t k, html doc t /\ In k t /\ is_tag form_tag (wb_url w) k.
Proof.
  intros Ha. destruct c172 as (t0 & t1 & t2 & t3 & t4 & t5 & t6 & t7 & a1 & a2 & e1 & e2 & p1 & p2 & _ & H).
  destruct (H _ _ _ _ _ _ _ Ha) as (style & form & csrf & email & _ & Hfo & _ & _ & _ & Hr). eexists. exists form. split; [apply Hr; reflexivity|]. split; [|exact Hfo].
  apply in_app_iff. right. right. apply in_app_iff. right. left. reflexivity.
Qed.
