(** The login and the routes of the example application: specification of C143 and C144. *)
From Coq Require Import String Ascii List NArith ZArith Bool Arith.
From Verif Require Import Base SpecCodec SpecUrl Webtools Prog Http OAuth SpecReaders Example App SpecApp.
Import ListNotations.
Open Scope N_scope.

(** ** The form *)
(** Not only white space *)
Definition filled (s : str) : Prop := exists c, In c s /\ ~ In c white.
(** example/forms/login.py 6-24 *)
Definition good_form (f : login_form) : Prop :=
  lf_valid f = true /\ filled (lf_email f) /\ filled (lf_password f) /\ (8 <= length (lf_password f) <= 64)%nat.
(** The account of an address is the first one that has it: the addresses in the table need not differ. *)
Definition account_of (t : tables) (email : str) (a : account) : Prop :=
  exists l1 l2, tb_accounts t = l1 ++ a :: l2 /\ a_email a = email /\ forall b, In b l1 -> a_email b <> email.
Definition identifies (t : tables) (w : web) (a : account) : Prop :=
  account_of t (lf_email (wb_form w)) a /\ a_password a = lf_password (wb_form w).

(** ** The visitor *)
Definition has_session (t : tables) (w : web) (uid : str) : Prop := exists sid, wb_cookie w = Some (uid, sid) /\ In (sid, uid) (tb_sessions t).
Definition known (t : tables) (uid : str) : Prop := exists u, In u (st_users (tb_store t)) /\ us_id u = uid.
Definition stranger (t : tables) (w : web) : Prop := forall uid, ~ has_session t w uid.
Definition logged_in (t : tables) (w : web) : Prop := exists uid, has_session t w uid /\ known t uid.
(** The session of a user who is no longer there *)
Definition orphan (t : tables) (w : web) : Prop := exists uid, has_session t w uid /\ ~ known t uid.

(** ** Replies *)
(** A redirection to [url], if this can be written in a header *)
Definition leads (x : res reply) (url : str) (cookie : option (str * str)) : Prop :=
  (exists l, header_text url l /\ x = V (RRedirect l cookie)) \/ ((forall l, ~ header_text url l) /\ x = X (Py UnicodeEncodeError)).
(** The value of a parameter of the query, the last one if there are more: no query, or one as it is written *)
Inductive param_of (url name : str) : option str -> Prop :=
| po_none : ~ In 63 url -> param_of url name None
| po_query u items q : url = u ++ 63 :: q -> ~ In 63 u -> ~ In 35 u -> SpecUrl.query_text items q -> param_of url name (lookup name (rev items)).
(** Where a login leads: to the address that the link names, or to the home page *)
Definition next_of (w : web) (url : str) : Prop :=
  forall r, param_of (wb_url w) (chars "next") r -> match r with Some (c :: n) => url = c :: n | _ => url = wb_base w ++ chars "/" end.
(** example/main.py 21-26, routes/auth.py, routes/connect.py, with HEAD where there is GET *)
Definition offers (g : page) : list str :=
  match g with
  | Home | AuthorizePage | ErrorPage => [chars "GET"; chars "HEAD"]
  | LoginPage | LogoutPage => [chars "GET"; chars "HEAD"; chars "POST"]
  | RevokePage | TokenPage => [chars "POST"]
  end.
