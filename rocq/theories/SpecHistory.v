(** Histories: several requests against one store, one after the other, with crashes, or interleaved. *)
From Coq Require Import String Ascii List NArith ZArith Bool Arith.
From Verif Require Import Base Prog Http OAuth SpecOAuth.
Import ListNotations.

(** ** Requests and how they are served *)
Inductive service := Authorize | Token | Revoke | ConsentPage.
Record incoming := { in_service : service; in_provider : provider; in_hooks : hooks; in_request : request }.

(** The request is served with the calls [tr]; [None] when no response is produced (an exception, or the
    consent page shown by the application). *)
Definition served (E : env) (q : incoming) (tr : list obs) (answer : option response) : Prop :=
  match in_service q with
  | Authorize => exists x, exec (authorization_endpoint E (in_provider q) (in_hooks q) (in_request q)) tr x /\
                   answer = match x with V r => Some r | X _ => None end
  | Token => exists x, exec (token_endpoint E (in_provider q) (in_hooks q) (in_request q)) tr x /\
                   answer = match x with V r => Some r | X _ => None end
  | Revoke => exists x, exec (revocation_endpoint (in_request q)) tr x /\
                   answer = match x with V (Some r) => Some r | _ => None end
  | ConsentPage => exists x, exec (get_consent_data (in_provider q) (in_request q)) tr x /\
                   answer = match x with V (ConsentRedirect r) => Some r | _ => None end
  end.
(** The process stopped after the calls [tr]; the last of them may have had its effect on the store without
    its outcome having been seen. *)
Definition stopped (E : env) (q : incoming) (tr : list obs) : Prop := exists tr' answer, served E q (tr ++ tr') answer.

Record event := { ev_in : incoming; ev_calls : list obs; ev_answer : option response }.
(** One request after the other *)
Definition sequential (E : env) (l : list event) : Prop := Forall (fun e => served E (ev_in e) (ev_calls e) (ev_answer e)) l.
(** ... where the process may stop during a request and be started again *)
Definition with_crashes (E : env) (l : list event) : Prop :=
  Forall (fun e => served E (ev_in e) (ev_calls e) (ev_answer e) \/ (stopped E (ev_in e) (ev_calls e) /\ ev_answer e = None)) l.
Definition all_calls (l : list event) : list obs := flat_map ev_calls l.

(** Requests interleaving at calls: the log tells which request made each call. *)
Definition calls_of (n : nat) (log : list (nat * obs)) : list obs := map snd (filter (fun x => Nat.eqb (fst x) n) log).
Definition interleaved (E : env) (qs : list (incoming * option response)) (log : list (nat * obs)) : Prop :=
  (forall n o, In (n, o) log -> exists qa, nth_error qs n = Some qa) /\
  (forall n q a, nth_error qs n = Some (q, a) -> served E q (calls_of n log) a).

(** ** Codes *)
Definition saves_code (code : str) (o : obs) : bool := match o with OSaveCode k _ _ _ (V tt) => eqs k code | _ => false end.
Definition deletes_code (code : str) (o : obs) : bool := match o with ODeleteCode k (V tt) => eqs k code | _ => false end.
Definition gets_code (code : str) (o : obs) : bool := match o with OGetCode k (V (Some _)) => eqs k code | _ => false end.
(** The stored object holds what was given to be stored. *)
Definition holds (ac : auth_code) (ad : auth_data) (c : client) (u : user) : Prop :=
  ac_client ac = cl_id c /\ ac_user ac = us_id u /\ ac_redirect ac = ad_redirect ad /\ ac_scopes ac = ad_scopes ad /\
  ac_challenge ac = ad_challenge ad /\ ac_method ac = ad_method ad.
(** The contract of the adapter (oauth2/adapter.py 61-111): a code that is found was saved, with these data,
    and not deleted since. *)
Definition honours (tr : list obs) : Prop :=
  forall t1 code ac t2, tr = t1 ++ OGetCode code (V (Some ac)) :: t2 ->
  exists a ad c u b, t1 = a ++ OSaveCode code ad c u (V tt) :: b /\ holds ac ad c u /\
    forall o, In o b -> deletes_code code o = false.
(** No code is given twice. *)
Definition fresh (code : str) (tr : list obs) : Prop := (count (saves_code code) tr <= 1)%nat.

(** The request presents this code to the code grant of the token endpoint, and the answer is a token. *)
Definition exchanged (code : str) (q : incoming) (a : option response) : bool :=
  match in_service q, a with
  | Token, Some x => N.eqb (rs_status x) 200 &&
      match lookup (lit "grant_type") (rq_data (in_request q)), lookup (lit "code") (rq_data (in_request q)) with
      | Some g, Some k => eqs g (lit "authorization_code") && eqs k code
      | _, _ => false
      end
  | _, _ => false
  end.
Definition exchanges (code : str) (l : list event) : nat := length (filter (fun e => exchanged code (ev_in e) (ev_answer e)) l).

(** Where a token response comes from: the request [q0], with the calls [tr0], got [code] for a user who was
    present, and the request [q], with the calls [tr] and the answer [x], is of the same client with the same
    redirect URI, knows the verifier, and got a token for this user with exactly the scopes of [q0]. *)
Definition comes_from (E : env) (code : str) (q0 : incoming) (tr0 : list obs) (q : incoming) (tr : list obs) (x : response) : Prop :=
  in_service q0 = Authorize /\
  exists ad c0 u0 i c u uri v a d,
    In (OSaveCode code ad c0 u0 (V tt)) tr0 /\ rq_user (in_request q0) = Some u0 /\
    (exists i0, data_has (in_request q0) "client_id" i0 /\ In (OFindClient i0 (V (Some c0))) tr0) /\
    data_has (in_request q0) "redirect_uri" uri /\ data_has (in_request q0) "code_challenge" (ad_challenge ad) /\
    data_has (in_request q0) "code_challenge_method" (ad_method ad) /\ (forall s, In s (ad_scopes ad) <-> requested (in_request q0) s) /\
    authenticates (in_request q) i c /\ cl_id c = cl_id c0 /\ data_has (in_request q) "redirect_uri" uri /\
    data_has (in_request q) "code_verifier" v /\ pkce_ok (e_sha256 E) (ad_method ad) (ad_challenge ad) v /\
    In (OFindUser (us_id u0) (V (Some u))) tr /\ In (OCreateAT c (OwnUser u) (ad_scopes ad) (V a)) tr /\
    json_body x d /\ lookup (lit "access_token") d = Some (PStr a).
