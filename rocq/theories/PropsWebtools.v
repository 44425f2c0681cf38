(** Properties C01-C14: webtools.py and the Location header. *)
From Coq Require Import String Ascii List NArith ZArith Bool.
From Verif Require Import Base Utf8 Base64 SpecCodec Json JsonFacts Url Webtools SpecWeb WebtoolsFacts SpecReaders HeaderFacts SpecUrl UrlQuoteFacts.
Import ListNotations.
Open Scope N_scope.

(** C01 *)
Theorem C01_base64url_roundtrip : forall b, bytes_ok b ->
  base64url_decode (base64url_encode b) = Ok b /\
  base64url_encode b = rfc4648_url b /\
  Forall (fun c => In c url_alphabet) (base64url_encode b) /\
  length (base64url_encode b) = ((8 * length b + 5) / 6)%nat.
Proof. exact p_base64url. Qed.
Print Assumptions C01_base64url_roundtrip.
Example C01_example :
  bytes_ok [251; 255; 191; 0] /\ base64url_encode [251; 255; 191; 0] = lit "-_-_AA" /\
  base64url_decode (lit "-_-_AA") = Ok [251; 255; 191; 0].
Proof. repeat split; try reflexivity. repeat constructor. Qed.

(** C02 *)
Theorem C02_int_roundtrip : forall z, (0 < z)%Z ->
  exists l b, int_to_b64 z = Ok b /\ b = rfc4648_url l /\ bytes_ok l /\ Z.of_N (be_value l) = z /\
    (forall l', bytes_ok l' -> Z.of_N (be_value l') = z -> (length l <= length l')%nat) /\
    b64_to_int_bytes b = Ok (Z.to_N z) /\ b64_to_int (PStr b) = Ok (Some (Z.to_N z)).
Proof. exact p_int_roundtrip. Qed.
Print Assumptions C02_int_roundtrip.
Example C02_example :
  int_to_b64 65537 = Ok (lit "AQAB") /\ be_value [1; 0; 1] = 65537 /\ b64_to_int (PStr (lit "AQAB")) = Ok (Some 65537).
Proof. repeat split; reflexivity. Qed.

Theorem C02_int_negative : forall z, (z < 0)%Z -> int_to_b64 z = Err ValueError.
Proof. exact p_int_negative. Qed.
Print Assumptions C02_int_negative.
Example C02_negative_example : int_to_b64 (-5) = Err ValueError.
Proof. reflexivity. Qed.

(** C03: refuted at zero; C02 proves it for every other accepted integer. *)
Theorem C03_int_emitted_accepted_refuted :
  exists z b, int_to_b64 z = Ok b /\ b64_to_int_bytes b = Err ValueError /\ b64_to_int (PStr b) = Err ValueError.
Proof. exists 0%Z, []. repeat split; reflexivity. Qed.
Print Assumptions C03_int_emitted_accepted_refuted.

Theorem C03_int_emitted_accepted_partial : forall z b, z <> 0%Z -> int_to_b64 z = Ok b ->
  b64_to_int_bytes b = Ok (Z.to_N z) /\ (0 < z)%Z.
Proof. exact p_int_emitted. Qed.
Print Assumptions C03_int_emitted_accepted_partial.
Example C03_example : int_to_b64 255 = Ok (lit "_w") /\ b64_to_int_bytes (lit "_w") = Ok 255.
Proof. split; reflexivity. Qed.

(** C04 *)
Theorem C04_to_string :
  (forall s, scalar_str s -> exists b, rfc3629_str s = Some b /\ to_bytes s = Ok b /\ to_string b = s) /\
  (forall b, bytes_ok b ->
     (exists s, rfc3629_str s = Some b /\ to_string b = s) \/
     ((forall s, rfc3629_str s <> Some b) /\ to_string b = rfc4648_url b /\
      Forall (fun c => In c url_alphabet) (to_string b))).
Proof. exact p_to_string. Qed.
Print Assumptions C04_to_string.
Example C04_example :
  to_bytes [233; 8364; 128512] = Ok [195; 169; 226; 130; 172; 240; 159; 152; 128] /\
  to_string [195; 169; 226; 130; 172; 240; 159; 152; 128] = [233; 8364; 128512] /\
  utf8_decode [255; 254; 58] = None /\ to_string [255; 254; 58] = lit "__46".
Proof. repeat split; reflexivity. Qed.

(** C05 *)
Theorem C05_json_roundtrip : forall v, json_wf v = true -> loads (dumps v) = Ok v.
Proof. exact loads_dumps. Qed.
Print Assumptions C05_json_roundtrip.
Theorem C05_json_roundtrip_bytes : forall v b, json_wf v = true -> to_bytes (json_dumps v) = Ok b -> json_loads b = Ok v.
Proof. exact p_json_bytes. Qed.
Print Assumptions C05_json_roundtrip_bytes.
Example C05_example :
  let v := PDict [(lit "b", PList [PInt (-12); PNone; PBool true; PDict []]); (lit "a", PStr [34; 92; 10; 1; 8364])] in
  json_wf v = true /\ loads (dumps v) = Ok v /\ exists b, to_bytes (json_dumps v) = Ok b.
Proof. vm_compute. repeat split. eauto. Qed.

(** C06 *)
Theorem C06_fulldict_no_none : forall data kwargs ops, NoDup (keys data) -> NoDup (keys kwargs) ->
  let d := run_sets (FullDict data kwargs) ops in
  (forall k, lookup k d <> Some PNone) /\
  (forall k, lookup k d = last_non_none k ops
     (match (match lookup k kwargs with Some v => Some v | None => lookup k data end) with
      | Some PNone => None | o => o end)).
Proof. exact p_fulldict. Qed.
Print Assumptions C06_fulldict_no_none.
Example C06_example :
  run_sets (FullDict [(lit "a", PInt 1); (lit "b", PNone)] [(lit "c", PNone)])
           [(lit "a", PNone); (lit "b", PInt 2); (lit "b", PNone)] = [(lit "a", PInt 1); (lit "b", PInt 2)].
Proof. reflexivity. Qed.
(** Beyond C06: [update] bypasses the filter. *)
Theorem C06_fulldict_update_refuted :
  exists data e, lookup (lit "k") (full_update (FullDict data []) e) = Some PNone.
Proof. exists [], [(lit "k", PNone)]. reflexivity. Qed.
Print Assumptions C06_fulldict_update_refuted.

(** C07 *)
Theorem C07_query_roundtrip : forall items,
  NoDup (keys items) -> Forall (fun kv => scalar_str (fst kv) /\ scalar_str (snd kv) /\ snd kv <> []) items ->
  exists q, urlencode_ items = Ok q /\ urldecode q = items.
Proof. exact p_query_roundtrip. Qed.
Print Assumptions C07_query_roundtrip.
Example C07_example :
  let items := [(lit "a b", lit "1&2=3"); ([233], [8364; 43; 37])] in
  urlencode_ items = Ok (lit "a+b=1%262%3D3&%C3%A9=%E2%82%AC%2B%25") /\
  urldecode (lit "a+b=1%262%3D3&%C3%A9=%E2%82%AC%2B%25") = items.
Proof. split; reflexivity. Qed.

(** C08: refuted for a base URL that already has a query; proved for URLs with neither query nor fragment. *)
Theorem C08_redirect_params_refuted :
  exists u k v r, urlencode u (str_params [(k, v)]) = Ok r /\ ~ In k (keys (urldecode (url_query r))).
Proof.
  exists (lit "https://c.example/cb?x=1"), (lit "code"), (lit "abc"). eexists. split; [reflexivity|].
  vm_compute. intros [H|[]]. discriminate.
Qed.
Print Assumptions C08_redirect_params_refuted.
Theorem C08_redirect_params_fragment_refuted :
  exists u k v r, urlencode u (str_params [(k, v)]) = Ok r /\ ~ In 63 u /\ url_query r = [].
Proof.
  exists (lit "https://c.example/cb#f"), (lit "code"), (lit "abc"). eexists. split; [reflexivity|].
  split; [|reflexivity]. vm_compute. intros H. repeat (destruct H as [H|H]; [discriminate|]). destruct H.
Qed.
Print Assumptions C08_redirect_params_fragment_refuted.
Theorem C08_redirect_params_name_refuted : forall u v, urlencode u (str_params [(lit "url", v)]) = Err TypeError.
Proof. reflexivity. Qed.
Print Assumptions C08_redirect_params_name_refuted.
Theorem C08_redirect_params_partial : forall u items,
  ~ In 63 u -> ~ In 35 u -> NoDup (keys items) -> ~ In (lit "url") (keys items) ->
  Forall (fun kv => scalar_str (fst kv) /\ scalar_str (snd kv) /\ snd kv <> []) items ->
  exists r rest, urlencode u (str_params items) = Ok r /\ r = u ++ 63 :: rest /\ urldecode (url_query r) = items.
Proof. exact p_redirect_params. Qed.
Print Assumptions C08_redirect_params_partial.
Example C08_example :
  urlencode (lit "https://c.example/cb") (str_params [(lit "code", lit "a/b"); (lit "state", lit "x y")])
  = Ok (lit "https://c.example/cb?code=a%2Fb&state=x+y").
Proof. reflexivity. Qed.

(** C09: shape, injectivity and surjectivity, that is a bijection between choices and tokens. *)
Theorem C09_secret_token :
  (forall choices, choices <> [] -> Forall (fun i => (i < 64)%nat) choices ->
     exists t, secret_token choices = Ok t /\ length t = length choices /\ Forall (fun c => token_char c = true) t) /\
  (forall c1 c2 t, Forall (fun i => (i < 64)%nat) c1 -> Forall (fun i => (i < 64)%nat) c2 ->
     secret_token c1 = Ok t -> secret_token c2 = Ok t -> c1 = c2) /\
  (forall t, t <> [] -> Forall (fun c => token_char c = true) t ->
     exists choices, Forall (fun i => (i < 64)%nat) choices /\ secret_token choices = Ok t).
Proof. exact p_secret_token. Qed.
Print Assumptions C09_secret_token.
Example C09_example : secret_token [0; 26; 52; 62; 63]%nat = Ok (lit "aA0-_").
Proof. reflexivity. Qed.

(** C10.  [carries], [scheme_and_token], [same_letters], [white] and [rfc4648] are in SpecReaders.v. *)
Theorem C10_basic_roundtrip : forall m i s,
  same_letters m (chars "basic") -> ~ In 58 i -> scalar_str i -> scalar_str s ->
  exists b, rfc3629_str (i ++ 58 :: s) = Some b /\
    forall h x g, carries h (m ++ x :: g ++ rfc4648 b) -> Forall (fun c => In c white) (x :: g) -> In 32 (x :: g) ->
    get_basic_authorization h = Ok (Some (i, s)).
Proof. exact p_basic_reads. Qed.
Print Assumptions C10_basic_roundtrip.
Theorem C10_basic_iff : forall h i s, get_basic_authorization h = Ok (Some (i, s)) <->
  exists auth m t b, carries h auth /\ In 32 auth /\ scheme_and_token auth m t /\ same_letters m (chars "basic") /\
    Forall (fun c => c < 128) t /\ base64_text std_values t b /\ rfc3629_str (i ++ 58 :: s) = Some b /\ ~ In 58 i.
Proof. exact basic_iff. Qed.
Print Assumptions C10_basic_iff.
Example C10_example :
  let h := [(lit "host", PStr (lit "x")); (lit "authorization", PStr []); (lit "Authorization", PStr (lit "BaSiC  Y2xpZW50OnM6ZQ=="))] in
  carries h (lit "BaSiC" ++ 32 :: [32] ++ rfc4648 (lit "client:s:e")) /\ same_letters (lit "BaSiC") (chars "basic") /\
  get_basic_authorization h = Ok (Some (lit "client", lit "s:e")) /\
  get_basic_authorization [(lit "authorization", PStr (lit "Basic Y2xpZW50OnM6ZQ=="))] = Ok (Some (lit "client", lit "s:e")).
Proof.
  split; [|split; [|split; vm_compute; reflexivity]].
  - split; [vm_compute; discriminate|]. right. split; [vm_compute; reflexivity|]. intros v H. vm_compute in H. injection H as <-. apply fv_str.
  - unfold same_letters. change (lit "BaSiC") with [66; 97; 83; 105; 67]. change (chars "basic") with [98; 97; 115; 105; 99].
    repeat (apply Forall2_cons; [first [left; reflexivity|right; split; [split; discriminate|reflexivity]]|]). apply Forall2_nil.
Qed.

(** C11: refuted; the exact conditions under which an exception escapes, and that it is ValueError. *)
Theorem C11_extraction_never_raises_refuted :
  exists h, get_basic_authorization h = Err ValueError /\ get_bearer_authorization h = Err ValueError.
Proof. exists [(lit "authorization", PStr (lit "Basic "))]. split; reflexivity. Qed.
Print Assumptions C11_extraction_never_raises_refuted.
Theorem C11_basic_raises_iff_partial : forall h e, get_basic_authorization h = Err e <->
  e = ValueError /\ exists auth, carries h auth /\ In 32 auth /\
    ((~ exists m t, scheme_and_token auth m t) \/
     exists m t c, scheme_and_token auth m t /\ same_letters m (chars "basic") /\ In c t /\ 128 <= c).
Proof. exact basic_raises. Qed.
Print Assumptions C11_basic_raises_iff_partial.
Theorem C11_bearer_raises_iff_partial : forall h e, get_bearer_authorization h = Err e <->
  e = ValueError /\ exists auth, carries h auth /\ In 32 auth /\ ~ exists m t, scheme_and_token auth m t.
Proof. exact bearer_raises. Qed.
Print Assumptions C11_bearer_raises_iff_partial.
Example C11_example :
  get_basic_authorization [(lit "authorization", PStr (lit "Basic Y2xpZW50OnM6ZQ=" ++ [233]))] = Err ValueError /\
  get_bearer_authorization [(lit "authorization", PStr (lit " Bearer"))] = Err ValueError /\
  get_basic_authorization [(lit "authorization", PStr (lit "Basic !!!"))] = Ok None.
Proof. repeat split; reflexivity. Qed.

(** C12 *)
Theorem C12_bearer_iff : forall h t, get_bearer_authorization h = Ok (Some t) <->
  exists auth m, carries h auth /\ In 32 auth /\ scheme_and_token auth m t /\ same_letters m (chars "bearer").
Proof. exact bearer_iff. Qed.
Print Assumptions C12_bearer_iff.
Theorem C12_bearer_other : forall h,
  ((forall auth, carries h auth -> ~ In 32 auth) -> get_bearer_authorization h = Ok None) /\
  (forall auth m t, carries h auth -> scheme_and_token auth m t -> ~ same_letters m (chars "bearer") ->
     get_bearer_authorization h = Ok None).
Proof. exact p_bearer_none. Qed.
Print Assumptions C12_bearer_other.
Example C12_example :
  get_bearer_authorization [(lit "authorization", PStr (lit "BEARER a b"))] = Ok (Some (lit "a b")) /\
  get_bearer_authorization [(lit "Authorization", PStr (lit "bearer tok"))] = Ok (Some (lit "tok")) /\
  scheme_and_token (lit "bearer tok") (lit "bearer") (lit "tok") /\
  get_bearer_authorization [(lit "authorization", PStr (lit "Basic a"))] = Ok None.
Proof.
  split; [reflexivity|]. split; [reflexivity|]. split; [|reflexivity].
  apply (sat [] (lit "bearer") 32 [] 116 (lit "ok")); try apply Forall_nil; try discriminate; try (vm_compute; intuition discriminate).
  change (lit "bearer") with [98; 101; 97; 114; 101; 114]. repeat (apply Forall_cons; [vm_compute; intuition discriminate|]). apply Forall_nil.
Qed.

(** C13 *)
Theorem C13_location_safe :
  (forall url l, location url = Ok l -> Forall (fun c => 33 <= c <= 126) l) /\
  (forall url, scalar_str url -> exists l, location url = Ok l) /\
  (forall url, Forall (fun c => rfc3986_char c = true) url -> location url = Ok url).
Proof. exact p_location. Qed.
Print Assumptions C13_location_safe.
Theorem C13_location_iff : forall url l, location url = Ok l <-> header_text url l.
Proof. exact location_iff. Qed.
Print Assumptions C13_location_iff.
Example C13_example :
  location (lit "https://c.example/cb" ++ [13; 10; 233; 32] ++ lit "x") = Ok (lit "https://c.example/cb%0D%0A%C3%A9+x") /\
  location (lit "https://c.example/cb?a=%20b&c=[d]") = Ok (lit "https://c.example/cb?a=%20b&c=[d]").
Proof. split; reflexivity. Qed.

(** C14 *)
Theorem C14_half_hash : forall hashlib token alg,
  (hashlib (lit "sha" ++ skipn 2 alg) = None -> create_half_hash hashlib token alg = Err AttributeError) /\
  (forall h b, hashlib (lit "sha" ++ skipn 2 alg) = Some h -> rfc3629_str token = Some b -> bytes_ok (h b) ->
     exists s, create_half_hash hashlib token alg = Ok s /\
       s = rfc4648_url (firstn (Nat.div (length (h b)) 2) (h b)) /\
       base64url_decode s = Ok (firstn (Nat.div (length (h b)) 2) (h b))).
Proof. exact p_half_hash. Qed.
Print Assumptions C14_half_hash.
Example C14_example :
  let hl := fun n => if eqs n (lit "sha256") then Some (fun b : bytes => map (fun i => (i * 7 + N.of_nat (length b)) mod 256) [0;1;2;3;4;5]) else None in
  create_half_hash hl (lit "tok") (lit "RS256") = Ok (lit "AwoR") /\
  base64url_decode (lit "AwoR") = Ok [3; 10; 17] /\
  create_half_hash hl (lit "tok") (lit "none") = Err AttributeError.
Proof. repeat split; reflexivity. Qed.
