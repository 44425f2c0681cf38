(** Properties C114-C117, C139 and C145: what the readers of texts accept and what they read, in terms of SpecReaders.v,
    and what the writers write, in terms of SpecUrl.v and SpecWrite.v. *)
From Coq Require Import String Ascii List NArith ZArith Bool.
From Verif Require Import Base Utf8 Base64 Json JsonFacts Url Webtools OAuth SpecCodec SpecReaders ReaderFacts ReadB64Facts FormFacts HeaderFacts FormAllFacts SpecUrl UrlWriteFacts SpecWrite WriteFacts.
Import ListNotations.
Open Scope N_scope.

(** C114.  [json_text true]: RFC 8259 with NaN, the infinities and surrogates without their partner; [json_text false]: RFC 8259. *)
Theorem C114_loads_iff : forall s v, loads s = Ok v <-> json_text true s v.
Proof. exact loads_iff. Qed.
Print Assumptions C114_loads_iff.
Theorem C114_loads_error_iff : forall s e, loads s = Err e <-> e = JSONDecodeError /\ ~ exists v, json_text true s v.
Proof. exact json_or_error. Qed.
Print Assumptions C114_loads_error_iff.
Theorem C114_rfc8259_read : forall s v, json_text false s v -> loads s = Ok v.
Proof. exact (loads_complete false). Qed.
Print Assumptions C114_rfc8259_read.
Theorem C114_rfc8259_written : forall v, json_wf v = true -> json_text false (dumps v) v.
Proof. exact dumps_json. Qed.
Print Assumptions C114_rfc8259_written.
(** Octets that are not UTF-8 are read as their Base64 text. *)
Theorem C114_json_loads_iff : forall b v, bytes_ok b ->
  (json_loads b = Ok v <-> (exists s, rfc3629_str s = Some b /\ json_text true s v) \/
                           ((forall s, rfc3629_str s <> Some b) /\ json_text true (rfc4648_url b) v)).
Proof. exact json_octets_iff. Qed.
Print Assumptions C114_json_loads_iff.
Example C114_example :
  json_text false (chars "[-12, 0.5e3 ]") (PList [PInt (-12); PFloat (chars "0.5e3")]) /\
  loads (chars " {""a"": [1, true, null], ""b"":""\u00e9\ud83d\uDE00\n"", ""a"" :{}} ") = Ok (PDict [(chars "a", PDict []); (chars "b", PStr [233; 128512; 10])]) /\
  loads (chars "[1] x") = Err JSONDecodeError /\ loads (chars "01") = Err JSONDecodeError /\ loads (chars "NaN") = Ok (PFloat (chars "NaN")) /\
  bytes_ok [158; 233; 101] /\ json_loads [158; 233; 101] = Ok PNone.
Proof.
  split.
  - change (chars "[-12, 0.5e3 ]") with ([] ++ (91 :: ([] ++ (45 :: [49; 50]) ++ [] ++ 44 :: ([32] ++ ([] ++ [48] ++ [46; 53] ++ [101; 51]) ++ [32])) ++ [93]) ++ []).
    apply jt; [constructor| |constructor]. apply vt_array. apply et_more; [constructor| |constructor|].
    + apply vt_number. apply (num_neg [49; 50]). apply int_more; [split; discriminate|discriminate|]. repeat constructor; discriminate.
    + apply et_last; [repeat constructor| |repeat constructor]. apply vt_number. apply num_float; [left; reflexivity|apply int_zero| | |left; discriminate].
      * apply frac_some; [split; discriminate|constructor].
      * apply (exp_some 101 [] 51 []); [left; reflexivity|left; reflexivity|split; discriminate|constructor].
  - split; [vm_compute; reflexivity|]. split; [vm_compute; reflexivity|]. split; [vm_compute; reflexivity|]. split; [vm_compute; reflexivity|].
    split; [repeat constructor|vm_compute; reflexivity].
Qed.

(** C115.  Pairs without value are dropped, a repeated name keeps its first place and its last value. *)
Theorem C115_form_read : forall t l, form_pairs t l -> urldecode t = merged (non_blank l).
Proof. exact form_dict. Qed.
Print Assumptions C115_form_read.
Theorem C115_form_written : forall items q, urlencode_ items = Ok q -> items <> [] -> form_pairs q items.
Proof. exact urlencode_form. Qed.
Print Assumptions C115_form_written.
(** Any text is read: a piece without "=" or without value is dropped, "%" that is not followed by two hexadecimal digits stands
    for itself, octets that are not UTF-8 become U+FFFD. *)
Theorem C115_form_iff : forall t d, urldecode t = d <-> exists l, form_all t l /\ d = merged l.
Proof. exact form_total. Qed.
Print Assumptions C115_form_iff.
Example C115_any_example : exists l, form_all (chars "a=%&&b&=%c3%28&c=%E9&a=%f0%9F%98&d=" ++ [233; 43]) l /\
  merged l = [(chars "a", [65533]); ([], [65533; 40]); (chars "c", [65533]); (chars "d", [233; 32])].
Proof.
  destruct (proj1 (C115_form_iff (chars "a=%&&b&=%c3%28&c=%E9&a=%f0%9F%98&d=" ++ [233; 43]) _) eq_refl) as (l & H & E).
  exists l. split; [exact H|]. rewrite <- E. vm_compute. reflexivity.
Qed.
Example C115_example :
  form_pairs (chars "a=x+y&b=%c3%A9&c=&a=2") [(chars "a", chars "x y"); (chars "b", [233]); (chars "c", []); (chars "a", chars "2")] /\
  merged (non_blank [(chars "a", chars "x y"); (chars "b", [233]); (chars "c", []); (chars "a", chars "2")]) = [(chars "a", chars "2"); (chars "b", [233])] /\
  urldecode (chars "a=x+y&b=%c3%A9&c=&a=2") = [(chars "a", chars "2"); (chars "b", [233])].
Proof.
  assert (P : forall c, c < 128 -> ~ In c [37; 38; 43; 61] -> form_text [c] [c]) by (intros c H K; apply ft_plain; [exact H|exact K|apply ft_nil]).
  split; [|split; vm_compute; reflexivity].
  change (chars "a=x+y&b=%c3%A9&c=&a=2") with ([97] ++ 61 :: [120; 43; 121] ++ 38 :: ([98] ++ 61 :: [37; 99; 51; 37; 65; 57] ++ 38 :: ([99] ++ 61 :: [] ++ 38 :: ([97] ++ 61 :: [50])))).
  apply fp_more; [apply P; [reflexivity|vm_compute; intuition discriminate]| |].
  { apply (ft_plain 120 [43; 121] [32; 121]); [reflexivity|vm_compute; intuition discriminate|]. apply ft_space. apply P; [reflexivity|vm_compute; intuition discriminate]. }
  apply fp_more; [apply P; [reflexivity|vm_compute; intuition discriminate]| |].
  { apply (ft_percent [37; 99; 51; 37; 65; 57] 233 [195; 169] [] []); [reflexivity| |apply ft_nil].
    apply (pc_cons [37; 99; 51] 195 [37; 65; 57] [169]).
    - exists 99, 51, 12, 3. split; [reflexivity|]. split; [vm_compute; tauto|]. split; [vm_compute; tauto|reflexivity].
    - apply (pc_cons [37; 65; 57] 169 [] []); [|apply pc_nil]. exists 65, 57, 10, 9. split; [reflexivity|]. split; [vm_compute; tauto|]. split; [vm_compute; tauto|reflexivity]. }
  apply fp_more; [apply P; [reflexivity|vm_compute; intuition discriminate]|apply ft_nil|].
  apply fp_one; apply P; [reflexivity|vm_compute; intuition discriminate|reflexivity|vm_compute; intuition discriminate].
Qed.

(** C139.  The URL with the parameters, or the error: a parameter called "url" is refused, one that is None is left out, the
    others are written by their text. *)
Theorem C139_urlencode_iff : forall u d r, urlencode u d = Ok r <-> url_with u d r.
Proof. exact urlencode_iff. Qed.
Print Assumptions C139_urlencode_iff.
Theorem C139_urlencode_error_iff : forall u d e, urlencode u d = Err e <->
  (e = TypeError /\ exists v, In (chars "url", v) d) \/
  ((forall v, ~ In (chars "url", v) d) /\
   ((e = Unmodelled /\ exists k v, In (k, v) d /\ ~ simple v) \/
    (e = UnicodeEncodeError /\ (forall k v, In (k, v) d -> simple v) /\ ~ exists r, url_with u d r))).
Proof. exact urlencode_error_iff. Qed.
Print Assumptions C139_urlencode_error_iff.
Example C139_example :
  url_with (chars "https://c.example/cb") [(chars "expires_in", PInt 3600); (chars "state", PNone); (chars "new", PBool true); (chars "a b", PStr [233; 47])]
    (chars "https://c.example/cb?expires_in=3600&new=True&a+b=%C3%A9%2F") /\
  urlencode (chars "x") [(chars "a", PNone); (chars "url", PNone)] = Err TypeError /\
  urlencode (chars "x") [(chars "a", PStr [55296])] = Err UnicodeEncodeError.
Proof. split; [apply C139_urlencode_iff; vm_compute; reflexivity|]. split; reflexivity. Qed.

(** C145.  The JSON text of a value, character for character; one that UTF-8 cannot encode raises. *)
Theorem C145_json_iff : forall v t, json_dumps v = t <-> written v t.
Proof. exact dumps_iff. Qed.
Print Assumptions C145_json_iff.
Theorem C145_octets : forall v,
  (forall b, to_bytes (json_dumps v) = Ok b <-> octets_of v b) /\
  (forall e, to_bytes (json_dumps v) = Err e <-> e = UnicodeEncodeError /\ forall b, ~ octets_of v b).
Proof. exact octets_all. Qed.
Print Assumptions C145_octets.
Example C145_example :
  written (PDict [(chars "a""/", PList [PInt (-7); PBool true; PNone]); ([233; 10; 27], PDict [])])
    (chars "{""a\""/"": [-7, true, null], """ ++ [233] ++ chars "\n\u001b"": {}}") /\
  octets_of (PStr [233]) [34; 195; 169; 34] /\ to_bytes (json_dumps (PStr [55296])) = Err UnicodeEncodeError.
Proof. split; [apply C145_json_iff; vm_compute; reflexivity|]. split; [apply C145_octets; vm_compute; reflexivity|]. vm_compute. reflexivity. Qed.

(** C116 *)
Theorem C116_words_iff : forall s l, words s = l <-> word_list (fun c => In c white) s l.
Proof. exact words_iff. Qed.
Print Assumptions C116_words_iff.
Example C116_example : words (chars "  openid email ") = [chars "openid"; chars "email"] /\
  word_list (fun c => In c white) (chars "  openid email ") [chars "openid"; chars "email"] /\ words [32; 160; 9] = [].
Proof. split; [vm_compute; reflexivity|]. split; [apply C116_words_iff; vm_compute; reflexivity|vm_compute; reflexivity]. Qed.

(** C117.  Any text; the texts of the alphabet of RFC 4648 section 5; *)
Theorem C117_base64url_iff : forall t b, base64url_decode t = Ok b <-> base64_text any_values (t ++ repeat 61 (Nat.modulo (length t) 4)) b.
Proof. exact base64url_decode_iff. Qed.
Print Assumptions C117_base64url_iff.
Theorem C117_base64url_error_iff : forall t e, base64url_decode t = Err e <->
  e = BinasciiError /\ ~ exists b, base64_text any_values (t ++ repeat 61 (Nat.modulo (length t) 4)) b.
Proof. exact base64_or_error. Qed.
Print Assumptions C117_base64url_error_iff.
Theorem C117_base64url_plain : forall t b, Forall (fun c => In c url_alphabet) t ->
  (base64url_decode t = Ok b <-> Nat.modulo (length t) 4 <> 1%nat /\ whole_octets (flat_map bits6 (values any_values t)) b).
Proof. exact base64url_plain. Qed.
Print Assumptions C117_base64url_plain.
(** the decoder and encoder of section 4, for the Basic credentials. *)
Theorem C117_base64_iff : forall t b, b64decode t = Ok b <-> base64_text std_values t b.
Proof. exact b64decode_iff. Qed.
Print Assumptions C117_base64_iff.
Theorem C117_base64_written : forall l, bytes_ok l -> b64encode false l = rfc4648 l.
Proof. exact b64encode_rfc. Qed.
Print Assumptions C117_base64_written.
Example C117_example :
  base64url_decode (chars "-_8") = Ok [251; 255] /\ base64url_decode (chars "+/ 8") = Err BinasciiError /\ base64url_decode (chars "-!_-_AA") = Ok [251; 255; 191; 0] /\
  base64url_decode (chars "AAAAA") = Err BinasciiError /\ base64url_decode (chars "AB") = base64url_decode (chars "AA") /\
  b64decode (chars "AAA=BBBB") = Ok [0; 0] /\ rfc4648 [251; 255] = chars "+/8=" /\ base64_text std_values (chars "+/8=") [251; 255].
Proof. do 7 (split; [vm_compute; reflexivity|]). apply C117_base64_iff. vm_compute. reflexivity. Qed.
