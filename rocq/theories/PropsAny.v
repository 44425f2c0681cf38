(** Properties C152-C155: the conversion helpers of webtools.py on every argument, in terms of SpecAny.v. *)
From Coq Require Import String Ascii List NArith ZArith Bool.
From Verif Require Import Base SpecCodec SpecPy SpecReaders Json Webtools WebAny SpecAny AnyFacts.
Import ListNotations.
Open Scope N_scope.

(** C152.  [float_text] is what [str] makes of a float. *)
Theorem C152_to_bytes : forall float_text a r, to_bytes_any float_text a = r <-> bytes_for float_text a r.
Proof. exact bytes_iff. Qed.
Print Assumptions C152_to_bytes.
Theorem C152_to_string : forall a r, (forall b, a = ABytes b -> bytes_ok b) -> (to_string_any a = r <-> string_for a r).
Proof. exact string_any_iff. Qed.
Print Assumptions C152_to_string.
Theorem C152_base64url_encode : forall float_text a r, (forall b, a = ABytes b -> bytes_ok b) ->
  (base64url_encode_any float_text a = r <-> encoded float_text a r).
Proof. exact encoded_iff. Qed.
Print Assumptions C152_base64url_encode.
Theorem C152_base64url_decode : forall a r, base64url_decode_any a = r <-> decoded a r.
Proof. exact decoded_iff. Qed.
Print Assumptions C152_base64url_decode.
Theorem C152_b64_to_int : forall a r, b64_to_int_any a = r <-> number_read a r.
Proof. exact number_read_iff. Qed.
Print Assumptions C152_b64_to_int.
Theorem C152_int_to_b64 : forall a r, int_to_b64_any a = r <-> number_written a r.
Proof. exact number_written_iff. Qed.
Print Assumptions C152_int_to_b64.
Theorem C152_json_loads : forall a r, (forall b, a = ABytes b -> bytes_ok b) -> (json_loads_any a = r <-> loaded a r).
Proof. exact loaded_iff. Qed.
Print Assumptions C152_json_loads.
Theorem C152_secret_token : forall choose a r, (forall i, (choose i < 64)%nat) -> (secret_token_any choose a = r <-> token_made choose a r).
Proof. exact token_made_iff. Qed.
Print Assumptions C152_secret_token.
Example C152_example : let ft := fun s => s in
  to_bytes_any ft (AVal (PInt (-12))) = Ok (Some (chars "-12")) /\ to_bytes_any ft (AVal (PBool true)) = Ok (Some (chars "True")) /\
  to_bytes_any ft (AVal PNone) = Ok None /\ to_bytes_any ft (AVal (PList [PInt 65])) = Err TypeError /\ to_bytes_any ft (AVal (PStr [55296])) = Err UnicodeEncodeError /\
  to_string_any (ABytes [195; 169]) = Ok (Some [233]) /\ to_string_any (ABytes [233]) = Ok (Some (chars "6Q")) /\ to_string_any (AVal (PInt 1)) = Err TypeError /\
  base64url_encode_any ft (AVal (PInt 5)) = Ok (chars "NQ") /\ base64url_encode_any ft (AVal PNone) = Err TypeError /\
  base64url_decode_any (AVal (PStr (chars "NQ"))) = Err TypeError /\ base64url_decode_any (ABytes (chars "NQ")) = Ok (chars "5") /\
  b64_to_int_any (ABytes (chars "AQAB")) = Ok (Some 65537) /\ b64_to_int_any (ABytes []) = Err ValueError /\ b64_to_int_any (AVal (PStr [233])) = Err UnicodeEncodeError /\
  int_to_b64_any (AVal (PBool true)) = Ok (chars "AQ") /\ int_to_b64_any (AVal (PStr (chars "1"))) = Err ValueError /\
  json_loads_any (AVal (PStr (chars "[1]"))) = Ok (PList [PInt 1]) /\ json_loads_any (ABytes (chars "{")) = Err JSONDecodeError /\ json_loads_any (AVal (PDict [])) = Err TypeError /\
  secret_token_any (fun i => i) (AVal (PInt 3)) = Ok (chars "abc") /\ secret_token_any (fun i => i) (AVal (PBool true)) = Ok (chars "a") /\
  secret_token_any (fun i => i) (AVal (PInt 0)) = Err TypeError /\ secret_token_any (fun i => i) (AVal (PInt (-4))) = Err TypeError.
Proof. vm_compute. do 23 (split; [reflexivity|]). reflexivity. Qed.

(** C153 *)
Theorem C153_text : forall float_text a t b, text_of float_text a t -> to_bytes_any float_text a = Ok (Some b) -> to_string_any (ABytes b) = Ok (Some t).
Proof. exact text_back. Qed.
Print Assumptions C153_text.
Theorem C153_base64url : forall float_text a b t, (forall o, a = ABytes o -> bytes_ok o) -> to_bytes_any float_text a = Ok (Some b) ->
  base64url_encode_any float_text a = Ok t -> base64url_decode_any (ABytes t) = Ok b.
Proof. exact encode_back. Qed.
Print Assumptions C153_base64url.
Theorem C153_number : forall v z t, whole v z -> (0 < z)%Z -> int_to_b64_any (AVal v) = Ok t ->
  b64_to_int_any (ABytes t) = Ok (Some (Z.to_N z)) /\ b64_to_int_any (AVal (PStr t)) = Ok (Some (Z.to_N z)).
Proof. exact number_back. Qed.
Print Assumptions C153_number.
Theorem C153_json : forall v b float_text, json_wf v = true -> to_bytes_any float_text (AVal (PStr (json_dumps v))) = Ok (Some b) ->
  json_loads_any (ABytes b) = Ok v /\ json_loads_any (AVal (PStr (json_dumps v))) = Ok v.
Proof. exact json_back. Qed.
Print Assumptions C153_json.
Example C153_example : let ft := fun s => s in
  text_of ft (AVal (PFloat (chars "1.5"))) (chars "1.5") /\ to_bytes_any ft (AVal (PFloat (chars "1.5"))) = Ok (Some (chars "1.5")) /\
  to_string_any (ABytes (chars "1.5")) = Ok (Some (chars "1.5")) /\ base64url_encode_any ft (AVal (PStr [233])) = Ok (chars "w6k") /\
  base64url_decode_any (ABytes (chars "w6k")) = Ok [195; 169] /\ b64_to_int_any (ABytes (chars "AQ")) = Ok (Some 1) /\
  json_wf (PList [PStr [233]]) = true /\ json_loads_any (ABytes [91; 34; 195; 169; 34; 93]) = Ok (PList [PStr [233]]).
Proof. split; [apply (tx_float (fun s => s) (chars "1.5"))|]. vm_compute. do 6 (split; [reflexivity|]). reflexivity. Qed.

(** C154: [to_string] refuses the numbers that [to_bytes] takes. *)
Theorem C154_same_arguments_refuted : forall float_text, exists a b, to_bytes_any float_text a = Ok (Some b) /\ to_string_any a = Err TypeError.
Proof. intros ft. exists (AVal (PInt 7)), (chars "7"). split; reflexivity. Qed.
Print Assumptions C154_same_arguments_refuted.
Theorem C154_same_arguments_partial : forall float_text a b, ~ number a -> to_bytes_any float_text a = Ok (Some b) -> exists s, to_string_any a = Ok (Some s).
Proof. exact takes_both. Qed.
Print Assumptions C154_same_arguments_partial.
Example C154_example : ~ number (ABytes [255]) /\ to_bytes_any (fun s => s) (ABytes [255]) = Ok (Some [255]) /\ to_string_any (ABytes [255]) = Ok (Some (chars "_w")).
Proof. split; [intros H; inversion H|]. split; reflexivity. Qed.

(** C155: text that is not base64 of a number raises other errors than the documented one. *)
Theorem C155_documented_error_refuted :
  b64_to_int_any (AVal (PStr (chars "A"))) = Err BinasciiError /\ b64_to_int_any (AVal (PStr [])) = Err ValueError /\ b64_to_int_any (AVal (PStr [233])) = Err UnicodeEncodeError.
Proof. do 2 (split; [reflexivity|]). reflexivity. Qed.
Print Assumptions C155_documented_error_refuted.
Theorem C155_errors_partial : forall a e, b64_to_int_any a = Err e ->
  In e [TypeError; ValueError; BinasciiError; UnicodeEncodeError] /\ (e = TypeError <-> number a \/ collection a).
Proof. exact int_errors. Qed.
Print Assumptions C155_errors_partial.
Example C155_example : b64_to_int_any (AVal (PInt 3)) = Err TypeError /\ number (AVal (PInt 3)).
Proof. split; [reflexivity|]. econstructor. constructor. Qed.
