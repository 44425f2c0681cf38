(** A concrete instance of [crypto], so that the examples beside the theorems use real keys, MACs and
    signatures.  No theorem depends on it: it is not part of the trusted base.

    SHA-2 (FIPS 180-4), HMAC (FIPS 198-1), RSASSA-PKCS1-v1_5 and RSASSA-PSS (RFC 8017).  ECDSA is replaced by
    a stand-in and PEM is not implemented. *)
From Coq Require Import String Ascii List NArith ZArith Bool.
From Verif Require Import Base Webtools SpecCodec Crypto.
Import ListNotations.
Open Scope N_scope.

(** ** SHA-2, parameterised by the word size [w] in bits *)
Section Sha2.
Variables (w : N) (K : list N) (r0 r1 r2 r3 : N * N * N).
Definition wmask : N := N.ones w.
Definition rotr (n x : N) : N := N.lor (N.shiftr x n) (N.land (N.shiftl x (w - n)) wmask).
Definition big (r : N * N * N) (x : N) : N :=
  let '(a, b, c) := r in N.lxor (N.lxor (rotr a x) (rotr b x)) (rotr c x).
Definition small (r : N * N * N) (x : N) : N :=
  let '(a, b, c) := r in N.lxor (N.lxor (rotr a x) (rotr b x)) (N.shiftr x c).
Definition wadd (a b : N) : N := N.land (a + b) wmask.

(** The last sixteen words, most recent first. *)
Definition next_word (l : list N) : N :=
  wadd (wadd (small r3 (nth 1 l 0)) (nth 6 l 0)) (wadd (small r2 (nth 14 l 0)) (nth 15 l 0)).
Definition step (st : list N) (k wt : N) : list N :=
  match st with
  | [a; b; c; d; e; f; g; h] =>
      let t1 := wadd (wadd (wadd h (big r1 e)) (wadd (N.lxor (N.land e f) (N.land (N.lxor e wmask) g)) k)) wt in
      let t2 := wadd (big r0 a) (N.lxor (N.lxor (N.land a b) (N.land a c)) (N.land b c)) in
      [wadd t1 t2; a; b; c; wadd d t1; e; f; g]
  | _ => st
  end.
(** [win]: the sixteen next words, first first. *)
Fixpoint go (ks win st : list N) : list N :=
  match ks, win with
  | k :: ks', wt :: win' => go ks' (win' ++ [next_word (rev win)]) (step st k wt)
  | _, _ => st
  end.
Fixpoint words (n : nat) (wb : nat) (b : bytes) : list N :=
  match n with O => [] | S n' => be_value (firstn wb b) :: words n' wb (skipn wb b) end.
Fixpoint blocks (n : nat) (bs : nat) (b st : list N) : list N :=
  match n with
  | O => st
  | S n' =>
      let st' := go K (words 16 (Nat.div bs 16) (firstn bs b)) st in
      blocks n' bs (skipn bs b) (map (fun xy => wadd (fst xy) (snd xy)) (combine st st'))
  end.
Definition sha2 (bs : nat) (init : list N) (msg : bytes) : bytes :=
  let len := length msg in
  let lb := Nat.div bs 8 in
  let z := Nat.modulo (bs - Nat.modulo (len + 1 + lb) bs) bs in
  let m := msg ++ [128] ++ repeat 0 z ++ be_bytes lb (8 * N.of_nat len) in
  flat_map (be_bytes (Nat.div bs 16)) (blocks (Nat.div (length m) bs) bs m init).
End Sha2.

Definition k256 : list N :=
  [ 1116352408; 1899447441; 3049323471; 3921009573; 
   961987163; 1508970993; 2453635748; 2870763221; 
   3624381080; 310598401; 607225278; 1426881987; 
   1925078388; 2162078206; 2614888103; 3248222580; 
   3835390401; 4022224774; 264347078; 604807628; 
   770255983; 1249150122; 1555081692; 1996064986; 
   2554220882; 2821834349; 2952996808; 3210313671; 
   3336571891; 3584528711; 113926993; 338241895; 
   666307205; 773529912; 1294757372; 1396182291; 
   1695183700; 1986661051; 2177026350; 2456956037; 
   2730485921; 2820302411; 3259730800; 3345764771; 
   3516065817; 3600352804; 4094571909; 275423344; 
   430227734; 506948616; 659060556; 883997877; 
   958139571; 1322822218; 1537002063; 1747873779; 
   1955562222; 2024104815; 2227730452; 2361852424; 
   2428436474; 2756734187; 3204031479; 3329325298].
Definition k512 : list N :=
  [ 4794697086780616226; 8158064640168781261; 13096744586834688815; 16840607885511220156; 
   4131703408338449720; 6480981068601479193; 10538285296894168987; 12329834152419229976; 
   15566598209576043074; 1334009975649890238; 2608012711638119052; 6128411473006802146; 
   8268148722764581231; 9286055187155687089; 11230858885718282805; 13951009754708518548; 
   16472876342353939154; 17275323862435702243; 1135362057144423861; 2597628984639134821; 
   3308224258029322869; 5365058923640841347; 6679025012923562964; 8573033837759648693; 
   10970295158949994411; 12119686244451234320; 12683024718118986047; 13788192230050041572; 
   14330467153632333762; 15395433587784984357; 489312712824947311; 1452737877330783856; 
   2861767655752347644; 3322285676063803686; 5560940570517711597; 5996557281743188959; 
   7280758554555802590; 8532644243296465576; 9350256976987008742; 10552545826968843579; 
   11727347734174303076; 12113106623233404929; 14000437183269869457; 14369950271660146224; 
   15101387698204529176; 15463397548674623760; 17586052441742319658; 1182934255886127544; 
   1847814050463011016; 2177327727835720531; 2830643537854262169; 3796741975233480872; 
   4115178125766777443; 5681478168544905931; 6601373596472566643; 7507060721942968483; 
   8399075790359081724; 8693463985226723168; 9568029438360202098; 10144078919501101548; 
   10430055236837252648; 11840083180663258601; 13761210420658862357; 14299343276471374635; 
   14566680578165727644; 15097957966210449927; 16922976911328602910; 17689382322260857208; 
   500013540394364858; 748580250866718886; 1242879168328830382; 1977374033974150939; 
   2944078676154940804; 3659926193048069267; 4368137639120453308; 4836135668995329356; 
   5532061633213252278; 6448918945643986474; 6902733635092675308; 7801388544844847127].
Definition iv256 : list N :=
  [ 1779033703; 3144134277; 1013904242; 2773480762; 
   1359893119; 2600822924; 528734635; 1541459225].
Definition iv384 : list N :=
  [ 14680500436340154072; 7105036623409894663; 10473403895298186519; 1526699215303891257; 
   7436329637833083697; 10282925794625328401; 15784041429090275239; 5167115440072839076].
Definition iv512 : list N :=
  [ 7640891576956012808; 13503953896175478587; 4354685564936845355; 11912009170470909681; 
   5840696475078001361; 11170449401992604703; 2270897969802886507; 6620516959819538809].

Definition digest_len (h : hash) : nat := match h with SHA256 => 32 | SHA384 => 48 | SHA512 => 64 end%nat.
Definition block_len (h : hash) : nat := match h with SHA256 => 64 | _ => 128 end%nat.
Definition sha (h : hash) (m : bytes) : bytes :=
  firstn (digest_len h)
  match h with
  | SHA256 => sha2 32 k256 (2, 13, 22) (6, 11, 25) (7, 18, 3) (17, 19, 10) 64 iv256 m
  | SHA384 => sha2 64 k512 (28, 34, 39) (14, 18, 41) (1, 8, 7) (19, 61, 6) 128 iv384 m
  | SHA512 => sha2 64 k512 (28, 34, 39) (14, 18, 41) (1, 8, 7) (19, 61, 6) 128 iv512 m
  end.
Definition xor_pad (c : N) (l : bytes) : bytes := map (N.lxor c) l.
Definition hmac (h : hash) (key data : bytes) : bytes :=
  let k := if Nat.ltb (block_len h) (length key) then sha h key else key in
  let k0 := k ++ repeat 0 (block_len h - length k) in
  sha h (xor_pad 92 k0 ++ sha h (xor_pad 54 k0 ++ data)).

(** ** RSA *)
Fixpoint powmod_pos (b : N) (e : positive) (m : N) : N :=
  match e with
  | xH => b mod m
  | xO e' => let x := powmod_pos b e' m in (x * x) mod m
  | xI e' => let x := powmod_pos b e' m in ((x * x) mod m * b) mod m
  end.
Definition powmod (b e m : N) : N := match e with N0 => 1 mod m | Npos p => powmod_pos (b mod m) p m end.

(** A Fermat test to the bases 2, 3, 5 and 7, enough for the examples. *)
Definition fermat (p : N) : bool :=
  existsb (N.eqb p) [2; 3; 5; 7] ||
  ((1 <? p) && forallb (fun b => powmod b (p - 1) p =? 1) [2; 3; 5; 7]).

(** DigestInfo prefixes, RFC 8017 section 9.2 note 1. *)
Definition digest_info (h : hash) : bytes :=
  let p x l y := [48; x; 48; 13; 6; 9; 96; 134; 72; 1; 101; 3; 4; 2; l; 5; 0; 4; y] in
  match h with SHA256 => p 49 1 32 | SHA384 => p 65 2 48 | SHA512 => p 81 3 64 end.
Definition pkcs1 (h : hash) (len : nat) (data : bytes) : option bytes :=
  let t := digest_info h ++ sha h data in
  if Nat.ltb len (length t + 11) then None
  else Some ([0; 1] ++ repeat 255 (len - length t - 3) ++ [0] ++ t).

Fixpoint mgf1 (h : hash) (seed : bytes) (n : nat) (i : N) : bytes :=
  match n with O => [] | S n' => sha h (seed ++ be_bytes 4 i) ++ mgf1 h seed n' (i + 1) end.
Definition xors (a b : bytes) : bytes := map (fun p => N.lxor (fst p) (snd p)) (combine a b).
(** PSS with the given salt; [bits] is the length of the modulus minus one. *)
Definition pss (h : hash) (bits : N) (salt data : bytes) : option bytes :=
  let em := N.to_nat ((bits + 7) / 8) in
  let hl := digest_len h in
  if Nat.ltb em (hl + length salt + 2) then None
  else
    let hh := sha h (repeat 0 8 ++ sha h data ++ salt) in
    let db := repeat 0 (em - length salt - hl - 2) ++ [1] ++ salt in
    let mask := firstn (length db) (mgf1 h hh (Nat.div (length db) hl + 1) 0) in
    let x := xors db mask in
    let top := 8 * N.of_nat em - bits in
    Some (match x with [] => [] | y :: r => N.land y (N.ones (8 - top)) :: r end ++ hh ++ [188]).
Definition salt_len (s : salt_length) (h : hash) (n : N) : nat :=
  let em := N.to_nat ((N.size n - 1 + 7) / 8) in
  match s with SaltDigest => digest_len h | SaltMax => em - digest_len h - 2 end%nat.
(** Recover the salt of an encoded message and compare the encodings. *)
Definition pss_check (h : hash) (bits : N) (sl : nat) (em data : bytes) : bool :=
  let hl := digest_len h in
  let dbl := (length em - hl - 1)%nat in
  let x := firstn dbl em in
  let hh := firstn hl (skipn dbl em) in
  let mask := firstn dbl (mgf1 h hh (Nat.div dbl hl + 1) 0) in
  let salt := skipn (dbl - sl) (xors x mask) in
  match pss h bits salt data with Some e => eqs e em | None => false end.

Definition rsa_sign (rand : bytes) (n : N) (k : rsa_priv) (pad : padding) (h : hash) (data : bytes) : result bytes :=
  let len := byte_len n in
  let em := match pad with
            | PKCS1v15 => pkcs1 h len data
            | PSS s => pss h (N.size n - 1) (firstn (salt_len s h n) (rand ++ repeat 0 (salt_len s h n))) data
            end in
  match em with
  | Some e => Ok (be_bytes len (powmod (be_value e) (r_d k) n))
  | None => Err ValueError
  end.
Definition rsa_verify (n e : N) (pad : padding) (h : hash) (sig data : bytes) : bool :=
  let len := byte_len n in
  if negb (Nat.eqb (length sig) len) then false
  else
    let m := powmod (be_value sig) e n in
    match pad with
    | PKCS1v15 => match pkcs1 h len data with Some em => eqs em (be_bytes len m) | None => false end
    | PSS s => pss_check h (N.size n - 1) (salt_len s h n) (be_bytes (N.to_nat ((N.size n - 1 + 7) / 8)) m) data
    end.

(** ** Elliptic curves: the base points.  Scalar multiplication is given for 1 only, and the signature
    scheme is a stand-in (computing on the curves in Coq takes minutes). *)
Definition base_point (c : curve) : N * N :=
  match c with
  | P256 => (48439561293906451759052585252797914202762949526041747995844080717082404635286, 36134250956749795798585127919587881956611106672985015071877198253568414405109)
  | P384 => (26247035095799689268623156744566981891852923491109213387815615900925518854738050089022388053975719786650872476732087, 8325710961489029985546751289520108179287853048861315594709205902480503199884419224438643760392947333078086511627871)
  | P521 => (2661740802050217063228768716723360960729859168756973147706671368418802944996427808491545080627771902352094241225065558662157113545570916814161637315895999846, 3757180025770020463545507224491183603594455134769762486694567779615544477440556316691234405012945539562144444537289428522585666729196580810124344277578376784)
  end.
Definition ec_mul (c : curve) (d : N) : N * N := if d =? 1 then base_point c else (0, 0).
Definition ec_sign (c : curve) (d : N) (h : hash) (data : bytes) : N * N :=
  (1 + be_value (sha h data) mod (curve_order c - 1), 1 + fst (ec_mul c d) mod (curve_order c - 1)).
Definition ec_verify (c : curve) (x y : N) (h : hash) (rs : N * N) (data : bytes) : bool :=
  (fst rs =? 1 + be_value (sha h data) mod (curve_order c - 1)) && (snd rs =? 1 + x mod (curve_order c - 1)).

Definition ref : crypto := {|
  c_hmac := hmac;
  c_prime := fermat;
  c_rsa_recover := fun _ _ _ => Err ValueError;
  c_rsa_iqmp := fun p q => powmod q (p - 2) p;
  c_rsa_sign := rsa_sign;
  c_rsa_verify := rsa_verify;
  c_ec_mul := ec_mul;
  c_ec_sign := fun _ => ec_sign;
  c_ec_verify := ec_verify;
  c_pem_private := fun _ => Err ValueError;
  c_pem_public := fun _ => Err ValueError;
  c_pem_export_private := fun _ => [];
  c_pem_export_public := fun _ => []
|}.
