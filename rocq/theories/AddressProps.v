(** AddressEncode / AddressDecode: final theorems (C08, C09, C15-C17, C67-C69). *)
From Coq Require Import String ZArith List Bool Lia ZifyBool ZifyNat.
From Verif Require Import Go GoFacts GoFacts2 Base58Model Base58Spec Base58Proofs Base58Props Base58CheckModel Base58CheckSpec Base58CheckProofs
  Bech32Model Bech32Spec Bech32Proofs Bech32Text Bech32Props Bech32mModel CashAddrModel AddressModel AddressSpec AddressProofs AddressProfiles AddressKeyProofs Digits58 XmrSpec XmrProofs Toy.
Import ListNotations.
Open Scope Z_scope.
Ltac Zify.zify_post_hook ::= idtac.

(** Hash functions of the right sizes exist. *)
Definition toy_hashes (a : alg) (d : bytes) : bytes := firstn (digest_len a) (toy_hash d).
Example toy_hashes_ok : hashes_ok toy_hashes.
Proof.
  intros a d Hd. destruct (toy_hash_ok d Hd) as [B _]. split; [apply firstn_bytes, B|].
  unfold toy_hashes. rewrite firstn_length. unfold toy_hash. rewrite be_bytes_length. destruct a; reflexivity.
Qed.

(** ** C08: AddressDecode inverts AddressEncode, and the text is the standard Base58Check one *)
Theorem address_decode_encode : forall H T f h,
  hashes_ok H -> base58_profile H T f -> is_bytes h -> zlen h = hash_len T ->
  exists s, address_encode H h T = Ok s /\ address_decode H s T = Ok h /\
    is_base58_of (alphabet_of T) (checked f (prefix_of T ++ h ++ suffix_of T)) s.
Proof. intros H T f h HH HT Hh L. exact (address_round H HH T f HT h Hh L). Qed.

(** All 112 base58 profiles of encoderProfile.go are well formed. *)
Definition known_rule (name : list Z) : bool :=
  existsb (beq name) [str "doubleSHA256"; str "doubleBlake256"; str "keccak256"; str "sha3_256"; str "blake2b_and_keccak256_first_twenty"; str "ripemd160"].
Lemma known_rule_ok H name : known_rule name = true -> exists f, checksum_rule H name f.
Proof.
  intros K. unfold known_rule in K. cbn [existsb] in K.
  repeat (apply orb_prop in K as [K|K]; [apply beq_eq in K; subst; eexists; constructor|]). discriminate.
Qed.
Definition alphabet_okb (rs : list Z) : bool :=
  ((length rs =? 58)%nat && forallb (fun c => (0 <=? c) && (c <? 128)) rs &&
   (fix nd l := match l with [] => true | x :: r => negb (existsb (Z.eqb x) r) && nd r end) rs)%bool.
Lemma forallb_bytes l : forallb is_byteb l = true -> is_bytes l.
Proof. intros F. apply Forall_forall. intros x Hx. rewrite forallb_forall in F. specialize (F x Hx). unfold is_byteb in F. unfold is_byte. lia. Qed.
Definition base58_profileb (T : addr_type) : bool :=
  beq (encode_type T) (str "base58") && alphabet_okb (alphabet_of T) && known_rule (checksum_type T) &&
  forallb is_byteb (prefix_of T) && forallb is_byteb (suffix_of T).
Lemma base58_profileb_ok H T : base58_profileb T = true -> exists f, base58_profile H T f.
Proof.
  unfold base58_profileb. rewrite !andb_true_iff. intros ((((E & A) & R) & P) & S).
  destruct (known_rule_ok H _ R) as (f & Hf). exists f.
  split; [apply beq_eq, E|]. split; [apply alphabet_ok_dec, A|]. split; [exact Hf|]. split; apply forallb_bytes; assumption.
Qed.
Lemma base58_profiles_check : forallb base58_profileb base58_profiles = true.
Proof. vm_compute. reflexivity. Qed.
Theorem listed_base58_profiles_wellformed : forall H T, In T base58_profiles -> exists f, base58_profile H T f.
Proof.
  intros H T HT. apply base58_profileb_ok. pose proof base58_profiles_check as C. rewrite forallb_forall in C. exact (C T HT).
Qed.
Theorem listed_base58_roundtrip : forall H T h,
  hashes_ok H -> In T base58_profiles -> is_bytes h -> zlen h = hash_len T ->
  exists s, address_encode H h T = Ok s /\ address_decode H s T = Ok h.
Proof.
  intros H T h HH HT Hh L. destruct (listed_base58_profiles_wellformed H T HT) as (f & HP).
  destruct (address_decode_encode H T f h HH HP Hh L) as (s & E & D & _). eauto.
Qed.
Example address_example :
  exists s, address_encode toy_hashes (repeat 7 20) BTC_mainnetAddressP2PKH = Ok s /\
    address_decode toy_hashes s BTC_mainnetAddressP2PKH = Ok (repeat 7 20) /\
    address_decode toy_hashes s BTC_mainnetAddressP2SH = Err.
Proof. eexists. split; [vm_compute; reflexivity|]. split; vm_compute; reflexivity. Qed.

(** ** C09: what AddressDecode accepts is exactly what AddressEncode produces *)
Theorem address_encode_decode : forall H T f s h,
  hashes_ok H -> base58_profile H T f -> is_bytes s -> address_decode H s T = Ok h ->
  is_bytes h /\ zlen h = hash_len T /\ address_encode H h T = Ok s.
Proof.
  intros H T f s h HH HT Hs E. pose proof (address_decode_total H HH T f HT s Hs) as K. rewrite E in K. tauto.
Qed.
Theorem address_decode_injective : forall H T f s s' h,
  hashes_ok H -> base58_profile H T f -> is_bytes s -> is_bytes s' ->
  address_decode H s T = Ok h -> address_decode H s' T = Ok h -> s = s'.
Proof.
  intros H T f s s' h HH HT Hs Hs' E E'.
  apply (address_encode_decode H T f) in E as (_ & _ & E); try assumption.
  apply (address_encode_decode H T f) in E' as (_ & _ & E'); try assumption. congruence.
Qed.
(** The run-time panics, exactly: the text is a correct Base58Check text whose body is too short for
    the profile's version bytes (a proper prefix of them, or too short to hold prefix and suffix). *)
Theorem address_decode_panics_iff : forall H T f s,
  hashes_ok H -> base58_profile H T f -> is_bytes s ->
  (address_decode H s T = Panic <->
   exists d, is_bytes d /\ is_base58_of (alphabet_of T) (checked f d) s /\
     ((exists x q, prefix_of T = d ++ x :: q) \/
      ((exists r, d = prefix_of T ++ r) /\ zlen d < zlen (suffix_of T)) \/
      ((exists r, d = prefix_of T ++ r) /\ (exists q, d = q ++ suffix_of T) /\ zlen d < zlen (prefix_of T) + zlen (suffix_of T)))).
Proof.
  intros H T f s HH HT Hs. pose proof (address_decode_total H HH T f HT s Hs) as K. split.
  - intros E. rewrite E in K. exact K.
  - intros (d & Hd & N & S). fold (recover_short (prefix_of T) (suffix_of T) d) in S.
    destruct (address_decode H s T) as [h| |]; [|exfalso; apply (K d Hd N); exact S|reflexivity].
    exfalso. destruct K as (Hh & L & N' & _). pose proof HT as (_ & A & R & _). destruct (new_alphabet_accepts _ A) as (al & Hal).
    pose proof (rule_hash_ok H HH _ _ R) as Hf. pose proof (framed_bytes H T f HT h Hh) as Fb.
    assert (E : d = framed T h).
    { apply (checked_inj f Hf); try assumption.
      apply (numeral_decode H T f HT al) in N; [|assumption|apply checked_bytes; assumption].
      apply (numeral_decode H T f HT al) in N'; [|assumption|apply checked_bytes; assumption]. congruence. }
    unfold framed in E. subst d. pose proof (zlen_nonneg h). pose proof (zlen_nonneg (prefix_of T)). pose proof (zlen_nonneg (suffix_of T)).
    destruct S as [(x & q & S)|[[_ S]|[_ [_ S]]]].
    + apply (f_equal zlen) in S. rewrite !zlen_app, zlen_cons in S. pose proof (zlen_nonneg q). lia.
    + rewrite !zlen_app in S. lia.
    + rewrite !zlen_app in S. lia.
Qed.
(** In particular the Base58Check text of the empty body makes every profile with version bytes panic. *)
Theorem address_decode_empty_body_panics : forall H T f,
  hashes_ok H -> base58_profile H T f -> prefix_of T <> [] ->
  exists s, is_base58_of (alphabet_of T) (checked f []) s /\ address_decode H s T = Panic.
Proof.
  intros H T f HH HT Hp. pose proof HT as (_ & A & R & _). pose proof (rule_hash_ok H HH _ _ R) as Hf.
  destruct (new_alphabet_accepts _ A) as (al & Hal).
  assert (Hc : is_bytes (checked f [])) by (apply checked_bytes; [exact Hf|constructor]).
  destruct (base58_encode_positional _ al (checked f []) A Hal Hc) as (s & E & N).
  exists s. split; [exact N|]. apply (address_decode_panics_iff H T f); try assumption.
  - apply (numeral_bytes H T f HT (checked f [])); assumption.
  - exists []. split; [constructor|]. split; [exact N|]. left. destruct (prefix_of T) as [|x q]; [contradiction|]. exists x, q. reflexivity.
Qed.

(** ** C67: an input of the wrong length is hashed first *)
(** The hash rules by name; the empty name stands for "no rule", which yields the empty string. *)
Inductive hash_rule (H : alg -> bytes -> bytes) : list Z -> (bytes -> bytes) -> Prop :=
| hash_h160 : hash_rule H (str "h160") (H Hash160)
| hash_blake2b : hash_rule H (str "blake2b160") (H Blake2b_20)
| hash_ripemd : hash_rule H (str "ripemd160") (H Ripemd160)
| hash_keccak_ripemd : hash_rule H (str "keccak256_ripemd160") (H Keccak256_Ripemd160)
| hash_sha3_ripemd : hash_rule H (str "sha3_256_ripemd160") (H Sha3_256_Ripemd160)
| hash_keccak : hash_rule H (str "keccak256") (H Keccak256)
| hash_sha3_last : hash_rule H (str "sha3_256_last_twenty") (fun d => skipn 12 (H Sha3_256 d))
| hash_keccak_last : hash_rule H (str "keccak256_last_twenty") (fun d => skipn 12 (H Keccak256 d))
| hash_vsys : hash_rule H (str "blake2b_and_keccak256_first_twenty") (fun d => firstn 20 (H Keccak256 (H Blake2b_32 d)))
| hash_none : hash_rule H (str "") (fun _ => []).
Lemma calc_hash_rule H name g d : hashes_ok H -> hash_rule H name g -> is_bytes d -> calc_hash H d name = Ok (g d) /\ is_bytes (g d).
Proof.
  intros HH R Hd.
  assert (L : forall a, length (H a d) = digest_len a) by (intros a; apply HH, Hd).
  assert (B : forall a, is_bytes (H a d)) by (intros a; apply HH, Hd).
  destruct R; try (split; [reflexivity|apply B]).
  - split; [|apply skipn_bytes, B]. cbv [calc_hash]. change (slice (H Sha3_256 d) 12 32 = Ok (skipn 12 (H Sha3_256 d))).
    rewrite <- (firstn_skipn 12 (H Sha3_256 d)) at 1. specialize (L Sha3_256). cbn [digest_len] in L.
    apply slice_post; unfold zlen; rewrite ?firstn_length, ?skipn_length; lia.
  - split; [|apply skipn_bytes, B]. cbv [calc_hash]. change (slice (H Keccak256 d) 12 32 = Ok (skipn 12 (H Keccak256 d))).
    rewrite <- (firstn_skipn 12 (H Keccak256 d)) at 1. specialize (L Keccak256). cbn [digest_len] in L.
    apply slice_post; unfold zlen; rewrite ?firstn_length, ?skipn_length; lia.
  - destruct (HH Keccak256 _ (B Blake2b_32)) as [B2 L2]. cbn [digest_len] in L2.
    split; [|apply firstn_bytes, B2]. cbv [calc_hash]. change (slice (H Keccak256 (H Blake2b_32 d)) 0 20 = Ok (firstn 20 (H Keccak256 (H Blake2b_32 d)))).
    rewrite <- (firstn_skipn 20 (H Keccak256 (H Blake2b_32 d))) at 1. apply slice_pre. unfold zlen; rewrite firstn_length; lia.
  - split; [reflexivity|constructor].
Qed.
Theorem address_encode_hashes_first : forall H T f g h,
  hashes_ok H -> base58_profile H T f -> hash_rule H (hash_type T) g -> is_bytes h -> zlen h <> hash_len T ->
  exists s, address_encode H h T = Ok s /\ is_base58_of (alphabet_of T) (checked f (prefix_of T ++ g h ++ suffix_of T)) s /\
    address_decode H s T = (if zlen (g h) =? hash_len T then Ok (g h) else Err).
Proof.
  intros H T f g h HH HT HG Hh L. destruct (calc_hash_rule H _ g h HH HG Hh) as [E B].
  pose proof HT as (ET & A & R & _). destruct (new_alphabet_accepts _ A) as (al & Hal).
  pose proof (rule_hash_ok H HH _ _ R) as Hf. pose proof (framed_bytes H T f HT (g h) B) as Fb.
  destruct (enc_checked f Hf _ A al Hal _ Fb) as (s & Es & Ds & As).
  assert (N : is_base58_of (alphabet_of T) (checked f (framed T (g h))) s).
  { apply (base58_numeral _ al); try assumption. apply checked_bytes; assumption. }
  exists s. split; [|split].
  - unfold address_encode, encode_hashed. rewrite ET. replace (zlen h =? hash_len T) with false by lia. rewrite E. cbn [bind].
    change (c <- calc_checksum_of H ((prefix_of T ++ g h) ++ suffix_of T) (checksum_type T) ;;
      encode_data (((prefix_of T ++ g h) ++ suffix_of T) ++ c) (str "base58") (alphabet_of T) = Ok s).
    rewrite <- app_assoc. fold (framed T (g h)). rewrite (calc_rule H HH _ f) by assumption. cbn [bind]. unfold encode_data.
    change (beq (str "base58") (str "base58")) with true. cbv iota. rewrite runes_ascii by (destruct A as (_ & _ & A); exact A).
    rewrite Hal. exact Es.
  - exact N.
  - rewrite (base58_decode_eq2 H T f HT al) by (try assumption; apply ascii_bytes, As). rewrite Ds. cbn [bind].
    rewrite (checked_body_checked H HH _ f) by assumption. cbn [bind]. unfold framed. rewrite recover_framed. reflexivity.
Qed.
(** Profiles without a hash rule (private keys, extended keys): every input of a wrong length gives one
    and the same text, and that text does not decode. *)
Theorem address_encode_no_rule_collapses : forall H T f,
  hashes_ok H -> base58_profile H T f -> hash_type T = str "" -> hash_len T <> 0 ->
  exists s, (forall h, is_bytes h -> zlen h <> hash_len T -> address_encode H h T = Ok s) /\ address_decode H s T = Err.
Proof.
  intros H T f HH HT E0 L0.
  assert (HG : hash_rule H (hash_type T) (fun _ => [])) by (rewrite E0; constructor).
  destruct (address_encode_hashes_first H T f _ [] HH HT HG) as (s & E & N & D); [constructor|change (zlen (@nil Z)) with 0; lia|].
  exists s. split.
  - intros h Hh L. destruct (address_encode_hashes_first H T f _ h HH HT HG Hh L) as (s' & E' & N' & _).
    rewrite E'. f_equal. exact (base58_of_unique _ _ _ _ N' N).
  - rewrite D. change (zlen (@nil Z)) with 0. replace (0 =? hash_len T) with false by lia. reflexivity.
Qed.
(** Every listed base58 profile has one of these rules; the digest has the profile's length except for
    the profiles without a rule and the one Tezos p2sk private-key profile. *)
Theorem listed_base58_hash_rules : forall H T, In T base58_profiles ->
  exists g, hash_rule H (hash_type T) g /\
    (hashes_ok H -> hash_type T <> str "" -> T <> XTZ_mainnetPrivate_p2sk -> forall d, is_bytes d -> zlen (g d) = hash_len T).
Proof.
  intros H T HT.
  assert (C : forallb (fun T => let t := hash_type T in let n := hash_len T in
     beq t (str "") || (n =? 20) && existsb (beq t) [str "h160"; str "blake2b160"; str "ripemd160"; str "keccak256_last_twenty"; str "blake2b_and_keccak256_first_twenty"; str "sha3_256_ripemd160"]
     || beq t (str "blake2b160") && (n =? 32) && beq (prefix_of T) (prefix_of XTZ_mainnetPrivate_p2sk)) base58_profiles = true) by (vm_compute; reflexivity).
  assert (C2 : forallb (fun T => if beq (hash_type T) (str "blake2b160") && (hash_len T =? 32)
      then beq (encode_type T) (encode_type XTZ_mainnetPrivate_p2sk) && beq (alphabet_of T) (alphabet_of XTZ_mainnetPrivate_p2sk) && beq (checksum_type T) (checksum_type XTZ_mainnetPrivate_p2sk) && beq (suffix_of T) (suffix_of XTZ_mainnetPrivate_p2sk) else true) base58_profiles = true) by (vm_compute; reflexivity).
  rewrite forallb_forall in C, C2. specialize (C T HT). specialize (C2 T HT). cbv beta zeta in C. cbv beta in C2.
  apply orb_prop in C as [C|C]; [apply orb_prop in C as [C|C]|].
  - apply beq_eq in C. rewrite C. exists (fun _ => []). split; [constructor|]. intros _ K. contradiction.
  - apply andb_prop in C as [Cn C]. assert (Ln : hash_len T = 20) by lia. rewrite Ln. cbn [existsb] in C.
    assert (Q : forall a d, hashes_ok H -> digest_len a = 20%nat -> is_bytes d -> zlen (H a d) = 20).
    { intros a d HH Da Hd. destruct (HH a d Hd) as [_ L]. unfold zlen. rewrite L, Da. reflexivity. }
    repeat (apply orb_prop in C as [C|C]; [apply beq_eq in C; rewrite C; clear C|]); try discriminate.
    + exists (H Hash160). split; [constructor|]. intros HH _ _ d Hd. apply Q; auto.
    + exists (H Blake2b_20). split; [constructor|]. intros HH _ _ d Hd. apply Q; auto.
    + exists (H Ripemd160). split; [constructor|]. intros HH _ _ d Hd. apply Q; auto.
    + eexists. split; [constructor|]. intros HH _ _ d Hd. cbv beta. destruct (HH Keccak256 d Hd) as [_ L]. cbn [digest_len] in L.
      unfold zlen. rewrite skipn_length, L. reflexivity.
    + eexists. split; [constructor|]. intros HH _ _ d Hd. cbv beta. destruct (HH Blake2b_32 d Hd) as [B _]. destruct (HH Keccak256 _ B) as [_ L]. cbn [digest_len] in L.
      unfold zlen. rewrite firstn_length, L. reflexivity.
    + exists (H Sha3_256_Ripemd160). split; [constructor|]. intros HH _ _ d Hd. apply Q; auto.
  - apply andb_prop in C as [C C3]. rewrite C in C2. apply andb_prop in C as [Ct Cn]. rewrite !andb_true_iff in C2. destruct C2 as (((E1 & E2) & E3) & E4).
    apply beq_eq in C3, Ct, E1, E2, E3, E4. exists (H Blake2b_20). split; [rewrite Ct; constructor|]. intros _ _ K. exfalso. apply K.
    assert (Ln : hash_len T = 32) by lia. clear - C3 Ct E1 E2 E3 E4 Ln. destruct T; cbn in *. subst. reflexivity.
Qed.
Example hashed_first_example :
  exists s, address_encode toy_hashes (repeat 2 33) BTC_mainnetAddressP2PKH = Ok s /\
    address_decode toy_hashes s BTC_mainnetAddressP2PKH = Ok (toy_hashes Hash160 (repeat 2 33)).
Proof. eexists. split; [vm_compute; reflexivity|]. vm_compute. reflexivity. Qed.
Example no_rule_example :
  address_encode toy_hashes (repeat 2 33) BTC_mainnetPrivateWIF = address_encode toy_hashes [9] BTC_mainnetPrivateWIF.
Proof. vm_compute. reflexivity. Qed.

(** ** C15: Ethereum and ICON hexadecimal addresses *)
Theorem eth_encode_roundtrip : forall H pad account,
  is_bytes account -> length pad = 12%nat -> length account = 20%nat ->
  address_encode H (pad ++ account) ETH_mainnetPublicAddress = Ok (hex_encode account) /\
  address_decode H (hex_encode account) ETH_mainnetPublicAddress = Ok account /\
  address_decode H (str "0x" ++ hex_encode account) ETH_mainnetPublicAddress = Ok account.
Proof.
  intros H pad account Ha Lp La. assert (Zp : zlen pad = 12) by (unfold zlen; lia). assert (Za : zlen account = 20) by (unfold zlen; lia).
  assert (Low : to_lower (hex_encode account) = hex_encode account).
  { apply (proj1 (hex_decode_iff (hex_encode account) account)). apply hex_decode_encode, Ha. }
  split; [|split].
  - unfold address_encode. rewrite zlen_app, Zp, Za. change (12 + 20 =? hash_len ETH_mainnetPublicAddress) with true.
    change (eip55_encode (pad ++ account) = Ok (hex_encode account)). unfold eip55_encode.
    rewrite slice_from_post by (symmetry; exact Zp). reflexivity.
  - unfold address_decode. change (bind (eip55_decode (hex_encode account)) (fun ret => if zlen ret =? 20 then Ok ret else Err) = Ok account).
    rewrite (proj2 (eip55_decode_ok (hex_encode account) account)); [cbn [bind]; rewrite Za; reflexivity|].
    split; [exact Ha|]. left. rewrite zlen_hex_encode. split; [lia|exact Low].
  - unfold address_decode. change (bind (eip55_decode (str "0x" ++ hex_encode account)) (fun ret => if zlen ret =? 20 then Ok ret else Err) = Ok account).
    rewrite (proj2 (eip55_decode_ok (str "0x" ++ hex_encode account) account)); [cbn [bind]; rewrite Za; reflexivity|].
    split; [exact Ha|]. right. eauto.
Qed.
(** A 20-byte account given to AddressEncode is hashed, not printed. *)
Theorem eth_encode_hashes_account : forall H account, hashes_ok H -> is_bytes account -> length account = 20%nat ->
  address_encode H account ETH_mainnetPublicAddress = Ok (hex_encode (skipn 12 (H Keccak256 account))).
Proof.
  intros H a HH Ha La. unfold address_encode. assert (Za : zlen a = 20) by (unfold zlen; lia). rewrite Za.
  change (20 =? hash_len ETH_mainnetPublicAddress) with false.
  change (eip55_encode (H Keccak256 a) = Ok (hex_encode (skipn 12 (H Keccak256 a)))). unfold eip55_encode.
  destruct (HH Keccak256 a Ha) as [_ L]. cbn [digest_len] in L.
  rewrite <- (firstn_skipn 12 (H Keccak256 a)) at 1. rewrite slice_from_post; [reflexivity|]. unfold zlen. rewrite firstn_length. lia.
Qed.
(** Decoding accepts exactly 40 hexadecimal digits of either case, with or without "0x": letter case, and so
    the EIP-55 checksum, is never looked at. *)
Theorem eth_decode_iff : forall H s a,
  address_decode H s ETH_mainnetPublicAddress = Ok a <->
  is_bytes a /\ length a = 20%nat /\ (to_lower s = hex_encode a \/ exists t, s = str "0x" ++ t /\ to_lower t = hex_encode a).
Proof.
  intros H s a. unfold address_decode. 
  change (bind (eip55_decode s) (fun ret => if zlen ret =? 20 then Ok ret else Err) = Ok a <->
    is_bytes a /\ length a = 20%nat /\ (to_lower s = hex_encode a \/ exists t, s = str "0x" ++ t /\ to_lower t = hex_encode a)).
  split.
  - intros E. apply bind_ok in E as (r & E & R). destruct (zlen r =? 20) eqn:L; [|discriminate]. injection R as <-.
    apply eip55_decode_ok in E as [B E]. split; [exact B|]. split; [unfold zlen in L; lia|]. destruct E as [[_ E]|E]; auto.
  - intros (B & L & E). assert (Za : zlen a = 20) by (unfold zlen; lia).
    rewrite (proj2 (eip55_decode_ok s a)); [cbn [bind]; rewrite Za; reflexivity|]. split; [exact B|].
    destruct E as [E|E]; [|right; exact E]. left. split; [|exact E].
    apply (f_equal zlen) in E. rewrite zlen_hex_encode in E. unfold to_lower in E. rewrite zlen_map in E. lia.
Qed.
Theorem eth_decode_panics_iff : forall H s,
  address_decode H s ETH_mainnetPublicAddress = Panic <-> zlen s < 2.
Proof.
  intros H s. unfold address_decode. change (bind (eip55_decode s) (fun ret => if zlen ret =? 20 then Ok ret else Err) = Panic <-> zlen s < 2).
  rewrite <- eip55_decode_panic. destruct (eip55_decode s) as [r| |]; cbn [bind]; [destruct (zlen r =? 20)| |]; split; intros; try discriminate; reflexivity.
Qed.
Theorem icx_roundtrip : forall H a, is_bytes a -> length a = 20%nat ->
  address_encode H a ICX_walletAddress = Ok (str "hx" ++ hex_encode a) /\
  address_decode H (str "hx" ++ hex_encode a) ICX_walletAddress = Ok a.
Proof.
  intros H a Ha La. assert (Za : zlen a = 20) by (unfold zlen; lia). split.
  - unfold address_encode. rewrite Za. reflexivity.
  - change (icx_decode (str "hx" ++ hex_encode a) = Ok a). unfold icx_decode.
    change (str "hx" ++ hex_encode a) with (104 :: 120 :: hex_encode a).
    change (idx (104 :: 120 :: hex_encode a) 0) with (Ok 104). change (idx (104 :: 120 :: hex_encode a) 1) with (Ok 120). cbn [bind].
    rewrite !zlen_cons, zlen_hex_encode, Za. change (1 + (1 + 2 * 20) - 2 =? 40) with true. cbn [negb].
    change (104 =? 104) with true. change (120 =? 120) with true. cbn [negb].
    rewrite (slice_from_post [104; 120] (hex_encode a)) by reflexivity. cbn [bind]. apply hex_decode_encode, Ha.
Qed.
Theorem icx_decode_iff : forall H s a,
  address_decode H s ICX_walletAddress = Ok a <->
  is_bytes a /\ length a = 20%nat /\ exists t, s = str "hx" ++ t /\ to_lower t = hex_encode a.
Proof.
  intros H s a. change (icx_decode s = Ok a <-> is_bytes a /\ length a = 20%nat /\ exists t, s = str "hx" ++ t /\ to_lower t = hex_encode a).
  unfold icx_decode. split.
  - destruct s as [|c0 [|c1 t]]; [discriminate| |].
    { change (idx [c0] 0) with (Ok c0). change (idx [c0] 1) with (@Panic Z). cbn [bind]. destruct (negb (c0 =? 104)); discriminate. }
    change (idx (c0 :: c1 :: t) 0) with (Ok c0). change (idx (c0 :: c1 :: t) 1) with (Ok c1). cbn [bind].
    destruct (negb (c0 =? 104)) eqn:E0; [discriminate|]. destruct (negb (c1 =? 120)) eqn:E1; [discriminate|].
    destruct (negb (_ =? 40)) eqn:E2; [discriminate|]. rewrite (slice_from_post [c0; c1] t) by reflexivity. cbn [bind].
    intros E. apply hex_decode_iff in E as [B E]. split; [exact B|]. rewrite !zlen_cons in E2.
    split; [apply (f_equal zlen) in E; rewrite zlen_hex_encode in E; unfold to_lower in E; rewrite zlen_map in E; unfold zlen in *; lia|].
    exists t. split; [|exact E]. assert (c0 = 104) by lia. assert (c1 = 120) by lia. subst. reflexivity.
  - intros (B & L & t & -> & E). change (str "hx" ++ t) with (104 :: 120 :: t).
    change (idx (104 :: 120 :: t) 0) with (Ok 104). change (idx (104 :: 120 :: t) 1) with (Ok 120). cbn [bind].
    change (104 =? 104) with true. change (120 =? 120) with true. cbn [negb]. rewrite !zlen_cons.
    assert (Zt : zlen t = 40) by (apply (f_equal zlen) in E; rewrite zlen_hex_encode in E; unfold to_lower in E; rewrite zlen_map in E; unfold zlen in *; lia).
    rewrite Zt. change (1 + (1 + 40) - 2 =? 40) with true. cbn [negb].
    rewrite (slice_from_post [104; 120] t) by reflexivity. cbn [bind]. apply hex_decode_iff. auto.
Qed.
Theorem icx_decode_panics_iff : forall H s, address_decode H s ICX_walletAddress = Panic <-> s = [] \/ s = [104].
Proof.
  intros H s. change (icx_decode s = Panic <-> s = [] \/ s = [104]). unfold icx_decode.
  destruct s as [|c0 [|c1 t]].
  - split; [auto|reflexivity].
  - change (idx [c0] 0) with (Ok c0). change (idx [c0] 1) with (@Panic Z). cbn [bind].
    destruct (negb (c0 =? 104)) eqn:E; split; try discriminate.
    + intros [K|K]; [discriminate|]. injection K as ->. discriminate.
    + intros _. right. f_equal. lia.
    + reflexivity.
  - change (idx (c0 :: c1 :: t) 0) with (Ok c0). change (idx (c0 :: c1 :: t) 1) with (Ok c1). cbn [bind].
    split; [|intros [K|K]; discriminate].
    destruct (negb (c0 =? 104)) eqn:E0; [discriminate|]. destruct (negb (c1 =? 120)) eqn:E1; [discriminate|].
    destruct (negb (_ =? 40)) eqn:E2; [discriminate|]. rewrite (slice_from_post [c0; c1] t) by reflexivity. cbn [bind].
    intros K. exfalso. eapply hex_decode_not_panic; eassumption.
Qed.
Example eth_example : 
  address_decode toy_hashes (str "0xAbCdEf0123456789aBcDeF0123456789AbCdEf01") ETH_mainnetPublicAddress =
  address_decode toy_hashes (str "abcdef0123456789abcdef0123456789abcdef01") ETH_mainnetPublicAddress /\
  address_decode toy_hashes (str "0x") ETH_mainnetPublicAddress = Err.
Proof. split; vm_compute; reflexivity. Qed.

(** ** C16: EOS and Aeternity keys *)
Lemma eos_alphabet : alphabet_ok (alphabet_of EOS_mainnetPublic).
Proof. apply alphabet_ok_dec. vm_compute. reflexivity. Qed.
Lemma ae_alphabet : alphabet_ok (alphabet_of AE_mainnetAddress).
Proof. apply alphabet_ok_dec. vm_compute. reflexivity. Qed.
Lemma eos_shape H s : address_decode H s EOS_mainnetPublic = decode_eos H s EOS_mainnetPublic.
Proof. reflexivity. Qed.
Lemma eos_split H p m : In p [str "PUB_R1_"; str "PUB_K1_"; str "EOS"] ->
  address_decode H (p ++ m) EOS_mainnetPublic = decode_key_material H m EOS_mainnetPublic.
Proof.
  intros Hp. rewrite eos_shape. unfold decode_eos. destruct Hp as [<-|[<-|[<-|[]]]].
  - rewrite has_prefix_app. rewrite slice_from_post by reflexivity. reflexivity.
  - replace (has_prefix (str "PUB_R1_") (str "PUB_K1_" ++ m)) with false by reflexivity. rewrite has_prefix_app.
    rewrite slice_from_post by reflexivity. reflexivity.
  - replace (has_prefix (str "PUB_R1_") (str "EOS" ++ m)) with false by reflexivity.
    replace (has_prefix (str "PUB_K1_") (str "EOS" ++ m)) with false by reflexivity. rewrite has_prefix_app.
    rewrite slice_from_post by reflexivity. reflexivity.
Qed.
(** A 33-byte key: "EOS" followed by the base58 text of key and four bytes of its RIPEMD-160 hash; the same
    text after any of the three prefixes gives the key back. *)
Theorem eos_roundtrip : forall H k, hashes_ok H -> is_bytes k -> length k = 33%nat ->
  exists m, address_encode H k EOS_mainnetPublic = Ok (str "EOS" ++ m) /\
    is_base58_of BTCAlphabet (checked (H Ripemd160) k) m /\
    forall p, In p [str "EOS"; str "PUB_K1_"; str "PUB_R1_"] -> address_decode H (p ++ m) EOS_mainnetPublic = Ok k.
Proof.
  intros H k HH Hk Lk. pose proof (rule_ripemd H) as R.
  destruct (key_encode H HH EOS_mainnetPublic _ eos_alphabet R k Hk) as (m & E & N).
  exists m. split; [|split; [exact N|]].
  - unfold address_encode. assert (Zk : zlen k = 33) by (unfold zlen; lia). rewrite Zk.
    change (encode_key H k EOS_mainnetPublic = Ok (str "EOS" ++ m)). exact E.
  - intros p Hp. rewrite eos_split by (cbn in *; tauto). apply (key_decode_ok H HH EOS_mainnetPublic _ eos_alphabet R); assumption.
Qed.
(** What decoding accepts, exactly: any of the prefixes and a correct checksum; the key length is not checked. *)
Theorem eos_decode_iff : forall H s k, hashes_ok H -> is_bytes s ->
  (address_decode H s EOS_mainnetPublic = Ok k <->
   is_bytes k /\ exists p m, In p [str "EOS"; str "PUB_K1_"; str "PUB_R1_"] /\ s = p ++ m /\ is_base58_of BTCAlphabet (checked (H Ripemd160) k) m).
Proof.
  intros H s k HH Hs. pose proof (rule_ripemd H) as R. split.
  - intros E. assert (exists p m, In p [str "PUB_R1_"; str "PUB_K1_"; str "EOS"] /\ s = p ++ m) as (p & m & Hp & ->).
    { rewrite eos_shape in E. unfold decode_eos in E. 
      destruct (has_prefix (str "PUB_R1_") s) eqn:P1; [apply has_prefix_spec in P1 as (m & ->); eexists _, m; split; [left; reflexivity|reflexivity]|].
      destruct (has_prefix (str "PUB_K1_") s) eqn:P2; [apply has_prefix_spec in P2 as (m & ->); eexists _, m; split; [right; left; reflexivity|reflexivity]|].
      destruct (has_prefix (str "EOS") s) eqn:P3; [apply has_prefix_spec in P3 as (m & ->); eexists _, m; split; [right; right; left; reflexivity|reflexivity]|].
      discriminate. }
    rewrite eos_split in E by exact Hp. apply is_bytes_app in Hs as [_ Hm].
    pose proof (key_decode H HH EOS_mainnetPublic _ eos_alphabet R m Hm) as K. rewrite E in K. destruct K as [Hk N].
    split; [exact Hk|]. exists p, m. split; [cbn in *; tauto|]. auto.
  - intros (Hk & p & m & Hp & -> & N). rewrite eos_split by (cbn in *; tauto). apply (key_decode_ok H HH EOS_mainnetPublic _ eos_alphabet R); assumption.
Qed.
Theorem eos_decode_never_panics : forall H s, hashes_ok H -> is_bytes s -> address_decode H s EOS_mainnetPublic <> Panic.
Proof.
  intros H s HH Hs E. pose proof (rule_ripemd H) as R. assert (exists p m, In p [str "PUB_R1_"; str "PUB_K1_"; str "EOS"] /\ s = p ++ m) as (p & m & Hp & ->).
  { rewrite eos_shape in E. unfold decode_eos in E. 
    destruct (has_prefix (str "PUB_R1_") s) eqn:P1; [apply has_prefix_spec in P1 as (m & ->); eexists _, m; split; [left; reflexivity|reflexivity]|].
    destruct (has_prefix (str "PUB_K1_") s) eqn:P2; [apply has_prefix_spec in P2 as (m & ->); eexists _, m; split; [right; left; reflexivity|reflexivity]|].
    destruct (has_prefix (str "EOS") s) eqn:P3; [apply has_prefix_spec in P3 as (m & ->); eexists _, m; split; [right; right; left; reflexivity|reflexivity]|].
    discriminate. }
  rewrite eos_split in E by exact Hp. apply is_bytes_app in Hs as [_ Hm].
  pose proof (key_decode H HH EOS_mainnetPublic _ eos_alphabet R m Hm) as K. rewrite E in K. exact K.
Qed.
Theorem ae_roundtrip : forall H k, hashes_ok H -> is_bytes k -> length k = 32%nat ->
  exists m, address_encode H k AE_mainnetAddress = Ok (str "ak_" ++ m) /\
    is_base58_of BTCAlphabet (checked (H DoubleSha256) k) m /\
    address_decode H (str "ak_" ++ m) AE_mainnetAddress = Ok k.
Proof.
  intros H k HH Hk Lk. pose proof (rule_sha2 H) as R.
  destruct (key_encode H HH AE_mainnetAddress _ ae_alphabet R k Hk) as (m & E & N).
  exists m. split; [|split; [exact N|]].
  - unfold address_encode. assert (Zk : zlen k = 32) by (unfold zlen; lia). rewrite Zk. exact E.
  - change (decode_ae H (str "ak_" ++ m) AE_mainnetAddress = Ok k). unfold decode_ae. rewrite has_prefix_app.
    rewrite slice_from_post by reflexivity. apply (key_decode_ok H HH AE_mainnetAddress _ ae_alphabet R); assumption.
Qed.
Theorem ae_decode_iff : forall H s k, hashes_ok H -> is_bytes s ->
  (address_decode H s AE_mainnetAddress = Ok k <->
   is_bytes k /\ exists m, s = str "ak_" ++ m /\ is_base58_of BTCAlphabet (checked (H DoubleSha256) k) m).
Proof.
  intros H s k HH Hs. pose proof (rule_sha2 H) as R. change (decode_ae H s AE_mainnetAddress = Ok k <->
   is_bytes k /\ exists m, s = str "ak_" ++ m /\ is_base58_of BTCAlphabet (checked (H DoubleSha256) k) m). unfold decode_ae. split.
  - destruct (has_prefix (str "ak_") s) eqn:P.
    + apply has_prefix_spec in P as (m & ->). rewrite slice_from_post by reflexivity. cbn [bind]. intros E.
      apply is_bytes_app in Hs as [_ Hm]. pose proof (key_decode H HH AE_mainnetAddress _ ae_alphabet R m Hm) as K. rewrite E in K.
      destruct K as [Hk N]. eauto.
    + cbn [bind]. intros E. exfalso.
      destruct (new_alphabet_accepts _ ae_alphabet) as (al & Hal).
      assert (D0 : base58_decode al [] = Ok []) by (vm_compute in Hal; injection Hal as <-; vm_compute; reflexivity).
      assert (K2 : decode_key_material H [] AE_mainnetAddress = Err).
      { unfold decode_key_material. rewrite (alpha_runes AE_mainnetAddress ae_alphabet), Hal. cbn [bind]. rewrite D0. reflexivity. }
      congruence.
  - intros (Hk & m & -> & N). rewrite has_prefix_app. rewrite slice_from_post by reflexivity. cbn [bind].
    apply (key_decode_ok H HH AE_mainnetAddress _ ae_alphabet R); assumption.
Qed.
Example eos_example :
  exists m, address_encode toy_hashes (repeat 3 33) EOS_mainnetPublic = Ok (str "EOS" ++ m) /\
    address_decode toy_hashes (str "PUB_K1_" ++ m) EOS_mainnetPublic = Ok (repeat 3 33).
Proof. destruct (eos_roundtrip toy_hashes (repeat 3 33) toy_hashes_ok) as (m & E & _ & D); [apply forallb_bytes; reflexivity|reflexivity|].
  exists m. split; [exact E|]. apply D. cbn; auto. Qed.

(** ** C17: Monero *)
(** A Monero profile: 64-byte keys pair, or 72 bytes with payment id. *)
Definition xmr_profile (T : addr_type) : Prop :=
  encode_type T = str "XMR" /\ alphabet_ok (alphabet_of T) /\ symbol (alphabet_of T) 0 = 49 /\
  checksum_type T = str "keccak256" /\ (exists v, is_byte v /\ prefix_of T = [v]) /\ suffix_of T = [] /\
  ((hash_type T = str "" /\ hash_len T = 64) \/ (hash_type T = str "payID" /\ hash_len T = 72)).
Theorem listed_xmr_profiles_wellformed : forall T, In T xmr_profiles -> xmr_profile T.
Proof.
  intros T HT. assert (A : alphabet_ok XMRAlphabet) by (apply alphabet_ok_dec; vm_compute; reflexivity).
  cbn [xmr_profiles In] in HT.
  repeat destruct HT as [<-|HT]; try contradiction;
    (split; [reflexivity|]; split; [exact A|]; split; [reflexivity|]; split; [reflexivity|]; split; [eexists; split; [|reflexivity]; unfold is_byte; lia|]; split; [reflexivity|];
     first [left; split; reflexivity | right; split; reflexivity]).
Qed.
Lemma xmr_enc_shape H T h : xmr_profile T -> zlen h = hash_len T ->
  address_encode H h T = (checksum <- slice (H Keccak256 (prefix_of T ++ h)) 0 4 ;;
    al <- new_alphabet (runes (alphabet_of T)) ;; xmr_encode_blocks al ((prefix_of T ++ h) ++ checksum)).
Proof.
  intros (E & _ & _ & _ & _ & _ & HL) L. unfold address_encode, encode_hashed. rewrite E, L, Z.eqb_refl. cbn [bind].
  change (xmr_encode H h T = (checksum <- slice (H Keccak256 (prefix_of T ++ h)) 0 4 ;;
    al <- new_alphabet (runes (alphabet_of T)) ;; xmr_encode_blocks al ((prefix_of T ++ h) ++ checksum))).
  unfold xmr_encode. rewrite L. destruct HL as [[-> ->]|[-> ->]]; reflexivity.
Qed.
Lemma xmr_dec_shape H T s al : xmr_profile T -> new_alphabet (alphabet_of T) = Ok al ->
  address_decode H s T = (if zlen s =? (if hash_len T =? 64 then 95 else 106) then
    ret <- xmr_decode_blocks al s ;; body <- checked_body H (str "keccak256") ret ;; recover_data body (prefix_of T) [] else Err).
Proof.
  intros (E & A & _ & Ec & _ & Es & HL) Hal. unfold address_decode. rewrite E.
  match goal with |- _ = ?R => change (xmr_decode H s T = R) end. unfold xmr_decode.
  rewrite runes_ascii by (destruct A as (_ & _ & A); exact A). rewrite Hal, Ec, Es. unfold checked_body.
  destruct HL as [[-> ->]|[-> ->]].
  - change (64 =? 64) with true. cbv iota. change (beq (str "") []) with true. change (beq (str "") (str "payID")) with false. cbn [andb].
    destruct (zlen s =? 95); cbn [negb]; [|reflexivity]. cbn [bind]. destruct (xmr_decode_blocks al s) as [r| |]; cbn [bind]; try reflexivity.
    destruct (verify_checksum_of H r _) as [[]| |]; cbn [bind negb]; reflexivity.
  - change (72 =? 64) with false. cbv iota. change (beq (str "payID") []) with false. change (beq (str "payID") (str "payID")) with true. cbn [andb].
    destruct (zlen s =? 106); cbn [negb]; [|reflexivity]. cbn [bind]. destruct (xmr_decode_blocks al s) as [r| |]; cbn [bind]; try reflexivity.
    destruct (verify_checksum_of H r _) as [[]| |]; cbn [bind negb]; reflexivity.
Qed.
Theorem xmr_decode_iff : forall H T s h, hashes_ok H -> xmr_profile T -> is_bytes s ->
  (address_decode H s T = Ok h <->
   is_bytes h /\ zlen h = hash_len T /\ monero_reads (alphabet_of T) s (checked (H Keccak256) (prefix_of T ++ h))).
Proof.
  intros H T s h HH HT Hs. pose proof HT as (_ & A & _ & _ & (v & Hv & Ev) & _ & HL).
  destruct (new_alphabet_accepts _ A) as (al & Hal). rewrite (xmr_dec_shape H T s al HT Hal).
  pose proof (rule_keccak H) as R. pose proof (rule_hash_ok H HH _ _ R) as Hf.
  set (k := if hash_len T =? 64 then 8%nat else 9%nat).
  assert (Hk : (if hash_len T =? 64 then 95 else 106) = Z.of_nat (k * 11 + 7)).
  { unfold k. destruct (hash_len T =? 64); reflexivity. }
  assert (Hn : hash_len T = Z.of_nat (k * 8)).
  { unfold k. destruct HL as [[_ ->]|[_ ->]]; reflexivity. }
  rewrite Hk. split.
  - destruct (zlen s =? _) eqn:L; [|discriminate]. intros E. apply bind_ok in E as (r & E1 & E). apply bind_ok in E as (b & E2 & E3).
    destruct (decode_reads (alphabet_of T) A al Hal k s r Hs ltac:(unfold zlen in L; lia) E1) as (Rd & Lr & Hr).
    destruct (checked_body_spec H HH _ _ r R Hr) as [(d & Hd & -> & C)|[_ C]]; rewrite C in E2; [|discriminate]. injection E2 as <-.
    pose proof (recover_spec d (prefix_of T) []) as RS. rewrite E3 in RS. rewrite app_nil_r in RS. subst d.
    split; [apply is_bytes_app in Hd; tauto|]. split; [|exact Rd].
    assert (Lc : zlen (checked (H Keccak256) (prefix_of T ++ h)) = Z.of_nat (k * 8 + 5)) by (unfold zlen; lia).
    rewrite checked_len, zlen_app, Ev in Lc by assumption. change (zlen [v]) with 1 in Lc. lia.
  - intros (Hh & L & Rd). assert (Hp : is_bytes (prefix_of T ++ h)) by (apply is_bytes_app; split; [rewrite Ev; constructor; [exact Hv|constructor]|exact Hh]).
    destruct (reads_length (alphabet_of T) s _ Rd) as (k' & Ls & Lb & _).
    assert (Lc : zlen (checked (H Keccak256) (prefix_of T ++ h)) = Z.of_nat (k' * 8 + 5)) by (unfold zlen; lia).
    rewrite checked_len, zlen_app, Ev in Lc by assumption. change (zlen [v]) with 1 in Lc.
    replace (zlen s =? Z.of_nat (k * 11 + 7)) with true by (unfold zlen at 1; lia).
    rewrite (reads_decode (alphabet_of T) A al Hal _ _ Rd). cbn [bind].
    rewrite (checked_body_checked H HH _ _ _ R Hp). cbn [bind].
    pose proof (recover_framed (prefix_of T) h []) as RF. rewrite app_nil_r in RF. exact RF.
Qed.
Theorem xmr_roundtrip : forall H T h, hashes_ok H -> xmr_profile T -> is_bytes h -> zlen h = hash_len T ->
  exists t, address_encode H h T = Ok t /\ monero_text (alphabet_of T) (checked (H Keccak256) (prefix_of T ++ h)) t /\
    address_decode H t T = Ok h.
Proof.
  intros H T h HH HT Hh L. pose proof HT as (_ & A & S0 & _ & (v & Hv & Ev) & _ & HL).
  destruct (new_alphabet_accepts _ A) as (al & Hal). pose proof (rule_keccak H) as R. pose proof (rule_hash_ok H HH _ _ R) as Hf.
  assert (Hp : is_bytes (prefix_of T ++ h)) by (apply is_bytes_app; split; [rewrite Ev; constructor; [exact Hv|constructor]|exact Hh]).
  assert (Hc : is_bytes (checked (H Keccak256) (prefix_of T ++ h))) by (apply checked_bytes; assumption).
  set (k := if hash_len T =? 64 then 8%nat else 9%nat).
  assert (Hn : hash_len T = Z.of_nat (k * 8)) by (unfold k; destruct HL as [[_ ->]|[_ ->]]; reflexivity).
  assert (Lc : length (checked (H Keccak256) (prefix_of T ++ h)) = (k * 8 + 5)%nat).
  { pose proof (checked_len _ Hf _ Hp) as Q. rewrite zlen_app, Ev in Q. change (zlen [v]) with 1 in Q. rewrite <- Ev in Q. unfold zlen in *. lia. }
  destruct (enc_blocks_eq (alphabet_of T) A al Hal S0 k _ Hc Lc) as (t & Et & Mt).
  exists t. split; [|split; [exact Mt|]].
  - rewrite (xmr_enc_shape H T h HT L). rewrite (cks_slice _ Hf _ Hp). cbn [bind].
    rewrite runes_ascii by (destruct A as (_ & _ & A); exact A). rewrite Hal. cbn [bind]. exact Et.
  - pose proof (text_reads (alphabet_of T) _ _ Hc Mt) as Rd. apply (xmr_decode_iff H T t h HH HT); [|auto].
    destruct (reads_length _ _ _ Rd) as (_ & _ & _ & ds & D & ->). apply ascii_bytes. apply (map_sym_ascii _ A), D.
Qed.
(** Decoding is not injective: under every profile with a version byte below 90 (all listed ones), every
    address has a second text of the same length that decodes to the same payload. *)
Theorem xmr_second_text : forall H T h t, hashes_ok H -> xmr_profile T -> (exists v, v < 90 /\ prefix_of T = [v]) ->
  is_bytes h -> zlen h = hash_len T -> address_encode H h T = Ok t ->
  exists t', t' <> t /\ length t' = length t /\ address_decode H t' T = Ok h.
Proof.
  intros H T h t HH HT (v & Hv90 & Ev) Hh L Et. destruct (xmr_roundtrip H T h HH HT Hh L) as (t2 & Et2 & Mt & _).
  rewrite Et in Et2. injection Et2 as <-.
  pose proof HT as (_ & A & S0 & _ & (v' & Hv & Ev') & _ & HL). assert (v' = v) by congruence. subst v'.
  destruct (new_alphabet_accepts _ A) as (al & Hal). pose proof (rule_keccak H) as R. pose proof (rule_hash_ok H HH _ _ R) as Hf.
  assert (Hp : is_bytes (prefix_of T ++ h)) by (apply is_bytes_app; split; [rewrite Ev; constructor; [exact Hv|constructor]|exact Hh]).
  assert (Hc : is_bytes (checked (H Keccak256) (prefix_of T ++ h))) by (apply checked_bytes; assumption).
  assert (Lh : (64 <= length h)%nat) by (destruct HL as [[_ Q]|[_ Q]]; rewrite Q in L; unfold zlen in L; lia).
  assert (Lc : (8 <= length (checked (H Keccak256) (prefix_of T ++ h)) - 5)%nat).
  { unfold checked. rewrite !app_length, Ev. cbn [length]. lia. }
  assert (Hb : be_num (firstn 8 (checked (H Keccak256) (prefix_of T ++ h))) + 2 ^ 64 < 58 ^ 11).
  { unfold checked. rewrite Ev. change (([v] ++ h) ++ firstn 4 (H Keccak256 ([v] ++ h))) with (v :: h ++ firstn 4 (H Keccak256 ([v] ++ h))).
    rewrite (firstn_cons 7), be_num_cons. set (x := firstn 7 (h ++ _)).
    assert (Hx : is_bytes x). { unfold x. apply firstn_bytes. apply is_bytes_app. split; [exact Hh|]. apply firstn_bytes. rewrite Ev in Hp. apply HH, Hp. }
    assert (Lx : zlen x = 7). { unfold x, zlen. rewrite firstn_length, app_length. lia. }
    pose proof (be_num_bound x Hx) as B. rewrite Lx in *. unfold is_byte in Hv.
    change (256 ^ 7) with 72057594037927936 in *. change (2 ^ 64) with 18446744073709551616. change (58 ^ 11) with 24986644000165537792. lia. }
  destruct (second_text (alphabet_of T) A al Hal _ _ Hc Lc Mt Hb) as (t' & N & Lt & Rd).
  exists t'. split; [exact N|]. split; [exact Lt|].
  apply (xmr_decode_iff H T t' h HH HT); [|auto].
  destruct (reads_length _ _ _ Rd) as (_ & _ & _ & ds & D & ->). apply ascii_bytes. apply (map_sym_ascii _ A), D.
Qed.
Theorem listed_xmr_versions_small : forall T, In T xmr_profiles -> exists v, v < 90 /\ prefix_of T = [v].
Proof.
  intros T HT. cbn [xmr_profiles In] in HT.
  repeat destruct HT as [<-|HT]; try contradiction; (eexists; split; [|reflexivity]; lia).
Qed.
(** A wrong length gives the empty string and no error. *)
Theorem xmr_wrong_length_empty : forall H T h, xmr_profile T -> zlen h <> hash_len T -> address_encode H h T = Ok [].
Proof.
  intros H T h HT L. destruct HT as (E & _ & _ & _ & _ & _ & HL). unfold address_encode, encode_hashed. rewrite E.
  replace (zlen h =? hash_len T) with false by lia.
  destruct HL as [[Q1 Q2]|[Q1 Q2]]; rewrite Q1; 
    change (xmr_encode H [] T = Ok []); unfold xmr_encode; rewrite Q1; reflexivity.
Qed.
Example xmr_example :
  exists t, address_encode toy_hashes (repeat 200 64) XMR_mainnetPublicAddress = Ok t /\ zlen t = 95 /\
    address_decode toy_hashes t XMR_mainnetPublicAddress = Ok (repeat 200 64).
Proof. eexists. split; [vm_compute; reflexivity|]. split; vm_compute; reflexivity. Qed.

(** ** C68: the bech32 profiles ignore the human-readable part and the version when decoding *)
Theorem bech32_profile_ignores_network : forall H T T' s,
  encode_type T = str "bech32" -> encode_type T' = str "bech32" -> address_decode H s T = address_decode H s T'.
Proof. intros H T T' s E E'. unfold address_decode. rewrite E, E'. reflexivity. Qed.
Theorem bech32_profiles_accept_any_network : forall H T p v h, In T bech32_profiles ->
  lower_prefix p -> is_bytes h -> length h = 20%nat -> 0 <= v < 32 ->
  exists s, bech32_encode p bech32_alphabet h (Some [v]) = Ok s /\ address_decode H s T = Ok h.
Proof.
  intros H T p v h HT Hp Hh Lh Hv. destruct (bech32_roundtrip_20 p h (Some [v]) Hp Hh Lh) as (s & E & D); [right; eauto|].
  exists s. split; [exact E|]. rewrite (bech32_profile_ignores_network H T BTC_mainnetAddressBech32V0).
  - exact D.
  - assert (C : forallb (fun T => beq (encode_type T) (str "bech32")) bech32_profiles = true) by (vm_compute; reflexivity).
    rewrite forallb_forall in C. apply beq_eq, (C T HT).
  - reflexivity.
Qed.
Theorem listed_bech32_roundtrip : forall H T h, In T bech32_profiles -> is_bytes h -> length h = 20%nat ->
  exists s, address_encode H h T = Ok s /\ address_decode H s T = Ok h.
Proof.
  intros H T h HT Hh Lh.
  assert (C : forallb (fun T => beq (encode_type T) (str "bech32") && beq (alphabet_of T) bech32_alphabet &&
     negb (beq (checksum_type T) []) && forallb (fun c => (97 <=? c) && (c <=? 122)) (checksum_type T) && forallb (fun c => (0 <=? c) && (c <? 32)) (prefix_of T) && (zlen (prefix_of T) <=? 1)) bech32_profiles = true) by (vm_compute; reflexivity).
  rewrite forallb_forall in C. specialize (C T HT). cbv beta in C. rewrite !andb_true_iff in C. destruct C as (((((E & A) & N) & P) & V) & LV).
  apply beq_eq in E, A. apply negb_true_iff, beq_neq in N.
  assert (Hp : lower_prefix (checksum_type T)).
  { split; [exact N|]. apply Forall_forall. intros c Hc. rewrite forallb_forall in P. specialize (P c Hc). cbv beta in P. lia. }
  assert (K : exists s, bech32_encode (checksum_type T) bech32_alphabet h (Some (prefix_of T)) = Ok s /\ address_decode_bech32 s = Ok h).
  { destruct (prefix_of T) as [|v [|]] eqn:EP.
    - exact (bech32_roundtrip_20 (checksum_type T) h None Hp Hh Lh (or_introl eq_refl)).
    - apply bech32_roundtrip_20; auto. right. exists v. split; [|reflexivity]. cbn [forallb] in V. lia.
    - rewrite !zlen_cons in LV. pose proof (zlen_nonneg l). lia. }
  destruct K as (s & Ks & Kd). exists s. split.
  - unfold address_encode. rewrite E. rewrite A. exact Ks.
  - unfold address_decode. rewrite E. exact Kd.
Qed.
Example cross_network_example :
  exists s, address_encode toy_hashes (repeat 1 20) BTC_mainnetAddressBech32V0 = Ok s /\
    address_decode toy_hashes s LTC_mainnetAddressBech32V0 = Ok (repeat 1 20) /\
    address_decode toy_hashes s ATOM_mainnetAddress = Ok (repeat 1 20).
Proof. eexists. split; [vm_compute; reflexivity|]. split; vm_compute; reflexivity. Qed.

Print Assumptions address_decode_encode.
Print Assumptions address_decode_panics_iff.
Print Assumptions xmr_second_text.
Print Assumptions eos_decode_iff.
Print Assumptions eth_decode_iff.
Print Assumptions listed_base58_hash_rules.
