(** A toy instance of the dependencies of owkeychain (the additive group modulo the curve order), used only in
    examples showing that the hypotheses of the theorems can be met. *)
From Coq Require Import ZArith List Bool Lia ZifyBool ZifyNat.
From Verif Require Import Go GoFacts Base58CheckSpec Base58CheckProofs Toy OwkModel OwkSpec.
Import ListNotations.
Open Scope Z_scope.
Ltac Zify.zify_post_hook ::= idtac.

Definition wide_hash (d : bytes) : bytes :=
  let w := be_bytes 4 (fold_left (fun a b => (a * 31 + b + 17) mod 4294967291) d 5381) in
  let v := w ++ w in let v := v ++ v in v ++ v.
Definition toy_P (c : curve) (a : Z) : bytes := match c with ED25519 => be_bytes 32 a | _ => 2 :: be_bytes 32 a end.
Definition toy_U (a : Z) : bytes := be_bytes 64 a.
Definition toy_kind (t : Z) : curve :=
  if t =? 1 then SECP256K1 else if t =? 2 then ED25519 else if t =? 3 then BLS12381_NUL else if t =? 4 then PASTA
  else if t =? 5 then X25519 else if t =? 6 then SECP256R1 else OtherCurve.
Definition toy_crypto (hm : bytes -> bytes -> bytes) : crypto := {|
  kind := toy_kind;
  hmac512 := hm;
  sha512 m := wide_hash m ++ wide_hash (1 :: m);
  dsha256 := wide_hash;
  hash160 m := firstn 20 (wide_hash m);
  mulG c k := toy_P c (scalar_of c k mod curve_order c);
  mul_add c arg s :=
    let a := match c with ED25519 => be_num arg | _ => if is_bls c then be_num (tl arg) else be_num arg end in
    let sum := (a + scalar_of c s) mod curve_order c in
    (match c with ED25519 => toy_P c sum | _ => if is_bls c then toy_P c sum else toy_U sum end, sum =? 0);
  decompress c p := 4 :: toy_U (be_num (match c with ED25519 => p | _ => tl p end));
  compress c u := toy_P c (be_num u) |}.
Definition toy_hmac (k m : bytes) : bytes := wide_hash (k ++ m) ++ wide_hash (m ++ 7 :: k).
Definition toyC : crypto := toy_crypto toy_hmac.

Lemma wide_hash_len d : length (wide_hash d) = 32%nat.
Proof. unfold wide_hash. cbv zeta. rewrite !app_length, !be_bytes_length. reflexivity. Qed.
Lemma wide_hash_bytes d : is_bytes (wide_hash d).
Proof. unfold wide_hash. cbv zeta. rewrite !is_bytes_app. repeat match goal with |- _ /\ _ => split end; apply be_bytes_is_bytes. Qed.
Lemma toy_hashes hm : (forall k m, is_bytes (hm k m) /\ length (hm k m) = 64%nat) -> hashes_ok (toy_crypto hm).
Proof.
  intros H. constructor; cbn [toy_crypto hmac512 sha512 hash160 dsha256].
  - exact H.
  - intros m. split; [apply is_bytes_app; split; apply wide_hash_bytes|rewrite app_length, !wide_hash_len; reflexivity].
  - intros m. split; [apply firstn_bytes, wide_hash_bytes|rewrite firstn_length, wide_hash_len; reflexivity].
  - intros d _. split; [apply wide_hash_bytes|rewrite wide_hash_len; lia].
Qed.
Lemma toyC_hashes : hashes_ok toyC.
Proof.
  apply toy_hashes. intros k m. unfold toy_hmac. split; [apply is_bytes_app; split; apply wide_hash_bytes|rewrite app_length, !wide_hash_len; reflexivity].
Qed.
Lemma be_small n a : 0 <= a < 256 ^ Z.of_nat n -> be_num (be_bytes n a) = a.
Proof. intros H. rewrite be_num_be_bytes. apply Z.mod_small, H. Qed.
Lemma toy_laws hm c : c <> OtherCurve -> curve_laws (toy_crypto hm) c (curve_order c) (toy_P c) toy_U.
Proof.
  intros N. assert (O1 : 1 < curve_order c < 256 ^ 32) by (destruct c; try contradiction; split; vm_compute; reflexivity).
  assert (B : forall a, 0 < a < curve_order c -> be_num (be_bytes 32 a) = a /\ be_num (be_bytes 64 a) = a).
  { intros a Ha. assert (256 ^ 32 < 256 ^ 64) by reflexivity.
    split; apply be_small; [change (Z.of_nat 32) with 32|change (Z.of_nat 64) with 64]; lia. }
  constructor; cbn [toy_crypto mulG mul_add decompress compress].
  - lia.
  - intros k Hb Hl _. reflexivity.
  - intros a s Ha Hb Hl. destruct (B a Ha) as [B1 B2]. unfold toy_U. cbv zeta.
    destruct c; try contradiction; cbn [is_bls orb toy_P tl curve_order scalar_of] in *; rewrite ?B1, ?B2;
      destruct ((_ mod _) =? 0); reflexivity.
  - intros a Ha. destruct (B a Ha) as [B1 B2]. destruct c; cbn [toy_P tl]; rewrite B1; reflexivity.
  - intros a Ha. destruct (B a Ha) as [B1 B2]. unfold toy_U. rewrite B2. reflexivity.
Qed.
Definition toy_seed : bytes := be_bytes 20 123456789.
Definition toy_root (t : Z) : xkey := match init_root toyC toy_seed t with Ok k => k | _ => mkKey 0 [] 0 [] [] true t end.
