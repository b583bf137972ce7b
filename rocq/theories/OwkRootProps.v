(** C70: the root key made from a seed. *)
From Coq Require Import ZArith List Bool Lia ZifyBool ZifyNat.
From Verif Require Import Go GoFacts GoFacts2 OwkModel OwkSpec OwkDeriveProofs OwkDeriveProps OwkPathProps OwkToy.
Import ListNotations.
Open Scope Z_scope.
Ltac Zify.zify_post_hook ::= idtac.

(** The master key bytes of a 64-byte digest: its first half, adjusted to the curve. *)
Definition first_byte (c : curve) (x : Z) : Z :=
  match c with
  | ED25519 | X25519 | CURVE25519_SHA256 => 8 * (x / 8)
  | BLS12381_NUL | BLS12381_AUG => Z.min x 0x72
  | PASTA => x mod 4
  | _ => x
  end.
Definition last_byte (c : curve) (x : Z) : Z :=
  match c with ED25519 | X25519 | CURVE25519_SHA256 => 64 + x mod 64 | _ => x end.
Definition master_key (c : curve) (d : bytes) : bytes :=
  [first_byte c (nth 0 d 0)] ++ firstn 30 (skipn 1 d) ++ [last_byte c (nth 31 d 0)].
Definition master_chain (d : bytes) : bytes := skipn 32 d.

Lemma split32 (d : bytes) : length d = 64%nat -> exists a m z r, d = a :: m ++ z :: r /\ length m = 30%nat /\ length r = 32%nat.
Proof.
  intros L. destruct d as [|a d]; [discriminate|]. cbn [length] in L. exists a, (firstn 30 d).
  assert (L2 : length (skipn 30 d) = 33%nat) by (rewrite skipn_length; lia). destruct (skipn 30 d) as [|z r] eqn:E; [discriminate|]. exists z, r.
  split; [rewrite <- E, firstn_skipn; reflexivity|]. split; [rewrite firstn_length; lia|cbn [length] in L2; lia].
Qed.
Lemma map_nth_31 a (m : bytes) z r f : length m = 30%nat -> map_nth_byte (a :: m ++ z :: r) 31 f = a :: m ++ f z :: r.
Proof.
  intros L. cbn [map_nth_byte]. f_equal. replace 30%nat with (length m) by exact L. clear L.
  induction m as [|x m IH]; [reflexivity|]. cbn [length app map_nth_byte]. f_equal. exact IH.
Qed.
Lemma clamp0 x : is_byte x -> Z.land x 248 = 8 * (x / 8).
Proof.
  intros B. unfold is_byte in B. assert (A : forallb (fun n => Z.land n 248 =? 8 * (n / 8)) (map Z.of_nat (seq 0 256)) = true) by (vm_compute; reflexivity).
  rewrite forallb_forall in A. specialize (A x). rewrite in_map_iff in A. specialize (A ltac:(exists (Z.to_nat x); split; [lia|apply in_seq; lia])). lia.
Qed.
Lemma clamp31' x : is_byte x -> Z.lor (Z.land x 63) 64 = 64 + x mod 64.
Proof.
  intros B. unfold is_byte in B. assert (A : forallb (fun n => Z.lor (Z.land n 63) 64 =? 64 + n mod 64) (map Z.of_nat (seq 0 256)) = true) by (vm_compute; reflexivity).
  rewrite forallb_forall in A. specialize (A x). rewrite in_map_iff in A. specialize (A ltac:(exists (Z.to_nat x); split; [lia|apply in_seq; lia])). lia.
Qed.
Lemma clamp_min x : (if 0x73 <=? x then 0x72 else x) = Z.min x 0x72.
Proof. destruct (0x73 <=? x) eqn:E; lia. Qed.
Lemma land3 x : Z.land x 3 = x mod 4.
Proof. change 3 with (Z.ones 2). rewrite Z.land_ones by lia. reflexivity. Qed.

(** The root key of a seed: only seeds of 16 to 64 bytes are accepted, and the key and chain code are the two halves
    of the SHA-512 digest of the seed, the first half adjusted to the curve. *)
Theorem root_from_seed_iff : forall C seed ct k, hashes_ok C ->
  (init_root C seed ct = Ok k <->
   16 <= zlen seed <= 64 /\ k = mkKey 0 [0; 0; 0; 0] 0 (master_chain (sha512 C seed)) (master_key (kind C ct) (sha512 C seed)) true ct).
Proof.
  intros C seed ct k K. unfold init_root. destruct (hk_sha512 _ K seed) as [B L]. set (h := sha512 C seed) in *. clearbody h.
  destruct ((zlen seed <? 16) || (64 <? zlen seed)) eqn:E; [split; [discriminate|]; intros [? _]; lia|].
  destruct (split32 h L) as (a & m & z & r & -> & Lm & Lr). apply is_bytes_cons in B as [Ba B]. apply is_bytes_app in B as [Bm B]. apply is_bytes_cons in B as [Bz Br].
  cbv zeta.
  assert (Nz : nth 31 (a :: m ++ z :: r) 0 = z) by (cbn [nth]; rewrite app_nth2 by lia; rewrite Lm; reflexivity).
  assert (Sm : firstn 30 (skipn 1 (a :: m ++ z :: r)) = m) by (cbn [skipn]; rewrite firstn_app, Lm, Nat.sub_diag, firstn_all2 by lia; cbn [firstn]; apply app_nil_r).
  unfold master_chain, master_key. rewrite Nz, Sm. cbn [nth].
  assert (F : forall x y, (k0 <- slice (x :: m ++ y :: r) 0 32 ;; cc <- slice_from (x :: m ++ y :: r) 32 ;; Ok (mkKey 0 [0; 0; 0; 0] 0 cc k0 true ct)) = Ok (mkKey 0 [0; 0; 0; 0] 0 r ([x] ++ m ++ [y]) true ct)).
  { intros x y. replace (x :: m ++ y :: r) with (([x] ++ m ++ [y]) ++ r) by (cbn [app]; rewrite <- app_assoc; reflexivity).
    assert (LL : zlen ([x] ++ m ++ [y]) = 32) by (rewrite !zlen_app; unfold zlen; cbn [length]; lia).
    rewrite slice_pre by (symmetry; exact LL). cbn [bind]. rewrite slice_from_post by (symmetry; exact LL). reflexivity. }
  assert (Sk : skipn 32 (a :: m ++ z :: r) = r).
  { change (skipn 32 (a :: m ++ z :: r)) with (skipn 31 (m ++ z :: r)). rewrite skipn_app, Lm. rewrite skipn_all2 by lia. reflexivity. }
  rewrite Sk. assert (G : 16 <= zlen seed <= 64) by lia.
  assert (X : forall x y k', (k0 <- slice (x :: m ++ y :: r) 0 32 ;; cc <- slice_from (x :: m ++ y :: r) 32 ;; Ok (mkKey 0 [0; 0; 0; 0] 0 cc k0 true ct)) = Ok k' <-> 16 <= zlen seed <= 64 /\ k' = mkKey 0 [0; 0; 0; 0] 0 r ([x] ++ m ++ [y]) true ct).
  { intros x y k'. rewrite F. split; [intros Q; split; [exact G|congruence]|intros [_ ->]; reflexivity]. }
  destruct (kind C ct); cbn [is_bls first_byte last_byte clamp_bls]; cbn [map_nth_byte]; rewrite ?clamp_min, ?land3; try (apply X);
    change (Z.land a 248 :: map_nth_byte (m ++ z :: r) 30 (fun b : Z => Z.lor (Z.land b 63) 64)) with (map_nth_byte (Z.land a 248 :: m ++ z :: r) 31 (fun b : Z => Z.lor (Z.land b 63) 64));
    rewrite map_nth_31 by exact Lm; rewrite clamp0, clamp31' by assumption; apply X.
Qed.
(** Any other seed length is an error, for every curve. *)
Theorem bad_seed_refused : forall C seed ct, hashes_ok C -> zlen seed < 16 \/ 64 < zlen seed -> init_root C seed ct = Err.
Proof. intros C seed ct _ B. unfold init_root. replace ((zlen seed <? 16) || (64 <? zlen seed)) with true by lia. reflexivity. Qed.
Example root_example : hashes_ok toyC /\ exists k, init_root toyC toy_seed 3 = Ok k /\ zlen toy_seed = 20.
Proof. split; [exact toyC_hashes|]. eexists. split; [vm_compute; reflexivity|reflexivity]. Qed.
Print Assumptions root_from_seed_iff.
Print Assumptions bad_seed_refused.
