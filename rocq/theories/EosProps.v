(** C60, C86: EOS nonces and canonical signatures. *)
From Coq Require Import ZArith List Bool Lia ZifyBool ZifyNat.
From Verif Require Import Go GoFacts GoFacts2 SigModel SigNormProps SignerModel SignerProps EosModel.
Import ListNotations.
Open Scope Z_scope.
Ltac Zify.zify_post_hook ::= idtac.

(** ** Specification *)
(** Candidate number n of RFC 6979 for a seed. *)
Definition rfc_nth (hmac : bytes -> bytes -> bytes) (seed : bytes) (n : nat) : bytes :=
  rfc_candidate hmac (Nat.iter n (rfc_next hmac) (rfc_seeded hmac seed)).
(** bits2octets of RFC 6979: the first 256 bits, reduced once. *)
Definition reduced (h : bytes) : Z := let z := be_num (firstn 32 h) in if z <? secp_order then z else z - secp_order.
Definition eos_seed (sha : bytes -> bytes) (key hash : bytes) (i : Z) : bytes :=
  be_bytes 32 (be_num key) ++ be_bytes 32 (reduced (if i =? 0 then hash else sha (hash ++ repeat 0 (Z.to_nat i)))).
(** A number whose DER form has exactly 32 bytes and needs no padding. *)
Definition canon (x : Z) : Prop := 2 ^ 247 <= x < 2 ^ 255.
(** recovery id v of a signature under a public key *)
Definition recid (recover : bytes -> bytes -> bytes * Z) (success : Z) (pub hash sig : bytes) (v : Z) : Prop :=
  recover (sig ++ [v]) hash = (pub, success).
(** A signature that the chain accepts: a recovery id is 0 or 1, both numbers are canonical. *)
Definition usable (recover : bytes -> bytes -> bytes * Z) (success : Z) (pub hash sig : bytes) : Prop :=
  (recid recover success pub hash sig 0 \/ recid recover success pub hash sig 1) /\ canon (be_num (firstn 32 sig)) /\ canon (be_num (skipn 32 sig)).

(** ** Lemmas *)
Lemma order_bits : bit_len (be_num order_bytes) = 256.
Proof. vm_compute. reflexivity. Qed.
Lemma be_bytes_by_num (l : bytes) v : is_bytes l -> length l = 32%nat -> be_num l = v mod 256 ^ 32 -> l = be_bytes 32 v.
Proof. intros B L E. apply be_num_inj; [exact B|apply be_bytes_is_bytes|rewrite be_bytes_length; exact L|]. rewrite be_num_be_bytes. exact E. Qed.
Lemma int2octets_ok v : 0 <= v -> int2octets v 32 = Ok (be_bytes 32 v).
Proof.
  intros V. unfold int2octets. pose proof (big_bytes_bytes v) as B. pose proof (big_bytes_num v) as N. rewrite Z.abs_eq in N by lia. pose proof (be_num_bound _ B) as R.
  set (o := big_bytes v) in *. clearbody o. destruct (Z.ltb_spec (zlen o) 32) as [C|C].
  - f_equal. apply be_bytes_by_num.
    + apply is_bytes_app. split; [apply is_bytes_zeros|exact B].
    + unfold zeros. rewrite app_length, repeat_length. unfold zlen in *. lia.
    + rewrite be_num_zeros, N. rewrite Z.mod_small; [reflexivity|]. assert (256 ^ zlen o <= 256 ^ 32) by (apply Z.pow_le_mono_r; lia). lia.
  - destruct (Z.ltb_spec 32 (zlen o)) as [D|D].
    + destruct (cut (Z.to_nat (zlen o - 32)) o B) as (w & r & -> & Bw & Br & Lw & Lr); [unfold zlen in *; lia|].
      rewrite slice_from_post by (unfold zlen in *; lia). f_equal. rewrite zlen_app in *.
      assert (zlen r = 32) by (unfold zlen in *; rewrite app_length in Lr; lia).
      apply be_bytes_by_num; [exact Br|unfold zlen in *; lia|]. rewrite <- N, be_num_app. rewrite H. rewrite Z.add_comm, Z.mod_add by lia.
      symmetry. apply Z.mod_small. pose proof (be_num_bound r Br) as Rr. rewrite H in Rr. exact Rr.
    + f_equal. assert (E : zlen o = 32) by lia. apply be_bytes_by_num; [exact B|unfold zlen in E; lia|]. rewrite E in R. rewrite Z.mod_small; lia.
Qed.
Lemma hash_to_int_ok h : is_bytes h -> hash_to_int h = Ok (be_num (firstn 32 h)).
Proof.
  intros B. unfold hash_to_int. rewrite order_bits. change ((256 + 7) / 8) with 32. destruct (Z.ltb_spec 32 (zlen h)) as [C|C].
  - destruct (cut 32 h B) as (w & r & -> & Bw & Br & Lw & Lr); [unfold zlen in *; lia|].
    unfold slice_to. rewrite slice_pre by (unfold zlen; lia). cbn [bind]. rewrite firstn_app, Lw, firstn_all2 by lia. cbn [Nat.sub firstn]. rewrite app_nil_r.
    replace (0 <? zlen w * 8 - 256) with false by (unfold zlen; lia). reflexivity.
  - cbn [bind]. rewrite firstn_all2 by (unfold zlen in C; lia). replace (0 <? zlen h * 8 - 256) with false by lia. reflexivity.
Qed.
Lemma firstn_bytes n (h : bytes) : is_bytes h -> is_bytes (firstn n h).
Proof. intros B. apply Forall_forall. intros x I. eapply (proj1 (Forall_forall _ _) B). rewrite <- (firstn_skipn n h). apply in_or_app. left. exact I. Qed.
Lemma firstn_num (h : bytes) : is_bytes h -> 0 <= be_num (firstn 32 h).
Proof. intros B. apply be_num_bound. apply firstn_bytes. exact B. Qed.
Lemma bits2octets_ok h : is_bytes h -> bits2octets h 32 = Ok (be_bytes 32 (reduced h)).
Proof.
  intros B. unfold bits2octets. rewrite hash_to_int_ok by exact B. cbn [bind]. rewrite order_num. unfold reduced. pose proof (firstn_num h B) as P.
  destruct (Z.ltb_spec (be_num (firstn 32 h)) secp_order) as [C|C].
  - replace (be_num (firstn 32 h) - secp_order <? 0) with true by lia. apply int2octets_ok. exact P.
  - replace (be_num (firstn 32 h) - secp_order <? 0) with false by lia. apply int2octets_ok. lia.
Qed.
Lemma iter_shift {A} (f : A -> A) n x : Nat.iter n f (f x) = Nat.iter (S n) f x.
Proof. induction n as [|n IH]; [reflexivity|]. change (Nat.iter (S n) f (f x)) with (f (Nat.iter n f (f x))). rewrite IH. reflexivity. Qed.
Lemma h2_ok hmac k v : hmac_ok hmac -> h2_loop hmac 32 256 k v [] = (hmac k v, hmac k v).
Proof.
  intros H. destruct (H k v) as [_ L]. change 32%nat with (S (S 30)). cbn [h2_loop]. change (zlen (@nil Z) * 8 <? 256) with true. cbv iota zeta. cbn [app].
  replace (zlen (hmac k v) * 8 <? 256) with false by (unfold zlen; rewrite L; reflexivity). reflexivity.
Qed.
Lemma h_loop_ok hmac : hmac_ok hmac -> forall fuel k v,
  (forall n, (n < fuel)%nat -> scalar_ok (be_num (rfc_candidate hmac (Nat.iter n (rfc_next hmac) (k, v)))) = true ->
     (forall j, (j < n)%nat -> scalar_ok (be_num (rfc_candidate hmac (Nat.iter j (rfc_next hmac) (k, v)))) = false) ->
     h_loop hmac fuel secp_order 256 k v = Some (Ok (big_bytes (be_num (rfc_candidate hmac (Nat.iter n (rfc_next hmac) (k, v))))))) /\
  ((forall j, (j < fuel)%nat -> scalar_ok (be_num (rfc_candidate hmac (Nat.iter j (rfc_next hmac) (k, v)))) = false) -> h_loop hmac fuel secp_order 256 k v = None).
Proof.
  intros HM. induction fuel as [|fuel IH]; intros k v; [split; [intros; lia|reflexivity]|].
  cbn [h_loop]. rewrite h2_ok by exact HM. destruct (HM k v) as [Bt Lt]. rewrite hash_to_int_ok by exact Bt. rewrite firstn_all2 by lia.
  assert (S0 : (1 <=? be_num (hmac k v)) && (be_num (hmac k v) <? secp_order) = scalar_ok (be_num (rfc_candidate hmac (Nat.iter 0 (rfc_next hmac) (k, v))))).
  { cbn [Nat.iter nat_rect]. unfold rfc_candidate. cbn [fst snd]. unfold scalar_ok. lia. }
  rewrite S0. specialize (IH (hmac k (hmac k v ++ [0])) (hmac (hmac k (hmac k v ++ [0])) (hmac k v))).
  assert (Sh : forall j, Nat.iter j (rfc_next hmac) (hmac k (hmac k v ++ [0]), hmac (hmac k (hmac k v ++ [0])) (hmac k v)) = Nat.iter (S j) (rfc_next hmac) (k, v)).
  { intros j. rewrite <- iter_shift. reflexivity. }
  destruct IH as [IH1 IH2]. split.
  - intros [|n] Ln Sn Pn.
    + rewrite Sn. reflexivity.
    + rewrite (Pn O ltac:(lia)). rewrite <- Sh. apply IH1; [lia|rewrite Sh; exact Sn|intros j Lj; rewrite Sh; apply Pn; lia].
  - intros A. rewrite (A O ltac:(lia)). apply IH2. intros j Lj. rewrite Sh. apply A. lia.
Qed.

(** ** C86 *)
(** The nonce for round i is the first usable RFC 6979 candidate of the seed of round i, as a number without leading zero
    bytes; while no candidate is usable the search goes on. *)
Theorem eos_nonce : forall hmac sha key hash i fuel, hmac_ok hmac -> is_bytes key -> is_bytes hash -> (forall d, is_bytes (sha d)) -> 0 <= i ->
  let cand := rfc_nth hmac (eos_seed sha key hash i) in
  (forall n, (n < fuel)%nat -> scalar_ok (be_num (cand n)) = true -> (forall j, (j < n)%nat -> scalar_ok (be_num (cand j)) = false) ->
     exists k, random_from_nonce hmac sha fuel key hash i = Some (Ok k) /\ be_num k = be_num (cand n) /\ k = strip0 (cand n) /\ (length k = 32%nat <-> 2 ^ 248 <= be_num (cand n))) /\
  ((forall j, (j < fuel)%nat -> scalar_ok (be_num (cand j)) = false) -> random_from_nonce hmac sha fuel key hash i = None).
Proof.
  intros hmac sha key hash i fuel HM Bk Bh Bs I. cbv zeta. unfold random_from_nonce. rewrite order_bits, order_num. change (Z.shiftr (256 + 7) 3) with 32.
  set (h' := if 0 <? i then sha (hash ++ zeros (Z.to_nat i)) else hash).
  assert (Bh' : is_bytes h') by (unfold h'; destruct (0 <? i); [apply Bs|exact Bh]).
  rewrite int2octets_ok by (apply be_num_bound; exact Bk). cbn [bind]. rewrite bits2octets_ok by exact Bh'. cbn [bind].
  assert (Sd : eos_seed sha key hash i = be_bytes 32 (be_num key) ++ be_bytes 32 (reduced h')).
  { unfold eos_seed, h', zeros. destruct (Z.eqb_spec i 0) as [->|E]; [reflexivity|]. replace (0 <? i) with true by lia. reflexivity. }
  rewrite <- Sd. destruct (h_loop_ok hmac HM fuel (fst (rfc_seeded hmac (eos_seed sha key hash i))) (snd (rfc_seeded hmac (eos_seed sha key hash i)))) as [H1 H2].
  rewrite <- surjective_pairing in H1, H2. split.
  - intros n Ln Sn Pn. exists (big_bytes (be_num (rfc_nth hmac (eos_seed sha key hash i) n))). split; [exact (H1 n Ln Sn Pn)|].
    assert (Bc : is_bytes (rfc_nth hmac (eos_seed sha key hash i) n) /\ length (rfc_nth hmac (eos_seed sha key hash i) n) = 32%nat) by apply HM.
    set (c := rfc_nth hmac (eos_seed sha key hash i) n) in *. clearbody c. destruct Bc as [Bc Lc]. pose proof (be_num_bound c Bc) as R. unfold scalar_ok in Sn.
    split; [rewrite big_bytes_num; lia|]. split; [apply big_bytes_be_num; exact Bc|].
    pose proof (big_nbytes (be_num c) ltac:(lia)) as N. destruct N as [[N1 N2]|[N1 N2]]; [lia|].
    change (2 ^ 248) with (256 ^ 31). unfold zlen in *. rewrite Lc in R. split; intros Q.
    + rewrite Q in N2. exact (proj1 N2).
    + set (m := Z.of_nat (length (big_bytes (be_num c)))) in *. assert (31 < m) by (apply (Z.pow_lt_mono_r_iff 256); lia). assert (m - 1 < 32) by (apply (Z.pow_lt_mono_r_iff 256); lia). lia.
  - intros A. exact (H2 A).
Qed.

(** ** C60 *)
Lemma high_bit b : 0 <= b < 256 -> (Z.land b 0x80 =? 0) = (b <? 128).
Proof.
  intros B. assert (A : forallb (fun b => Bool.eqb (Z.land b 0x80 =? 0) (b <? 128)) (map Z.of_nat (seq 0 256)) = true) by (vm_compute; reflexivity).
  rewrite forallb_forall in A. apply eqb_prop. apply A. apply in_map_iff. exists (Z.to_nat b). split; [lia|]. apply in_seq. lia.
Qed.
Lemma canon_bytes x y (t : bytes) : is_bytes (x :: y :: t) -> length t = 30%nat ->
  ((Z.land x 0x80 =? 0) && negb ((x =? 0) && (Z.land y 0x80 =? 0)) = true <-> canon (be_num (x :: y :: t))).
Proof.
  intros B L. inversion B as [|? ? Bx B']; subst. inversion B' as [|? ? By Bt]; subst. unfold is_byte in *. rewrite !high_bit by assumption.
  pose proof (be_num_bound t Bt) as R. rewrite !be_num_cons, !zlen_cons. unfold zlen in *. rewrite L in *. unfold canon.
  change (2 ^ 247) with (128 * 256 ^ 30). change (2 ^ 255) with (128 * 256 * 256 ^ 30). change (256 ^ (1 + Z.of_nat 30)) with (256 * 256 ^ 30). change (Z.of_nat 30) with 30 in *.
  assert (0 < 256 ^ 30) by reflexivity. generalize dependent (256 ^ 30). intros P R P0. nia.
Qed.
Lemma is_canonical_ok v (r s : bytes) : is_bytes r -> is_bytes s -> length r = 32%nat -> length s = 32%nat ->
  exists b, is_canonical (v :: r ++ s) = Ok b /\ (b = true <-> canon (be_num r) /\ canon (be_num s)).
Proof.
  intros Br Bs Lr Ls. destruct r as [|r0 [|r1 rt]]; try discriminate. destruct s as [|s0 [|s1 st]]; try discriminate.
  cbn [length] in Lr, Ls.
  pose proof (canon_bytes r0 r1 rt Br ltac:(lia)) as Cr. pose proof (canon_bytes s0 s1 st Bs ltac:(lia)) as Cs.
  unfold is_canonical.
  assert (I1 : idx (v :: (r0 :: r1 :: rt) ++ s0 :: s1 :: st) 1 = Ok r0) by reflexivity.
  assert (I2 : idx (v :: (r0 :: r1 :: rt) ++ s0 :: s1 :: st) 2 = Ok r1) by reflexivity.
  assert (I3 : idx (v :: (r0 :: r1 :: rt) ++ s0 :: s1 :: st) 33 = Ok s0).
  { change (v :: (r0 :: r1 :: rt) ++ s0 :: s1 :: st) with ((v :: r0 :: r1 :: rt) ++ s0 :: s1 :: st). apply idx_mid. unfold zlen. cbn [length]. lia. }
  assert (I4 : idx (v :: (r0 :: r1 :: rt) ++ s0 :: s1 :: st) 34 = Ok s1).
  { replace (v :: (r0 :: r1 :: rt) ++ s0 :: s1 :: st) with ((v :: (r0 :: r1 :: rt) ++ [s0]) ++ s1 :: st) by (cbn [app]; rewrite <- app_assoc; reflexivity). apply idx_mid. unfold zlen. cbn [length app]. rewrite app_length. cbn [length]. lia. }
  rewrite I1, I2, I3, I4. cbn [bind]. eexists.
  assert (E1 : (if r0 =? 0 then Ok (Z.land r1 128 =? 0) else Ok false) = Ok ((r0 =? 0) && (Z.land r1 128 =? 0))) by (destruct (r0 =? 0); reflexivity).
  assert (E2 : (if s0 =? 0 then Ok (Z.land s1 128 =? 0) else Ok false) = Ok ((s0 =? 0) && (Z.land s1 128 =? 0))) by (destruct (s0 =? 0); reflexivity).
  rewrite E1, E2. cbn [bind]. split; [reflexivity|]. rewrite <- Cr, <- Cs. rewrite !andb_true_iff. tauto.
Qed.

Section Sign.
Variable hmac : bytes -> bytes -> bytes.
Variable sha : bytes -> bytes.
Variable pre : bytes -> Z.
Variable ecc_sign : bytes -> bytes -> bytes -> bytes * Z.
Variable gen_pub : bytes -> bytes * Z.
Variable recover : bytes -> bytes -> bytes * Z.
Variable success : Z.
(** Round i yields this signature of the curve library. *)
Definition signed (fuel : nat) (key hash : bytes) (i : Z) (sig : bytes) : Prop :=
  exists nonce, random_from_nonce hmac sha fuel key hash i = Some (Ok nonce) /\ pre nonce = success /\ ecc_sign key hash nonce = (sig, success).
Lemma signed_iff fuel key hash i sig : signed fuel key hash i sig <-> sign_rfc6979 hmac sha pre ecc_sign success fuel key hash i = Some (Ok sig).
Proof.
  unfold signed, sign_rfc6979. destruct (random_from_nonce hmac sha fuel key hash i) as [[k| |]|].
  - cbn [bind]. split.
    + intros (n & E & P & S). assert (k = n) by congruence. subst n. rewrite P, Z.eqb_refl, S, Z.eqb_refl. reflexivity.
    + destruct (Z.eqb_spec (pre k) success) as [P|P]; cbn [negb]; [|discriminate]. destruct (ecc_sign key hash k) as [s r] eqn:S. destruct (Z.eqb_spec r success) as [Q|Q]; cbn [negb]; [|discriminate].
      intros E. exists k. split; [reflexivity|]. split; [exact P|]. congruence.
  - split; [intros (n & E & _); discriminate|discriminate].
  - split; [intros (n & E & _); discriminate|discriminate].
  - split; [intros (n & E & _); discriminate|discriminate].
Qed.
Lemma compact_step key hash pub r s fuel n i : gen_pub key = (pub, success) -> signed fuel key hash i (r ++ s) -> is_bytes r -> is_bytes s -> length r = 32%nat -> length s = 32%nat ->
  let run := sign_canonical_loop hmac sha pre ecc_sign gen_pub recover success fuel in
  (usable recover success pub hash (r ++ s) ->
     exists v, run (S n) i key hash = Some (Ok (31 + v :: r ++ s)) /\ recid recover success pub hash (r ++ s) v /\
       (v = 0 \/ (v = 1 /\ ~ recid recover success pub hash (r ++ s) 0))) /\
  (~ usable recover success pub hash (r ++ s) -> run (S n) i key hash = run n (i + 1) key hash).
Proof.
  intros G S Br Bs Lr Ls. cbv zeta. cbn [sign_canonical_loop]. apply signed_iff in S. rewrite S, G, Z.eqb_refl. cbn [negb].
  assert (F1 : firstn 32 (r ++ s) = r) by (rewrite firstn_app, Lr, firstn_all2 by lia; cbn [Nat.sub firstn]; apply app_nil_r).
  assert (F2 : skipn 32 (r ++ s) = s) by (rewrite skipn_app, Lr, skipn_all2 by lia; reflexivity).
  unfold usable. rewrite F1, F2.
  assert (M : (exists v, make_compact recover success (r ++ s) pub hash = Ok (31 + v :: r ++ s) /\ recid recover success pub hash (r ++ s) v /\ (v = 0 \/ v = 1 /\ ~ recid recover success pub hash (r ++ s) 0)) \/
              (make_compact recover success (r ++ s) pub hash = Err /\ ~ recid recover success pub hash (r ++ s) 0 /\ ~ recid recover success pub hash (r ++ s) 1)).
  { unfold make_compact. cbn [make_compact_loop]. change (u8 0) with 0. change (u8 (0 + 1)) with 1.
    unfold recid. destruct (recover ((r ++ s) ++ [0]) hash) as [p0 t0] eqn:R0. destruct (recover ((r ++ s) ++ [1]) hash) as [p1 t1] eqn:R1.
    unfold slice_to. rewrite slice_pre by (unfold zlen; lia). cbn [bind]. rewrite slice_from_post by (unfold zlen; lia). cbn [bind].
    destruct (Z.eqb_spec t0 success) as [E0|E0]; cbn [andb].
    - destruct (beq p0 pub) eqn:C0.
      + apply beq_eq in C0. left. exists 0. split; [reflexivity|]. split; [rewrite R0, C0, E0; reflexivity|left; reflexivity].
      + apply beq_neq in C0. destruct (Z.eqb_spec t1 success) as [E1|E1]; cbn [andb].
        * destruct (beq p1 pub) eqn:C1.
          -- apply beq_eq in C1. left. exists 1. split; [reflexivity|]. split; [rewrite R1, C1, E1; reflexivity|right; split; [reflexivity|intros Q; injection Q as Q1 Q2; contradiction]].
          -- apply beq_neq in C1. right. split; [reflexivity|]. split; intros Q; injection Q as Q1 Q2; contradiction.
        * right. split; [reflexivity|]. split; intros Q; injection Q as Q1 Q2; contradiction.
    - destruct (Z.eqb_spec t1 success) as [E1|E1]; cbn [andb].
      + destruct (beq p1 pub) eqn:C1.
        * apply beq_eq in C1. left. exists 1. split; [reflexivity|]. split; [rewrite R1, C1, E1; reflexivity|right; split; [reflexivity|intros Q; injection Q as Q1 Q2; contradiction]].
        * apply beq_neq in C1. right. split; [reflexivity|]. split; intros Q; injection Q as Q1 Q2; contradiction.
      + right. split; [reflexivity|]. split; intros Q; injection Q as Q1 Q2; contradiction. }
  destruct M as [(v & M & Rv & V)|(M & N0 & N1)]; rewrite M.
  - destruct (is_canonical_ok (31 + v) r s Br Bs Lr Ls) as (b & C & Cb). rewrite C. split.
    + intros (_ & U1 & U2). assert (b = true) by tauto. subst b. exists v. auto.
    + intros U. assert (b = false) by (apply not_true_iff_false; rewrite Cb; intros [X Y]; apply U; split; [destruct V as [-> | [-> _]]; tauto|tauto]). subst b. reflexivity.
  - split; [tauto|reflexivity].
Qed.
End Sign.

(** SignCanonical returns a signature exactly when one of the first 25 rounds produces a usable one after rounds that
    produced unusable ones; it is the first such signature, behind 31 plus its recovery id. *)
Theorem eos_signature_iff : forall hmac sha pre ecc_sign gen_pub recover success fuel key hash pub out,
  gen_pub key = (pub, success) ->
  (forall n, is_bytes (fst (ecc_sign key hash n)) /\ length (fst (ecc_sign key hash n)) = 64%nat) ->
  let signed := signed hmac sha pre ecc_sign success fuel key hash in
  let usable := usable recover success pub hash in
  let recid := recid recover success pub hash in
  (sign_canonical hmac sha pre ecc_sign gen_pub recover success fuel key hash = Some (Ok out) <->
   exists i sig v, 0 <= i < 25 /\ signed i sig /\ usable sig /\ out = 31 + v :: sig /\ recid sig v /\ (v = 0 \/ v = 1 /\ ~ recid sig 0) /\
     forall j, 0 <= j < i -> exists sig', signed j sig' /\ ~ usable sig').
Proof.
  intros hmac sha pre ecc_sign gen_pub recover success fuel key hash pub out G L. cbv zeta.
  set (run := sign_canonical_loop hmac sha pre ecc_sign gen_pub recover success fuel).
  assert (Sp : forall i sig, signed hmac sha pre ecc_sign success fuel key hash i sig -> exists r s, sig = r ++ s /\ is_bytes r /\ is_bytes s /\ length r = 32%nat /\ length s = 32%nat).
  { intros i sig (n & _ & _ & E). destruct (L n) as [B Ln]. rewrite E in B, Ln. cbn [fst] in *. destruct (cut 32 sig B ltac:(lia)) as (w & r & -> & Bw & Br & Lw & Lr). exists w, r. rewrite app_length in Ln. repeat (split; [first [reflexivity|assumption|lia]|]). lia. }
  assert (Loop : forall n i, 0 <= i -> (run n i key hash = Some (Ok out) <->
     exists k sig v, i <= k < i + Z.of_nat n /\ signed hmac sha pre ecc_sign success fuel key hash k sig /\ usable recover success pub hash sig /\ out = 31 + v :: sig /\ recid recover success pub hash sig v /\ (v = 0 \/ v = 1 /\ ~ recid recover success pub hash sig 0) /\
       forall j, i <= j < k -> exists sig', signed hmac sha pre ecc_sign success fuel key hash j sig' /\ ~ usable recover success pub hash sig')).
  { induction n as [|n IH]; intros i I.
    - split; [discriminate|]. intros (k & _ & _ & Hk & _). lia.
    - destruct (sign_rfc6979 hmac sha pre ecc_sign success fuel key hash i) as [[sig| |]|] eqn:E.
      + apply signed_iff in E. destruct (Sp i sig E) as (r & s & -> & Br & Bs & Lr & Ls).
        destruct (compact_step hmac sha pre ecc_sign gen_pub recover success key hash pub r s fuel n i G E Br Bs Lr Ls) as [U1 U2]. fold run in U1, U2.
        assert (Uni : forall sig', signed hmac sha pre ecc_sign success fuel key hash i sig' -> sig' = r ++ s).
        { intros sig' S'. apply signed_iff in S'. apply signed_iff in E. congruence. }
        assert (Dec : usable recover success pub hash (r ++ s) \/ ~ usable recover success pub hash (r ++ s)).
        { assert (forall a b : bytes * Z, a = b \/ a <> b) as D by (intros [p x] [q y]; destruct (list_eq_dec Z.eq_dec p q); destruct (Z.eq_dec x y); [left; congruence|right; congruence|right; congruence|right; congruence]).
          assert (DC : forall x, canon x \/ ~ canon x) by (intros x; unfold canon; lia).
          unfold usable, recid. destruct (D (recover ((r ++ s) ++ [0]) hash) (pub, success)); destruct (D (recover ((r ++ s) ++ [1]) hash) (pub, success));
          destruct (DC (be_num (firstn 32 (r ++ s)))); destruct (DC (be_num (skipn 32 (r ++ s)))); tauto. }
        destruct Dec as [U|U].
        * destruct (U1 U) as (v & R & Rv & V). rewrite R. split.
          -- intros Q. assert (out = 31 + v :: r ++ s) by congruence. subst out. exists i, (r ++ s), v. split; [lia|]. split; [exact E|]. split; [exact U|]. split; [reflexivity|]. split; [exact Rv|]. split; [exact V|]. intros; lia.
          -- intros (k & sig & v' & Hk & S & Us & -> & Rv' & V' & P). destruct (Z.eq_dec k i) as [->|Nk].
             ++ rewrite (Uni sig S) in *. do 3 f_equal. destruct V as [->|[-> N0]], V' as [->|[-> N0']]; try reflexivity; contradiction.
             ++ destruct (P i ltac:(lia)) as (sig' & S' & N'). rewrite (Uni sig' S') in N'. contradiction.
        * rewrite (U2 U). rewrite IH by lia. split.
          -- intros (k & sig & v & Hk & S & Us & O & Rv & V & P). exists k, sig, v. split; [lia|]. split; [exact S|]. split; [exact Us|]. split; [exact O|]. split; [exact Rv|]. split; [exact V|].
             intros j Hj. destruct (Z.eq_dec j i) as [->|]; [eauto|apply P; lia].
          -- intros (k & sig & v & Hk & S & Us & O & Rv & V & P). destruct (Z.eq_dec k i) as [->|Nk]; [rewrite (Uni sig S) in Us; contradiction|].
             exists k, sig, v. split; [lia|]. split; [exact S|]. split; [exact Us|]. split; [exact O|]. split; [exact Rv|]. split; [exact V|]. intros j Hj. apply P. lia.
      + unfold run. cbn [sign_canonical_loop]. rewrite E. split; [discriminate|]. intros (k & sig & v & Hk & S & _ & _ & _ & _ & P). exfalso.
        destruct (Z.eq_dec k i) as [->|Nk]; [apply signed_iff in S; congruence|]. destruct (P i ltac:(lia)) as (sig' & S' & _). apply signed_iff in S'. congruence.
      + unfold run. cbn [sign_canonical_loop]. rewrite E. split; [discriminate|]. intros (k & sig & v & Hk & S & _ & _ & _ & _ & P). exfalso.
        destruct (Z.eq_dec k i) as [->|Nk]; [apply signed_iff in S; congruence|]. destruct (P i ltac:(lia)) as (sig' & S' & _). apply signed_iff in S'. congruence.
      + unfold run. cbn [sign_canonical_loop]. rewrite E. split; [discriminate|]. intros (k & sig & v & Hk & S & _ & _ & _ & _ & P). exfalso.
        destruct (Z.eq_dec k i) as [->|Nk]; [apply signed_iff in S; congruence|]. destruct (P i ltac:(lia)) as (sig' & S' & _). apply signed_iff in S'. congruence. }
  unfold sign_canonical. fold run. rewrite (Loop 25%nat 0 ltac:(lia)). reflexivity.
Qed.
(** After 25 unusable signatures it gives up with an error; it never panics when the library returns 64 bytes. *)
Theorem eos_gives_up : forall hmac sha pre ecc_sign gen_pub recover success fuel key hash pub,
  gen_pub key = (pub, success) ->
  (forall n, is_bytes (fst (ecc_sign key hash n)) /\ length (fst (ecc_sign key hash n)) = 64%nat) ->
  (forall j, 0 <= j < 25 -> exists sig, signed hmac sha pre ecc_sign success fuel key hash j sig /\ ~ usable recover success pub hash sig) ->
  sign_canonical hmac sha pre ecc_sign gen_pub recover success fuel key hash = Some Err.
Proof.
  intros hmac sha pre ecc_sign gen_pub recover success fuel key hash pub G L A. unfold sign_canonical.
  assert (Loop : forall n i, 0 <= i -> i + Z.of_nat n <= 25 -> sign_canonical_loop hmac sha pre ecc_sign gen_pub recover success fuel n i key hash = Some Err).
  { induction n as [|n IH]; intros i I J; [reflexivity|]. destruct (A i ltac:(lia)) as (sig & S & U).
    assert (Sp : exists r s, sig = r ++ s /\ is_bytes r /\ is_bytes s /\ length r = 32%nat /\ length s = 32%nat).
    { destruct S as (m & _ & _ & E). destruct (L m) as [B Ln]. rewrite E in B, Ln. cbn [fst] in *. destruct (cut 32 sig B ltac:(lia)) as (w & r & -> & Bw & Br & Lw & Lr). exists w, r. rewrite app_length in Ln. repeat (split; [first [reflexivity|assumption|lia]|]). lia. }
    destruct Sp as (r & s & -> & Br & Bs & Lr & Ls).
    destruct (compact_step hmac sha pre ecc_sign gen_pub recover success key hash pub r s fuel n i G S Br Bs Lr Ls) as [_ U2]. rewrite (U2 U). apply IH; lia. }
  apply Loop; lia.
Qed.

(** ** Examples *)
Definition ex_eos_hmac (k d : bytes) : bytes := be_bytes 32 (2 ^ 250).
Definition ex_eos_sig : bytes := be_bytes 32 (2 ^ 250) ++ be_bytes 32 (2 ^ 247).
Definition ex_eos_recover (s h : bytes) : bytes * Z := if beq s (ex_eos_sig ++ [1]) then ([4], 1) else ([], 1).
Example ex_eos_hmac_ok : hmac_ok ex_eos_hmac.
Proof. intros k d. split; [apply be_bytes_is_bytes|apply be_bytes_length]. Qed.
Example ex_eos_signed : sign_canonical ex_eos_hmac (fun _ => []) (fun _ => 1) (fun _ _ _ => (ex_eos_sig, 1)) (fun _ => ([4], 1)) ex_eos_recover 1 5 [7] [9] = Some (Ok (32 :: ex_eos_sig)).
Proof. vm_compute. reflexivity. Qed.
(** 2^247 - 1 is not canonical: 25 rounds, then an error. *)
Example ex_eos_error : sign_canonical ex_eos_hmac (fun _ => []) (fun _ => 1) (fun _ _ _ => (be_bytes 32 (2 ^ 247 - 1) ++ be_bytes 32 (2 ^ 247), 1)) (fun _ => ([], 1)) (fun _ _ => ([], 1)) 1 5 [7] [9] = Some Err.
Proof.
  apply (eos_gives_up _ _ _ _ _ _ _ _ _ _ []); [reflexivity| |].
  - intros n. cbn [fst]. split; [apply is_bytes_app; split; apply be_bytes_is_bytes|rewrite app_length, !be_bytes_length; reflexivity].
  - intros j Hj. exists (be_bytes 32 (2 ^ 247 - 1) ++ be_bytes 32 (2 ^ 247)). split.
    + destruct (eos_nonce ex_eos_hmac (fun _ => []) [7] [9] j 5 ex_eos_hmac_ok) as [E _].
      * repeat constructor; unfold is_byte; lia.
      * repeat constructor; unfold is_byte; lia.
      * intros d. constructor.
      * lia.
      * destruct (E O) as (k & E' & _); [lia| |intros; lia|].
        -- unfold rfc_nth, rfc_candidate, ex_eos_hmac. rewrite be_num_be_bytes. vm_compute. reflexivity.
        -- exists k. split; [exact E'|]. split; reflexivity.
    + intros (_ & [C _] & _). apply C. vm_compute. reflexivity.
Qed.

Print Assumptions eos_nonce.
Print Assumptions eos_signature_iff.
Print Assumptions eos_gives_up.
