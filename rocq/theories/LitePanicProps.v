(** C147: aliencoinTransaction, vergeTransaction and vollarTransaction: when verification panics. *)
From Coq Require Import ZArith List Bool Lia ZifyBool ZifyNat.
From Verif Require Import Go GoFacts Rd Reader Base58Model SigModel SigDerProps BtcModel HyperModel LiteModel LiteProps LikeProps Toy.
Import ListNotations.
Open Scope Z_scope.
Ltac Zify.zify_post_hook ::= idtac.

(** ** Reading never panics *)
Lemma read_in_fine b : read_in b <> Panic.
Proof. unfold read_in. apply need_fine. intros id r1. apply need_fine. intros v r2. apply need1_fine. intros z r3. destruct (negb (z =? 0)); [discriminate|]. apply need_fine. intros; discriminate. Qed.
Lemma read_out_fine c b : read_out c b <> Panic.
Proof. unfold read_out. apply need_fine. intros a r1. apply need_fine. intros m r2. apply need1_fine. intros n r3. apply need_fine. intros s r4. apply need_fine. intros; discriminate. Qed.
Lemma read_tx_fine c b : read_tx c b <> Panic.
Proof.
  unfold read_tx. apply need_fine. intros h r1. apply need1_fine. intros n r2. destruct (readn (Z.to_nat n) read_in r2) as [[ins r3]| |] eqn:E; [|discriminate|exfalso; exact (readn_fine _ _ read_in_fine _ E)]. cbn [bind].
  apply need1_fine. intros m r4. destruct (readn (Z.to_nat m) (read_out c) r4) as [[outs r5]| |] eqn:E2; [|discriminate|exfalso; exact (readn_fine _ _ (read_out_fine c) _ E2)]. cbn [bind].
  apply need_fine. intros t r6. destruct r6; discriminate.
Qed.
Lemma hex_decode_fine s : hex_decode s <> Panic.
Proof.
  induction s as [|a|a c s IH] using pair_ind; cbn [hex_decode]; try discriminate. destruct (hex_val a); [|discriminate]. destruct (hex_val c); [|discriminate]. destruct (hex_decode s); cbn [bind]; [discriminate|discriminate|contradiction].
Qed.
Lemma decode_raw_fine c text : decode_raw c text <> Panic.
Proof.
  unfold decode_raw. destruct (split_on 58 text) as [|t0 locks]; [discriminate|]. destruct (zlen (t0 :: locks) <=? 1); [discriminate|]. destruct (hex_decode t0) as [b| |] eqn:E; [|discriminate|exfalso; exact (hex_decode_fine _ E)].
  destruct (read_tx c b) as [t| |] eqn:E2; [|discriminate|exfalso; exact (read_tx_fine _ _ E2)]. cbn [bind]. destruct (negb _); discriminate.
Qed.
Lemma mapr_panics {A B} (f : A -> res B) l : (forall x, f x <> Err) -> mapr f l = Panic <-> exists x, In x l /\ f x = Panic.
Proof.
  intros N. induction l as [|a l IH]; cbn [mapr]; [split; [discriminate|intros (x & [] & _)]|]. specialize (N a) as Na. destruct (f a) as [y| |] eqn:E; cbn [bind]; [|congruence|].
  - destruct (mapr f l) as [r| |] eqn:M; cbn [bind].
    + split; [discriminate|]. intros (x & [->|I] & Q); [congruence|]. exfalso. discriminate (proj2 IH ltac:(eauto)).
    + split; [discriminate|]. intros (x & [->|I] & Q); [congruence|]. exfalso. discriminate (proj2 IH ltac:(eauto)).
    + split; [|reflexivity]. intros _. destruct (proj1 IH eq_refl) as (x & I & Q). exists x. split; [right; exact I|exact Q].
  - split; [|reflexivity]. intros _. exists a. split; [left; reflexivity|exact E].
Qed.
Lemma mapr_not_err {A B} (f : A -> res B) l : (forall x, f x <> Err) -> mapr f l <> Err.
Proof. intros N. induction l as [|a l IH]; cbn [mapr]; [discriminate|]. specialize (N a). destruct (f a); cbn [bind]; [|contradiction|discriminate]. destruct (mapr f l); cbn [bind]; [discriminate|contradiction|discriminate]. Qed.

(** ** The scripts of a signature *)
Lemma idx_not_err (r : bytes) i : idx r i <> Err.
Proof. unfold idx. destruct (i <? 0); [discriminate|]. destruct (nth_error r _); discriminate. Qed.
Lemma slice_not_err (r : bytes) i j : slice r i j <> Err.
Proof. unfold slice. destruct (_ && _); discriminate. Qed.
Lemma slice_tail {A} (x : A) l : slice_from (x :: l) 1 = Ok l.
Proof. apply slice1. Qed.
Lemma der_strip_not_err f : forall r, der_strip f r <> Err.
Proof.
  induction f as [|f IH]; intros r; cbn [der_strip]; [discriminate|]. pose proof (idx_not_err r 0). destruct (idx r 0) as [r0| |]; cbn [bind]; [|contradiction|discriminate]. destruct (r0 =? 0); [|discriminate]. pose proof (idx_not_err r 1). destruct (idx r 1) as [r1| |]; cbn [bind]; [|contradiction|discriminate].
  destruct (negb _); [|discriminate]. pose proof (slice_not_err r 1 (zlen r)) as S. unfold slice_from. destruct (slice r 1 (zlen r)) as [r'| |]; cbn [bind]; [apply IH|contradiction|discriminate].
Qed.
Lemma alien_strip_not_err f : forall i r, alien_strip f i r <> Err.
Proof.
  induction f as [|f IH]; intros i r; cbn [alien_strip]; [discriminate|]. pose proof (idx_not_err r i). destruct (idx r i) as [r0| |]; cbn [bind]; [|contradiction|discriminate]. destruct (r0 =? 0); [|discriminate].
  pose proof (slice_not_err r 1 (zlen r)) as S. unfold slice_from. destruct (slice r 1 (zlen r)) as [r'| |]; cbn [bind]; [apply IH|contradiction|discriminate].
Qed.
Lemma der_trim_not_err r : der_trim r <> Err.
Proof. unfold der_trim. pose proof (idx_not_err r 0). destruct (idx r 0) as [r0| |]; cbn [bind]; [|contradiction|discriminate]. destruct (_ =? 128); [discriminate|apply der_strip_not_err]. Qed.
Lemma alien_trim_not_err r : alien_trim r <> Err.
Proof. unfold alien_trim. pose proof (idx_not_err r 0). destruct (idx r 0) as [r0| |]; cbn [bind]; [|contradiction|discriminate]. destruct (_ =? 128); [discriminate|apply alien_strip_not_err]. Qed.
Lemma alien_not_err sig pub : alien_sigpub sig pub <> Err.
Proof.
  unfold alien_sigpub, slice_from. pose proof (slice_not_err sig 0 32). destruct (slice sig 0 32) as [r| |]; cbn [bind]; [|contradiction|discriminate]. pose proof (slice_not_err sig 32 (zlen sig)). destruct (slice sig 32 (zlen sig)) as [s| |]; cbn [bind]; [|contradiction|discriminate].
  pose proof (alien_trim_not_err r). destruct (alien_trim r); cbn [bind]; [|contradiction|discriminate]. pose proof (alien_trim_not_err s). destruct (alien_trim s); cbn [bind]; [discriminate|contradiction|discriminate].
Qed.
Lemma verge_not_err sig pub : verge_sigpub sig pub <> Err.
Proof.
  unfold verge_sigpub, encode_sig, slice_from. pose proof (slice_not_err sig 0 32). destruct (slice sig 0 32) as [r| |]; cbn [bind]; [|contradiction|discriminate]. pose proof (slice_not_err sig 32 (zlen sig)). destruct (slice sig 32 (zlen sig)) as [s| |]; cbn [bind]; [|contradiction|discriminate].
  pose proof (der_trim_not_err r). destruct (der_trim r); cbn [bind]; [|contradiction|discriminate]. pose proof (der_trim_not_err s). destruct (der_trim s); cbn [bind]; [discriminate|contradiction|discriminate].
Qed.
(** All bytes zero. *)
Definition all_zero (r : bytes) : Prop := Forall (fun b => b = 0) r.
Lemma strip_panics f : forall r, der_strip f r = Panic <-> (0 < f)%nat /\ all_zero r /\ (length r <= f)%nat.
Proof.
  unfold all_zero. induction f as [|f IH]; intros r; cbn [der_strip]; [split; [discriminate|lia]|]. destruct r as [|b [|c t]].
  - split; [intros _; split; [lia|split; [constructor|cbn [length]; lia]]|reflexivity].
  - change (idx [b] 0) with (Ok b). change (idx [b] 1) with (@Panic Z). cbn [bind]. destruct (Z.eqb_spec b 0) as [->|N]; [split; [intros _|reflexivity]|split; [discriminate|intros (_ & F & _); apply Forall_cons_iff in F as [F _]; contradiction]].
    split; [lia|]. split; [repeat constructor|cbn [length]; lia].
  - change (idx (b :: c :: t) 0) with (Ok b). change (idx (b :: c :: t) 1) with (Ok c). cbn [bind]. destruct (Z.eqb_spec b 0) as [->|N]; [|split; [discriminate|intros (_ & F & _); apply Forall_cons_iff in F as [F _]; contradiction]].
    rewrite slice_tail. cbn [bind]. destruct (Z.eqb_spec (Z.land c 128) 128) as [G|G]; cbn [negb].
    + split; [discriminate|]. intros (_ & F & _). apply Forall_cons_iff in F as [_ F]. apply Forall_cons_iff in F as [-> _]. discriminate G.
    + rewrite IH. rewrite !Forall_cons_iff. cbn [length]. split; [intros (A & B & C); repeat split; try tauto; lia|]. intros (A & (B & C & D) & E). repeat split; try assumption; lia.
Qed.
Lemma trim_panics r : der_trim r = Panic <-> all_zero r /\ (length r <= 32)%nat.
Proof.
  unfold der_trim. destruct r as [|b t]; [split; [intros _; split; [constructor|cbn [length]; lia]|reflexivity]|]. change (idx (b :: t) 0) with (Ok b). cbn [bind]. destruct (Z.eqb_spec (Z.land b 128) 128) as [G|G].
  - split; [discriminate|]. intros [F _]. apply Forall_cons_iff in F as [-> _]. discriminate G.
  - rewrite strip_panics. split; [intros (_ & A & B); auto|intros (A & B); split; [lia|auto]].
Qed.
(** The script of a Verge or Vollar signature panics exactly if the signature is shorter than 32 bytes, or its first half is all zero, or
    its second part is at most 32 bytes long and all zero (as is the empty one). *)
Theorem verge_script_panics_iff : forall sig pub, verge_sigpub sig pub = Panic <->
  (length sig < 32)%nat \/ all_zero (firstn 32 sig) \/ ((length sig <= 64)%nat /\ all_zero (skipn 32 sig)).
Proof.
  intros sig pub. unfold verge_sigpub, encode_sig. destruct (Nat.lt_ge_cases (length sig) 32) as [L|L].
  - replace (slice sig 0 32) with (@Panic bytes) by (unfold slice, zlen; replace ((0 <=? 0) && (0 <=? 32) && (32 <=? Z.of_nat (length sig))) with false by lia; reflexivity). cbn [bind]. tauto.
  - replace (slice sig 0 32) with (Ok (firstn 32 sig)) by (unfold slice, zlen; replace ((0 <=? 0) && (0 <=? 32) && (32 <=? Z.of_nat (length sig))) with true by lia; reflexivity). cbn [bind].
    replace (slice_from sig 32) with (Ok (skipn 32 sig)).
    2: { unfold slice_from, slice, zlen. replace ((0 <=? 32) && (32 <=? Z.of_nat (length sig)) && (Z.of_nat (length sig) <=? Z.of_nat (length sig))) with true by lia. f_equal. symmetry. apply firstn_all2. rewrite skipn_length. lia. }
    cbn [bind]. pose proof (trim_panics (firstn 32 sig)) as T1. pose proof (trim_panics (skipn 32 sig)) as T2. rewrite firstn_length in T1. rewrite skipn_length in T2.
    pose proof (der_trim_not_err (firstn 32 sig)) as E1. pose proof (der_trim_not_err (skipn 32 sig)) as E2.
    destruct (der_trim (firstn 32 sig)) as [r| |]; cbn [bind]; [|contradiction|].
    + destruct (der_trim (skipn 32 sig)) as [s| |]; cbn [bind]; [|contradiction|].
      * split; [discriminate|]. intros [Q|[Q|[Q1 Q2]]]; [lia| |]; exfalso; [assert (X : @Ok bytes r = Panic) by (apply T1; split; [exact Q|lia]); discriminate X|assert (X : @Ok bytes s = Panic) by (apply T2; split; [exact Q2|lia]); discriminate X].
      * split; [|reflexivity]. intros _. right. right. destruct (proj1 T2 eq_refl) as [A B]. split; [lia|exact A].
    + split; [|reflexivity]. intros _. right. left. apply T1. reflexivity.
Qed.

(** The bytes at the places 0, 2, 4, ... are zero. *)
Definition even_zero (r : bytes) : Prop := forall j, (2 * j < length r)%nat -> nth (2 * j) r 0 = 0.
Lemma alien_strip_panics f : forall i (r : bytes), alien_strip (S f) (Z.of_nat i) r = Panic <-> (length r <= i + 2 * f)%nat /\ forall j, (i + 2 * j < length r)%nat -> nth (i + 2 * j) r 0 = 0.
Proof.
  assert (IX : forall (r : bytes) i, idx r (Z.of_nat i) = if (i <? length r)%nat then Ok (nth i r 0) else Panic).
  { intros r i. unfold idx. replace (Z.of_nat i <? 0) with false by lia. rewrite Nat2Z.id. destruct (Nat.ltb_spec i (length r)) as [L|L]; [rewrite (nth_error_nth' r 0 L); reflexivity|rewrite (proj2 (nth_error_None r i) L); reflexivity]. }
  induction f as [|f IH]; intros i r; [cbn [alien_strip]|remember (S f) as g eqn:G; cbn [alien_strip]]; rewrite IX; destruct (Nat.ltb_spec i (length r)) as [L|L]; cbn [bind].
  - split; [|lia]. destruct (_ =? 0); [|discriminate]. unfold slice_from, slice. replace ((0 <=? 1) && (1 <=? zlen r) && (zlen r <=? zlen r)) with true by (unfold zlen; lia). discriminate.
  - split; [intros _; split; lia|reflexivity].
  - destruct (Z.eqb_spec (nth i r 0) 0) as [E|E].
    + destruct r as [|b t]; [cbn [length] in L; lia|]. rewrite slice_tail. cbn [bind]. replace (Z.of_nat i + 1) with (Z.of_nat (S i)) by lia. subst g. rewrite IH. cbn [length] in *. split.
      * intros [A B]. split; [lia|]. intros [|j] Lj; [rewrite Nat.mul_0_r, Nat.add_0_r; exact E|]. replace (i + 2 * S j)%nat with (S (S i + 2 * j)) by lia. cbn [nth]. apply B. lia.
      * intros [A B]. split; [lia|]. intros j Lj. specialize (B (S j) ltac:(lia)). replace (i + 2 * S j)%nat with (S (S i + 2 * j)) in B by lia. exact B.
    + split; [discriminate|]. intros [_ B]. specialize (B 0%nat ltac:(lia)). rewrite Nat.mul_0_r, Nat.add_0_r in B. contradiction.
  - split; [intros _; split; lia|reflexivity].
Qed.
Lemma alien_trim_panics r : alien_trim r = Panic <-> even_zero r /\ (length r <= 62)%nat.
Proof.
  unfold alien_trim, even_zero. destruct r as [|b t]; [split; [intros _; split; [intros j L|]; cbn [length] in *; lia|reflexivity]|]. change (idx (b :: t) 0) with (Ok b). cbn [bind]. destruct (Z.eqb_spec (Z.land b 128) 128) as [G|G].
  - split; [discriminate|]. intros [F _]. specialize (F 0%nat ltac:(cbn [length]; lia)). cbn in F. subst b. discriminate G.
  - change 0 with (Z.of_nat 0) at 1. rewrite alien_strip_panics. cbn [Nat.add]. change (2 * 31)%nat with 62%nat. tauto.
Qed.
(** The script of an Aliencoin signature panics exactly if the signature is shorter than 32 bytes, or every other byte of its first half is
    zero, or its second part is at most 62 bytes long and every other byte of it is zero. *)
Theorem alien_any_script_panics_iff : forall sig pub, alien_sigpub sig pub = Panic <->
  (length sig < 32)%nat \/ even_zero (firstn 32 sig) \/ ((length sig <= 94)%nat /\ even_zero (skipn 32 sig)).
Proof.
  intros sig pub. unfold alien_sigpub. destruct (Nat.lt_ge_cases (length sig) 32) as [L|L].
  - replace (slice sig 0 32) with (@Panic bytes) by (unfold slice, zlen; replace ((0 <=? 0) && (0 <=? 32) && (32 <=? Z.of_nat (length sig))) with false by lia; reflexivity). cbn [bind]. tauto.
  - replace (slice sig 0 32) with (Ok (firstn 32 sig)) by (unfold slice, zlen; replace ((0 <=? 0) && (0 <=? 32) && (32 <=? Z.of_nat (length sig))) with true by lia; reflexivity). cbn [bind].
    replace (slice_from sig 32) with (Ok (skipn 32 sig)).
    2: { unfold slice_from, slice, zlen. replace ((0 <=? 32) && (32 <=? Z.of_nat (length sig)) && (Z.of_nat (length sig) <=? Z.of_nat (length sig))) with true by lia. f_equal. symmetry. apply firstn_all2. rewrite skipn_length. lia. }
    cbn [bind]. pose proof (alien_trim_panics (firstn 32 sig)) as T1. pose proof (alien_trim_panics (skipn 32 sig)) as T2. rewrite firstn_length in T1. rewrite skipn_length in T2.
    pose proof (alien_trim_not_err (firstn 32 sig)) as E1. pose proof (alien_trim_not_err (skipn 32 sig)) as E2.
    destruct (alien_trim (firstn 32 sig)) as [r| |]; cbn [bind]; [|contradiction|].
    + destruct (alien_trim (skipn 32 sig)) as [s| |]; cbn [bind]; [|contradiction|].
      * split; [discriminate|]. intros [Q|[Q|[Q1 Q2]]]; [lia| |]; exfalso; [assert (X : @Ok bytes r = Panic) by (apply T1; split; [exact Q|lia]); discriminate X|assert (X : @Ok bytes s = Panic) by (apply T2; split; [exact Q2|lia]); discriminate X].
      * split; [|reflexivity]. intros _. right. right. destruct (proj1 T2 eq_refl) as [A B]. split; [lia|exact A].
    + split; [|reflexivity]. intros _. right. left. apply T1. reflexivity.
Qed.

(** ** Verification *)
Section Panics.
Variables (H decompress : bytes -> bytes) (verify : bytes -> bytes -> bytes -> bool).
Hypothesis HB : forall b, is_bytes (H b).
(** The public key of a signature cannot be expanded. *)
Definition no_point (g : lsig) : Prop := decompress (g_pubkey g) = [].
(** The signatures before the k-th are good, and the key of the k-th cannot be expanded. *)
Definition stops_at (hashes : list bytes) (gs : list lsig) (k : nat) : Prop :=
  Forall2 (passes decompress verify) (firstn k hashes) (firstn k gs) /\ exists g, nth_error gs k = Some g /\ no_point g.
Lemma slice_nil : slice_from (@nil Z) 1 = Panic.
Proof. reflexivity. Qed.
Lemma check_all_panics hashes : Forall is_bytes hashes -> forall gs, length gs = length hashes -> check_all decompress verify (map hex_encode hashes) gs = Panic <-> exists k, stops_at hashes gs k.
Proof.
  unfold stops_at, no_point. induction 1 as [|h hs Hh F IH]; intros [|g gs] L; try discriminate; cbn [map check_all].
  - split; [discriminate|]. intros (k & _ & g & N & _). destruct k; discriminate.
  - unfold check_sig. rewrite unhex_encode by exact Hh. destruct (decompress (g_pubkey g)) as [|x pub] eqn:D.
    + rewrite slice_nil. cbn [bind]. split; [|reflexivity]. intros _. exists 0%nat. cbn [firstn nth_error]. split; [constructor|eauto].
    + rewrite slice_tail. cbn [bind]. destruct (verify pub h (g_signature g)) eqn:V.
      * rewrite IH by (cbn [length] in L; lia). split.
        -- intros (k & P & q). exists (S k). cbn [firstn nth_error]. split; [constructor; [exists x, pub; auto|exact P]|exact q].
        -- intros ([|k] & P & q & N & Q); cbn [firstn nth_error] in *; [congruence|]. inversion P; subst. eauto 6.
      * split; [discriminate|]. intros ([|k] & P & q & N & Q); cbn [firstn nth_error] in *; [congruence|]. inversion P as [|? ? ? ? (x' & pub' & D' & V') ?]; subst. congruence.
Qed.
Lemma check_every_panics hashes : Forall is_bytes hashes -> forall gs, length gs = length hashes -> check_every decompress verify (map hex_encode hashes) gs = Panic <-> exists g, In g gs /\ no_point g.
Proof.
  unfold no_point. induction 1 as [|h hs Hh F IH]; intros [|g gs] L; try discriminate; cbn [map check_every].
  - split; [discriminate|]. intros (g & [] & _).
  - unfold check_sig. rewrite unhex_encode by exact Hh. destruct (decompress (g_pubkey g)) as [|x pub] eqn:D.
    + rewrite slice_nil. cbn [bind]. split; [|reflexivity]. intros _. exists g. split; [left; reflexivity|exact D].
    + rewrite slice_tail. cbn [bind]. specialize (IH gs ltac:(cbn [length] in L; lia)). destruct (check_every decompress verify (map hex_encode hs) gs) as [r| |]; cbn [bind].
      * split; [discriminate|]. intros (q & [->|I] & Q); [congruence|]. exfalso. discriminate (proj2 IH ltac:(eauto)).
      * split; [discriminate|]. intros (q & [->|I] & Q); [congruence|]. exfalso. discriminate (proj2 IH ltac:(eauto)).
      * split; [|reflexivity]. intros _. destruct (proj1 IH eq_refl) as (q & I & Q). exists q. split; [right; exact I|exact Q].
Qed.
Lemma check_every_not_err hashes : forall gs, check_every decompress verify hashes gs <> Err.
Proof.
  induction hashes as [|h hs IH]; intros [|g gs]; cbn [check_every]; try discriminate. unfold check_sig, slice_from. pose proof (slice_not_err (decompress (g_pubkey g)) 1 (zlen (decompress (g_pubkey g)))) as S. destruct (slice (decompress (g_pubkey g)) 1 (zlen (decompress (g_pubkey g)))); cbn [bind]; [|contradiction|discriminate].
  specialize (IH gs). destruct (check_every decompress verify hs gs); cbn [bind]; [discriminate|contradiction|discriminate].
Qed.
Theorem legacy_panics_iff : forall c sp text gs, coin_ok c -> (forall s p, sp s p <> Err) -> verify_legacy c sp H decompress verify text gs = Panic <->
  exists z locks, wide_ok c z /\ wide_text text z locks /\ length gs = length locks /\
    let hashes := map (wide_sighash H z (map hex_prefix locks)) (seq 0 (length locks)) in
    ((exists k, stops_at hashes gs k) \/
     (Forall2 (passes decompress verify) hashes gs /\ exists g, In g gs /\ sp (g_signature g) (g_pubkey g) = Panic)).
Proof.
  intros c sp text gs C NE. unfold verify_legacy.
  assert (HE : forall z locks, length locks = length (z_ins z) -> wide_ok c z -> legacy_hashes H (set_locks (of_wide z) (map hex_prefix locks)) = Ok (map hex_encode (map (wide_sighash H z (map hex_prefix locks)) (seq 0 (length locks))))).
  { intros z locks L (_ & _ & Ni & No & _). unfold legacy_hashes. f_equal. rewrite map_map. replace (length (l_ins (set_locks (of_wide z) (map hex_prefix locks)))) with (length locks) by (cbn [l_ins set_locks of_wide]; rewrite map_length, combine_length, !map_length; lia).
    apply map_ext. intros k. apply wide_hash_eq; [rewrite map_length; exact L|assumption|assumption]. }
  assert (BH : forall z ls n, Forall is_bytes (map (wide_sighash H z ls) (seq 0 n))) by (intros; apply Forall_map; apply Forall_forall; intros; apply HB).
  assert (LI : forall z (locks : list (list Z)), length locks = length (z_ins z) -> length (l_ins (set_locks (of_wide z) (map hex_prefix locks))) = length locks) by (intros z locks L; cbn [l_ins set_locks of_wide]; rewrite map_length, combine_length, !map_length; lia).
  destruct (decode_raw c text) as [[t locks]| |] eqn:Ed; cbn [bind].
  2: { split; [discriminate|]. intros (z & locks & W & T & _). rewrite (proj2 (decode_raw_iff c text (of_wide z) locks C) (ex_intro _ z (conj W (conj T eq_refl)))) in Ed. discriminate. }
  2: { exfalso. exact (decode_raw_fine _ _ Ed). }
  pose proof Ed as Ed'. apply (decode_raw_iff c text t locks C) in Ed' as (z & W & T & ->). cbv zeta. pose proof T as (t0 & _ & _ & N0 & L & _).
  assert (U : forall z' locks', wide_ok c z' -> wide_text text z' locks' -> z' = z /\ locks' = locks) by (intros z' locks' W' T'; exact (wide_unique c text z' locks' z locks C W' T' W T)).
  rewrite (LI z locks L). destruct (Nat.eqb_spec (length gs) (length locks)) as [Lg|Lg]; cbn [negb].
  2: { rewrite orb_true_r. split; [discriminate|]. intros (z' & locks' & W' & T' & L' & _). destruct (U z' locks' W' T') as [-> ->]. contradiction. }
  replace (match gs with [] => true | _ => false end) with false by (destruct gs; [destruct locks; [contradiction|discriminate]|reflexivity]). cbn [orb].
  rewrite (HE z locks L W). cbn [bind]. set (hashes := map (wide_sighash H z (map hex_prefix locks)) (seq 0 (length locks))).
  assert (Lh : length gs = length hashes) by (unfold hashes; rewrite map_length, seq_length; exact Lg).
  pose proof (check_all_panics hashes (BH _ _ _) gs Lh) as CP. pose proof (check_all_iff H decompress verify HB hashes (BH _ _ _) gs Lh) as CI.
  assert (R : (exists z locks0, wide_ok c z /\ wide_text text z locks0 /\ length gs = length locks0 /\
     ((exists k, stops_at (map (wide_sighash H z (map hex_prefix locks0)) (seq 0 (length locks0))) gs k) \/ (Forall2 (passes decompress verify) (map (wide_sighash H z (map hex_prefix locks0)) (seq 0 (length locks0))) gs /\ exists g, In g gs /\ sp (g_signature g) (g_pubkey g) = Panic))) <->
     ((exists k, stops_at hashes gs k) \/ (Forall2 (passes decompress verify) hashes gs /\ exists g, In g gs /\ sp (g_signature g) (g_pubkey g) = Panic))).
  { split; [intros (z' & locks' & W' & T' & _ & X); destruct (U z' locks' W' T') as [-> ->]; exact X|]. intros X. exists z, locks. auto. }
  rewrite R. clear R U. destruct (check_all decompress verify (map hex_encode hashes) gs) as [[]| |]; cbn [bind].
  - destruct W as (W1 & W2 & Ni & No & W3). rewrite signed_bytes; [|rewrite map_length; exact L|lia|assumption|assumption]. pose proof (mapr_panics (fun g => sp (g_signature g) (g_pubkey g)) gs (fun g => NE _ _)) as MP.
    pose proof (mapr_not_err (fun g => sp (g_signature g) (g_pubkey g)) gs (fun g => NE _ _)) as MN. destruct (mapr (fun g => sp (g_signature g) (g_pubkey g)) gs) as [ss| |]; cbn [bind]; [|contradiction|].
    + split; [discriminate|]. intros [X|[_ X]]; [discriminate (proj2 CP X)|discriminate (proj2 MP X)].
    + split; [|reflexivity]. intros _. right. split; [apply CI; reflexivity|apply MP; reflexivity].
  - split; [discriminate|]. intros [X|[X _]]; [discriminate (proj2 CP X)|discriminate (proj2 CI X)].
  - split; [|reflexivity]. intros _. left. apply CP. reflexivity.
Qed.
(** Aliencoin and Verge. *)
Theorem aliencoin_panics_iff : forall text gs, verify_legacy aliencoin alien_sigpub H decompress verify text gs = Panic <->
  exists z locks, wide_ok aliencoin z /\ wide_text text z locks /\ length gs = length locks /\
    let hashes := map (wide_sighash H z (map hex_prefix locks)) (seq 0 (length locks)) in
    ((exists k, stops_at hashes gs k) \/
     (Forall2 (passes decompress verify) hashes gs /\ exists g, In g gs /\
        ((length (g_signature g) < 32)%nat \/ even_zero (firstn 32 (g_signature g)) \/ ((length (g_signature g) <= 94)%nat /\ even_zero (skipn 32 (g_signature g)))))).
Proof.
  intros text gs. rewrite legacy_panics_iff by (left; reflexivity) || apply alien_not_err. cbv zeta.
  split; intros (z & locks & W & T & L & [X|(P & g & I & X)]); exists z, locks; (split; [exact W|]); (split; [exact T|]); (split; [exact L|]); [left; exact X|right|left; exact X|right]; (split; [exact P|]); exists g; (split; [exact I|]); [apply (alien_any_script_panics_iff _ (g_pubkey g)); exact X|apply alien_any_script_panics_iff; exact X].
Qed.
Theorem verge_panics_iff : forall text gs, verify_legacy verge verge_sigpub H decompress verify text gs = Panic <->
  exists z locks, wide_ok verge z /\ wide_text text z locks /\ length gs = length locks /\
    let hashes := map (wide_sighash H z (map hex_prefix locks)) (seq 0 (length locks)) in
    ((exists k, stops_at hashes gs k) \/
     (Forall2 (passes decompress verify) hashes gs /\ exists g, In g gs /\
        ((length (g_signature g) < 32)%nat \/ all_zero (firstn 32 (g_signature g)) \/ ((length (g_signature g) <= 64)%nat /\ all_zero (skipn 32 (g_signature g)))))).
Proof.
  intros text gs. rewrite legacy_panics_iff by (right; left; reflexivity) || apply verge_not_err. cbv zeta.
  split; intros (z & locks & W & T & L & [X|(P & g & I & X)]); exists z, locks; (split; [exact W|]); (split; [exact T|]); (split; [exact L|]); [left; exact X|right|left; exact X|right]; (split; [exact P|]); exists g; (split; [exact I|]); [apply (verge_script_panics_iff _ (g_pubkey g)); exact X|apply verge_script_panics_iff; exact X].
Qed.
(** Vollar: all signatures are looked at, whatever the checks say. *)
Theorem vollar_panics_iff : forall text gs, verify_vollar H decompress verify text gs = Panic <->
  exists z locks, wide_ok vollar z /\ wide_text text z locks /\ length gs = length locks /\ Forall (fun l => exists b, hex_decode l = Ok b) locks /\
    exists g, In g gs /\ (no_point g \/ (length (g_signature g) < 32)%nat \/ all_zero (firstn 32 (g_signature g)) \/ ((length (g_signature g) <= 64)%nat /\ all_zero (skipn 32 (g_signature g)))).
Proof.
  intros text gs. unfold verify_vollar. assert (C : coin_ok vollar) by (right; right; reflexivity).
  destruct (decode_raw vollar text) as [[t locks]| |] eqn:Ed; cbn [bind].
  2: { split; [discriminate|]. intros (z & locks & W & T & _). rewrite (proj2 (decode_raw_iff vollar text (of_wide z) locks C) (ex_intro _ z (conj W (conj T eq_refl)))) in Ed. discriminate. }
  2: { exfalso. exact (decode_raw_fine _ _ Ed). }
  pose proof Ed as Ed'. apply (decode_raw_iff vollar text t locks C) in Ed' as (z & W & T & ->). cbv zeta. pose proof T as (t0 & _ & _ & N0 & L & _).
  assert (U : forall z' locks', wide_ok vollar z' -> wide_text text z' locks' -> z' = z /\ locks' = locks) by (intros z' locks' W' T'; exact (wide_unique vollar text z' locks' z locks C W' T' W T)).
  assert (Li : length (l_ins (of_wide z)) = length locks) by (cbn [of_wide l_ins]; rewrite map_length; lia). rewrite Li, Nat.eqb_refl. cbn [negb]. rewrite orb_false_r.
  destruct (Nat.eqb_spec (length locks) (length gs)) as [Lg|Lg]; cbn [negb].
  2: { split; [discriminate|]. intros (z' & locks' & W' & T' & L' & _). destruct (U z' locks' W' T') as [-> ->]. congruence. }
  destruct (mapr hex_decode locks) as [ls| |] eqn:El; cbn [bind].
  2: { split; [discriminate|]. intros (z' & locks' & W' & T' & _ & F & _). destruct (U z' locks' W' T') as [-> ->]. apply mapr_some in F as [r F]. congruence. }
  2: { exfalso. revert El. clear. induction locks as [|l ls IH]; cbn [mapr]; [discriminate|]. pose proof (hex_decode_fine l). destruct (hex_decode l); cbn [bind]; [|discriminate|contradiction]. destruct (mapr hex_decode ls); cbn [bind]; [discriminate|discriminate|contradiction]. }
  assert (F : Forall (fun l => exists b, hex_decode l = Ok b) locks) by (apply mapr_some; eauto).
  pose proof El as El'. apply mapr_forall2 in El'. apply Forall2_length' in El'.
  rewrite (wide_vhash_eq H decompress verify HB); [|intros Q; rewrite Q in L; destruct locks; [contradiction|discriminate]|lia]. cbn [bind].
  set (hashes := map (wide_vhash H z ls) (seq 0 (length ls))). assert (Lh : length gs = length hashes) by (unfold hashes; rewrite map_length, seq_length; lia).
  assert (BH : Forall is_bytes hashes) by (unfold hashes; apply Forall_map; apply Forall_forall; intros k _; unfold wide_vhash; destruct (nth k (z_ins z) ([], [], [])) as [[id v] s]; apply HB).
  pose proof (check_every_panics hashes BH gs Lh) as CP. pose proof (check_every_not_err (map hex_encode hashes) gs) as CN.
  assert (R : forall P : Prop, (P <-> exists g, In g gs /\ (no_point g \/ (length (g_signature g) < 32)%nat \/ all_zero (firstn 32 (g_signature g)) \/ ((length (g_signature g) <= 64)%nat /\ all_zero (skipn 32 (g_signature g))))) ->
    (P <-> exists z locks, wide_ok vollar z /\ wide_text text z locks /\ length gs = length locks /\ Forall (fun l => exists b, hex_decode l = Ok b) locks /\
      exists g, In g gs /\ (no_point g \/ (length (g_signature g) < 32)%nat \/ all_zero (firstn 32 (g_signature g)) \/ ((length (g_signature g) <= 64)%nat /\ all_zero (skipn 32 (g_signature g)))))).
  { intros P HP. rewrite HP. split; [intros X; exists z, locks; auto|]. intros (z' & locks' & _ & _ & _ & _ & X). exact X. }
  apply R. clear R U. destruct (check_every decompress verify (map hex_encode hashes) gs) as [pass| |]; cbn [bind]; [|contradiction|].
  - destruct W as (W1 & W2 & Ni & No & W3). rewrite signed_bytes by (lia || assumption). pose proof (mapr_panics (fun g => verge_sigpub (g_signature g) (g_pubkey g)) gs (fun g => verge_not_err _ _)) as MP.
    pose proof (mapr_not_err (fun g => verge_sigpub (g_signature g) (g_pubkey g)) gs (fun g => verge_not_err _ _)) as MN. destruct (mapr (fun g => verge_sigpub (g_signature g) (g_pubkey g)) gs) as [ss| |]; cbn [bind]; [|contradiction|].
    + split; [discriminate|]. intros (g & I & [X|X]); [discriminate (proj2 CP (ex_intro _ g (conj I X)))|]. apply (verge_script_panics_iff _ (g_pubkey g)) in X. discriminate (proj2 MP (ex_intro _ g (conj I X))).
    + split; [|reflexivity]. intros _. destruct (proj1 MP eq_refl) as (g & I & X). exists g. split; [exact I|]. right. apply (verge_script_panics_iff _ (g_pubkey g)). exact X.
  - split; [|reflexivity]. intros _. destruct (proj1 CP eq_refl) as (g & I & X). exists g. split; [exact I|]. left. exact X.
Qed.
End Panics.

(** ** Examples *)
(** A text with one input; a key that cannot be expanded, and a signature whose first half is zero. *)
Definition ex_wide : wide := {| z_head := zeros 5; z_ins := [(zeros 32, zeros 4, zeros 4)]; z_outs := []; z_trail := [] |}.
Definition ex_lite_text : list Z := hex_encode (wlay ex_wide [[0]]) ++ [58].
Example ex_lite_wide : wide_ok vollar ex_wide /\ wide_text ex_lite_text ex_wide [[]].
Proof.
  split; [repeat split; try (vm_compute; discriminate); constructor; [repeat split|constructor]|]. exists (hex_encode (wlay ex_wide [[0]])). split; [reflexivity|]. split; [constructor; [apply hex_no_colon|constructor; [intros []|constructor]]|]. split; [discriminate|]. split; reflexivity.
Qed.
Example ex_vollar_panics : verify_vollar toy_hash (fun _ => []) (fun _ _ _ => true) ex_lite_text [{| g_pubkey := []; g_signature := [] |}] = Panic /\
  verify_vollar toy_hash (fun p => 4 :: p) (fun _ _ _ => false) ex_lite_text [{| g_pubkey := []; g_signature := zeros 32 ++ repeat 1 32 |}] = Panic /\
  exists r, verify_vollar toy_hash (fun p => 4 :: p) (fun _ _ _ => false) ex_lite_text [{| g_pubkey := []; g_signature := repeat 1 64 |}] = Ok r.
Proof.
  split; [|split]; [apply vollar_panics_iff|apply vollar_panics_iff|].
  - intros b. apply be_bytes_is_bytes.
  - exists ex_wide, [[]]. destruct ex_lite_wide as [W T]. split; [exact W|]. split; [exact T|]. split; [reflexivity|]. split; [constructor; [exists []; reflexivity|constructor]|]. eexists. split; [left; reflexivity|]. left. reflexivity.
  - intros b. apply be_bytes_is_bytes.
  - exists ex_wide, [[]]. destruct ex_lite_wide as [W T]. split; [exact W|]. split; [exact T|]. split; [reflexivity|]. split; [constructor; [exists []; reflexivity|constructor]|]. eexists. split; [left; reflexivity|]. right. right. left. unfold all_zero. cbn [g_signature firstn app zeros repeat]. repeat constructor.
  - eexists. vm_compute. reflexivity.
Qed.
(** Aliencoin: every other byte zero is enough, in a second part of up to 62 bytes. *)
Example ex_alien_panics : alien_sigpub (concat (repeat [0; 7] 16) ++ repeat 1 32) [] = Panic /\ alien_sigpub (repeat 1 32 ++ concat (repeat [0; 7] 31)) [] = Panic /\
  exists r, alien_sigpub (repeat 1 32 ++ concat (repeat [0; 7] 32)) [] = Ok r.
Proof. split; [reflexivity|]. split; [reflexivity|]. eexists. vm_compute. reflexivity. Qed.
Print Assumptions verge_script_panics_iff.
Print Assumptions alien_any_script_panics_iff.
Print Assumptions legacy_panics_iff.
Print Assumptions aliencoin_panics_iff.
Print Assumptions verge_panics_iff.
Print Assumptions vollar_panics_iff.
