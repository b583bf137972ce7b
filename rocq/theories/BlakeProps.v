(** C61, C88: the streaming interface computes BLAKE of the concatenation of the pieces. *)
From Coq Require Import String ZArith List Bool Lia ZifyBool ZifyNat.
From Verif Require Import Go GoFacts Codes BlakeModel BlakeSpec BlakeProofs.
Import ListNotations.
Open Scope Z_scope.
Ltac Zify.zify_post_hook ::= idtac.

(** *** Blocks *)
Definition rest (l : bytes) : bytes := skipn (64 * (length l / 64)) l.
Lemma skipn_add {A} i : forall j (l : list A), skipn j (skipn i l) = skipn (i + j) l.
Proof. induction i as [|i IH]; intros j l; [reflexivity|]. destruct l; [rewrite !skipn_nil; reflexivity|]. cbn [skipn Nat.add]. apply IH. Qed.
Lemma take_blocks_add n : forall k l, take_blocks (n + k) l = take_blocks n l ++ take_blocks k (skipn (64 * n) l).
Proof.
  induction n as [|n IH]; intros k l; [rewrite Nat.mul_0_r; reflexivity|]. cbn [Nat.add take_blocks app]. rewrite IH. rewrite skipn_add. replace (64 + 64 * n)%nat with (64 * S n)%nat by lia. reflexivity.
Qed.
Lemma take_blocks_prefix n : forall a c, (64 * n <= length a)%nat -> take_blocks n (a ++ c) = take_blocks n a.
Proof.
  induction n as [|n IH]; intros a c L; [reflexivity|]. cbn [take_blocks]. rewrite firstn_app, skipn_app. replace (64 - length a)%nat with 0%nat by lia.
  rewrite firstn_O, app_nil_r. f_equal. change (skipn 0 c) with c. apply IH. rewrite skipn_length. lia.
Qed.
Lemma div64 n : (64 * (n / 64) <= n < 64 * (n / 64) + 64)%nat.
Proof. pose proof (Nat.div_mod n 64). pose proof (Nat.mod_upper_bound n 64). lia. Qed.
Lemma rest_length a : length (rest a) = (length a - 64 * (length a / 64))%nat.
Proof. unfold rest. apply skipn_length. Qed.
Lemma rest_short a : (length (rest a) < 64)%nat.
Proof. rewrite rest_length. pose proof (div64 (length a)). lia. Qed.
Lemma div_split a c : (length (a ++ c) / 64 = length a / 64 + length (rest a ++ c) / 64)%nat.
Proof.
  rewrite !app_length, rest_length. pose proof (div64 (length a)). rewrite Nat.add_comm with (n := (length a / 64)%nat). rewrite <- Nat.div_add by lia. f_equal. lia.
Qed.
Lemma skipn_rest a c : skipn (64 * (length a / 64)) (a ++ c) = rest a ++ c.
Proof. rewrite skipn_app. pose proof (div64 (length a)). replace (64 * (length a / 64) - length a)%nat with 0%nat by lia. reflexivity. Qed.
Lemma blocks_app a c : blocks (a ++ c) = blocks a ++ blocks (rest a ++ c).
Proof. unfold blocks. rewrite div_split, take_blocks_add, skipn_rest. f_equal. apply take_blocks_prefix. pose proof (div64 (length a)). lia. Qed.
Lemma rest_app a c : rest (a ++ c) = rest (rest a ++ c).
Proof. unfold rest at 1. rewrite div_split. rewrite Nat.mul_add_distr_l, <- skipn_add, skipn_rest. reflexivity. Qed.
Lemma blocks_short a : (length a < 64)%nat -> blocks a = [] /\ rest a = a.
Proof. intros L. unfold blocks, rest. rewrite (Nat.div_small (length a)) by exact L. split; reflexivity. Qed.
Lemma blocks_one a : length a = 64%nat -> blocks a = [a] /\ rest a = [].
Proof. intros L. unfold blocks, rest. rewrite L. change (64 / 64)%nat with 1%nat. cbn [take_blocks]. rewrite firstn_all2 by lia. split; [reflexivity|]. apply skipn_all2. lia. Qed.
Lemma blocks_rest a : concat (blocks a) ++ rest a = a.
Proof.
  unfold blocks, rest. generalize (length a / 64)%nat. intros n. revert a. induction n as [|n IH]; intros a; [reflexivity|]. cbn [take_blocks concat].
  rewrite <- app_assoc. replace (64 * S n)%nat with (64 + 64 * n)%nat by lia. rewrite <- skipn_add, IH. apply firstn_skipn.
Qed.
Lemma firstn_is_bytes n l : is_bytes l -> is_bytes (firstn n l).
Proof. intros B. apply is_bytes_forall. intros x X. apply (proj1 (is_bytes_forall l) B). rewrite <- (firstn_skipn n l). apply in_or_app. left. exact X. Qed.
Lemma skipn_is_bytes n l : is_bytes l -> is_bytes (skipn n l).
Proof. intros B. apply is_bytes_forall. intros x X. apply (proj1 (is_bytes_forall l) B). rewrite <- (firstn_skipn n l). apply in_or_app. right. exact X. Qed.
Lemma take_blocks_good n : forall l, is_bytes l -> (64 * n <= length l)%nat -> Forall (fun p => is_bytes p /\ length p = 64%nat) (take_blocks n l).
Proof.
  induction n as [|n IH]; intros l B L; [constructor|]. cbn [take_blocks]. constructor; [split; [apply firstn_is_bytes; exact B|rewrite firstn_length; lia]|].
  apply IH; [apply skipn_is_bytes; exact B|rewrite skipn_length; lia].
Qed.

(** *** State of the digest *)
Record St (d : digest) (size : Z) (h s : list Z) (t : Z) (nl : bool) (b : bytes) : Prop := {
  St_size : d_size d = size; St_h : d_h d = h; St_s : d_s d = s; St_t : d_t d = t; St_n : d_nullt d = nl;
  St_x : length (d_x d) = 64%nat; St_nx : d_nx d = length b; St_b : firstn (length b) (d_x d) = b; St_l : (length b < 64)%nat }.
Definition step (s : list Z) (nl : bool) (ht : list Z * Z) (p : bytes) : list Z * Z := let t := (snd ht + 512) mod 2 ^ 64 in (compress (fst ht) s t nl p, t).
Lemma words_prefix p : (64 <= length p)%nat -> words (firstn 64 p) = words p.
Proof.
  intros L. unfold words. apply map_ext_in. intros i I. apply in_seq in I. unfold get.
  assert (E : forall j, (j < 64)%nat -> nth j (firstn 64 p) 0 = nth j p 0).
  { intros j J. rewrite <- (firstn_skipn 64 p) at 2. rewrite app_nth1 by (rewrite firstn_length; lia). reflexivity. }
  rewrite !E by lia. reflexivity.
Qed.
Lemma compress_prefix h s t nl p : (64 <= length p)%nat -> compress h s t nl p = compress h s t nl (firstn 64 p).
Proof. intros L. unfold compress. rewrite words_prefix by exact L. reflexivity. Qed.
Lemma block_loop_ok n : forall fuel d p, length p = (64 * n)%nat -> (n <= fuel)%nat ->
  block_loop fuel d p = with_ht d (fst (fold_left (step (d_s d) (d_nullt d)) (take_blocks n p) (d_h d, d_t d))) (snd (fold_left (step (d_s d) (d_nullt d)) (take_blocks n p) (d_h d, d_t d))).
Proof.
  induction n as [|n IH]; intros fuel d p L F.
  - destruct p; [|cbn in L; lia]. destruct d. destruct fuel; reflexivity.
  - destruct fuel as [|fuel]; [lia|]. cbn [block_loop]. replace (64 <=? length p)%nat with true by lia. cbv zeta.
    rewrite IH; [|rewrite skipn_length; lia|lia]. cbn [take_blocks fold_left]. unfold with_ht. cbn [d_size d_h d_s d_t d_nullt d_x d_nx].
    unfold step at 2 4. cbn [fst snd]. rewrite (compress_prefix _ _ _ _ p) by lia. reflexivity.
Qed.
Lemma block_ok n d p : length p = (64 * n)%nat ->
  block d p = with_ht d (fst (fold_left (step (d_s d) (d_nullt d)) (take_blocks n p) (d_h d, d_t d))) (snd (fold_left (step (d_s d) (d_nullt d)) (take_blocks n p) (d_h d, d_t d))).
Proof. intros L. apply block_loop_ok; [exact L|lia]. Qed.

Definition write2 (d : digest) (p : list Z) : digest :=
  let '(d, p) := if (64 <=? length p)%nat then let n := (length p / 64 * 64)%nat in (block d (firstn n p), skipn n p) else (d, p) in
  if (0 <? length p)%nat then let '(x, k) := copy_at (d_x d) 0 p in with_x d x k else d.
Lemma write2_ok d size h s t nl p : St d size h s t nl [] ->
  St (write2 d p) size (fst (fold_left (step s nl) (blocks p) (h, t))) s (snd (fold_left (step s nl) (blocks p) (h, t))) nl (rest p).
Proof.
  intros [E1 E2 E3 E4 E5 Lx En Eb El]. unfold write2. pose proof (div64 (length p)) as D.
  assert (K : forall d1 q, d_size d1 = size -> d_s d1 = s -> d_nullt d1 = nl -> length (d_x d1) = 64%nat -> d_nx d1 = 0%nat -> (length q < 64)%nat ->
    St (if (0 <? length q)%nat then let '(x, k) := copy_at (d_x d1) 0 q in with_x d1 x k else d1) size (d_h d1) s (d_t d1) nl q).
  { intros d1 q A1 A2 A3 A4 A5 L. destruct (Nat.ltb_spec 0 (length q)) as [L0|L0].
    - unfold copy_at. rewrite A4. replace (Nat.min (64 - 0) (length q)) with (length q) by lia. rewrite firstn_all. cbn [firstn app Nat.add].
      split; try assumption; try reflexivity; unfold with_x; cbn [d_x d_nx d_h d_t d_s d_size d_nullt].
      + rewrite app_length, skipn_length. lia.
      + rewrite firstn_app, Nat.sub_diag, firstn_all, firstn_O, app_nil_r. reflexivity.
    - destruct q; [|cbn [length] in L0; lia]. split; try assumption; reflexivity || (cbn; lia). }
  destruct (Nat.leb_spec 64 (length p)) as [L|L].
  - cbv zeta. assert (Lf : length (firstn (length p / 64 * 64) p) = (64 * (length p / 64))%nat) by (rewrite firstn_length; lia).
    rewrite (block_ok (length p / 64) d _ Lf).
    assert (Et : take_blocks (length p / 64) (firstn (length p / 64 * 64) p) = blocks p).
    { unfold blocks. generalize Lf. generalize (length p / 64)%nat. intros n Ln. rewrite <- (take_blocks_prefix n _ (skipn (n * 64) p)) by lia. rewrite firstn_skipn. reflexivity. }
    rewrite Et, E2, E3, E4, E5. replace (skipn (length p / 64 * 64) p) with (rest p) by (unfold rest; f_equal; lia).
    set (ht := fold_left (step s nl) (blocks p) (h, t)). apply (K (with_ht d (fst ht) (snd ht)) (rest p)); try assumption. apply rest_short.
  - destruct (blocks_short p L) as [-> ->]. cbn [fold_left fst snd]. rewrite <- E2, <- E4. apply K; assumption.
Qed.
Lemma write_ok d size h s t nl b p : St d size h s t nl b ->
  St (write d p) size (fst (fold_left (step s nl) (blocks (b ++ p)) (h, t))) s (snd (fold_left (step s nl) (blocks (b ++ p)) (h, t))) nl (rest (b ++ p)).
Proof.
  intros S0. destruct b as [|b0 b'].
  - replace (write d p) with (write2 d p); [apply write2_ok; exact S0|]. unfold write. rewrite (St_nx _ _ _ _ _ _ _ S0). reflexivity.
  - set (b := b0 :: b') in *. assert (Lb : (0 < length b)%nat) by (unfold b; cbn [length]; lia). clearbody b. pose proof S0 as [E1 E2 E3 E4 E5 Lx En Eb El].
    assert (W : write d p = let n := if (64 - d_nx d <? length p)%nat then (64 - d_nx d)%nat else length p in
      let '(x, k) := copy_at (d_x d) (d_nx d) p in let d := with_x d x (d_nx d + k) in
      write2 (if (d_nx d =? 64)%nat then with_nx (block d (d_x d)) 0 else d) (skipn n p)).
    { unfold write. rewrite En. replace (0 <? length b)%nat with true by lia. cbv zeta. destruct (copy_at (d_x d) (length b) p) as [x k]. reflexivity. }
    rewrite W. clear W. cbv zeta. rewrite En. unfold copy_at. rewrite Lx. cbn [fst snd].
    destruct (Nat.lt_ge_cases (length p) (64 - length b)) as [L|L].
    + replace (64 - length b <? length p)%nat with false by lia. replace (Nat.min (64 - length b) (length p)) with (length p) by lia. rewrite skipn_all, firstn_all, Eb.
      cbn [d_nx with_x]. replace (length b + length p =? 64)%nat with false by lia.
      destruct (blocks_short (b ++ p)) as [-> ->]; [rewrite app_length; lia|]. cbn [fold_left fst snd].
      change (write2 ?d0 []) with d0. split; try assumption; unfold with_x; cbn [d_x d_nx d_h d_t d_s d_size d_nullt].
      * rewrite !app_length, skipn_length. lia.
      * rewrite app_length. reflexivity.
      * rewrite app_assoc. rewrite firstn_app, Nat.sub_diag, firstn_all, firstn_O, app_nil_r. reflexivity.
      * rewrite app_length. lia.
    + replace (Nat.min (64 - length b) (length p)) with (64 - length b)%nat by lia. cbn [d_nx with_x]. replace (length b + (64 - length b) =? 64)%nat with true by lia.
      replace (if (64 - length b <? length p)%nat then (64 - length b)%nat else length p) with (64 - length b)%nat by (destruct (Nat.ltb_spec (64 - length b) (length p)); lia).
      rewrite Eb. rewrite (skipn_all2 (d_x d)) by lia. rewrite app_nil_r. set (f := b ++ firstn (64 - length b) p).
      assert (Lf : length f = 64%nat) by (unfold f; rewrite app_length, firstn_length; lia).
      assert (Ef : b ++ p = f ++ skipn (64 - length b) p) by (unfold f; rewrite <- app_assoc, firstn_skipn; reflexivity).
      rewrite Ef, blocks_app, rest_app. destruct (blocks_one f Lf) as [Ebf Erf]. rewrite Ebf, Erf. cbn [app]. cbn [fold_left]. unfold step at 2 4. cbn [fst snd].
      apply write2_ok. cbn [d_x]. rewrite (block_ok 1) by exact Lf. cbn [take_blocks fold_left]. rewrite (firstn_all2 f) by lia. unfold step. cbn [fst snd d_h d_s d_t d_nullt with_x with_nx with_ht d_size d_x d_nx]. rewrite E2, E3, E4, E5.
      split; cbn [d_h d_s d_t d_nullt with_x with_nx with_ht d_size d_x d_nx length firstn]; try assumption; reflexivity || lia.
Qed.

Lemma writes_ok chunks : forall d size h s t nl b, St d size h s t nl b ->
  St (fold_left write chunks d) size (fst (fold_left (step s nl) (blocks (b ++ concat chunks)) (h, t))) s (snd (fold_left (step s nl) (blocks (b ++ concat chunks)) (h, t))) nl (rest (b ++ concat chunks)).
Proof.
  induction chunks as [|p chunks IH]; intros d size h s t nl b S0; cbn [fold_left concat].
  - rewrite app_nil_r. destruct (blocks_short b (St_l _ _ _ _ _ _ _ S0)) as [-> ->]. exact S0.
  - apply (write_ok _ _ _ _ _ _ _ p) in S0. apply IH in S0. rewrite app_assoc, (rest_app (b ++ p)), (blocks_app (b ++ p)). rewrite fold_left_app.
    destruct (fold_left (step s nl) (blocks (b ++ p)) (h, t)) as [h1 t1]. exact S0.
Qed.

(** *** Chain values *)
Definition good_h (h : list Z) : Prop := length h = 8%nat /\ is32s h.
Definition good_s (s : list Z) : Prop := length s = 4%nat /\ is32s s.
Lemma step_eq s nl h t p : good_h h -> good_s s -> is_bytes p -> length p = 64%nat ->
  step s nl (h, t) p = (blake_compress h s (if nl then 0 else (t + 512) mod 2 ^ 64) p, (t + 512) mod 2 ^ 64) /\ good_h (fst (step s nl (h, t) p)).
Proof.
  intros [Lh Fh] [Ls Fs] B L. unfold step. cbn [fst snd].
  destruct (compress_eq h s ((t + 512) mod 2 ^ 64) nl p Lh Fh Ls Fs) as (E1 & E2 & E3); [apply Z.mod_pos_bound; lia|exact B|lia|]. rewrite E1 in *. split; [reflexivity|split; assumption].
Qed.
Lemma chain_app s len a : forall i h c, chain s len i h (a ++ c) = chain s len (i + zlen a) (chain s len i h a) c.
Proof.
  induction a as [|p a IH]; intros i h c; cbn [app chain]; [rewrite Z.add_0_r; reflexivity|]. rewrite IH. rewrite zlen_cons. f_equal. lia.
Qed.
Lemma chain_steps s len bs : good_s s -> Forall (fun p => is_bytes p /\ length p = 64%nat) bs -> forall i h, good_h h -> 0 <= i -> 64 * (i + zlen bs) <= len ->
  fold_left (step s false) bs (h, 512 * i mod 2 ^ 64) = (chain s len i h bs, 512 * (i + zlen bs) mod 2 ^ 64) /\ good_h (chain s len i h bs).
Proof.
  intros Gs F. induction F as [|p bs [B L] F IH]; intros i h Gh I Le; cbn [fold_left chain].
  - change (zlen (@nil bytes)) with 0. rewrite Z.add_0_r. split; [reflexivity|exact Gh].
  - rewrite zlen_cons in *. pose proof (zlen_nonneg bs). destruct (step_eq s false h (512 * i mod 2 ^ 64) p Gh Gs B L) as [E G1]. rewrite E in *. cbn [fst] in G1.
    assert (Ec : (512 * i mod 2 ^ 64 + 512) mod 2 ^ 64 = 512 * (i + 1) mod 2 ^ 64) by (rewrite Z.add_mod_idemp_l by lia; f_equal; lia). rewrite Ec in *.
    assert (Ek : counter len i = 512 * (i + 1) mod 2 ^ 64). { unfold counter. replace (64 * i <? len) with true by lia. f_equal. lia. }
    rewrite Ek. replace (i + (1 + zlen bs)) with (i + 1 + zlen bs) by lia. apply IH; [exact G1|lia|lia].
Qed.

(** *** Padding *)
Lemma write_short d size h s t nl b q : St d size h s t nl b -> (length b + length q < 64)%nat -> St (write d q) size h s t nl (b ++ q).
Proof.
  intros S0 L. apply (write_ok _ _ _ _ _ _ _ q) in S0. destruct (blocks_short (b ++ q)) as [E1 E2]; [rewrite app_length; lia|]. rewrite E1, E2 in S0. exact S0.
Qed.
Lemma write_full d size h s t nl b q : St d size h s t nl b -> (length b + length q = 64)%nat ->
  St (write d q) size (fst (step s nl (h, t) (b ++ q))) s (snd (step s nl (h, t) (b ++ q))) nl [].
Proof.
  intros S0 L. apply (write_ok _ _ _ _ _ _ _ q) in S0. destruct (blocks_one (b ++ q)) as [E1 E2]; [rewrite app_length; lia|]. rewrite E1, E2 in S0. exact S0.
Qed.
Lemma less_ok d size h s t nl b k : St d size h s t nl b -> St (less_t d k) size h s ((t - k) mod 2 ^ 64) nl b.
Proof. intros [E1 E2 E3 E4 E5 Lx En Eb El]. split; unfold less_t, with_ht; cbn [d_size d_h d_s d_t d_nullt d_x d_nx]; congruence || assumption. Qed.
Lemma null_ok d size h s t nl b : St d size h s t nl b -> St (with_null d) size h s t true b.
Proof. intros [E1 E2 E3 E4 E5 Lx En Eb El]. split; unfold with_null; cbn [d_size d_h d_s d_t d_nullt d_x d_nx]; congruence || assumption. Qed.
Definition ebit (size : Z) : Z := if size =? 224 then 0 else 1.
Definition out_words (size : Z) (h : list Z) : bytes := flat_map (fun w => be_bytes 4 w) (firstn (Z.to_nat (size / 32)) h).
(** The last blocks. *)
Definition finish (size : Z) (s h : list Z) (t : Z) (b : bytes) : list Z :=
  let len := be_bytes 8 ((t + Z.of_nat (length b) * 8) mod 2 ^ 64) in
  let bits := (t + Z.of_nat (length b) * 8) mod 2 ^ 64 in
  if (length b =? 55)%nat then blake_compress h s bits (b ++ [0x80 + ebit size] ++ len)
  else if (length b <? 55)%nat then blake_compress h s (if (length b =? 0)%nat then 0 else bits) (b ++ (0x80 :: zeros (54 - length b)) ++ [ebit size] ++ len)
  else blake_compress (blake_compress h s bits (b ++ 0x80 :: zeros (63 - length b))) s 0 (zeros 55 ++ [ebit size] ++ len).
Lemma firstn_zeros n : forall k, (n <= k)%nat -> firstn n (zeros k) = zeros n.
Proof. induction n as [|n IH]; intros [|k] L; try reflexivity; try lia. cbn [zeros repeat firstn]. f_equal. apply IH. lia. Qed.
Lemma zeros_len n : length (zeros n) = n.
Proof. apply repeat_length. Qed.
Lemma be_len n v : length (be_bytes n v) = n.
Proof. pose proof (zlen_be_bytes n v). unfold zlen in *. lia. Qed.
Lemma mod_sub_add t k j : ((t - k) mod 2 ^ 64 + j) mod 2 ^ 64 = (t + (j - k)) mod 2 ^ 64.
Proof. rewrite Z.add_mod_idemp_l by lia. f_equal. lia. Qed.
Lemma sub_sub t k j : ((t - k) mod 2 ^ 64 - j) mod 2 ^ 64 = (t - (k + j)) mod 2 ^ 64.
Proof. rewrite Zminus_mod_idemp_l. f_equal. lia. Qed.
Lemma size_shift size : Z.shiftr size 5 = size / 32.
Proof. rewrite Z.shiftr_div_pow2 by lia. reflexivity. Qed.
Lemma byte1 x : 0 <= x < 256 -> is_bytes [x].
Proof. intros X. constructor; [exact X|constructor]. Qed.
Lemma sum_ok d size h s t b : St d size h s t false b -> (size = 224 \/ size = 256) -> good_h h -> good_s s -> is_bytes b -> 0 <= t < 2 ^ 64 -> sum d = out_words size (finish size s h t b).
Proof.
  intros S0 Hsz Gh Gs B T. unfold sum. rewrite (St_nx _ _ _ _ _ _ _ S0), (St_t _ _ _ _ _ _ _ S0). pose proof (St_l _ _ _ _ _ _ _ S0) as Lb.
  set (L := be_bytes 8 ((t + Z.of_nat (length b) * 8) mod 2 ^ 64)). assert (LL : length L = 8%nat) by apply be_len. assert (BL : is_bytes L) by apply be_bytes_is_bytes.
  assert (Out : forall d1 h1 t1 nl, St d1 size h1 s t1 nl [] -> flat_map (fun s0 => be_bytes 4 s0) (firstn (Z.to_nat (Z.shiftr (d_size d1) 5)) (d_h d1)) = out_words size h1).
  { intros d1 h1 t1 nl [E1 E2 _ _ _ _ _ _ _]. rewrite E1, E2, size_shift. reflexivity. }
  assert (He : 0 <= ebit size <= 1) by (unfold ebit; destruct (size =? 224); lia).
  assert (Wlast : forall d1 h1 t1 nl c, St d1 size h1 s t1 nl c -> (length c < 63)%nat -> St (if d_size d1 =? 224 then write d1 [0x00] else write d1 [0x01]) size h1 s t1 nl (c ++ [ebit size])).
  { intros d1 h1 t1 nl c S1 L1. rewrite (St_size _ _ _ _ _ _ _ S1). unfold ebit. destruct (size =? 224); apply write_short; try assumption; cbn [length]; lia. }
  unfold finish. fold L. destruct (Nat.eqb_spec (length b) 55) as [E55|E55].
  - assert (S1 : St (if d_size (less_t d 8) =? 224 then write (less_t d 8) [0x80] else write (less_t d 8) [0x81]) size h s ((t - 8) mod 2 ^ 64) false (b ++ [0x80 + ebit size])).
    { apply (less_ok _ _ _ _ _ _ _ 8) in S0. rewrite (St_size _ _ _ _ _ _ _ S0). unfold ebit. destruct (size =? 224); apply write_short; try assumption; cbn [length]; lia. }
    apply (less_ok _ _ _ _ _ _ _ 64) in S1. apply (write_full _ _ _ _ _ _ _ L) in S1; [|rewrite app_length; cbn [length]; lia].
    rewrite <- app_assoc in S1. rewrite sub_sub in S1.
    destruct (step_eq s false h ((t - (8 + 64)) mod 2 ^ 64) (b ++ [0x80 + ebit size] ++ L) Gh Gs) as [E _].
    { apply is_bytes_app. split; [exact B|]. apply is_bytes_app. split; [apply byte1; lia|exact BL]. }
    { rewrite !app_length. cbn [length]. lia. }
    rewrite E in S1. cbn [fst snd] in S1. apply Out in S1. etransitivity; [exact S1|]. f_equal. f_equal. rewrite mod_sub_add. f_equal. lia.
  - destruct (Nat.ltb_spec (length b) 55) as [L55|L55].
    + set (nl := (length b =? 0)%nat).
      assert (S1 : St (if nl then with_null d else d) size h s t nl b) by (unfold nl; destruct (length b =? 0)%nat; [apply (null_ok _ _ _ _ _ _ _ S0)|exact S0]).
      apply (less_ok _ _ _ _ _ _ _ (440 - Z.of_nat (length b) * 8)) in S1. assert (En := St_nx _ _ _ _ _ _ _ S1).
      apply (write_short _ _ _ _ _ _ _ (0x80 :: zeros (54 - length b))) in S1; [|cbn [length]; rewrite zeros_len; lia].
      apply Wlast in S1; [|rewrite app_length; cbn [length]; rewrite zeros_len; lia].
      apply (less_ok _ _ _ _ _ _ _ 8) in S1. apply (less_ok _ _ _ _ _ _ _ 64) in S1. apply (write_full _ _ _ _ _ _ _ L) in S1; [|rewrite !app_length; cbn [length]; rewrite zeros_len; lia].
      rewrite <- !app_assoc in S1. rewrite !sub_sub in S1.
      destruct (step_eq s nl h ((t - (440 - Z.of_nat (length b) * 8 + (8 + 64))) mod 2 ^ 64) (b ++ (0x80 :: zeros (54 - length b)) ++ [ebit size] ++ L) Gh Gs) as [E _].
      { apply is_bytes_app. split; [exact B|]. apply is_bytes_app. split; [constructor; [unfold is_byte; lia|apply is_bytes_zeros]|]. apply is_bytes_app. split; [apply byte1; lia|exact BL]. }
      { rewrite !app_length. cbn [length]. rewrite zeros_len. lia. }
      rewrite E in S1. cbn [fst snd] in S1. apply Out in S1.
      cbv zeta. rewrite En. replace (firstn (55 - length b) pad) with (0x80 :: zeros (54 - length b)).
      2:{ replace (55 - length b)%nat with (S (54 - length b)) by lia. unfold pad. cbn [firstn]. rewrite firstn_zeros by lia. reflexivity. }
      etransitivity; [exact S1|]. f_equal. f_equal. unfold nl. destruct (length b =? 0)%nat; [reflexivity|]. rewrite mod_sub_add. f_equal. lia.
    + assert (S1 := S0). apply (less_ok _ _ _ _ _ _ _ (512 - Z.of_nat (length b) * 8)) in S1. assert (En := St_nx _ _ _ _ _ _ _ S1).
      apply (write_full _ _ _ _ _ _ _ (0x80 :: zeros (63 - length b))) in S1; [|cbn [length]; rewrite zeros_len; lia].
      destruct (step_eq s false h ((t - (512 - Z.of_nat (length b) * 8)) mod 2 ^ 64) (b ++ 0x80 :: zeros (63 - length b)) Gh Gs) as [E G1].
      { apply is_bytes_app. split; [exact B|]. constructor; [unfold is_byte; lia|apply is_bytes_zeros]. }
      { rewrite app_length. cbn [length]. rewrite zeros_len. lia. }
      rewrite E in *. cbn [fst snd] in *. rewrite mod_sub_add in *. replace (t + (512 - (512 - Z.of_nat (length b) * 8))) with (t + Z.of_nat (length b) * 8) in * by lia.
      set (h1 := blake_compress h s _ _) in *. clearbody h1. set (t1 := (t + Z.of_nat (length b) * 8) mod 2 ^ 64) in *.
      apply (less_ok _ _ _ _ _ _ _ 440) in S1. apply (write_short _ _ _ _ _ _ _ (zeros 55)) in S1; [|cbn [length]; rewrite zeros_len; lia].
      cbn [app] in S1. apply null_ok in S1. apply Wlast in S1; [|rewrite zeros_len; lia].
      apply (less_ok _ _ _ _ _ _ _ 8) in S1. apply (less_ok _ _ _ _ _ _ _ 64) in S1. apply (write_full _ _ _ _ _ _ _ L) in S1; [|rewrite !app_length; cbn [length]; rewrite zeros_len; lia].
      rewrite <- !app_assoc in S1. rewrite !sub_sub in S1.
      destruct (step_eq s true h1 ((t1 - (440 + (8 + 64))) mod 2 ^ 64) (zeros 55 ++ [ebit size] ++ L) G1 Gs) as [E' _].
      { apply is_bytes_app. split; [apply is_bytes_zeros|]. apply is_bytes_app. split; [apply byte1; lia|exact BL]. }
      { rewrite !app_length. cbn [length]. rewrite zeros_len. lia. }
      rewrite E' in S1. cbn [fst snd] in S1. apply Out in S1.
      cbv zeta. rewrite En. replace (firstn (64 - length b) pad) with (0x80 :: zeros (63 - length b)).
      2:{ replace (64 - length b)%nat with (S (63 - length b)) by lia. unfold pad. cbn [firstn]. rewrite firstn_zeros by lia. reflexivity. }
      exact S1.
Qed.

(** The last blocks are those of the padding. *)
Lemma finish_spec size s h m : 0 <= zlen m ->
  finish size s h (512 * zlen (blocks m) mod 2 ^ 64) (rest m) = chain s (zlen m) (zlen (blocks m)) h (blocks (rest m ++ padding (ebit size) (zlen m))).
Proof.
  intros _. pose proof (div64 (length m)) as D. pose proof (rest_short m) as Rs. pose proof (rest_length m) as Rl.
  assert (Ln : zlen (blocks m) = Z.of_nat (length m / 64)). { unfold zlen. f_equal. unfold blocks. generalize (length m / 64)%nat as n. clear. intros n. revert m. induction n as [|n IH]; intros m; [reflexivity|]. cbn [take_blocks length]. rewrite IH. reflexivity. }
  assert (Lm : zlen m = 64 * zlen (blocks m) + Z.of_nat (length (rest m))) by (rewrite Ln; unfold zlen; lia).
  set (n := zlen (blocks m)) in *. assert (N0 : 0 <= n) by (unfold n; apply zlen_nonneg). set (b := rest m) in *. clearbody n b. clear Ln Rl D.
  assert (Eb : (512 * n mod 2 ^ 64 + Z.of_nat (length b) * 8) mod 2 ^ 64 = 8 * zlen m mod 2 ^ 64) by (rewrite Z.add_mod_idemp_l by lia; f_equal; lia).
  unfold finish. rewrite Eb. unfold padding. set (L := be_bytes 8 (8 * zlen m mod 2 ^ 64)). assert (LL : length L = 8%nat) by apply be_len.
  assert (Ck : (0 < length b)%nat -> counter (zlen m) n = 8 * zlen m mod 2 ^ 64). { intros P. unfold counter. replace (64 * n <? zlen m) with true by lia. f_equal. lia. }
  assert (C0 : (length b = 0)%nat -> counter (zlen m) n = 0). { intros P. unfold counter. replace (64 * n <? zlen m) with false by lia. reflexivity. }
  assert (C1 : counter (zlen m) (n + 1) = 0). { unfold counter. replace (64 * (n + 1) <? zlen m) with false by lia. reflexivity. }
  destruct (Nat.eqb_spec (length b) 55) as [E55|E55].
  - replace ((55 - zlen m) mod 64) with 0 by (replace (55 - zlen m) with ((- n) * 64) by lia; symmetry; apply Z.mod_mul; lia). cbn [Z.eqb].
    destruct (blocks_one (b ++ [128 + ebit size] ++ L)) as [-> _]; [rewrite !app_length; cbn [length]; lia|]. cbn [chain]. rewrite Ck by lia. reflexivity.
  - destruct (Nat.ltb_spec (length b) 55) as [L55|L55].
    + assert (Ek : (55 - zlen m) mod 64 = 55 - Z.of_nat (length b)). { replace (55 - zlen m) with (55 - Z.of_nat (length b) + (- n) * 64) by lia. rewrite Z.mod_add by lia. apply Z.mod_small. lia. }
      rewrite Ek. replace (55 - Z.of_nat (length b) =? 0) with false by lia. replace (Z.to_nat (55 - Z.of_nat (length b) - 1)) with (54 - length b)%nat by lia.
      replace (b ++ (128 :: zeros (54 - length b) ++ [ebit size]) ++ L) with (b ++ (128 :: zeros (54 - length b)) ++ [ebit size] ++ L) by (cbn [app]; rewrite <- app_assoc; reflexivity).
      destruct (blocks_one (b ++ (128 :: zeros (54 - length b)) ++ [ebit size] ++ L)) as [-> _]; [rewrite !app_length; cbn [length]; rewrite zeros_len; lia|]. cbn [chain].
      destruct (Nat.eqb_spec (length b) 0) as [Z0|Z0]; [rewrite C0 by exact Z0|rewrite Ck by lia]; reflexivity.
    + assert (Ek : (55 - zlen m) mod 64 = 119 - Z.of_nat (length b)). { replace (55 - zlen m) with (119 - Z.of_nat (length b) + (- n - 1) * 64) by lia. rewrite Z.mod_add by lia. apply Z.mod_small. lia. }
      rewrite Ek. replace (119 - Z.of_nat (length b) =? 0) with false by lia.
      replace (zeros (Z.to_nat (119 - Z.of_nat (length b) - 1))) with (zeros (63 - length b) ++ zeros 55) by (unfold zeros; rewrite <- repeat_app; f_equal; lia).
      replace (b ++ (128 :: (zeros (63 - length b) ++ zeros 55) ++ [ebit size]) ++ L) with ((b ++ 128 :: zeros (63 - length b)) ++ zeros 55 ++ [ebit size] ++ L) by (cbn [app]; repeat (rewrite <- app_assoc; cbn [app]); reflexivity).
      rewrite blocks_app. destruct (blocks_one (b ++ 128 :: zeros (63 - length b))) as [-> ->]; [rewrite !app_length; cbn [length]; rewrite zeros_len; lia|]. cbn [app].
      destruct (blocks_one (zeros 55 ++ ebit size :: L)) as [-> _]; [rewrite !app_length; cbn [length]; rewrite zeros_len; lia|]. cbn [chain].
      rewrite Ck by lia. rewrite C1. reflexivity.
Qed.
Lemma iv_good size : good_h (iv size).
Proof. unfold iv. destruct (size =? 224); (split; [reflexivity|]); repeat (constructor; [unfold in32; lia|]); constructor. Qed.
Lemma whole_hash d size s m : (size = 224 \/ size = 256) -> good_s s -> is_bytes m ->
  St d size (fst (fold_left (step s false) (blocks m) (iv size, 0))) s (snd (fold_left (step s false) (blocks m) (iv size, 0))) false (rest m) -> sum d = blake size s m.
Proof.
  intros Hs Gs B S0. pose proof (div64 (length m)) as D.
  assert (Fb : Forall (fun p => is_bytes p /\ length p = 64%nat) (blocks m)) by (apply take_blocks_good; [exact B|lia]).
  assert (Ln : zlen (blocks m) = Z.of_nat (length m / 64)). { unfold zlen. f_equal. unfold blocks. generalize (length m / 64)%nat as n. clear. intros n. revert m. induction n as [|n IH]; intros m; [reflexivity|]. cbn [take_blocks length]. rewrite IH. reflexivity. }
  destruct (chain_steps s (zlen m) (blocks m) Gs Fb 0 (iv size) (iv_good size)) as [E G]; [lia|rewrite Ln; unfold zlen; lia|].
  change (512 * 0 mod 2 ^ 64) with 0 in E. rewrite Z.add_0_l in E. rewrite E in S0. cbn [fst snd] in S0.
  rewrite (sum_ok _ _ _ _ _ _ S0 Hs G Gs); [|apply skipn_is_bytes; exact B|apply Z.mod_pos_bound; lia].
  rewrite finish_spec by apply zlen_nonneg. unfold out_words, blake. fold (ebit size). rewrite (blocks_app m), chain_app. change (0 + zlen (blocks m)) with (zlen (blocks m)). reflexivity.
Qed.

(** ** C61 *)
(** What a program may do with a hash object: write some bytes, ask for the sum, start again. *)
Inductive op := Write (p : bytes) | Sum | Reset.
Definition do_op (d : digest) (o : op) : digest := match o with Write p => write d p | Sum => d | Reset => reset d end.
(** The bytes written since the last Reset. *)
Definition written (m : bytes) (o : op) : bytes := match o with Write p => m ++ p | Sum => m | Reset => [] end.
Definition op_bytes (o : op) : Prop := match o with Write p => is_bytes p | _ => True end.
Lemma history d0 size s : (size = 224 \/ size = 256) -> good_s s -> St d0 size (iv size) s 0 false [] -> forall os, Forall op_bytes os ->
  let m := fold_left written os [] in is_bytes m /\
  St (fold_left do_op os d0) size (fst (fold_left (step s false) (blocks m) (iv size, 0))) s (snd (fold_left (step s false) (blocks m) (iv size, 0))) false (rest m).
Proof.
  intros Hs Gs S0 os. induction os as [|o os IH] using rev_ind; intros F; [split; [constructor|exact S0]|]. apply Forall_app in F as [F Fo]. inversion Fo as [|? ? Bo _]; subst. cbv zeta in *.
  destruct (IH F) as [B S1]. rewrite !fold_left_app. cbn [fold_left]. set (m := fold_left written os []) in *. destruct o as [p| |]; cbn [do_op written].
  - split; [apply is_bytes_app; split; assumption|]. apply (write_ok _ _ _ _ _ _ _ p) in S1. rewrite blocks_app, rest_app, fold_left_app. destruct (fold_left (step s false) (blocks m) (iv size, 0)) as [h1 t1]. exact S1.
  - split; assumption.
  - split; [constructor|]. destruct S1 as [E1 E2 E3 E4 E5 Lx En Eb El]. split; unfold reset; cbn [d_size d_h d_s d_t d_nullt d_x d_nx]; try assumption; try reflexivity; try (apply rest_short).
    rewrite E1. unfold iv. reflexivity.
Qed.
(** Whatever was written, in whatever pieces, with sums asked for in between, the sum is the BLAKE hash of the bytes
    written since the last Reset; for both sizes, with or without salt. *)
Theorem blake_any_history : forall os, Forall op_bytes os ->
  sum (fold_left do_op os new256) = blake 256 [0; 0; 0; 0] (fold_left written os []) /\
  sum (fold_left do_op os new224) = blake 224 [0; 0; 0; 0] (fold_left written os []).
Proof.
  intros os F. assert (Gs : good_s [0; 0; 0; 0]) by (split; [reflexivity|]; repeat (constructor; [unfold in32; lia|]); constructor). split.
  - destruct (history new256 256 [0; 0; 0; 0]) with (os := os) as [B S]; auto; [split; reflexivity || (cbn; lia)|]. apply whole_hash; auto.
  - destruct (history new224 224 [0; 0; 0; 0]) with (os := os) as [B S]; auto; [split; reflexivity || (cbn; lia)|]. apply whole_hash; auto.
Qed.
Lemma salt_words salt : is_bytes salt -> length salt = 16%nat ->
  map (fun i => word (get salt (4 * i)) (get salt (4 * i + 1)) (get salt (4 * i + 2)) (get salt (4 * i + 3))) (seq 0 4) = map (fun i => be_num (firstn 4 (skipn (4 * i) salt))) (seq 0 4).
Proof.
  intros B L. apply map_ext_in. intros i I. apply in_seq in I. rewrite four_at by lia. apply word_be. rewrite <- four_at by lia. apply firstn_is_bytes, skipn_is_bytes, B.
Qed.
(** With a salt: it must have 16 bytes, and is read as four big-endian words. *)
Theorem blake_salted_history : forall size salt os, (size = 224 \/ size = 256) -> is_bytes salt -> Forall op_bytes os ->
  (length salt <> 16%nat -> new_salt size salt = Panic) /\
  (length salt = 16%nat -> exists d, new_salt size salt = Ok d /\
    sum (fold_left do_op os d) = blake size (map (fun i => be_num (firstn 4 (skipn (4 * i) salt))) (seq 0 4)) (fold_left written os [])).
Proof.
  intros size salt os Hs B F. unfold new_salt, set_salt. split; intros L; [replace (length salt =? 16)%nat with false by lia; reflexivity|].
  replace (length salt =? 16)%nat with true by lia. cbn [negb]. eexists. split; [reflexivity|]. rewrite salt_words by assumption. set (s := map _ _).
  assert (Gs : good_s s).
  { split; [unfold s; rewrite map_length, seq_length; reflexivity|]. apply Forall_forall. intros x X. apply in_map_iff in X. destruct X as (i & <- & I). apply in_seq in I.
    assert (Bf : is_bytes (firstn 4 (skipn (4 * i) salt))) by (apply firstn_is_bytes, skipn_is_bytes, B). pose proof (be_num_bound _ Bf) as K.
    assert (Lf : length (firstn 4 (skipn (4 * i) salt)) = 4%nat) by (rewrite firstn_length, skipn_length; lia). unfold zlen in K. rewrite Lf in K. exact K. }
  match goal with |- context [fold_left do_op os ?d] => destruct (history d size s Hs Gs) with (os := os) as [Bm S] end;
    [split; destruct Hs as [->| ->]; reflexivity || (cbn; lia)|exact F|].
  apply whole_hash; auto.
Qed.
(** ** C88 *)
Theorem double_blake256_twice : forall data, is_bytes data -> double_blake256 data = blake 256 [0; 0; 0; 0] (blake 256 [0; 0; 0; 0] data).
Proof.
  intros data B. unfold double_blake256.
  destruct (blake_any_history [Write data]) as [E _]; [constructor; [exact B|constructor]|]. cbn [fold_left do_op written app] in E. rewrite E.
  destruct (blake_any_history [Write (blake 256 [0; 0; 0; 0] data)]) as [E2 _]; [constructor; [|constructor]|exact E2].
  cbn [op_bytes]. unfold blake. apply is_bytes_forall. intros x X. apply in_flat_map in X. destruct X as (w & _ & X). apply (proj1 (is_bytes_forall _) (be_bytes_is_bytes 4 w)). exact X.
Qed.
(** Test vectors of the BLAKE proposal: one zero byte, and 72 zero bytes. *)
Example blake_one_zero : hex_encode (blake 256 [0; 0; 0; 0] [0]) = map Z.of_nat (map Ascii.nat_of_ascii (String.list_ascii_of_string "0ce8d4ef4dd7cd8d62dfded9d4edb0a774ae6a41929a74da23109e8f11139c87")).
Proof. vm_compute. reflexivity. Qed.
Definition ex_ops : list op := [Write [1; 2]; Reset; Write (zeros 40); Sum; Write []; Write (zeros 32)].
Example history_example : sum (fold_left do_op ex_ops new256) = blake 256 [0; 0; 0; 0] (zeros 72).
Proof.
  assert (F : Forall op_bytes ex_ops) by (unfold ex_ops; repeat (constructor; [try exact I; try apply is_bytes_zeros; try (apply is_bytes_forall; cbn [In]; unfold is_byte; lia)|]); constructor).
  assert (E : fold_left written ex_ops [] = zeros 72) by reflexivity. rewrite (proj1 (blake_any_history ex_ops F)), E. reflexivity.
Qed.
Print Assumptions blake_any_history.
Print Assumptions blake_salted_history.
Print Assumptions double_blake256_twice.
