(** C98, C99, C100: BigBang transactions and addresses. *)
From Coq Require Import String ZArith List Bool Lia ZifyBool ZifyNat.
From Verif Require Import Go GoFacts Codes Reader Rd PolymodProofs CrcModel CrcProps BtcModel HyperProps LiteProps BigbangModel Toy.
Import ListNotations.
Open Scope Z_scope.
Ltac Zify.zify_post_hook ::= idtac.

(** ** Specification: addresses *)
(** The digits of an address, worth 0 to 31. *)
Definition digit32 (c v : Z) : Prop := 0 <= v < 32 /\ nth_error (str "0123456789abcdefghjkmnpqrstvwxyz") (Z.to_nat v) = Some c.
Definition num32 (ds : list Z) : Z := fold_left (fun a d => a * 32 + d) ds 0.
(** 56 digits, read as one number, are the 32 bytes of the key followed by the 24 bits of its remainder modulo the
    CRC-24Q polynomial. *)
Definition names_key (t : list Z) (pk : bytes) : Prop :=
  length t = 56%nat /\ is_bytes pk /\ length pk = 32%nat /\
  exists ds c, Forall2 digit32 t ds /\ gf2_remainder 24 0x1864CFB (be_num pk * 2 ^ 24) c /\ num32 ds = be_num pk * 2 ^ 24 + c.
Definition no_newline (c : Z) : Prop := c <> 10 /\ c <> 13.

(** ** Base 32 *)
Lemma num32_app a b : num32 (a ++ b) = num32 a * 32 ^ zlen b + num32 b.
Proof.
  unfold num32. rewrite fold_left_app. generalize (fold_left (fun a d => a * 32 + d) a 0). intros s. revert s.
  induction b as [|d b IH]; intros s; cbn [fold_left]; [change (zlen (@nil Z)) with 0; lia|].
  rewrite IH, (IH (0 * 32 + d)), zlen_cons. pose proof (zlen_nonneg b). rewrite Z.pow_add_r by lia. lia.
Qed.
Lemma num32_range ds : Forall (fun d => 0 <= d < 32) ds -> 0 <= num32 ds < 32 ^ zlen ds.
Proof.
  induction ds as [|d ds IH] using rev_ind; intros F; [vm_compute; intuition congruence|].
  apply Forall_app in F as [F1 F2]. specialize (IH F1). pose proof (Forall_inv F2) as Fd. cbn beta in Fd. rewrite num32_app.
  rewrite zlen_app. change (zlen [d]) with 1. change (num32 [d]) with d. pose proof (zlen_nonneg ds). rewrite Z.pow_add_r by lia. lia.
Qed.
Lemma digits_range t ds : Forall2 digit32 t ds -> Forall (fun d => 0 <= d < 32) ds.
Proof. induction 1 as [|c v t ds [D _] _ IH]; constructor; assumption. Qed.
Lemma pos_ok c v : b32_pos bb_alphabet c = Some v <-> digit32 c v.
Proof.
  assert (G : forall alpha i v, pos_from alpha c i = Some v -> i <= v < i + zlen alpha /\ nth_error alpha (Z.to_nat (v - i)) = Some c).
  { induction alpha as [|a alpha IH]; intros i w E; cbn [pos_from] in E; [discriminate|]. rewrite zlen_cons. pose proof (zlen_nonneg alpha).
    destruct (a =? c) eqn:Q.
    - injection E as <-. split; [lia|]. replace (i - i) with 0 by lia. cbn. f_equal. lia.
    - apply IH in E as [E1 E2]. split; [lia|]. replace (Z.to_nat (w - i)) with (S (Z.to_nat (w - (i + 1)))) by lia. exact E2. }
  split.
  - intros E. apply G in E as [E1 E2]. rewrite Z.sub_0_r in E2. split; [exact E1|exact E2].
  - intros [R E]. assert (C : forallb (fun v => match nth_error bb_alphabet v with Some c => match b32_pos bb_alphabet c with Some w => w =? Z.of_nat v | None => false end | None => false end) (List.seq 0 32) = true) by reflexivity.
    rewrite forallb_forall in C. specialize (C (Z.to_nat v)). cbv beta in C.
    assert (I : In (Z.to_nat v) (List.seq 0 32)) by (apply List.in_seq; lia). specialize (C I). change bb_alphabet with (str "0123456789abcdefghjkmnpqrstvwxyz") in *. rewrite E in C.
    destruct (b32_pos _ c) as [w|]; [f_equal; lia|discriminate].
Qed.
Lemma digit_char c v : digit32 c v -> c <> 61 /\ no_newline c.
Proof.
  intros [R E]. apply nth_error_In in E. assert (C : forallb (fun c => negb ((c =? 61) || (c =? 10) || (c =? 13))) (str "0123456789abcdefghjkmnpqrstvwxyz") = true) by reflexivity.
  rewrite forallb_forall in C. apply C in E. unfold no_newline. lia.
Qed.
Lemma digit_fun c v w : digit32 c v -> digit32 c w -> v = w.
Proof. intros A B. apply pos_ok in A, B. congruence. Qed.
Lemma digit_inj c d v : digit32 c v -> digit32 d v -> c = d.
Proof. intros [_ A] [_ B]. congruence. Qed.
Lemma digits_fun t : forall ds es, Forall2 digit32 t ds -> Forall2 digit32 t es -> ds = es.
Proof.
  induction t as [|c t IH]; intros ds es A B; inversion A; inversion B; subst; [reflexivity|]. f_equal; [eapply digit_fun; eassumption|apply IH; assumption].
Qed.
Lemma digits_inj ds : forall t s, Forall2 digit32 t ds -> Forall2 digit32 s ds -> t = s.
Proof.
  induction ds as [|d ds IH]; intros t s A B; inversion A; inversion B; subst; [reflexivity|]. f_equal; [eapply digit_inj; eassumption|apply IH; assumption].
Qed.
Lemma lor_add a b k : 0 <= k -> 0 <= b < 2 ^ k -> Z.lor (a * 2 ^ k) b = a * 2 ^ k + b.
Proof.
  intros Hk Hb. symmetry. rewrite Z.lor_comm, Z.add_comm. rewrite <- Z.lxor_lor; [apply Z.add_nocarry_lxor|]; apply Z.bits_inj'; intros i Hi; rewrite Z.land_spec, Z.bits_0;
  (destruct (Z.lt_ge_cases i k); [rewrite Z.mul_pow2_bits_low by lia; apply andb_false_r|rewrite (small_testbit k b) by lia; reflexivity]).
Qed.
Lemma quantum_bytes a b c d e f g h : Forall (fun d => 0 <= d < 32) [a; b; c; d; e; f; g; h] ->
  be_num (b32_bytes [a; b; c; d; e; f; g; h]) = num32 [a; b; c; d; e; f; g; h] /\ is_bytes (b32_bytes [a; b; c; d; e; f; g; h]) /\ zlen (b32_bytes [a; b; c; d; e; f; g; h]) = 5.
Proof.
  intros F. repeat match goal with H : Forall _ (_ :: _) |- _ => let A := fresh "R" in pose proof (Forall_inv H) as A; cbn beta in A; apply Forall_inv_tail in H end.
  assert (U : forall x m n, 0 <= x < 32 -> 0 <= m -> 0 <= n -> m + n = 8 -> u8 (Z.shiftl x m) = (x mod 2 ^ n) * 2 ^ m).
  { intros x m n Hx Hm Hn E. unfold u8. rewrite Z.shiftl_mul_pow2 by lia. rewrite <- E, Z.pow_add_r, (Z.mul_comm (2 ^ m)) by lia. apply Z.mul_mod_distr_r; apply Z.pow_nonzero; lia. }
  assert (Sh : forall x m, 0 <= m -> Z.shiftr x m = x / 2 ^ m) by (intros; apply Z.shiftr_div_pow2; lia).
  assert (D : forall x m, 0 <= x < 32 -> 0 <= m <= 5 -> 0 <= x / 2 ^ m < 2 ^ (5 - m) /\ x = (x / 2 ^ m) * 2 ^ m + x mod 2 ^ m /\ 0 <= x mod 2 ^ m < 2 ^ m).
  { intros x m Hx Hm. assert (0 < 2 ^ m) by (apply Z.pow_pos_nonneg; lia). split; [split; [apply Z.div_pos; lia|apply Z.div_lt_upper_bound; [lia|rewrite <- Z.pow_add_r by lia; replace (m + (5 - m)) with 5 by lia; lia]]|].
    split; [rewrite Z.mul_comm; apply Z.div_mod; lia|apply Z.mod_pos_bound; lia]. }
  unfold b32_bytes. cbn [nth length]. change (8 * 5 / 8)%nat with 5%nat. cbn [firstn].
  rewrite (U a 3 5), (U b 6 2), (U c 1 7), (U d 4 4), (U e 7 1), (U f 2 6), (U g 5 3), !Sh by lia.
  rewrite (Z.mod_small a (2 ^ 5)), (Z.mod_small c (2 ^ 7)), (Z.mod_small f (2 ^ 6)) by lia.
  pose proof (D b 2 ltac:(lia) ltac:(lia)) as Db. pose proof (D d 4 ltac:(lia) ltac:(lia)) as Dd. pose proof (D e 1 ltac:(lia) ltac:(lia)) as De. pose proof (D g 3 ltac:(lia) ltac:(lia)) as Dg.
  set (b1 := b / 2 ^ 2) in *. set (b0 := b mod 2 ^ 2) in *. set (d1 := d / 2 ^ 4) in *. set (d0 := d mod 2 ^ 4) in *. set (e1 := e / 2 ^ 1) in *. set (e0 := e mod 2 ^ 1) in *. set (g1 := g / 2 ^ 3) in *. set (g0 := g mod 2 ^ 3) in *.
  clearbody b1 b0 d1 d0 e1 e0 g1 g0. clear U Sh D.
  assert (P : 2 ^ 1 = 2 /\ 2 ^ 2 = 4 /\ 2 ^ 3 = 8 /\ 2 ^ 4 = 16 /\ 2 ^ 5 = 32 /\ 2 ^ 6 = 64 /\ 2 ^ 7 = 128) by (repeat split; reflexivity).
  rewrite (lor_add a b1 3) by lia. replace (b0 * 2 ^ 6) with ((b0 * 1) * 2 ^ 6) by lia. rewrite (lor_add (b0 * 1) (c * 2 ^ 1) 6) by lia.
  replace (b0 * 1 * 2 ^ 6 + c * 2 ^ 1) with ((b0 * 32 + c) * 2 ^ 1) by lia. rewrite (lor_add (b0 * 32 + c) d1 1) by lia.
  rewrite (lor_add d0 e1 4) by lia. rewrite (lor_add e0 (f * 2 ^ 2) 7) by lia. replace (e0 * 2 ^ 7 + f * 2 ^ 2) with ((e0 * 32 + f) * 2 ^ 2) by lia. rewrite (lor_add (e0 * 32 + f) g1 2) by lia.
  rewrite (lor_add g0 h 5) by lia.
  split; [|split].
  - unfold be_num, num32. cbn [fold_left]. lia.
  - repeat (apply is_bytes_cons; split; [unfold is_byte; lia|]). constructor.
  - reflexivity.
Qed.
Lemma quantum_full alpha0 : alpha0 = bb_alphabet -> forall k j acc src d rest, b32_quantum alpha0 k j acc src = QFull d rest ->
  exists xs ds, src = xs ++ rest /\ Forall2 digit32 xs ds /\ d = acc ++ ds /\ length xs = k.
Proof.
  intros ->. induction k as [|k IH]; intros j acc src d rest E; cbn [b32_quantum] in E.
  - injection E as <- <-. exists [], []. rewrite app_nil_r. repeat split. constructor.
  - destruct src as [|c r]; [discriminate|].
    destruct ((c =? 61) && (2 <=? j) && (zlen r <? 8)).
    + destruct (zlen r + j <? 7); [discriminate|]. destruct (negb _); [discriminate|]. destruct (_ || _); discriminate.
    + destruct (b32_pos bb_alphabet c) as [v|] eqn:P; [|discriminate]. apply pos_ok in P. apply IH in E as (xs & ds & -> & F & -> & L).
      exists (c :: xs), (v :: ds). rewrite <- app_assoc. split; [reflexivity|]. split; [constructor; assumption|]. split; [reflexivity|]. cbn. lia.
Qed.
Lemma quantum_end alpha0 k : forall j acc src d, j = zlen acc -> Z.of_nat k + j = 8 -> b32_quantum alpha0 k j acc src = QEnd d -> zlen d = 2 \/ zlen d = 4 \/ zlen d = 5 \/ zlen d = 7.
Proof.
  induction k as [|k IH]; intros j acc src d J K E; cbn [b32_quantum] in E; [discriminate|].
  destruct src as [|c r]; [discriminate|]. destruct ((c =? 61) && (2 <=? j) && (zlen r <? 8)) eqn:Q.
  - destruct (zlen r + j <? 7); [discriminate|]. destruct (negb _); [discriminate|]. destruct ((j =? 1) || (j =? 3) || (j =? 6)) eqn:W; [discriminate|]. injection E as <-. lia.
  - destruct (b32_pos alpha0 c) as [v|]; [|discriminate]. apply IH in E; [exact E| |lia]. rewrite zlen_app. change (zlen [v]) with 1. lia.
Qed.
Lemma quantum_conv xs : forall ds, Forall2 digit32 xs ds -> forall j acc rest, b32_quantum bb_alphabet (length xs) j acc (xs ++ rest) = QFull (acc ++ ds) rest.
Proof.
  induction 1 as [|c v xs ds D F IH]; intros j acc rest; cbn [length b32_quantum app]; [rewrite app_nil_r; reflexivity|].
  destruct (digit_char _ _ D) as [N _]. replace (c =? 61) with false by lia. cbn [andb]. rewrite (proj2 (pos_ok c v) D). rewrite IH, <- app_assoc. reflexivity.
Qed.
Lemma b32_bytes_len d : zlen d <= 8 -> zlen (b32_bytes d) = zlen d * 5 / 8.
Proof.
  intros L. unfold b32_bytes. unfold zlen in *. rewrite firstn_length. cbn [length]. do 9 (destruct d as [|? d]; [reflexivity|]). cbn [length] in L. lia.
Qed.
Lemma eight {A} (l : list A) : length l = 8%nat -> exists a b c d e f g h, l = [a; b; c; d; e; f; g; h].
Proof. intros L. do 8 (destruct l as [|? l]; [discriminate|]). destruct l; [|discriminate]. repeat eexists. Qed.
Lemma b32_loop_inv n : forall fuel src bs, b32_loop bb_alphabet fuel src = Ok bs -> length bs = (5 * n)%nat ->
  exists ds, Forall2 digit32 src ds /\ length src = (8 * n)%nat /\ be_num bs = num32 ds /\ is_bytes bs.
Proof.
  induction n as [|n IH]; intros fuel src bs E L.
  - destruct src as [|c r].
    + destruct fuel; injection E as <-; exists []; repeat split; constructor.
    + destruct fuel as [|fuel]; [discriminate|]. cbn [b32_loop] in E. destruct (b32_quantum bb_alphabet 8 0 [] (c :: r)) as [d rest|d|] eqn:Q; [| |discriminate].
      * destruct (quantum_full _ eq_refl _ _ _ _ _ _ Q) as (xs & ds & _ & F & -> & L8). apply Forall2_length' in F as L9.
        destruct (b32_loop bb_alphabet fuel rest) as [t| |]; cbn [bind] in E; try discriminate. assert (Eb : bs = b32_bytes ([] ++ ds) ++ t) by congruence. subst bs. rewrite app_length in L.
        pose proof (b32_bytes_len ([] ++ ds)) as B. cbn [app] in *. unfold zlen in B. replace (length ds) with 8%nat in B by lia. specialize (B ltac:(lia)). change (Z.of_nat 8 * 5 / 8) with 5 in B. lia.
      * apply quantum_end in Q; [|reflexivity|reflexivity]. injection E as E. pose proof (b32_bytes_len d ltac:(lia)) as B. rewrite E in B. unfold zlen in B at 1. rewrite L in B.
        destruct Q as [Q|[Q|[Q|Q]]]; rewrite Q in B; vm_compute in B; discriminate.
  - destruct src as [|c r]; [destruct fuel; injection E as <-; cbn in L; lia|]. destruct fuel as [|fuel]; [discriminate|]. cbn [b32_loop] in E.
    destruct (b32_quantum bb_alphabet 8 0 [] (c :: r)) as [d rest|d|] eqn:Q; [| |discriminate].
    + destruct (quantum_full _ eq_refl _ _ _ _ _ _ Q) as (xs & ds & Es & F & -> & L8). apply Forall2_length' in F as L9. cbn [app] in E.
      destruct (b32_loop bb_alphabet fuel rest) as [t| |] eqn:Et; cbn [bind] in E; try discriminate. assert (Eb : bs = b32_bytes ds ++ t) by congruence. subst bs.
      destruct (eight ds ltac:(lia)) as (d0 & d1 & d2 & d3 & d4 & d5' & d6 & d7 & Ed). pose proof (digits_range _ _ F) as R. rewrite Ed in R. destruct (quantum_bytes _ _ _ _ _ _ _ _ R) as (B1 & B2 & B3). rewrite <- Ed in B1, B2, B3.
      rewrite app_length in L. unfold zlen in B3. destruct (IH _ _ _ Et ltac:(lia)) as (es & F' & L' & N' & I').
      exists (ds ++ es). rewrite Es. split; [apply Forall2_app; assumption|]. split; [rewrite app_length; lia|]. split; [|apply is_bytes_app; split; assumption].
      rewrite be_num_app, num32_app, B1, N'. f_equal. f_equal. apply Forall2_length' in F' as L10. unfold zlen. replace (Z.of_nat (length t)) with (5 * Z.of_nat n) by lia. replace (Z.of_nat (length es)) with (8 * Z.of_nat n) by lia.
      rewrite !Z.pow_mul_r by lia. reflexivity.
    + apply quantum_end in Q; [|reflexivity|reflexivity]. injection E as E. pose proof (b32_bytes_len d ltac:(lia)) as B. rewrite E in B. unfold zlen in B at 1. rewrite L in B.
      destruct Q as [Q|[Q|[Q|Q]]]; rewrite Q in B; [change (2 * 5 / 8) with 1 in B|change (4 * 5 / 8) with 2 in B|change (5 * 5 / 8) with 3 in B|change (7 * 5 / 8) with 4 in B]; lia.
Qed.
Lemma b32_loop_conv n : forall fuel src ds, Forall2 digit32 src ds -> length src = (8 * n)%nat -> (n <= fuel)%nat ->
  exists bs, b32_loop bb_alphabet fuel src = Ok bs /\ length bs = (5 * n)%nat.
Proof.
  induction n as [|n IH]; intros fuel src ds F L K.
  - destruct src; [|cbn in L; lia]. exists []. destruct fuel; split; reflexivity.
  - destruct fuel as [|fuel]; [lia|].
    rewrite <- (firstn_skipn 8 src) in *. assert (L1 : length (firstn 8 src) = 8%nat) by (rewrite firstn_length; rewrite app_length in L; pose proof (firstn_le_length 8 src); rewrite firstn_skipn in *; rewrite <- app_length, firstn_skipn in L; lia).
    apply Forall2_app_inv_l in F as (d1 & d2 & F1 & F2 & ->).
    destruct (IH fuel _ _ F2) as (t & Et & Lt); [rewrite app_length in L; lia|lia|].
    destruct (firstn 8 src ++ skipn 8 src) as [|c r] eqn:E0; [cbn in L; lia|]. cbn [b32_loop]. rewrite <- E0. pose proof (quantum_conv _ _ F1 0 [] (skipn 8 src)) as Q. rewrite L1 in Q. rewrite Q. cbn [app]. rewrite Et. cbn [bind]. eexists. split; [reflexivity|].
    rewrite app_length, Lt. pose proof (b32_bytes_len d1) as B. apply Forall2_length' in F1 as L2. unfold zlen in B. replace (length d1) with 8%nat in B by lia. specialize (B ltac:(lia)). change (Z.of_nat 8 * 5 / 8) with 5 in B. lia.
Qed.

(** ** Addresses *)
Lemma crc_unique x r r' : gf2_remainder 24 0x1864CFB x r -> gf2_remainder 24 0x1864CFB x r' -> r = r'.
Proof. apply gf2_remainder_unique; lia. Qed.
Lemma strip_none t : Forall no_newline t -> b32_strip t = t.
Proof.
  induction 1 as [|c t N F IH]; [reflexivity|]. unfold b32_strip in *. cbn [filter]. unfold no_newline in N. replace (negb _) with true by lia. rewrite IH. reflexivity.
Qed.
Lemma crc_bytes c : 0 <= c < 2 ^ 24 -> slice_from (be_bytes 4 c) 1 = Ok (be_bytes 3 c).
Proof.
  intros R. unfold be_bytes. change (le_bytes 4 c) with (le_bytes 3 c ++ [c / 256 / 256 / 256 mod 256]). rewrite rev_app_distr. cbn [rev app]. apply slice1.
Qed.
Lemma check3_iff pk c bs : length pk = 32%nat -> length c = 3%nat -> length bs = 35%nat -> firstn 32 bs = pk -> (check3 3 0 c bs = Ok tt <-> bs = pk ++ c) /\ (check3 3 0 c bs = Ok tt \/ check3 3 0 c bs = Err).
Proof.
  intros Lp Lc Lb E. assert (B : exists x y z, bs = pk ++ [x; y; z]).
  { rewrite <- (firstn_skipn 32 bs), E. assert (L : length (skipn 32 bs) = 3%nat) by (rewrite skipn_length; lia). destruct (skipn 32 bs) as [|x [|y [|z [|w r]]]]; try discriminate. do 3 eexists. reflexivity. }
  destruct B as (x & y & z & ->). destruct c as [|u [|v [|w [|? r]]]]; try discriminate. clear Lc Lb E.
  assert (I : forall i w, nth_error [x; y; z] i = Some w -> idx (pk ++ [x; y; z]) (32 + Z.of_nat i) = Ok w).
  { intros i q N. unfold idx. replace (32 + Z.of_nat i <? 0) with false by lia. rewrite nth_error_app2 by lia. replace (Z.to_nat (32 + Z.of_nat i) - length pk)%nat with i by lia. rewrite N. reflexivity. }
  cbn [check3]. change (idx [u; v; w] 0) with (Ok u). change (idx [u; v; w] (0 + 1)) with (Ok v). change (idx [u; v; w] (0 + 1 + 1)) with (Ok w). cbn [bind].
  rewrite (I 0%nat x eq_refl : idx _ (32 + 0) = _), (I 1%nat y eq_refl : idx _ (32 + (0 + 1)) = _), (I 2%nat z eq_refl : idx _ (32 + (0 + 1 + 1)) = _). cbn [bind].
  destruct (u =? x) eqn:Q1; cbn [negb]; [|split; [split; [discriminate|intros A; apply app_inv_head in A; injection A as <- <- <-; lia]|right; reflexivity]].
  destruct (v =? y) eqn:Q2; cbn [negb]; [|split; [split; [discriminate|intros A; apply app_inv_head in A; injection A as <- <- <-; lia]|right; reflexivity]].
  destruct (w =? z) eqn:Q3; cbn [negb]; [|split; [split; [discriminate|intros A; apply app_inv_head in A; injection A as <- <- <-; lia]|right; reflexivity]].
  split; [|left; reflexivity]. split; [intros _; f_equal; f_equal; [lia|f_equal; [lia|f_equal; lia]]|reflexivity].
Qed.
Lemma bb_firstn n (l : bytes) : is_bytes l -> is_bytes (firstn n l).
Proof. intros I. rewrite <- (firstn_skipn n l) in I. apply is_bytes_app in I. apply I. Qed.
(** After the first character. *)
Lemma bb_tail t r : bb_address (49 :: t) = Ok r <-> exists pk, names_key (b32_strip t) pk /\ r = 1 :: pk.
Proof.
  unfold bb_address. assert (S1 : slice_to (49 :: t) 1 = Ok [49]) by (unfold slice_to; rewrite slice_val by (rewrite ?zlen_cons; pose proof (zlen_nonneg t); lia); reflexivity). rewrite S1. clear S1. cbn [bind]. change (negb (beq [49] (str "1"))) with false. cbv iota. rewrite slice1. cbn [bind]. unfold b32_decode.
  set (s := b32_strip t). clearbody s. clear t. split.
  - intros E. destruct (b32_loop bb_alphabet (length s) s) as [bs| |] eqn:Eb; cbn [bind] in E; try discriminate. destruct (zlen bs =? 35) eqn:Q; cbn [negb] in E; [|discriminate].
    assert (Lb : length bs = 35%nat) by (unfold zlen in Q; lia). destruct (b32_loop_inv 7 _ _ _ Eb ltac:(lia)) as (ds & F & L & N & I).
    unfold slice_to in E. rewrite slice_val in E by (unfold zlen; lia). change (Z.to_nat 0) with 0%nat in E. change (skipn 0 bs) with bs in E. change (Z.to_nat (32 - 0)) with 32%nat in E. cbn [bind] in E. change (Z.to_nat 32) with 32%nat in E. set (pk := firstn 32 bs) in *.
    assert (Ip : is_bytes pk) by (apply bb_firstn, I). assert (Lp : length pk = 32%nat) by (unfold pk; rewrite firstn_length; lia).
    destruct (crc24q_is_remainder pk Ip) as (c & Ec & Rc). rewrite Ec in E. cbn [bind] in E. rewrite crc_bytes in E by apply Rc. cbn [bind] in E.
    destruct (check3_iff pk (be_bytes 3 c) bs Lp (be_bytes_length 3 c) Lb eq_refl) as [K1 K2]. destruct K2 as [K2|K2]; rewrite K2 in E; cbn [bind] in E; [|discriminate].
    apply K1 in K2. exists pk. assert (Er : r = 1 :: pk) by (change (u8 (49 - 48)) with 1 in E; congruence). split; [|exact Er]. split; [exact L|]. split; [exact Ip|]. split; [exact Lp|].
    exists ds, c. split; [exact F|]. split; [exact Rc|]. rewrite <- N, K2, be_num_app, be_num_of_small by apply Rc. unfold zlen. rewrite be_bytes_length. reflexivity.
  - intros (pk & (L & Ip & Lp & ds & c & F & Rc & N) & ->). assert (L7 : (7 <= length s)%nat) by (rewrite L; lia). destruct (b32_loop_conv 7 (length s) s ds F L L7) as (bs & Eb & Lb). rewrite Eb. cbn [bind].
    destruct (b32_loop_inv 7 _ _ _ Eb Lb) as (ds' & F' & _ & N' & I). rewrite <- (digits_fun _ _ _ F F') in N'. clear ds' F'. change (5 * 7)%nat with 35%nat in Lb. replace (zlen bs =? 35) with true by (unfold zlen; lia). cbn [negb].
    assert (Eq : bs = pk ++ be_bytes 3 c).
    { apply (be_num_inj bs (pk ++ be_bytes 3 c)); [exact I|apply is_bytes_app; split; [exact Ip|apply be_bytes_is_bytes]|rewrite app_length, be_bytes_length; lia|].
      rewrite N', N, be_num_app, be_num_of_small by apply Rc. unfold zlen. rewrite be_bytes_length. reflexivity. }
    unfold slice_to. rewrite slice_val by (unfold zlen; lia). change (Z.to_nat 0) with 0%nat. change (skipn 0 bs) with bs. change (Z.to_nat (32 - 0)) with 32%nat. cbn [bind]. change (Z.to_nat 32) with 32%nat. assert (Ef : firstn 32 bs = pk) by (rewrite Eq, <- Lp, firstn_app, Nat.sub_diag, firstn_all; apply app_nil_r). rewrite Ef.
    destruct (crc24q_is_remainder pk Ip) as (c' & Ec & Rc'). rewrite Ec. cbn [bind]. rewrite (crc_unique _ _ _ Rc' Rc). rewrite crc_bytes by apply Rc. cbn [bind].
    destruct (check3_iff pk (be_bytes 3 c) bs Lp (be_bytes_length 3 c) Lb Ef) as [K1 _]. rewrite (proj2 K1 Eq). reflexivity.
Qed.

Definition visible (t : list Z) : list Z := filter (fun c => negb ((c =? 13) || (c =? 10))) t.
(** C99. An address is accepted exactly when it is "1" followed by the 56 digits of a key and its checksum (line breaks
    are skipped), and the result is 1 and that key. The only input that panics is the empty text. *)
Theorem bb_address_iff : forall a r, bb_address a = Ok r <-> exists t pk, a = 49 :: t /\ names_key (visible t) pk /\ r = 1 :: pk.
Proof.
  intros a r. split.
  - intros E. destruct a as [|c t]; [discriminate|]. assert (C : c = 49).
    { unfold bb_address in E. assert (S1 : slice_to (c :: t) 1 = Ok [c]) by (unfold slice_to; rewrite slice_val by (rewrite ?zlen_cons; pose proof (zlen_nonneg t); lia); reflexivity). rewrite S1 in E. cbn [bind] in E.
      change (str "1") with [49] in E. cbn [beq] in E. destruct (c =? 49) eqn:Q; [lia|discriminate]. }
    subst c. apply bb_tail in E as (pk & N & ->). exists t, pk. repeat split; apply N.
  - intros (t & pk & -> & N & ->). apply bb_tail. exists pk. split; [exact N|reflexivity].
Qed.
Theorem bb_address_panics_iff : forall a, bb_address a = Panic <-> a = [].
Proof.
  intros a. split; [|intros ->; reflexivity]. intros E. destruct a as [|c t]; [reflexivity|exfalso]. unfold bb_address in E.
  assert (S1 : slice_to (c :: t) 1 = Ok [c]) by (unfold slice_to; rewrite slice_val by (rewrite ?zlen_cons; pose proof (zlen_nonneg t); lia); reflexivity). rewrite S1 in E. cbn [bind] in E.
  destruct (negb _); [discriminate|]. rewrite slice1 in E. cbn [bind] in E. unfold b32_decode in E. set (s := b32_strip t) in *. clearbody s.
  assert (NP : forall f s, b32_loop bb_alphabet f s <> Panic).
  { induction f as [|f IH]; intros q; destruct q as [|x q]; cbn [b32_loop]; try discriminate. destruct (b32_quantum _ _ _ _ _) as [d rest|d|]; try discriminate. specialize (IH rest). destruct (b32_loop bb_alphabet f rest); cbn [bind]; congruence. }
  destruct (b32_loop bb_alphabet (length s) s) as [bs| |] eqn:Eb; cbn [bind] in E; [|discriminate|exact (NP _ _ Eb)].
  destruct (zlen bs =? 35) eqn:Q; cbn [negb] in E; [|discriminate]. assert (Lb : length bs = 35%nat) by (unfold zlen in Q; lia). destruct (b32_loop_inv 7 _ _ _ Eb ltac:(lia)) as (ds & F & L & N & I).
  unfold slice_to in E. rewrite slice_val in E by (unfold zlen; lia). change (Z.to_nat 0) with 0%nat in E. change (skipn 0 bs) with bs in E. change (Z.to_nat (32 - 0)) with 32%nat in E. cbn [bind] in E. set (pk := firstn 32 bs) in *.
  assert (Ip : is_bytes pk) by (apply bb_firstn, I). assert (Lp : length pk = 32%nat) by (unfold pk; rewrite firstn_length; lia).
  destruct (crc24q_is_remainder pk Ip) as (c' & Ec & Rc). rewrite Ec in E. cbn [bind] in E. rewrite crc_bytes in E by apply Rc. cbn [bind] in E.
  destruct (check3_iff pk (be_bytes 3 c') bs Lp (be_bytes_length 3 c') Lb eq_refl) as [_ K2]. destruct K2 as [K2|K2]; rewrite K2 in E; cbn [bind] in E; discriminate.
Qed.
Lemma num32_inj ds : forall es, Forall (fun d => 0 <= d < 32) ds -> Forall (fun d => 0 <= d < 32) es -> length ds = length es -> num32 ds = num32 es -> ds = es.
Proof.
  induction ds as [|d ds IH] using rev_ind; intros es F G L E; [destruct es; [reflexivity|discriminate]|].
  destruct es as [|e es _] using rev_ind; [rewrite app_length in L; cbn in L; lia|]. rewrite !app_length in L. cbn [length] in L. apply Forall_app in F as [F1 F2], G as [G1 G2]. pose proof (Forall_inv F2) as Rd. pose proof (Forall_inv G2) as Re. cbn beta in Rd, Re.
  rewrite !num32_app in E. change (zlen [d]) with 1 in E. change (zlen [e]) with 1 in E. change (num32 [d]) with d in E. change (num32 [e]) with e in E. rewrite Z.pow_1_r in E.
  rewrite (IH es F1 G1) by lia. f_equal. f_equal. lia.
Qed.
Lemma num32_surj n : forall N, 0 <= N < 32 ^ Z.of_nat n -> exists t ds, Forall2 digit32 t ds /\ length t = n /\ num32 ds = N.
Proof.
  induction n as [|n IH]; intros N R.
  - exists [], []. split; [constructor|]. split; [reflexivity|]. change (num32 []) with 0. change (32 ^ Z.of_nat 0) with 1 in R. lia.
  - rewrite Nat2Z.inj_succ, Z.pow_succ_r in R by lia. destruct (IH (N / 32)) as (t & ds & F & L & E); [split; [apply Z.div_pos; lia|apply Z.div_lt_upper_bound; lia]|].
    pose proof (Z.mod_pos_bound N 32 ltac:(lia)) as M. destruct (nth_error (str "0123456789abcdefghjkmnpqrstvwxyz") (Z.to_nat (N mod 32))) as [c|] eqn:C.
    + exists (t ++ [c]), (ds ++ [N mod 32]). split; [apply Forall2_app; [exact F|constructor; [split; [exact M|exact C]|constructor]]|]. split; [rewrite app_length, L; cbn; lia|].
      rewrite num32_app, E. change (zlen [N mod 32]) with 1. change (num32 [N mod 32]) with (N mod 32). pose proof (Z.div_mod N 32 ltac:(lia)). lia.
    + apply nth_error_None in C. change (length (str "0123456789abcdefghjkmnpqrstvwxyz")) with 32%nat in C. lia.
Qed.
(** Every key has exactly one address without line breaks. *)
Theorem bb_address_unique : forall pk, is_bytes pk -> length pk = 32%nat ->
  exists t, names_key t pk /\ Forall no_newline t /\ bb_address (49 :: t) = Ok (1 :: pk) /\ forall t', names_key t' pk -> t' = t.
Proof.
  intros pk I L. destruct (crc24q_is_remainder pk I) as (c & _ & Rc). pose proof (proj1 Rc) as R. pose proof (be_num_bound pk I) as B. unfold zlen in B. rewrite L in B.
  destruct (num32_surj 56 (be_num pk * 2 ^ 24 + c)) as (t & ds & F & Lt & E); [change (32 ^ Z.of_nat 56) with (256 ^ Z.of_nat 32 * 2 ^ 24); lia|].
  assert (N : names_key t pk) by (split; [exact Lt|]; split; [exact I|]; split; [exact L|]; exists ds, c; split; [exact F|]; split; [exact Rc|exact E]).
  assert (V : Forall no_newline t) by (clear - F; induction F as [|x v t ds D F IH]; constructor; [exact (proj2 (digit_char _ _ D))|exact IH]).
  exists t. split; [exact N|]. split; [exact V|]. split; [apply bb_tail; exists pk; rewrite strip_none by exact V; split; [exact N|reflexivity]|].
  intros t' (Lt' & _ & _ & es & c' & F' & Rc' & E'). rewrite (crc_unique _ _ _ Rc' Rc) in E'.
  assert (Q : es = ds) by (apply num32_inj; [eapply digits_range; exact F'|eapply digits_range; exact F| |lia]; apply Forall2_length' in F, F'; lia). subst es. eapply digits_inj; eassumption.
Qed.
Lemma times_unshift P : Z.odd P = true -> forall k q e, gf2_times q P = e * 2 ^ Z.of_nat k -> exists q', gf2_times q' P = e.
Proof.
  intros O. induction k as [|k IH]; intros q e E; [exists q; change (2 ^ Z.of_nat 0) with 1 in E; lia|].
  rewrite Nat2Z.inj_succ, Z.pow_succ_r in E by lia. destruct q as [|b q]; cbn [gf2_times] in E.
  - exists []. cbn [gf2_times]. assert (0 < 2 ^ Z.of_nat k) by (apply Z.pow_pos_nonneg; lia). nia.
  - assert (B : b = false).
    { assert (T : Z.testbit (Z.lxor (if b then P else 0) (2 * gf2_times q P)) 0 = Z.testbit (e * (2 * 2 ^ Z.of_nat k)) 0) by (rewrite E; reflexivity).
      rewrite Z.lxor_spec, (Z.testbit_even_0 (gf2_times q P)) in T. replace (e * (2 * 2 ^ Z.of_nat k)) with (2 * (e * 2 ^ Z.of_nat k)) in T by lia. rewrite Z.testbit_even_0 in T. destruct b; [rewrite Z.bit0_odd, O in T; discriminate|reflexivity]. }
    subst b. rewrite Z.lxor_0_l in E. apply (IH q). lia.
Qed.
Lemma key_multiple t pk : names_key t pk -> exists ds q, Forall2 digit32 t ds /\ num32 ds = gf2_times q 0x1864CFB.
Proof. intros (_ & _ & _ & ds & c & F & (R & q & Q) & E). exists ds, q. split; [exact F|]. rewrite E, <- Q. apply add_lxor; lia. Qed.
Lemma visible_app a b : visible (a ++ b) = visible a ++ visible b.
Proof. apply filter_app. Qed.
Lemma typo_tail a x y b pk pk' : length x = length y -> (length x <= 4)%nat -> names_key (a ++ x ++ b) pk -> names_key (a ++ y ++ b) pk' -> x = y.
Proof.
  intros L K N N'. apply key_multiple in N as (ds & q & F & E), N' as (es & q' & F' & E').
  apply Forall2_app_inv_l in F as (da & d1 & Fa & F & ->). apply Forall2_app_inv_l in F as (dx & db & Fx & Fb & ->).
  apply Forall2_app_inv_l in F' as (da' & d1' & Fa' & F' & ->). apply Forall2_app_inv_l in F' as (dy & db' & Fy & Fb' & ->).
  rewrite <- (digits_fun _ _ _ Fa Fa') in E'. rewrite <- (digits_fun _ _ _ Fb Fb') in E'. clear da' db' Fa' Fb'.
  pose proof (num32_range _ (digits_range _ _ Fx)) as Rx. pose proof (num32_range _ (digits_range _ _ Fy)) as Ry. pose proof (num32_range _ (digits_range _ _ Fb)) as Rb.
  apply Forall2_length' in Fx as Lx. apply Forall2_length' in Fy as Ly. assert (Lxy : zlen dy = zlen dx) by (unfold zlen; lia). rewrite Lxy in *.
  rewrite !num32_app, !zlen_app in E, E'. rewrite Lxy in E'. set (A := num32 da) in *. set (B := num32 db) in *. set (X := num32 dx) in *. set (Y := num32 dy) in *. pose proof (zlen_nonneg dx) as N1. pose proof (zlen_nonneg db) as N2. set (n := zlen dx) in *. set (m := zlen db) in *.
  assert (P32 : forall k, 0 <= k -> 32 ^ k = 2 ^ (5 * k)) by (intros; change 32 with (2 ^ 5); rewrite <- Z.pow_mul_r by lia; reflexivity).
  assert (G : forall X, 0 <= X < 32 ^ n -> A * 32 ^ (n + m) + (X * 32 ^ m + B) = Z.lxor (A * 2 ^ (5 * (n + m))) (Z.lxor (X * 2 ^ (5 * m)) B)).
  { intros W RW. rewrite <- !P32 by lia. rewrite (P32 m) in * by lia. rewrite <- (add_lxor W B (5 * m)) by lia. rewrite P32 by lia. apply add_lxor; [lia|].
    replace (5 * (n + m)) with (5 * n + 5 * m) by lia. rewrite Z.pow_add_r by lia. rewrite P32 in RW by lia. assert (0 < 2 ^ (5 * m)) by (apply Z.pow_pos_nonneg; lia). nia. }
  rewrite G in E, E' by assumption.
  assert (D : gf2_times (xor_list q q') 0x1864CFB = Z.lxor X Y * 2 ^ (5 * m)).
  { rewrite times_xor, <- E, <- E', lxor_mul2 by lia. set (U := A * 2 ^ (5 * (n + m))). set (V := X * 2 ^ (5 * m)). set (W := Y * 2 ^ (5 * m)).
    apply Z.bits_inj'. intros i Hi. rewrite !Z.lxor_spec. destruct (Z.testbit U i), (Z.testbit V i), (Z.testbit W i), (Z.testbit B i); reflexivity. }
  replace (5 * m) with (Z.of_nat (Z.to_nat (5 * m))) in D by lia. apply times_unshift in D as (p & D); [|reflexivity].
  assert (N4 : n <= 4) by (unfold n, zlen; lia). assert (L20 : 32 ^ n <= 2 ^ 20) by (rewrite P32 by lia; apply Z.pow_le_mono_r; lia).
  pose proof (lxor_range 20 X Y ltac:(lia) ltac:(lia) ltac:(lia)) as RR. destruct (times_big 24 0x1864CFB p ltac:(lia) ltac:(lia)) as [Z0|Z0]; [|lia].
  assert (XY : X = Y) by (apply lxor_eq0; lia). assert (Ed : dx = dy) by (apply num32_inj; [eapply digits_range; exact Fx|eapply digits_range; exact Fy|lia|exact XY]). subst dy. eapply digits_inj; eassumption.
Qed.
(** Up to four neighbouring characters changed in an accepted address: the result is never accepted. *)
Theorem bb_address_typos : forall a x y b r r', length x = length y -> (length x <= 4)%nat -> Forall no_newline x -> Forall no_newline y ->
  bb_address (a ++ x ++ b) = Ok r -> bb_address (a ++ y ++ b) = Ok r' -> x = y.
Proof.
  intros a x y b r r' L K Nx Ny E E'. apply bb_address_iff in E as (t & pk & Et & N & _), E' as (t' & pk' & Et' & N' & _).
  destruct a as [|c a].
  - destruct x as [|cx x], y as [|cy y]; try discriminate; [reflexivity|]. cbn [app length] in *. injection Et as -> <-. injection Et' as -> <-. f_equal. apply Forall_inv_tail in Nx, Ny. rewrite visible_app in N, N'.
    change (visible x) with (b32_strip x) in N. change (visible y) with (b32_strip y) in N'. rewrite (strip_none x Nx) in N. rewrite (strip_none y Ny) in N'. apply (typo_tail [] x y (visible b) pk pk'); [lia|lia|exact N|exact N'].
  - cbn [app] in *. injection Et as -> <-. injection Et' as <-. rewrite !visible_app in N, N'. change (visible x) with (b32_strip x) in N. change (visible y) with (b32_strip y) in N'. rewrite (strip_none x Nx) in N. rewrite (strip_none y Ny) in N'. eapply typo_tail; eassumption.
Qed.

(** ** Specification: transactions *)
(** A request after its texts are read: the bytes of the anchor, the identifiers with their output numbers, the key. *)
Record bbreq := { q_now : Z; q_lock : Z; q_anchor : bytes; q_ins : list (bytes * Z); q_key : bytes; q_amount : Z; q_fee : Z; q_data : bytes }.
(** Version 1, type 0, time, lock, anchor, inputs, destination (1 and the key), amount, fee, data. The numbers of inputs
    and of data bytes are written in one byte, whatever they are. *)
Definition bb_layout (q : bbreq) : bytes :=
  le 2 1 ++ le 2 0 ++ le 4 (q_now q) ++ le 4 (q_lock q) ++ q_anchor q ++ [zlen (q_ins q) mod 256] ++
  flat_map (fun '(id, v) => id ++ [v]) (q_ins q) ++ [1] ++ q_key q ++ le 8 (q_amount q) ++ le 8 (q_fee q) ++ [zlen (q_data q) mod 256] ++ q_data q.
(** A reader of the published format: the anchor has 32 bytes. *)
Definition bb_reader : reader (Z * Z * Z * Z * bytes * list (bytes * Z) * bytes * Z * Z * bytes) :=
  ver <~ rle 2 ;; ty <~ rle 2 ;; now <~ rle 4 ;; lock <~ rle 4 ;; anchor <~ rtake 32 ;;
  n <~ rbyte ;; ins <~ rrepeat (Z.to_nat n) (id <~ rtake 32 ;; v <~ rbyte ;; rret (id, v)) ;;
  to <~ rtake 33 ;; amount <~ rle 8 ;; fee <~ rle 8 ;; data <~ rcounted ;;
  rret (ver, ty, now, lock, anchor, ins, to, amount, fee, data).
(** The texts of a request. *)
Definition bb_asks (anchor : list Z) (inputs : list (list Z * Z)) (to : list Z) (q : bbreq) : Prop :=
  hex_decode anchor = Ok (rev (q_anchor q)) /\ inputs <> [] /\
  Forall2 (fun '(txid, v) '(id, w) => length txid = 64%nat /\ hex_decode txid = Ok (rev id) /\ w = v) inputs (q_ins q) /\
  (exists t, to = 49 :: t /\ names_key (visible t) (q_key q)) /\ q_amount q <> 0 /\ q_fee q <> 0.

(** ** Creation *)
Lemma bb_rhex_iff h b : bb_rhex h = Ok b <-> hex_decode h = Ok (rev b).
Proof.
  unfold bb_rhex. split.
  - destruct (zlen h mod 2 =? 1); [discriminate|]. destruct (hex_decode h) as [x| |]; cbn [bind]; try discriminate. intros E. assert (Q : b = rev x) by congruence. rewrite Q, rev_involutive. reflexivity.
  - intros E. pose proof (proj2 (hex_decode_bytes _ _ E)) as L. rewrite E. cbn [bind]. rewrite rev_involutive. replace (zlen h mod 2 =? 1) with false; [reflexivity|].
    symmetry. apply Z.eqb_neq. unfold zlen in *. replace (Z.of_nat (length h)) with (Z.of_nat (length (rev b)) * 2) by lia. rewrite Z.mod_mul by lia. lia.
Qed.
Lemma bb_txin_iff i o : bb_txin i = Ok o <-> (fun '(txid, v) '(id, w) => length txid = 64%nat /\ hex_decode txid = Ok (rev id) /\ w = v) i o.
Proof.
  destruct i as [txid v], o as [id w]. unfold bb_txin. split.
  - destruct ((zlen txid =? 0) || negb (zlen txid =? 64)) eqn:Q; [discriminate|]. destruct (bb_rhex txid) as [b| |] eqn:E; cbn [bind]; try discriminate. intros E'. injection E' as <- <-. apply bb_rhex_iff in E. unfold zlen in Q. repeat split; [lia|exact E].
  - intros (L & E & ->). apply bb_rhex_iff in E. rewrite E. unfold zlen. rewrite L. reflexivity.
Qed.
Lemma le_bytes_mod n x : le_bytes n (x mod 256 ^ Z.of_nat n) = le_bytes n x.
Proof.
  revert x. induction n as [|n IH]; intros x; [reflexivity|]. cbn [le_bytes]. rewrite Nat2Z.inj_succ, Z.pow_succ_r by lia.
  assert (0 < 256 ^ Z.of_nat n) by (apply Z.pow_pos_nonneg; lia). rewrite Z.rem_mul_r by lia. f_equal.
  - rewrite (Z.mul_comm 256), Z.mod_add by lia. apply Z.mod_mod. lia.
  - rewrite (Z.mul_comm 256), Z.div_add by lia. rewrite (Z.div_small (x mod 256)) by (apply Z.mod_pos_bound; lia). rewrite Z.add_0_l. apply IH.
Qed.
(** C98. What is created, and exactly when. *)
Theorem bb_create_iff : forall H now lock anchor inputs to amount fee data text hash,
  bb_create H now lock anchor inputs to amount fee data = Ok (text, hash) <->
  exists q, bb_asks anchor inputs to q /\ q_now q = now /\ q_lock q = lock /\ q_amount q = amount /\ q_fee q = fee /\ q_data q = data /\
    text = hex_encode (bb_layout q) /\ hash = hex_encode (H (bb_layout q)).
Proof.
  intros H now lock anchor inputs to amount fee data text hash. unfold bb_create, bb_new.
  assert (LAY : forall q, bb_bytes {| bb_version := le_bytes 2 1; bb_type := le_bytes 2 0; bb_time := le_bytes 4 (u32 (q_now q)); bb_lock := le_bytes 4 (q_lock q); bb_anchor := q_anchor q; bb_vins := q_ins q; bb_to := 1 :: q_key q; bb_amount := le_bytes 8 (q_amount q); bb_fee := le_bytes 8 (q_fee q); bb_data := if zlen (q_data q) =? 0 then [0] else u8 (zlen (q_data q)) :: q_data q |} = bb_layout q).
  { intros q. unfold bb_bytes, bb_layout. cbn [bb_version bb_type bb_time bb_lock bb_anchor bb_vins bb_to bb_amount bb_fee bb_data]. unfold u32. change (2 ^ 32) with (256 ^ Z.of_nat 4). rewrite le_bytes_mod.
    unfold le, u8. change (2 ^ 8) with 256. assert (D : (if zlen (q_data q) =? 0 then [0] else zlen (q_data q) mod 256 :: q_data q) = [zlen (q_data q) mod 256] ++ q_data q).
    { destruct (q_data q) as [|x d]; [reflexivity|]. rewrite zlen_cons. pose proof (zlen_nonneg d). replace (1 + zlen d =? 0) with false by lia. reflexivity. }
    unfold bytes in *. rewrite D. reflexivity. }
  split.
  - intros E. destruct (bb_rhex anchor) as [ab| |] eqn:Ea; cbn [bind] in E; try discriminate. apply bb_rhex_iff in Ea.
    destruct (zlen inputs =? 0) eqn:Z0; cbn [bind] in E; [discriminate|]. destruct (mapr bb_txin inputs) as [vins| |] eqn:Ei; cbn [bind] in E; try discriminate.
    destruct (bb_address to) as [tb| |] eqn:Et; cbn [bind] in E; try discriminate. destruct (amount =? 0) eqn:Qa; cbn [bind] in E; [discriminate|]. destruct (fee =? 0) eqn:Qf; cbn [bind] in E; [discriminate|].
    apply bb_address_iff in Et as (t & pk & -> & N & ->).
    set (q := {| q_now := now; q_lock := lock; q_anchor := ab; q_ins := vins; q_key := pk; q_amount := amount; q_fee := fee; q_data := data |}).
    pose proof (LAY q) as Lq. cbn [q_now q_lock q_anchor q_ins q_key q_amount q_fee q_data q] in Lq. unfold bytes in *. rewrite Lq in E. exists q. split; [|do 5 (split; [reflexivity|]); split; congruence].
    split; [exact Ea|]. split; [destruct inputs; [discriminate|discriminate]|]. split; [|split; [exists t; split; [reflexivity|exact N]|cbn; lia]].
    apply mapr_forall2 in Ei. clear - Ei. cbn [q_ins q]. induction Ei as [|x y l l' E F IH]; constructor; [apply bb_txin_iff, E|exact IH].
  - intros (q & (Ea & Ne & F & (t & -> & N) & Qa & Qf) & <- & <- & <- & <- & <- & -> & ->). apply bb_rhex_iff in Ea. rewrite Ea. cbn [bind].
    replace (zlen inputs =? 0) with false by (destruct inputs; [contradiction|rewrite zlen_cons; pose proof (zlen_nonneg inputs); lia]).
    assert (Ei : mapr bb_txin inputs = Ok (q_ins q)) by (apply mapr_forall2; clear - F; induction F as [|x y l l' E F IH]; constructor; [apply bb_txin_iff, E|exact IH]). rewrite Ei. cbn [bind].
    rewrite (proj2 (bb_address_iff (49 :: t) (1 :: q_key q))) by (exists t, (q_key q); split; [reflexivity|]; split; [exact N|reflexivity]). cbn [bind].
    replace (q_amount q =? 0) with false by lia. replace (q_fee q =? 0) with false by lia. cbn [bind]. rewrite LAY. reflexivity.
Qed.
(** What a request may hold: the numbers fit their Go types. *)
Definition bb_typed (q : bbreq) : Prop := 0 <= q_lock q < 2 ^ 32 /\ 0 <= q_amount q < 2 ^ 64 /\ 0 <= q_fee q < 2 ^ 64 /\ is_bytes (q_data q) /\ Forall (fun i => is_byte (snd i)) (q_ins q).
Lemma rbind_inv {A B} (r : reader A) (k : A -> reader B) l b rest : rbind r k l = Some (b, rest) -> exists a l', r l = Some (a, l') /\ k a l' = Some (b, rest).
Proof. unfold rbind. destruct (r l) as [[a l']|]; [|discriminate]. intros E. exists a, l'. split; [reflexivity|exact E]. Qed.
Lemma rtake_inv n l a l' : 0 <= n -> rtake n l = Some (a, l') -> zlen a = n /\ l = a ++ l'.
Proof.
  intros Hn. unfold rtake. destruct (zlen l <? n) eqn:Q; [discriminate|]. intros E. assert (Ea : a = firstn (Z.to_nat n) l) by congruence. assert (El : l' = skipn (Z.to_nat n) l) by congruence. subst. split; [|symmetry; apply firstn_skipn].
  unfold zlen in *. rewrite firstn_length. lia.
Qed.
Lemma rrepeat_len {A} (r : reader A) n : forall l xs rest, rrepeat n r l = Some (xs, rest) -> length xs = n.
Proof.
  induction n as [|n IH]; intros l xs rest E; cbn [rrepeat] in E; [injection E as <- _; reflexivity|]. apply rbind_inv in E as (x & l1 & _ & E). apply rbind_inv in E as (t & l2 & E1 & E2). injection E2 as <- _. cbn. f_equal. eapply IH, E1.
Qed.
Definition keeps {A} (r : reader A) : Prop := forall l a l', r l = Some (a, l') -> exists p, l = p ++ l'.
Lemma keeps_ret {A} (a : A) : keeps (rret a).
Proof. intros l b l' E. injection E as _ <-. exists []. reflexivity. Qed.
Lemma keeps_take n : 0 <= n -> keeps (rtake n).
Proof. intros Hn l a l' E. apply rtake_inv in E as [_ E]; [|exact Hn]. exists a. exact E. Qed.
Lemma keeps_byte : keeps rbyte.
Proof. intros l a l' E. destruct l as [|x l]; [discriminate|]. injection E as _ <-. exists [x]. reflexivity. Qed.
Lemma keeps_bind {A B} (r : reader A) (k : A -> reader B) : keeps r -> (forall a, keeps (k a)) -> keeps (rbind r k).
Proof. intros Kr Kk l b l' E. apply rbind_inv in E as (a & l1 & E1 & E2). apply Kr in E1 as (p & ->). apply Kk in E2 as (p2 & ->). exists (p ++ p2). rewrite app_assoc. reflexivity. Qed.
Lemma keeps_repeat {A} (r : reader A) n : keeps r -> keeps (rrepeat n r).
Proof. intros K. induction n as [|n IH]; cbn [rrepeat]; [apply keeps_ret|]. apply keeps_bind; [exact K|intros x; apply keeps_bind; [exact IH|intros t; apply keeps_ret]]. Qed.
Lemma keeps_le n : 0 <= n -> keeps (rle n).
Proof. intros Hn. unfold rle. apply keeps_bind; [apply keeps_take, Hn|intros; apply keeps_ret]. Qed.
Lemma rbind_inv_b {A B} (r : reader A) (k : A -> reader B) l b rest : is_bytes l -> keeps r -> rbind r k l = Some (b, rest) -> exists a l', r l = Some (a, l') /\ is_bytes l' /\ k a l' = Some (b, rest).
Proof. intros I K E. apply rbind_inv in E as (a & l' & E1 & E2). exists a, l'. split; [exact E1|]. split; [|exact E2]. apply K in E1 as (p & ->). apply is_bytes_app in I. apply I. Qed.
Lemma rbyte_inv l a l' : is_bytes l -> rbyte l = Some (a, l') -> is_byte a.
Proof. intros I E. destruct l as [|x l]; [discriminate|]. injection E as <- _. apply is_bytes_cons in I. apply I. Qed.
(** The format's reader finds what was asked, and nothing else, exactly when the anchor has 32 bytes and there are
    fewer than 256 inputs and 256 bytes of data. *)
Theorem bb_read_iff : forall H now lock anchor inputs to amount fee data text hash q,
  bb_create H now lock anchor inputs to amount fee data = Ok (text, hash) -> bb_typed q -> bb_asks anchor inputs to q ->
  q_now q = now -> q_lock q = lock -> q_amount q = amount -> q_fee q = fee -> q_data q = data ->
  exists raw, hex_decode text = Ok raw /\
  (rwhole bb_reader raw = Some (1, 0, now mod 2 ^ 32, lock, q_anchor q, q_ins q, 1 :: q_key q, amount, fee, data) <->
   length (q_anchor q) = 32%nat /\ (length inputs < 256)%nat /\ (length data < 256)%nat).
Proof.
  intros H now lock anchor inputs to amount fee data text hash q E (Tl & Ta & Tf & Td & Tv) A Q1 Q2 Q3 Q4 Q5.
  assert (E2 : bb_create H now lock anchor inputs to amount fee data = Ok (hex_encode (bb_layout q), hex_encode (H (bb_layout q)))) by (apply bb_create_iff; exists q; repeat split; try assumption; apply A).
  assert (Et : text = hex_encode (bb_layout q)) by congruence. clear E E2. subst text. destruct A as (Aa & An & Ai & (t & _ & N) & _ & _).
  assert (IDs : Forall (fun i => is_bytes (fst i) /\ length (fst i) = 32%nat) (q_ins q) /\ length (q_ins q) = length inputs).
  { clear - Ai. split; [|symmetry; eapply Forall2_length', Ai]. induction Ai as [|[x v] [id w] l l' (L & D & _) F IH]; constructor; [|exact IH]. cbn [fst]. destruct (hex_decode_bytes _ _ D) as [B B2]. split; [rewrite <- (rev_involutive id); apply is_bytes_rev, B|].
    rewrite rev_length in B2. lia. }
  destruct IDs as [IDs Li]. destruct N as (_ & Bk & Lk & _).
  assert (Ba : is_bytes (q_anchor q)) by (rewrite <- (rev_involutive (q_anchor q)); apply is_bytes_rev, (proj1 (hex_decode_bytes _ _ Aa))).
  assert (IS : is_bytes (bb_layout q)).
  { unfold bb_layout, le. repeat (apply is_bytes_app; split); try apply le_bytes_is_bytes; try assumption.
    - constructor; [apply Z.mod_pos_bound; lia|constructor].
    - clear - IDs Tv. induction IDs as [|[id v] l [B _] F IH]; [constructor|]. cbn [flat_map]. pose proof (Forall_inv Tv) as V. cbn [fst snd] in *. apply is_bytes_app. split; [apply is_bytes_app; split; [exact B|constructor; [exact V|constructor]]|apply IH, (Forall_inv_tail Tv)].
    - constructor; [unfold is_byte; lia|constructor].
    - constructor; [apply Z.mod_pos_bound; lia|constructor]. }
  exists (bb_layout q). split; [apply hex_decode_encode, IS|]. split.
  - intros W. unfold rwhole in W. destruct (bb_reader (bb_layout q)) as [[v [|? ?]]|] eqn:R; try discriminate. injection W as ->.
    unfold bb_reader in R.
    do 4 (apply rbind_inv_b in R as (? & ? & _ & ? & R); [|assumption|apply keeps_le; lia]). apply rbind_inv_b in R as (an & l1 & R1 & I1 & R); [|assumption|apply keeps_take; lia].
    apply rbind_inv_b in R as (n & l2 & R2 & I2 & R); [|exact I1|apply keeps_byte]. assert (KI : keeps (id <~ rtake 32 ;; v <~ rbyte ;; rret (id, v))) by (apply keeps_bind; [apply keeps_take; lia|intros; apply keeps_bind; [apply keeps_byte|intros; apply keeps_ret]]).
    apply rbind_inv_b in R as (xs & l3 & R3 & I3 & R); [|exact I2|apply keeps_repeat, KI]. apply rbind_inv_b in R as (? & ? & _ & ? & R); [|assumption|apply keeps_take; lia]. do 2 (apply rbind_inv_b in R as (? & ? & _ & ? & R); [|assumption|apply keeps_le; lia]). apply rbind_inv in R as (dd & l4 & R4 & R).
    unfold rret in R. assert (Ean : an = q_anchor q) by congruence. assert (Exs : xs = q_ins q) by congruence. assert (Edd : dd = data) by congruence. subst an xs dd. apply rtake_inv in R1 as [L1 C1]; [|lia]. apply rrepeat_len in R3. apply rbyte_inv in R2; [|exact I1]. unfold is_byte in R2.
    split; [unfold zlen in L1; lia|]. split; [lia|]. unfold rcounted in R4. apply rbind_inv in R4 as (m & l5 & R5 & R6). apply rbyte_inv in R5; [|assumption]. unfold is_byte in R5. apply rtake_inv in R6 as [L6 _]; [|lia]. unfold zlen in L6. lia.
  - intros (L1 & L2 & L3). apply reads_whole. unfold bb_reader, bb_layout, le.
    apply reads_bind with (a := 1); [apply (reads_le 2 1); lia|]. apply reads_bind with (a := 0); [apply (reads_le 2 0); lia|].
    apply reads_bind with (a := now mod 2 ^ 32); [rewrite Q1; rewrite <- (le_bytes_mod 4 now); apply (reads_le 4 (now mod 2 ^ 32)); [lia|apply Z.mod_pos_bound; lia]|].
    apply reads_bind with (a := lock); [rewrite Q2; apply (reads_le 4 lock); lia|]. apply reads_bind with (a := q_anchor q); [apply reads_take; unfold zlen; lia|].
    apply reads_bind with (a := zlen (q_ins q)); [replace (zlen (q_ins q) mod 256) with (zlen (q_ins q)) by (symmetry; apply Z.mod_small; unfold zlen; lia); apply reads_byte|].
    apply reads_bind with (a := q_ins q).
    { rewrite flat_map_concat_map. unfold zlen. rewrite Nat2Z.id. apply reads_repeat. clear - IDs. induction IDs as [|[id v] l [_ L] F IH]; [constructor|]. cbn [map]. constructor; [|exact IH]. cbn [fst] in L.
      apply reads_bind with (a := id); [apply reads_take; unfold zlen; lia|]. apply (reads_last rbyte (fun v => (id, v))). apply reads_byte. }
    change ([1] ++ q_key q ++ le_bytes 8 (q_amount q) ++ le_bytes 8 (q_fee q) ++ [zlen (q_data q) mod 256] ++ q_data q) with ((1 :: q_key q) ++ le_bytes 8 (q_amount q) ++ le_bytes 8 (q_fee q) ++ [zlen (q_data q) mod 256] ++ q_data q).
    apply reads_bind with (a := 1 :: q_key q); [apply reads_take; rewrite zlen_cons; unfold zlen; lia|]. apply reads_bind with (a := amount); [rewrite Q3; apply (reads_le 8 amount); lia|]. apply reads_bind with (a := fee); [rewrite Q4; apply (reads_le 8 fee); lia|].
    rewrite Q5. replace (zlen data mod 256) with (zlen data) by (symmetry; apply Z.mod_small; unfold zlen; lia). apply (reads_last rcounted (fun d => (1, 0, now mod 2 ^ 32, lock, q_anchor q, q_ins q, 1 :: q_key q, amount, fee, d))). apply reads_counted.
Qed.

(** ** Signing and combining *)
(** C100. A combined transaction is the empty one, 64 and the signature, and it is given exactly when the signature is
    valid for the hash of the very bytes of the empty transaction. Nothing in those bytes is looked at. *)
Theorem bb_combine_iff : forall H verify text sig pub out,
  bb_combine H verify text sig pub = Ok out <->
  exists raw s, hex_decode text = Ok raw /\ raw <> [] /\ hex_decode sig = Ok s /\ length s = 64%nat /\ length pub = 32%nat /\
    verify pub (H raw) s = true /\ out = hex_encode raw ++ str "40" ++ hex_encode s.
Proof.
  intros H verify text sig pub out. unfold bb_combine. split.
  - intros E. destruct (hex_decode text) as [raw| |]; cbn [bind] in E; try discriminate. destruct (zlen raw =? 0) eqn:Z0; [discriminate|]. destruct (hex_decode sig) as [s| |]; cbn [bind] in E; try discriminate.
    destruct (zlen s =? 64) eqn:Ls; cbn [negb] in E; [|discriminate]. destruct (zlen pub =? 32) eqn:Lp; cbn [negb] in E; [|discriminate]. destruct (verify pub (H raw) s) eqn:V; cbn [negb] in E; [|discriminate].
    exists raw, s. split; [reflexivity|]. split; [intros ->; discriminate|]. split; [reflexivity|]. unfold zlen in Ls, Lp. split; [lia|]. split; [lia|]. split; [exact V|]. change (str "40") with (hex_encode [64]). rewrite <- !hex_encode_app. congruence.
  - intros (raw & s & -> & Ne & -> & Ls & Lp & V & ->). cbn [bind]. replace (zlen raw =? 0) with false by (destruct raw; [contradiction|rewrite zlen_cons; pose proof (zlen_nonneg raw); lia]).
    unfold zlen. rewrite Ls, Lp. cbn [negb]. change (negb (Z.of_nat 64 =? 64)) with false. change (negb (Z.of_nat 32 =? 32)) with false. cbv iota. rewrite V. cbn [negb]. rewrite !hex_encode_app. reflexivity.
Qed.
(** From a request to the transaction to send, with a signing function whose signatures verify. *)
Theorem bb_flow : forall H sign verify pub_of now lock anchor inputs to amount fee data text hash prikey s,
  (forall m, is_bytes m -> is_bytes (H m) /\ length (H m) = 32%nat) ->
  (forall k m s, sign k m = Some s -> is_bytes s /\ length s = 64%nat /\ length (pub_of k) = 32%nat /\ verify (pub_of k) m s = true) ->
  is_bytes data -> Forall (fun i => is_byte (snd i)) inputs ->
  bb_create H now lock anchor inputs to amount fee data = Ok (text, hash) -> bb_sign sign hash prikey = Ok s ->
  bb_combine H verify text s (pub_of prikey) = Ok (text ++ str "40" ++ s).
Proof.
  intros H sign verify pub_of now lock anchor inputs to amount fee data text hash prikey s HH HS Id Iv E Es.
  apply bb_create_iff in E as (q & (Aa & An & Ai & (t & _ & N) & _ & _) & _ & _ & _ & _ & Q5 & -> & ->).
  assert (IS : is_bytes (bb_layout q)).
  { unfold bb_layout, le. repeat (apply is_bytes_app; split); try apply le_bytes_is_bytes.
    - rewrite <- (rev_involutive (q_anchor q)). apply is_bytes_rev, (proj1 (hex_decode_bytes _ _ Aa)).
    - constructor; [apply Z.mod_pos_bound; lia|constructor].
    - clear - Ai Iv. induction Ai as [|[x v] [id w] l l' (L & D & ->) F IH]; [constructor|]. cbn [flat_map]. pose proof (Forall_inv Iv) as V. cbn [snd] in V. apply is_bytes_app. split; [apply is_bytes_app; split; [rewrite <- (rev_involutive id); apply is_bytes_rev, (proj1 (hex_decode_bytes _ _ D))|constructor; [exact V|constructor]]|apply IH, (Forall_inv_tail Iv)].
    - constructor; [unfold is_byte; lia|constructor].
    - apply N.
    - constructor; [apply Z.mod_pos_bound; lia|constructor].
    - rewrite Q5. exact Id. }
  destruct (HH _ IS) as [Ih Lh]. unfold bb_sign in Es. rewrite hex_decode_encode in Es by exact Ih. cbn [bind] in Es. replace (zlen (H (bb_layout q)) =? 32) with true in Es by (unfold zlen; lia). cbn [negb] in Es.
  destruct (zlen prikey =? 32); cbn [negb] in Es; [|discriminate]. destruct (sign prikey (H (bb_layout q))) as [sg|] eqn:Sg; [|discriminate]. injection Es as <-. destruct (HS _ _ _ Sg) as (I1 & L1 & L2 & V).
  apply bb_combine_iff. exists (bb_layout q), sg. split; [apply hex_decode_encode, IS|]. split; [unfold bb_layout; discriminate|]. split; [apply hex_decode_encode, I1|]. split; [exact L1|]. split; [exact L2|]. split; [exact V|]. reflexivity.
Qed.

(** ** The hypotheses can be met *)
Definition bb_key : bytes := zeros 31 ++ [0x80].
(** The key 0...080 has remainder x^31 mod the polynomial. *)
Example bb_key_address : exists t, names_key t bb_key /\ bb_address (49 :: t) = Ok (1 :: bb_key).
Proof.
  assert (Ib : is_bytes bb_key) by (apply is_bytes_app; split; [apply is_bytes_zeros|bts]).
  destruct (bb_address_unique bb_key Ib eq_refl) as (t & N & _ & A & _). exists t. split; assumption.
Qed.
Example bb_text_checked : bb_address (str "100000000000000000000000000000000000000000000000000000000") = Ok (1 :: zeros 32).
Proof. vm_compute. reflexivity. Qed.
Definition bb_q : bbreq := {| q_now := 1600000000; q_lock := 0; q_anchor := repeat 7 32; q_ins := [(repeat 9 32, 1); (repeat 8 32, 0)]; q_key := zeros 32; q_amount := 5000; q_fee := 100; q_data := [1; 2; 3] |}.
Example bb_asks_met : bb_typed bb_q /\ bb_asks (hex_encode (repeat 7 32)) [(hex_encode (repeat 9 32), 1); (hex_encode (repeat 8 32), 0)] (str "100000000000000000000000000000000000000000000000000000000") bb_q.
Proof.
  split.
  - repeat split; cbn; try lia; repeat constructor; unfold is_byte; cbn; lia.
  - split; [vm_compute; reflexivity|]. split; [discriminate|]. split; [repeat constructor; vm_compute; reflexivity|]. split; [|cbn; lia].
    pose proof (proj1 (bb_address_iff _ _) bb_text_checked) as (t & pk & Et & N & Er). exists t. split; [exact Et|]. assert (Q : pk = q_key bb_q) by (unfold bb_q; cbn [q_key]; congruence). rewrite <- Q. exact N.
Qed.
Example bb_flow_met : exists text hash s, bb_create toy_hash 1600000000 0 (hex_encode (repeat 7 32)) [(hex_encode (repeat 9 32), 1)] (str "100000000000000000000000000000000000000000000000000000000") 5000 100 [] = Ok (text, hash) /\
  bb_sign (fun _ m => Some (m ++ m)) hash (zeros 32) = Ok s.
Proof. do 3 eexists. split; vm_compute; reflexivity. Qed.
Print Assumptions bb_address_iff.
Print Assumptions bb_address_panics_iff.
Print Assumptions bb_address_unique.
Print Assumptions bb_address_typos.
Print Assumptions bb_create_iff.
Print Assumptions bb_read_iff.
Print Assumptions bb_combine_iff.
Print Assumptions bb_flow.
