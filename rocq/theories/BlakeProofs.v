(** The unrolled compression function is that of BLAKE. *)
From Coq Require Import ZArith List Bool Lia ZifyBool ZifyNat.
From Verif Require Import Go GoFacts Codes Uvarint BlakeModel BlakeSpec.
Import ListNotations.
Open Scope Z_scope.
Ltac Zify.zify_post_hook ::= idtac.

Definition in32 (x : Z) : Prop := 0 <= x < 2 ^ 32.
Lemma in32_bits x : in32 x <-> 0 <= x /\ forall n, 32 <= n -> Z.testbit x n = false.
Proof.
  split.
  - intros [A B]. split; [exact A|]. intros n N. destruct (Z.eq_dec x 0) as [->|Z0]; [apply Z.bits_0|]. apply Z.bits_above_log2; [exact A|]. assert (Z.log2 x < 32) by (apply Z.log2_lt_pow2; lia). lia.
  - intros [A B]. split; [exact A|]. destruct (Z.eq_dec x 0) as [->|Z0]; [lia|]. apply Z.log2_lt_pow2; [lia|].
    destruct (Z.lt_ge_cases (Z.log2 x) 32) as [|C]; [assumption|]. specialize (B _ C). rewrite Z.bit_log2 in B by lia. discriminate.
Qed.
Lemma in32_xor a b : in32 a -> in32 b -> in32 (Z.lxor a b).
Proof. rewrite !in32_bits. intros [A1 A2] [B1 B2]. split; [apply Z.lxor_nonneg; tauto|]. intros n N. rewrite Z.lxor_spec, A2, B2 by exact N. reflexivity. Qed.
Lemma in32_mod x : in32 (x mod 2 ^ 32).
Proof. apply Z.mod_pos_bound. lia. Qed.
Lemma in32_ror x n : 0 <= n <= 32 -> in32 x -> in32 (ror x n).
Proof.
  intros N [A B]. unfold in32, ror. assert (P : 0 < 2 ^ n) by (apply Z.pow_pos_nonneg; lia). assert (P' : 0 < 2 ^ (32 - n)) by (apply Z.pow_pos_nonneg; lia).
  assert (E : 2 ^ 32 = 2 ^ n * 2 ^ (32 - n)) by (rewrite <- Z.pow_add_r by lia; f_equal; lia).
  pose proof (Z.mod_pos_bound x (2 ^ n) P). assert (0 <= x / 2 ^ n) by (apply Z.div_pos; lia). assert (x / 2 ^ n < 2 ^ (32 - n)) by (apply Z.div_lt_upper_bound; lia). nia.
Qed.
Lemma rot_ror x n : 0 <= n <= 32 -> in32 x -> rot32 x n = ror x n.
Proof.
  intros N [A B]. unfold rot32, ror. rewrite Z.shiftl_mul_pow2, Z.shiftr_div_pow2 by lia. assert (P : 0 < 2 ^ n) by (apply Z.pow_pos_nonneg; lia). assert (P' : 0 < 2 ^ (32 - n)) by (apply Z.pow_pos_nonneg; lia).
  assert (E : 2 ^ 32 = 2 ^ n * 2 ^ (32 - n)) by (rewrite <- Z.pow_add_r by lia; f_equal; lia).
  assert (x / 2 ^ n < 2 ^ (32 - n)) by (apply Z.div_lt_upper_bound; lia). assert (0 <= x / 2 ^ n) by (apply Z.div_pos; lia).
  rewrite E. rewrite Z.mul_mod_distr_r by lia. rewrite Z.lor_comm.
  apply lor_add; [lia|lia|]. apply Z.mod_pos_bound. exact P.
Qed.

(** *** Lists of words *)
Lemma set_put : set = put. Proof. reflexivity. Qed.
Lemma get_put v : forall i j x, (i < length v)%nat -> nth j (put v i x) 0 = if (i =? j)%nat then x else nth j v 0.
Proof.
  unfold put. induction v as [|a v IH]; intros i j x L; [cbn in L; lia|]. destruct i as [|i]; destruct j as [|j]; cbn [firstn app skipn nth Nat.eqb]; try reflexivity.
  apply IH. cbn [length] in L. lia.
Qed.
Lemma put_length v i x : (i < length v)%nat -> length (put v i x) = length v.
Proof. intros L. unfold put. rewrite app_length. cbn [length]. rewrite firstn_length, skipn_length. lia. Qed.
Lemma put_in v i x : in32 x -> Forall in32 v -> Forall in32 (put v i x).
Proof.
  intros X F. unfold put. apply Forall_app. split; [apply Forall_forall; intros y Y; rewrite Forall_forall in F; apply F; rewrite <- (firstn_skipn i v); apply in_or_app; left; exact Y|].
  constructor; [exact X|]. apply Forall_forall. intros y Y. rewrite Forall_forall in F. apply F. rewrite <- (firstn_skipn (S i) v). apply in_or_app. right. exact Y.
Qed.
Lemma get_in v i : Forall in32 v -> in32 (nth i v 0).
Proof. intros F. destruct (Nat.lt_ge_cases i (length v)) as [L|L]; [rewrite Forall_forall in F; apply F; apply nth_In; exact L|]. rewrite nth_overflow by exact L. unfold in32. lia. Qed.
Lemma ext16 (u v : list Z) : length u = length v -> (forall j, nth j u 0 = nth j v 0) -> u = v.
Proof. intros L E. apply (nth_ext u v 0 0 L). intros j _. apply E. Qed.

Definition wf (v : list Z) : Prop := length v = 16%nat /\ Forall in32 v.
Definition ins_ok (g : ins) : bool :=
  (g_a g <? 16)%nat && (g_b g <? 16)%nat && (g_c g <? 16)%nat && (g_d g <? 16)%nat &&
  negb (g_a g =? g_b g)%nat && negb (g_a g =? g_c g)%nat && negb (g_a g =? g_d g)%nat && negb (g_b g =? g_c g)%nat && negb (g_b g =? g_d g)%nat && negb (g_c g =? g_d g)%nat &&
  (0 <=? g_r1 g) && (g_r1 g <=? 32) && (0 <=? g_r2 g) && (g_r2 g <=? 32).
Definition act (m : list Z) (g : ins) (v : list Z) : list Z :=
  on (g_a g) (g_b g) (g_c g) (g_d g) (half (Z.lxor (nth (g_m g) m 0) (nth (g_k g) pi_words 0)) (g_r1 g) (g_r2 g)) v.
Lemma add3 a b x : add32 (add32 a x) b = (a + b + x) mod 2 ^ 32.
Proof. unfold add32. rewrite Z.add_mod_idemp_l by lia. f_equal. lia. Qed.
Lemma on_wf a b c d x r1 r2 v : (a < 16)%nat -> (b < 16)%nat -> (c < 16)%nat -> (d < 16)%nat -> 0 <= r1 <= 32 -> 0 <= r2 <= 32 -> wf v -> wf (on a b c d (half x r1 r2) v).
Proof.
  intros La Lb Lc Ld R1 R2 [L F]. unfold on, half.
  assert (I1 : in32 ((nth a v 0 + nth b v 0 + x) mod 2 ^ 32)) by apply in32_mod.
  assert (I2 : in32 (ror (Z.lxor (nth d v 0) ((nth a v 0 + nth b v 0 + x) mod 2 ^ 32)) r1)) by (apply in32_ror; [lia|]; apply in32_xor; [apply get_in; exact F|exact I1]).
  assert (I3 : forall y, in32 ((nth c v 0 + y) mod 2 ^ 32)) by (intros y; apply in32_mod).
  assert (I4 : forall y, in32 (ror (Z.lxor (nth b v 0) ((nth c v 0 + y) mod 2 ^ 32)) r2)) by (intros y; apply in32_ror; [lia|]; apply in32_xor; [apply get_in; exact F|apply I3]).
  assert (Lp : forall v i y, (i < 16)%nat -> length v = 16%nat -> length (put v i y) = 16%nat) by (intros v' i y I' L'; rewrite put_length; lia).
  split; [auto 6|]. auto 8 using put_in.
Qed.
Lemma exec_act m v g : ins_ok g = true -> wf v -> exec m v g = act m g v.
Proof.
  intros O [L F]. unfold ins_ok in O. rewrite !andb_true_iff in O. destruct O as [[[[[[[[[[[[[La Lb] Lc] Ld] N1] N2] N3] N4] N5] N6] R1] R2] R3] R4].
  destruct g as [a b c d mi ki r1 r2]. cbn [g_a g_b g_c g_d g_m g_k g_r1 g_r2] in *.
  assert (a <> b /\ a <> c /\ a <> d /\ b <> c /\ b <> d /\ c <> d)%nat as (D1 & D2 & D3 & D4 & D5 & D6) by lia.
  assert (a < 16 /\ b < 16 /\ c < 16 /\ d < 16)%nat as (A & B & C & D) by lia. clear La Lb Lc Ld N1 N2 N3 N4 N5 N6.
  unfold exec, act. cbn [g_a g_b g_c g_d g_m g_k g_r1 g_r2]. change csts with pi_words. rewrite !set_put. change get with (fun (v : list Z) i => nth i v 0). cbn beta.
  set (x := Z.lxor (nth mi m 0) (nth ki pi_words 0)).
  assert (X1 : in32 (nth d v 0)) by (apply get_in; exact F). assert (X2 : in32 (nth b v 0)) by (apply get_in; exact F).
  unfold on, half.
  rewrite <- !add3. set (a1 := add32 (add32 (nth a v 0) x) (nth b v 0)). assert (Ia : in32 a1) by apply in32_mod.
  rewrite <- (rot_ror (Z.lxor (nth d v 0) a1)) by (try lia; apply in32_xor; assumption). set (d1 := rot32 (Z.lxor (nth d v 0) a1) r1).
  assert (Ic : in32 ((nth c v 0 + d1) mod 2 ^ 32)) by apply in32_mod.
  rewrite <- (rot_ror (Z.lxor (nth b v 0) ((nth c v 0 + d1) mod 2 ^ 32))) by (try lia; apply in32_xor; assumption).
  assert (E : forall i j, (i =? j)%nat = true -> i = j) by (intros; lia).
  assert (Lp : forall v i y, (i < 16)%nat -> length v = 16%nat -> length (put v i y) = 16%nat) by (intros v' i y I' L'; rewrite put_length; lia).
  apply ext16.
  - rewrite !Lp by auto 8. reflexivity.
  - intros j.
    assert (Eaa : (a =? a)%nat = true) by lia. assert (Ebb : (b =? b)%nat = true) by lia. assert (Ecc : (c =? c)%nat = true) by lia. assert (Edd : (d =? d)%nat = true) by lia.
    assert (Eab : (a =? b)%nat = false) by lia. assert (Eac : (a =? c)%nat = false) by lia. assert (Ead : (a =? d)%nat = false) by lia.
    assert (Ebc : (b =? c)%nat = false) by lia. assert (Ebd : (b =? d)%nat = false) by lia. assert (Ecd : (c =? d)%nat = false) by lia.
    assert (Eba : (b =? a)%nat = false) by lia. assert (Eca : (c =? a)%nat = false) by lia. assert (Eda : (d =? a)%nat = false) by lia.
    assert (Ecb : (c =? b)%nat = false) by lia. assert (Edb : (d =? b)%nat = false) by lia. assert (Edc : (d =? c)%nat = false) by lia.
    assert (Gp : forall v i j y, (i < 16)%nat -> length v = 16%nat -> nth j (put v i y) 0 = if (i =? j)%nat then y else nth j v 0) by (intros v' i j' y I' L'; apply get_put; lia).
    rewrite !Gp by auto 10.
    rewrite ?Eaa, ?Ebb, ?Ecc, ?Edd, ?Eab, ?Eac, ?Ead, ?Ebc, ?Ebd, ?Ecd, ?Eba, ?Eca, ?Eda, ?Ecb, ?Edb, ?Edc.
    destruct (Nat.eqb_spec b j); [subst; rewrite ?Ecb, ?Edb, ?Eab; destruct (c =? j)%nat eqn:?; destruct (d =? j)%nat eqn:?; try lia; reflexivity|].
    destruct (Nat.eqb_spec c j); [subst; destruct (d =? j)%nat eqn:?; try lia; reflexivity|].
    destruct (Nat.eqb_spec d j); [reflexivity|]. destruct (Nat.eqb_spec a j); reflexivity.
Qed.

(** *** The order of the half steps *)
Definition tpl (r : nat) : list ins :=
  let i1 a b c d i := mk a b c d (perm r (2 * i)) (perm r (2 * i + 1)) 16 12 in
  let i2 a b c d i := mk a b c d (perm r (2 * i + 1)) (perm r (2 * i)) 8 7 in
  [i1 0 4 8 12 0; i1 1 5 9 13 1; i1 2 6 10 14 2; i1 3 7 11 15 3; i2 2 6 10 14 2; i2 3 7 11 15 3; i2 1 5 9 13 1; i2 0 4 8 12 0;
   i1 0 5 10 15 4; i1 1 6 11 12 5; i1 2 7 8 13 6; i1 3 4 9 14 7; i2 2 7 8 13 6; i2 3 4 9 14 7; i2 1 6 11 12 5; i2 0 5 10 15 4]%nat.
Lemma code_tpl : code = flat_map tpl (seq 0 14).
Proof. vm_compute. reflexivity. Qed.
Lemma code_ok : forallb ins_ok code = true.
Proof. vm_compute. reflexivity. Qed.
Ltac open16 v L := do 16 (destruct v as [|? v]; [discriminate L|]); destruct v; [|discriminate L].
Lemma on_c0 f a0 a1 a2 a3 a4 a5 a6 a7 a8 a9 a10 a11 a12 a13 a14 a15 : on 0 4 8 12 f [a0; a1; a2; a3; a4; a5; a6; a7; a8; a9; a10; a11; a12; a13; a14; a15] =
  match f (a0, a4, a8, a12) with (x, y, z, w) => [x; a1; a2; a3; y; a5; a6; a7; z; a9; a10; a11; w; a13; a14; a15] end.
Proof. reflexivity. Qed.
Lemma on_c1 f a0 a1 a2 a3 a4 a5 a6 a7 a8 a9 a10 a11 a12 a13 a14 a15 : on 1 5 9 13 f [a0; a1; a2; a3; a4; a5; a6; a7; a8; a9; a10; a11; a12; a13; a14; a15] =
  match f (a1, a5, a9, a13) with (x, y, z, w) => [a0; x; a2; a3; a4; y; a6; a7; a8; z; a10; a11; a12; w; a14; a15] end.
Proof. reflexivity. Qed.
Lemma on_c2 f a0 a1 a2 a3 a4 a5 a6 a7 a8 a9 a10 a11 a12 a13 a14 a15 : on 2 6 10 14 f [a0; a1; a2; a3; a4; a5; a6; a7; a8; a9; a10; a11; a12; a13; a14; a15] =
  match f (a2, a6, a10, a14) with (x, y, z, w) => [a0; a1; x; a3; a4; a5; y; a7; a8; a9; z; a11; a12; a13; w; a15] end.
Proof. reflexivity. Qed.
Lemma on_c3 f a0 a1 a2 a3 a4 a5 a6 a7 a8 a9 a10 a11 a12 a13 a14 a15 : on 3 7 11 15 f [a0; a1; a2; a3; a4; a5; a6; a7; a8; a9; a10; a11; a12; a13; a14; a15] =
  match f (a3, a7, a11, a15) with (x, y, z, w) => [a0; a1; a2; x; a4; a5; a6; y; a8; a9; a10; z; a12; a13; a14; w] end.
Proof. reflexivity. Qed.
Lemma on_d0 f a0 a1 a2 a3 a4 a5 a6 a7 a8 a9 a10 a11 a12 a13 a14 a15 : on 0 5 10 15 f [a0; a1; a2; a3; a4; a5; a6; a7; a8; a9; a10; a11; a12; a13; a14; a15] =
  match f (a0, a5, a10, a15) with (x, y, z, w) => [x; a1; a2; a3; a4; y; a6; a7; a8; a9; z; a11; a12; a13; a14; w] end.
Proof. reflexivity. Qed.
Lemma on_d1 f a0 a1 a2 a3 a4 a5 a6 a7 a8 a9 a10 a11 a12 a13 a14 a15 : on 1 6 11 12 f [a0; a1; a2; a3; a4; a5; a6; a7; a8; a9; a10; a11; a12; a13; a14; a15] =
  match f (a1, a6, a11, a12) with (x, y, z, w) => [a0; x; a2; a3; a4; a5; y; a7; a8; a9; a10; z; w; a13; a14; a15] end.
Proof. reflexivity. Qed.
Lemma on_d2 f a0 a1 a2 a3 a4 a5 a6 a7 a8 a9 a10 a11 a12 a13 a14 a15 : on 2 7 8 13 f [a0; a1; a2; a3; a4; a5; a6; a7; a8; a9; a10; a11; a12; a13; a14; a15] =
  match f (a2, a7, a8, a13) with (x, y, z, w) => [a0; a1; x; a3; a4; a5; a6; y; z; a9; a10; a11; a12; w; a14; a15] end.
Proof. reflexivity. Qed.
Lemma on_d3 f a0 a1 a2 a3 a4 a5 a6 a7 a8 a9 a10 a11 a12 a13 a14 a15 : on 3 4 9 14 f [a0; a1; a2; a3; a4; a5; a6; a7; a8; a9; a10; a11; a12; a13; a14; a15] =
  match f (a3, a4, a9, a14) with (x, y, z, w) => [a0; a1; a2; x; y; a5; a6; a7; a8; z; a10; a11; a12; a13; w; a15] end.
Proof. reflexivity. Qed.
Lemma columns f0 f1 f2 f3 g0 g1 g2 g3 v : length v = 16%nat ->
  on 0 4 8 12 g0 (on 1 5 9 13 g1 (on 3 7 11 15 g3 (on 2 6 10 14 g2 (on 3 7 11 15 f3 (on 2 6 10 14 f2 (on 1 5 9 13 f1 (on 0 4 8 12 f0 v))))))) =
  on 3 7 11 15 (fun q => g3 (f3 q)) (on 2 6 10 14 (fun q => g2 (f2 q)) (on 1 5 9 13 (fun q => g1 (f1 q)) (on 0 4 8 12 (fun q => g0 (f0 q)) v))).
Proof.
  intros L. open16 v L.
  rewrite on_c0. destruct (f0 _) as [[[? ?] ?] ?] eqn:E0.
  rewrite on_c1. destruct (f1 _) as [[[? ?] ?] ?] eqn:E1.
  rewrite on_c2. destruct (f2 _) as [[[? ?] ?] ?] eqn:E2.
  rewrite on_c3. destruct (f3 _) as [[[? ?] ?] ?] eqn:E3.
  rewrite on_c2. destruct (g2 _) as [[[? ?] ?] ?] eqn:F2.
  rewrite on_c3. destruct (g3 _) as [[[? ?] ?] ?] eqn:F3.
  rewrite on_c1. destruct (g1 _) as [[[? ?] ?] ?] eqn:F1.
  rewrite on_c0. destruct (g0 _) as [[[? ?] ?] ?] eqn:F0.
  rewrite on_c0. cbv beta. rewrite E0, F0.
  rewrite on_c1. cbv beta. rewrite E1, F1.
  rewrite on_c2. cbv beta. rewrite E2, F2.
  rewrite on_c3. cbv beta. rewrite E3, F3.
  reflexivity.
Qed.
Lemma diagonals f0 f1 f2 f3 g0 g1 g2 g3 v : length v = 16%nat ->
  on 0 5 10 15 g0 (on 1 6 11 12 g1 (on 3 4 9 14 g3 (on 2 7 8 13 g2 (on 3 4 9 14 f3 (on 2 7 8 13 f2 (on 1 6 11 12 f1 (on 0 5 10 15 f0 v))))))) =
  on 3 4 9 14 (fun q => g3 (f3 q)) (on 2 7 8 13 (fun q => g2 (f2 q)) (on 1 6 11 12 (fun q => g1 (f1 q)) (on 0 5 10 15 (fun q => g0 (f0 q)) v))).
Proof.
  intros L. open16 v L.
  rewrite on_d0. destruct (f0 _) as [[[? ?] ?] ?] eqn:E0.
  rewrite on_d1. destruct (f1 _) as [[[? ?] ?] ?] eqn:E1.
  rewrite on_d2. destruct (f2 _) as [[[? ?] ?] ?] eqn:E2.
  rewrite on_d3. destruct (f3 _) as [[[? ?] ?] ?] eqn:E3.
  rewrite on_d2. destruct (g2 _) as [[[? ?] ?] ?] eqn:F2.
  rewrite on_d3. destruct (g3 _) as [[[? ?] ?] ?] eqn:F3.
  rewrite on_d1. destruct (g1 _) as [[[? ?] ?] ?] eqn:F1.
  rewrite on_d0. destruct (g0 _) as [[[? ?] ?] ?] eqn:F0.
  rewrite on_d0. cbv beta. rewrite E0, F0.
  rewrite on_d1. cbv beta. rewrite E1, F1.
  rewrite on_d2. cbv beta. rewrite E2, F2.
  rewrite on_d3. cbv beta. rewrite E3, F3.
  reflexivity.
Qed.
Lemma act_wf m g v : ins_ok g = true -> wf v -> wf (act m g v).
Proof. intros O W. unfold ins_ok in O. rewrite !andb_true_iff in O. unfold act. apply on_wf; [lia|lia|lia|lia|lia|lia|exact W]. Qed.
Lemma exec_acts m l : forall v, forallb ins_ok l = true -> wf v -> fold_left (exec m) l v = fold_left (fun v g => act m g v) l v /\ wf (fold_left (exec m) l v).
Proof.
  induction l as [|g l IH]; intros v O W; cbn [fold_left]; [split; [reflexivity|exact W]|]. cbn [forallb] in O. apply andb_true_iff in O as [O1 O2].
  rewrite exec_act by assumption. apply IH; [exact O2|]. apply act_wf; assumption.
Qed.
Lemma on_length a b c d f v : (a < 16)%nat -> (b < 16)%nat -> (c < 16)%nat -> (d < 16)%nat -> length v = 16%nat -> length (on a b c d f v) = 16%nat.
Proof.
  intros A B C D L. unfold on. destruct (f _) as [[[x y] z] w].
  assert (Lp : forall v i y, (i < 16)%nat -> length v = 16%nat -> length (put v i y) = 16%nat) by (intros v' i y' I' L'; rewrite put_length; lia). auto 8.
Qed.
Lemma tpl_round m r v : length v = 16%nat -> fold_left (fun v g => act m g v) (tpl r) v = round m v r.
Proof.
  intros L. unfold tpl. cbn [fold_left]. unfold act. cbn [g_a g_b g_c g_d g_m g_k g_r1 g_r2].
  rewrite columns by exact L. rewrite diagonals by (repeat (apply on_length; [lia|lia|lia|lia|]); exact L). unfold round, G, mix. cbv zeta. reflexivity.
Qed.
Lemma round_length m r v : length v = 16%nat -> length (round m v r) = 16%nat.
Proof. intros L. unfold round. repeat (apply on_length; [lia|lia|lia|lia|]). exact L. Qed.
Lemma fold_flat {A B : Type} (P : A -> Prop) (f : A -> B -> A) (t : nat -> list B) (g : A -> nat -> A) :
  (forall r v, P v -> fold_left f (t r) v = g v r) -> (forall r v, P v -> P (g v r)) -> forall l v, P v -> fold_left f (flat_map t l) v = fold_left g l v.
Proof. intros H1 H2. induction l as [|r l IH]; intros v L; [reflexivity|]. cbn [flat_map fold_left]. rewrite fold_left_app, H1 by exact L. apply IH, H2, L. Qed.
Lemma rounds_eq m l v : length v = 16%nat -> fold_left (fun v g => act m g v) (flat_map tpl l) v = fold_left (round m) l v.
Proof.
  exact (fold_flat (fun v => length v = 16%nat) (fun v g => act m g v) tpl (round m) (fun r v => tpl_round m r v) (fun r v => round_length m r v) l v).
Qed.

(** *** Words *)
Definition is32s (l : list Z) : Prop := Forall in32 l.
Lemma word_be a b c d : is_bytes [a; b; c; d] -> word a b c d = be_num [a; b; c; d].
Proof.
  intros B. inversion B as [|? ? Ba B1]; subst. inversion B1 as [|? ? Bb B2]; subst. inversion B2 as [|? ? Bc B3]; subst. inversion B3 as [|? ? Bd B4]; subst. unfold is_byte in *.
  unfold word. rewrite !Z.shiftl_mul_pow2 by lia.
  assert (E1 : Z.lor (a * 2 ^ 24) (b * 2 ^ 16) = b * 2 ^ 16 + a * 2 ^ 24) by (rewrite Z.lor_comm; apply lor_add; lia).
  rewrite E1. assert (E2 : Z.lor (b * 2 ^ 16 + a * 2 ^ 24) (c * 2 ^ 8) = c * 2 ^ 8 + (b + a * 2 ^ 8) * 2 ^ 16).
  { rewrite Z.lor_comm. replace (b * 2 ^ 16 + a * 2 ^ 24) with ((b + a * 2 ^ 8) * 2 ^ 16) by lia. apply lor_add; lia. }
  rewrite E2. assert (E3 : Z.lor (c * 2 ^ 8 + (b + a * 2 ^ 8) * 2 ^ 16) d = d + (c + b * 2 ^ 8 + a * 2 ^ 16) * 2 ^ 8).
  { rewrite Z.lor_comm. replace (c * 2 ^ 8 + (b + a * 2 ^ 8) * 2 ^ 16) with ((c + b * 2 ^ 8 + a * 2 ^ 16) * 2 ^ 8) by lia. apply lor_add; lia. }
  rewrite E3. unfold be_num. cbn [fold_left]. lia.
Qed.
Lemma four_at p i : (4 * i + 4 <= length p)%nat -> firstn 4 (skipn (4 * i) p) = [get p (4 * i); get p (4 * i + 1); get p (4 * i + 2); get p (4 * i + 3)].
Proof.
  intros L. unfold get. rewrite <- (firstn_skipn (4 * i) p) at 2 3 4 5.
  assert (E : length (firstn (4 * i) p) = (4 * i)%nat) by (rewrite firstn_length; lia).
  rewrite !app_nth2 by lia. rewrite E. replace (4 * i - 4 * i)%nat with 0%nat by lia. replace (4 * i + 1 - 4 * i)%nat with 1%nat by lia. replace (4 * i + 2 - 4 * i)%nat with 2%nat by lia. replace (4 * i + 3 - 4 * i)%nat with 3%nat by lia.
  assert (L2 : (4 <= length (skipn (4 * i) p))%nat) by (rewrite skipn_length; lia). destruct (skipn (4 * i) p) as [|a [|b [|c [|d q]]]]; cbn [length] in L2; try lia. reflexivity.
Qed.
Lemma is_bytes_forall l : is_bytes l <-> forall x, In x l -> is_byte x.
Proof. unfold is_bytes. rewrite ?Forall_forall. reflexivity. Qed.
Lemma words_ok p : is_bytes p -> (64 <= length p)%nat -> words p = block_words p.
Proof.
  intros B L. unfold words, block_words. apply map_ext_in. intros i I. apply in_seq in I. rewrite four_at by lia. apply word_be.
  rewrite <- four_at by lia. apply is_bytes_forall. intros x X. apply (proj1 (is_bytes_forall p) B).
  rewrite <- (firstn_skipn (4 * i) p). apply in_or_app. right. rewrite <- (firstn_skipn 4 (skipn (4 * i) p)). apply in_or_app. left. exact X.
Qed.
Lemma compress_eq h s t nullt p : length h = 8%nat -> is32s h -> length s = 4%nat -> is32s s -> 0 <= t < 2 ^ 64 -> is_bytes p -> (64 <= length p)%nat ->
  compress h s t nullt p = blake_compress h s (if nullt then 0 else t) p /\ is32s (compress h s t nullt p) /\ length (compress h s t nullt p) = 8%nat.
Proof.
  intros Lh Fh Ls Fs T B L. unfold compress, blake_compress. rewrite words_ok by assumption. change csts with pi_words. change get with (fun (v : list Z) i => nth i v 0). cbn beta.
  assert (Hi : Z.shiftr t 32 mod 2 ^ 32 = t / 2 ^ 32). { rewrite Z.shiftr_div_pow2 by lia. apply Z.mod_small. split; [apply Z.div_pos; lia|apply Z.div_lt_upper_bound; lia]. }
  rewrite Hi. cbn zeta.
  set (v1 := h ++ _). set (v2 := h ++ _).
  assert (Ev : v1 = v2).
  { unfold v1, v2. f_equal. rewrite (Z.lxor_comm (nth 0 pi_words 0)), (Z.lxor_comm (nth 1 pi_words 0)), (Z.lxor_comm (nth 2 pi_words 0)), (Z.lxor_comm (nth 3 pi_words 0)).
    destruct nullt; [change (0 mod 2 ^ 32) with 0; change (0 / 2 ^ 32) with 0; rewrite !Z.lxor_0_l; reflexivity|].
    rewrite (Z.lxor_comm (nth 4 pi_words 0)), (Z.lxor_comm (nth 5 pi_words 0)), (Z.lxor_comm (nth 6 pi_words 0)), (Z.lxor_comm (nth 7 pi_words 0)). reflexivity. }
  assert (Ks : forall i, in32 (nth i pi_words 0)). { intros i. apply get_in. unfold pi_words. repeat (constructor; [unfold in32; lia|]). constructor. }
  assert (Tl : in32 (t mod 2 ^ 32)) by apply in32_mod. assert (Th : in32 (t / 2 ^ 32)) by (rewrite <- Hi; apply in32_mod).
  assert (W : wf v1).
  { split; [unfold v1; rewrite app_length, Lh; reflexivity|]. unfold v1. apply Forall_app. split; [exact Fh|]. destruct nullt; repeat (constructor; [first [apply in32_xor; [apply Ks|first [apply get_in; exact Fs|assumption]]|apply Ks]|]); constructor. }
  destruct (exec_acts (block_words p) code v1 code_ok W) as [E1 E2]. rewrite E1 in *. rewrite code_tpl in *. rewrite rounds_eq in * by exact (proj1 W). rewrite <- Ev.
  destruct E2 as [_ Fv]. split; [|split].
  - apply map_ext. intros i. rewrite !Z.lxor_assoc. f_equal. rewrite (Z.lxor_comm (nth (i mod 4) s 0)). rewrite !Z.lxor_assoc. reflexivity.
  - apply Forall_forall. intros x X. apply in_map_iff in X. destruct X as (i & <- & _). repeat apply in32_xor; apply get_in; assumption.
  - rewrite map_length, seq_length. reflexivity.
Qed.
