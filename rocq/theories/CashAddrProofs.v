(** Lemmas about the cash-address model. *)
From Coq Require Import String ZArith List Bool Lia ZifyBool ZifyNat.
From Verif Require Import Go GoFacts Base58Proofs Bech32Spec PolymodProofs PolymodFree Bech32Model Bech32Proofs Bech32Text ConvertBitsProofs CashAddrModel.
Import ListNotations.
Open Scope Z_scope.
Ltac Zify.zify_post_hook ::= Z.div_mod_to_equations.

(** ** The register *)
Lemma cash_step_eq c v : 0 <= c < 2 ^ 40 -> d5 v -> cash_step c v = gstep 35 gens40 c v.
Proof.
  intros Hc Hv. unfold d5 in Hv. unfold cash_step, gstep, shx, gens40. cbn [gsum].
  assert (E0 : u8 (Z.shiftr c 35) = Z.shiftr c 35).
  { unfold u8. apply Z.mod_small. rewrite Z.shiftr_div_pow2 by lia. change (2 ^ 35) with 34359738368.
    change (2 ^ 8) with 256. change (2 ^ 40) with 1099511627776 in Hc. lia. }
  rewrite E0. set (t := Z.shiftr c 35).
  pose proof (land_pow2 t 0 ltac:(lia)) as B0. pose proof (land_pow2 t 1 ltac:(lia)) as B1.
  pose proof (land_pow2 t 2 ltac:(lia)) as B2. pose proof (land_pow2 t 3 ltac:(lia)) as B3.
  pose proof (land_pow2 t 4 ltac:(lia)) as B4.
  change (2 ^ 0) with 1 in B0. change (2 ^ 1) with 2 in B1. change (2 ^ 2) with 4 in B2.
  change (2 ^ 3) with 8 in B3. change (2 ^ 4) with 16 in B4.
  rewrite B0, B1, B2, B3, B4. rewrite !negb_involutive. clear B0 B1 B2 B3 B4.
  change (Z.ones 35) with 34359738367.
  unfold i8_to_i64. replace (v <? 128) with true by lia.
  set (x := Z.shiftl (Z.land c 34359738367) 5).
  unfold xor_if.
  change (0 + 1) with 1. change (1 + 1) with 2. change (2 + 1) with 3. change (3 + 1) with 4.
  destruct (Z.testbit t 0), (Z.testbit t 1), (Z.testbit t 2), (Z.testbit t 3), (Z.testbit t 4); xbits.
Qed.
Lemma fold_cash vs : forall c, 0 <= c < 2 ^ 40 -> Forall d5 vs ->
  fold_left cash_step vs c = fold_left (gstep 35 gens40) vs c.
Proof.
  induction vs as [|v vs IH]; intros c Hc H; cbn [fold_left]; [reflexivity|].
  inversion H; subst. rewrite cash_step_eq by assumption. apply IH; [|assumption].
  apply (gstep_range 35 ltac:(lia) gens40 gens40_range); [lia|assumption].
Qed.
Definition digits8 (md : Z) : list Z := map (fun i => Z.land (Z.shiftr md (5 * (7 - i))) 31) [0; 1; 2; 3; 4; 5; 6; 7].
Lemma digits8_range md : Forall d5 (digits8 md).
Proof.
  unfold digits8, d5. cbn [map]. repeat constructor; rewrite ?land31; apply Z.mod_pos_bound; lia.
Qed.
Lemma fold_digits8 md : 0 <= md < 2 ^ 40 -> fold_left (gstep 35 gens40) (digits8 md) 0 = md.
Proof.
  intros Hm. rewrite fold_pack; [|lia|apply digits8_range|lia|vm_compute; congruence].
  unfold digits8. cbn [map]. rewrite !land31.
  change (5 * (7 - 0)) with 35. change (5 * (7 - 1)) with 30.
  change (5 * (7 - 2)) with 25. change (5 * (7 - 3)) with 20. change (5 * (7 - 4)) with 15.
  change (5 * (7 - 5)) with 10. change (5 * (7 - 6)) with 5. change (5 * (7 - 7)) with 0.
  rewrite !Z.shiftr_div_pow2 by lia. change (2 ^ 0) with 1. rewrite Z.div_1_r.
  change (2 ^ 40) with 1099511627776 in Hm. change (2 ^ 35) with 34359738368. change (2 ^ 30) with 1073741824.
  change (2 ^ 25) with 33554432. change (2 ^ 20) with 1048576. change (2 ^ 15) with 32768.
  change (2 ^ 10) with 1024. change (2 ^ 5) with 32.
  unfold bval. cbn [rev app lval]. lia.
Qed.
Lemma fold_checksum8 enc t s : Forall d5 enc -> 0 <= s < 2 ^ 40 -> 0 <= t < 2 ^ 40 ->
  fold_left (gstep 35 gens40) (enc ++ digits8 (Z.lxor (fold_left (gstep 35 gens40) (enc ++ zeros 8) s) t)) s = t.
Proof.
  intros He Hs Ht.
  set (r := fold_left (gstep 35 gens40) (enc ++ zeros 8) s).
  assert (Hr : 0 <= r < 2 ^ 40).
  { apply (fold_range 35 ltac:(lia) gens40 gens40_range); [|assumption].
    apply Forall_app; split; [assumption|apply zeros_range]. }
  assert (Hx : 0 <= Z.lxor r t < 2 ^ 40) by (apply lxor_range; (lia || assumption)).
  rewrite fold_left_app. set (c := fold_left (gstep 35 gens40) enc s).
  transitivity (Z.lxor (fold_left (gstep 35 gens40) (zeros 8) c) (fold_left (gstep 35 gens40) (digits8 (Z.lxor r t)) 0)).
  - rewrite <- (fold_xor2 35 gens40 (zeros 8) (digits8 (Z.lxor r t)) c 0) by reflexivity.
    rewrite Z.lxor_0_r. reflexivity.
  - rewrite fold_digits8 by assumption.
    assert (Er : fold_left (gstep 35 gens40) (zeros 8) c = r) by (unfold r, c; rewrite fold_left_app; reflexivity).
    rewrite Er. apply lxor_cancel.
Qed.
Lemma bch_expand_range : Forall d5 bch_expand.
Proof. repeat constructor; cbv; congruence. Qed.
Lemma cash_verify_calc ds : Forall d5 ds -> cash_verify bch_expand (ds ++ cash_checksum bch_expand ds) = true.
Proof.
  intros Hd. unfold cash_verify, cash_checksum. cbv zeta.
  change (map _ _) with (digits8 (cash_polymod (bch_expand ++ ds ++ zeros 8))).
  rewrite !app_assoc. set (enc := bch_expand ++ ds).
  assert (He : Forall d5 enc) by (apply Forall_app; split; [apply bch_expand_range|assumption]).
  assert (Hez : Forall d5 (enc ++ zeros 8)) by (apply Forall_app; split; [assumption|apply zeros_range]).
  unfold cash_polymod at 1. rewrite fold_cash; [|lia|].
  2: { apply Forall_app; split; [assumption|apply digits8_range]. }
  unfold cash_polymod. rewrite (fold_cash (enc ++ zeros 8)) by (try assumption; lia).
  rewrite fold_checksum8 by (try assumption; lia). reflexivity.
Qed.
Lemma cash_verify_fold ds : Forall d5 ds ->
  (cash_verify bch_expand ds = true <-> fold_left (gstep 35 gens40) ds (fold_left (gstep 35 gens40) bch_expand 1) = 1).
Proof.
  intros Hd. unfold cash_verify, cash_polymod.
  rewrite fold_cash; [|lia|apply Forall_app; split; [apply bch_expand_range|assumption]].
  rewrite fold_left_app. rewrite Z.eqb_eq. split; intros H; [apply Z.lxor_eq in H; exact H|]. rewrite H. reflexivity.
Qed.
Lemma cash_verify_errors a b : Forall d5 a -> Forall d5 b ->
  length a = length b -> (length a <= 89)%nat -> (0 < hamming a b <= 4)%nat ->
  cash_verify bch_expand a = true -> cash_verify bch_expand b = false.
Proof.
  intros Ha Hb Hl HN Hh Hv.
  destruct (cash_verify bch_expand b) eqn:E; [exfalso|reflexivity].
  apply cash_verify_fold in Hv; auto. apply cash_verify_fold in E; auto.
  apply (errors_detected40 a b (fold_left (gstep 35 gens40) bch_expand 1)); auto. congruence.
Qed.

(** ** Regrouping *)
Lemma or_last_gen e l v : 0 <= e <= 8 -> is_bytes l -> l <> [] -> be_num l mod 2 ^ e = 0 -> 0 <= v < 2 ^ e ->
  exists l', or_last l v = Ok l' /\ is_bytes l' /\ length l' = length l /\ be_num l' = be_num l + v.
Proof.
  intros He. assert (Hp : 2 ^ e * 2 ^ (8 - e) = 256) by (rewrite <- Z.pow_add_r by lia; replace (e + (8 - e)) with 8 by lia; reflexivity).
  assert (Hpos : 0 < 2 ^ e) by (apply Z.pow_pos_nonneg; lia).
  assert (Hpos8 : 0 < 2 ^ (8 - e)) by (apply Z.pow_pos_nonneg; lia).
  induction l as [|x l IH]; intros Hl Hn Hm Hv; [congruence|].
  apply is_bytes_cons in Hl. destruct Hl as [Hx Hl]. unfold is_byte in Hx.
  destruct l as [|y l].
  - cbn [or_last]. change (be_num [x]) with (0 * 256 + x) in *. cbn [Z.mul Z.add] in *.
    assert (E : Z.lor x v = x + v).
    { assert (Ex : x = 2 ^ e * (x / 2 ^ e)) by (pose proof (Z.div_mod x (2 ^ e)); lia).
      rewrite Ex at 1. rewrite Z.mul_comm, <- Z.shiftl_mul_pow2, lor_shift by lia. lia. }
    assert (x + v < 256).
    { assert (Ex : x = 2 ^ e * (x / 2 ^ e)) by (pose proof (Z.div_mod x (2 ^ e)); lia).
      set (q := x / 2 ^ e) in *. set (P := 2 ^ e) in *. set (Q := 2 ^ (8 - e)) in *. clear - Ex Hp Hx Hv Hpos Hpos8.
      assert (q + 1 <= Q) by nia. nia. }
    exists [Z.lor x v]. rewrite E. split; [reflexivity|]. split; [constructor; [unfold is_byte; lia|constructor]|].
    split; reflexivity.
  - rewrite be_num_cons in Hm.
    assert (Hd : 256 ^ zlen (y :: l) = 2 ^ e * (2 ^ (8 - e) * 256 ^ zlen l)).
    { rewrite zlen_cons, Z.pow_add_r by (pose proof (zlen_nonneg l); lia). change (256 ^ 1) with 256. rewrite <- Hp. ring. }
    assert (Hm' : be_num (y :: l) mod 2 ^ e = 0).
    { rewrite Hd in Hm. set (Q := be_num (y :: l)) in *.
      replace (x * (2 ^ e * (2 ^ (8 - e) * 256 ^ zlen l)) + Q) with (Q + (x * (2 ^ (8 - e) * 256 ^ zlen l)) * 2 ^ e) in Hm by ring.
      rewrite Z_mod_plus_full in Hm. exact Hm. }
    destruct (IH Hl ltac:(discriminate) Hm' Hv) as (l' & E & B & L & V).
    change (or_last (x :: y :: l) v) with (r' <- or_last (y :: l) v ;; Ok (x :: r')). rewrite E. cbn [bind].
    exists (x :: l'). repeat split.
    + apply is_bytes_cons; split; [unfold is_byte; lia|assumption].
    + cbn [length] in *; lia.
    + rewrite (be_num_cons x l'), (be_num_cons x (y :: l)), V. replace (zlen l') with (zlen (y :: l)) by (unfold zlen; lia). lia.
Qed.
Lemma mod_pow256 x l k : 0 <= k <= 8 -> 0 < zlen l -> ((2 ^ k * x) mod 256 ^ zlen (l : list Z)) mod 2 ^ k = 0.
Proof.
  intros Hk Hl.
  assert (E : 256 ^ zlen l = 2 ^ k * (2 ^ (8 - k) * 256 ^ (zlen l - 1))).
  { rewrite Z.mul_assoc, <- Z.pow_add_r by lia. replace (k + (8 - k)) with 8 by lia. change (2 ^ 8) with (256 ^ 1).
    rewrite <- Z.pow_add_r by lia. f_equal. lia. }
  assert (0 < 2 ^ k) by (apply Z.pow_pos_nonneg; lia).
  assert (0 < 2 ^ (8 - k) * 256 ^ (zlen l - 1)) by (apply Z.mul_pos_pos; apply Z.pow_pos_nonneg; lia).
  rewrite E, Z.mul_mod_distr_l by lia. rewrite Z.mul_comm. apply Z_mod_mult.
Qed.
Lemma len_zlen {A} (a b : list A) : length a = length b -> zlen a = zlen b.
Proof. unfold zlen. intros ->. reflexivity. Qed.
Lemma zlen_pos_ne {A} (l : list A) : l <> [] -> 0 < zlen l.
Proof. destruct l; [congruence|]. rewrite zlen_cons. pose proof (zlen_nonneg l). lia. Qed.
Lemma cash_unextend_loop_spec ds : forall ret, Forall d5 ds -> is_bytes ret -> ret <> [] -> be_num ret mod 32 = 0 ->
  exists out, cash_unextend_loop ds ret = Ok out /\ is_bytes out /\ length out = length ret /\ be_num out mod 32 = 0 /\
    be_num out = (be_num ret * 32 ^ zlen ds + 32 * bval 32 ds) mod 256 ^ zlen ret.
Proof.
  induction ds as [|d ds IH]; intros ret Hd Hr Hrn Hm.
  - exists ret. cbn [cash_unextend_loop]. repeat split; auto.
    change (zlen (@nil Z)) with 0. change (32 ^ 0) with 1. change (bval 32 []) with 0.
    pose proof (be_num_bound ret Hr). rewrite Z.mod_small; lia.
  - inversion Hd as [|? ? Hd1 Hds]; subst.
    destruct (or_last_spec ret d Hr Hrn Hm Hd1) as (r & E & B & L & V).
    cbn [cash_unextend_loop]. rewrite E. cbn [bind].
    destruct (byte_shl5_mod r B) as (A5 & B5 & L5).
    assert (Hrn' : r <> []) by (destruct ret; [congruence|]; intros E0; subst r; cbn in *; lia).
    assert (Hrn5 : byte_shl5 r <> []) by (destruct ret; [congruence|]; intros E0; rewrite E0 in L5; cbn in *; lia).
    assert (Hlr : zlen r = zlen ret) by (unfold zlen; lia).
    assert (Hm5 : be_num (byte_shl5 r) mod 32 = 0).
    { rewrite A5. apply (mod_pow256 (be_num r) r 5); [lia|apply zlen_pos_ne; assumption]. }
    destruct (IH (byte_shl5 r) Hds B5 Hrn5 Hm5) as (out & Eo & Bo & Lo & Mo & Vo).
    exists out. repeat split; auto; [congruence|].
    rewrite Vo. replace (zlen (byte_shl5 r)) with (zlen ret) by (apply len_zlen; congruence).
    rewrite A5, Hlr, V. rewrite (bval_cons 32 d), (zlen_cons d).
    rewrite Z.pow_add_r by (pose proof (zlen_nonneg ds); lia). change (32 ^ 1) with 32.
    assert (HP : 256 ^ zlen ret <> 0) by (pose proof (pow256_pos ret); lia).
    set (P := 256 ^ zlen ret) in *. set (K := 32 ^ zlen ds).
    rewrite <- Z.add_mod_idemp_l by assumption.
    rewrite Z.mul_mod_idemp_l by assumption.
    rewrite Z.add_mod_idemp_l by assumption.
    f_equal. ring.
Qed.
Lemma shl1_times_spec k : forall l, is_bytes l ->
  is_bytes (shl1_times k l) /\ length (shl1_times k l) = length l /\
  be_num (shl1_times k l) = (2 ^ Z.of_nat k * be_num l) mod 256 ^ zlen l.
Proof.
  induction k as [|k IH]; intros l Hl; cbn [shl1_times].
  - repeat split; auto. change (2 ^ Z.of_nat 0) with 1. pose proof (be_num_bound l Hl). rewrite Z.mod_small; lia.
  - destruct (byte_shl1_mod l Hl) as (A & B & C). destruct (IH _ B) as (B' & L' & V').
    repeat split; auto; [congruence|]. rewrite V', A. replace (zlen (byte_shl1 l)) with (zlen l) by (unfold zlen; lia).
    rewrite Z.mul_mod_idemp_r by (pose proof (pow256_pos l); lia). f_equal.
    rewrite Nat2Z.inj_succ, Z.pow_succ_r by lia. ring.
Qed.

(** All of the digits but the last, and the last one. *)
Lemma cash_unextend_spec ds a b : Forall d5 ds -> Forall d5 [a; b] ->
  let n := zlen (ds ++ [a; b]) in let r := (n * 5) mod 8 in
  exists out, cash_unextend (ds ++ [a; b]) = Ok out /\ is_bytes out /\ zlen out = n * 5 / 8 /\
    be_num out = (bval 32 (ds ++ [a]) * 2 ^ Z.max 0 (5 - r) + b / 2 ^ r) mod 256 ^ (n * 5 / 8).
Proof.
  intros Hd Hab n r. unfold cash_unextend. fold n.
  assert (Hn : n = zlen ds + 2) by (unfold n; rewrite zlen_app; reflexivity).
  pose proof (zlen_nonneg ds) as Hz.
  inversion Hab as [|? ? Ha Hb']; subst. inversion Hb' as [|? ? Hb _]; subst. clear Hab Hb'. unfold d5 in Ha, Hb.
  replace (firstn (Z.to_nat (n - 2)) (ds ++ [a; b])) with ds.
  2: { replace (Z.to_nat (n - 2)) with (length ds + 0)%nat by (unfold zlen in Hn; lia). rewrite firstn_app_2. cbn. symmetry. apply app_nil_r. }
  assert (HL : 1 <= n * 5 / 8) by (apply Z.div_le_lower_bound; lia).
  set (L := n * 5 / 8) in *. set (zs := zeros (Z.to_nat L)).
  assert (Hzn : zs <> []) by (unfold zs; destruct (Z.to_nat L) eqn:E; [lia|discriminate]).
  assert (Hz0 : be_num zs = 0) by (unfold zs; rewrite <- (app_nil_r (zeros (Z.to_nat L))), be_num_zeros; reflexivity).
  assert (Hzl : zlen zs = L) by (unfold zs; rewrite zlen_zeros; lia).
  destruct (cash_unextend_loop_spec ds zs Hd (is_bytes_zeros _) Hzn) as (o1 & E1 & B1 & L1 & M1 & V1).
  { rewrite Hz0. reflexivity. }
  rewrite E1. cbn [bind].
  assert (Ei : idx (ds ++ [a; b]) (n - 2) = Ok a).
  { replace (n - 2) with (zlen ds) by lia. apply (idx_mid ds a [b]); reflexivity. }
  assert (Ej : idx (ds ++ [a; b]) (n - 1) = Ok b).
  { replace (n - 1) with (zlen (ds ++ [a])) by (rewrite zlen_app; change (zlen [a]) with 1; lia).
    change (ds ++ [a; b]) with (ds ++ [a] ++ [b]). rewrite app_assoc. apply (idx_mid (ds ++ [a]) b []); reflexivity. }
  rewrite Ei. cbn [bind].
  assert (Ho1 : o1 <> []) by (intros E0; subst o1; destruct zs; [congruence|discriminate]).
  destruct (or_last_spec o1 a B1 Ho1 M1 Ha) as (o2 & E2 & B2 & L2 & V2). rewrite E2. cbn [bind].
  set (e := Z.to_nat (5 - (n * 5) mod 8)).
  destruct (shl1_times_spec e o2 B2) as (B3 & L3 & V3). rewrite Ej. cbn [bind].
  assert (Hr8 : 0 <= r < 8) by (apply Z.mod_pos_bound; lia).
  replace (u8 (5 - (5 - (n * 5) mod 8))) with r.
  2: { unfold u8. fold r. rewrite Z.mod_small by (change (2 ^ 8) with 256; lia). lia. }
  rewrite Z.shiftr_div_pow2 by lia.
  assert (Hze : Z.of_nat e = Z.max 0 (5 - r)) by (unfold e; fold r; lia).
  assert (Hbr : 0 <= b / 2 ^ r < 2 ^ Z.of_nat e).
  { split; [apply Z.div_pos; [lia|apply Z.pow_pos_nonneg; lia]|].
    apply Z.div_lt_upper_bound; [apply Z.pow_pos_nonneg; lia|]. rewrite <- Z.pow_add_r by lia.
    apply Z.lt_le_trans with (2 ^ 5); [lia|]. clear - Hze Hr8. apply Z.pow_le_mono_r; lia. }
  assert (Hz2 : zlen o2 = L) by (rewrite <- Hzl; apply len_zlen; congruence).
  assert (Ho2 : o2 <> []) by (intros E0; rewrite E0 in L2; destruct o1; [congruence|discriminate]).
  assert (Ho3 : shl1_times e o2 <> []) by (intros E0; rewrite E0 in L3; destruct o2; [congruence|discriminate]).
  destruct (or_last_gen (Z.of_nat e) (shl1_times e o2) (b / 2 ^ r)) as (o4 & E4 & B4 & L4 & V4); auto; [clear - Hze Hr8; lia| |].
  { rewrite V3. clear - Hze Hr8 Hz2 HL. apply mod_pow256; lia. }
  exists o4. split; [exact E4|]. split; [exact B4|]. assert (Hz4 : zlen o4 = L) by (rewrite <- Hz2; apply len_zlen; congruence).
  split; [exact Hz4|].
  assert (HPL : 256 ^ L <> 0) by (apply Z.pow_nonzero; lia).
  pose proof (be_num_bound o4 B4) as Hb4. rewrite Hz4 in Hb4.
  rewrite <- (Z.mod_small (be_num o4) (256 ^ L)) by exact Hb4.
  rewrite V4, V3, Hz2.
  rewrite V2, V1, Hz0, Hzl, Hze. rewrite bval_app. change (zlen [a]) with 1. change (32 ^ 1) with 32.
  change (bval 32 [a]) with (a + 32 * 0).
  set (P := 256 ^ L) in *. set (K := 2 ^ Z.max 0 (5 - r)). set (W := b / 2 ^ r).
  rewrite Z.add_mod_idemp_l by assumption. set (X := 0 * _ + _).
  rewrite (Z.mod_eq X P) by assumption.
  replace (K * (X - P * (X / P) + a) + W) with ((K * (X + a) + W) + (- (K * (X / P))) * P) by ring.
  rewrite Z_mod_plus_full. f_equal. unfold X. ring.
Qed.

(** The regrouping is undone for every non-empty payload. *)
Lemma split_last2 (l : list Z) : (2 <= length l)%nat -> exists ds a b, l = ds ++ [a; b].
Proof.
  intros H. destruct (exists_last (l := l)) as (l1 & b & ->); [intros ->; cbn in H; lia|].
  rewrite app_length in H. cbn [length] in H.
  destruct (exists_last (l := l1)) as (ds & a & ->); [intros ->; cbn in H; lia|].
  exists ds, a, b. rewrite <- app_assoc. reflexivity.
Qed.
Lemma cash_unextend_extend p : is_bytes p -> p <> [] -> cash_unextend (extend_payload p) = Ok p.
Proof.
  intros Hp Hn. destruct (extend_spec p Hp) as (L & D & V & Hpad).
  assert (Hl : 1 <= zlen p) by (pose proof (zlen_pos_ne p Hn); lia).
  assert (Hg : (2 <= groups5 (length p))%nat) by (unfold zlen in *; lia).
  destruct (split_last2 (extend_payload p) ltac:(lia)) as (ds & a & b & E).
  set (pad := 5 * Z.of_nat (groups5 (length p)) - 8 * zlen p) in *.
  assert (HzE : zlen (extend_payload p) = Z.of_nat (groups5 (length p))) by (unfold zlen; rewrite L; reflexivity).
  rewrite E in *. apply Forall_app in D. destruct D as [D1 D2].
  destruct (cash_unextend_spec ds a b D1 D2) as (out & Eo & Bo & Lo & Vo).
  rewrite HzE in *. set (n := Z.of_nat (groups5 (length p))) in *.
  assert (Hn5 : n * 5 = 8 * zlen p + pad) by (unfold pad; lia).
  assert (Hr : (n * 5) mod 8 = pad) by (rewrite Hn5, Z.add_comm, Z.mul_comm, Z_mod_plus_full; apply Z.mod_small; lia).
  assert (Hq : n * 5 / 8 = zlen p) by (rewrite Hn5, Z.mul_comm, Z.div_add_l by lia; rewrite (Z.div_small pad 8) by lia; lia).
  rewrite Hr, Hq in *. rewrite Eo. f_equal.
  apply be_num_inj; auto; [unfold zlen in Lo; lia|]. rewrite Vo.
  change [a; b] with ([a] ++ [b]) in V. rewrite app_assoc, bval_app in V. change (zlen [b]) with 1 in V. change (32 ^ 1) with 32 in V.
  change (bval 32 [b]) with (b + 32 * 0) in V. set (F := bval 32 (ds ++ [a])) in *.
  replace (F * 2 ^ Z.max 0 (5 - pad) + b / 2 ^ pad) with (be_num p).
  - apply Z.mod_small. apply be_num_bound. assumption.
  - replace (Z.max 0 (5 - pad)) with (5 - pad) by lia.
    assert (Hpp : 0 < 2 ^ pad) by (apply Z.pow_pos_nonneg; lia).
    assert (E32 : 32 = 2 ^ (5 - pad) * 2 ^ pad) by (rewrite <- Z.pow_add_r by lia; replace (5 - pad + pad) with 5 by lia; reflexivity).
    rewrite E32 in V. rewrite <- Z.div_add_l by lia.
    replace (F * 2 ^ (5 - pad) * 2 ^ pad + b) with (be_num p * 2 ^ pad) by lia.
    rewrite Z.div_mul by lia. reflexivity.
Qed.

(** ** Text *)
(** Upper-casing of a letter. *)
Definition upc (c : Z) : Z := if (97 <=? c) && (c <=? 122) then c - 32 else c.
Definition usym_ok (d : Z) : bool :=
  let c := upc (bsym d) in
  (c <? 128) && (((65 <=? c) && (c <=? 90)) || ((48 <=? c) && (c <=? 57))) &&
  match idx charset_rev c with Ok v => v =? d | _ => false end.
Lemma usym_facts d : d5 d -> usym_ok d = true.
Proof. apply (forall32 usym_ok). vm_compute. reflexivity. Qed.
Lemma rev_lookup_usyms ds : Forall d5 ds -> rev_lookup (map upc (map bsym ds)) = Ok ds.
Proof.
  induction 1 as [|d ds Hd _ IH]; [reflexivity|]. cbn [rev_lookup map].
  pose proof (usym_facts d Hd) as F. unfold usym_ok in F. cbv zeta in F.
  apply andb_true_iff in F. destruct F as [F1 F2].
  replace (127 <? upc (bsym d)) with false by lia.
  destruct (idx charset_rev (upc (bsym d))) as [v| |]; try discriminate. cbn [bind].
  assert (v = d) by lia. subst v. assert (0 <= d < 32) by exact Hd. replace (d =? -1) with false by lia.
  rewrite IH. reflexivity.
Qed.
Lemma cash_scan_data ds : Forall d5 ds -> forall i lo hn ps, exists lo',
  cash_scan (map bsym ds) i lo false hn ps = Ok (lo', false, ps).
Proof.
  induction 1 as [|d ds Hd _ IH]; intros i lo hn ps; [exists lo; reflexivity|].
  cbn [map cash_scan]. pose proof (bsym_facts d Hd) as F. unfold bsym_ok in F. cbv zeta in F.
  apply andb_true_iff in F. destruct F as [F _].
  destruct ((97 <=? bsym d) && (bsym d <=? 122)) eqn:E1; [apply IH|].
  replace ((65 <=? bsym d) && (bsym d <=? 90)) with false by lia.
  replace ((48 <=? bsym d) && (bsym d <=? 57)) with true by lia.
  apply IH.
Qed.
Lemma cash_scan_udata ds : Forall d5 ds -> forall i up hn ps, exists up',
  cash_scan (map upc (map bsym ds)) i false up hn ps = Ok (false, up', ps).
Proof.
  induction 1 as [|d ds Hd _ IH]; intros i up hn ps; [exists up; reflexivity|].
  cbn [map cash_scan]. pose proof (usym_facts d Hd) as F. unfold usym_ok in F. cbv zeta in F.
  apply andb_true_iff in F. destruct F as [F _].
  replace ((97 <=? upc (bsym d)) && (upc (bsym d) <=? 122)) with false by lia.
  destruct ((65 <=? upc (bsym d)) && (upc (bsym d) <=? 90)) eqn:E1; [apply IH|].
  replace ((48 <=? upc (bsym d)) && (upc (bsym d) <=? 57)) with true by lia.
  apply IH.
Qed.
Lemma cash_scan_prefix p : Forall (fun c => 97 <= c <= 122) p -> forall rest i lo,
  cash_scan (p ++ rest) i lo false false 0 = cash_scan rest (i + zlen p) (match p with [] => lo | _ => true end) false false 0.
Proof.
  induction 1 as [|c p Hc _ IH]; intros rest i lo; cbn [app cash_scan].
  - change (zlen (@nil Z)) with 0. f_equal. lia.
  - replace ((97 <=? c) && (c <=? 122)) with true by lia. rewrite IH. rewrite zlen_cons.
    replace (i + 1 + zlen p) with (i + (1 + zlen p)) by lia. destruct p; reflexivity.
Qed.
Lemma cash_scan_uprefix p : Forall (fun c => 65 <= c <= 90) p -> forall rest i up,
  cash_scan (p ++ rest) i false up false 0 = cash_scan rest (i + zlen p) false (match p with [] => up | _ => true end) false 0.
Proof.
  induction 1 as [|c p Hc _ IH]; intros rest i lo; cbn [app cash_scan].
  - change (zlen (@nil Z)) with 0. f_equal. lia.
  - replace ((97 <=? c) && (c <=? 122)) with false by lia.
    replace ((65 <=? c) && (c <=? 90)) with true by lia. rewrite IH. rewrite zlen_cons.
    replace (i + 1 + zlen p) with (i + (1 + zlen p)) by lia. destruct p; reflexivity.
Qed.
Lemma before_notin sep p rest : ~ In sep p -> before sep (p ++ sep :: rest) = p.
Proof.
  induction p as [|c p IH]; intros H; cbn [app before]; [rewrite Z.eqb_refl; reflexivity|].
  destruct (Z.eqb_spec c sep) as [->|]; [exfalso; apply H; left; reflexivity|].
  rewrite IH; [reflexivity|]. intros Hi. apply H. right. exact Hi.
Qed.
Lemma before_absent sep p : ~ In sep p -> before sep p = p.
Proof.
  induction p as [|c p IH]; intros H; cbn [before]; [reflexivity|].
  destruct (Z.eqb_spec c sep) as [->|]; [exfalso; apply H; left; reflexivity|].
  rewrite IH; [reflexivity|]. intros Hi. apply H. right. exact Hi.
Qed.
Definition cash_tail (chk : bool) (ds : list Z) : res (list Z) :=
  if chk && negb (cash_verify bch_expand ds) then Err else
  if zlen ds <? 8 then Panic else cash_unextend (firstn (length ds - 8) ds).
Lemma cash_body p ds lo up body : ~ In 58 p -> p <> [] ->
  length body = length ds -> rev_lookup body = Ok ds -> up && lo = false ->
  cash_scan (p ++ [58] ++ body) 0 false false false 0 = Ok (lo, up, zlen p) ->
  cash_decode (p ++ [58] ++ body) = cash_tail (beq p bitcoincash) ds.
Proof.
  intros Hi Hn Hl Hr Hlu Hs. unfold cash_decode. rewrite Hs. cbn [bind]. cbv beta zeta. rewrite Hlu.
  cbn [app]. rewrite before_notin by assumption. rewrite zlen_app, zlen_cons.
  replace (zlen p + (1 + zlen body) - (zlen p + 1) <? 0) with false by (pose proof (zlen_nonneg body); lia).
  replace (Z.to_nat (zlen p + 1)) with (length (p ++ [58])) by (rewrite app_length; cbn [length]; unfold zlen; lia).
  change (p ++ 58 :: body) with (p ++ [58] ++ body). rewrite app_assoc.
  rewrite skipn_app, skipn_all, Nat.sub_diag. cbn [skipn app]. rewrite Hr. reflexivity.
Qed.
Lemma cash_decode_structured p ds : lower_prefix p -> Forall d5 ds ->
  cash_decode (p ++ [58] ++ map bsym ds) = cash_tail (beq p bitcoincash) ds.
Proof.
  intros [Hn Hp] Hd. pose proof (zlen_pos_ne p Hn) as Hz.
  destruct (cash_scan_data ds Hd (zlen p + 1) true false (zlen p)) as (lo & E).
  apply (cash_body p ds lo false); auto.
  - intros Hi. rewrite Forall_forall in Hp. apply Hp in Hi. lia.
  - apply map_length.
  - apply rev_lookup_bsyms; assumption.
  - rewrite (cash_scan_prefix p Hp). cbn [app cash_scan Z.leb Z.compare Pos.compare Pos.compare_cont andb Z.eqb Pos.eqb].
    replace (false || (0 + zlen p =? 0) || negb true) with false by (cbn; lia).
    replace (match p with [] => false | _ => true end) with true by (destruct p; [congruence|reflexivity]).
    exact E.
Qed.
Lemma cash_decode_upper p ds : p <> [] -> Forall (fun c => 65 <= c <= 90) p -> Forall d5 ds ->
  cash_decode (p ++ [58] ++ map upc (map bsym ds)) = cash_tail false ds.
Proof.
  intros Hn Hp Hd. pose proof (zlen_pos_ne p Hn) as Hz.
  destruct (cash_scan_udata ds Hd (zlen p + 1) true false (zlen p)) as (up & E).
  assert (Eb : beq p bitcoincash = false).
  { destruct p as [|c p]; [congruence|]. inversion Hp; subst. change bitcoincash with (98 :: skipn 1 bitcoincash). cbn [beq].
    replace (c =? 98) with false by lia. reflexivity. }
  rewrite <- Eb. apply (cash_body p ds false up); auto.
  - intros Hi. rewrite Forall_forall in Hp. apply Hp in Hi. lia.
  - rewrite !map_length. reflexivity.
  - apply rev_lookup_usyms; assumption.
  - destruct up; reflexivity.
  - rewrite (cash_scan_uprefix p Hp). cbn [app cash_scan Z.leb Z.compare Pos.compare Pos.compare_cont andb Z.eqb Pos.eqb].
    replace (false || (0 + zlen p =? 0) || negb true) with false by (cbn; lia).
    replace (match p with [] => false | _ => true end) with true by (destruct p; [congruence|reflexivity]).
    exact E.
Qed.
Lemma bsym_no_colon ds : Forall d5 ds -> ~ In 58 (map bsym ds).
Proof.
  intros Hd Hi. apply in_map_iff in Hi. destruct Hi as (d & E & Hi). rewrite Forall_forall in Hd.
  pose proof (bsym_facts d (Hd d Hi)) as F. unfold bsym_ok in F. rewrite E in F. cbn in F. discriminate.
Qed.
Lemma cash_decode_bare d0 ds : d5 d0 -> Forall d5 ds ->
  cash_decode (map bsym (d0 :: ds)) = cash_tail false ds.
Proof.
  intros H0 Hd. assert (Hd' : Forall d5 (d0 :: ds)) by (constructor; assumption).
  unfold cash_decode. destruct (cash_scan_data (d0 :: ds) Hd' 0 false false 0) as (lo & E). rewrite E. cbn [bind]. cbv beta zeta.
  cbn [andb]. rewrite before_absent by (apply bsym_no_colon; assumption).
  rewrite zlen_map, zlen_cons. replace (1 + zlen ds - (0 + 1) <? 0) with false by (pose proof (zlen_nonneg ds); lia).
  cbn [map]. change (Z.to_nat (0 + 1)) with 1%nat. cbn [skipn]. rewrite rev_lookup_bsyms by assumption. cbn [bind].
  unfold cash_tail. replace (beq _ bitcoincash) with false; [reflexivity|].
  destruct (beq _ bitcoincash) eqn:Eb; [|reflexivity]. apply beq_eq in Eb.
  injection Eb as Eb _. pose proof (bsym_facts d0 H0) as F. unfold bsym_ok in F. rewrite Eb in F.
  apply andb_true_iff in F. destruct F as [_ F]. cbn in F. apply Z.eqb_eq in F. unfold d5 in H0. lia.
Qed.
