(** Lemmas about the bech32 model. *)
From Coq Require Import String ZArith List Bool Lia ZifyBool ZifyNat.
From Verif Require Import Go GoFacts Base58Proofs Bech32Spec PolymodProofs PolymodFree Bech32Model.
Import ListNotations.
Open Scope Z_scope.
Ltac Zify.zify_post_hook ::= Z.div_mod_to_equations.

Definition d5 (v : Z) : Prop := 0 <= v < 32.

(** ** The register *)
Lemma poly_step_eq c v : 0 <= c < 2 ^ 30 -> d5 v -> poly_step c v = gstep 25 gens30 c v.
Proof.
  intros Hc Hv. unfold d5 in Hv. unfold poly_step, gstep, shx, gens30. cbn [gsum].
  assert (E0 : u8 (Z.shiftr c 25) = Z.shiftr c 25).
  { unfold u8. apply Z.mod_small. rewrite Z.shiftr_div_pow2 by lia. change (2 ^ 25) with 33554432.
    change (2 ^ 8) with 256. change (2 ^ 30) with 1073741824 in Hc. lia. }
  rewrite E0. set (t := Z.shiftr c 25).
  pose proof (land_pow2 t 0 ltac:(lia)) as B0. pose proof (land_pow2 t 1 ltac:(lia)) as B1.
  pose proof (land_pow2 t 2 ltac:(lia)) as B2. pose proof (land_pow2 t 3 ltac:(lia)) as B3.
  pose proof (land_pow2 t 4 ltac:(lia)) as B4.
  change (2 ^ 0) with 1 in B0. change (2 ^ 1) with 2 in B1. change (2 ^ 2) with 4 in B2.
  change (2 ^ 3) with 8 in B3. change (2 ^ 4) with 16 in B4.
  rewrite B0, B1, B2, B3, B4. rewrite !negb_involutive. clear B0 B1 B2 B3 B4.
  change (Z.ones 25) with 33554431.
  assert (E1 : u32 (Z.shiftl (Z.land c 33554431) 5) = Z.shiftl (Z.land c 33554431) 5).
  { unfold u32. apply Z.mod_small. change 33554431 with (Z.ones 25). rewrite Z.land_ones, Z.shiftl_mul_pow2 by lia.
    change (2 ^ 25) with 33554432. change (2 ^ 32) with 4294967296. change (2 ^ 5) with 32. lia. }
  rewrite E1. unfold i8_to_u32. replace (v <? 128) with true by lia.
  set (x := Z.shiftl (Z.land c 33554431) 5).
  unfold xor_if.
  change (0 + 1) with 1. change (1 + 1) with 2. change (2 + 1) with 3. change (3 + 1) with 4.
  destruct (Z.testbit t 0), (Z.testbit t 1), (Z.testbit t 2), (Z.testbit t 3), (Z.testbit t 4); xbits.
Qed.
Lemma fold_poly vs c : 0 <= c < 2 ^ 30 -> Forall d5 vs ->
  fold_left poly_step vs c = fold_left (gstep 25 gens30) vs c.
Proof.
  intros Hc H; revert c Hc; induction H as [|v vs Hv _ IH]; intros c Hc; cbn [fold_left]; [reflexivity|].
  rewrite poly_step_eq by assumption. apply IH.
  change (2 ^ 30) with (2 ^ (25 + 5)). apply gstep_range; try lia. apply gens30_range. exact Hv.
Qed.
Lemma zeros_range n : Forall d5 (zeros n).
Proof. apply Forall_forall. intros x H. apply repeat_spec in H. subst. unfold d5; lia. Qed.

Definition digits6 (md : Z) : list Z := map (fun i => Z.land (Z.shiftr md (5 * (5 - i))) 31) [0; 1; 2; 3; 4; 5].
Lemma land31 x : Z.land x 31 = x mod 32.
Proof. change 31 with (Z.ones 5). rewrite Z.land_ones by lia. reflexivity. Qed.
Lemma digits6_range md : Forall d5 (digits6 md).
Proof.
  unfold digits6, d5. cbn [map]. repeat constructor; rewrite ?land31; apply Z.mod_pos_bound; lia.
Qed.
Lemma bval_cons base x l : bval base (x :: l) = x * base ^ zlen l + bval base l.
Proof.
  unfold bval. cbn [rev]. rewrite lval_app. rewrite zlen_rev. cbn [lval]. ring.
Qed.
Lemma fold_pack m gens ds : 0 <= m -> Forall d5 ds -> forall c, 0 <= c -> (c + 1) * 32 ^ zlen ds <= 32 * 2 ^ m ->
  fold_left (gstep m gens) ds c = c * 32 ^ zlen ds + bval 32 ds.
Proof.
  intros Hm H; induction H as [|d ds Hd _ IH]; intros c Hc Hb; cbn [fold_left].
  - change (zlen (@nil Z)) with 0. change (32 ^ 0) with 1. change (bval 32 []) with 0. lia.
  - unfold d5 in Hd. rewrite zlen_cons, Z.pow_add_r in Hb by (pose proof (zlen_nonneg ds); lia). change (32 ^ 1) with 32 in Hb.
    assert (0 < 32 ^ zlen ds) by (apply Z.pow_pos_nonneg; [lia|apply zlen_nonneg]).
    rewrite gstep_small by (try assumption; nia). rewrite IH by nia.
    rewrite bval_cons, zlen_cons, Z.pow_add_r by (pose proof (zlen_nonneg ds); lia). change (32 ^ 1) with 32. ring.
Qed.
Lemma fold_digits6 md : 0 <= md < 2 ^ 30 -> fold_left (gstep 25 gens30) (digits6 md) 0 = md.
Proof.
  intros Hm. rewrite fold_pack; [|lia|apply digits6_range|lia|vm_compute; congruence].
  unfold digits6. cbn [map]. rewrite !land31.
  change (5 * (5 - 0)) with 25. change (5 * (5 - 1)) with 20. change (5 * (5 - 2)) with 15.
  change (5 * (5 - 3)) with 10. change (5 * (5 - 4)) with 5. change (5 * (5 - 5)) with 0.
  rewrite !Z.shiftr_div_pow2 by lia. change (2 ^ 0) with 1. rewrite Z.div_1_r.
  change (2 ^ 30) with 1073741824 in Hm.
  change (2 ^ 25) with 33554432. change (2 ^ 20) with 1048576. change (2 ^ 15) with 32768.
  change (2 ^ 10) with 1024. change (2 ^ 5) with 32.
  unfold bval. cbn [rev app lval]. lia.
Qed.

(** Feeding [enc ++ 6 zeros], then replacing the zeros by the digits of the remainder. *)
Lemma fold_checksum enc t s : Forall d5 enc -> 0 <= s < 2 ^ 30 -> 0 <= t < 2 ^ 30 ->
  fold_left (gstep 25 gens30) (enc ++ digits6 (Z.lxor (fold_left (gstep 25 gens30) (enc ++ zeros 6) s) t)) s = t.
Proof.
  intros He Hs Ht.
  set (r := fold_left (gstep 25 gens30) (enc ++ zeros 6) s).
  assert (Hr : 0 <= r < 2 ^ 30).
  { apply (fold_range 25 ltac:(lia) gens30 gens30_range); [|assumption].
    apply Forall_app; split; [assumption|apply zeros_range]. }
  assert (Hx : 0 <= Z.lxor r t < 2 ^ 30) by (apply lxor_range; (lia || assumption)).
  rewrite fold_left_app. set (c := fold_left (gstep 25 gens30) enc s).
  transitivity (Z.lxor (fold_left (gstep 25 gens30) (zeros 6) c) (fold_left (gstep 25 gens30) (digits6 (Z.lxor r t)) 0)).
  - rewrite <- (fold_xor2 25 gens30 (zeros 6) (digits6 (Z.lxor r t)) c 0) by reflexivity.
    rewrite Z.lxor_0_r. reflexivity.
  - rewrite fold_digits6 by assumption.
    assert (Er : fold_left (gstep 25 gens30) (zeros 6) c = r) by (unfold r, c; rewrite fold_left_app; reflexivity).
    rewrite Er. apply lxor_cancel.
Qed.

Lemma expand_range p : Forall (fun c => 97 <= c <= 122) p -> Forall d5 (expand_prefix p).
Proof.
  intros H. unfold expand_prefix. apply Forall_app; split; [|constructor; [unfold d5; lia|]].
  - apply Forall_map. eapply Forall_impl; [|exact H]. intros c Hc. cbv beta in *. unfold d5. rewrite Z.shiftr_div_pow2 by lia.
    change (2 ^ 5) with 32. lia.
  - apply Forall_map. eapply Forall_impl; [|exact H]. intros c Hc. cbv beta in *. unfold d5. rewrite land31. lia.
Qed.
Lemma poly_mod_range v : Forall d5 v -> 0 <= poly_mod v < 2 ^ 30.
Proof.
  intros H. unfold poly_mod. rewrite fold_poly by (try assumption; lia).
  apply lxor_range; [lia| |lia].
  apply (fold_range 25 ltac:(lia) gens30 gens30_range); [assumption|lia].
Qed.
Lemma calc_checksum_digits p ds : calc_checksum p ds = digits6 (poly_mod ((expand_prefix p ++ ds) ++ zeros 6)).
Proof. reflexivity. Qed.
Lemma verify_calc p ds : Forall (fun c => 97 <= c <= 122) p -> Forall d5 ds ->
  verify_checksum p (ds ++ calc_checksum p ds) = true.
Proof.
  intros Hp Hd. unfold verify_checksum. rewrite calc_checksum_digits, app_assoc.
  set (enc := expand_prefix p ++ ds).
  assert (He : Forall d5 enc) by (apply Forall_app; split; [apply expand_range|]; assumption).
  assert (Hez : Forall d5 (enc ++ zeros 6)) by (apply Forall_app; split; [assumption|apply zeros_range]).
  unfold poly_mod at 1. rewrite fold_poly; [|lia|].
  2: { apply Forall_app; split; [assumption|apply digits6_range]. }
  unfold poly_mod. rewrite (fold_poly (enc ++ zeros 6)) by (try assumption; lia).
  rewrite fold_checksum by (try assumption; lia). reflexivity.
Qed.

(** ** Shifting arrays *)
Lemma lor_plus x v : x mod 32 = 0 -> 0 <= x -> d5 v -> Z.lor x v = x + v.
Proof.
  intros Hx H0 Hv. unfold d5 in Hv. rewrite <- Z.lxor_lor, Z.add_nocarry_lxor; auto.
  all: apply Z.bits_inj'; intros k Hk; rewrite Z.land_spec, Z.bits_0;
    destruct (Z_lt_le_dec k 5);
    [ replace x with (Z.shiftl (x / 32) 5) by (rewrite Z.shiftl_mul_pow2 by lia; change (2 ^ 5) with 32; lia);
      rewrite Z.shiftl_spec_low by lia; reflexivity
    | rewrite (small_testbit 5 v) by (try lia; change (2 ^ 5) with 32; lia); apply andb_false_r ].
Qed.
Lemma lor_bit x b : x mod 2 = 0 -> 0 <= x -> 0 <= b < 2 -> Z.lor x b = x + b.
Proof.
  intros Hx H0 Hb. rewrite <- Z.lxor_lor, Z.add_nocarry_lxor; auto.
  all: apply Z.bits_inj'; intros k Hk; rewrite Z.land_spec, Z.bits_0;
    destruct (Z_lt_le_dec k 1);
    [ replace x with (Z.shiftl (x / 2) 1) by (rewrite Z.shiftl_mul_pow2 by lia; change (2 ^ 1) with 2; lia);
      rewrite Z.shiftl_spec_low by lia; reflexivity
    | rewrite (small_testbit 1 b) by (try lia; change (2 ^ 1) with 2; lia); apply andb_false_r ].
Qed.
Lemma byte_shl1_spec l : is_bytes l ->
  be_num (byte_shl1 l) + (hd 0 l / 128) * 256 ^ zlen l = 2 * be_num l /\ is_bytes (byte_shl1 l) /\ length (byte_shl1 l) = length l.
Proof.
  induction l as [|x l IH]; intros H; [cbn; repeat split; constructor|].
  apply is_bytes_cons in H. destruct H as [Hx Hl]. unfold is_byte in Hx.
  specialize (IH Hl). destruct l as [|y l].
  - cbn [byte_shl1 hd]. rewrite Z.shiftl_mul_pow2 by lia. unfold u8. change (2 ^ 8) with 256. change (2 ^ 1) with 2.
    change (be_num [x * 2 mod 256]) with (0 * 256 + x * 2 mod 256). change (be_num [x]) with (0 * 256 + x).
    change (256 ^ zlen [x]) with 256. repeat split; [lia|].
    constructor; [unfold is_byte; lia|constructor].
  - change (byte_shl1 (x :: y :: l)) with (Z.lor (u8 (Z.shiftl x 1)) (Z.land (Z.shiftr y 7) 1) :: byte_shl1 (y :: l)).
    destruct IH as (IH1 & IH2 & IH3). cbn [hd] in *.
    apply is_bytes_cons in Hl. destruct Hl as [Hy _]. unfold is_byte in Hy.
    assert (E : Z.lor (u8 (Z.shiftl x 1)) (Z.land (Z.shiftr y 7) 1) = (x * 2) mod 256 + y / 128).
    { rewrite Z.shiftl_mul_pow2, Z.shiftr_div_pow2 by lia. change 1 with (Z.ones 1) at 2. rewrite Z.land_ones by lia.
      unfold u8. change (2 ^ 8) with 256. change (2 ^ 1) with 2. change (2 ^ 7) with 128.
      rewrite lor_bit; [|lia|lia|lia]. f_equal. apply Z.mod_small. lia. }
    rewrite E. repeat split.
    + rewrite be_num_cons, (be_num_cons x (y :: l)), (zlen_cons x).
      assert (El : zlen (byte_shl1 (y :: l)) = zlen (y :: l)) by (unfold zlen; lia).
      rewrite El. rewrite Z.pow_add_r by (pose proof (zlen_nonneg (y :: l)); lia).
      change (256 ^ 1) with 256.
      set (P := 256 ^ zlen (y :: l)) in *.
      assert (x * 2 = 256 * (x / 128) + (x * 2) mod 256) by lia. nia.
    + apply is_bytes_cons; split; [unfold is_byte; lia|assumption].
    + cbn [length] in *. lia.
Qed.
Lemma byte_shl1_mod l : is_bytes l ->
  be_num (byte_shl1 l) = (2 * be_num l) mod 256 ^ zlen l /\ is_bytes (byte_shl1 l) /\ length (byte_shl1 l) = length l.
Proof.
  intros H. destruct (byte_shl1_spec l H) as (A & B & C). repeat split; auto.
  pose proof (be_num_bound _ B) as Hb.
  replace (zlen (byte_shl1 l)) with (zlen l) in Hb by (unfold zlen; lia).
  apply Z.mod_unique with (q := hd 0 l / 128); [left; lia|]. rewrite <- A. ring.
Qed.
Definition scaled (l0 : list Z) (k : Z) (l : list Z) : Prop :=
  be_num l = (k * be_num l0) mod 256 ^ zlen l0 /\ is_bytes l /\ length l = length l0.
Lemma byte_shl1_scaled l0 k l : scaled l0 k l -> scaled l0 (2 * k) (byte_shl1 l).
Proof.
  intros (A & B & C). destruct (byte_shl1_mod l B) as (A1 & B1 & C1). repeat split; auto; [|congruence].
  rewrite A1, A. replace (zlen l) with (zlen l0) by (unfold zlen; lia).
  rewrite Zmult_mod_idemp_r. f_equal. ring.
Qed.
Lemma byte_shl5_mod l : is_bytes l ->
  be_num (byte_shl5 l) = (32 * be_num l) mod 256 ^ zlen l /\ is_bytes (byte_shl5 l) /\ length (byte_shl5 l) = length l.
Proof.
  intros H0.
  assert (H1 : scaled l 1 l).
  { repeat split; auto. rewrite Z.mul_1_l, Z.mod_small; [reflexivity|]. apply be_num_bound; assumption. }
  exact (byte_shl1_scaled l 16 _ (byte_shl1_scaled l 8 _ (byte_shl1_scaled l 4 _ (byte_shl1_scaled l 2 _ (byte_shl1_scaled l 1 _ H1))))).
Qed.

(** ** Regrouping *)
Lemma top5 l : is_bytes l -> l <> [] ->
  let d := Z.land (Z.shiftr (hd 0 l) 3) 31 in d5 d /\ d = 32 * be_num l / 256 ^ zlen l.
Proof.
  intros Hl Hn d. destruct l as [|x l]; [congruence|]. cbn [hd] in d.
  apply is_bytes_cons in Hl. destruct Hl as [Hx Hl]. unfold is_byte in Hx.
  assert (E : d = x / 8).
  { unfold d. rewrite land31, Z.shiftr_div_pow2 by lia. change (2 ^ 3) with 8. apply Z.mod_small. lia. }
  split; [unfold d5; lia|]. rewrite E.
  rewrite be_num_cons, zlen_cons, Z.pow_add_r by (pose proof (zlen_nonneg l); lia). change (256 ^ 1) with 256.
  pose proof (be_num_bound l Hl) as Hb. set (P := 256 ^ zlen l) in *.
  apply Z.div_unique with (r := 32 * (x mod 8) * P + 32 * be_num l); [|nia].
  left. assert (0 <= x mod 8 < 8) by lia. nia.
Qed.
Lemma bval_app base a b : bval base (a ++ b) = bval base a * base ^ zlen b + bval base b.
Proof. unfold bval. rewrite rev_app_distr, lval_app, zlen_rev. ring. Qed.

Lemma extend_loop_spec k : forall p ds q, is_bytes p -> p <> [] -> extend_loop k p = (ds, q) ->
  length ds = k /\ Forall d5 ds /\ is_bytes q /\ length q = length p /\
  bval 32 ds * 256 ^ zlen p + be_num q = be_num p * 32 ^ Z.of_nat k.
Proof.
  induction k as [|k IH]; intros p ds q Hp Hn E; cbn [extend_loop] in E.
  - injection E as <- <-. repeat split; auto. change (bval 32 []) with 0. change (32 ^ Z.of_nat 0) with 1. lia.
  - destruct (extend_loop k (byte_shl5 p)) as [ds' q'] eqn:E'. injection E as <- <-.
    destruct (byte_shl5_mod p Hp) as (A & B & C).
    assert (Hn' : byte_shl5 p <> []) by (destruct p; [congruence|]; intros E0; rewrite E0 in C; discriminate).
    destruct (IH _ _ _ B Hn' E') as (L & D & Q & Lq & V).
    destruct (top5 p Hp Hn) as (Td & Te). set (d := Z.land (Z.shiftr (hd 0 p) 3) 31) in *.
    replace (zlen (byte_shl5 p)) with (zlen p) in V by (unfold zlen; lia).
    repeat split.
    + cbn [length]; lia.
    + constructor; assumption.
    + assumption.
    + congruence.
    + rewrite bval_cons. replace (zlen ds') with (Z.of_nat k) by (unfold zlen; lia).
      rewrite Nat2Z.inj_succ, Z.pow_succ_r by lia.
      rewrite A in V. set (P := 256 ^ zlen p) in *. set (K := 32 ^ Z.of_nat k) in *.
      pose proof (Z.div_mod (32 * be_num p) P) as DM.
      assert (0 < P) by (apply Z.pow_pos_nonneg; [lia|apply zlen_nonneg]).
      rewrite <- Te in DM.
      transitivity (d * K * P + (bval 32 ds' * P + be_num q')); [ring|]. rewrite V.
      transitivity ((P * d + (32 * be_num p) mod P) * K); [ring|].
      rewrite <- DM by lia. ring.
Qed.
Definition groups5 (n : nat) : nat := ((n * 8 + 4) / 5)%nat.
Lemma groups5_eq n : groups5 n = (n * 8 / 5 + (if (n * 8 mod 5 =? 0)%nat then 0 else 1))%nat.
Proof.
  unfold groups5. destruct (Nat.eqb_spec ((n * 8) mod 5) 0) as [E|E].
  - pose proof (Nat.div_mod (n * 8) 5). symmetry. rewrite Nat.add_0_r. apply Nat.div_unique with (r := 4%nat); lia.
  - pose proof (Nat.div_mod (n * 8) 5). pose proof (Nat.mod_upper_bound (n * 8) 5).
    symmetry. apply Nat.div_unique with (r := (n * 8 mod 5 - 1)%nat); lia.
Qed.
Lemma extend_spec p : is_bytes p ->
  length (extend_payload p) = groups5 (length p) /\ Forall d5 (extend_payload p) /\
  bval 32 (extend_payload p) = be_num p * 2 ^ (5 * Z.of_nat (groups5 (length p)) - 8 * zlen p) /\
  0 <= 5 * Z.of_nat (groups5 (length p)) - 8 * zlen p < 5.
Proof.
  intros Hp.
  assert (Hpad : 0 <= 5 * Z.of_nat (groups5 (length p)) - 8 * zlen p < 5).
  { unfold groups5, zlen. pose proof (Nat.div_mod (length p * 8 + 4) 5). pose proof (Nat.mod_upper_bound (length p * 8 + 4) 5). lia. }
  destruct (list_eq_dec Z.eq_dec p []) as [->|Hn].
  { repeat split; try constructor; vm_compute; congruence. }
  unfold extend_payload.
  destruct (extend_loop (length p * 8 / 5) p) as [ds q] eqn:E.
  destruct (extend_loop_spec _ _ _ _ Hp Hn E) as (L & D & Q & Lq & V).
  assert (Hnq : q <> []) by (destruct p; [congruence|]; intros E0; subst q; discriminate).
  assert (Hlq : zlen q = zlen p) by (unfold zlen; lia).
  assert (H8 : 256 ^ zlen p = 2 ^ (8 * zlen p)).
  { change 256 with (2 ^ 8). rewrite <- Z.pow_mul_r; [reflexivity|lia|apply zlen_nonneg]. }
  set (n := length p) in *.
  assert (Hgen : forall ds' k r, length ds' = k -> groups5 n = k -> 0 <= r < 256 ^ zlen p ->
     bval 32 ds' * 256 ^ zlen p + r = be_num p * 32 ^ Z.of_nat k ->
     bval 32 ds' = be_num p * 2 ^ (5 * Z.of_nat (groups5 n) - 8 * zlen p)).
  { intros ds' k r Hk Hg Hr HV. rewrite H8 in *.
    replace (32 ^ Z.of_nat k) with (2 ^ (5 * Z.of_nat k - 8 * zlen p) * 2 ^ (8 * zlen p)) in HV.
    - rewrite <- Hg in HV. set (W := 2 ^ (5 * Z.of_nat (groups5 n) - 8 * zlen p)) in *.
      set (P := 2 ^ (8 * zlen p)) in *. nia.
    - rewrite <- Z.pow_add_r by (pose proof (zlen_nonneg p); lia).
      change 32 with (2 ^ 5). rewrite <- Z.pow_mul_r by lia. f_equal. lia. }
  pose proof (groups5_eq n) as HG.
  destruct (Nat.eqb_spec ((n * 8) mod 5) 0) as [E0|E0].
  - assert (Hg : groups5 n = (n * 8 / 5)%nat) by lia.
    repeat split; auto; [lia| |lia|lia].
    apply (Hgen ds (n * 8 / 5)%nat (be_num q)); auto. rewrite <- Hlq. apply be_num_bound; assumption.
  - destruct (top5 q Q Hnq) as (Td & Te). set (d := Z.land (Z.shiftr (hd 0 q) 3) 31) in *.
    assert (Hg : groups5 n = S (n * 8 / 5)) by lia.
    repeat split.
    + rewrite app_length. cbn [length]. lia.
    + apply Forall_app; split; [assumption|repeat constructor; apply Td].
    + apply (Hgen (ds ++ [d]) (S (n * 8 / 5)) ((32 * be_num q) mod 256 ^ zlen q)); auto.
      * rewrite app_length. cbn [length]. lia.
      * rewrite Hlq. apply Z.mod_pos_bound. rewrite H8. apply Z.pow_pos_nonneg; [lia|pose proof (zlen_nonneg p); lia].
      * rewrite bval_app. change (zlen [d]) with 1. change (32 ^ 1) with 32.
        change (bval 32 [d]) with (d + 32 * 0).
        rewrite Nat2Z.inj_succ, Z.pow_succ_r by lia. rewrite Te, Hlq.
        pose proof (Z.div_mod (32 * be_num q) (256 ^ zlen p)) as DM.
        assert (0 < 256 ^ zlen p) by (rewrite H8; apply Z.pow_pos_nonneg; [lia|pose proof (zlen_nonneg p); lia]).
        set (P := 256 ^ zlen p) in *. set (K := 32 ^ Z.of_nat (n * 8 / 5)) in *.
        set (dd := 32 * be_num q / P) in *. set (rr := (32 * be_num q) mod P) in *. nia.
    + lia.
    + lia.
Qed.

Lemma or_last_spec l v : is_bytes l -> l <> [] -> be_num l mod 32 = 0 -> d5 v ->
  exists l', or_last l v = Ok l' /\ is_bytes l' /\ length l' = length l /\ be_num l' = be_num l + v.
Proof.
  induction l as [|x l IH]; intros Hl Hn Hm Hv; [congruence|].
  apply is_bytes_cons in Hl. destruct Hl as [Hx Hl]. unfold is_byte in Hx. unfold d5 in Hv.
  destruct l as [|y l].
  - cbn [or_last]. change (be_num [x]) with (0 * 256 + x) in *.
    assert (E : Z.lor x v = x + v) by (apply lor_plus; unfold d5; lia).
    exists [Z.lor x v]. rewrite E. split; [reflexivity|]. split; [constructor; [unfold is_byte; lia|constructor]|].
    split; reflexivity.
  - rewrite be_num_cons in Hm.
    assert (Hd : 256 ^ zlen (y :: l) = 32 * (8 * 256 ^ zlen l)).
    { rewrite zlen_cons, Z.pow_add_r by (pose proof (zlen_nonneg l); lia). change (256 ^ 1) with 256. ring. }
    assert (Hm' : be_num (y :: l) mod 32 = 0).
    { rewrite Hd in Hm. set (Q := be_num (y :: l)) in *.
      replace (x * (32 * (8 * 256 ^ zlen l)) + Q) with (Q + (x * (8 * 256 ^ zlen l)) * 32) in Hm by ring.
      rewrite Z_mod_plus_full in Hm. exact Hm. }
    destruct (IH Hl ltac:(discriminate) Hm' Hv) as (l' & E & B & L & V).
    change (or_last (x :: y :: l) v) with (r' <- or_last (y :: l) v ;; Ok (x :: r')). rewrite E. cbn [bind].
    exists (x :: l'). repeat split.
    + apply is_bytes_cons; split; [unfold is_byte; lia|assumption].
    + cbn [length] in *; lia.
    + rewrite (be_num_cons x l'), (be_num_cons x (y :: l)), V. replace (zlen l') with (zlen (y :: l)) by (unfold zlen; lia). lia.
Qed.
Lemma unextend_loop_spec ds : forall ret, ds <> [] -> Forall d5 ds -> is_bytes ret -> ret <> [] -> be_num ret mod 32 = 0 ->
  exists out, unextend_loop ds ret = Ok out /\ is_bytes out /\ length out = length ret /\
    be_num out = (be_num ret * 32 ^ (zlen ds - 1) + bval 32 ds) mod 256 ^ zlen ret.
Proof.
  induction ds as [|d ds IH]; intros ret Hn Hd Hr Hrn Hm; [congruence|].
  inversion Hd as [|? ? Hd1 Hds]; subst.
  destruct (or_last_spec ret d Hr Hrn Hm Hd1) as (r & E & B & L & V).
  destruct ds as [|d' ds].
  - cbn [unextend_loop]. exists r. repeat split; auto.
    change (zlen [d] - 1) with 0. change (32 ^ 0) with 1. change (bval 32 [d]) with (d + 32 * 0).
    pose proof (be_num_bound r B) as Hb. replace (zlen r) with (zlen ret) in Hb by (unfold zlen; lia).
    rewrite Z.mod_small by lia. lia.
  - change (unextend_loop (d :: d' :: ds) ret) with (r <- or_last ret d ;; unextend_loop (d' :: ds) (byte_shl5 r)).
    rewrite E. cbn [bind].
    destruct (byte_shl5_mod r B) as (A5 & B5 & L5).
    assert (Hrn5 : byte_shl5 r <> []) by (destruct ret; [congruence|]; intros E0; rewrite E0 in L5; cbn in *; lia).
    assert (Hlr : zlen r = zlen ret) by (unfold zlen; lia).
    assert (H5 : 256 ^ zlen ret = 32 * (8 * 256 ^ (zlen ret - 1))).
    { replace (zlen ret) with (1 + (zlen ret - 1)) at 1 by lia.
      rewrite Z.pow_add_r; [change (256 ^ 1) with 256; ring|lia|].
      destruct ret; [congruence|]. rewrite zlen_cons. pose proof (zlen_nonneg ret). lia. }
    assert (Hm5 : be_num (byte_shl5 r) mod 32 = 0).
    { rewrite A5, Hlr, H5. rewrite Z.mul_mod_distr_l.
      - rewrite Z.mul_comm. apply Z_mod_mult.
      - destruct ret; [congruence|]. rewrite zlen_cons.
        assert (0 < 256 ^ (1 + zlen ret - 1)) by (apply Z.pow_pos_nonneg; pose proof (zlen_nonneg ret); lia). lia.
      - lia. }
    destruct (IH (byte_shl5 r) ltac:(discriminate) Hds B5 Hrn5 Hm5) as (out & Eo & Bo & Lo & Vo).
    exists out. repeat split; auto; [congruence|].
    rewrite Vo. replace (zlen (byte_shl5 r)) with (zlen ret) by (unfold zlen; lia).
    rewrite A5, Hlr, V. rewrite (bval_cons 32 d). set (dd := d' :: ds) in *.
    rewrite (zlen_cons d). replace (1 + zlen dd - 1) with (zlen dd) by lia.
    assert (Hdd : 1 <= zlen dd) by (unfold dd; rewrite zlen_cons; pose proof (zlen_nonneg ds); lia).
    replace (32 ^ zlen dd) with (32 * 32 ^ (zlen dd - 1)).
    2: { rewrite <- Z.pow_succ_r by lia. f_equal. lia. }
    set (P := 256 ^ zlen ret). set (K := 32 ^ (zlen dd - 1)).
    rewrite <- Z.add_mod_idemp_l by (unfold P; assert (0 < 256 ^ zlen ret) by apply pow256_pos; lia).
    rewrite Z.mul_mod_idemp_l by (unfold P; assert (0 < 256 ^ zlen ret) by apply pow256_pos; lia).
    rewrite Z.add_mod_idemp_l by (unfold P; assert (0 < 256 ^ zlen ret) by apply pow256_pos; lia).
    f_equal. ring.
Qed.
Lemma unextend_spec ds : (2 <= length ds)%nat -> Forall d5 ds ->
  exists out, unextend_payload ds = Ok out /\ is_bytes out /\ length out = (length ds * 5 / 8)%nat /\
    be_num out = bval 32 ds mod 256 ^ zlen out.
Proof.
  intros Hl Hd. unfold unextend_payload. set (n := (length ds * 5 / 8)%nat).
  assert (Hn : (1 <= n)%nat) by (unfold n; apply Nat.div_le_lower_bound; lia).
  destruct (unextend_loop_spec ds (zeros n)) as (out & E & B & L & V); auto.
  - destruct ds; [cbn in Hl; lia|discriminate].
  - apply is_bytes_zeros.
  - destruct n; [lia|discriminate].
  - rewrite <- (app_nil_r (zeros n)), be_num_zeros. reflexivity.
  - exists out. unfold zeros in L. rewrite repeat_length in L. repeat split; auto.
    assert (Hz : be_num (zeros n) = 0) by (rewrite <- (app_nil_r (zeros n)), be_num_zeros; reflexivity).
    rewrite Hz, Z.mul_0_l, Z.add_0_l in V. rewrite V. f_equal. f_equal. rewrite zlen_zeros. unfold zlen. rewrite L. reflexivity.
Qed.
