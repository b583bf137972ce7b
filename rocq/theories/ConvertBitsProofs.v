(** Lemmas about the two bit-regrouping functions. *)
From Coq Require Import String ZArith List Bool Lia ZifyBool ZifyNat.
From Verif Require Import Go GoFacts Base58Spec Base58Proofs PolymodProofs Bech32Proofs Bech32Text Bech32mModel.
Import ListNotations.
Open Scope Z_scope.
Ltac Zify.zify_post_hook ::= idtac.

(** [lia] without the hypotheses about powers. *)
Ltac clia := first [ assumption | repeat match goal with H : context [Z.pow _ _] |- _ => clear H end; lia | lia ].

Lemma pow2_pos k : 0 <= k -> 0 < 2 ^ k.
Proof. intros. apply Z.pow_pos_nonneg; lia. Qed.
Lemma lor_shift a f v : 0 <= f -> 0 <= v < 2 ^ f -> Z.lor (Z.shiftl a f) v = a * 2 ^ f + v.
Proof.
  intros Hf Hv. rewrite <- Z.lxor_lor, <- Z.add_nocarry_lxor; rewrite ?Z.shiftl_mul_pow2 by lia; auto.
  all: apply Z.bits_inj'; intros k Hk; rewrite Z.land_spec, Z.bits_0, <- Z.shiftl_mul_pow2 by lia;
    destruct (Z_lt_le_dec k f);
    [ rewrite Z.shiftl_spec_low by lia; reflexivity
    | rewrite (small_testbit f v) by lia; apply andb_false_r ].
Qed.
Lemma land_mask x k : 0 <= k -> Z.land x (2 ^ k - 1) = x mod 2 ^ k.
Proof. intros. rewrite <- Z.land_ones by lia. rewrite Z.ones_equiv. reflexivity. Qed.
Lemma mod_split a i j : 0 <= i -> 0 <= j -> a mod 2 ^ (i + j) = ((a / 2 ^ i) mod 2 ^ j) * 2 ^ i + a mod 2 ^ i.
Proof.
  intros. rewrite Z.pow_add_r by lia. pose proof (pow2_pos i H). pose proof (pow2_pos j H0).
  rewrite Z.rem_mul_r by lia. ring.
Qed.
Lemma mod_mod_le a i j : 0 <= i <= j -> (a mod 2 ^ j) mod 2 ^ i = a mod 2 ^ i.
Proof.
  intros. replace j with (i + (j - i)) by lia. rewrite mod_split by lia.
  rewrite Z.add_comm, Z_mod_plus_full. apply Z.mod_mod. pose proof (pow2_pos i). lia.
Qed.
Lemma u8_small x k : 0 <= k <= 8 -> 0 <= x < 2 ^ k -> u8 x = x.
Proof. intros Hk Hx. unfold u8. apply Z.mod_small. pose proof (Z.pow_le_mono_r 2 k 8). lia. Qed.

Definition regroup (f t : Z) (xs ys : list Z) (bits rem : Z) : Prop :=
  digits (2 ^ t) ys /\ f * zlen xs = t * zlen ys + bits /\ 0 <= bits < t /\ 0 <= rem < 2 ^ bits /\
  bval (2 ^ f) xs = bval (2 ^ t) ys * 2 ^ bits + rem.

Lemma cb_emit_spec t : 1 <= t <= 8 -> forall fuel acc bits ys b', 0 <= bits -> (Z.to_nat bits <= fuel)%nat ->
  cb_emit fuel acc bits t = (ys, b') ->
  digits (2 ^ t) ys /\ bits = t * zlen ys + b' /\ 0 <= b' < t /\
  acc mod 2 ^ bits = bval (2 ^ t) ys * 2 ^ b' + acc mod 2 ^ b'.
Proof.
  intros Ht. induction fuel as [|fuel IH]; intros acc bits ys b' Hb Hf E; cbn [cb_emit] in E.
  - injection E as <- <-. assert (bits = 0) by clia. subst.
    repeat split; [constructor|change (zlen (@nil Z)) with 0; clia|clia|clia].
  - destruct (Z.leb_spec t bits) as [Hle|Hgt].
    + destruct (cb_emit fuel acc (bits - t) t) as [r b] eqn:E'. injection E as <- <-.
      destruct (IH acc (bits - t) r b ltac:(clia) ltac:(clia) E') as (D & L & B & V).
      rewrite land_mask, Z.shiftr_div_pow2 by clia.
      set (d := (acc / 2 ^ (bits - t)) mod 2 ^ t) in *.
      assert (Hd : 0 <= d < 2 ^ t) by (apply Z.mod_pos_bound, pow2_pos; clia).
      rewrite (u8_small d t) by clia.
      split; [constructor; assumption|]. split; [rewrite zlen_cons; clia|]. split; [exact B|].
      { replace bits with ((bits - t) + t) at 1 by clia. rewrite mod_split by clia. fold d.
        rewrite V, bval_cons. rewrite <- Z.pow_mul_r by (first [apply zlen_nonneg | clia]).
        rewrite L. rewrite Z.pow_add_r by (first [apply Z.mul_nonneg_nonneg; [clia|apply zlen_nonneg] | clia]). ring. }
    + injection E as <- <-. repeat split; [constructor|change (zlen (@nil Z)) with 0; clia|clia|clia].
Qed.
Lemma cb_loop_spec f t : 1 <= f <= 8 -> 1 <= t <= 8 -> forall xs acc bits ys acc' bits',
  digits (2 ^ f) xs -> 0 <= bits < t -> cb_loop xs acc bits f t = (ys, acc', bits') ->
  digits (2 ^ t) ys /\ bits + f * zlen xs = t * zlen ys + bits' /\ 0 <= bits' < t /\
  (acc mod 2 ^ bits) * 2 ^ (f * zlen xs) + bval (2 ^ f) xs = bval (2 ^ t) ys * 2 ^ bits' + acc' mod 2 ^ bits'.
Proof.
  intros Hf Ht. induction xs as [|v xs IH]; intros acc bits ys acc' bits' Hx Hb E; cbn [cb_loop] in E.
  - injection E as <- <- <-. change (zlen (@nil Z)) with 0. rewrite Z.mul_0_r. change (2 ^ 0) with 1.
    change (bval (2 ^ f) []) with 0. change (bval (2 ^ t) []) with 0. repeat split; [constructor|clia|clia|clia|clia].
  - inversion Hx as [|? ? Hv Hxs]; subst.
    set (acc1 := Z.land (Z.lor (Z.shiftl acc f) v) (2 ^ (f + t - 1) - 1)) in *.
    destruct (cb_emit (Z.to_nat (bits + f)) acc1 (bits + f) t) as [out b1] eqn:E1.
    destruct (cb_loop xs acc1 b1 f t) as [[out' acc2] bits2] eqn:E2. injection E as <- <- <-.
    destruct (cb_emit_spec t Ht (Z.to_nat (bits + f)) acc1 (bits + f) out b1 ltac:(clia) ltac:(clia) E1) as (D1 & L1 & B1 & V1).
    destruct (IH _ _ _ _ _ Hxs B1 E2) as (D2 & L2 & B2 & V2).
    assert (Hacc : acc1 mod 2 ^ (bits + f) = (acc mod 2 ^ bits) * 2 ^ f + v).
    { unfold acc1. rewrite land_mask, lor_shift by clia. rewrite mod_mod_le by clia.
      replace (bits + f) with (f + bits) by clia. rewrite mod_split by clia.
      rewrite Z.div_add_l by (pose proof (pow2_pos f); clia). rewrite (Z.div_small v) by assumption.
      rewrite Z.add_0_r. f_equal. rewrite Z.add_comm, Z_mod_plus_full. apply Z.mod_small; assumption. }
    split; [apply Forall_app; split; assumption|]. split; [rewrite zlen_app, zlen_cons; clia|].
    split; [exact B2|]. { rewrite bval_cons, bval_app, zlen_cons.
      rewrite <- !Z.pow_mul_r by (first [apply zlen_nonneg | clia]).
      replace (f * (1 + zlen xs)) with (f + f * zlen xs) by clia.
      rewrite (Z.pow_add_r 2 f) by (first [apply Z.mul_nonneg_nonneg; [clia|apply zlen_nonneg] | clia]).
      transitivity (((acc mod 2 ^ bits) * 2 ^ f + v) * 2 ^ (f * zlen xs) + bval (2 ^ f) xs); [ring|].
      rewrite <- Hacc, V1.
      transitivity (bval (2 ^ t) out * (2 ^ b1 * 2 ^ (f * zlen xs)) + (acc1 mod 2 ^ b1 * 2 ^ (f * zlen xs) + bval (2 ^ f) xs)); [ring|].
      rewrite V2, <- Z.pow_add_r by (first [apply Z.mul_nonneg_nonneg; [clia|apply zlen_nonneg] | clia]). rewrite L2.
      rewrite Z.pow_add_r by (first [apply Z.mul_nonneg_nonneg; [clia|apply zlen_nonneg] | clia]). ring. }
Qed.
Lemma cb_regroup f t xs : 1 <= f <= 8 -> 1 <= t <= 8 -> digits (2 ^ f) xs ->
  exists ys acc bits, cb_loop xs 0 0 f t = (ys, acc, bits) /\ regroup f t xs ys bits (acc mod 2 ^ bits).
Proof.
  intros Hf Ht Hx. destruct (cb_loop xs 0 0 f t) as [[ys acc] bits] eqn:E.
  exists ys, acc, bits. split; [reflexivity|].
  destruct (cb_loop_spec f t Hf Ht xs 0 0 ys acc bits Hx ltac:(clia) E) as (D & L & B & V).
  rewrite Z.mod_0_l, Z.mul_0_l, Z.add_0_l in V by (change (2 ^ 0) with 1; clia).
  split; [exact D|]. split; [clia|]. split; [exact B|]. split; [apply Z.mod_pos_bound, pow2_pos; clia|exact V].
Qed.

(** What the padded / unpadded conversions return, in terms of [regroup]. *)
Definition pad_out (t : Z) (ys : list Z) (bits rem : Z) : list Z :=
  if 0 <? bits then ys ++ [rem * 2 ^ (t - bits)] else ys.
Lemma shl_mask acc t bits : 0 <= bits < t -> Z.land (Z.shiftl acc (t - bits)) (2 ^ t - 1) = (acc mod 2 ^ bits) * 2 ^ (t - bits).
Proof.
  intros H. rewrite land_mask, Z.shiftl_mul_pow2 by lia. replace t with (t - bits + bits) at 2 by lia.
  rewrite mod_split by lia. pose proof (pow2_pos (t - bits)). rewrite Z.div_mul, Z_mod_mult by lia. lia.
Qed.
Lemma rem_shift_bound rem t bits : 0 <= bits < t -> 0 <= rem < 2 ^ bits -> 0 <= rem * 2 ^ (t - bits) < 2 ^ t.
Proof.
  intros H Hr. replace t with (bits + (t - bits)) at 3 by lia. rewrite Z.pow_add_r by lia.
  pose proof (pow2_pos (t - bits)). nia.
Qed.
Lemma convertbits_pad f t xs : 1 <= f <= 8 -> 1 <= t <= 8 -> digits (2 ^ f) xs ->
  exists ys bits rem, regroup f t xs ys bits rem /\ convertbits xs f t true = Ok (pad_out t ys bits rem).
Proof.
  intros Hf Ht Hx. destruct (cb_regroup f t xs Hf Ht Hx) as (ys & acc & bits & E & R).
  exists ys, bits, (acc mod 2 ^ bits). split; [exact R|]. unfold convertbits. rewrite E.
  destruct R as (_ & _ & B & Hr & _).
  rewrite shl_mask by assumption. rewrite (u8_small _ t) by (try lia; apply rem_shift_bound; assumption).
  reflexivity.
Qed.
Lemma convertbits_nopad f t xs : 1 <= f <= 8 -> 1 <= t <= 8 -> digits (2 ^ f) xs ->
  exists ys bits rem, regroup f t xs ys bits rem /\
   convertbits xs f t false = if (f <=? bits) || negb (rem =? 0) then Err else Ok ys.
Proof.
  intros Hf Ht Hx. destruct (cb_regroup f t xs Hf Ht Hx) as (ys & acc & bits & E & R).
  exists ys, bits, (acc mod 2 ^ bits). split; [exact R|]. unfold convertbits. rewrite E.
  destruct R as (_ & _ & B & Hr & _). rewrite shl_mask by assumption.
  destruct (f <=? bits); [reflexivity|]. cbn [orb].
  pose proof (pow2_pos (t - bits)).
  destruct (Z.eqb_spec (acc mod 2 ^ bits) 0) as [->|Hne]; [reflexivity|].
  replace (acc mod 2 ^ bits * 2 ^ (t - bits) =? 0) with false by nia. reflexivity.
Qed.

(** *** The btcutil variant satisfies the same relation *)
Lemma by_extract_spec t : 1 <= t <= 8 -> forall fuel B remFrom n filled ys n' fl,
  0 <= remFrom <= 8 -> (Z.to_nat remFrom <= fuel)%nat -> 0 <= B < 2 ^ remFrom ->
  0 <= filled < t -> 0 <= n < 2 ^ filled ->
  by_extract fuel (B * 2 ^ (8 - remFrom)) remFrom n filled t = (ys, n', fl) ->
  digits (2 ^ t) ys /\ filled + remFrom = t * zlen ys + fl /\ 0 <= fl < t /\ 0 <= n' < 2 ^ fl /\
  n * 2 ^ remFrom + B = bval (2 ^ t) ys * 2 ^ fl + n'.
Proof.
  intros Ht. induction fuel as [|fuel IH]; intros B rf n filled ys n' fl Hrf Hfuel HB Hfl Hn E; cbn [by_extract] in E.
  - injection E as <- <- <-. assert (rf = 0) by clia. subst. change (2 ^ 0) with 1 in *. change (zlen (@nil Z)) with 0.
    change (bval (2 ^ t) []) with 0. repeat split; [constructor|clia..].
  - destruct (Z.ltb_spec 0 rf) as [Hpos|H0].
    2: { injection E as <- <- <-. assert (rf = 0) by clia. subst. change (2 ^ 0) with 1 in *. change (zlen (@nil Z)) with 0.
         change (bval (2 ^ t) []) with 0. repeat split; [constructor|clia..]. }
    set (e := if t - filled <? rf then t - filled else rf) in *.
    assert (He : 1 <= e <= rf /\ e <= t - filled /\ (e = rf \/ e = t - filled)) by (unfold e; destruct (Z.ltb_spec (t - filled) rf); clia).
    assert (Hshr : Z.shiftr (B * 2 ^ (8 - rf)) (8 - e) = B / 2 ^ (rf - e)).
    { rewrite Z.shiftr_div_pow2 by clia. replace (8 - e) with ((8 - rf) + (rf - e)) by clia.
      rewrite Z.pow_add_r by clia. rewrite <- Z.div_div by (pose proof (pow2_pos (8 - rf)); pose proof (pow2_pos (rf - e)); clia).
      rewrite Z.div_mul by (pose proof (pow2_pos (8 - rf)); clia). reflexivity. }
    rewrite Hshr in E.
    set (top := B / 2 ^ (rf - e)) in *. set (low := B mod 2 ^ (rf - e)).
    assert (HBt : B = top * 2 ^ (rf - e) + low).
    { unfold top, low. pose proof (Z.div_mod B (2 ^ (rf - e))). pose proof (pow2_pos (rf - e)). clia. }
    assert (Hlow : 0 <= low < 2 ^ (rf - e)) by (apply Z.mod_pos_bound, pow2_pos; clia).
    assert (Hsplit : 2 ^ rf = 2 ^ e * 2 ^ (rf - e)) by (rewrite <- Z.pow_add_r by clia; f_equal; clia).
    assert (Htop : 0 <= top < 2 ^ e).
    { split; [apply Z.div_pos; [clia|apply pow2_pos; clia]|]. apply Z.div_lt_upper_bound; [apply pow2_pos; clia|]. clia. }
    assert (Hne : 0 <= n * 2 ^ e + top < 2 ^ (filled + e)).
    { rewrite Z.pow_add_r by clia. pose proof (pow2_pos e). nia. }
    assert (Hne0 : 0 <= n * 2 ^ e < 2 ^ (filled + e)).
    { rewrite Z.pow_add_r by clia. pose proof (pow2_pos e). nia. }
    assert (Hu : u8 (Z.shiftl n e) = Z.shiftl n e).
    { rewrite Z.shiftl_mul_pow2 by clia. apply (u8_small _ (filled + e)); clia. }
    rewrite Hu, lor_shift in E by clia.
    assert (Hb : u8 (Z.shiftl (B * 2 ^ (8 - rf)) e) = low * 2 ^ (8 - (rf - e))).
    { unfold u8. rewrite Z.shiftl_mul_pow2 by clia.
      replace (B * 2 ^ (8 - rf) * 2 ^ e) with (B * 2 ^ (8 - (rf - e))).
      2: { replace (8 - (rf - e)) with ((8 - rf) + e) by clia. rewrite Z.pow_add_r by clia. ring. }
      replace (2 ^ 8) with (2 ^ (rf - e) * 2 ^ (8 - (rf - e))) by (rewrite <- Z.pow_add_r by clia; f_equal; clia).
      rewrite Z.mul_mod_distr_r by (pose proof (pow2_pos (rf - e)); pose proof (pow2_pos (8 - (rf - e))); clia).
      reflexivity. }
    rewrite Hb in E.
    destruct (Z.eqb_spec (filled + e) t) as [Eq|Ne].
    + destruct (by_extract fuel (low * 2 ^ (8 - (rf - e))) (rf - e) 0 0 t) as [[r n1] fl1] eqn:E'.
      injection E as <- <- <-.
      destruct (IH low (rf - e) 0 0 r n1 fl1 ltac:(clia) ltac:(clia) Hlow ltac:(clia) ltac:(change (2 ^ 0) with 1; clia) E') as (D & L & F & N & V).
      split; [constructor; [rewrite Eq in Hne; exact Hne|assumption]|]. split; [rewrite zlen_cons; clia|].
      split; [exact F|]. split; [exact N|].
      { rewrite bval_cons, <- Z.pow_mul_r by (first [apply zlen_nonneg | clia]).
        rewrite HBt, Hsplit. 
        transitivity ((n * 2 ^ e + top) * 2 ^ (rf - e) + (0 * 2 ^ (rf - e) + low)); [ring|]. rewrite V.
        replace (rf - e) with (t * zlen r + fl1) by clia. rewrite Z.pow_add_r by (first [apply Z.mul_nonneg_nonneg; [clia|apply zlen_nonneg] | clia]). ring. }
    + destruct (IH low (rf - e) (n * 2 ^ e + top) (filled + e) ys n' fl ltac:(clia) ltac:(clia) Hlow ltac:(clia) Hne E) as (D & L & F & N & V).
      split; [exact D|]. split; [clia|]. split; [exact F|]. split; [exact N|].
      rewrite <- V, HBt, Hsplit. ring.
Qed.
Opaque by_extract.
Lemma by_loop_spec f t : 1 <= f <= 8 -> 1 <= t <= 8 -> forall xs n filled ys n' fl,
  digits (2 ^ f) xs -> 0 <= filled < t -> 0 <= n < 2 ^ filled ->
  by_loop xs n filled f t = (ys, n', fl) ->
  digits (2 ^ t) ys /\ filled + f * zlen xs = t * zlen ys + fl /\ 0 <= fl < t /\ 0 <= n' < 2 ^ fl /\
  n * 2 ^ (f * zlen xs) + bval (2 ^ f) xs = bval (2 ^ t) ys * 2 ^ fl + n'.
Proof.
  intros Hf Ht. induction xs as [|v xs IH]; intros n filled ys n' fl Hx Hb Hn E; cbn [by_loop] in E.
  - injection E as <- <- <-. change (zlen (@nil Z)) with 0. rewrite Z.mul_0_r. change (2 ^ 0) with 1.
    change (bval (2 ^ f) []) with 0. change (bval (2 ^ t) []) with 0. repeat split; [constructor|clia..].
  - inversion Hx as [|? ? Hv Hxs]; subst.
    assert (Hu : u8 (Z.shiftl v (8 - f)) = v * 2 ^ (8 - f)).
    { rewrite Z.shiftl_mul_pow2 by clia. apply (u8_small _ 8); [clia|].
      replace 8 with (f + (8 - f)) at 3 by clia. rewrite Z.pow_add_r by clia. pose proof (pow2_pos (8 - f)). nia. }
    rewrite Hu in E.
    destruct (by_extract 8 (v * 2 ^ (8 - f)) f n filled t) as [[out n1] f1] eqn:E1.
    destruct (by_loop xs n1 f1 f t) as [[out' n2] f2] eqn:E2. injection E as <- <- <-.
    destruct (by_extract_spec t Ht 8 v f n filled out n1 f1 ltac:(clia) ltac:(clia) Hv Hb Hn E1) as (D1 & L1 & B1 & N1 & V1).
    destruct (IH _ _ _ _ _ Hxs B1 N1 E2) as (D2 & L2 & B2 & N2 & V2).
    split; [apply Forall_app; split; assumption|]. split; [rewrite zlen_app, zlen_cons; clia|].
    split; [exact B2|]. split; [exact N2|]. { rewrite bval_cons, bval_app, zlen_cons.
      rewrite <- !Z.pow_mul_r by (first [apply zlen_nonneg | clia]).
      replace (f * (1 + zlen xs)) with (f + f * zlen xs) by clia.
      rewrite (Z.pow_add_r 2 f) by (first [apply Z.mul_nonneg_nonneg; [clia|apply zlen_nonneg] | clia]).
      transitivity ((n * 2 ^ f + v) * 2 ^ (f * zlen xs) + bval (2 ^ f) xs); [ring|].
      rewrite V1.
      transitivity (bval (2 ^ t) out * (2 ^ f1 * 2 ^ (f * zlen xs)) + (n1 * 2 ^ (f * zlen xs) + bval (2 ^ f) xs)); [ring|].
      rewrite V2, <- Z.pow_add_r by (first [apply Z.mul_nonneg_nonneg; [clia|apply zlen_nonneg] | clia]). rewrite L2.
      rewrite Z.pow_add_r by (first [apply Z.mul_nonneg_nonneg; [clia|apply zlen_nonneg] | clia]). ring. }
Qed.
Lemma by_regroup f t xs : 1 <= f <= 8 -> 1 <= t <= 8 -> digits (2 ^ f) xs ->
  exists ys bits rem, by_loop xs 0 0 f t = (ys, rem, bits) /\ regroup f t xs ys bits rem.
Proof.
  intros Hf Ht Hx. destruct (by_loop xs 0 0 f t) as [[ys rem] bits] eqn:E.
  exists ys, bits, rem. split; [reflexivity|].
  destruct (by_loop_spec f t Hf Ht xs 0 0 ys rem bits Hx ltac:(clia) ltac:(change (2 ^ 0) with 1; clia) E) as (D & L & B & N & V).
  rewrite Z.mul_0_l, Z.add_0_l in V. split; [exact D|]. split; [clia|]. split; [exact B|]. split; [exact N|exact V].
Qed.
Lemma regroup_rem0 f t xs ys rem : regroup f t xs ys 0 rem -> rem = 0.
Proof. intros (_ & _ & _ & H & _). change (2 ^ 0) with 1 in H. lia. Qed.
Lemma bytom_convertbits_pad f t xs : 1 <= f <= 8 -> 1 <= t <= 8 -> digits (2 ^ f) xs ->
  exists ys bits rem, regroup f t xs ys bits rem /\ bytom_convertbits xs f t true = Ok (pad_out t ys bits rem).
Proof.
  intros Hf Ht Hx. destruct (by_regroup f t xs Hf Ht Hx) as (ys & bits & rem & E & R).
  exists ys, bits, rem. split; [exact R|]. unfold bytom_convertbits.
  replace ((f <? 1) || (8 <? f) || (t <? 1) || (8 <? t)) with false by lia. rewrite E.
  pose proof R as (_ & _ & B & Hr & _). unfold pad_out. cbn [andb].
  destruct (Z.ltb_spec 0 bits).
  - rewrite Z.shiftl_mul_pow2 by lia. rewrite (u8_small _ t) by (try lia; apply rem_shift_bound; assumption). reflexivity.
  - reflexivity.
Qed.
Lemma bytom_convertbits_nopad f t xs : 1 <= f <= 8 -> 1 <= t <= 8 -> digits (2 ^ f) xs ->
  exists ys bits rem, regroup f t xs ys bits rem /\
   bytom_convertbits xs f t false = if (4 <? bits) || negb (rem =? 0) then Err else Ok ys.
Proof.
  intros Hf Ht Hx. destruct (by_regroup f t xs Hf Ht Hx) as (ys & bits & rem & E & R).
  exists ys, bits, rem. split; [exact R|]. unfold bytom_convertbits.
  replace ((f <? 1) || (8 <? f) || (t <? 1) || (8 <? t)) with false by lia. rewrite E.
  cbn [andb]. destruct (Z.ltb_spec 0 bits); [reflexivity|].
  assert (bits = 0) by (destruct R as (_ & _ & B & _); lia). subst bits.
  apply regroup_rem0 in R. subst. reflexivity.
Qed.

(** *** Consequences for 8 -> 5 -> 8 and 5 -> 8 -> 5 *)
Lemma pad_digits f t xs ys bits rem : 1 <= t -> regroup f t xs ys bits rem -> digits (2 ^ t) (pad_out t ys bits rem).
Proof.
  intros Ht (D & _ & B & R & _). unfold pad_out. destruct (0 <? bits); [|assumption].
  apply Forall_app; split; [assumption|]. constructor; [|constructor]. apply rem_shift_bound; assumption.
Qed.
(** The padded output has ceil(f*n/t) groups and value N * 2^padding. *)
Lemma pad_value f t xs ys bits rem : 1 <= t -> regroup f t xs ys bits rem ->
  exists p, 0 <= p < t /\ t * zlen (pad_out t ys bits rem) = f * zlen xs + p /\
    bval (2 ^ t) (pad_out t ys bits rem) = bval (2 ^ f) xs * 2 ^ p.
Proof.
  intros Ht (D & L & B & R & V). unfold pad_out. destruct (Z.ltb_spec 0 bits).
  - exists (t - bits). split; [lia|]. rewrite zlen_app. change (zlen [rem * 2 ^ (t - bits)]) with 1. split; [lia|].
    rewrite bval_app. change (zlen [rem * 2 ^ (t - bits)]) with 1. rewrite Z.pow_1_r.
    change (bval (2 ^ t) [rem * 2 ^ (t - bits)]) with (rem * 2 ^ (t - bits) + 2 ^ t * 0).
    rewrite V. replace (2 ^ t) with (2 ^ bits * 2 ^ (t - bits)) at 2 by (rewrite <- Z.pow_add_r by lia; f_equal; lia). ring.
  - assert (bits = 0) by lia. subst bits. exists 0. change (2 ^ 0) with 1 in *. split; [lia|]. split; [lia|]. lia.
Qed.
Lemma regroup_back xs ys bits rem zs bits' rem' : digits 256 xs ->
  regroup 8 5 xs ys bits rem -> regroup 5 8 (pad_out 5 ys bits rem) zs bits' rem' ->
  bits' < 5 /\ rem' = 0 /\ zs = xs.
Proof.
  intros Hx R R'. destruct (pad_value 8 5 xs ys bits rem ltac:(lia) R) as (p & Hp & L & V).
  destruct R' as (D' & L' & B' & Rr & V').
  assert (zlen zs = zlen xs /\ bits' = p) by lia. destruct H as [Hl ->].
  rewrite V in V'. change (2 ^ 8) with 256 in *.
  pose proof (bval_bound 256 zs ltac:(lia) D') as Hz. pose proof (bval_bound 256 xs ltac:(lia) Hx) as Hxb.
  pose proof (pow2_pos p ltac:(lia)).
  assert (H0 : bval 256 xs = bval 256 zs /\ rem' = 0).
  { clear - V' Rr H. set (P := 2 ^ p) in *. set (X := bval 256 xs) in *. set (Y := bval 256 zs) in *.
    assert (E : (X - Y) * P = rem') by lia.
    destruct (Z.lt_trichotomy X Y) as [Hl|[He|Hg]]; [nia| |nia]. subst Y. rewrite He in E. split; [exact He|]. lia. }
  destruct H0 as [Hv ->].
  split; [lia|]. split; [reflexivity|]. apply (bval_inj 256); auto; [lia|]. unfold zlen in Hl. lia.
Qed.
Lemma regroup_fwd xs zs bits ys bits' rem' : digits 32 xs ->
  regroup 5 8 xs zs bits 0 -> bits < 5 -> regroup 8 5 zs ys bits' rem' -> pad_out 5 ys bits' rem' = xs.
Proof.
  intros Hx (D & L & B & _ & V) Hb R'. pose proof (pad_digits 8 5 zs ys bits' rem' ltac:(lia) R') as Dp.
  destruct (pad_value 8 5 zs ys bits' rem' ltac:(lia) R') as (p & Hp & L' & V').
  assert (zlen (pad_out 5 ys bits' rem') = zlen xs /\ p = bits) by lia. destruct H as [Hl ->].
  change (2 ^ 5) with 32 in *. change (2 ^ 8) with 256 in *.
  apply (bval_inj 32); auto; [lia|unfold zlen in Hl; lia|]. rewrite V', V. lia.
Qed.
