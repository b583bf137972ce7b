(** Lemmas about the prelude [Go]. *)
From Coq Require Import ZArith List Bool Lia ZifyBool ZifyNat.
From Verif Require Import Go.
Import ListNotations.
Open Scope Z_scope.
Ltac Zify.zify_post_hook ::= Z.div_mod_to_equations.

Lemma zlen_nonneg {A} (l : list A) : 0 <= zlen l.
Proof. unfold zlen; lia. Qed.
Lemma zlen_nil {A} : zlen (@nil A) = 0.
Proof. reflexivity. Qed.
Lemma zlen_cons {A} (x : A) l : zlen (x :: l) = 1 + zlen l.
Proof. unfold zlen; cbn [length]; lia. Qed.
Lemma zlen_app {A} (a b : list A) : zlen (a ++ b) = zlen a + zlen b.
Proof. unfold zlen; rewrite app_length; lia. Qed.
Lemma zlen_rev {A} (a : list A) : zlen (rev a) = zlen a.
Proof. unfold zlen; rewrite rev_length; lia. Qed.
Lemma zlen_zeros n : zlen (zeros n) = Z.of_nat n.
Proof. unfold zlen, zeros; rewrite repeat_length; lia. Qed.
Lemma zlen_map {A B} (f : A -> B) l : zlen (map f l) = zlen l.
Proof. unfold zlen; rewrite map_length; lia. Qed.
Lemma zlen_length {A} (l : list A) n : zlen l = Z.of_nat n <-> length l = n.
Proof. unfold zlen; lia. Qed.
Lemma zlen_0 {A} (l : list A) : zlen l = 0 -> l = [].
Proof. destruct l; [reflexivity | rewrite zlen_cons; pose proof (zlen_nonneg l); lia]. Qed.

Lemma bind_ok {A B} (m : res A) (k : A -> res B) b :
  bind m k = Ok b -> exists a, m = Ok a /\ k a = Ok b.
Proof. destruct m; cbn; intros H; try discriminate; eauto. Qed.

Lemma beq_refl a : beq a a = true.
Proof. induction a; cbn; [reflexivity | rewrite Z.eqb_refl; assumption]. Qed.
Lemma beq_eq a b : beq a b = true <-> a = b.
Proof.
  split; [| intros ->; apply beq_refl].
  revert b; induction a as [|x a IH]; destruct b as [|y b]; cbn; intros H;
    try discriminate; [reflexivity|].
  apply andb_prop in H as [H1 H2]. apply Z.eqb_eq in H1. f_equal; auto.
Qed.
Lemma beq_neq a b : beq a b = false <-> a <> b.
Proof.
  split; intros H.
  - intros E; apply beq_eq in E; congruence.
  - destruct (beq a b) eqn:E; [apply beq_eq in E; contradiction | reflexivity].
Qed.

Lemma is_bytes_app a b : is_bytes (a ++ b) <-> is_bytes a /\ is_bytes b.
Proof. unfold is_bytes; apply Forall_app. Qed.
Lemma is_bytes_rev a : is_bytes a -> is_bytes (rev a).
Proof. intros; apply Forall_rev; assumption. Qed.
Lemma is_bytes_zeros n : is_bytes (zeros n).
Proof. unfold is_bytes, zeros. apply Forall_forall; intros x Hx; apply repeat_spec in Hx; subst; unfold is_byte; lia. Qed.
Lemma is_bytes_cons x l : is_bytes (x :: l) <-> is_byte x /\ is_bytes l.
Proof. unfold is_bytes; split; [intros H; inversion H; auto | intros [? ?]; constructor; auto]. Qed.

(** slices *)
Lemma slice_mid {A} (a b c : list A) i j :
  i = zlen a -> j = zlen a + zlen b -> slice (a ++ b ++ c) i j = Ok b.
Proof.
  intros -> ->. unfold slice.
  rewrite !zlen_app.
  pose proof (zlen_nonneg a); pose proof (zlen_nonneg b); pose proof (zlen_nonneg c).
  replace (_ && _ && _) with true by lia.
  f_equal. replace (Z.to_nat (zlen a)) with (length a) by (unfold zlen; lia).
  rewrite skipn_app, skipn_all, Nat.sub_diag; cbn [skipn app].
  replace (Z.to_nat _) with (length b) by (unfold zlen; lia).
  rewrite firstn_app, firstn_all, Nat.sub_diag; cbn [firstn]. apply app_nil_r.
Qed.
Lemma slice_pre {A} (b c : list A) j :
  j = zlen b -> slice (b ++ c) 0 j = Ok b.
Proof. intros ->. apply (slice_mid [] b c); cbn; reflexivity. Qed.
Lemma slice_post {A} (a b : list A) i j :
  i = zlen a -> j = zlen a + zlen b -> slice (a ++ b) i j = Ok b.
Proof. intros. rewrite <- (app_nil_r b) at 1. apply slice_mid; assumption. Qed.
Lemma slice_all {A} (a : list A) : slice a 0 (zlen a) = Ok a.
Proof. apply (slice_post [] a); cbn; reflexivity. Qed.

Lemma slice_ok {A} (l : list A) i j r :
  slice l i j = Ok r ->
  0 <= i <= j /\ j <= zlen l /\
  exists a c, l = a ++ r ++ c /\ zlen a = i /\ zlen r = j - i.
Proof.
  unfold slice. destruct (_ && _ && _) eqn:E; [|discriminate].
  intros H; injection H as <-.
  split; [lia|]. split; [lia|].
  exists (firstn (Z.to_nat i) l), (skipn (Z.to_nat (j - i)) (skipn (Z.to_nat i) l)).
  split; [rewrite firstn_skipn; rewrite firstn_skipn; reflexivity|].
  unfold zlen in *. split.
  - rewrite firstn_length. lia.
  - rewrite firstn_length, skipn_length. lia.
Qed.
Lemma slice_not_err {A} (l : list A) i j : slice l i j <> Err.
Proof. unfold slice; destruct (_ && _); discriminate. Qed.
Lemma slice_panic {A} (l : list A) i j :
  slice l i j = Panic <-> ~ (0 <= i <= j /\ j <= zlen l).
Proof. unfold slice; destruct (_ && _ && _) eqn:E; split; intros; try discriminate; try lia; reflexivity. Qed.
Lemma slice_total {A} (l : list A) i j :
  0 <= i <= j -> j <= zlen l -> exists r, slice l i j = Ok r.
Proof. intros; unfold slice. replace (_ && _ && _) with true by lia. eauto. Qed.

Lemma idx_mid {A} (a : list A) x b i : i = zlen a -> idx (a ++ x :: b) i = Ok x.
Proof.
  intros ->; unfold idx. pose proof (zlen_nonneg a).
  replace (_ <? _) with false by lia.
  replace (Z.to_nat (zlen a)) with (length a) by (unfold zlen; lia).
  rewrite nth_error_app2 by lia. rewrite Nat.sub_diag. reflexivity.
Qed.
Lemma idx_ok {A} (l : list A) i x :
  idx l i = Ok x -> exists a b, l = a ++ x :: b /\ zlen a = i.
Proof.
  unfold idx. destruct (i <? 0) eqn:E; [discriminate|].
  destruct (nth_error l (Z.to_nat i)) eqn:N; [|discriminate].
  intros H; injection H as ->.
  apply nth_error_split in N as (a & b & -> & L).
  exists a, b; split; [reflexivity | unfold zlen; lia].
Qed.
Lemma idx_total {A} (l : list A) i : 0 <= i < zlen l -> exists x, idx l i = Ok x.
Proof.
  intros H. unfold idx. replace (_ <? _) with false by lia.
  destruct (nth_error l (Z.to_nat i)) eqn:E; [eauto|].
  apply nth_error_None in E. unfold zlen in H. lia.
Qed.

(** numbers *)
Lemma be_num_acc l : forall acc, fold_left (fun a b => a * 256 + b) l acc = acc * 256 ^ zlen l + be_num l.
Proof.
  unfold be_num. induction l as [|x l IH]; intros acc; cbn [fold_left].
  - rewrite zlen_nil. lia.
  - rewrite IH, (IH (0 * 256 + x)), zlen_cons, Z.pow_add_r by (pose proof (zlen_nonneg l); lia).
    ring.
Qed.
Lemma be_num_nil : be_num [] = 0. Proof. reflexivity. Qed.
Lemma be_num_cons x l : be_num (x :: l) = x * 256 ^ zlen l + be_num l.
Proof. unfold be_num at 1. cbn [fold_left]. rewrite be_num_acc. ring. Qed.
Lemma be_num_app a b : be_num (a ++ b) = be_num a * 256 ^ zlen b + be_num b.
Proof. unfold be_num at 1. rewrite fold_left_app. rewrite be_num_acc. reflexivity. Qed.
Lemma be_num_snoc a x : be_num (a ++ [x]) = be_num a * 256 + x.
Proof. rewrite be_num_app, be_num_cons, be_num_nil, zlen_cons, zlen_nil. change (256 ^ (1 + 0)) with 256. change (256 ^ 0) with 1. ring. Qed.
Lemma pow256_pos l : 0 < 256 ^ zlen (A := Z) l.
Proof. apply Z.pow_pos_nonneg; [lia | apply zlen_nonneg]. Qed.
Lemma be_num_bound l : is_bytes l -> 0 <= be_num l < 256 ^ zlen l.
Proof.
  induction l as [|x l IH]; intros H.
  - cbn. lia.
  - apply is_bytes_cons in H as [Hx Hl]. rewrite be_num_cons, zlen_cons, Z.pow_add_r by (pose proof (zlen_nonneg l); lia).
    specialize (IH Hl). unfold is_byte in Hx. change (256 ^ 1) with 256. nia.
Qed.
Lemma be_num_rev l : be_num (rev l) = le_num l.
Proof.
  induction l as [|x l IH]; [reflexivity|].
  cbn [rev le_num]. rewrite be_num_snoc, IH. ring.
Qed.
Lemma le_num_rev l : le_num (rev l) = be_num l.
Proof. rewrite <- be_num_rev, rev_involutive. reflexivity. Qed.
Lemma le_num_app a b : le_num (a ++ b) = le_num a + 256 ^ zlen a * le_num b.
Proof.
  induction a as [|x a IH]; cbn [app le_num].
  - change (zlen (@nil Z)) with 0. change (256 ^ 0) with 1. ring.
  - rewrite IH, zlen_cons, Z.pow_add_r by (pose proof (zlen_nonneg a); lia).
    change (256 ^ 1) with 256. ring.
Qed.
Lemma le_num_bound l : is_bytes l -> 0 <= le_num l < 256 ^ zlen l.
Proof. intros H. rewrite <- be_num_rev, <- zlen_rev. apply be_num_bound, is_bytes_rev, H. Qed.

Lemma le_bytes_length n : forall x, length (le_bytes n x) = n.
Proof. induction n; intros; cbn [le_bytes length]; auto. Qed.
Lemma zlen_le_bytes n x : zlen (le_bytes n x) = Z.of_nat n.
Proof. unfold zlen; rewrite le_bytes_length; reflexivity. Qed.
Lemma le_bytes_is_bytes n : forall x, is_bytes (le_bytes n x).
Proof.
  induction n; intros; cbn [le_bytes]; [constructor|].
  apply is_bytes_cons; split; [|apply IHn]. unfold is_byte. lia.
Qed.
Lemma le_num_le_bytes n : forall x, le_num (le_bytes n x) = x mod 256 ^ Z.of_nat n.
Proof.
  induction n; intros x; cbn [le_bytes le_num].
  - change (256 ^ Z.of_nat 0) with 1. rewrite Z.mod_1_r. reflexivity.
  - rewrite IHn. rewrite Nat2Z.inj_succ, Z.pow_succ_r by lia.
    assert (0 < 256 ^ Z.of_nat n) by (apply Z.pow_pos_nonneg; lia).
    rewrite Z.rem_mul_r by lia. ring.
Qed.
Lemma le_bytes_le_num l : is_bytes l -> le_bytes (length l) (le_num l) = l.
Proof.
  induction l as [|b l IH]; intros H; [reflexivity|].
  apply is_bytes_cons in H as [Hb Hl]. cbn [length le_bytes le_num]. unfold is_byte in Hb.
  f_equal.
  - rewrite (Z.mul_comm 256), Z_mod_plus_full. apply Z.mod_small; lia.
  - replace ((b + 256 * le_num l) / 256) with (le_num l) by lia. exact (IH Hl).
Qed.
Lemma le_num_inj a b : is_bytes a -> is_bytes b -> length a = length b -> le_num a = le_num b -> a = b.
Proof.
  intros Ha Hb HL E. rewrite <- (le_bytes_le_num a Ha), <- (le_bytes_le_num b Hb), E, HL. reflexivity.
Qed.
Lemma be_num_inj a b : is_bytes a -> is_bytes b -> length a = length b -> be_num a = be_num b -> a = b.
Proof.
  intros Ha Hb HL E. rewrite <- (rev_involutive a), <- (rev_involutive b). f_equal.
  apply le_num_inj; try (apply is_bytes_rev; assumption); [rewrite !rev_length; assumption|].
  rewrite !le_num_rev; assumption.
Qed.
Lemma zlen_be_bytes n x : zlen (be_bytes n x) = Z.of_nat n.
Proof. unfold be_bytes; rewrite zlen_rev, zlen_le_bytes; reflexivity. Qed.
Lemma be_bytes_length n x : length (be_bytes n x) = n.
Proof. unfold be_bytes; rewrite rev_length, le_bytes_length; reflexivity. Qed.
Lemma be_bytes_is_bytes n x : is_bytes (be_bytes n x).
Proof. apply is_bytes_rev, le_bytes_is_bytes. Qed.
Lemma be_num_be_bytes n x : be_num (be_bytes n x) = x mod 256 ^ Z.of_nat n.
Proof. unfold be_bytes. rewrite be_num_rev. apply le_num_le_bytes. Qed.
Lemma be_bytes_be_num l : is_bytes l -> be_bytes (length l) (be_num l) = l.
Proof.
  intros H. unfold be_bytes. rewrite <- le_num_rev, <- (rev_length l), le_bytes_le_num by (apply is_bytes_rev, H).
  apply rev_involutive.
Qed.

(** strip0 / lead0 *)
Lemma strip0_lead0 l : l = zeros (lead0 l) ++ strip0 l.
Proof.
  induction l as [|x l IH]; [reflexivity|].
  destruct x; cbn [lead0 strip0]; try reflexivity.
  cbn [zeros repeat app]. f_equal. exact IH.
Qed.
Lemma strip0_head l : match strip0 l with [] => True | x :: _ => x <> 0 end.
Proof. induction l as [|x l IH]; cbn; [exact I|]. destruct x; try discriminate; exact IH. Qed.
Lemma strip0_zeros n l : strip0 (zeros n ++ l) = strip0 l.
Proof. induction n; [reflexivity|]. cbn. exact IHn. Qed.
Lemma strip0_nz x l : x <> 0 -> strip0 (x :: l) = x :: l.
Proof. destruct x; intros; [contradiction | reflexivity | reflexivity]. Qed.
Lemma lead0_nz x l : x <> 0 -> lead0 (x :: l) = O.
Proof. destruct x; intros; [contradiction | reflexivity | reflexivity]. Qed.
Lemma be_num_zeros n l : be_num (zeros n ++ l) = be_num l.
Proof.
  induction n; [reflexivity|]. cbn [zeros repeat app]. rewrite be_num_cons.
  change (repeat 0 n) with (zeros n). rewrite IHn. lia.
Qed.
Lemma be_num_strip0 l : be_num (strip0 l) = be_num l.
Proof. rewrite (strip0_lead0 l) at 2. rewrite be_num_zeros. reflexivity. Qed.

(** big_bytes *)
Lemma min_le_fuel_num f : forall x, 0 <= x < 2 ^ Z.of_nat f -> le_num (min_le_fuel f x) = x.
Proof.
  induction f; intros x H; cbn [min_le_fuel].
  - change (2 ^ Z.of_nat 0) with 1 in H. cbn. lia.
  - destruct (x =? 0) eqn:E; [cbn; lia|]. cbn [le_num]. rewrite IHf; [lia|].
    rewrite Nat2Z.inj_succ, Z.pow_succ_r in H by lia.
    split; [lia|]. assert (0 < 2 ^ Z.of_nat f) by (apply Z.pow_pos_nonneg; lia).
    apply Z.div_lt_upper_bound; lia.
Qed.
Lemma min_le_fuel_bytes f : forall x, is_bytes (min_le_fuel f x).
Proof.
  induction f; intros x; cbn [min_le_fuel]; [constructor|].
  destruct (x =? 0); [constructor|]. apply is_bytes_cons; split; [unfold is_byte; lia | apply IHf].
Qed.
Lemma min_le_fuel_last f : forall x d, 0 <= x < 2 ^ Z.of_nat f -> x <> 0 -> last (min_le_fuel f x) d <> 0.
Proof.
  induction f; intros x d H Hx.
  - change (2 ^ Z.of_nat 0) with 1 in H. lia.
  - cbn [min_le_fuel]. replace (x =? 0) with false by lia.
    rewrite Nat2Z.inj_succ, Z.pow_succ_r in H by lia.
    assert (0 < 2 ^ Z.of_nat f) by (apply Z.pow_pos_nonneg; lia).
    destruct (Z.eq_dec (x / 256) 0) as [E|E].
    + replace (min_le_fuel f (x / 256)) with (@nil Z) by (rewrite E; destruct f; reflexivity).
      cbn [last]. lia.
    + assert (N : min_le_fuel f (x / 256) <> []).
      { destruct f; cbn [min_le_fuel]; [change (2 ^ Z.of_nat 0) with 1 in H; lia|].
        replace (x / 256 =? 0) with false by lia. discriminate. }
      assert (P := IHf (x / 256) d).
      destruct (min_le_fuel f (x / 256)) eqn:L; [contradiction|].
      cbn [last] in *. apply P; [split; [lia|]; apply Z.div_lt_upper_bound; lia | exact E].
Qed.
Lemma log2_fuel a : 0 <= a -> 0 <= a < 2 ^ Z.of_nat (Z.to_nat (Z.log2 a + 1)).
Proof.
  intros H. split; [exact H|]. rewrite Z2Nat.id by (pose proof (Z.log2_nonneg a); lia).
  destruct (Z.eq_dec a 0) as [->|]; [reflexivity|].
  apply Z.log2_spec; lia.
Qed.
Lemma big_bytes_num x : be_num (big_bytes x) = Z.abs x.
Proof. unfold big_bytes. rewrite be_num_rev. apply min_le_fuel_num, log2_fuel. lia. Qed.
Lemma big_bytes_bytes x : is_bytes (big_bytes x).
Proof. apply is_bytes_rev, min_le_fuel_bytes. Qed.
Lemma hd_rev_last {A} (l : list A) d : hd d (rev l) = last l d.
Proof.
  induction l as [|x l IH]; [reflexivity|]. cbn [rev].
  destruct l; [reflexivity|]. cbn [last] in *. rewrite <- IH. cbn [rev].
  destruct (rev l ++ [a]) eqn:E; [destruct (rev l); discriminate | reflexivity].
Qed.
Lemma big_bytes_strip x : strip0 (big_bytes x) = big_bytes x.
Proof.
  destruct (Z.eq_dec (Z.abs x) 0) as [E|E].
  - unfold big_bytes. rewrite E. reflexivity.
  - unfold big_bytes. set (m := min_le_fuel _ _).
    assert (L : last m 1 <> 0) by (apply min_le_fuel_last; [apply log2_fuel; lia | exact E]).
    rewrite <- hd_rev_last in L. destruct (rev m) as [|h t]; [reflexivity|]. cbn [hd] in L.
    apply strip0_nz; exact L.
Qed.
(** The minimal big-endian form is characterised by value and absence of a
    leading zero. *)
Lemma stripped_unique a b :
  is_bytes a -> is_bytes b -> strip0 a = a -> strip0 b = b -> be_num a = be_num b -> a = b.
Proof.
  intros Ha Hb Sa Sb E.
  assert (LE : forall u v, is_bytes u -> is_bytes v -> strip0 v = v -> be_num u = be_num v -> (length v <= length u)%nat).
  { clear. intros u v Hu Hv Sv E.
    destruct v as [|x v]; [cbn; lia|].
    apply is_bytes_cons in Hv as [Hx Hv].
    assert (x <> 0).
    { intros ->. cbn [strip0] in Sv. assert (length (strip0 v) <= length v)%nat.
      { rewrite (strip0_lead0 v) at 2. rewrite app_length. lia. }
      rewrite Sv in H. cbn [length] in H. lia. }
    pose proof (be_num_bound u Hu). pose proof (be_num_bound v Hv). rewrite be_num_cons in E.
    unfold is_byte in Hx.
    assert (256 ^ zlen v < 256 ^ zlen u) by nia.
    apply Z.pow_lt_mono_r_iff in H2; [|lia|apply zlen_nonneg]. unfold zlen in H2. cbn [length]. lia. }
  apply be_num_inj; auto. apply Nat.le_antisymm; apply LE; auto.
Qed.
Lemma big_bytes_be_num l : is_bytes l -> big_bytes (be_num l) = strip0 l.
Proof.
  intros H.
  assert (Hs : is_bytes (strip0 l)).
  { rewrite (strip0_lead0 l) in H. apply is_bytes_app in H. tauto. }
  apply stripped_unique; auto using big_bytes_bytes, big_bytes_strip.
  - pose proof (strip0_head l). destruct (strip0 l) as [|x r]; [reflexivity|]. apply strip0_nz; auto.
  - rewrite big_bytes_num, be_num_strip0. apply Z.abs_eq, be_num_bound, H.
Qed.

(** hex *)
Lemma hex_val_digit v : 0 <= v < 16 -> hex_val (hex_digit v) = Some v.
Proof.
  intros H.
  assert (C : v = 0 \/ v = 1 \/ v = 2 \/ v = 3 \/ v = 4 \/ v = 5 \/ v = 6 \/ v = 7 \/
          v = 8 \/ v = 9 \/ v = 10 \/ v = 11 \/ v = 12 \/ v = 13 \/ v = 14 \/ v = 15) by lia.
  repeat (destruct C as [-> | C]; [reflexivity|]). subst; reflexivity.
Qed.
Lemma hex_decode_encode l : is_bytes l -> hex_decode (hex_encode l) = Ok l.
Proof.
  induction l as [|b l IH]; intros H; [reflexivity|].
  apply is_bytes_cons in H as [Hb Hl]. unfold is_byte in Hb. unfold hex_encode. cbn [flat_map app hex_decode].
  rewrite !hex_val_digit by lia. fold (hex_encode l). rewrite (IH Hl). cbn [bind].
  repeat f_equal. lia.
Qed.
Lemma hex_encode_app a b : hex_encode (a ++ b) = hex_encode a ++ hex_encode b.
Proof. unfold hex_encode. apply flat_map_app. Qed.
Lemma hex_encode_length l : length (hex_encode l) = (2 * length l)%nat.
Proof. unfold hex_encode. induction l; cbn [flat_map app length]; [reflexivity|]. rewrite IHl. lia. Qed.
Lemma zlen_hex_encode l : zlen (hex_encode l) = 2 * zlen l.
Proof. unfold zlen. rewrite hex_encode_length. lia. Qed.
Lemma hex_val_range c v : hex_val c = Some v -> 0 <= v < 16.
Proof. unfold hex_val. destruct (_ && _) eqn:E1; [intros H; injection H; lia|].
  destruct ((97 <=? c) && _) eqn:E2; [intros H; injection H; lia|].
  destruct ((65 <=? c) && _) eqn:E3; [intros H; injection H; lia|discriminate]. Qed.
Lemma pair_ind {A} (P : list A -> Prop) :
  P [] -> (forall a, P [a]) -> (forall a b l, P l -> P (a :: b :: l)) -> forall l, P l.
Proof.
  intros H0 H1 H2. fix IH 1. intros [|a [|b l]]; [exact H0 | apply H1 | apply H2, IH].
Qed.
Lemma hex_decode_bytes s : forall l, hex_decode s = Ok l -> is_bytes l /\ length s = (2 * length l)%nat.
Proof.
  induction s as [|a|a b s IH] using pair_ind; intros l; cbn [hex_decode].
  - intros H; injection H as <-. split; [constructor | reflexivity].
  - discriminate.
  - destruct (hex_val a) eqn:Ea; [|discriminate]. destruct (hex_val b) eqn:Eb; [|discriminate].
    destruct (hex_decode s) eqn:Es; cbn [bind]; try discriminate.
    intros H; injection H as <-. destruct (IH _ eq_refl) as [IH1 IH2].
    apply hex_val_range in Ea, Eb. split.
    + apply is_bytes_cons; split; [unfold is_byte; lia | exact IH1].
    + cbn [length]. lia.
Qed.
Lemma hex_decode_not_panic s : hex_decode s <> Panic.
Proof.
  induction s as [|a|a b s IH] using pair_ind; cbn [hex_decode]; try discriminate.
  destruct (hex_val a); [|discriminate]. destruct (hex_val b); [|discriminate].
  destruct (hex_decode s); cbn [bind]; try discriminate. contradiction.
Qed.
Lemma hex_encode_inj a b : is_bytes a -> is_bytes b -> hex_encode a = hex_encode b -> a = b.
Proof.
  intros Ha Hb E. pose proof (hex_decode_encode a Ha) as H. rewrite E, hex_decode_encode in H by assumption. congruence.
Qed.

(** UTF-8 *)
Lemma runes_fuel_ascii s : forall f, (length s <= f)%nat -> is_ascii s -> runes_fuel f s = s.
Proof.
  induction s as [|c s IH]; intros f Hf H.
  - destruct f; reflexivity.
  - destruct f; [cbn in Hf; lia|]. cbn [runes_fuel]. inversion H; subst.
    replace (c <? 128) with true by lia. f_equal. apply IH; [cbn in Hf; lia | assumption].
Qed.
Lemma runes_ascii s : is_ascii s -> runes s = s.
Proof. intros; unfold runes; apply runes_fuel_ascii; auto. Qed.
(** A string containing a non-ASCII byte decodes to a rune list containing a non-ASCII rune. *)
Lemma runes_fuel_non_ascii f : forall s, (length s <= f)%nat -> Forall (fun c => 0 <= c) s ->
  Forall (fun c => c < 128) (runes_fuel f s) -> Forall (fun c => c < 128) s.
Proof.
  induction f; intros s Hf Hp H.
  - destruct s; [constructor | cbn in Hf; lia].
  - destruct s as [|c s]; [constructor|]. cbn [length] in Hf. inversion Hp; subst. cbn [runes_fuel] in H.
    destruct (c <? 128) eqn:E.
    + inversion H; subst. constructor; [lia|]. apply IHf; [lia|assumption|assumption].
    + exfalso.
      repeat match type of H with
      | context [if ?b then _ else _] => destruct b eqn:?
      | context [match ?l with [] => _ | _ :: _ => _ end] => destruct l
      end; inversion H; subst; unfold cont in *; lia.
Qed.
Lemma runes_non_ascii s : is_bytes s -> Forall (fun c => c < 128) (runes s) -> is_ascii s.
Proof.
  intros Hb H. unfold is_ascii.
  assert (H2 : Forall (fun c => c < 128) s).
  { apply (runes_fuel_non_ascii (length s)); [lia| |exact H].
    eapply Forall_impl; [|exact Hb]. intros a Ha; unfold is_byte in Ha; lia. }
  apply Forall_forall. intros x Hx. rewrite Forall_forall in H2. pose proof (H2 _ Hx).
  pose proof (proj1 (Forall_forall _ _) Hb _ Hx) as H3. unfold is_byte in H3. lia.
Qed.
