(** The loop "for i := 0; i < 32-len(s); i++ { s = append([]byte{0}, s...) }", which occurs in several
    places of /repo (owkeychain/extendedkey.go:122-126 and 141-145, the serilizeS functions). Because len(s)
    grows while i grows, it adds only about half of the missing zeros. *)
From Coq Require Import ZArith List Bool Lia ZifyBool ZifyNat.
From Verif Require Import Go GoFacts.
Import ListNotations.
Open Scope Z_scope.
Ltac Zify.zify_post_hook ::= idtac.

(** [f] bounds the number of iterations; 32 is always enough. *)
Fixpoint pad_loop (f : nat) (i : Z) (s : bytes) : bytes :=
  match f with
  | O => s
  | S f' => if i <? 32 - zlen s then pad_loop f' (i + 1) (0 :: s) else s
  end.
Definition pad32_buggy (s : bytes) : bytes := pad_loop 32 0 s.

Lemma pad_loop_spec f : forall i s, 0 <= i -> (32 - zlen s - i <= 2 * Z.of_nat f) ->
  pad_loop f i s = zeros (Z.to_nat ((32 - zlen s - i + 1) / 2)) ++ s.
Proof.
  induction f as [|f IH]; intros i s Hi Hf; cbn [pad_loop].
  - replace (Z.to_nat ((32 - zlen s - i + 1) / 2)) with O; [reflexivity|].
    assert ((32 - zlen s - i + 1) / 2 < 1) by (apply Z.div_lt_upper_bound; lia). lia.
  - destruct (i <? 32 - zlen s) eqn:C.
    + rewrite IH by (rewrite ?zlen_cons; lia). rewrite zlen_cons.
      replace (32 - zlen s - i + 1) with (32 - (1 + zlen s) - (i + 1) + 1 + 1 * 2) by lia. rewrite Z.div_add by lia.
      assert (0 <= (32 - (1 + zlen s) - (i + 1) + 1) / 2) by (apply Z.div_pos; lia).
      rewrite Z2Nat.inj_add by lia. change (Z.to_nat 1) with 1%nat. unfold zeros. rewrite repeat_app. rewrite <- app_assoc. reflexivity.
    + replace (Z.to_nat ((32 - zlen s - i + 1) / 2)) with O; [reflexivity|].
      assert ((32 - zlen s - i + 1) / 2 < 1) by (apply Z.div_lt_upper_bound; lia). lia.
Qed.
(** Exactly ceil((32 - len)/2) zero bytes are added to a string shorter than 32 bytes, none otherwise. *)
Lemma pad32_buggy_eq s : pad32_buggy s = zeros (Z.to_nat ((33 - zlen s) / 2)) ++ s.
Proof. unfold pad32_buggy. pose proof (zlen_nonneg s). rewrite pad_loop_spec by lia. do 3 f_equal. f_equal. lia. Qed.
Lemma pad32_full s : 31 <= zlen s <= 32 -> length (pad32_buggy s) = 32%nat.
Proof.
  intros H. rewrite pad32_buggy_eq, app_length. unfold zeros. rewrite repeat_length.
  assert (zlen s = 31 \/ zlen s = 32) as [E|E] by lia; rewrite E; unfold zlen in E; change ((33 - 31) / 2) with 1; change ((33 - 32) / 2) with 0; lia.
Qed.
Lemma pad32_short s : zlen s <= 30 -> zlen (pad32_buggy s) < 32.
Proof.
  intros H. rewrite pad32_buggy_eq, zlen_app, zlen_zeros. pose proof (zlen_nonneg s).
  assert ((33 - zlen s) / 2 < 32 - zlen s) by (apply Z.div_lt_upper_bound; lia).
  assert (0 <= (33 - zlen s) / 2) by (apply Z.div_pos; lia). lia.
Qed.
Lemma pad32_num s : be_num (pad32_buggy s) = be_num s.
Proof. rewrite pad32_buggy_eq. apply be_num_zeros. Qed.
Lemma pad32_bytes s : is_bytes s -> is_bytes (pad32_buggy s).
Proof. intros H. rewrite pad32_buggy_eq. apply is_bytes_app. split; [apply is_bytes_zeros|exact H]. Qed.
