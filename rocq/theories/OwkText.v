(** Leading characters of the owkeychain text forms. *)
From Coq Require Import String ZArith List Bool Lia ZifyBool ZifyNat.
From Verif Require Import Go GoFacts GoFacts2 Base58Model Base58Spec Base58Proofs Base58Props Digits58 Base58CheckModel Base58CheckSpec Base58CheckProofs OwkModel.
Import ListNotations.
Open Scope Z_scope.
Ltac Zify.zify_post_hook ::= idtac.

Lemma is_byteb_all l : forallb is_byteb l = true -> is_bytes l.
Proof. intros F. apply Forall_forall. intros x Hx. rewrite forallb_forall in F. specialize (F x Hx). unfold is_byteb in F. unfold is_byte. lia. Qed.
Lemma ow_alphabet_ok : alphabet_ok ow_alphabet_runes.
Proof. apply alphabet_ok_dec. vm_compute. reflexivity. Qed.
Definition ow_al : alphabet := match new_alphabet ow_alphabet_runes with Ok al => al | _ => mkAlphabet [] [] [] end.
Lemma ow_al_eq : new_alphabet ow_alphabet_runes = Ok ow_al.
Proof. destruct (new_alphabet_spec ow_alphabet_runes ow_alphabet_ok) as (al & E & _). unfold ow_al. rewrite E. reflexivity. Qed.
Definition ow_sym := symbol ow_alphabet_runes.

(** Number of base 58 digits of [x], counted from [P], a power of 58. Used below only as a guess that [r_ok] checks. *)
Fixpoint ndig58 (f : nat) (P x : Z) : nat := match f with O => O | S f' => if x <? P then O else S (ndig58 f' (P * 58) x) end.
(** Numbers of the byte strings of length [n] that start with the [m] bytes of number [F]. *)
Definition r_lo (F : Z) (m n : nat) : Z := F * 256 ^ (Z.of_nat n - Z.of_nat m).
Definition r_hi (F : Z) (m n : nat) : Z := (F + 1) * 256 ^ (Z.of_nat n - Z.of_nat m) - 1.
Definition r_ok (F : Z) (m n L : nat) (k : nat) : bool :=
  (58 ^ (Z.of_nat k - 1) <=? r_lo F m n) && (r_hi F m n <? 58 ^ Z.of_nat k) && (L <=? k)%nat && (0 <? Z.of_nat k).
Definition kdig (F : Z) (m n : nat) : nat := ndig58 (2 * n) 1 (r_lo F m n).
(** Every / no such string has a text starting with the [L] symbols of number [V]. *)
Definition lead_all (F : Z) (m n L : nat) (V : Z) : bool :=
  let k := kdig F m n in
  let P := 58 ^ Z.of_nat (k - L) in
  r_ok F m n L k && (V * P <=? r_lo F m n) && (r_hi F m n <? (V + 1) * P).
Definition lead_none (F : Z) (m n L : nat) (V : Z) : bool :=
  let k := kdig F m n in
  let P := 58 ^ Z.of_nat (k - L) in
  r_ok F m n L k && (((V + 1) * P <=? r_lo F m n) || (r_hi F m n <? V * P)).

Lemma quot_all V P a b : 0 < P -> V * P <= a -> a <= b -> b < (V + 1) * P -> a / P = V /\ b / P = V.
Proof. intros H A B C. split; symmetry; [apply (Z.div_unique_pos a P V (a - P * V))|apply (Z.div_unique_pos b P V (b - P * V))]; nia. Qed.
Lemma quot_none V P a b : 0 < P -> (V + 1) * P <= a \/ b < V * P -> V < a / P \/ b / P < V.
Proof. intros H [A|A]; [left; assert (V + 1 <= a / P) by (apply Z.div_le_lower_bound; lia); lia|right; apply Z.div_lt_upper_bound; lia]. Qed.
Lemma r_range p r F m n : is_bytes r -> be_num p = F -> length p = m -> length (p ++ r) = n -> r_lo F m n <= be_num (p ++ r) <= r_hi F m n.
Proof.
  intros Hr <- <- <-. unfold r_lo, r_hi. rewrite app_length, be_num_app. pose proof (be_num_bound r Hr) as B.
  replace (Z.of_nat (length p + length r) - Z.of_nat (length p)) with (zlen r) by (unfold zlen; lia). lia.
Qed.
Lemma base58_text b s : is_bytes b -> base58_encode ow_al b = Ok s -> is_base58_of ow_alphabet_runes b s.
Proof. apply base58_numeral; [exact ow_alphabet_ok|exact ow_al_eq]. Qed.
Lemma lead_all_text p r F m n L V s : lead_all F m n L V = true -> is_bytes (p ++ r) -> hd 1 p <> 0 -> p <> [] ->
  be_num p = F -> length p = m -> length (p ++ r) = n -> base58_encode ow_al (p ++ r) = Ok s ->
  starts_with (map ow_sym (digits58 L V)) s = true.
Proof.
  unfold lead_all. cbv zeta. generalize (kdig F m n). intros k H Hb Hh Hn EF Em En Es. unfold r_ok in H.
  pose proof (r_range p r F m n ltac:(apply is_bytes_app in Hb; tauto) EF Em En) as R.
  destruct (base58_lead ow_alphabet_runes (p ++ r) s k L (r_lo F m n) (r_hi F m n) (base58_text _ _ Hb Es) Hb) as (q & t & Q & ->); try lia.
  - destruct p; [contradiction|exact Hh].
  - destruct (quot_all V (58 ^ Z.of_nat (k - L)) (r_lo F m n) (r_hi F m n)) as [Q1 Q2]; [apply Z.pow_pos_nonneg; lia|lia|lia|lia|].
    assert (q = V) by lia. subst q. unfold starts_with. fold ow_sym. rewrite map_length, digits58_length.
    apply beq_eq. rewrite firstn_app, map_length, digits58_length, Nat.sub_diag. cbn [firstn]. rewrite app_nil_r.
    apply firstn_all2. rewrite map_length, digits58_length. lia.
Qed.
Lemma map_sym_inj a b : digits 58 a -> digits 58 b -> map ow_sym a = map ow_sym b -> a = b.
Proof.
  revert b. induction a as [|x a IH]; intros [|y b] Ha Hb E; try discriminate; [reflexivity|].
  cbn [map] in E. injection E as E1 E2. inversion Ha; subst. inversion Hb; subst. f_equal; [|apply IH; assumption].
  apply (sym_inj ow_alphabet_runes ow_alphabet_ok ow_al (new_alphabet_al _ _ ow_alphabet_ok ow_al_eq)); assumption.
Qed.
Lemma lead_none_text p r F m n L V s : lead_none F m n L V = true -> 0 <= V < 58 ^ Z.of_nat L -> is_bytes (p ++ r) -> hd 1 p <> 0 -> p <> [] ->
  be_num p = F -> length p = m -> length (p ++ r) = n -> base58_encode ow_al (p ++ r) = Ok s ->
  starts_with (map ow_sym (digits58 L V)) s = false.
Proof.
  unfold lead_none. cbv zeta. generalize (kdig F m n). intros k H HV Hb Hh Hn EF Em En Es. unfold r_ok in H.
  pose proof (r_range p r F m n ltac:(apply is_bytes_app in Hb; tauto) EF Em En) as R.
  destruct (base58_lead ow_alphabet_runes (p ++ r) s k L (r_lo F m n) (r_hi F m n) (base58_text _ _ Hb Es) Hb) as (q & t & Q & ->); try lia.
  - destruct p; [contradiction|exact Hh].
  - pose proof (quot_none V (58 ^ Z.of_nat (k - L)) (r_lo F m n) (r_hi F m n) ltac:(apply Z.pow_pos_nonneg; lia) ltac:(lia)) as QN.
    unfold starts_with. fold ow_sym. rewrite map_length, digits58_length. apply beq_neq. intros E.
    rewrite firstn_app, map_length, digits58_length, Nat.sub_diag in E. cbn [firstn] in E. rewrite app_nil_r in E.
    rewrite firstn_all2 in E by (rewrite map_length, digits58_length; lia).
    apply map_sym_inj in E; try apply digits58_range.
    assert (q = V); [|lia].
    assert (0 < 58 ^ (Z.of_nat k - 1)) by (apply Z.pow_pos_nonneg; lia).
    assert (0 < 58 ^ Z.of_nat (k - L)) by (apply Z.pow_pos_nonneg; lia).
    rewrite <- (digits58_bval L q), <- (digits58_bval L V), E; [reflexivity|exact HV|].
    split; [pose proof (Z.div_pos (r_lo F m n) (58 ^ Z.of_nat (k - L))); lia|].
    assert (r_hi F m n / 58 ^ Z.of_nat (k - L) < 58 ^ Z.of_nat L); [|lia].
    apply Z.div_lt_upper_bound; [lia|]. rewrite <- Z.pow_add_r by lia. replace (Z.of_nat (k - L) + Z.of_nat L) with (Z.of_nat k) by lia. lia.
Qed.
