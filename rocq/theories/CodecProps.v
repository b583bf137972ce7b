(** C54, C63, C64: integer codecs, variable-length counts, reversed hexadecimal. *)
From Coq Require Import ZArith List Bool Lia ZifyBool ZifyNat.
From Verif Require Import Go GoFacts Codes Reader CodecModel BtcModel BtcProofs.
Import ListNotations.
Open Scope Z_scope.
Ltac Zify.zify_post_hook ::= idtac.

(** ** C63 *)
(** The value of a byte string, least significant byte first. *)
Fixpoint little (b : bytes) : Z := match b with [] => 0 | x :: r => x + 256 * little r end.
Lemma little_num b : le_num b = little b.
Proof. induction b as [|x b IH]; [reflexivity|]. cbn [little]. rewrite <- IH. reflexivity. Qed.
(** Writing gives n bytes of that value, and reading takes the value of the first n bytes, or panics if there are fewer. *)
Theorem little_endian_codec : forall n, (n = 2 \/ n = 4 \/ n = 8)%nat ->
  (forall v, 0 <= v < 2 ^ (8 * Z.of_nat n) -> is_bytes (put_le n v) /\ length (put_le n v) = n /\ little (put_le n v) = v /\ forall rest, get_le n (put_le n v ++ rest) = Ok v) /\
  (forall b, is_bytes b -> length b = n -> exists v, 0 <= v < 2 ^ (8 * Z.of_nat n) /\ get_le n b = Ok v /\ put_le n v = b) /\
  (forall b, get_le n b = Panic <-> (length b < n)%nat).
Proof.
  intros n N. assert (P : 2 ^ (8 * Z.of_nat n) = 256 ^ Z.of_nat n) by (rewrite Z.pow_mul_r by lia; reflexivity). unfold put_le, get_le. split; [|split].
  - intros v V. rewrite P in V. assert (L : length (le_bytes n v) = n) by (pose proof (zlen_le_bytes n v); unfold zlen in *; lia).
    split; [apply le_bytes_is_bytes|]. split; [exact L|]. split; [rewrite <- little_num; apply le_num_of_small; exact V|]. intros rest. rewrite zlen_app, zlen_le_bytes. pose proof (zlen_nonneg rest).
    replace (Z.of_nat n + zlen rest <? Z.of_nat n) with false by lia. rewrite firstn_app, L, Nat.sub_diag, firstn_O, app_nil_r, firstn_all2 by lia. rewrite le_num_of_small by exact V. reflexivity.
  - intros b B L. exists (le_num b). pose proof (le_num_bound b B) as K. unfold zlen in *. rewrite L in *. rewrite P. split; [exact K|]. rewrite Z.ltb_irrefl, firstn_all2 by lia. split; [reflexivity|].
    apply le_num_inj; [apply le_bytes_is_bytes|exact B|pose proof (zlen_le_bytes n (le_num b)); unfold zlen in *; lia|]. apply le_num_of_small. exact K.
  - intros b. unfold zlen. destruct (Z.ltb_spec (Z.of_nat (length b)) (Z.of_nat n)); split; intros; try discriminate; try reflexivity; lia.
Qed.
Theorem big_endian_codec : forall n, (n = 2 \/ n = 4 \/ n = 8)%nat ->
  (forall v, 0 <= v < 2 ^ (8 * Z.of_nat n) -> is_bytes (put_be n v) /\ length (put_be n v) = n /\ little (rev (put_be n v)) = v /\ forall rest, get_be n (put_be n v ++ rest) = Ok v) /\
  (forall b, is_bytes b -> length b = n -> exists v, 0 <= v < 2 ^ (8 * Z.of_nat n) /\ get_be n b = Ok v /\ put_be n v = b) /\
  (forall b, get_be n b = Panic <-> (length b < n)%nat).
Proof.
  intros n N. assert (P : 2 ^ (8 * Z.of_nat n) = 256 ^ Z.of_nat n) by (rewrite Z.pow_mul_r by lia; reflexivity). unfold put_be, get_be. split; [|split].
  - intros v V. rewrite P in V. assert (L : length (be_bytes n v) = n) by (pose proof (zlen_be_bytes n v); unfold zlen in *; lia).
    split; [apply be_bytes_is_bytes|]. split; [exact L|]. split; [rewrite <- little_num, le_num_rev; apply be_num_of_small; exact V|]. intros rest. rewrite zlen_app, zlen_be_bytes. pose proof (zlen_nonneg rest).
    replace (Z.of_nat n + zlen rest <? Z.of_nat n) with false by lia. rewrite firstn_app, L, Nat.sub_diag, firstn_O, app_nil_r, firstn_all2 by lia. rewrite be_num_of_small by exact V. reflexivity.
  - intros b B L. exists (be_num b). pose proof (be_num_bound b B) as K. unfold zlen in *. rewrite L in *. rewrite P. split; [exact K|]. rewrite Z.ltb_irrefl, firstn_all2 by lia. split; [reflexivity|].
    apply be_num_inj; [apply be_bytes_is_bytes|exact B|pose proof (zlen_be_bytes n (be_num b)); unfold zlen in *; lia|]. apply be_num_of_small. exact K.
  - intros b. unfold zlen. destruct (Z.ltb_spec (Z.of_nat (length b)) (Z.of_nat n)); split; intros; try discriminate; try reflexivity; lia.
Qed.

(** ** C54 *)
(** Bitcoin's CompactSize, as read. *)
Definition rcompact : reader Z :=
  b <~ rbyte ;; if b <? 0xfd then rret b else if b =? 0xfd then rle 2 else if b =? 0xfe then rle 4 else rle 8.
(** The form written for a count is read back as that count, whatever follows; no shorter form is read as it. *)
Theorem var_int_shortest : forall v, 0 <= v < 2 ^ 64 ->
  is_bytes (var_int v) /\ reads rcompact (var_int v) v /\ forall e, is_bytes e -> reads rcompact e v -> (length (var_int v) <= length e)%nat.
Proof.
  intros v V. unfold var_int, put_le. split; [|split].
  - destruct (v <? 253); [apply is_bytes_cons; split; [unfold is_byte; apply Z.mod_pos_bound; lia|constructor]|]. destruct (v <=? 65535); [bts|]. destruct (v <=? 4294967295); bts.
  - destruct (Z.ltb_spec v 253); [intros rest; unfold rcompact, rbind; cbn [app rbyte]; rewrite Z.mod_small by lia; replace (v <? 253) with true by lia; reflexivity|].
    destruct (Z.leb_spec v 65535); [intros rest; unfold rcompact, rbind; cbn [app rbyte]; rewrite Z.mod_small by lia; apply (reads_le 2 v); lia|].
    destruct (Z.leb_spec v 4294967295); [intros rest; unfold rcompact, rbind; cbn [app rbyte]; rewrite Z.mod_small by lia; apply (reads_le 4 v); lia|].
    intros rest; unfold rcompact, rbind; cbn [app rbyte]. apply (reads_le 8 v); lia.
  - intros e Be R. specialize (R []). rewrite app_nil_r in R. destruct e as [|b e]; [discriminate|]. unfold rcompact, rbind in R. cbn [rbyte] in R. apply is_bytes_cons in Be as [Bb Be]. unfold is_byte in Bb.
    assert (K : forall n, (0 <= n) -> rle n e = Some (v, []) -> zlen e = n /\ v < 256 ^ n).
    { intros n Hn Q. unfold rle, rbind, rtake in Q. destruct (Z.ltb_spec (zlen e) n) as [|Ln]; [discriminate|]. unfold rret in Q. injection Q as Q1 Q2.
      assert (length e <= Z.to_nat n)%nat. { apply (f_equal (@length Z)) in Q2. rewrite skipn_length in Q2. cbn [length] in Q2. lia. }
      assert (Le : zlen e = n) by (unfold zlen in *; lia). split; [exact Le|]. rewrite firstn_all2 in Q1 by assumption. rewrite <- Q1, <- Le. apply le_num_bound. exact Be. }
    assert (LL : forall n x, length (le_bytes n x) = n) by (intros n x; pose proof (zlen_le_bytes n x); unfold zlen in *; lia).
    destruct (Z.ltb_spec b 253).
    + unfold rret in R. assert (b = v) by congruence. replace (v <? 253) with true by lia. cbn [length]. lia.
    + destruct (Z.eqb_spec b 253).
      * apply K in R; [|lia]. destruct R as [R1 R2]. change (256 ^ 2) with 65536 in R2. replace (v <=? 65535) with true by lia. unfold zlen in R1. destruct (v <? 253); cbn [length]; rewrite ?LL; lia.
      * destruct (Z.eqb_spec b 254).
        -- apply K in R; [|lia]. destruct R as [R1 R2]. change (256 ^ 4) with 4294967296 in R2. replace (v <=? 4294967295) with true by lia. unfold zlen in R1. destruct (v <? 253); [|destruct (v <=? 65535)]; cbn [length]; rewrite ?LL; lia.
        -- apply K in R; [|lia]. destruct R as [R1 R2]. unfold zlen in R1. destruct (v <? 253); [|destruct (v <=? 65535); [|destruct (v <=? 4294967295)]]; cbn [length]; rewrite ?LL; lia.
Qed.
Example var_int_300 : var_int 300 = [0xfd; 0x2c; 0x01] /\ var_int 252 = [252] /\ var_int 65536 = [0xfe; 0; 0; 1; 0].
Proof. vm_compute. repeat split. Qed.

(** ** C64 *)
Definition hexc (c : Z) : Prop := 48 <= c <= 57 \/ 97 <= c <= 102 \/ 65 <= c <= 70.
Definition lower (c : Z) : Z := if (65 <=? c) && (c <=? 70) then c + 32 else c.
Lemma hexc_val c : (exists v, hex_val c = Some v) <-> hexc c.
Proof.
  unfold hex_val, hexc. destruct ((48 <=? c) && (c <=? 57)) eqn:E1; [split; [lia|eexists; reflexivity]|]. destruct ((97 <=? c) && (c <=? 102)) eqn:E2; [split; [lia|eexists; reflexivity]|].
  destruct ((65 <=? c) && (c <=? 70)) eqn:E3; [split; [lia|eexists; reflexivity]|]. split; [intros [v Q]; discriminate|lia].
Qed.
Lemma hex_digit_val c v : hex_val c = Some v -> hex_digit v = lower c.
Proof.
  unfold hex_val, hex_digit, lower. destruct ((48 <=? c) && (c <=? 57)) eqn:E1; [intros Q; assert (v = c - 48) by congruence; subst v; destruct (Z.ltb_spec (c - 48) 10); destruct ((65 <=? c) && (c <=? 70)) eqn:?; lia|].
  destruct ((97 <=? c) && (c <=? 102)) eqn:E2; [intros Q; assert (v = c - 87) by congruence; subst v; destruct (Z.ltb_spec (c - 87) 10); destruct ((65 <=? c) && (c <=? 70)) eqn:?; lia|].
  destruct ((65 <=? c) && (c <=? 70)) eqn:E3; [intros Q; assert (v = c - 55) by congruence; subst v; destruct (Z.ltb_spec (c - 55) 10); lia|discriminate].
Qed.
Lemma hex_decode_iff s : (exists b, hex_decode s = Ok b) <-> Nat.even (length s) = true /\ Forall hexc s.
Proof.
  induction s as [|a|a b s IH] using pair_ind; cbn [hex_decode length Nat.even].
  - split; [intros _; split; [reflexivity|constructor]|intros _; eexists; reflexivity].
  - split; [intros [? Q]; discriminate|intros [Q _]; discriminate].
  - destruct (hex_val a) as [x|] eqn:Ea.
    + destruct (hex_val b) as [y|] eqn:Eb.
      * assert (Ha : hexc a) by (apply hexc_val; eexists; exact Ea). assert (Hb : hexc b) by (apply hexc_val; eexists; exact Eb). split.
        -- intros [r Q]. apply bind_ok in Q as (t & Q & _). destruct (proj1 IH (ex_intro _ t Q)) as [L F]. split; [exact L|]. constructor; [exact Ha|]. constructor; [exact Hb|exact F].
        -- intros [L F]. inversion F as [|? ? _ F1]; subst. inversion F1 as [|? ? _ F2]; subst. destruct (proj2 IH (conj L F2)) as [t Q]. rewrite Q. eexists. reflexivity.
      * split; [intros [r Q]; discriminate|]. intros [_ F]. inversion F as [|? ? _ F1]; subst. inversion F1 as [|? ? Hb _]; subst. apply hexc_val in Hb. destruct Hb as [v Hb]. congruence.
    + split; [intros [r Q]; discriminate|]. intros [_ F]. inversion F as [|? ? Ha _]; subst. apply hexc_val in Ha. destruct Ha as [v Ha]. congruence.
Qed.
Lemma hex_encode_decode s : forall b, hex_decode s = Ok b -> hex_encode b = map lower s.
Proof.
  induction s as [|a|a b s IH] using pair_ind; intros r; cbn [hex_decode]; [intros Q; injection Q as <-; reflexivity|discriminate|].
  destruct (hex_val a) as [x|] eqn:Ea; [|discriminate]. destruct (hex_val b) as [y|] eqn:Eb; [|discriminate]. intros Q. apply bind_ok in Q as (t & Q & Er). assert (r = (x * 16 + y) :: t) by congruence. subst r.
  unfold hex_encode. cbn [flat_map app map]. fold (hex_encode t). rewrite (IH t Q). pose proof (hex_val_range _ _ Ea). pose proof (hex_val_range _ _ Eb).
  replace ((x * 16 + y) / 16) with x by (rewrite Z.div_add_l by lia; rewrite Z.div_small by lia; lia). replace ((x * 16 + y) mod 16) with y by (rewrite Z.add_comm, Z.mod_add by lia; symmetry; apply Z.mod_small; lia).
  rewrite (hex_digit_val a x Ea), (hex_digit_val b y Eb). reflexivity.
Qed.
(** The bytes of a text are those of its hexadecimal digits in reverse order; the text written back is the text in lower
    case; every byte string is recovered from its text; texts of odd length or with other characters are refused. *)
Theorem reversed_hex_exact : forall s,
  reverse_hex s <> Panic /\ (reverse_hex s = Err <-> Nat.even (length s) = false \/ ~ Forall hexc s) /\
  (forall b, reverse_hex s = Ok b -> is_bytes b /\ length s = (2 * length b)%nat /\ hex_decode s = Ok (rev b) /\ reverse_to_hex b = map lower s).
Proof.
  intros s. assert (K : reverse_hex s = match hex_decode s with Ok b => Ok (rev b) | Err => Err | Panic => Panic end).
  { unfold reverse_hex. destruct (hex_decode s) as [b| |] eqn:E; cbn [bind]; [|destruct (_ =? 1); reflexivity|exfalso; exact (hex_decode_not_panic s E)].
    destruct (hex_decode_bytes s b E) as [_ L]. replace (zlen s mod 2 =? 1) with false; [reflexivity|]. unfold zlen. rewrite L. replace (Z.of_nat (2 * length b)) with (Z.of_nat (length b) * 2) by lia. rewrite Z.mod_mul by lia. reflexivity. }
  rewrite K. pose proof (hex_decode_not_panic s) as NP. pose proof (hex_decode_iff s) as I. destruct (hex_decode s) as [b| |] eqn:E; [| |contradiction].
  - split; [discriminate|]. split; [|].
    + split; [discriminate|]. destruct (proj1 I (ex_intro _ b eq_refl)) as [L F]. intros [Q|Q]; [congruence|contradiction].
    + intros r Q. assert (r = rev b) by congruence. subst r. destruct (hex_decode_bytes s b E) as [B L]. split; [apply is_bytes_rev; exact B|]. rewrite rev_length. split; [exact L|].
      rewrite rev_involutive. split; [reflexivity|]. unfold reverse_to_hex. rewrite rev_involutive. apply hex_encode_decode. exact E.
  - split; [discriminate|]. split; [|discriminate]. split; [|reflexivity]. intros _. destruct (Nat.even (length s)) eqn:Ev; [right|left; reflexivity]. intros F. destruct (proj2 I (conj eq_refl F)) as [b Q]. discriminate.
Qed.
Theorem reversed_hex_round_trip : forall b, is_bytes b -> reverse_hex (reverse_to_hex b) = Ok b.
Proof. intros b B. apply reverse_hex_ok. unfold reverse_to_hex. apply hex_decode_encode. apply is_bytes_rev. exact B. Qed.
Example reversed_example : reverse_hex [48; 65; 102; 49] = Ok [0xf1; 0x0a] /\ reverse_to_hex [0xf1; 0x0a] = [48; 97; 102; 49].
Proof. vm_compute. split; reflexivity. Qed.
Print Assumptions little_endian_codec.
Print Assumptions big_endian_codec.
Print Assumptions var_int_shortest.
Print Assumptions reversed_hex_exact.
Print Assumptions reversed_hex_round_trip.
