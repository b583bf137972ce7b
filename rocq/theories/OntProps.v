(** C48, C49, C50, C80: Ontology transactions. *)
From Coq Require Import String ZArith List Bool Lia ZifyBool ZifyNat.
From Verif Require Import Go GoFacts GoFacts2 Codes Rd Reader Base58Model Base58Spec Base58Props Base58CheckSpec Base58CheckModel Base58CheckProofs Base58CheckProps AddressProofs Toy OntSpec OntModel.
Import ListNotations.
Open Scope Z_scope.
Ltac Zify.zify_post_hook ::= idtac.

(** ** Pushed numbers *)
Lemma take_app n b rest k : zlen b = n -> take n (b ++ rest) k = k b rest.
Proof.
  intros L. unfold take. rewrite zlen_app. pose proof (zlen_nonneg rest). replace (zlen b + zlen rest <? n) with false by lia.
  rewrite <- L. unfold zlen. rewrite Nat2Z.id, firstn_app, skipn_app, Nat.sub_diag, firstn_all, skipn_all, firstn_O, app_nil_r. reflexivity.
Qed.
Lemma get_length_pushes b : b <> [] -> zlen b < 2 ^ 32 -> pushes (get_length (zlen b) ++ b) (B b).
Proof.
  intros NE L f rest m. pose proof (zlen_nonneg b). assert (0 < zlen b) by (destruct b; [contradiction|rewrite zlen_cons; pose proof (zlen_nonneg b); lia]). unfold get_length, u8, u16, u32. rewrite <- app_assoc.
  destruct (zlen b <? 75) eqn:E1.
  - cbn [app exec]. change (2 ^ 8) with 256. rewrite Z.mod_small by lia. replace (zlen b =? 0) with false by lia. replace ((0 <? zlen b) && (zlen b <=? 75)) with true by lia. rewrite take_app by reflexivity. reflexivity.
  - destruct (zlen b <? 256) eqn:E2; [|destruct (zlen b <? 65536) eqn:E3].
    + cbn [app]. change (2 ^ 8) with 256. rewrite Z.mod_small by lia. change (zlen b :: b ++ rest) with ([zlen b] ++ (b ++ rest)). cbn [exec Z.eqb Z.ltb Z.leb Pos.eqb Z.compare Pos.compare Pos.compare_cont andb]. rewrite take_app by reflexivity. change (le_num [zlen b]) with (zlen b + 256 * 0). rewrite take_app by lia. reflexivity.
    + change (2 ^ 16) with 65536. rewrite Z.mod_small by lia. cbn [app]. cbn [exec Z.eqb Z.ltb Z.leb Pos.eqb Z.compare Pos.compare Pos.compare_cont andb]. rewrite take_app by (rewrite zlen_le_bytes; reflexivity). rewrite le_num_of_small by (change (256 ^ Z.of_nat 2) with 65536; lia). rewrite take_app by reflexivity. reflexivity.
    + rewrite Z.mod_small by lia. cbn [app]. cbn [exec Z.eqb Z.ltb Z.leb Pos.eqb Z.compare Pos.compare Pos.compare_cont andb]. rewrite take_app by (rewrite zlen_le_bytes; reflexivity). rewrite le_num_of_small by (change (256 ^ Z.of_nat 4) with (2 ^ 32); lia). rewrite take_app by reflexivity. reflexivity.
Qed.
Lemma le_num_rev l : le_num (rev l) = be_num l.
Proof. rewrite <- be_num_rev, rev_involutive. reflexivity. Qed.
Lemma last_rev (b : Z) r : last (rev (b :: r)) 0 = b.
Proof. cbn [rev]. apply last_last. Qed.
Lemma be_num_top b r : is_bytes (b :: r) -> b * 256 ^ zlen r <= be_num (b :: r) < (b + 1) * 256 ^ zlen r.
Proof. intros Q. inversion Q; subst. rewrite be_num_cons. pose proof (be_num_bound r H2). lia. Qed.
Lemma be_num_compl l : is_bytes l -> be_num (map (fun x => 255 - x) l) = 256 ^ zlen l - 1 - be_num l.
Proof.
  induction 1 as [|b l Bb Bl IH]; [reflexivity|]. cbn [map]. rewrite !be_num_cons, IH. rewrite zlen_cons, Z.pow_add_r by (pose proof (zlen_nonneg l); lia). change (256 ^ 1) with 256. rewrite zlen_map. lia.
Qed.
Lemma tc_rev b r : is_bytes (b :: r) -> tc (rev (b :: r)) = if b <? 128 then be_num (b :: r) else be_num (b :: r) - 256 ^ zlen (b :: r).
Proof. intros _. unfold tc. rewrite last_rev, le_num_rev, zlen_rev. reflexivity. Qed.
(** The numbers of n bytes. *)
Lemma tc_bound l : is_bytes l -> - 256 ^ zlen l <= 2 * tc l < 256 ^ zlen l \/ l = [] /\ tc l = 0.
Proof.
  intros Q. destruct (rev l) as [|b r] eqn:E.
  - right. apply (f_equal (@rev Z)) in E. rewrite rev_involutive in E. subst l. auto.
  - left. assert (L : l = rev (b :: r)) by (rewrite <- E, rev_involutive; reflexivity). subst l. rewrite zlen_rev. assert (Qr : is_bytes (b :: r)) by (rewrite <- (rev_involutive (b :: r)); apply is_bytes_rev; exact Q).
    rewrite tc_rev by exact Qr. pose proof (be_num_top b r Qr) as T. apply is_bytes_cons in Qr as [Hb Hr]. unfold is_byte in Hb. rewrite zlen_cons, Z.pow_add_r by (pose proof (zlen_nonneg r); lia). change (256 ^ 1) with 256.
    assert (P : 0 < 256 ^ zlen r) by (apply Z.pow_pos_nonneg; [lia|apply zlen_nonneg]). set (W := 256 ^ zlen r) in *. destruct (b <? 128) eqn:Eb; [assert ((b + 1) * W <= 128 * W) by nia; nia|assert (128 * W <= b * W) by nia; assert ((b + 1) * W <= 256 * W) by nia; nia].
Qed.
Definition shortest (b : bytes) : Prop := forall b', is_bytes b' -> tc b' = tc b -> zlen b <= zlen b'.
Definition fits (v : Z) : Prop := 0 <= v \/ exists k, 0 <= k /\ 256 ^ k <= - v <= 128 * 256 ^ k.
Lemma shortest_bound b v n : tc b = v -> 0 < n -> zlen b = n -> 256 ^ (n - 1) <= 2 * v \/ n = 1 /\ 0 < v -> shortest b.
Proof.
  intros T N L V b' Q E. rewrite T in E. destruct (tc_bound b' Q) as [B|[-> Z0]].
  - rewrite E in B. destruct V as [V|[-> V]].
    + assert (P : 256 ^ (n - 1) < 256 ^ zlen b') by lia. apply Z.pow_lt_mono_r_iff in P; [lia|lia|apply zlen_nonneg].
    + destruct b'; [change (256 ^ zlen (@nil Z)) with 1 in B; lia|rewrite zlen_cons; pose proof (zlen_nonneg b'); lia].
  - rewrite Z0 in E. assert (0 < 256 ^ (n - 1)) by (apply Z.pow_pos_nonneg; lia). lia.
Qed.
Lemma neo_spec v : v <> 0 -> exists b, neo_bytes v = get_length (zlen b) ++ b /\ b <> [] /\ is_bytes b /\ zlen b <= zlen (big_bytes v) + 1 /\ (tc b = v <-> fits v) /\ (0 < v -> shortest b).
Proof.
  intros NZ. unfold neo_bytes. pose proof (big_bytes_bytes v) as Q. pose proof (big_bytes_num v) as E. pose proof (strip0_head (big_bytes v)) as S. rewrite big_bytes_strip in S. destruct (big_bytes v) as [|b r]; [cbn in E; lia|].
  pose proof (be_num_top b r Q) as T. pose proof (be_num_bound (b :: r) Q) as N. assert (P : 0 < 256 ^ zlen r) by (apply Z.pow_pos_nonneg; [lia|apply zlen_nonneg]). pose proof Q as Q'. apply is_bytes_cons in Q' as [Hb Hr]. unfold is_byte in Hb.
  assert (W : 256 ^ zlen (b :: r) = 256 * 256 ^ zlen r) by (rewrite zlen_cons, Z.pow_add_r by (pose proof (zlen_nonneg r); lia); reflexivity). pose proof (zlen_nonneg r) as Lr.
  assert (Qrev : is_bytes (rev (b :: r))) by (apply is_bytes_rev; exact Q). assert (NErev : rev (b :: r) <> []) by (intros C; apply (f_equal (@length Z)) in C; rewrite rev_length in C; discriminate).
  destruct (v <? 0) eqn:Neg.
  - (* negative *) rewrite be_num_compl by exact Q. set (c := 256 ^ zlen (b :: r) - 1 - be_num (b :: r) + 1). assert (Hc : c = 256 * 256 ^ zlen r + v) by (unfold c; lia). pose proof (big_bytes_bytes c) as Qc. pose proof (big_bytes_num c) as Ec. pose proof (strip0_head (big_bytes c)) as Sc. rewrite big_bytes_strip in Sc.
    rewrite Z.abs_eq in Ec by lia. destruct (big_bytes c) as [|d s] eqn:Bc; [cbn in Ec; lia|]. pose proof (be_num_top d s Qc) as Tc. pose proof (be_num_bound (d :: s) Qc) as Nc. assert (Ps : 0 < 256 ^ zlen s) by (apply Z.pow_pos_nonneg; [lia|apply zlen_nonneg]). pose proof (zlen_nonneg s) as Ls. pose proof Qc as Qd. apply is_bytes_cons in Qd as [Hd Hs]. unfold is_byte in Hd.
    assert (Ws : 256 ^ zlen (d :: s) = 256 * 256 ^ zlen s) by (rewrite zlen_cons, Z.pow_add_r by lia; reflexivity).
    assert (Qrs : is_bytes (rev (d :: s))) by (apply is_bytes_rev; exact Qc).
    assert (D1 : 256 ^ zlen s <= d * 256 ^ zlen s) by nia. assert (D2 : (d + 1) * 256 ^ zlen s <= 256 * 256 ^ zlen s) by nia.
    assert (Lsr : zlen s <= zlen r). { assert (256 ^ zlen s < 256 ^ (zlen r + 1)) by (rewrite Z.pow_add_r by lia; change (256 ^ 1) with 256; lia). apply Z.pow_lt_mono_r_iff in H; lia. }
    destruct (b / 128 =? 0) eqn:Eb.
    + assert (b < 128) by (Z.div_mod_to_equations; lia). exists (rev (d :: s) ++ [255]). split; [reflexivity|]. split; [intros C; apply app_eq_nil in C as [_ C]; discriminate|]. split; [apply is_bytes_app; split; [exact Qrs|repeat constructor; lia]|].
      split; [rewrite zlen_app, zlen_rev; change (zlen [255]) with 1; rewrite !zlen_cons; lia|]. split; [|lia].
      assert (c >= 128 * 256 ^ zlen r) by nia. assert (Lsr' : zlen r <= zlen s). { assert (256 ^ zlen r < 256 ^ (zlen s + 1)) by (rewrite Z.pow_add_r by lia; change (256 ^ 1) with 256; lia). apply Z.pow_lt_mono_r_iff in H1; lia. }
      assert (Lq : zlen s = zlen r) by lia.
      split; [intros _; right; exists (zlen r); split; [lia|nia]|intros _]. unfold tc. rewrite last_last. change (255 <? 128) with false. cbv iota. rewrite le_num_app, le_num_rev, zlen_app, zlen_rev, zlen_cons. change (zlen [255]) with 1. change (le_num [255]) with 255.
      rewrite !(Z.pow_add_r 256) by lia. change (256 ^ 1) with 256. rewrite Lq. lia.
    + assert (128 <= b) by (Z.div_mod_to_equations; lia). exists (rev (d :: s)). split; [reflexivity|]. split; [intros C; apply (f_equal (@length Z)) in C; rewrite rev_length in C; discriminate|]. split; [exact Qrs|]. split; [rewrite zlen_rev, !zlen_cons; lia|]. split; [|lia].
      rewrite tc_rev by exact Qc. rewrite Ec, Ws. split.
      * intros E2. right. destruct (d <? 128) eqn:Ed; [lia|]. assert (HH : 256 ^ zlen s = 256 ^ zlen r) by lia. exists (zlen r). split; [lia|]. nia.
      * intros [?|(k & K0 & K1 & K2)]; [lia|]. assert (Kr : k <= zlen r). { assert (256 ^ k < 256 ^ (zlen r + 1)) by (rewrite Z.pow_add_r by lia; change (256 ^ 1) with 256; lia). apply Z.pow_lt_mono_r_iff in H0; lia. }
        assert (128 * 256 ^ zlen r <= -v) by nia. assert (256 ^ k <= 256 ^ zlen r) by (apply Z.pow_le_mono_r; lia). assert (V : - v = 128 * 256 ^ zlen r) by nia. assert (c = 128 * 256 ^ zlen r) by lia.
        assert (Lsr' : zlen s = zlen r). { assert (256 ^ zlen r < 256 ^ (zlen s + 1)) by (rewrite Z.pow_add_r by lia; change (256 ^ 1) with 256; lia). apply Z.pow_lt_mono_r_iff in H3; lia. }
        rewrite Lsr' in *. destruct (d <? 128) eqn:Ed; [nia|lia].
  - (* positive *) assert (V : be_num (b :: r) = v) by lia. destruct (b / 128 =? 1) eqn:Eb.
    + assert (128 <= b) by (Z.div_mod_to_equations; lia). assert (TT : tc (rev (b :: r) ++ [0]) = v) by (unfold tc; rewrite last_last; change (0 <? 128) with true; cbv iota; rewrite le_num_app, le_num_rev; change (le_num [0]) with 0; lia).
      assert (LL : zlen (rev (b :: r) ++ [0]) = zlen r + 2) by (rewrite zlen_app, zlen_rev, zlen_cons; change (zlen [0]) with 1; lia).
      exists (rev (b :: r) ++ [0]). split; [reflexivity|]. split; [intros C; apply app_eq_nil in C as [_ C]; discriminate|]. split; [apply is_bytes_app; split; [exact Qrev|repeat constructor; lia]|]. split; [rewrite LL, zlen_cons; lia|]. split; [split; [intros _; left; lia|intros _; exact TT]|intros _].
      apply (shortest_bound _ v (zlen r + 2)); [exact TT|lia|exact LL|]. left. replace (zlen r + 2 - 1) with (1 + zlen r) by lia. rewrite Z.pow_add_r by lia. change (256 ^ 1) with 256. nia.
    + assert (b < 128) by (Z.div_mod_to_equations; lia). assert (TT : tc (rev (b :: r)) = v) by (rewrite tc_rev by exact Q; replace (b <? 128) with true by lia; exact V). assert (LL : zlen (rev (b :: r)) = zlen r + 1) by (rewrite zlen_rev, zlen_cons; lia).
      exists (rev (b :: r)). split; [reflexivity|]. split; [exact NErev|]. split; [exact Qrev|]. split; [rewrite LL, zlen_cons; lia|]. split; [split; [intros _; left; lia|intros _; exact TT]|intros _].
      apply (shortest_bound _ v (zlen r + 1)); [exact TT|lia|exact LL|]. left. replace (zlen r + 1 - 1) with (zlen r) by lia. nia.
Qed.
Lemma big_len v n : 0 <= n -> Z.abs v < 256 ^ n -> zlen (big_bytes v) <= n.
Proof.
  intros Hn B. pose proof (big_bytes_bytes v) as Q. pose proof (big_bytes_num v) as E. pose proof (strip0_head (big_bytes v)) as S. rewrite big_bytes_strip in S. destruct (big_bytes v) as [|b r]; [change (zlen (@nil Z)) with 0; lia|].
  pose proof (be_num_top b r Q) as T. apply is_bytes_cons in Q as [Hb _]. unfold is_byte in Hb. pose proof (zlen_nonneg r). assert (0 < 256 ^ zlen r) by (apply Z.pow_pos_nonneg; lia). assert (P : 256 ^ zlen r < 256 ^ n) by nia. apply Z.pow_lt_mono_r_iff in P; [rewrite zlen_cons; lia|lia|lia].
Qed.
(** Amounts up to this size can be pushed at all. *)
Definition pushable (v : Z) : Prop := Z.log2 (Z.abs v) < 2 ^ 34.
Lemma pushable_len v : pushable v -> zlen (big_bytes v) <= 2 ^ 31.
Proof.
  unfold pushable. intros P. pose proof (Z.log2_nonneg (Z.abs v)). set (k := Z.log2 (Z.abs v)) in *. assert (L : zlen (big_bytes v) <= k / 8 + 1).
  { apply big_len; [Z.div_mod_to_equations; lia|]. change 256 with (2 ^ 8). rewrite <- Z.pow_mul_r by (Z.div_mod_to_equations; lia). destruct (Z.eq_dec (Z.abs v) 0) as [->|N]; [apply Z.pow_pos_nonneg; Z.div_mod_to_equations; lia|].
    apply Z.lt_le_trans with (2 ^ Z.succ k); [apply Z.log2_spec; lia|]. apply Z.pow_le_mono_r; Z.div_mod_to_equations; lia. }
  Z.div_mod_to_equations; lia.
Qed.
Lemma neo_pushes v : v <> 0 -> pushable v -> exists b, pushes (neo_bytes v) (B b) /\ (tc b = v <-> fits v) /\ (0 < v -> shortest b).
Proof.
  intros NZ P. destruct (neo_spec v NZ) as (b & E & NE & _ & L & T & S). exists b. apply pushable_len in P. split; [|auto]. rewrite E. apply get_length_pushes; [exact NE|lia].
Qed.
(** What an amount is pushed as: it denotes the amount and, if it is a byte string, is a shortest one. *)
Definition denotes (x : value) (v : Z) : Prop := num x = Some v /\ match x with B b => shortest b | _ => True end.
Lemma small_pushes v : 0 < v < 16 -> pushes [0x51 - 1 + v] (I v).
Proof.
  intros Hv f rest m. cbn [app exec]. replace (81 - 1 + v =? 0) with false by lia. replace ((0 <? 81 - 1 + v) && (81 - 1 + v <=? 75)) with false by lia. replace (81 - 1 + v =? 76) with false by lia. replace (81 - 1 + v =? 77) with false by lia. replace (81 - 1 + v =? 78) with false by lia. replace (81 - 1 + v =? 79) with false by lia. replace ((81 <=? 81 - 1 + v) && (81 - 1 + v <=? 96)) with true by lia. do 3 f_equal. lia.
Qed.
Lemma zero_pushes : pushes [0] (B []).
Proof. intros f rest m. reflexivity. Qed.
Lemma zero_denotes : denotes (B []) 0.
Proof. split; [reflexivity|]. intros b _ _. change (zlen (@nil Z)) with 0. apply zlen_nonneg. Qed.
Theorem ont_uint64_pushed : forall v, 0 <= v < 2 ^ 64 -> exists x, pushes (uint64_emit v) x /\ denotes x v.
Proof.
  intros v Hv. unfold uint64_emit. destruct (v =? 0) eqn:E0; [assert (v = 0) by lia; subst v; exists (B []); split; [exact zero_pushes|exact zero_denotes]|]. destruct (v <? 16) eqn:E1; [exists (I v); split; [apply small_pushes; lia|split; [reflexivity|exact Logic.I]]|].
  destruct (neo_pushes v) as (b & P & T & S); [lia|unfold pushable; rewrite Z.abs_eq by lia; assert (Z.log2 v <= Z.log2 (2 ^ 64)) by (apply Z.log2_le_mono; lia); rewrite Z.log2_pow2 in H by lia; lia|]. exists (B b). split; [exact P|]. split; [cbn [num]; f_equal; apply T; left; lia|apply S; lia].
Qed.
(** A big integer: every non-negative one is right, a negative one only in the lower half of its byte length. *)
Theorem ont_bigint_pushed : forall v, pushable v -> exists x, pushes (bigint_emit v) x /\ (num x = Some v <-> fits v) /\ (0 <= v -> denotes x v).
Proof.
  intros v P. unfold bigint_emit. destruct (v =? -1) eqn:Em.
  { assert (v = -1) by lia. subst v. exists (I (-1)). split; [intros f rest m; reflexivity|]. split; [|lia]. split; [intros _; right; exists 0; lia|reflexivity]. }
  destruct (v =? 0) eqn:E0; [assert (v = 0) by lia; subst v; exists (B []); split; [exact zero_pushes|]; split; [split; [left; lia|reflexivity]|intros _; exact zero_denotes]|].
  destruct ((0 <? v) && (v <? 16)) eqn:E1; [exists (I v); split; [apply small_pushes; lia|]; split; [split; [left; lia|reflexivity]|split; [reflexivity|exact Logic.I]]|].
  destruct (neo_pushes v) as (b & Q & T & S); [lia|exact P|]. exists (B b). split; [exact Q|]. cbn [num]. split; [split; [intros E; apply T; congruence|intros F; f_equal; apply T; exact F]|]. intros V. split; [cbn [num]; f_equal; apply T; left; exact V|apply S; lia].
Qed.
(** -255 is pushed as 1. *)
Example bigint_255 : pushes (bigint_emit (-255)) (B [1]) /\ num (B [1]) = Some 1.
Proof. split; [apply (get_length_pushes [1]); [discriminate|reflexivity]|reflexivity]. Qed.
Example bigint_128 : pushes (bigint_emit (-128)) (B [0x80]) /\ num (B [0x80]) = Some (-128).
Proof. split; [apply (get_length_pushes [0x80]); [discriminate|reflexivity]|reflexivity]. Qed.

(** ** Payloads *)
(** Base58Check text of a prefix byte and a hash. *)
Definition addr (H : bytes -> bytes) (p : Z) (h : bytes) (s : list Z) : Prop := is_byte p /\ is_bytes h /\ base58_encode btc_alphabet (checked H (p :: h)) = Ok s.
Lemma decode1_iff H s p h : hash_ok H -> is_bytes s -> decode_check1 btc_alphabet H s = Ok (p, h) <-> addr H p h s.
Proof.
  intros HH Hs. split.
  - intros E. destruct (decode_check1_inv H HH _ btc_alphabet_ok _ btc_alphabet_new s p h Hs E) as (Hp & Hh & K). split; [exact Hp|]. split; [exact Hh|]. unfold encode_check1 in K. rewrite encode_check_eq in K; [exact K|exact HH|repeat constructor; apply Hp|exact Hh].
  - intros (Hp & Hh & E). destruct (decode_check1_encode H HH _ btc_alphabet_ok _ btc_alphabet_new p h Hp Hh) as (s' & E' & D). unfold encode_check1 in E'. rewrite encode_check_eq in E'; [|exact HH|repeat constructor; apply Hp|exact Hh]. cbn [app] in E'. rewrite E in E'. injection E' as <-. exact D.
Qed.
Lemma account_iff H s h : hash_ok H -> is_bytes s -> account btc_alphabet H s = Ok h <-> addr H 0x17 h s /\ zlen h = 20.
Proof.
  intros HH Hs. unfold account. split.
  - intros E. apply bind_ok in E as ([p h'] & E1 & E). apply decode1_iff in E1; [|assumption..]. cbv beta iota in E. destruct (p =? 0x17) eqn:P; [|discriminate]. destruct (zlen h' =? 20) eqn:L; [|discriminate]. cbn [negb] in E. injection E as <-. assert (p = 0x17) by lia. subst p. split; [exact E1|lia].
  - intros [Q L]. apply (decode1_iff H s _ _ HH Hs) in Q. rewrite Q. cbn [bind]. rewrite L. reflexivity.
Qed.
Definition typed (v2 : bool) (x : state) : Prop :=
  is_bytes (x_payer x) /\ is_bytes (x_from x) /\ is_bytes (x_to x) /\ (if v2 then pushable (x_amount x) /\ 0 <= x_amount x else 0 <= x_amount x < 2 ^ 64).
(** The methods and contracts of the chain. *)
Definition contract (asset : Z) : bytes := if asset =? 0 then repeat 0 19 ++ [1] else repeat 0 19 ++ [2].
Definition method (v2 : bool) (asset : Z) : list Z := if (asset =? 0) || (asset =? 1) then if v2 then str "transferV2" else str "transfer" else str "transferFrom".
Lemma short_pushes b : 0 < zlen b <= 75 -> pushes (zlen b :: b) (B b).
Proof. intros L f rest m. cbn [app exec]. replace (zlen b =? 0) with false by lia. replace ((0 <? zlen b) && (zlen b <=? 75)) with true by lia. rewrite take_app by reflexivity. reflexivity. Qed.
Lemma emit_pushed v2 x : typed v2 x -> exists a, pushes (if v2 then bigint_emit (x_amount x) else uint64_emit (x_amount x)) a /\ denotes a (x_amount x).
Proof.
  intros (_ & _ & _ & T). destruct v2.
  - destruct T as [P N]. destruct (ont_bigint_pushed _ P) as (a & A & _ & D). eauto.
  - exact (ont_uint64_pushed _ T).
Qed.
Lemma run_fuel k code : (k <= length code)%nat -> exists f, run code = exec (k + f) code {| st := []; alt := []; heap := [] |}.
Proof. intros L. exists (length code - k)%nat. unfold run. f_equal. lia. Qed.
Lemma s_new f r s a h : exec (S f) (0xC6 :: r) {| st := B [] :: s; alt := a; heap := h |} = exec f r {| st := R (length h) :: s; alt := a; heap := h ++ [[]] |}.
Proof. reflexivity. Qed.
Lemma s_toalt f r x s a h : exec (S f) (0x6B :: r) {| st := x :: s; alt := a; heap := h |} = exec f r {| st := s; alt := x :: a; heap := h |}.
Proof. reflexivity. Qed.
Lemma s_dup f r s x a h : exec (S f) (0x6A :: r) {| st := s; alt := x :: a; heap := h |} = exec f r {| st := x :: s; alt := x :: a; heap := h |}.
Proof. reflexivity. Qed.
Lemma s_fromalt f r s x a h : exec (S f) (0x6C :: r) {| st := s; alt := x :: a; heap := h |} = exec f r {| st := x :: s; alt := a; heap := h |}.
Proof. reflexivity. Qed.
Lemma s_append f r x s a l : exec (S f) (0xC8 :: r) {| st := x :: R 0 :: s; alt := a; heap := [l] |} = exec f r {| st := s; alt := a; heap := [l ++ [x]] |}.
Proof. reflexivity. Qed.
Lemma s_pack f r x a h : exec (S f) (0xC1 :: r) {| st := [I 1; x]; alt := a; heap := h |} = exec f r {| st := [A [x]]; alt := a; heap := h |}.
Proof. reflexivity. Qed.
Lemma s_call f c me args a h : exec (S f) (0x68 :: 22 :: str "Ontology.Native.Invoke") {| st := [B []; B c; B me; args]; alt := a; heap := h |} =
  Some {| c_service := str "Ontology.Native.Invoke"; c_version := 0; c_contract := c; c_method := me; c_args := args; c_heap := h |}.
Proof. reflexivity. Qed.
Lemma s_push code v f rest s a h : pushes code v -> exec (S f) (code ++ rest) {| st := s; alt := a; heap := h |} = exec f rest {| st := v :: s; alt := a; heap := h |}.
Proof. intros P. rewrite P. reflexivity. Qed.
(** The payload is created exactly for two addresses with prefix 0x17 and 20 byte hashes, and is a call of the native contract.
    The transfer is a structure in an array, but for a withdrawal (asset 2) it is the structure itself, with the ONT contract as second field. *)
Theorem ont_payload : forall H v2 x, hash_ok H -> typed v2 x ->
  (forall p, invoke_bytes btc_alphabet H v2 x = Ok p -> exists f t a,
     addr H 0x17 f (x_from x) /\ zlen f = 20 /\ addr H 0x17 t (x_to x) /\ zlen t = 20 /\ denotes a (x_amount x) /\
     run p = Some {| c_service := str "Ontology.Native.Invoke"; c_version := 0; c_contract := contract (x_asset x); c_method := method v2 (x_asset x);
       c_args := if x_asset x =? 2 then R 0 else A [R 0]; c_heap := [if x_asset x =? 2 then [B f; B (contract 0); B t; a] else [B f; B t; a]] |}) /\
  ((exists p, invoke_bytes btc_alphabet H v2 x = Ok p) <-> (exists f, addr H 0x17 f (x_from x) /\ zlen f = 20) /\ (exists t, addr H 0x17 t (x_to x) /\ zlen t = 20)).
Proof.
  intros H v2 x HH T. pose proof T as (_ & Bf & Bt & _). split.
  - intros p E. unfold invoke_bytes in E. apply bind_ok in E as (f & Ef & E). apply bind_ok in E as (t & Et & E). apply account_iff in Ef as [Af Lf]; [|assumption..]. apply account_iff in Et as [At Lt]; [|assumption..].
    destruct (emit_pushed v2 x T) as (a & Pa & Da). exists f, t, a. do 5 (split; [assumption|]).
    apply (f_equal (fun x => match x with Ok v => v | _ => [] end)) in E. cbv beta iota in E. subst p.
    match goal with |- run ?c = _ => destruct (run_fuel 30 c) as (fu & ->) end.
    { unfold zlen in Lf, Lt. repeat (rewrite app_length || cbn [length]). lia. }
    set (e := if v2 then bigint_emit (x_amount x) else uint64_emit (x_amount x)) in *.
    assert (Pf : pushes (0x14 :: f) (B f)) by (rewrite <- Lf; apply short_pushes; lia). assert (Pt : pushes (0x14 :: t) (B t)) by (rewrite <- Lt; apply short_pushes; lia).
    assert (Po : pushes (0x14 :: ont_contract) (B (contract 0))) by (apply (short_pushes (contract 0)); split; reflexivity || (intros C; discriminate C)).
    assert (Pm : pushes (u8 (zlen (method_of v2 (x_asset x))) :: method_of v2 (x_asset x)) (B (method v2 (x_asset x)))).
    { unfold method_of, method. destruct ((x_asset x =? 0) || (x_asset x =? 1)); [destruct v2|]; match goal with |- pushes _ (B ?m) => apply (short_pushes m) end; split; reflexivity || (intros C; discriminate C). }
    assert (Pc : pushes (u8 (zlen (contract_of (x_asset x))) :: contract_of (x_asset x)) (B (contract (x_asset x)))).
    { unfold contract_of, contract. destruct (x_asset x =? 0); match goal with |- pushes _ (B ?m) => apply (short_pushes m) end; split; reflexivity || (intros C; discriminate C). }
    change (u8 (zlen (str "Ontology.Native.Invoke"))) with 22. generalize dependent (u8 (zlen (method_of v2 (x_asset x)))). generalize dependent (u8 (zlen (contract_of (x_asset x)))). intros nc Pc nm Pm.
    change (uint64_emit 1) with [81]. generalize dependent ont_contract. intros oc Po. cbn [Nat.add app].
    change (0 :: ?r) with ([0] ++ r) at 1. rewrite (s_push _ _ _ _ _ _ _ zero_pushes), s_new, s_toalt, s_dup. cbn [length app].
    change (20 :: f ++ ?r) with ((20 :: f) ++ r). rewrite (s_push _ _ _ _ _ _ _ Pf), s_append, s_dup. cbn [app].
    assert (P1 : pushes [81] (I 1)) by (apply (small_pushes 1); lia).
    destruct (x_asset x =? 2).
    + cbn [app]. rewrite <- !app_assoc. cbn [app]. change (20 :: oc ++ ?r) with ((20 :: oc) ++ r). rewrite (s_push _ _ _ _ _ _ _ Po), s_append, s_dup. cbn [app].
      change (20 :: t ++ ?r) with ((20 :: t) ++ r). rewrite (s_push _ _ _ _ _ _ _ Pt), s_append, s_dup, (s_push _ _ _ _ _ _ _ Pa), s_append, s_fromalt. cbn [app].
      change (nm :: ?m ++ ?r) with ((nm :: m) ++ r). rewrite (s_push _ _ _ _ _ _ _ Pm). change (nc :: ?m ++ ?r) with ((nc :: m) ++ r). rewrite (s_push _ _ _ _ _ _ _ Pc). change (0 :: ?r) with ([0] ++ r) at 1. rewrite (s_push _ _ _ _ _ _ _ zero_pushes), s_call. reflexivity.
    + cbn [app]. change (20 :: t ++ ?r) with ((20 :: t) ++ r). rewrite (s_push _ _ _ _ _ _ _ Pt), s_append, s_dup, (s_push _ _ _ _ _ _ _ Pa), s_append, s_fromalt. cbn [app].
      change (81 :: ?r) with ([81] ++ r) at 1. rewrite (s_push _ _ _ _ _ _ _ P1), s_pack.
      change (nm :: ?m ++ ?r) with ((nm :: m) ++ r). rewrite (s_push _ _ _ _ _ _ _ Pm). change (nc :: ?m ++ ?r) with ((nc :: m) ++ r). rewrite (s_push _ _ _ _ _ _ _ Pc). change (0 :: ?r) with ([0] ++ r) at 1. rewrite (s_push _ _ _ _ _ _ _ zero_pushes), s_call. reflexivity.
  - unfold invoke_bytes. split.
    + intros (p & E). apply bind_ok in E as (f & Ef & E). apply bind_ok in E as (t & Et & E). apply account_iff in Ef; [|assumption..]. apply account_iff in Et; [|assumption..]. eauto.
    + intros [(f & Af) (t & At)]. apply account_iff in Af; [|assumption..]. apply account_iff in At; [|assumption..]. rewrite Af. cbn [bind]. rewrite At. cbn [bind]. eauto.
Qed.

(** ** Transactions *)
(** The wire format of a transaction without attributes, up to the signatures. *)
Definition transaction : reader (Z * Z * Z * Z * Z * bytes * bytes * Z) :=
  v <~ rbyte ;; ty <~ rbyte ;; n <~ rle 4 ;; p <~ rle 8 ;; l <~ rle 8 ;; h <~ rtake 20 ;; c <~ rcounted ;; a <~ rbyte ;; rret (v, ty, n, p, l, h, c, a).
Lemma get_length_len l : zlen (get_length l) <= 5.
Proof. unfold get_length. repeat (match goal with |- context [if ?c then _ else _] => destruct c end); unfold zlen; cbn [length]; rewrite ?le_bytes_length; lia. Qed.
Lemma neo_len v n : 0 <= n -> Z.abs v < 256 ^ n -> zlen (neo_bytes v) <= n + 6.
Proof.
  intros Hn B. destruct (Z.eq_dec v 0) as [->|N]; [change (zlen (neo_bytes 0)) with 0; lia|]. destruct (neo_spec v N) as (b & -> & _ & _ & L & _). apply big_len in B; [|exact Hn]. rewrite zlen_app. pose proof (get_length_len (zlen b)). lia.
Qed.
Lemma emit_len v2 a : 0 <= a < 2 ^ 512 -> zlen (if v2 : bool then bigint_emit a else uint64_emit a) <= 70.
Proof.
  intros Ha. assert (L : zlen (neo_bytes a) <= 64 + 6) by (apply neo_len; [lia|change (256 ^ 64) with (2 ^ 512); lia]). unfold bigint_emit, uint64_emit. destruct v2; repeat (match goal with |- context [if ?c then _ else _] => destruct c end); try (unfold zlen; cbn [length]; lia); lia.
Qed.
Lemma payload_len H v2 x p : hash_ok H -> typed v2 x -> x_amount x < 2 ^ 512 -> invoke_bytes btc_alphabet H v2 x = Ok p -> 0 < zlen p < 256.
Proof.
  intros HH (_ & Bf & Bt & T) S E. unfold invoke_bytes in E. apply bind_ok in E as (f & Ef & E). apply bind_ok in E as (t & Et & E). apply account_iff in Ef as [_ Lf]; [|assumption..]. apply account_iff in Et as [_ Lt]; [|assumption..].
  assert (La : zlen (if v2 then bigint_emit (x_amount x) else uint64_emit (x_amount x)) <= 70) by (apply emit_len; destruct v2; lia).
  apply (f_equal (fun x => match x with Ok v => v | _ => [] end)) in E. cbv beta iota in E. subst p. unfold zlen in *. set (e := if v2 then bigint_emit (x_amount x) else uint64_emit (x_amount x)) in *.
  assert (Lm : (length (method_of v2 (x_asset x)) <= 12)%nat) by (unfold method_of; destruct (_ || _); [destruct v2|]; apply Nat.leb_le; reflexivity). assert (Lc : length (contract_of (x_asset x)) = 20%nat) by (unfold contract_of; destruct (_ =? _); reflexivity).
  assert (Lo : length ont_contract = 20%nat) by reflexivity. assert (Ls : length (str "Ontology.Native.Invoke") = 22%nat) by reflexivity. change (uint64_emit 1) with [81].
  generalize dependent (str "Ontology.Native.Invoke"). generalize dependent ont_contract. intros oc Lo sv Ls. destruct (x_asset x =? 2); repeat (rewrite app_length || cbn [length]); lia.
Qed.
Definition payer (x : state) : list Z := match x_payer x with [] => x_from x | p => p end.
Definition envelope (nonce gasPrice gasLimit : Z) (h payload : bytes) : bytes :=
  0 :: 0xD1 :: le_bytes 4 nonce ++ le_bytes 8 gasPrice ++ le_bytes 8 gasLimit ++ h ++ zlen payload :: payload ++ [0].
Lemma envelope_read nonce gasPrice gasLimit h payload : 0 <= nonce < 2 ^ 32 -> 0 <= gasPrice < 2 ^ 64 -> 0 <= gasLimit < 2 ^ 64 -> zlen h = 20 ->
  reads transaction (envelope nonce gasPrice gasLimit h payload) (0, 0xD1, nonce, gasPrice, gasLimit, h, payload, 0).
Proof.
  intros N P L Lh. unfold transaction, envelope. change (0 :: 209 :: ?r) with ([0] ++ [209] ++ r).
  eapply reads_bind; [apply reads_byte|]. eapply reads_bind; [apply reads_byte|]. eapply reads_bind; [apply (reads_le 4); [lia|exact N]|]. eapply reads_bind; [apply (reads_le 8); [lia|exact P]|]. eapply reads_bind; [apply (reads_le 8); [lia|exact L]|].
  eapply reads_bind; [apply reads_take; exact Lh|]. change (zlen payload :: payload ++ [0]) with ((zlen payload :: payload) ++ [0]). eapply reads_bind; [apply reads_counted|]. apply (reads_last _ (fun a => (0, 209, nonce, gasPrice, gasLimit, h, payload, a)) [0] 0). apply reads_byte.
Qed.
(** A transaction is created exactly when the payload is and the payer (the sender if empty) is an address of any prefix with a 20 byte hash.
    The text holds the fields, no attributes and no signatures; the hash to sign covers everything but the last byte. *)
Theorem ont_created_iff : forall H K v2 nonce gasPrice gasLimit x raw hash signers, hash_ok H -> typed v2 x -> x_amount x < 2 ^ 512 ->
  create btc_alphabet H K v2 nonce gasPrice gasLimit x = Ok (raw, hash, signers) <->
  exists payload p h, invoke_bytes btc_alphabet H v2 x = Ok payload /\ addr H p h (payer x) /\ zlen h = 20 /\
    raw = hex_encode (envelope nonce gasPrice gasLimit h payload ++ [0]) /\ hash = hex_encode (K (H (envelope nonce gasPrice gasLimit h payload))) /\
    signers = payer x :: (if beq (payer x) (x_from x) then [] else [x_from x]).
Proof.
  intros H K v2 nonce gasPrice gasLimit x raw hash signers HH T S. pose proof T as (Bp & Bf & _ & _). assert (Bpay : is_bytes (payer x)) by (unfold payer; destruct (x_payer x); assumption).
  assert (TB : forall h payload, zlen h = 20 -> 0 < zlen payload < 256 -> tx_bytes {| t_version := 0; t_type := 209; t_nonce := le_bytes 4 nonce; t_price := le_bytes 8 gasPrice; t_limit := le_bytes 8 gasLimit; t_payer := h; t_payload := payload; t_attr := 0; t_sigs := [] |} = Ok (envelope nonce gasPrice gasLimit h payload ++ [0])).
  { intros h payload Lh Lp. unfold tx_bytes. cbn [t_nonce t_price t_limit t_payer t_payload t_version t_type t_attr t_sigs]. rewrite !zlen_le_bytes, Lh. replace (zlen payload =? 0) with false by lia. cbn [negb Z.of_nat Z.eqb Pos.eqb Pos.of_succ_nat Pos.succ]. unfold u8. rewrite Z.mod_small by lia. unfold envelope. reflexivity. }
  assert (SH : forall e, sig_hash H K (e ++ [0]) = Ok (K (H e))) by (intros e; unfold sig_hash; rewrite zlen_app; change (zlen [0]) with 1; rewrite slice_pre by lia; reflexivity).
  unfold create, empty_tx. change (match x_payer x with [] => x_from x | z :: l => z :: l end) with (payer x). split.
  - intros E. apply bind_ok in E as (payload & Ep & E). pose proof (payload_len H v2 x payload HH T S Ep) as Lp. apply bind_ok in E as (t & Et & E). apply bind_ok in Et as (h & Eh & Et). apply (f_equal (fun r => match r with Ok v => v | _ => t end)) in Et; cbv beta iota in Et; subst t. apply bind_ok in E as (b & Eb & E).
    assert (Lh : zlen h = 20). { unfold tx_bytes in Eb. cbn [t_nonce t_price t_limit t_payer] in Eb. rewrite !zlen_le_bytes in Eb. cbn [negb Z.of_nat Z.eqb Pos.eqb Pos.of_succ_nat Pos.succ] in Eb. destruct (zlen h =? 20) eqn:Q; [lia|discriminate]. }
    rewrite TB in Eb by assumption. assert (E0 : b = envelope nonce gasPrice gasLimit h payload ++ [0]) by congruence. subst b. rewrite SH in E. cbn [bind] in E. assert (E1 : raw = hex_encode (envelope nonce gasPrice gasLimit h payload ++ [0])) by congruence. assert (E2 : hash = hex_encode (K (H (envelope nonce gasPrice gasLimit h payload)))) by congruence. assert (E3 : signers = payer x :: (if beq (payer x) (x_from x) then [] else [x_from x])) by congruence.
    destruct (decode_check1 btc_alphabet H (payer x)) as [[p h']| |] eqn:D; [|injection Eh as <-; discriminate|discriminate]. injection Eh as ->. exists payload, p, h. split; [exact Ep|]. split; [apply decode1_iff; assumption|]. auto.
  - intros (payload & p & h & Ep & A & Lh & -> & -> & ->). pose proof (payload_len H v2 x payload HH T S Ep) as Lp. rewrite Ep. cbn [bind]. apply decode1_iff in A; [|assumption..]. rewrite A. cbn [bind]. rewrite TB by assumption. cbn [bind]. rewrite SH. reflexivity.
Qed.

(** The created transaction as the chain reads it. *)
Theorem ont_created_read : forall H K v2 nonce gasPrice gasLimit x raw hash signers, hash_ok H -> typed v2 x -> x_amount x < 2 ^ 512 -> 0 <= nonce < 2 ^ 32 -> 0 <= gasPrice < 2 ^ 64 -> 0 <= gasLimit < 2 ^ 64 ->
  create btc_alphabet H K v2 nonce gasPrice gasLimit x = Ok (raw, hash, signers) ->
  exists b payload p h, raw = hex_encode (b ++ [0]) /\ hash = hex_encode (K (H b)) /\ rwhole transaction b = Some (0, 0xD1, nonce, gasPrice, gasLimit, h, payload, 0) /\ invoke_bytes btc_alphabet H v2 x = Ok payload /\ addr H p h (payer x).
Proof.
  intros H K v2 nonce gasPrice gasLimit x raw hash signers HH T S N P L E. apply ont_created_iff in E as (payload & p & h & Ep & A & Lh & -> & -> & _); [|assumption..]. exists (envelope nonce gasPrice gasLimit h payload), payload, p, h. do 2 (split; [reflexivity|]). split; [apply reads_whole, envelope_read; assumption|]. auto.
Qed.

(** ** Decoding and signing *)
(** A transaction that fits the format. *)
Definition fields (t : tx) : Prop :=
  t_version t = 0 /\ t_type t = 0xD1 /\ zlen (t_nonce t) = 4 /\ zlen (t_price t) = 8 /\ zlen (t_limit t) = 8 /\ zlen (t_payer t) = 20 /\ 0 < zlen (t_payload t) < 256 /\ t_attr t = 0.
Definition body (t : tx) : bytes := 0 :: 0xD1 :: t_nonce t ++ t_price t ++ t_limit t ++ t_payer t ++ zlen (t_payload t) :: t_payload t ++ [0].
Definition with_sigs (t : tx) (s : list (list sigpub)) : tx :=
  {| t_version := t_version t; t_type := t_type t; t_nonce := t_nonce t; t_price := t_price t; t_limit := t_limit t; t_payer := t_payer t; t_payload := t_payload t; t_attr := t_attr t; t_sigs := s |}.
Lemma tx_bytes_body t : fields t -> tx_bytes t = Ok (body t ++ match t_sigs t with [] => [0] | sps :: _ => u8 (zlen sps) :: flat_map sigpub_bytes sps end).
Proof.
  intros (V & Ty & N & P & L & Py & Pl & At). unfold tx_bytes. rewrite N, P, L, Py. replace (zlen (t_payload t) =? 0) with false by lia. cbn [negb Z.eqb Pos.eqb]. unfold u8 at 1. rewrite (Z.mod_small (zlen (t_payload t))) by lia. rewrite V, Ty, At. unfold body. reflexivity.
Qed.
Lemma decode_body t rest : fields t -> decode_raw (body t ++ rest) =
  need1 rest (fun c r' =>
  if c =? 0 then match r' with [] => Ok (with_sigs t []) | _ => Err end
  else if c =? 1 then p <- decode_sigpub rest ;; Ok (with_sigs t [[p]])
  else '(sigs, r'') <- readn (Z.to_nat c) one_sig r' ;; match r'' with [] => Ok (with_sigs t sigs) | _ => Err end).
Proof.
  intros (V & Ty & N & P & L & Py & Pl & At). unfold body. cbn [app]. rewrite <- !app_assoc. cbn [app]. rewrite <- !app_assoc. cbn [app]. unfold decode_raw. cbn [need1 Z.eqb Pos.eqb negb]. rewrite (need_app 4), (need_app 8), (need_app 8), (need_app 20) by assumption. cbn [need1]. replace (zlen (t_payload t) =? 0) with false by lia. rewrite (need_app (zlen (t_payload t))) by reflexivity. cbn [need1 Z.eqb negb]. unfold with_sigs. rewrite V, Ty, At. reflexivity.
Qed.
(** Unsigned transactions decode to themselves. *)
Theorem ont_unsigned_round_trip : forall t, fields t -> t_sigs t = [] -> exists b, tx_bytes t = Ok b /\ decode_raw b = Ok t.
Proof. intros t F S. exists (body t ++ [0]). split; [rewrite tx_bytes_body, S by exact F; reflexivity|]. rewrite decode_body by exact F. cbn [need1 Z.eqb]. f_equal. destruct t. cbn in S. subst. reflexivity. Qed.
(** What decodes is serialised to the same bytes when it carries no signature. *)
Theorem ont_decode_unsigned : forall b t, is_bytes b -> decode_raw b = Ok t -> t_sigs t = [] -> fields t /\ b = body t ++ [0].
Proof.
  intros b t Bb E S. unfold decode_raw in E. apply need1_inv in E as (v & r & -> & E). destruct (v =? 0) eqn:Ev; [|discriminate]. cbn [negb] in E. apply need1_inv in E as (ty & r1 & -> & E). destruct (ty =? 0xD1) eqn:Et; [|discriminate]. cbn [negb] in E.
  apply need_inv in E as (n & r2 & -> & Ln & E); [|lia]. apply need_inv in E as (p & r3 & -> & Lp & E); [|lia]. apply need_inv in E as (l & r4 & -> & Ll & E); [|lia]. apply need_inv in E as (py & r5 & -> & Lpy & E); [|lia]. apply need1_inv in E as (k & r6 & -> & E).
  assert (Hk : is_byte k). { do 2 (apply is_bytes_cons in Bb as [_ Bb]). do 4 (apply is_bytes_app in Bb as [_ Bb]). apply is_bytes_cons in Bb as [Hk _]. exact Hk. } unfold is_byte in Hk.
  destruct (k =? 0) eqn:Ek; [discriminate|]. apply need_inv in E as (pl & r7 & -> & Lpl & E); [|lia]. apply need1_inv in E as (a & r8 & -> & E). destruct (a =? 0) eqn:Ea; [|discriminate]. cbn [negb] in E. apply need1_inv in E as (c & r9 & -> & E). cbv zeta in E.
  assert (v = 0) by lia. assert (ty = 0xD1) by lia. assert (a = 0) by lia. subst v ty a k.
  destruct (c =? 0) eqn:Ec.
  - destruct r9; [|discriminate]. injection E as <-. assert (c = 0) by lia. subst c. split; [repeat split; cbn [t_nonce t_price t_limit t_payer t_payload t_version t_type t_attr]; lia|]. unfold body. cbn [t_nonce t_price t_limit t_payer t_payload]. cbn [app]. rewrite <- !app_assoc. cbn [app]. rewrite <- !app_assoc. reflexivity.
  - exfalso. destruct (c =? 1).
    + apply bind_ok in E as (q & _ & E). injection E as <-. discriminate S.
    + apply bind_ok in E as ([sg r'] & Er & E). cbv beta iota in E. destruct r'; [|discriminate]. injection E as <-. cbn [t_sigs] in S. subst sg. apply readn_length in Er. cbn [length] in Er. destruct Hk. assert (Hc : is_byte c). { do 2 (apply is_bytes_cons in Bb as [_ Bb]). do 4 (apply is_bytes_app in Bb as [_ Bb]). apply is_bytes_cons in Bb as [_ Bb]. apply is_bytes_app in Bb as [_ Bb]. do 1 (apply is_bytes_cons in Bb as [_ Bb]). apply is_bytes_cons in Bb as [Hc _]. exact Hc. } unfold is_byte in Hc. lia.
Qed.
(** A signature and key of the lengths the decoder expects. *)
Definition sized (p : sigpub) : Prop := zlen (p_signature p) = 64 /\ zlen (p_key p) = 33.
Definition entry (p : sigpub) : bytes := [0x41; 0x40] ++ p_signature p ++ [0x23; 0x21] ++ p_key p ++ [0xAC].
Lemma sigpub_entry p : sized p -> sigpub_bytes p = entry p.
Proof.
  intros [S K]. unfold sigpub_bytes, entry. rewrite !zlen_cons, !zlen_app, S, K. change (zlen [172]) with 1. cbn [app]. reflexivity.
Qed.
Lemma decode_entry p : sized p -> decode_sigpub (entry p) = Ok p.
Proof.
  intros [S K]. unfold decode_sigpub, entry. rewrite need_app by reflexivity. rewrite beq_refl. cbn [negb]. rewrite need_app by exact S. rewrite need_app by reflexivity. rewrite beq_refl. cbn [negb]. rewrite must_app by exact K. cbn [Z.eqb Pos.eqb]. destruct p. reflexivity.
Qed.
Lemma entry_len p : sized p -> zlen (entry p) = 102.
Proof. intros [S K]. unfold entry. rewrite !zlen_app, S, K. reflexivity. Qed.
Lemma one_sig_entry p rest : sized p -> one_sig (entry p ++ rest) = Ok ([p], rest).
Proof. intros S. unfold one_sig. rewrite need_app by (apply entry_len; exact S). rewrite decode_entry by exact S. reflexivity. Qed.
Lemma readn_entries ps : Forall sized ps -> readn (length ps) one_sig (flat_map sigpub_bytes ps) = Ok (map (fun p => [p]) ps, []).
Proof.
  induction 1 as [|p ps S F IH]; [reflexivity|]. cbn [length readn flat_map map]. rewrite sigpub_entry by exact S. rewrite one_sig_entry by exact S. cbn [bind]. rewrite IH. reflexivity.
Qed.
(** The text of a transaction with its signatures. *)
Definition signed (t : tx) (ps : list sigpub) : bytes := body t ++ zlen ps :: flat_map entry ps.
Lemma signed_eq t ps : fields t -> Forall sized ps -> zlen ps < 256 -> tx_bytes (with_sigs t [ps]) = Ok (signed t ps).
Proof.
  intros F S L. rewrite tx_bytes_body by exact F. cbn [t_sigs with_sigs]. pose proof (zlen_nonneg ps). unfold u8. rewrite Z.mod_small by lia. unfold signed. do 3 f_equal. clear L H. induction S as [|p ps S _ IH]; [reflexivity|]. cbn [flat_map]. rewrite sigpub_entry, IH by exact S. reflexivity.
Qed.
(** The library rejects its own transactions with exactly one signature, whatever the signature. *)
Theorem ont_one_signature_undecodable : forall t p, fields t -> exists b, tx_bytes (with_sigs t [[p]]) = Ok b /\ decode_raw b = Err.
Proof.
  intros t p F. rewrite tx_bytes_body by exact F. eexists. split; [reflexivity|]. rewrite decode_body by exact F. cbn [t_sigs with_sigs flat_map]. change (u8 (zlen [p])) with 1. cbn [need1 Z.eqb Pos.eqb].
  unfold decode_sigpub. unfold need at 1. match goal with |- context [if ?c then Err else _] => destruct c eqn:C end; [reflexivity|]. destruct (sigpub_bytes p ++ []) as [|z l] eqn:E; [reflexivity|]. reflexivity.
Qed.
(** With two or more signatures it decodes, each signature by itself, and serialising that keeps only the first. *)
Theorem ont_signatures_lost : forall t ps, fields t -> Forall sized ps -> 2 <= zlen ps < 256 -> exists d p,
  tx_bytes (with_sigs t [ps]) = Ok (signed t ps) /\ decode_raw (signed t ps) = Ok d /\ t_sigs d = map (fun p => [p]) ps /\ d = with_sigs t (t_sigs d) /\
  hd_error ps = Some p /\ tx_bytes d = Ok (signed t [p]).
Proof.
  intros t ps F S L. destruct ps as [|p ps]; [change (zlen (@nil sigpub)) with 0 in L; lia|]. exists (with_sigs t (map (fun p => [p]) (p :: ps))), p. split; [apply signed_eq; [exact F|exact S|lia]|].
  assert (EQ : flat_map entry (p :: ps) = flat_map sigpub_bytes (p :: ps)). { clear L. induction S as [|q qs S _ IH]; [reflexivity|]. cbn [flat_map]. rewrite sigpub_entry, IH by exact S. reflexivity. }
  split; [|split; [reflexivity|split; [reflexivity|split; [reflexivity|]]]].
  - unfold signed. rewrite decode_body by exact F. cbn [need1]. replace (zlen (p :: ps) =? 0) with false by lia. replace (zlen (p :: ps) =? 1) with false by lia. rewrite EQ. unfold zlen. rewrite Nat2Z.id, readn_entries by exact S. reflexivity.
  - inversion S; subst. change (t_sigs (with_sigs t (map (fun p0 : sigpub => [p0]) (p :: ps)))) with (map (fun p0 : sigpub => [p0]) (p :: ps)). rewrite tx_bytes_body by exact F. cbn [t_sigs with_sigs map]. unfold signed. cbn [flat_map]. rewrite sigpub_entry by assumption. reflexivity.
Qed.
(** ** Verification *)
Definition all_verify (decompress : bytes -> bytes) (verify : bytes -> bytes -> bytes -> bool) (hash : bytes) (ps : list sigpub) : Prop :=
  Forall (fun p => exists k0 k, decompress (p_key p) = k0 :: k /\ verify k hash (p_signature p) = true) ps.
Lemma check_all_iff d v h ps : check_all d v h ps = Ok tt <-> all_verify d v h ps.
Proof.
  induction ps as [|p ps IH]; cbn [check_all]; [split; [intros _; constructor|reflexivity]|]. split.
  - intros E. apply bind_ok in E as (k & Ek & E). destruct (d (p_key p)) as [|k0 k'] eqn:D; [discriminate Ek|]. rewrite slice_from_cons in Ek. injection Ek as ->. destruct (v k h (p_signature p)) eqn:V; [|discriminate]. constructor; [eauto|]. apply IH. exact E.
  - intros A. inversion A as [|? ? (k0 & k & D & V) A']; subst. rewrite D, slice_from_cons. cbn [bind]. rewrite V. apply IH. exact A'.
Qed.
Lemma sig_hash_last H K e c : sig_hash H K (e ++ [c]) = Ok (K (H e)).
Proof. unfold sig_hash. rewrite zlen_app. change (zlen [c]) with 1. rewrite slice_pre by lia. reflexivity. Qed.
(** Signatures are added to an unsigned transaction exactly when all of them verify for the hash of everything but the count byte. *)
Theorem ont_combine_iff : forall H K decompress verify t ps out, fields t -> is_bytes (body t) -> t_sigs t = [] ->
  verify_and_combine H K decompress verify (hex_encode (body t ++ [0])) ps = Ok out <->
  all_verify decompress verify (K (H (body t))) ps /\ out = hex_encode (body t ++ u8 (zlen ps) :: flat_map sigpub_bytes ps).
Proof.
  intros H K d v t ps out F Bb S. unfold verify_and_combine. rewrite hex_decode_encode by (bts; unfold is_byte; lia). cbn [bind]. rewrite decode_body by exact F. cbn [need1 Z.eqb bind]. rewrite sig_hash_last. cbn [bind].
  match goal with |- context [tx_bytes ?x] => change x with (with_sigs t [ps]) end. rewrite tx_bytes_body by exact F. change (t_sigs (with_sigs t [ps])) with [ps]. cbv beta iota. change (body (with_sigs t [ps])) with (body t). split.
  - intros E. apply bind_ok in E as ([] & C & E). apply check_all_iff in C. split; [exact C|congruence].
  - intros [A ->]. apply check_all_iff in A. rewrite A. reflexivity.
Qed.
(** No signatures: every unsigned transaction is accepted as it is. *)
Theorem ont_no_signatures_accepted : forall H K decompress verify t, fields t -> is_bytes (body t) -> t_sigs t = [] ->
  verify_and_combine H K decompress verify (hex_encode (body t ++ [0])) [] = Ok (hex_encode (body t ++ [0])).
Proof. intros H K d v t F Bb S. apply ont_combine_iff; [assumption..|]. split; [constructor|reflexivity]. Qed.
Lemma created_fields nonce gasPrice gasLimit h payload : zlen h = 20 -> 0 < zlen payload < 256 -> exists t, fields t /\ t_sigs t = [] /\ body t = envelope nonce gasPrice gasLimit h payload.
Proof.
  intros Lh Lp. exists {| t_version := 0; t_type := 209; t_nonce := le_bytes 4 nonce; t_price := le_bytes 8 gasPrice; t_limit := le_bytes 8 gasLimit; t_payer := h; t_payload := payload; t_attr := 0; t_sigs := [] |}. split; [|split; reflexivity].
  unfold fields. cbn [t_nonce t_price t_limit t_payer t_payload t_version t_type t_attr]. rewrite !zlen_le_bytes. repeat split; lia.
Qed.
Lemma str_bytes_all s : forallb (fun c => (0 <=? c) && (c <? 256)) s = true -> is_bytes s.
Proof. intros F. rewrite forallb_forall in F. apply Forall_forall. intros c C. apply F in C. unfold is_byte. lia. Qed.
Lemma get_length_bytes l : is_bytes (get_length l).
Proof. unfold get_length, u8. repeat (match goal with |- context [if ?c then _ else _] => destruct c end); bts; unfold is_byte; try (apply Z.mod_pos_bound; lia); lia. Qed.
Lemma neo_is_bytes v : is_bytes (neo_bytes v).
Proof. destruct (Z.eq_dec v 0) as [->|N]; [constructor|]. destruct (neo_spec v N) as (b & -> & _ & Q & _). apply is_bytes_app. split; [apply get_length_bytes|exact Q]. Qed.
Lemma emit_bytes (v2 : bool) a : 0 <= a -> is_bytes (if v2 then bigint_emit a else uint64_emit a).
Proof. intros N. pose proof (neo_is_bytes a). unfold bigint_emit, uint64_emit. destruct v2; repeat (match goal with |- context [if ?c then _ else _] => destruct c eqn:? end); bts; unfold is_byte; lia. Qed.
Lemma invoke_is_bytes H v2 x p : hash_ok H -> typed v2 x -> invoke_bytes btc_alphabet H v2 x = Ok p -> is_bytes p.
Proof.
  intros HH (_ & Bf & Bt & T) E. unfold invoke_bytes in E. apply bind_ok in E as (f & Ef & E). apply bind_ok in E as (t & Et & E). apply account_iff in Ef as [(_ & Qf & _) _]; [|assumption..]. apply account_iff in Et as [(_ & Qt & _) _]; [|assumption..].
  assert (Qa : is_bytes (if v2 then bigint_emit (x_amount x) else uint64_emit (x_amount x))) by (apply emit_bytes; destruct v2; lia).
  apply (f_equal (fun x => match x with Ok v => v | _ => [] end)) in E. cbv beta iota in E. subst p. set (e := if v2 then bigint_emit (x_amount x) else uint64_emit (x_amount x)) in *.
  assert (Qm : is_bytes (method_of v2 (x_asset x))) by (unfold method_of; destruct (_ || _); [destruct v2|]; apply str_bytes_all; reflexivity). assert (Qc : is_bytes (contract_of (x_asset x))) by (unfold contract_of; destruct (_ =? _); apply str_bytes_all; reflexivity).
  assert (Qo : is_bytes ont_contract) by (apply str_bytes_all; reflexivity). assert (Qs : is_bytes (str "Ontology.Native.Invoke")) by (apply str_bytes_all; reflexivity). change (uint64_emit 1) with [81].
  assert (U : forall z, is_byte (u8 z)) by (intros z; unfold u8, is_byte; apply Z.mod_pos_bound; lia).
  generalize dependent (str "Ontology.Native.Invoke"). generalize dependent ont_contract. intros oc Qo sv Qs. cbn [app]. bts; try apply U; unfold is_byte; lia.
Qed.
(** From creation to the signed text: the signatures are checked against the hash that was returned for signing. *)
Theorem ont_create_then_combine : forall H K decompress verify v2 nonce gasPrice gasLimit x raw hash signers,
  hash_ok H -> typed v2 x -> x_amount x < 2 ^ 512 ->
  create btc_alphabet H K v2 nonce gasPrice gasLimit x = Ok (raw, hash, signers) ->
  exists b m, raw = hex_encode (b ++ [0]) /\ hash = hex_encode m /\
    forall ps out, zlen ps < 256 -> Forall sized ps ->
      verify_and_combine H K decompress verify raw ps = Ok out <-> all_verify decompress verify m ps /\ out = hex_encode (b ++ zlen ps :: flat_map entry ps).
Proof.
  intros H K d v v2 nonce gasPrice gasLimit x raw hash signers HH T S E. apply ont_created_iff in E as (payload & p & h & Ep & A & Lh & -> & -> & _); [|assumption..]. pose proof (payload_len H v2 x payload HH T S Ep) as Lp.
  destruct (created_fields nonce gasPrice gasLimit h payload Lh Lp) as (t & F & Sg & Eb). assert (Q : is_bytes (body t)). { rewrite Eb. unfold envelope. pose proof (invoke_is_bytes H v2 x payload HH T Ep). destruct A as (_ & Qh & _). bts; unfold is_byte; lia. }
  rewrite <- Eb. exists (body t), (K (H (body t))). do 2 (split; [reflexivity|]). intros ps out L SP. rewrite ont_combine_iff by assumption. pose proof (signed_eq t ps F SP L) as SE. rewrite tx_bytes_body in SE by exact F. change (t_sigs (with_sigs t [ps])) with [ps] in SE. cbv iota in SE. change (body (with_sigs t [ps])) with (body t) in SE. assert (SE' : body t ++ u8 (zlen ps) :: flat_map sigpub_bytes ps = body t ++ zlen ps :: flat_map entry ps) by (unfold signed in SE; congruence). rewrite SE'. reflexivity.
Qed.
(** Signing a transaction that already has several signatures returns it with the first of the old ones alone; the new ones are checked and dropped. *)
Theorem ont_resigning_drops : forall H K decompress verify t old p new out, fields t -> is_bytes (signed t old) -> Forall sized old -> 2 <= zlen old < 256 -> hd_error old = Some p ->
  verify_and_combine H K decompress verify (hex_encode (signed t old)) new = Ok out -> out = hex_encode (signed t [p]).
Proof.
  intros H K d v t old p new out F Bs S L Hp E. destruct (ont_signatures_lost t old F S L) as (dt & p' & _ & D & Sg & De & Hp' & _). rewrite Hp in Hp'. injection Hp' as <-. unfold verify_and_combine in E. rewrite hex_decode_encode in E by exact Bs. cbn [bind] in E. rewrite D in E. cbn [bind] in E. apply bind_ok in E as (h & _ & E). apply bind_ok in E as ([] & _ & E).
  rewrite De in E. rewrite Sg in E. destruct old as [|q old]; [discriminate|]. injection Hp as ->. match type of E with context [tx_bytes ?x] => change x with (with_sigs t (map (fun p => [p]) (p :: old) ++ [new])) in E end.
  rewrite tx_bytes_body in E by exact F. change (t_sigs (with_sigs t (map (fun p => [p]) (p :: old) ++ [new]))) with ([p] :: map (fun p => [p]) old ++ [new]) in E. cbv beta iota in E. inversion S; subst. cbn [flat_map] in E. rewrite sigpub_entry in E by assumption. change (body (with_sigs t (map (fun p => [p]) (p :: old) ++ [new]))) with (body t) in E.
  assert (EQ : out = hex_encode (body t ++ u8 (zlen [p]) :: entry p ++ [])) by congruence. rewrite EQ. reflexivity.
Qed.
(** The count of signatures is one byte: 256 signatures count as none and the text is rejected. *)
Theorem ont_signature_count_truncated : forall t ps, fields t -> ps <> [] -> zlen ps mod 256 = 0 -> exists b, tx_bytes (with_sigs t [ps]) = Ok b /\ decode_raw b = Err.
Proof.
  intros t ps F NE M. rewrite tx_bytes_body by exact F. eexists. split; [reflexivity|]. rewrite decode_body by exact F. change (t_sigs (with_sigs t [ps])) with [ps]. cbn [need1]. unfold u8. change (2 ^ 8) with 256. rewrite M. destruct ps as [|p ps]; [contradiction|]. reflexivity.
Qed.
(** An amount of at least 2^2040 makes a payload whose length does not fit its length byte; it is written modulo 256. *)
Theorem ont_long_payload_length : forall H K v2 nonce gasPrice gasLimit x raw hash signers payload, hash_ok H -> typed v2 x ->
  create btc_alphabet H K v2 nonce gasPrice gasLimit x = Ok (raw, hash, signers) -> invoke_bytes btc_alphabet H v2 x = Ok payload -> 2 ^ 2040 <= x_amount x ->
  256 <= zlen payload /\ exists pre, zlen pre = 42 /\ raw = hex_encode (pre ++ (zlen payload mod 256) :: payload ++ [0; 0]).
Proof.
  intros H K v2 nonce gasPrice gasLimit x raw hash signers payload HH T E Ep Big. pose proof Ep as Ep0.
  assert (Long : 256 <= zlen payload).
  { clear E Ep0. destruct T as (_ & _ & _ & T). assert (V : v2 = true) by (destruct v2; [reflexivity|assert (2 ^ 64 < 2 ^ 2040) by reflexivity; lia]). subst v2. unfold invoke_bytes in Ep. apply bind_ok in Ep as (f & Ef & Ep). apply bind_ok in Ep as (t & Et & Ep). apply (f_equal (fun x => match x with Ok v => v | _ => [] end)) in Ep. cbv beta iota in Ep. subst payload.
    assert (LA : 256 <= zlen (bigint_emit (x_amount x))).
    { unfold bigint_emit. replace (x_amount x =? -1) with false by lia. assert (2 ^ 5 < 2 ^ 2040) by reflexivity. replace (x_amount x =? 0) with false by lia. replace ((0 <? x_amount x) && (x_amount x <? 16)) with false by lia. destruct (neo_spec (x_amount x)) as (n & -> & _ & Qn & _ & TC & _); [lia|]. rewrite zlen_app. assert (TCn : tc n = x_amount x) by (apply TC; left; lia).
      destruct (tc_bound n Qn) as [B|[-> Z0]]; [|change (tc []) with 0 in TCn; lia]. assert (256 ^ 255 < 256 ^ zlen n) by (change (256 ^ 255) with (2 ^ 2040); lia). apply Z.pow_lt_mono_r_iff in H1; [pose proof (zlen_nonneg (get_length (zlen n))); lia|lia|apply zlen_nonneg]. }
    cbn [app]. repeat (rewrite zlen_cons || rewrite zlen_app). repeat match goal with |- context [zlen ?l] => lazymatch goal with _ : 0 <= zlen l |- _ => fail | _ => pose proof (zlen_nonneg l) end end. lia. }
  split; [exact Long|]. unfold create in E. rewrite Ep0 in E. cbn [bind] in E. apply bind_ok in E as (t & Et & E). unfold empty_tx in Et. apply bind_ok in Et as (h & Eh & Et). apply (f_equal (fun r => match r with Ok v => v | _ => t end)) in Et. cbv beta iota in Et. subst t. apply bind_ok in E as (b & Eb & E). apply bind_ok in E as (m & _ & E).
  unfold tx_bytes in Eb. cbn [t_nonce t_price t_limit t_payer t_payload t_version t_type t_attr t_sigs] in Eb. rewrite !zlen_le_bytes in Eb. cbn [negb Z.of_nat Z.eqb Pos.eqb Pos.of_succ_nat Pos.succ] in Eb. destruct (zlen h =? 20) eqn:Q; [|discriminate]. cbn [negb] in Eb. replace (zlen payload =? 0) with false in Eb by lia. apply (f_equal (fun r => match r with Ok v => v | _ => [] end)) in Eb. cbv beta iota in Eb. subst b.
  exists (0 :: 209 :: le_bytes 4 nonce ++ le_bytes 8 gasPrice ++ le_bytes 8 gasLimit ++ h). split; [rewrite !zlen_cons, !zlen_app, !zlen_le_bytes; lia|]. match type of E with Ok (?r, _, _) = _ => assert (ER : raw = r) by congruence end. rewrite ER. f_equal. unfold u8. change (2 ^ 8) with 256. cbn [app]. rewrite <- !app_assoc. cbn [app]. rewrite <- !app_assoc. reflexivity.
Qed.

(** ** Crashes *)
(** Base58 text of fewer than four bytes, or of the checksum of nothing. *)
Definition bad_text (H : bytes -> bytes) (s : list Z) : Prop := exists r, base58_decode btc_alphabet s = Ok r /\ (zlen r < 4 \/ r = checked H []).
Lemma decode1_panic H s : hash_ok H -> is_bytes s -> decode_check1 btc_alphabet H s = Panic <-> bad_text H s.
Proof.
  intros HH Hs. unfold bad_text. destruct (base58_decode btc_alphabet s) as [r| |] eqn:D.
  - destruct (base58_encode_decode _ _ _ _ btc_alphabet_ok btc_alphabet_new Hs D) as [Br Er]. destruct (check_split_cases H HH r Br) as [[L C]|[[L (d & Bd & -> & C)]|[L [N C]]]].
    + split; [intros _; exists r; auto|intros _]. unfold decode_check1. rewrite D. cbn [bind]. rewrite C. reflexivity.
    + destruct d as [|p h].
      * split; [intros _; exists (checked H []); auto|intros _]. unfold decode_check1. rewrite D. cbn [bind]. rewrite C. cbn [bind]. rewrite (checked_len H HH) by exact Bd. pose proof (checked_len H HH [] Bd) as L4. change (zlen (@nil Z)) with 0 in *. destruct (checked H []) as [|c0 cs]; [change (zlen (@nil Z)) with 0 in L4; lia|]. change (idx (c0 :: cs) 0) with (Ok c0). cbn [bind]. assert (SP : slice (c0 :: cs) 1 (0 + 4 - 4) = Panic) by (apply slice_panic; lia). rewrite SP. reflexivity.
      * assert (A : addr H p h s). { apply is_bytes_cons in Bd as [Hp Hh]. split; [exact Hp|]. split; [exact Hh|exact Er]. } apply decode1_iff in A; [|assumption..]. rewrite A. split; [discriminate|]. intros (r & E & Q). injection E as <-. exfalso. rewrite (checked_len H HH) in * by exact Bd. rewrite zlen_cons in Q. pose proof (zlen_nonneg h). destruct Q as [Q|Q]; [lia|]. apply (f_equal zlen) in Q. rewrite !(checked_len H HH) in Q by (exact Bd || constructor). change (zlen (@nil Z)) with 0 in Q. rewrite zlen_cons in Q. lia.
    + unfold decode_check1. rewrite D. cbn [bind]. rewrite C. cbn [bind]. split; [discriminate|]. intros (r' & E & [L'|Q]); injection E as <-; [lia|]. destruct (N []) as [N'|N']; [contradiction|]. exfalso. apply N'. constructor.
  - unfold decode_check1. rewrite D. split; [discriminate|]. intros (r & E & _). discriminate.
  - destruct (base58_decode_never_panics _ _ s btc_alphabet_ok btc_alphabet_new Hs) as [Q _]. contradiction.
Qed.
Lemma finish_no_panic {X} H K t (k : bytes -> bytes -> X) : (b <- tx_bytes t ;; h <- sig_hash H K b ;; Ok (k b h)) <> Panic.
Proof.
  unfold tx_bytes. repeat (match goal with |- context [if ?c then Err else _] => destruct c end; [discriminate|]). cbn [bind]. match goal with |- context [sig_hash H K ?l] => set (b := l) end. assert (NE : 1 <= zlen b) by (unfold b; cbn [app]; rewrite zlen_cons; match goal with |- context [1 + zlen ?l] => pose proof (zlen_nonneg l) end; lia).
  unfold sig_hash. destruct (slice b 0 (zlen b - 1)) eqn:E; [discriminate|unfold slice in E; destruct (_ && _ && _) in E; discriminate|]. apply slice_panic in E. lia.
Qed.
(** Creating a transaction crashes exactly on such a sender, such a receiver after a good sender, or such a payer after both. *)
Theorem ont_create_panics_iff : forall H K v2 nonce gasPrice gasLimit x, hash_ok H -> typed v2 x ->
  create btc_alphabet H K v2 nonce gasPrice gasLimit x = Panic <->
  bad_text H (x_from x) \/ (exists f, addr H 0x17 f (x_from x) /\ zlen f = 20) /\ (bad_text H (x_to x) \/ (exists t, addr H 0x17 t (x_to x) /\ zlen t = 20) /\ bad_text H (payer x)).
Proof.
  intros H K v2 nonce gasPrice gasLimit x HH (Bp & Bf & Bt & _). assert (Bpay : is_bytes (payer x)) by (unfold payer; destruct (x_payer x); assumption). unfold create. change (match x_payer x with [] => x_from x | z :: l => z :: l end) with (payer x).
  assert (AP : forall s, is_bytes s -> account btc_alphabet H s = Panic <-> bad_text H s).
  { intros s Hs. rewrite <- decode1_panic by assumption. unfold account. destruct (decode_check1 btc_alphabet H s) as [[p h]| |]; cbn [bind]; [|split; discriminate|split; reflexivity]. split; [|discriminate]. destruct (negb _); [discriminate|]. destruct (negb _); discriminate. }
  assert (NB : forall s f, is_bytes s -> account btc_alphabet H s = Ok f -> ~ bad_text H s) by (intros s f Hs E C; apply AP in C; [congruence|exact Hs]).
  unfold invoke_bytes. destruct (account btc_alphabet H (x_from x)) as [f| |] eqn:Ef; cbn [bind].
  2: { split; [discriminate|]. intros [C|[(f & A) _]]; [apply AP in C; [congruence|exact Bf]|apply account_iff in A; [congruence|assumption..]]. }
  2: { split; [intros _; left; apply AP; assumption|reflexivity]. }
  assert (Gf : exists f, addr H 0x17 f (x_from x) /\ zlen f = 20) by (exists f; apply account_iff; assumption). pose proof (NB _ _ Bf Ef) as Nf.
  destruct (account btc_alphabet H (x_to x)) as [t| |] eqn:Et; cbn [bind].
  2: { split; [discriminate|]. intros [C|[_ [C|[(t & A) _]]]]; [contradiction|apply AP in C; [congruence|exact Bt]|apply account_iff in A; [congruence|assumption..]]. }
  2: { split; [intros _; right; split; [exact Gf|left; apply AP; assumption]|reflexivity]. }
  assert (Gt : exists t, addr H 0x17 t (x_to x) /\ zlen t = 20) by (exists t; apply account_iff; assumption). pose proof (NB _ _ Bt Et) as Nt.
  match goal with |- context [empty_tx _ _ _ _ _ _ ?p] => generalize p end. intros p. unfold empty_tx. pose proof (decode1_panic H (payer x) HH Bpay) as DP. destruct (decode_check1 btc_alphabet H (payer x)) as [[q h]| |]; cbn [bind].
  3: { split; [|reflexivity]. intros _. right. split; [exact Gf|]. right. split; [exact Gt|]. apply DP. reflexivity. }
  all: assert (NP : ~ bad_text H (payer x)) by (intros C; apply DP in C; discriminate); split; [|intros [C|[_ [C|[_ C]]]]; contradiction]; intros E; exfalso.
  all: exact (finish_no_panic H K _ (fun b h => (hex_encode b, hex_encode h, payer x :: (if beq (payer x) (x_from x) then [] else [x_from x]))) E).
Qed.

(** ** Examples *)
Definition toy_addr (p : Z) (h : bytes) : list Z := match base58_encode btc_alphabet (checked toy_hash (p :: h)) with Ok s => s | _ => [] end.
Lemma toy_addr_ok p h : is_byte p -> is_bytes h -> addr toy_hash p h (toy_addr p h).
Proof.
  intros Hp Hh. split; [exact Hp|]. split; [exact Hh|]. unfold toy_addr. destruct (enc_checked toy_hash toy_hash_ok _ btc_alphabet_ok _ btc_alphabet_new (p :: h)) as (s & E & _); [bts; exact Hp|]. rewrite E. reflexivity.
Qed.
Lemma toy_addr_bytes p h : is_byte p -> is_bytes h -> is_bytes (toy_addr p h).
Proof.
  intros Hp Hh. unfold toy_addr. destruct (enc_checked toy_hash toy_hash_ok _ btc_alphabet_ok _ btc_alphabet_new (p :: h)) as (s & E & _ & S); [bts; exact Hp|]. rewrite E. apply ascii_bytes. exact S.
Qed.
Definition hash20 (b : Z) : bytes := repeat b 20.
Lemma hash20_bytes b : is_byte b -> is_bytes (hash20 b).
Proof. intros B. apply Forall_forall. intros x X. apply repeat_spec in X. subst. exact B. Qed.
Definition toy_state (asset amount : Z) : state := {| x_asset := asset; x_payer := toy_addr 5 (hash20 3); x_from := toy_addr 0x17 (hash20 1); x_to := toy_addr 0x17 (hash20 2); x_amount := amount |}.
Lemma toy_typed v2 asset amount : 0 <= amount < 2 ^ 64 -> typed v2 (toy_state asset amount).
Proof.
  intros B. unfold typed, toy_state. cbn [x_payer x_from x_to x_amount]. do 3 (split; [apply toy_addr_bytes; [split; lia|apply hash20_bytes; split; lia]|]). destruct v2; [|exact B]. split; [|lia]. unfold pushable. rewrite Z.abs_eq by lia. assert (L : Z.log2 amount <= Z.log2 (2 ^ 64)) by (apply Z.log2_le_mono; lia). rewrite Z.log2_pow2 in L by lia. lia.
Qed.
(** A transfer, a V2 transfer and a withdrawal are created. *)
Example toy_created : forall v2 asset amount, 0 <= amount < 2 ^ 64 -> exists r, create btc_alphabet toy_hash (fun m => m) v2 7 500 20000 (toy_state asset amount) = Ok r.
Proof.
  intros v2 asset amount B. pose proof (toy_typed v2 asset amount B) as T. assert (S : x_amount (toy_state asset amount) < 2 ^ 512) by (cbn [toy_state x_amount]; assert (2 ^ 64 < 2 ^ 512) by reflexivity; lia).
  destruct (proj2 (ont_payload toy_hash v2 (toy_state asset amount) toy_hash_ok T)) as [_ P]. destruct P as (p & P); [split; eexists; (split; [apply toy_addr_ok; [split; lia|apply hash20_bytes; split; lia]|reflexivity])|].
  eexists. apply ont_created_iff; [exact toy_hash_ok|exact T|exact S|]. exists p, 5, (hash20 3). split; [exact P|]. split; [|auto]. change (payer (toy_state asset amount)) with (match toy_addr 5 (hash20 3) with [] => toy_addr 0x17 (hash20 1) | q => q end). pose proof (toy_addr_ok 5 (hash20 3)) as A. destruct (toy_addr 5 (hash20 3)) as [|c s] eqn:Q; [|apply A; [split; lia|apply hash20_bytes; split; lia]].
  exfalso. clear A. assert (D : decode_check1 btc_alphabet toy_hash (toy_addr 5 (hash20 3)) = Ok (5, hash20 3)) by (apply decode1_iff; [exact toy_hash_ok|apply toy_addr_bytes; [split; lia|apply hash20_bytes; split; lia]|apply toy_addr_ok; [split; lia|apply hash20_bytes; split; lia]]). rewrite Q in D. discriminate.
Qed.
Definition toy_tx : tx := {| t_version := 0; t_type := 0xD1; t_nonce := [1; 2; 3; 4]; t_price := repeat 5 8; t_limit := repeat 6 8; t_payer := repeat 7 20; t_payload := [0; 0x68; 0]; t_attr := 0; t_sigs := [] |}.
Definition toy_sig (b : Z) : sigpub := {| p_signature := repeat b 64; p_key := repeat b 33 |}.
Example toy_fields : fields toy_tx /\ is_bytes (body toy_tx) /\ t_sigs toy_tx = [].
Proof. split; [unfold fields; repeat split; lia || reflexivity|]. split; [apply str_bytes_all; reflexivity|reflexivity]. Qed.
Example toy_sized : Forall sized [toy_sig 1; toy_sig 2] /\ 2 <= zlen [toy_sig 1; toy_sig 2] < 256 /\ is_bytes (signed toy_tx [toy_sig 1; toy_sig 2]).
Proof. split; [repeat constructor|]. split; [change (zlen [toy_sig 1; toy_sig 2]) with 2; lia|apply str_bytes_all; reflexivity]. Qed.
Example toy_combined : exists out, verify_and_combine toy_hash (fun m => m) (fun k => k) (fun k m s => true) (hex_encode (body toy_tx ++ [0])) [toy_sig 1; toy_sig 2] = Ok out.
Proof. eexists. apply ont_combine_iff; [apply toy_fields..|]. split; [|reflexivity]. repeat constructor; eexists _, _; (split; [reflexivity|reflexivity]). Qed.
Example toy_bad_text : bad_text toy_hash [].
Proof. exists []. split; [reflexivity|left; reflexivity]. Qed.
Example big_amount : pushable (2 ^ 2040) /\ 2 ^ 2040 <= 2 ^ 2040.
Proof. split; [unfold pushable; rewrite Z.abs_eq by discriminate; rewrite Z.log2_pow2 by discriminate; reflexivity|apply Z.le_refl]. Qed.

Print Assumptions ont_uint64_pushed.
Print Assumptions ont_bigint_pushed.
Print Assumptions ont_payload.
Print Assumptions ont_created_iff.
Print Assumptions ont_created_read.
Print Assumptions ont_unsigned_round_trip.
Print Assumptions ont_decode_unsigned.
Print Assumptions ont_one_signature_undecodable.
Print Assumptions ont_signatures_lost.
Print Assumptions ont_combine_iff.
Print Assumptions ont_no_signatures_accepted.
Print Assumptions ont_create_then_combine.
Print Assumptions ont_resigning_drops.
Print Assumptions ont_signature_count_truncated.
Print Assumptions ont_long_payload_length.
Print Assumptions ont_create_panics_iff.
