(** C82, C83, C84: Bytom signature hashes, signing, verification and multisignature scripts. *)
From Coq Require Import String ZArith List Bool Lia ZifyBool ZifyNat.
From Verif Require Import Go GoFacts GoFacts2 Codes Rd Reader Uvarint Bech32mModel Bech32mProps BytomModel BytomProps.
Import ListNotations.
Open Scope Z_scope.
Ltac Zify.zify_post_hook ::= idtac.

(** ** Signature hashes *)
Definition collision (H : bytes -> bytes) : Prop := exists a b, a <> b /\ H a = H b.
(** What an input spends and what an output pays, with the values of the integers. *)
Definition spent_view (i : txin) : bytes * bytes * Z * Z * bytes := (i_source i, i_asset i, uvarint_to_uint64 (i_amount i), uvarint_to_uint64 (i_position i), i_program i).
Definition paid_view (o : txout) : bytes * Z * bytes := (o_asset o, uvarint_to_uint64 (o_amount o), o_program o).
Definition in_ok (i : txin) : Prop := zlen (i_source i) = 32 /\ zlen (i_asset i) = 32 /\ 0 < zlen (i_program i) < 256.
Definition out_ok (o : txout) : Prop := zlen (o_asset o) = 32 /\ 0 < zlen (o_amount o) /\ exists n p, o_program o = n :: p /\ zlen p = n.
Definition tx_ok (t : tx) : Prop := 0 < zlen (t_ins t) < 256 /\ 0 < zlen (t_outs t) < 256 /\ Forall in_ok (t_ins t) /\ Forall out_ok (t_outs t).

Lemma byte_bound b : is_byte b -> 0 <= b < 256.
Proof. auto. Qed.
Lemma scan_more_inv {A} rest : forall acc (k : bytes -> bytes -> res A) r, scan_more acc rest k = Ok r -> is_bytes rest -> exists g rest', rest = g ++ rest' /\ 0 < zlen g /\ k (acc ++ g) rest' = Ok r /\ is_bytes rest'.
Proof.
  induction rest as [|b rest IH]; intros acc k r E B; [discriminate|]. cbn [scan_more] in E. apply is_bytes_cons in B as [Hb B]. destruct (b <? 128).
  - exists [b], rest. split; [reflexivity|]. split; [reflexivity|]. split; assumption.
  - apply IH in E as (g & rest' & -> & L & E & B'); [|exact B]. exists (b :: g), rest'. rewrite <- app_assoc in E. split; [reflexivity|]. split; [rewrite zlen_cons; lia|]. auto.
Qed.
Lemma scan_var_inv {A} rest (k : bytes -> bytes -> res A) r : scan_var rest k = Ok r -> is_bytes rest -> exists g rest', rest = g ++ rest' /\ 0 < zlen g /\ k g rest' = Ok r /\ is_bytes rest'.
Proof. unfold scan_var. destruct rest; [discriminate|]. intros E B. apply scan_more_inv in E; [exact E|exact B]. Qed.
Lemma scan_version_inv {A} rest : forall (k : bytes -> bytes -> res A) r, scan_version rest k = Ok r -> is_bytes rest -> exists b rest', is_bytes rest' /\ k [b] rest' = Ok r.
Proof.
  induction rest as [|b rest IH]; intros k r E B; [discriminate|]. cbn [scan_version] in E. apply is_bytes_cons in B as [Hb B]. destruct (b <? 128); [eauto|]. apply IH in E; [exact E|exact B].
Qed.
Lemma need_inv' {A} n rest (k : bytes -> bytes -> res A) r : 0 <= n -> is_bytes rest -> need n rest k = Ok r -> exists a b, zlen a = n /\ is_bytes a /\ is_bytes b /\ k a b = Ok r.
Proof. intros N B E. apply need_inv in E as (a & b & -> & L & E); [|exact N]. apply is_bytes_app in B as [Ba Bb]. eauto 10. Qed.
Lemma need1_inv' {A} rest (k : Z -> bytes -> res A) r : is_bytes rest -> need1 rest k = Ok r -> exists b l, is_byte b /\ is_bytes l /\ rest = b :: l /\ k b l = Ok r.
Proof. intros B E. apply need1_inv in E as (b & l & -> & E). apply is_bytes_cons in B as [Hb B]. eauto 10. Qed.
Lemma commitment_ok script x : is_bytes script -> decode_commitment script = Ok x -> let '(s, a, m, p, c) := x in zlen s = 32 /\ zlen a = 32 /\ 0 < zlen c < 256.
Proof.
  intros B E. unfold decode_commitment in E. apply need1_inv' in E as (v & r1 & _ & B1 & _ & E); [|exact B]. destruct (v =? 1); [|discriminate]. cbn [negb] in E. apply need1_inv' in E as (l & r2 & _ & B2 & _ & E); [|exact B1]. destruct (l =? u8 (zlen script - 2)); [|discriminate]. cbn [negb] in E.
  apply need_inv' in E as (s & r3 & Ls & _ & B3 & E); [|lia|exact B2]. apply need_inv' in E as (a & r4 & La & _ & B4 & E); [|lia|exact B3]. apply scan_var_inv in E as (m & r5 & _ & _ & E & B5); [|exact B4]. apply need1_inv' in E as (p & r6 & _ & B6 & _ & E); [|exact B5]. apply need1_inv' in E as (vm & r7 & _ & B7 & _ & E); [|exact B6]. destruct (vm =? 1); [|discriminate]. cbn [negb] in E.
  apply need1_inv' in E as (n & r8 & Hn & B8 & _ & E); [|exact B7]. destruct (n =? 0) eqn:N0; [discriminate|]. destruct (zlen r8 =? n) eqn:L8; [|discriminate]. cbn [negb] in E. injection E as <-. apply byte_bound in Hn. repeat split; try assumption; lia.
Qed.
Lemma decode_in_ok rest i r : is_bytes rest -> decode_in rest = Ok (i, r) -> in_ok i /\ is_bytes r.
Proof.
  intros B E. unfold decode_in in E. apply need1_inv' in E as (v & r1 & _ & B1 & _ & E); [|exact B]. destruct (v =? 1); [|discriminate]. cbn [negb] in E. apply need1_inv' in E as (n & r2 & Hn & B2 & _ & E); [|exact B1]. destruct (n =? 0); [discriminate|]. apply byte_bound in Hn. apply need_inv' in E as (sc & r3 & _ & Bs & B3 & E); [|lia|exact B2]. apply bind_ok in E as ([[[[s a] m] p] c] & C & E). apply commitment_ok in C; [|exact Bs]. cbv beta iota zeta in E.
  assert (G : forall sg mu, in_ok {| i_source := s; i_position := p; i_asset := a; i_amount := m; i_program := c; i_sig := sg; i_multi := mu |}) by (intros; exact C).
  apply need1_inv' in E as (w & r4 & Hw & B4 & _ & E); [|exact B3]. apply byte_bound in Hw. destruct (w =? 1).
  - apply need1_inv' in E as (z & r5 & _ & B5 & _ & E); [|exact B4]. destruct (z =? 0); [|discriminate]. cbn [negb] in E. injection E as <- <-. auto.
  - destruct (w =? 0); [discriminate|]. destruct r4 as [|x [|y after]]; [discriminate..|]. assert (Ba : is_bytes after) by (apply is_bytes_cons in B4 as [_ B4]; apply is_bytes_cons in B4; apply B4). destruct ((x =? 2) && (y =? 64)).
    + apply need_inv' in E as (sig & r5 & _ & _ & B5 & E); [|lia|exact Ba]. apply need1_inv' in E as (q & r6 & _ & B6 & _ & E); [|exact B5]. destruct (q =? 32); [|discriminate]. cbn [negb] in E. apply need_inv' in E as (pub & r7 & _ & _ & B7 & E); [|lia|exact B6]. injection E as <- <-. auto.
    + destruct ((x =? 1) && (y =? 3)); [|discriminate]. apply need_inv' in E as (mm & r5 & _ & _ & B5 & E); [|lia|exact B4]. injection E as <- <-. auto.
Qed.
Lemma decode_out_ok rest o r : is_bytes rest -> decode_out rest = Ok (o, r) -> out_ok o /\ is_bytes r.
Proof.
  intros B E. unfold decode_out in E. apply need1_inv' in E as (v & r1 & _ & B1 & _ & E); [|exact B]. destruct (v =? 1); [|discriminate]. cbn [negb] in E. apply need1_inv' in E as (n & r2 & Hn & B2 & _ & E); [|exact B1]. destruct (n =? 0); [discriminate|]. apply byte_bound in Hn. apply need_inv' in E as (sc & r3 & _ & Bs & B3 & E); [|lia|exact B2]. apply bind_ok in E as ([[a m] p] & C & E). apply need1_inv' in E as (w & r4 & _ & B4 & _ & E); [|exact B3]. destruct (w =? 0); [|discriminate]. cbn [negb] in E. injection E as <- <-. split; [|exact B4].
  unfold decode_output_script in C. apply need_inv' in C as (a' & q1 & La & _ & C1 & C); [|lia|exact Bs]. apply scan_var_inv in C as (m' & q2 & _ & Lm & C & C2); [|exact C1]. apply need1_inv' in C as (v' & q3 & _ & C3 & _ & C); [|exact C2]. destruct (v' =? 1); [|discriminate]. cbn [negb] in C. apply need1_inv' in C as (n' & q4 & Hn' & C4 & _ & C); [|exact C3]. destruct (n' =? 0); [discriminate|]. apply byte_bound in Hn'. apply need_inv' in C as (p' & q5 & Lp & _ & _ & C); [|lia|exact C4]. destruct (zlen q5 =? 0); [|discriminate]. cbn [negb] in C. injection C as <- <- <-. split; [exact La|]. split; [exact Lm|]. exists n', p'. auto.
Qed.
Lemma readn_forall {A} (read : bytes -> res (A * bytes)) (P : A -> Prop) : (forall b x r, is_bytes b -> read b = Ok (x, r) -> P x /\ is_bytes r) ->
  forall n b l r, is_bytes b -> readn n read b = Ok (l, r) -> Forall P l /\ is_bytes r /\ zlen l = Z.of_nat n.
Proof.
  intros R. induction n as [|n IH]; intros b l r B E; cbn [readn] in E; [injection E as <- <-; auto|]. apply bind_ok in E as ([x r1] & E1 & E). apply bind_ok in E as ([t r2] & E2 & E). injection E as <- <-. apply R in E1 as [Px B1]; [|exact B]. apply IH in E2 as (F & B2 & L); [|exact B1]. rewrite zlen_cons, L. split; [constructor; assumption|]. split; [exact B2|lia].
Qed.
Lemma decoded_ok b t : is_bytes b -> decode_tx b = Ok t -> tx_ok t.
Proof.
  intros B E. unfold decode_tx in E. apply need1_inv' in E as (f & r1 & _ & B1 & _ & E); [|exact B]. destruct (f =? 7); [|discriminate]. cbn [negb] in E. apply scan_version_inv in E as (v & r2 & B2 & E); [|exact B1]. apply scan_var_inv in E as (g & r3 & _ & Lg & E & B3); [|exact B2]. apply need1_inv' in E as (n & r4 & Hn & B4 & _ & E); [|exact B3]. destruct (n <=? 0) eqn:N0; [discriminate|]. apply byte_bound in Hn.
  apply bind_ok in E as ([ins r5] & E5 & E). apply (readn_forall decode_in in_ok decode_in_ok) in E5 as (F1 & B5 & L1); [|exact B4]. apply need1_inv' in E as (m & r6 & Hm & B6 & _ & E); [|exact B5]. destruct (m =? 0) eqn:M0; [discriminate|]. apply byte_bound in Hm. apply bind_ok in E as ([outs r7] & E7 & E). apply (readn_forall decode_out out_ok decode_out_ok) in E7 as (F2 & B7 & L2); [|exact B6]. destruct (zlen r7 =? 0); [|discriminate]. cbn [negb] in E. injection E as <-. unfold tx_ok. cbn [t_ins t_outs]. repeat split; try assumption; lia.
Qed.
Lemma lor_bound x y n : 0 <= n -> 0 <= x < 2 ^ n -> 0 <= y < 2 ^ n -> 0 <= Z.lor x y < 2 ^ n.
Proof.
  intros N X Y. split; [apply Z.lor_nonneg; lia|]. destruct (Z.eq_dec (Z.lor x y) 0) as [->|NZ]; [apply Z.pow_pos_nonneg; lia|].
  assert (0 <= Z.lor x y) by (apply Z.lor_nonneg; lia). apply Z.log2_lt_pow2; [lia|]. rewrite Z.log2_lor by lia. destruct (Z.eq_dec n 0) as [->|]; [change (2 ^ 0) with 1 in *; assert (x = 0) by lia; assert (y = 0) by lia; subst; contradiction|].
  apply Z.max_lub_lt; [destruct (Z.eq_dec x 0) as [->|]; [cbn; lia|apply Z.log2_lt_pow2; lia]|destruct (Z.eq_dec y 0) as [->|]; [cbn; lia|apply Z.log2_lt_pow2; lia]].
Qed.
Lemma u64_bound x : 0 <= u64 x < 2 ^ 64.
Proof. unfold u64. apply Z.mod_pos_bound. reflexivity. Qed.
Lemma uvarint_bound buf : forall i s x, 0 <= x < 2 ^ 64 -> 0 <= fst (uvarint buf i s x) < 2 ^ 64.
Proof.
  induction buf as [|b buf IH]; intros i s x X; [cbn; lia|]. cbn [uvarint]. destruct (i =? 10); [cbn; lia|]. destruct (b <? 128).
  - destruct (_ || _); [cbn; lia|]. cbn [fst]. apply lor_bound; [lia|exact X|apply u64_bound].
  - apply IH. apply lor_bound; [lia|exact X|apply u64_bound].
Qed.
Lemma value_bound b : 0 <= uvarint_to_uint64 b < 2 ^ 64.
Proof.
  unfold uvarint_to_uint64. destruct b as [|c b]; [lia|]. pose proof (uvarint_bound (c :: b) 0 0 0 ltac:(lia)) as B. destruct (uvarint (c :: b) 0 0 0) as [v n]. destruct (n =? _); [exact B|lia].
Qed.

Section Commit.
Variable H : bytes -> bytes.
Hypothesis H32 : forall m, zlen (H m) = 32.
Lemma peel a b : H a = H b -> a = b \/ collision H.
Proof. intros E. destruct (list_eq_dec Z.eq_dec a b); [auto|right; exists a, b; auto]. Qed.
Definition in_msg (i : txin) : bytes := i_source i ++ i_asset i ++ le_bytes 8 (uvarint_to_uint64 (i_amount i)) ++ le_bytes 8 (uvarint_to_uint64 (i_position i)) ++ le_bytes 8 1 ++ u8 (zlen (i_program i)) :: i_program i.
Definition in_id (i : txin) : bytes := H (pre "spend1:" ++ H (H (pre "output1:" ++ H (in_msg i)))).
Lemma input_id_ok i : in_ok i -> input_id H i = Ok (in_id i).
Proof. intros (A & B & C). unfold input_id. rewrite A, B. cbn [Z.eqb Pos.eqb negb]. replace (zlen (i_program i) =? 0) with false by lia. reflexivity. Qed.
Definition mux_msg (ins : list txin) : bytes := u8 (zlen ins) :: concat (map (fun i => in_id i ++ i_asset i ++ le_bytes 8 (uvarint_to_uint64 (i_amount i)) ++ le_bytes 8 (uvarint_to_uint64 (i_position i))) ins) ++ le_bytes 8 1 ++ [0x01; op_1].
Definition mux (ins : list txin) : bytes := H (pre "mux1:" ++ H (mux_msg ins)).
Lemma mux_ok ins : Forall in_ok ins -> mux_id H ins = Ok (mux ins).
Proof.
  intros F. unfold mux_id. rewrite (mapr_ok _ in_id) by (intros x I; apply input_id_ok; rewrite Forall_forall in F; auto). cbn [bind]. unfold mux, mux_msg. rewrite zlen_map. assert (Q : forall f : bytes * txin -> bytes, concat (map f (combine (map in_id ins) ins)) = concat (map (fun i => f (in_id i, i)) ins)) by (intros f; clear; induction ins as [|i ins IH]; [reflexivity|]; cbn [map combine concat]; rewrite IH; reflexivity). rewrite Q. reflexivity.
Qed.
Definition out_msg (ins : list txin) (n : Z) (o : txout) : bytes := mux ins ++ o_asset o ++ le_bytes 8 (uvarint_to_uint64 (o_amount o)) ++ le_bytes 8 n ++ le_bytes 8 1 ++ o_program o.
Definition oid (ins : list txin) (n : Z) (o : txout) : bytes := H (pre "output1:" ++ H (out_msg ins n o)).
Fixpoint oids (ins : list txin) (n : Z) (outs : list txout) : list bytes := match outs with [] => [] | o :: r => oid ins n o :: oids ins (n + 1) r end.
Lemma out_ids_ok ins outs : Forall in_ok ins -> Forall out_ok outs -> forall n, out_ids H ins n outs = Ok (oids ins n outs).
Proof.
  clear H32. intros F G. induction G as [|o outs (A & B & q & p & C & D) G IH]; intros n; [reflexivity|]. cbn [out_ids oids]. unfold out_id. rewrite mux_ok by exact F. cbn [bind]. rewrite A. cbn [Z.eqb Pos.eqb negb]. replace (zlen (o_amount o) =? 0) with false by lia. replace (zlen (o_program o) =? 0) with false by (rewrite C, zlen_cons; pose proof (zlen_nonneg p); lia). cbn [bind]. rewrite IH. reflexivity.
Qed.
Definition txid (t : tx) : bytes := H (pre "txheader:" ++ H (le_bytes 8 1 ++ le_bytes 8 (uvarint_to_uint64 (t_range t)) ++ u8 (zlen (t_outs t)) :: concat (oids (t_ins t) 0 (t_outs t)))).
Definition sighash (t : tx) (i : txin) : bytes := H (in_id i ++ txid t).
Lemma sighash_ok t i : tx_ok t -> In i (t_ins t) -> sig_hash H t i = Ok (sighash t i).
Proof.
  intros (_ & _ & F & G) I. unfold sig_hash. rewrite input_id_ok by (rewrite Forall_forall in F; auto). cbn [bind]. unfold tx_id. rewrite out_ids_ok by assumption. reflexivity.
Qed.
Lemma le8 a b x y : 0 <= a < 2 ^ 64 -> 0 <= b < 2 ^ 64 -> le_bytes 8 a ++ x = le_bytes 8 b ++ y -> a = b /\ x = y.
Proof. intros A B E. apply (le_code 8) in E; assumption. Qed.
Ltac le8 E := let E1 := fresh E in apply le8 in E as [E1 E]; [|first [apply value_bound | lia]..].
Lemma in_msg_inj i j : in_ok i -> in_ok j -> in_msg i = in_msg j -> spent_view i = spent_view j.
Proof.
  intros (A & B & C) (A' & B' & C') E. unfold in_msg in E. apply app_split in E as [E1 E]; [|congruence]. apply app_split in E as [E2 E]; [|congruence]. le8 E. le8 E. apply app_inv_head in E. injection E as _ E. unfold spent_view. congruence.
Qed.
Lemma in_id_inj i j : in_ok i -> in_ok j -> in_id i = in_id j -> spent_view i = spent_view j \/ collision H.
Proof.
  intros I J E. unfold in_id in E. apply peel in E as [E|C]; [|auto]. apply app_inv_head in E. apply peel in E as [E|C]; [|auto]. apply peel in E as [E|C]; [|auto]. apply app_inv_head in E. apply peel in E as [E|C]; [|auto]. left. apply in_msg_inj; assumption.
Qed.
Lemma u8_len {A B} (l : list A) (m : list B) : zlen l < 256 -> zlen m < 256 -> u8 (zlen l) = u8 (zlen m) -> length l = length m.
Proof. intros L M E. pose proof (zlen_nonneg l). pose proof (zlen_nonneg m). unfold u8 in E. change (2 ^ 8) with 256 in E. rewrite !Z.mod_small in E by lia. unfold zlen in *. lia. Qed.
Lemma mux_inj a b : Forall in_ok a -> Forall in_ok b -> zlen a < 256 -> zlen b < 256 -> mux a = mux b -> map spent_view a = map spent_view b \/ collision H.
Proof.
  intros F G La Lb E. unfold mux in E. apply peel in E as [E|C]; [|auto]. apply app_inv_head in E. apply peel in E as [E|C]; [|auto]. unfold mux_msg in E. assert (E0 : u8 (zlen a) = u8 (zlen b)) by congruence. apply (f_equal (@tl Z)) in E. cbn [tl] in E. apply u8_len in E0; [|assumption..]. clear La Lb.
  revert b G E0 E. induction F as [|i a I F IH]; intros [|j b] G L E; try discriminate L; [auto|]. inversion G; subst. cbn [map concat] in E. rewrite <- !app_assoc in E. apply app_split in E as [E1 E]; [|unfold in_id; rewrite !H32; reflexivity]. apply in_id_inj in E1 as [E1|C]; [|auto|assumption..]. apply app_split in E as [E2 E]; [|destruct I as (? & ? & ?), H2 as (? & ? & ?); congruence]. le8 E. le8 E. destruct (IH b) as [Q|C]; [assumption|cbn in L; lia|rewrite !app_assoc in *; exact E| |auto]. left. cbn [map]. congruence.
Qed.
Lemma oid_inj a b n o p : Forall in_ok a -> Forall in_ok b -> zlen a < 256 -> zlen b < 256 -> 0 <= n < 2 ^ 64 -> out_ok o -> out_ok p -> oid a n o = oid b n p -> (map spent_view a = map spent_view b /\ paid_view o = paid_view p) \/ collision H.
Proof.
  intros F G La Lb N (A & B & C) (A' & B' & C') E. unfold oid in E. apply peel in E as [E|X]; [|auto]. apply app_inv_head in E. apply peel in E as [E|X]; [|auto]. unfold out_msg in E. apply app_split in E as [E1 E]; [|unfold mux; rewrite !H32; reflexivity]. apply mux_inj in E1 as [E1|X]; [|auto|assumption..]. apply app_split in E as [E2 E]; [|congruence]. le8 E. apply app_inv_head in E. apply app_inv_head in E. left. split; [exact E1|]. unfold paid_view. congruence.
Qed.
Lemma oids_inj a b outs : Forall in_ok a -> Forall in_ok b -> zlen a < 256 -> zlen b < 256 -> Forall out_ok outs -> forall outs' n, Forall out_ok outs' -> length outs = length outs' -> 0 <= n -> n + zlen outs < 2 ^ 64 ->
  concat (oids a n outs) = concat (oids b n outs') -> ((outs <> [] -> map spent_view a = map spent_view b) /\ map paid_view outs = map paid_view outs') \/ collision H.
Proof.
  intros F G La Lb O. induction O as [|o outs Oo O IH]; intros [|p outs'] n O' L N M E; try discriminate L; [left; split; [congruence|reflexivity]|]. inversion O'; subst. cbn [oids concat] in E. rewrite zlen_cons in M. pose proof (zlen_nonneg outs). apply app_split in E as [E1 E]; [|unfold oid; rewrite !H32; reflexivity]. apply oid_inj in E1 as [[E1 E2]|X]; [|auto|first [assumption|lia]..].
  destruct (IH outs' (n + 1)) as [[_ Q]|X]; [assumption|cbn in L; lia|lia|lia|exact E| |auto]. left. split; [auto|]. cbn [map]. congruence.
Qed.
Lemma sighash_inj t t' i i' : tx_ok t -> tx_ok t' -> In i (t_ins t) -> In i' (t_ins t') -> sighash t i = sighash t' i' ->
  (spent_view i = spent_view i' /\ uvarint_to_uint64 (t_range t) = uvarint_to_uint64 (t_range t') /\ map spent_view (t_ins t) = map spent_view (t_ins t') /\ map paid_view (t_outs t) = map paid_view (t_outs t')) \/ collision H.
Proof.
  intros (L1 & L2 & F & G) (L1' & L2' & F' & G') I I' E. unfold sighash in E. apply peel in E as [E|X]; [|auto]. apply app_split in E as [E1 E]; [|unfold in_id; rewrite !H32; reflexivity]. apply in_id_inj in E1 as [E1|X]; [|auto|rewrite Forall_forall in F; auto|rewrite Forall_forall in F'; auto]. unfold txid in E. apply peel in E as [E|X]; [|auto]. apply app_inv_head in E. apply peel in E as [E|X]; [|auto]. apply app_inv_head in E. le8 E.
  assert (E2 : u8 (zlen (t_outs t)) = u8 (zlen (t_outs t'))) by congruence. apply (f_equal (@tl Z)) in E. cbn [tl] in E. apply u8_len in E2; [|lia..]. apply oids_inj in E as [[Q1 Q2]|X]; [|auto|first [assumption|lia]..]. left. split; [exact E1|]. split; [exact E0|]. split; [apply Q1; intros C; rewrite C in L2; cbn in L2; lia|exact Q2].
Qed.
End Commit.

Theorem bytom_hash_commits : forall H b b' t t' i i', (forall m, zlen (H m) = 32) -> is_bytes b -> is_bytes b' -> decode_tx b = Ok t -> decode_tx b' = Ok t' -> In i (t_ins t) -> In i' (t_ins t') ->
  exists h h', sig_hash H t i = Ok h /\ sig_hash H t' i' = Ok h' /\
    (h = h' -> (spent_view i = spent_view i' /\ uvarint_to_uint64 (t_range t) = uvarint_to_uint64 (t_range t') /\ map spent_view (t_ins t) = map spent_view (t_ins t') /\ map paid_view (t_outs t) = map paid_view (t_outs t')) \/ collision H).
Proof.
  intros H b b' t t' i i' L B B' D D' I I'. apply decoded_ok in D; [|exact B]. apply decoded_ok in D'; [|exact B']. exists (sighash H t i), (sighash H t' i'). split; [apply sighash_ok; assumption|]. split; [apply sighash_ok; assumption|]. apply sighash_inj; assumption.
Qed.
(** The version is not part of what is signed. *)
Theorem bytom_version_not_signed : forall H verify v v' rest testnet, is_bytes rest -> 0 <= v < 128 -> 0 <= v' < 128 ->
  hashes_for_sig H (hex_encode (7 :: v :: rest)) testnet = hashes_for_sig H (hex_encode (7 :: v' :: rest)) testnet /\
  verify_tx H verify (hex_encode (7 :: v :: rest)) = verify_tx H verify (hex_encode (7 :: v' :: rest)).
Proof.
  intros H vf v v' rest tn B V V'. assert (D : forall u, 0 <= u < 128 -> decode_tx (7 :: u :: rest) = match decode_tx (7 :: 1 :: rest) with Ok t => Ok {| t_version := [u]; t_range := t_range t; t_ins := t_ins t; t_outs := t_outs t |} | Err => Err | Panic => Panic end).
  { intros u U. unfold decode_tx. cbn [need1 Z.eqb Pos.eqb negb scan_version]. replace (u <? 128) with true by lia. change (1 <? 128) with true. cbv iota. unfold scan_var. destruct rest as [|c rest]; [reflexivity|]. generalize (c :: rest). generalize [1] [u]. clear. intros v1 vu l. generalize (@nil Z). induction l as [|x l IH]; intros acc; [reflexivity|]. cbn [scan_more]. destruct (x <? 128); [|apply IH]. destruct l as [|n l]; [reflexivity|]. cbn [need1]. destruct (n <=? 0); [reflexivity|]. destruct (readn (Z.to_nat n) decode_in l) as [[ins r]| |]; [|reflexivity..]. cbn [bind]. destruct r as [|m r]; [reflexivity|]. cbn [need1]. destruct (m =? 0); [reflexivity|]. destruct (readn (Z.to_nat m) decode_out r) as [[outs r']| |]; [|reflexivity..]. cbn [bind]. destruct (negb _); reflexivity. }
  assert (HB : forall u, 0 <= u < 128 -> hex_decode (hex_encode (7 :: u :: rest)) = Ok (7 :: u :: rest)) by (intros u U; apply hex_decode_encode; bts; split; lia).
  unfold hashes_for_sig, verify_tx. rewrite !HB by assumption. cbn [bind]. rewrite (D v V), (D v' V'). destruct (decode_tx (7 :: 1 :: rest)) as [t| |]; [|split; reflexivity..]. cbn [bind t_ins]. split.
  - induction (t_ins t) as [|i l IH]; [reflexivity|]. cbn [mapr]. unfold hash_for_sig at 1 3. unfold sig_hash, tx_id. cbn [t_ins t_outs t_range]. destruct (input_id H i); [|reflexivity..]. cbn [bind]. destruct (out_ids H (t_ins t) 0 (t_outs t)) eqn:Q; reflexivity.
  - reflexivity.
Qed.
Print Assumptions bytom_hash_commits.
Print Assumptions bytom_version_not_signed.
