(** Lemmas about the bech32m and bytom-bech32 models. *)
From Coq Require Import String ZArith List Bool Lia ZifyBool ZifyNat.
From Verif Require Import Go GoFacts Base58Proofs Bech32Spec PolymodProofs PolymodFree Bech32Model Bech32Proofs Bech32Text
  Bech32mModel ConvertBitsProofs.
Import ListNotations.
Open Scope Z_scope.
Ltac Zify.zify_post_hook ::= idtac.

Lemma bit_eq x i : 0 <= i -> (Z.land (Z.shiftr x i) 1 =? 1) = Z.testbit x i.
Proof.
  intros Hi. change 1 with (Z.ones 1) at 1. rewrite Z.land_ones by lia. change (2 ^ 1) with 2.
  pose proof (Z.bit0_mod (Z.shiftr x i)) as E. rewrite Z.shiftr_spec in E by lia. rewrite Z.add_0_l in E.
  rewrite <- E. destruct (Z.testbit x i); reflexivity.
Qed.
Lemma pm_xor_eq gs : forall i top chk, 0 <= i -> pm_xor gs i top chk = Z.lxor chk (gsum gs i top).
Proof.
  induction gs as [|g gs IH]; intros i top chk Hi; cbn [pm_xor gsum].
  - rewrite Z.lxor_0_r. reflexivity.
  - rewrite IH, bit_eq by lia. destruct (Z.testbit top i); xbits.
Qed.
Lemma pm_step_eq c v : pm_step c v = gstep 25 gens30 c v.
Proof.
  unfold pm_step, gstep, shx. rewrite pm_xor_eq by lia. change pm_gen with gens30. change (Z.ones 25) with 33554431. xbits.
Qed.
Lemma pm_fold vs : forall c, fold_left pm_step vs c = fold_left (gstep 25 gens30) vs c.
Proof. induction vs as [|v vs IH]; intros c; cbn [fold_left]; [reflexivity|]. rewrite pm_step_eq. apply IH. Qed.
Lemma pm_polymod_eq vs : pm_polymod vs = fold_left (gstep 25 gens30) vs 1.
Proof. apply pm_fold. Qed.

Lemma hrp_range h : Forall (fun c => 33 <= c <= 126 /\ ~ (65 <= c <= 90)) h -> Forall d5 (hrp_expand h).
Proof.
  intros H. unfold hrp_expand. apply Forall_app; split; [|constructor; [unfold d5; lia|]].
  - apply Forall_map. eapply Forall_impl; [|exact H]. intros c Hc. cbv beta in *. unfold d5. rewrite Z.shiftr_div_pow2 by lia.
    change (2 ^ 5) with 32. split; [apply Z.div_pos; lia|apply Z.div_lt_upper_bound; lia].
  - apply Forall_map. eapply Forall_impl; [|exact H]. intros c Hc. cbv beta in *. unfold d5. rewrite land31. apply Z.mod_pos_bound. lia.
Qed.
Definition vconst (v : variant) : Z := match v with Bech32m => bech32m_const | Bech32 => 1 end.
Lemma bm_checksum_digits h ds spec :
  bm_checksum h ds spec = digits6 (Z.lxor (pm_polymod ((hrp_expand h ++ ds) ++ zeros 6)) (vconst spec)).
Proof. destruct spec; reflexivity. Qed.
Lemma polymod_checksum h ds spec : Forall (fun c => 33 <= c <= 126 /\ ~ (65 <= c <= 90)) h -> Forall d5 ds ->
  pm_polymod (hrp_expand h ++ (ds ++ bm_checksum h ds spec)) = vconst spec.
Proof.
  intros Hh Hd. rewrite app_assoc, bm_checksum_digits, !pm_polymod_eq.
  apply fold_checksum.
  - apply Forall_app; split; [apply hrp_range|]; assumption.
  - lia.
  - destruct spec; vm_compute; split; congruence.
Qed.
Lemma bm_verify_checksum h ds spec : Forall (fun c => 33 <= c <= 126 /\ ~ (65 <= c <= 90)) h -> Forall d5 ds ->
  bm_verify h (ds ++ bm_checksum h ds spec) = Some spec.
Proof. intros Hh Hd. unfold bm_verify. rewrite polymod_checksum by assumption. destruct spec; reflexivity. Qed.
(** the last six digits are determined by the others *)
Lemma checksum_unique h ds cs spec : Forall (fun c => 33 <= c <= 126 /\ ~ (65 <= c <= 90)) h -> Forall d5 ds -> Forall d5 cs ->
  length cs = 6%nat -> pm_polymod (hrp_expand h ++ (ds ++ cs)) = vconst spec -> cs = bm_checksum h ds spec.
Proof.
  intros Hh Hd Hc Hl E. rewrite <- (polymod_checksum h ds spec Hh Hd) in E.
  rewrite !pm_polymod_eq, !app_assoc, !(fold_left_app _ (hrp_expand h ++ ds)) in E.
  set (c0 := fold_left (gstep 25 gens30) (hrp_expand h ++ ds) 1) in *.
  set (ks := bm_checksum h ds spec) in *.
  assert (Lk : length ks = 6%nat) by reflexivity. assert (Hk : Forall d5 ks) by apply digits6_range.
  assert (E0 : fold_left (gstep 25 gens30) (xor2 cs ks) 0 = 0).
  { rewrite <- (Z.lxor_nilpotent c0) at 1. rewrite fold_xor2, E by lia. apply Z.lxor_nilpotent. }
  assert (Hx : Forall d5 (xor2 cs ks)) by (apply xor2_range; assumption).
  assert (Lx : length (xor2 cs ks) = 6%nat) by (rewrite xor2_length; congruence).
  rewrite (fold_pack 25 gens30) in E0; [|lia|assumption|lia|unfold zlen; rewrite Lx; vm_compute; congruence].
  assert (Ez : xor2 cs ks = zeros 6).
  { apply (bval_inj 32); [lia|exact Hx|apply zeros_range|exact Lx|].
    change (bval 32 (zeros 6)) with 0. lia. }
  clear - Ez Hl Lk. 
  destruct cs as [|a1 [|a2 [|a3 [|a4 [|a5 [|a6 [|? ?]]]]]]]; try discriminate.
  destruct ks as [|b1 [|b2 [|b3 [|b4 [|b5 [|b6 [|? ?]]]]]]]; try discriminate.
  cbn in Ez. injection Ez as E1 E2 E3 E4 E5 E6.
  apply Z.lxor_eq in E1, E2, E3, E4, E5, E6. subst. reflexivity.
Qed.

(** ** Text *)
Definition bsym_ok2 (d : Z) : bool := (index_of (bsym d) bech32_alphabet =? d) && (lower_char (bsym d) =? bsym d) && (33 <=? bsym d) && (bsym d <=? 126).
Lemma bsym_ok2_all : forallb bsym_ok2 (map Z.of_nat (seq 0 32)) = true.
Proof. vm_cast_no_check (eq_refl true). Qed.
Strategy 1000 [index_of bsym lower_char].
Lemma bsym_facts2 d : d5 d -> index_of (bsym d) bech32_alphabet = d /\ lower_char (bsym d) = bsym d /\ 33 <= bsym d <= 126 /\ bsym d <> 49.
Proof.
  intros Hd. pose proof (forall32 bsym_ok2 bsym_ok2_all d Hd) as F. unfold bsym_ok2 in F.
  rewrite !andb_true_iff, !Z.eqb_eq, !Z.leb_le in F. destruct F as (((F1 & F2) & F3) & F4).
  pose proof (bsym_facts d Hd) as G. unfold bsym_ok in G. cbv zeta in G.
  rewrite !andb_true_iff in G. destruct G as (((_ & G) & _) & _). apply negb_true_iff, Z.eqb_neq in G.
  split; [exact F1|]. split; [exact F2|]. split; [split; [exact F3|exact F4]|exact G].
Qed.
Lemma to_lower_syms ds : Forall d5 ds -> to_lower (map bsym ds) = map bsym ds.
Proof.
  unfold to_lower. induction 1 as [|d ds Hd _ IH]; [reflexivity|]. cbn [map]. rewrite IH. f_equal. apply bsym_facts2, Hd.
Qed.
Lemma to_lower_app a b : to_lower (a ++ b) = to_lower a ++ to_lower b.
Proof. apply map_app. Qed.
Lemma to_lower_hrp h : Forall (fun c => 33 <= c <= 126 /\ ~ (65 <= c <= 90)) h -> to_lower h = h.
Proof.
  unfold to_lower. induction 1 as [|c h Hc _ IH]; [reflexivity|]. cbn [map]. rewrite IH. f_equal.
  unfold lower_char. replace ((65 <=? c) && (c <=? 90)) with false by lia. reflexivity.
Qed.
Lemma chars_digits ds : Forall d5 ds -> chars_to_digits bech32_alphabet (map bsym ds) = Ok ds.
Proof.
  induction 1 as [|d ds Hd _ IH]; [reflexivity|]. cbn [chars_to_digits map].
  destruct (bsym_facts2 d Hd) as (E & _). rewrite E. cbv zeta. unfold d5 in Hd.
  replace (d =? -1) with false by lia. rewrite IH. reflexivity.
Qed.
Lemma last_index_none c s : ~ In c s -> last_index c s = -1.
Proof.
  induction s as [|x s IH]; intros H; cbn [last_index]; [reflexivity|].
  rewrite IH by (intros Hc; apply H; right; exact Hc). cbn. destruct (Z.eqb_spec x c); [|reflexivity].
  exfalso. apply H. left. assumption.
Qed.
Lemma last_index_mid c a b : ~ In c b -> last_index c (a ++ c :: b) = zlen a.
Proof.
  intros H. induction a as [|x a IH]; cbn [app last_index].
  - rewrite last_index_none by assumption. cbn. rewrite Z.eqb_refl. reflexivity.
  - rewrite IH. rewrite zlen_cons. pose proof (zlen_nonneg a). replace (0 <=? zlen a) with true by lia. lia.
Qed.
Lemma no_one ds : Forall d5 ds -> ~ In 49 (map bsym ds).
Proof.
  intros H Hin. apply in_map_iff in Hin. destruct Hin as (d & E & Hd). rewrite Forall_forall in H.
  specialize (H d Hd). apply bsym_facts2 in H. lia.
Qed.
Lemma existsb_hrp h : Forall (fun c => 33 <= c <= 126 /\ ~ (65 <= c <= 90)) h -> existsb (fun c => (c <? 33) || (126 <? c)) h = false.
Proof.
  induction 1 as [|c h Hc _ IH]; [reflexivity|]. cbn [existsb]. rewrite IH.
  replace ((c <? 33) || (126 <? c)) with false by lia. reflexivity.
Qed.
Lemma slice_digits (ds cs : list Z) : length cs = 6%nat -> slice (ds ++ cs) 0 (zlen (ds ++ cs) - 6) = Ok ds.
Proof.
  intros H. apply slice_pre. rewrite zlen_app. unfold zlen. lia.
Qed.
Lemma skipn_hrp (h : list Z) x : skipn (Z.to_nat (zlen h + 1)) (h ++ 49 :: x) = x.
Proof.
  replace (Z.to_nat (zlen h + 1)) with (length (h ++ [49])) by (rewrite app_length; cbn [length]; unfold zlen; lia).
  change (49 :: x) with ([49] ++ x). rewrite app_assoc, skipn_app, skipn_all, Nat.sub_diag. reflexivity.
Qed.
Definition text (h ds : list Z) : list Z := h ++ [49] ++ map bsym ds.
Lemma bm_decode_text h ds : hrp_ok h -> Forall d5 ds -> (6 <= length ds)%nat -> zlen (text h ds) <= 90 ->
  bm_decode (text h ds) bech32_alphabet =
    match bm_verify h ds with
    | None => Err
    | Some spec => Ok (h, firstn (length ds - 6) ds, spec)
    end.
Proof.
  intros [Hn Hh] Hd H6 H90. unfold bm_decode.
  replace (90 <? zlen (text h ds)) with false by lia.
  assert (El : to_lower (text h ds) = text h ds).
  { unfold text. rewrite !to_lower_app, to_lower_hrp, to_lower_syms by assumption. reflexivity. }
  rewrite El, beq_refl. cbn [negb andb]. cbv zeta.
  assert (Ei : last_index 49 (text h ds) = zlen h) by (apply last_index_mid, no_one; assumption).
  rewrite Ei.
  assert (Hz : 0 < zlen h) by (destruct h; [congruence|]; rewrite zlen_cons; pose proof (zlen_nonneg h); lia).
  replace (zlen h <? 1) with false by lia.
  assert (Et : zlen (text h ds) = zlen h + 1 + zlen ds).
  { unfold text. rewrite zlen_app. cbn [app]. rewrite zlen_cons, zlen_map. lia. }
  rewrite Et. replace (zlen h + 1 + zlen ds <? zlen h + 7) with false by (unfold zlen in *; lia).
  unfold text at 1. rewrite (slice_pre h) by reflexivity. cbn [bind].
  rewrite existsb_hrp by assumption. unfold text. cbn [app]. rewrite skipn_hrp, chars_digits by assumption. cbn [bind].
  destruct (bm_verify h ds); [|reflexivity].
  assert (Es : ds = firstn (length ds - 6) ds ++ skipn (length ds - 6) ds) by (symmetry; apply firstn_skipn).
  rewrite Es at 1 2. rewrite slice_digits by (rewrite skipn_length; lia). reflexivity.
Qed.
Lemma lookup_charset_syms ds : Forall d5 ds -> lookup_charset bech32_alphabet ds = Ok (map bsym ds).
Proof.
  induction 1 as [|d ds Hd _ IH]; [reflexivity|]. cbn [lookup_charset map].
  rewrite bsym_idx by assumption. cbn [bind]. rewrite IH. reflexivity.
Qed.
Lemma bm_encode_text h ds spec : Forall d5 ds ->
  bm_encode h ds spec bech32_alphabet = Ok (text h (ds ++ bm_checksum h ds spec)).
Proof.
  intros Hd. unfold bm_encode. rewrite lookup_charset_syms; [reflexivity|].
  apply Forall_app; split; [assumption|]. rewrite bm_checksum_digits. apply digits6_range.
Qed.
Lemma bm_decode_encode h ds spec : hrp_ok h -> Forall d5 ds -> zlen h + zlen ds + 7 <= 90 ->
  bm_decode (text h (ds ++ bm_checksum h ds spec)) bech32_alphabet = Ok (h, ds, spec).
Proof.
  intros Hh Hd Hl.
  assert (Hc : Forall d5 (bm_checksum h ds spec)) by (rewrite bm_checksum_digits; apply digits6_range).
  assert (Lc : length (bm_checksum h ds spec) = 6%nat) by reflexivity.
  rewrite bm_decode_text.
  - rewrite bm_verify_checksum by (try apply Hh; assumption). rewrite firstn_digits by assumption. reflexivity.
  - assumption.
  - apply Forall_app; split; assumption.
  - rewrite app_length. lia.
  - unfold text. rewrite zlen_app. cbn [app]. rewrite zlen_cons, zlen_map, zlen_app. unfold zlen in *. lia.
Qed.

Lemma digits_d5 l : digits 32 l -> Forall d5 l.
Proof. exact (fun H => H). Qed.
Lemma bytes_digits l : is_bytes l -> digits (2 ^ 8) l.
Proof. exact (fun H => H). Qed.

(** errors *)
Lemma verify_variant_errors h a b : Forall (fun c => 33 <= c <= 126 /\ ~ (65 <= c <= 90)) h -> Forall d5 a -> Forall d5 b ->
  length a = length b -> (length a <= 89)%nat -> (0 < hamming a b <= 4)%nat ->
  forall v, bm_verify h a = Some v -> bm_verify h b <> Some v.
Proof.
  intros Hh Ha Hb Hl HN Hm v Va Vb.
  apply (errors_detected30 a b (fold_left (gstep 25 gens30) (hrp_expand h) 1)); auto.
  unfold bm_verify in *. rewrite !pm_polymod_eq, !fold_left_app in *. cbv zeta in *.
  set (fa := fold_left (gstep 25 gens30) a _) in *. set (fb := fold_left (gstep 25 gens30) b _) in *.
  destruct (Z.eqb_spec fa 1), (Z.eqb_spec fb 1); try congruence;
    destruct (Z.eqb_spec fa bech32m_const), (Z.eqb_spec fb bech32m_const); congruence.
Qed.

(** ** bytom *)
Lemma to_chars_syms ds : Forall d5 ds -> to_chars ds = Ok (map bsym ds).
Proof.
  induction 1 as [|d ds Hd _ IH]; [reflexivity|]. cbn [to_chars map].
  assert (Hd' : 0 <= d < 32) by exact Hd. replace (32 <=? d) with false by lia.
  change bytom_charset with bech32_alphabet. rewrite bsym_idx by assumption. cbn [bind]. rewrite IH. reflexivity.
Qed.
Lemma existsb_syms ds : Forall d5 ds -> existsb (fun c => (c <? 33) || (126 <? c)) (map bsym ds) = false.
Proof.
  induction 1 as [|d ds Hd _ IH]; [reflexivity|]. cbn [existsb map]. rewrite IH.
  destruct (bsym_facts2 d Hd) as (_ & _ & H & _). replace ((bsym d <? 33) || (126 <? bsym d)) with false by lia. reflexivity.
Qed.
Lemma bytom_decode_text h ds : hrp_ok h -> Forall d5 ds -> (6 <= length ds)%nat -> zlen (text h ds) <= 90 ->
  bytom_decode (text h ds) = if bytom_verify h ds then Ok (h, firstn (length ds - 6) ds) else Err.
Proof.
  intros [Hn Hh] Hd H6 H90. unfold bytom_decode.
  assert (Hz : 0 < zlen h) by (destruct h; [congruence|]; rewrite zlen_cons; pose proof (zlen_nonneg h); lia).
  assert (Et : zlen (text h ds) = zlen h + 1 + zlen ds).
  { unfold text. rewrite zlen_app. cbn [app]. rewrite zlen_cons, zlen_map. lia. }
  replace ((zlen (text h ds) <? 8) || (90 <? zlen (text h ds))) with false by (unfold zlen in *; lia).
  assert (Ex : existsb (fun c => (c <? 33) || (126 <? c)) (text h ds) = false).
  { unfold text. rewrite !existsb_app, existsb_hrp, existsb_syms by assumption. reflexivity. }
  rewrite Ex.
  assert (El : to_lower (text h ds) = text h ds).
  { unfold text. rewrite !to_lower_app, to_lower_hrp, to_lower_syms by assumption. reflexivity. }
  rewrite El, beq_refl. cbn [negb andb]. cbv zeta.
  assert (Ei : last_index 49 (text h ds) = zlen h) by (apply last_index_mid, no_one; assumption).
  rewrite Ei, Et.
  replace ((zlen h <? 1) || (zlen h + 1 + zlen ds <? zlen h + 7)) with false by (unfold zlen in *; lia).
  unfold text at 1. rewrite (slice_pre h) by reflexivity. cbn [bind].
  unfold text. cbn [app]. change bytom_charset with bech32_alphabet. rewrite skipn_hrp, chars_digits by assumption. cbn [bind].
  assert (Es : ds = firstn (length ds - 6) ds ++ skipn (length ds - 6) ds) by (symmetry; apply firstn_skipn).
  assert (Esl : slice ds 0 (zlen ds - 6) = Ok (firstn (length ds - 6) ds)).
  { rewrite Es at 1 2. rewrite slice_digits by (rewrite skipn_length; lia). reflexivity. }
  rewrite Esl. cbn [bind]. destruct (bytom_verify h ds); reflexivity.
Qed.
Lemma bytom_encode_text h ds : Forall d5 ds -> bytom_encode h ds = Ok (text h (ds ++ bm_checksum h ds Bech32)).
Proof.
  intros Hd. unfold bytom_encode. rewrite to_chars_syms; [reflexivity|].
  apply Forall_app; split; [assumption|]. rewrite bm_checksum_digits. apply digits6_range.
Qed.
Lemma bytom_decode_encode h ds : hrp_ok h -> Forall d5 ds -> zlen h + zlen ds + 7 <= 90 ->
  bytom_decode (text h (ds ++ bm_checksum h ds Bech32)) = Ok (h, ds).
Proof.
  intros Hh Hd Hl.
  assert (Hc : Forall d5 (bm_checksum h ds Bech32)) by (rewrite bm_checksum_digits; apply digits6_range).
  assert (Lc : length (bm_checksum h ds Bech32) = 6%nat) by reflexivity.
  rewrite bytom_decode_text.
  - unfold bytom_verify. rewrite polymod_checksum by (try apply Hh; assumption). cbn [vconst Z.eqb Pos.eqb].
    rewrite firstn_digits by assumption. reflexivity.
  - assumption.
  - apply Forall_app; split; assumption.
  - rewrite app_length. lia.
  - unfold text. rewrite zlen_app. cbn [app]. rewrite zlen_cons, zlen_map, zlen_app. unfold zlen in *. lia.
Qed.

(** ** Inversion: what a successfully decoded text looks like *)
Lemma index_of_bound c s : -1 <= index_of c s < zlen s.
Proof.
  induction s as [|x s IH]; cbn [index_of]; [change (zlen (@nil Z)) with 0; lia|]. rewrite zlen_cons.
  destruct (x =? c); [pose proof (zlen_nonneg s); lia|]. cbv zeta. destruct (Z.ltb_spec (index_of c s) 0); lia.
Qed.
Lemma index_of_nth c s : 0 <= index_of c s -> nth (Z.to_nat (index_of c s)) s 0 = c.
Proof.
  induction s as [|x s IH]; cbn [index_of]; [lia|].
  destruct (Z.eqb_spec x c) as [->|]; [reflexivity|]. cbv zeta. destruct (Z.ltb_spec (index_of c s) 0); [lia|].
  intros _. replace (Z.to_nat (index_of c s + 1)) with (S (Z.to_nat (index_of c s))) by lia. cbn [nth]. apply IH. lia.
Qed.
Lemma chars_digits_inv s : forall ds, chars_to_digits bech32_alphabet s = Ok ds -> Forall d5 ds /\ s = map bsym ds.
Proof.
  induction s as [|c s IH]; intros ds E; cbn [chars_to_digits] in E; [injection E as <-; split; constructor|].
  pose proof (index_of_bound c bech32_alphabet) as Hb. change (zlen bech32_alphabet) with 32 in Hb.
  pose proof (index_of_nth c bech32_alphabet) as Hn.
  cbv zeta in E. set (i := index_of c bech32_alphabet) in *.
  destruct (Z.eqb_spec i (-1)); [discriminate|].
  apply bind_ok in E. destruct E as (t & Et & E). injection E as <-.
  destruct (IH t Et) as (D & ->). split; [constructor; [unfold d5; lia|assumption]|].
  cbn [map]. f_equal. symmetry. apply Hn. lia.
Qed.
Lemma last_index_inv c s : 0 <= last_index c s -> exists a b, s = a ++ c :: b /\ zlen a = last_index c s.
Proof.
  induction s as [|x s IH]; cbn [last_index]; [lia|]. cbv zeta.
  destruct (Z.leb_spec 0 (last_index c s)) as [H|H].
  - intros _. destruct (IH H) as (a & b & E & L). exists (x :: a), b. split; [cbn [app]; congruence|]. rewrite zlen_cons. lia.
  - destruct (Z.eqb_spec x c) as [->|]; [|lia]. intros _. exists [], s. split; reflexivity.
Qed.
Lemma chars_not_panic cs s : chars_to_digits cs s <> Panic.
Proof.
  induction s as [|c s IH]; cbn [chars_to_digits]; [discriminate|]. cbv zeta. destruct (_ =? -1); [discriminate|].
  destruct (chars_to_digits cs s); cbn [bind]; congruence.
Qed.
Lemma last_index_bound c s : -1 <= last_index c s < zlen s.
Proof.
  induction s as [|x s IH]; cbn [last_index]; [change (zlen (@nil Z)) with 0; lia|]. rewrite zlen_cons. cbv zeta.
  pose proof (zlen_nonneg s). destruct (Z.leb_spec 0 (last_index c s)); [lia|]. destruct (x =? c); lia.
Qed.
Lemma lower_hrp_ok h : existsb (fun c => (c <? 33) || (126 <? c)) h = false -> to_lower h = h ->
  Forall (fun c => 33 <= c <= 126 /\ ~ (65 <= c <= 90)) h.
Proof.
  induction h as [|c h IH]; intros Hx Hl; [constructor|]. cbn [existsb] in Hx. apply orb_false_iff in Hx. destruct Hx as [Hc Hx].
  unfold to_lower in Hl. cbn [map] in Hl. injection Hl as H1 H2. constructor; [|apply IH; assumption].
  unfold lower_char in H1. destruct ((65 <=? c) && (c <=? 90)) eqn:E; lia.
Qed.
Lemma to_lower_idem s : to_lower (to_lower s) = to_lower s.
Proof.
  unfold to_lower. rewrite map_map. apply map_ext. intros c. unfold lower_char.
  destruct ((65 <=? c) && (c <=? 90)) eqn:E; [|rewrite E; reflexivity].
  replace ((65 <=? c + 32) && (c + 32 <=? 90)) with false by lia. reflexivity.
Qed.
Lemma existsb_lower s : existsb (fun c => (c <? 33) || (126 <? c)) s = false ->
  existsb (fun c => (c <? 33) || (126 <? c)) (to_lower s) = false.
Proof.
  induction s as [|c s IH]; [reflexivity|]. cbn [existsb to_lower map]. intros H. apply orb_false_iff in H. destruct H as [Hc H].
  unfold to_lower in IH. rewrite IH by assumption. rewrite orb_false_r.
  unfold lower_char. destruct ((65 <=? c) && (c <=? 90)) eqn:E; lia.
Qed.
Lemma bytom_decode_inv s h d : bytom_decode s = Ok (h, d) ->
  hrp_ok h /\ Forall d5 d /\ zlen s <= 90 /\ to_lower s = text h (d ++ bm_checksum h d Bech32).
Proof.
  unfold bytom_decode. destruct ((zlen s <? 8) || (90 <? zlen s)) eqn:El; [discriminate|].
  destruct (existsb _ s) eqn:Ex; [discriminate|].
  destruct (negb _ && negb _); [discriminate|]. cbv zeta.
  apply existsb_lower in Ex. assert (Hid : to_lower (to_lower s) = to_lower s) by apply to_lower_idem.
  assert (Hzl : zlen (to_lower s) = zlen s) by apply zlen_map.
  set (t := to_lower s) in *. clearbody t.
  destruct ((last_index 49 t <? 1) || (zlen t <? last_index 49 t + 7)) eqn:Ei; [discriminate|].
  intros E. destruct (last_index_inv 49 t ltac:(lia)) as (a & b & -> & La).
  rewrite <- La in E. rewrite (slice_pre a) in E by reflexivity. cbn [bind] in E.
  rewrite skipn_hrp in E. apply bind_ok in E. destruct E as (ds & Ed & E).
  change bytom_charset with bech32_alphabet in Ed. apply chars_digits_inv in Ed. destruct Ed as [Dd ->].
  rewrite existsb_app in Ex. apply orb_false_iff in Ex. destruct Ex as [Ex _].
  rewrite to_lower_app in Hid. apply app_inv_head_iff in Hid || idtac.
  assert (Hla : to_lower a = a).
  { assert (Hll : length (to_lower a) = length a) by apply map_length.
    clear - Hid Hll. revert Hll Hid. generalize (to_lower (49 :: map bsym ds)). generalize (49 :: map bsym ds). generalize (to_lower a).
    clear. intros x l l'. revert x. induction a as [|c a IH]; intros [|y x] Hl H; try discriminate; [reflexivity|].
    cbn [app] in H. injection H as -> H. f_equal. apply IH; [cbn [length] in Hl; congruence|exact H]. }
  assert (Hh : Forall (fun c => 33 <= c <= 126 /\ ~ (65 <= c <= 90)) a) by (apply lower_hrp_ok; assumption).
  assert (Lds : (6 <= length ds)%nat).
  { rewrite <- La, zlen_app, zlen_cons, zlen_map in Ei. unfold zlen in Ei. lia. }
  destruct (bytom_verify a ds) eqn:Ev; cbn [negb] in E; [|apply bind_ok in E; destruct E as (? & _ & E); discriminate].
  apply bind_ok in E. destruct E as (d' & Es & E). injection E as <- <-.
  apply slice_ok in Es. destruct Es as (_ & _ & p & c & Eds & Lp & Ld). apply zlen_0 in Lp. subst p. cbn [app] in Eds. subst ds.
  apply Forall_app in Dd. destruct Dd as [Dd Dc].
  assert (Lc : length c = 6%nat) by (rewrite zlen_app in Ld; unfold zlen in Ld; lia).
  split; [|split; [assumption|split; [lia|]]].
  - split; [|assumption]. destruct a; [|discriminate]. change (zlen (@nil Z)) with 0 in La. lia.
  - unfold bytom_verify in Ev. apply Z.eqb_eq in Ev.
    assert (c = bm_checksum a d' Bech32) by (apply checksum_unique; auto).
    subst c. reflexivity.
Qed.
