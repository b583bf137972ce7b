(** C126: Base58 with an alphabet of the caller's choice. *)
From Coq Require Import String ZArith List Bool Lia ZifyBool ZifyNat FinFun.
From Verif Require Import Go GoFacts Base58Model Base58Spec Base58Proofs Base58Props GoJson Json.
Import ListNotations.
Open Scope Z_scope.
Ltac Zify.zify_post_hook ::= idtac.

(** ** The tables of an arbitrary alphabet *)
Fixpoint unis (i : Z) (rs : list Z) : list (Z * Z) :=
  match rs with
  | [] => []
  | c :: r => if (0 <=? c) && (c <? 256) then unis (i + 1) r else (c, i) :: unis (i + 1) r
  end.
Lemma fill_uni rs : forall i dt ut, snd (fill_tables i rs dt ut) = ut ++ unis i rs.
Proof.
  induction rs as [|c r IH]; intros i dt ut; cbn [fill_tables unis]; [rewrite app_nil_r; reflexivity|].
  destruct ((0 <=? c) && (c <? 256)); rewrite IH; [reflexivity|]. rewrite <- app_assoc. reflexivity.
Qed.
Lemma fill_dec rs : forall i dt ut c, 0 <= c < 256 -> length dt = 256%nat ->
  (exists p, nth_error rs p = Some c /\ nth_error (fst (fill_tables i rs dt ut)) (Z.to_nat c) = Some (i + Z.of_nat p)) \/
  nth_error (fst (fill_tables i rs dt ut)) (Z.to_nat c) = nth_error dt (Z.to_nat c) /\ ~ In c rs.
Proof.
  induction rs as [|x r IH]; intros i dt ut c B L; cbn [fill_tables]; [right; split; [reflexivity|intros []]|].
  destruct ((0 <=? x) && (x <? 256)) eqn:E.
  - destruct (IH (i + 1) (set_nth dt (Z.to_nat x) i) ut c B ltac:(rewrite set_nth_length; exact L)) as [(p & N & V)|[V N]].
    + left. exists (S p). split; [exact N|]. rewrite V. f_equal. lia.
    + destruct (Z.eq_dec x c) as [->|Ne].
      * left. exists 0%nat. split; [reflexivity|]. rewrite V, set_nth_same by lia. f_equal. lia.
      * right. rewrite V, set_nth_other by lia. split; [reflexivity|]. intros [H|H]; [lia|exact (N H)].
  - destruct (IH (i + 1) dt (ut ++ [(x, i)]) c B L) as [(p & N & V)|[V N]].
    + left. exists (S p). split; [exact N|]. rewrite V. f_equal. lia.
    + right. split; [exact V|]. intros [H|H]; [lia|exact (N H)].
Qed.
Lemma unis_lookup rs c : ((0 <=? c) && (c <? 256)) = false -> In c rs -> forall i, exists p, nth_error rs p = Some c /\ uni_lookup (unis i rs) c = i + Z.of_nat p.
Proof.
  intros B. induction rs as [|x r IH]; intros I i; [contradiction|]. cbn [unis]. destruct (Z.eq_dec x c) as [->|Ne].
  - rewrite B. exists 0%nat. split; [reflexivity|]. cbn [uni_lookup]. rewrite Z.eqb_refl. lia.
  - destruct I as [I|I]; [contradiction|]. destruct (IH I (i + 1)) as (p & N & V). exists (S p). split; [exact N|].
    destruct ((0 <=? x) && (x <? 256)); [rewrite V; lia|]. cbn [uni_lookup]. replace (x =? c) with false by lia. rewrite V. lia.
Qed.
Lemma unis_nil rs : forall i, Forall (fun c => 0 <= c) rs -> (unis i rs = [] <-> Forall (fun c => c < 256) rs).
Proof.
  induction rs as [|x r IH]; intros i P; cbn [unis]; [split; [constructor|reflexivity]|]. inversion P; subst. destruct ((0 <=? x) && (x <? 256)) eqn:E.
  - rewrite IH by assumption. split; [intros F; constructor; [lia|exact F]|intros F; inversion F; assumption].
  - split; [discriminate|]. intros F. inversion F. lia.
Qed.

Section Alpha.
Variable rs : list Z.
Hypothesis L58 : length rs = 58%nat.
Hypothesis Sc : Forall scalar rs.
Lemma rs_nonneg : Forall (fun c => 0 <= c) rs.
Proof. eapply Forall_impl; [|exact Sc]. unfold scalar. cbn beta. lia. Qed.
Definition al : alphabet := let '(dt, ut) := fill_tables 0 rs (repeat (-1) 256) [] in mkAlphabet rs dt ut.
Lemma al_new : new_alphabet rs = Ok al.
Proof. unfold new_alphabet, al. replace (zlen rs =? 58) with true by (unfold zlen; lia). destruct (fill_tables 0 rs (repeat (-1) 256) []). reflexivity. Qed.
Lemma al_enc : enc_table al = rs.
Proof. unfold al. destruct (fill_tables 0 rs (repeat (-1) 256) []). reflexivity. Qed.
Lemma al_uni : uni_table al = unis 0 rs.
Proof. unfold al. pose proof (fill_uni rs 0 (repeat (-1) 256) []) as E. destruct (fill_tables 0 rs (repeat (-1) 256) []). exact E. Qed.
Lemma al_value c : In c rs -> exists p, nth_error rs p = Some c /\ rune_value al c = Ok (Z.of_nat p).
Proof.
  intros I. unfold rune_value. rewrite al_uni. destruct ((0 <=? c) && (c <? 256)) eqn:B.
  - pose proof (fill_dec rs 0 (repeat (-1) 256) [] c ltac:(lia) (repeat_length _ _)) as F. unfold al. destruct (fill_tables 0 rs (repeat (-1) 256) []) as [dt ut]. cbn [fst dec_table] in *.
    destruct F as [(p & N & V)|[_ N]]; [|contradiction]. exists p. split; [exact N|]. unfold idx. replace (c <? 0) with false by lia. rewrite V. reflexivity.
  - destruct (unis_lookup rs c B I 0) as (p & N & V). exists p. split; [exact N|]. rewrite V. reflexivity.
Qed.
Definition sy (d : Z) : Z := nth (Z.to_nat d) rs 0.
Lemma nth_sy d : 0 <= d < 58 -> nth_error rs (Z.to_nat d) = Some (sy d).
Proof. intros H. unfold sy. apply nth_error_nth'. rewrite L58. lia. Qed.
Lemma sy_scalar d : 0 <= d < 58 -> scalar (sy d).
Proof. intros H. rewrite Forall_forall in Sc. apply Sc. eapply nth_error_In. apply nth_sy. exact H. Qed.
Lemma idx_sy d : 0 <= d < 58 -> idx (enc_table al) d = Ok (sy d).
Proof. intros H. unfold idx. rewrite al_enc. replace (d <? 0) with false by lia. rewrite nth_sy by exact H. reflexivity. Qed.
Lemma lookup_all_sy ds : digits 58 ds -> lookup_all (enc_table al) ds = Ok (map sy ds).
Proof. induction 1 as [|x l H F IH]; cbn [lookup_all map]; [reflexivity|]. rewrite idx_sy by exact H. cbn [bind]. rewrite IH. reflexivity. Qed.
Definition text_of (ds : list Z) : list Z := if Nat.eqb (length (unis 0 rs)) 0 then map u8 (map sy ds) else flat_map utf8_rune (map sy ds).
Lemma encode_text input : is_bytes input -> exists ds, base58_encode al input = Ok (text_of (repeat 0 (lead0 input) ++ ds)) /\ digits 58 ds /\ hd 1 ds <> 0 /\ bval 58 ds = be_num input.
Proof.
  intros Hb. destruct (enc_digits input Hb) as (ds & k & R & D & E & V). exists (rev ds). assert (D' : digits 58 (rev ds)) by (apply Forall_rev; exact D).
  unfold base58_encode. rewrite R. cbn [bind]. rewrite firstn_app, firstn_all, Nat.sub_diag. cbn [firstn]. rewrite app_nil_r, lookup_all_sy by exact D'. cbn [bind]. rewrite idx_sy by lia. cbn [bind]. rewrite al_uni.
  split; [|split; [exact D'|split; [rewrite hd_rev_last; exact E|unfold bval; rewrite rev_involutive; exact V]]].
  unfold text_of. rewrite (map_app sy), (map_repeat sy). destruct (unis 0 rs); reflexivity.
Qed.
(** One digit. *)
Lemma encode_digit e : 0 <= e < 58 -> base58_encode al [e] = Ok (text_of [e]).
Proof.
  intros B. destruct (encode_text [e]) as (ds & E & D & Hd & V); [repeat constructor; lia|]. rewrite E. f_equal. f_equal.
  assert (BV : be_num [e] = e) by (cbn [be_num fold_left]; lia). rewrite BV in V. destruct (Z.eq_dec e 0) as [->|Ne].
  - assert (ds = []) by (apply bval_unique; [exact D|constructor|exact Hd|discriminate|rewrite V; reflexivity]). subst ds. reflexivity.
  - rewrite lead0_nz by exact Ne. cbn [repeat app]. apply bval_unique; [exact D|repeat constructor; lia|exact Hd|cbn; lia|]. rewrite V. unfold bval. cbn [rev app lval]. lia.
Qed.
Lemma utf8_same c : scalar c -> utf8_rune c = utf8 c.
Proof.
  intros S. unfold utf8_rune, utf8, scalar in *. destruct (c <? 128) eqn:C1; [replace ((0 <=? c) && true) with true by lia; reflexivity|]. rewrite andb_false_r.
  destruct (c <? 2048) eqn:C2; [replace ((0 <=? c) && true) with true by lia; reflexivity|]. rewrite andb_false_r. replace ((c <? 0) || (1114111 <? c) || ((55296 <=? c) && (c <=? 57343))) with false by lia. reflexivity.
Qed.
Lemma runes_utf8 cs : Forall scalar cs -> runes (flat_map utf8 cs) = cs.
Proof.
  intros F. unfold runes. assert (G : forall f, (length (flat_map utf8 cs) <= f)%nat -> runes_fuel f (flat_map utf8 cs) = cs); [|apply G; lia].
  induction F as [|c cs S F IH]; intros f L; [destruct f; reflexivity|]. cbn [flat_map] in *. destruct (rune_step_utf8 c (flat_map utf8 cs) S) as (b0 & r & n & U & Ln & R). rewrite U in *. cbn [app length] in *.
  destruct f as [|f]; [lia|]. rewrite rune_step_runes, R. subst n. rewrite skipn_app, skipn_all, Nat.sub_diag. cbn [skipn app]. rewrite app_length in L. rewrite IH by lia. reflexivity.
Qed.
Lemma map_scalar ds : digits 58 ds -> Forall scalar (map sy ds).
Proof. intros D. apply Forall_map. eapply Forall_impl; [|exact D]. intros d H. apply sy_scalar. exact H. Qed.
Lemma flat_map_utf8 cs : Forall scalar cs -> flat_map utf8_rune cs = flat_map utf8 cs.
Proof. induction 1 as [|c cs S F IH]; [reflexivity|]. cbn [flat_map]. rewrite utf8_same by exact S. rewrite IH. reflexivity. Qed.
(** Outside the mixed case the text consists of the symbols. *)
Definition clear : Prop := Forall (fun c => c < 128) rs \/ Exists (fun c => 256 <= c) rs.
Lemma text_runes ds : clear -> digits 58 ds -> runes (text_of ds) = map sy ds.
Proof.
  intros C D. pose proof (map_scalar ds D) as S. unfold text_of. destruct C as [A|X].
  - replace (unis 0 rs) with (@nil (Z * Z)) by (symmetry; apply unis_nil; [exact rs_nonneg|eapply Forall_impl; [|exact A]; cbn beta; lia]). cbn [length Nat.eqb].
    assert (F : Forall (fun c => 0 <= c < 128) (map sy ds)).
    { apply Forall_map. eapply Forall_impl; [|exact D]. intros d H. cbn beta. pose proof (nth_error_In _ _ (nth_sy d H)) as I. pose proof rs_nonneg as P. rewrite Forall_forall in A, P. specialize (A _ I). specialize (P _ I). cbn beta in *. lia. }
    rewrite map_u8_ascii by exact F. apply runes_ascii. exact F.
  - destruct (unis 0 rs) as [|u us] eqn:U.
    + exfalso. apply unis_nil in U; [|exact rs_nonneg]. apply Exists_exists in X. destruct X as (x & I & G). rewrite Forall_forall in U. specialize (U _ I). cbn beta in U. lia.
    + cbn [length Nat.eqb]. rewrite flat_map_utf8 by exact S. apply runes_utf8. exact S.
Qed.

(** Distinct symbols: decoding the symbols gives what the Bitcoin alphabet gives for the same digits. *)
Hypothesis ND : NoDup rs.
Lemma sy_value d : 0 <= d < 58 -> rune_value al (sy d) = Ok d.
Proof.
  intros H. destruct (al_value (sy d)) as (p & N & V); [eapply nth_error_In; apply nth_sy; exact H|]. rewrite V. f_equal. pose proof (nth_sy d H) as N'.
  assert (p = Z.to_nat d) by (apply (proj1 (NoDup_nth_error rs) ND); [apply nth_error_Some; congruence|congruence]). lia.
Qed.
Lemma sy_inj a b : 0 <= a < 58 -> 0 <= b < 58 -> sy a = sy b -> a = b.
Proof. intros Ha Hb E. pose proof (sy_value a Ha) as H. rewrite E, sy_value in H by assumption. congruence. Qed.
Definition btc_sym (d : Z) : Z := nth (Z.to_nat d) btc_alphabet_str 0.
Lemma btc_spec : al_spec btc_alphabet_str btc_alphabet.
Proof. apply new_alphabet_al; [exact btc_alphabet_ok|exact btc_alphabet_new]. Qed.
Lemma dec_loop_same ds : digits 58 ds -> forall used out, dec_loop al (map sy ds) used out = dec_loop btc_alphabet (map btc_sym ds) used out.
Proof.
  induction 1 as [|d ds H F IH]; intros used out; cbn [map dec_loop]; [reflexivity|]. rewrite sy_value by exact H. change (btc_sym d) with (sym btc_alphabet_str d). rewrite (sym_value btc_alphabet_str btc_alphabet_ok btc_alphabet btc_spec) by exact H.
  cbn [bind]. destruct (d =? -1); [reflexivity|]. destruct (dec_carry d used out) as [[o u]| |]; cbn [bind]; [apply IH|reflexivity|reflexivity].
Qed.
Lemma lead_same ds : digits 58 ds -> lead_sym (sy 0) (map sy ds) = lead_sym (btc_sym 0) (map btc_sym ds).
Proof.
  induction 1 as [|d ds H F IH]; cbn [map lead_sym]; [reflexivity|]. rewrite IH. destruct (Z.eq_dec d 0) as [->|Ne]; [rewrite !Z.eqb_refl; reflexivity|].
  replace (sy d =? sy 0) with false by (symmetry; apply Z.eqb_neq; intros E; apply Ne, sy_inj; lia).
  replace (btc_sym d =? btc_sym 0) with false; [reflexivity|]. symmetry. apply Z.eqb_neq. intros E. apply Ne. apply (sym_inj btc_alphabet_str btc_alphabet_ok btc_alphabet btc_spec); [lia|lia|exact E].
Qed.
Lemma decode_same ds : digits 58 ds -> base58_decode_runes al (map sy ds) = base58_decode_runes btc_alphabet (map btc_sym ds).
Proof.
  intros D. unfold base58_decode_runes. rewrite idx_sy by lia. change (idx (enc_table btc_alphabet) 0) with (Ok (btc_sym 0)). cbn [bind]. rewrite !map_length, dec_loop_same, lead_same by exact D. reflexivity.
Qed.
Lemma round_trip b : clear -> is_bytes b -> exists s, base58_encode al b = Ok s /\ base58_decode al s = Ok b.
Proof.
  intros C Hb. destruct (encode_text b Hb) as (ds & E & D & Hd & V). exists (text_of (repeat 0 (lead0 b) ++ ds)). split; [exact E|].
  assert (D' : digits 58 (repeat 0 (lead0 b) ++ ds)) by (apply Forall_app; split; [apply digits_repeat0|exact D]).
  unfold base58_decode. rewrite text_runes, decode_same by assumption.
  destruct (base58_encode_eq btc_alphabet_str btc_alphabet_ok btc_alphabet btc_spec b Hb) as (ds2 & E2 & D2 & Hd2 & V2). assert (ds2 = ds) by (apply bval_unique; try assumption; congruence). subst ds2.
  destruct (base58_decode_encode btc_alphabet_str btc_alphabet b btc_alphabet_ok btc_alphabet_new Hb) as (s & Es & Ds). rewrite E2 in Es. assert (s = map btc_sym (repeat 0 (lead0 b) ++ ds)) by (assert (Q : map (sym btc_alphabet_str) (repeat 0 (lead0 b) ++ ds) = s) by congruence; rewrite <- Q; reflexivity).
  subst s. unfold base58_decode in Ds. rewrite runes_ascii in Ds; [exact Ds|]. apply (map_sym_ascii btc_alphabet_str btc_alphabet_ok). exact D'.
Qed.
End Alpha.

(** ** C126 *)
(** The constructor stops the program exactly when the alphabet does not have 58 characters; it does not look for repetitions. *)
Theorem base58_alphabet_crash_iff : forall rs, new_alphabet rs = Panic <-> length rs <> 58%nat.
Proof.
  intros rs. unfold new_alphabet. destruct (zlen rs =? 58) eqn:E; unfold zlen in E.
  - destruct (fill_tables 0 rs (repeat (-1) 256) []). split; [discriminate|lia].
  - split; [lia|reflexivity].
Qed.
(** With 58 characters (Unicode scalar values, as a Go string gives them) every byte string survives encoding and decoding exactly
    when the characters are distinct and, if any of them is outside ASCII, some character is beyond U+00FF. With characters between
    U+0080 and U+00FF as the only ones outside ASCII the text is not valid UTF-8 and does not decode. *)
Theorem base58_custom_alphabet_iff : forall rs al, new_alphabet rs = Ok al -> Forall scalar rs ->
  ((forall b, is_bytes b -> exists s, base58_encode al b = Ok s /\ base58_decode al s = Ok b) <->
   NoDup rs /\ (Forall (fun c => c < 128) rs \/ Exists (fun c => 256 <= c) rs)).
Proof.
  intros rs al0 A Sc. assert (L : length rs = 58%nat) by (destruct (Nat.eq_dec (length rs) 58) as [|N]; [assumption|]; apply base58_alphabet_crash_iff in N; congruence).
  rewrite (al_new rs L) in A. assert (Ea : al0 = al rs) by congruence. subst al0. clear A. split.
  - intros RT. split.
    + apply NoDup_nth_error. intros i j Hi E. assert (Hj : (j < length rs)%nat) by (apply nth_error_Some; rewrite <- E; apply nth_error_Some; exact Hi).
      destruct (RT [Z.of_nat i]) as (s & Es & Ds); [repeat constructor; lia|]. destruct (RT [Z.of_nat j]) as (s' & Es' & Ds'); [repeat constructor; lia|].
      rewrite (encode_digit rs L) in Es, Es' by lia. assert (T : text_of rs [Z.of_nat i] = text_of rs [Z.of_nat j]).
      { unfold text_of. cbn [map]. assert (Y : sy rs (Z.of_nat i) = sy rs (Z.of_nat j)); [|rewrite Y; reflexivity]. pose proof (nth_sy rs L (Z.of_nat i) ltac:(lia)) as N1. pose proof (nth_sy rs L (Z.of_nat j) ltac:(lia)) as N2. rewrite Nat2Z.id in N1, N2. congruence. }
      assert (s = s') by congruence. subst s'. assert (Q : [Z.of_nat i] = [Z.of_nat j]) by congruence. assert (Z.of_nat i = Z.of_nat j) by congruence. lia.
    + destruct (Exists_dec (fun c => 256 <= c) rs) as [X|X]; [intros c; apply Z_le_dec|right; exact X|]. left.
      assert (U : unis 0 rs = []).
      { apply unis_nil; [exact (rs_nonneg rs L Sc)|]. apply Forall_forall. intros c I. destruct (Z.leb_spec 256 c) as [G|G]; [|exact G]. exfalso. apply X. apply Exists_exists. exists c. split; assumption. }
      apply Forall_forall. intros c I. destruct (Z.leb_spec 128 c) as [G|G]; [exfalso|exact G].
      assert (B : c < 256) by (pose proof (proj1 (unis_nil rs 0 (rs_nonneg rs L Sc)) U) as F; rewrite Forall_forall in F; exact (F c I)).
      destruct (In_nth_error _ _ I) as (e & N). assert (He : (e < 58)%nat) by (rewrite <- L; apply nth_error_Some; congruence).
      destruct (RT [Z.of_nat e]) as (s & Es & Ds); [repeat constructor; lia|]. rewrite (encode_digit rs L) in Es by lia. assert (s = text_of rs [Z.of_nat e]) by congruence. subst s.
      unfold text_of in Ds. rewrite U in Ds. cbn [length Nat.eqb map] in Ds. pose proof (nth_sy rs L (Z.of_nat e) ltac:(lia)) as N1. rewrite Nat2Z.id in N1. assert (Y : sy rs (Z.of_nat e) = c) by congruence. rewrite Y in Ds.
      unfold u8 in Ds. rewrite Z.mod_small in Ds by lia. unfold base58_decode, runes in Ds. cbn [length] in Ds. rewrite rune_step_runes in Ds.
      assert (R : rune_step c [] = (65533, 0%nat)). { unfold rune_step. replace (c <? 128) with false by lia. destruct (_ && _); [reflexivity|]. destruct (_ && _); [reflexivity|]. destruct (_ && _); reflexivity. }
      rewrite R in Ds. cbn [runes_fuel] in Ds. unfold base58_decode_runes in Ds. rewrite (idx_sy rs L) in Ds by lia. cbn [bind dec_loop skipn] in Ds. unfold rune_value in Ds. replace ((0 <=? 65533) && (65533 <? 256)) with false in Ds by reflexivity.
      rewrite al_uni, U in Ds. cbn [uni_lookup bind] in Ds. discriminate Ds.
  - intros (ND & C) b Hb. apply (round_trip rs L Sc ND b C Hb).
Qed.

(** ** The hypotheses can be met *)
Definition greek : list Z := map (fun n => 900 + Z.of_nat n) (seq 1 58).
Definition latin : list Z := map (fun n => 160 + Z.of_nat n) (seq 1 58).
Lemma nodup_map_add k l : NoDup l -> NoDup (map (fun n => k + Z.of_nat n) l).
Proof. intros H. apply Injective_map_NoDup; [intros a b E; lia|exact H]. Qed.
Example greek_works : exists al, new_alphabet greek = Ok al /\ forall b, is_bytes b -> exists s, base58_encode al b = Ok s /\ base58_decode al s = Ok b.
Proof.
  eexists. split; [apply al_new; reflexivity|]. apply base58_custom_alphabet_iff with (rs := greek); [apply al_new; reflexivity|unfold greek; apply Forall_map, Forall_forall; intros n I; apply List.in_seq in I; unfold scalar; lia|].
  split; [apply nodup_map_add, seq_NoDup|right; left; cbn; lia].
Qed.
Example latin_fails : exists al, new_alphabet latin = Ok al /\ ~ forall b, is_bytes b -> exists s, base58_encode al b = Ok s /\ base58_decode al s = Ok b.
Proof.
  eexists. split; [apply al_new; reflexivity|]. intros RT. apply base58_custom_alphabet_iff with (rs := latin) in RT; [|apply al_new; reflexivity|unfold latin; apply Forall_map, Forall_forall; intros n I; apply List.in_seq in I; unfold scalar; lia].
  destruct RT as [_ [A|X]]; [inversion A; lia|]. apply Exists_exists in X. destruct X as (x & I & G). unfold latin in I. apply in_map_iff in I. destruct I as (n & E & I). apply List.in_seq in I. lia.
Qed.
Print Assumptions base58_alphabet_crash_iff.
Print Assumptions base58_custom_alphabet_iff.
