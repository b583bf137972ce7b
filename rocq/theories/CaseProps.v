(** Property C139: which texts the decoder of bech32m (Chia) addresses accepts, over all byte strings. *)
From Coq Require Import String ZArith List Bool Lia ZifyBool ZifyNat.
From Verif Require Import Go GoFacts GoFacts2 Base58Spec Base58Model Base58Proofs Bech32Spec PolymodProofs PolymodFree Bech32Model Bech32Proofs Bech32Text
  Bech32mModel ConvertBitsProofs Bech32mProofs Bech32mProps GoJson Json GoUnjson GoUnjsonFacts JsonGrammarProps AddressProfiles AddressModel CaseModel.
Import ListNotations.
Open Scope Z_scope.
Ltac Zify.zify_post_hook ::= idtac.

(** ** Specification *)
(** What the Unicode tables of Go say: ASCII letters as usual; the only other characters with a lower case in ASCII are the Kelvin sign
    U+212A (k) and the capital I with dot U+0130 (i); the only other ones with an upper case in ASCII are the long s U+017F (S) and the
    dotless i U+0131 (I). The first two are their own upper case. *)
Definition unicode_lower (f : Z -> Z) : Prop :=
  (forall c, 0 <= c < 128 -> f c = if (65 <=? c) && (c <=? 90) then c + 32 else c) /\ f 0x212A = 107 /\ f 0x130 = 105 /\
  forall c, 128 <= c -> c <> 0x212A -> c <> 0x130 -> 128 <= f c.
Definition unicode_upper (f : Z -> Z) : Prop :=
  (forall c, 0 <= c < 128 -> f c = if (97 <=? c) && (c <=? 122) then c - 32 else c) /\ f 0x17F = 83 /\ f 0x131 = 73 /\ f 0x212A = 0x212A /\ f 0x130 = 0x130 /\
  forall c, 128 <= c -> c <> 0x17F -> c <> 0x131 -> 128 <= f c.
(** [s] is the lower-case text [t] itself, or [t] in capitals, where K may be the Kelvin sign and I the capital I with dot. *)
Definition capital (c c' : Z) : Prop := c' = (if (97 <=? c) && (c <=? 122) then c - 32 else c) \/ (c = 107 /\ c' = 0x212A) \/ (c = 105 /\ c' = 0x130).
Definition written (t s : list Z) : Prop := s = t \/ exists cs, Forall2 capital t cs /\ s = flat_map utf8 cs.

(** ** Texts and characters *)
Lemma runes_valid s : is_bytes s -> ~ In 65533 (runes s) -> s = flat_map utf8 (runes s) /\ Forall scalar (runes s).
Proof.
  unfold runes. assert (G : forall f s, (length s <= f)%nat -> is_bytes s -> ~ In 65533 (runes_fuel f s) -> s = flat_map utf8 (runes_fuel f s) /\ Forall scalar (runes_fuel f s)); [|intros B N; apply G; [lia|exact B|exact N]].
  induction f as [|f IH]; intros t L B N; [destruct t; [split; constructor|cbn in L; lia]|]. destruct t as [|b0 r]; [split; constructor|].
  rewrite rune_step_runes in *. destruct (rune_step b0 r) as [c n] eqn:R. cbn [length] in L. apply is_bytes_cons in B as [B0 Br].
  assert (Bs : is_bytes (skipn n r)) by (rewrite <- (firstn_skipn n r) in Br; apply is_bytes_app in Br; apply Br).
  destruct (IH (skipn n r)) as [E F]; [rewrite skipn_length; lia|exact Bs|intros I; apply N; right; exact I|].
  destruct (Z_lt_dec b0 128) as [A|A].
  - assert (Q : c = b0 /\ n = 0%nat) by (unfold rune_step in R; replace (b0 <? 128) with true in R by lia; split; congruence). destruct Q as [-> ->]. cbn [skipn] in *. cbn [flat_map]. rewrite <- E. split; [|constructor; [unfold scalar, is_byte in *; lia|exact F]].
    unfold utf8. replace (b0 <? 128) with true by lia. reflexivity.
  - destruct (rune_step_ok b0 r c n ltac:(unfold is_byte in B0; lia) R) as [[-> ->]|(U & _ & _ & S & _)]; [exfalso; apply N; left; reflexivity|]. cbn [flat_map]. rewrite <- E, <- U. cbn [app]. rewrite firstn_skipn. split; [reflexivity|constructor; assumption].
Qed.
Lemma runes_of cs : Forall scalar cs -> runes (flat_map utf8 cs) = cs.
Proof.
  intros F. unfold runes. assert (G : forall f, (length (flat_map utf8 cs) <= f)%nat -> runes_fuel f (flat_map utf8 cs) = cs); [|apply G; lia].
  induction F as [|c cs S F IH]; intros f L; [destruct f; reflexivity|]. cbn [flat_map] in *. destruct (rune_step_utf8 c (flat_map utf8 cs) S) as (b0 & r & n & U & Ln & R). rewrite U in *. cbn [app length] in *.
  destruct f as [|f]; [lia|]. rewrite rune_step_runes, R. subst n. rewrite skipn_app, skipn_all, Nat.sub_diag. cbn [skipn app]. rewrite app_length in L. rewrite IH by lia. reflexivity.
Qed.
Lemma utf8_rune_high c : ~ 0 <= c < 128 -> Exists (fun b => 128 <= b) (utf8_rune c).
Proof.
  intros N. unfold utf8_rune. replace ((0 <=? c) && (c <? 128)) with false by lia. destruct ((0 <=? c) && (c <? 2048)) eqn:A.
  { constructor. pose proof (Z.div_pos c 64 ltac:(lia) ltac:(lia)). lia. }
  destruct (_ || _ || _) eqn:B; [constructor; lia|]. destruct (c <? 65536); constructor; [pose proof (Z.div_pos c 4096 ltac:(lia) ltac:(lia))|pose proof (Z.div_pos c 262144 ltac:(lia) ltac:(lia))]; lia.
Qed.
(** Only ASCII comes out when every character is ASCII. *)
Lemma utf8_low l : Forall (fun b => b < 128) (flat_map utf8_rune l) -> Forall (fun c => 0 <= c < 128) l /\ flat_map utf8_rune l = l.
Proof.
  induction l as [|c l IH]; intros F; [split; constructor|]. cbn [flat_map] in *. apply Forall_app in F as [F1 F2]. destruct (IH F2) as [G E].
  assert (C : 0 <= c < 128). { destruct (Z_le_dec 0 c), (Z_lt_dec c 128); try lia; exfalso; pose proof (utf8_rune_high c ltac:(lia)) as X; apply Exists_exists in X as (b & I & Hb); rewrite Forall_forall in F1; specialize (F1 b I); cbn beta in *; lia. }
  split; [constructor; assumption|]. rewrite E. unfold utf8_rune. replace ((0 <=? c) && (c <? 128)) with true by lia. reflexivity.
Qed.
Lemma utf8_ascii l : Forall (fun c => 0 <= c < 128) l -> flat_map utf8_rune l = l /\ flat_map utf8 l = l.
Proof.
  induction 1 as [|c l C F [IH1 IH2]]; [split; reflexivity|]. cbn [flat_map]. rewrite IH1, IH2. unfold utf8_rune, utf8. replace (c <? 128) with true by lia. replace ((0 <=? c) && true) with true by lia. split; reflexivity.
Qed.

Section Case.
Variable lower upper : Z -> Z.
Hypothesis Lo : unicode_lower lower.
Hypothesis Up : unicode_upper upper.

Lemma lower_ascii c : 0 <= c < 128 -> lower c = lower_char c.
Proof. intros H. rewrite (proj1 Lo) by exact H. reflexivity. Qed.
Lemma upper_ascii c : 0 <= c < 128 -> upper c = upper_char c.
Proof. intros H. rewrite (proj1 Up) by exact H. reflexivity. Qed.
Lemma lower_char_ascii c : 0 <= c < 128 -> 0 <= lower_char c < 128.
Proof. intros H. unfold lower_char. destruct (_ && _) eqn:E; lia. Qed.
Lemma upper_char_ascii c : 0 <= c < 128 -> 0 <= upper_char c < 128.
Proof. intros H. unfold upper_char. destruct (_ && _) eqn:E; lia. Qed.
Lemma strings_lower_ascii s : is_ascii s -> strings_map lower s = to_lower s.
Proof.
  intros A. unfold strings_map, to_lower. rewrite runes_ascii by exact A. assert (E : map lower s = map lower_char s) by (apply map_ext_in; intros c I; unfold is_ascii in A; rewrite Forall_forall in A; apply lower_ascii, A, I).
  rewrite E. apply utf8_ascii. apply Forall_map. eapply Forall_impl; [|exact A]. intros c. apply lower_char_ascii.
Qed.
Lemma strings_upper_ascii s : is_ascii s -> strings_map upper s = to_upper s.
Proof.
  intros A. unfold strings_map, to_upper. rewrite runes_ascii by exact A. assert (E : map upper s = map upper_char s) by (apply map_ext_in; intros c I; unfold is_ascii in A; rewrite Forall_forall in A; apply upper_ascii, A, I).
  rewrite E. apply utf8_ascii. apply Forall_map. eapply Forall_impl; [|exact A]. intros c. apply upper_char_ascii.
Qed.
(** The characters whose lower case is ASCII. *)
Lemma lower_low c : 0 <= lower c < 128 -> 0 <= c -> (0 <= c < 128 /\ lower c = lower_char c) \/ (c = 0x212A /\ lower c = 107) \/ (c = 0x130 /\ lower c = 105).
Proof.
  intros H N. destruct Lo as (_ & K & I & O). destruct (Z_lt_dec c 128) as [L|L]; [left; split; [lia|apply lower_ascii; lia]|]. destruct (Z.eq_dec c 0x212A) as [->|N1]; [auto|]. destruct (Z.eq_dec c 0x130) as [->|N2]; [auto|]. specialize (O c ltac:(lia) N1 N2). lia.
Qed.
(** ** The case check and the lowered text *)
Definition no_capitals (t : list Z) : Prop := Forall (fun c => 0 <= c < 128 /\ ~ 65 <= c <= 90) t.
Lemma no_capitals_lower t : no_capitals t -> to_lower t = t.
Proof. unfold to_lower. induction 1 as [|c t C F IH]; [reflexivity|]. cbn [map]. rewrite IH. unfold lower_char. replace ((65 <=? c) && (c <=? 90)) with false by lia. reflexivity. Qed.
Lemma no_capitals_ascii t : no_capitals t -> is_ascii t.
Proof. intros F. eapply Forall_impl; [|exact F]. cbn beta. intros; lia. Qed.
(** A text of ASCII characters that passes the check is written in one of the two ways. *)
Lemma passes_written s t : is_bytes s -> Forall (fun b => b < 128) t ->
  (strings_map lower s = t /\ (strings_map lower s = s \/ strings_map upper s = s) <-> no_capitals t /\ written t s).
Proof.
  intros B Lt. split.
  - intros [El Q]. assert (Lw : Forall (fun b => b < 128) (flat_map utf8_rune (map lower (runes s)))) by (fold (strings_map lower s); rewrite El; exact Lt). apply utf8_low in Lw as [Fl Fe]. apply (proj1 (Forall_map _ _ _)) in Fl.
    assert (Et : t = map lower (runes s)) by (rewrite <- El; exact Fe).
    assert (NB : ~ In 65533 (runes s)). { intros I. rewrite Forall_forall in Fl. specialize (Fl _ I). cbn beta in Fl. destruct Lo as (_ & _ & _ & O). specialize (O 65533 ltac:(lia) ltac:(lia) ltac:(lia)). lia. }
    destruct (runes_valid s B NB) as [Es Sc].
    assert (Fc : Forall (fun c => (0 <= c < 128 /\ lower c = lower_char c) \/ (c = 0x212A /\ lower c = 107) \/ (c = 0x130 /\ lower c = 105)) (runes s)).
    { rewrite Forall_forall in *. intros c I. apply lower_low; [apply Fl, I|]. specialize (Sc c I). unfold scalar in Sc. lia. }
    split. { rewrite Et. unfold no_capitals. apply Forall_map. eapply Forall_impl; [|exact Fc]. cbn beta. intros c [[A ->]|[[_ ->]|[_ ->]]]; [|lia|lia]. unfold lower_char. destruct (_ && _) eqn:E; lia. }
    destruct Q as [Q|Q]; [left; congruence|]. right. exists (runes s). split; [|exact Es]. rewrite Et.
    assert (Ur : Forall (fun c => upper c = c) (runes s)).
    { assert (V : Forall (fun c => scalar c) (map upper (runes s)) /\ map upper (runes s) = runes s).
      { assert (Fu : Forall (fun c => scalar (upper c)) (runes s)). { eapply Forall_impl; [|exact Fc]. cbn beta. intros c [[A _]|[[-> _]|[-> _]]]; [rewrite upper_ascii by exact A; pose proof (upper_char_ascii c A); unfold scalar; lia| |]; destruct Up as (_ & _ & _ & K & I & _); [rewrite K|rewrite I]; unfold scalar; lia. }
        split; [apply Forall_map; exact Fu|]. apply (f_equal runes) in Q. unfold strings_map in Q.
        assert (R : flat_map utf8_rune (map upper (runes s)) = flat_map utf8 (map upper (runes s))). { clear - Fu. induction Fu as [|c l S F IH]; [reflexivity|]. cbn [map flat_map]. rewrite IH, utf8_rune_scalar by exact S. reflexivity. }
        rewrite R in Q. rewrite runes_of in Q by (apply Forall_map; exact Fu). exact Q. }
      destruct V as [_ V]. clear - V. induction (runes s) as [|c l IH]; [constructor|]. cbn [map] in V. injection V as V1 V2. constructor; [exact V1|apply IH, V2]. }
    clear - Fc Ur Up. revert Ur. induction Fc as [|c l C F IH]; intros Ur; [constructor|]. inversion Ur as [|? ? U1 U2]; subst. cbn [map]. constructor; [|apply IH; exact U2].
    destruct C as [[A ->]|[[-> ->]|[-> ->]]]; unfold capital; [|auto|auto]. left. rewrite upper_ascii in U1 by exact A. unfold upper_char, lower_char in *. destruct ((97 <=? c) && (c <=? 122)) eqn:E1; [lia|]. destruct ((65 <=? c) && (c <=? 90)) eqn:E2; [replace (_ && _) with true by lia; lia|rewrite E1; reflexivity].
  - intros [N W]. destruct W as [->|(cs & F & ->)].
    + rewrite strings_lower_ascii by (apply no_capitals_ascii; exact N). rewrite no_capitals_lower by exact N. auto.
    + assert (Fc : Forall (fun c => scalar c /\ upper c = c) cs /\ map lower cs = t).
      { clear Lt. revert N. induction F as [|c c' t cs C F IH]; intros N; [split; constructor|]. inversion N as [|? ? [N1 N2] N3]; subst. destruct (IH ltac:(cbn [flat_map] in B; apply is_bytes_app in B; apply B) N3) as [G E].
        cbn [map]. rewrite E. destruct Lo as (_ & LK & LI & _). destruct Up as (_ & _ & _ & UK & UI & _). destruct C as [->|[[-> ->]|[-> ->]]].
        - set (d := if (97 <=? c) && (c <=? 122) then c - 32 else c). assert (D : 0 <= d < 128) by (unfold d; destruct (_ && _) eqn:X; lia). split; [constructor; [split; [unfold scalar; lia|]|exact G]|].
          + rewrite upper_ascii by exact D. unfold upper_char, d. destruct ((97 <=? c) && (c <=? 122)) eqn:X; [replace (_ && _) with false by lia; reflexivity|rewrite X; reflexivity].
          + f_equal. rewrite lower_ascii by exact D. unfold lower_char, d. destruct ((97 <=? c) && (c <=? 122)) eqn:X; [replace (_ && _) with true by lia; lia|]. replace (_ && _) with false by lia. reflexivity.
        - rewrite LK. split; [constructor; [split; [unfold scalar; lia|exact UK]|exact G]|reflexivity].
        - rewrite LI. split; [constructor; [split; [unfold scalar; lia|exact UI]|exact G]|reflexivity]. }
      destruct Fc as [G E]. assert (S : Forall scalar cs) by (eapply Forall_impl; [|exact G]; cbn beta; tauto).
      unfold strings_map. rewrite runes_of by exact S. rewrite E. split; [apply utf8_ascii, no_capitals_ascii, N|]. right.
      assert (M : map upper cs = cs) by (rewrite <- map_id; apply map_ext_in; intros c I; rewrite Forall_forall in G; apply G, I). rewrite M. clear - S. induction S as [|c l S F IH]; [reflexivity|]. cbn [flat_map]. rewrite IH, utf8_rune_scalar by exact S. reflexivity.
Qed.

(** ** The decoder *)
Lemma bm_lowered_inv t h d spec : bm_lowered t bech32_alphabet = Ok (h, d, spec) ->
  h <> [] /\ Forall (fun c => 33 <= c <= 126) h /\ exists cs, Forall d5 (d ++ cs) /\ length cs = 6%nat /\ t = text h (d ++ cs) /\ pm_polymod (hrp_expand h ++ (d ++ cs)) = vconst spec.
Proof.
  unfold bm_lowered. cbv zeta. destruct (last_index 49 t <? 1) eqn:E1; [discriminate|]. destruct (zlen t <? last_index 49 t + 7) eqn:E2; [discriminate|].
  intros E. destruct (last_index_inv 49 t ltac:(lia)) as (a & b & -> & La). rewrite <- La in E, E1, E2. rewrite (slice_pre a) in E by reflexivity. cbn [bind] in E.
  destruct (existsb _ a) eqn:Ex; [discriminate|]. rewrite skipn_hrp in E. apply bind_ok in E. destruct E as (ds & Ed & E). apply chars_digits_inv in Ed. destruct Ed as [Dd ->].
  assert (Lds : (6 <= length ds)%nat) by (rewrite zlen_app, zlen_cons, zlen_map in E2; unfold zlen in E2; lia).
  destruct (bm_verify a ds) as [sp|] eqn:Ev; [|discriminate]. apply bind_ok in E. destruct E as (d' & Es & E). assert (a = h) by congruence. assert (d' = d) by congruence. assert (sp = spec) by congruence. subst a d' sp.
  apply slice_ok in Es. destruct Es as (_ & _ & p & c & Eds & Lp & Ld). apply zlen_0 in Lp. subst p. cbn [app] in Eds. subst ds.
  split; [intros ->; discriminate E1|]. split; [apply Forall_forall; intros x I; destruct (Z_le_dec 33 x), (Z_le_dec x 126); try lia; exfalso; assert (X : existsb (fun c => (c <? 33) || (126 <? c)) h = true) by (apply existsb_exists; exists x; split; [exact I|lia]); congruence|].
  exists c. split; [exact Dd|]. split; [rewrite zlen_app in Ld; unfold zlen in Ld; lia|]. split; [reflexivity|].
  unfold bm_verify in Ev. cbv zeta in Ev. destruct (Z.eqb_spec (pm_polymod (hrp_expand h ++ d ++ c)) 1) as [Q|Q]; [assert (spec = Bech32) by congruence; subst; exact Q|].
  destruct (Z.eqb_spec (pm_polymod (hrp_expand h ++ d ++ c)) bech32m_const) as [Q'|Q']; [assert (spec = Bech32m) by congruence; subst; exact Q'|discriminate].
Qed.
Lemma bsyms_low ds : Forall d5 ds -> no_capitals (map bsym ds).
Proof.
  intros F. unfold no_capitals. apply Forall_map. eapply Forall_impl; [|exact F]. cbn beta. intros d Hd. destruct (bsym_facts2 d Hd) as (_ & L & R & _). split; [lia|]. intros C. unfold lower_char in L. replace ((65 <=? bsym d) && (bsym d <=? 90)) with true in L by lia. lia.
Qed.
Lemma text_low h ds : hrp_ok h -> Forall d5 ds -> no_capitals (text h ds).
Proof.
  intros [_ Hh] Hd. unfold text. apply Forall_app. split; [eapply Forall_impl; [|exact Hh]; cbn beta; intros; lia|]. constructor; [lia|]. apply bsyms_low. exact Hd.
Qed.
Lemma bm_lowered_text h d spec : hrp_ok h -> Forall d5 d -> bm_lowered (text h (d ++ bm_checksum h d spec)) bech32_alphabet = Ok (h, d, spec).
Proof.
  intros [Hn Hh] Hd. set (ds := d ++ bm_checksum h d spec). assert (Hc : Forall d5 (bm_checksum h d spec)) by (rewrite bm_checksum_digits; apply digits6_range). assert (Hds : Forall d5 ds) by (apply Forall_app; split; assumption).
  assert (Hz : 0 < zlen h) by (destruct h; [congruence|]; rewrite zlen_cons; pose proof (zlen_nonneg h); lia). unfold bm_lowered, text. cbv zeta. cbn [app]. rewrite last_index_mid by (apply no_one; exact Hds).
  replace (zlen h <? 1) with false by lia. assert (L : zlen ds = zlen d + 6) by (unfold ds; rewrite zlen_app; reflexivity). rewrite zlen_app, zlen_cons, zlen_map, L. pose proof (zlen_nonneg d). replace (_ <? _) with false by lia.
  rewrite (slice_pre h) by reflexivity. cbn [bind]. rewrite existsb_hrp by exact Hh. rewrite skipn_hrp, chars_digits by exact Hds. cbn [bind]. unfold ds. rewrite bm_verify_checksum by assumption. rewrite slice_digits by reflexivity. reflexivity.
Qed.
Lemma beq_iff (a b : list Z) : beq a b = true <-> a = b.
Proof. split; [apply beq_eq|intros ->; apply beq_refl]. Qed.
Lemma capital_longer t cs : Forall2 capital t cs -> zlen t <= zlen (flat_map utf8 cs).
Proof.
  induction 1 as [|c c' t cs C F IH]; [reflexivity|]. cbn [flat_map]. rewrite zlen_cons, zlen_app. assert (1 <= zlen (utf8 c')); [|lia]. unfold utf8. destruct (c' <? 128); [reflexivity|]. destruct (c' <? 2048); [cbv; discriminate|]. destruct (c' <? 65536); cbv; discriminate.
Qed.
Lemma uni_bm_decode_exact s h d spec : is_bytes s ->
  (uni_bm_decode lower upper s bech32_alphabet = Ok (h, d, spec) <->
   hrp_ok h /\ Forall d5 d /\ zlen s <= 90 /\ written (text h (d ++ bm_checksum h d spec)) s).
Proof.
  intros B. unfold uni_bm_decode. split.
  - destruct (90 <? zlen s) eqn:L; [discriminate|]. destruct (negb _ && negb _) eqn:C; [discriminate|]. intros E. destruct (bm_lowered_inv _ _ _ _ E) as (Hn & Hh & cs & Fd & Lc & Et & Pv).
    assert (Q : strings_map lower s = s \/ strings_map upper s = s) by (destruct (beq (strings_map lower s) s) eqn:X; [left; apply beq_eq; exact X|]; destruct (beq (strings_map upper s) s) eqn:Y; [right; apply beq_eq; exact Y|discriminate]).
    assert (T7 : Forall (fun b => b < 128) (text h (d ++ cs))).
    { unfold text. apply Forall_app. split; [eapply Forall_impl; [|exact Hh]; cbn beta; intros; lia|]. constructor; [lia|]. eapply Forall_impl; [|apply bsyms_low; exact Fd]. cbn beta. intros; lia. }
    destruct (proj1 (passes_written s (text h (d ++ cs)) B T7) (conj Et Q)) as [N W].
    assert (Hk : hrp_ok h). { split; [exact Hn|]. unfold text, no_capitals in N. apply Forall_app in N as [N _]. rewrite Forall_forall in *. intros c I. specialize (N c I). specialize (Hh c I). cbn beta in *. tauto. }
    apply Forall_app in Fd as [Fd Fc]. assert (cs = bm_checksum h d spec) by (apply checksum_unique; try assumption; apply Hk). subst cs. split; [exact Hk|]. split; [exact Fd|]. split; [lia|exact W].
  - intros (Hk & Fd & L & W). replace (90 <? zlen s) with false by lia.
    assert (Fc : Forall d5 (d ++ bm_checksum h d spec)) by (apply Forall_app; split; [exact Fd|rewrite bm_checksum_digits; apply digits6_range]). pose proof (text_low h _ Hk Fc) as N.
    destruct (proj2 (passes_written s (text h (d ++ bm_checksum h d spec)) B ltac:(eapply Forall_impl; [|exact N]; cbn beta; intros; lia)) (conj N W)) as [El Q].
    replace (negb (beq (strings_map lower s) s) && negb (beq (strings_map upper s) s)) with false by (destruct Q as [Q|Q]; apply beq_iff in Q; rewrite Q; [reflexivity|apply eq_sym, andb_false_r]).
    rewrite El. apply bm_lowered_text; assumption.
Qed.
Lemma bm_lowered_no_panic t : bm_lowered t bech32_alphabet <> Panic.
Proof.
  unfold bm_lowered. cbv zeta. destruct (last_index 49 t <? 1) eqn:E1; [discriminate|]. destruct (zlen t <? last_index 49 t + 7) eqn:E2; [discriminate|].
  destruct (last_index_inv 49 t ltac:(lia)) as (a & b & -> & La). rewrite <- La in *. rewrite (slice_pre a) by reflexivity. cbn [bind]. destruct (existsb _ a); [discriminate|]. rewrite skipn_hrp.
  destruct (chars_to_digits bech32_alphabet b) as [ds| |] eqn:Ed; cbn [bind]; [|discriminate|exfalso; eapply chars_not_panic; exact Ed]. destruct (bm_verify a ds); [|discriminate].
  apply chars_digits_inv in Ed as [_ ->]. rewrite zlen_app, zlen_cons, zlen_map in E2. rewrite <- (firstn_skipn (length ds - 6) ds). rewrite slice_digits by (rewrite skipn_length; unfold zlen in E2; lia). discriminate.
Qed.
End Case.

(** ** C139 *)
(** The decoder of bech32 and bech32m texts: exactly the texts of the encoder, in lower case or in capitals (with the two further
    characters), of at most 90 bytes. *)
Theorem uni_bech32m_text_iff : forall lower upper, unicode_lower lower -> unicode_upper upper -> forall s h d spec, is_bytes s ->
  (uni_bm_decode lower upper s bech32_alphabet = Ok (h, d, spec) <->
   hrp_ok h /\ Forall (fun v => 0 <= v < 32) d /\ zlen s <= 90 /\ exists t, bm_encode h d spec bech32_alphabet = Ok t /\ written t s).
Proof.
  intros lower upper Lo Up s h d spec B. rewrite (uni_bm_decode_exact lower upper Lo Up s h d spec B). split.
  - intros (Hk & Fd & L & W). split; [exact Hk|]. split; [exact Fd|]. split; [exact L|]. eexists. split; [apply bm_encode_text; exact Fd|exact W].
  - intros (Hk & Fd & L & t & E & W). rewrite bm_encode_text in E by exact Fd. injection E as <-. auto.
Qed.
Lemma convertbits_nil ds : Forall d5 ds -> convertbits ds 5 8 false = Ok [] -> ds = [].
Proof. intros F E. apply convertbits_accepted_canonical in E as [_ E]; [|exact F]. change (convertbits [] 8 5 true) with (@Ok (list Z) []) in E. congruence. Qed.
Lemma xch_ok : hrp_ok (str "xch").
Proof. split; [discriminate|]. change (str "xch") with [120; 99; 104]. repeat (apply Forall_cons; [lia|]). apply Forall_nil. Qed.
(** AddressDecode with the Chia profile gives some bytes exactly for the text AddressEncode writes for them, so written. *)
Theorem chia_decode_iff : forall lower upper, unicode_lower lower -> unicode_upper upper -> forall H s d, is_bytes s -> d <> [] ->
  (uni_address_decode lower upper H s XCH_mainnetAddress = Ok d <->
   is_bytes d /\ zlen s <= 90 /\ exists t, address_encode H d XCH_mainnetAddress = Ok t /\ written t s).
Proof.
  intros lower upper Lo Up H s d B Nd. unfold uni_address_decode, address_encode. change (beq (encode_type XCH_mainnetAddress) (str "bech32m")) with true. cbv iota.
  change (alphabet_of XCH_mainnetAddress) with bech32_alphabet. change (checksum_type XCH_mainnetAddress) with (str "xch"). unfold uni_bech32m_decode, bech32m_encode. split.
  - intros E. apply bind_ok in E as (r & E & Er). apply bind_ok in E as ([[h ds] spec] & E & Ek). apply (uni_bm_decode_exact lower upper Lo Up s h ds spec B) in E as (Hk & Fd & L & W).
    destruct (beq h (str "xch")) eqn:Q; cbn [negb] in Ek; [|injection Ek as <-; congruence]. apply beq_eq in Q. subst h. destruct spec; [injection Ek as <-; congruence|]. apply bind_ok in Ek as (d' & Ec & Ek). injection Ek as <-. injection Er as ->.
    destruct (convertbits_accepted_canonical ds d Fd Ec) as [Bd Eb]. split; [exact Bd|]. split; [exact L|]. eexists. split; [rewrite Eb; cbn [bind]; rewrite bm_encode_text by exact Fd; reflexivity|exact W].
  - intros (Bd & L & t & E & W). destruct (convertbits_roundtrip d Bd) as (out & E1 & E2). destruct (convertbits_8_5_value d Bd) as (out' & p & E1' & _ & _ & _ & D & _). assert (out' = out) by congruence. subst out'.
    rewrite E1 in E. cbn [bind] in E. rewrite bm_encode_text in E by exact D. injection E as <-.
    rewrite (proj2 (uni_bm_decode_exact lower upper Lo Up s (str "xch") out Bech32m B)) by (split; [exact xch_ok|]; split; [exact D|]; split; [exact L|exact W]). cbn [bind]. rewrite beq_refl. cbn [negb]. rewrite E2. reflexivity.
Qed.
(** It gives no bytes and no error exactly for texts of another prefix, for texts with the older checksum and for the text of no bytes. *)
Theorem chia_decode_nothing_iff : forall lower upper, unicode_lower lower -> unicode_upper upper -> forall H s, is_bytes s ->
  (uni_address_decode lower upper H s XCH_mainnetAddress = Ok [] <->
   zlen s <= 90 /\ exists h d spec t, hrp_ok h /\ Forall (fun v => 0 <= v < 32) d /\ bm_encode h d spec bech32_alphabet = Ok t /\ written t s /\ (h <> str "xch" \/ spec = Bech32 \/ d = [])).
Proof.
  intros lower upper Lo Up H s B. unfold uni_address_decode. change (beq (encode_type XCH_mainnetAddress) (str "bech32m")) with true. cbv iota.
  change (alphabet_of XCH_mainnetAddress) with bech32_alphabet. change (checksum_type XCH_mainnetAddress) with (str "xch"). unfold uni_bech32m_decode. split.
  - intros E. apply bind_ok in E as (r & E & Er). apply bind_ok in E as ([[h ds] spec] & E & Ek). apply (uni_bech32m_text_iff lower upper Lo Up s h ds spec B) in E as (Hk & Fd & L & t & Et & W). split; [exact L|]. exists h, ds, spec, t. split; [exact Hk|]. split; [exact Fd|]. split; [exact Et|]. split; [exact W|].
    destruct (beq h (str "xch")) eqn:Q; cbn [negb] in Ek; [|left; intros ->; rewrite beq_refl in Q; discriminate]. destruct spec; [auto|]. apply bind_ok in Ek as (d' & Ec & Ek). injection Ek as <-. injection Er as ->. right; right. apply convertbits_nil; assumption.
  - intros (L & h & d & spec & t & Hk & Fd & Et & W & Q). rewrite (proj2 (uni_bech32m_text_iff lower upper Lo Up s h d spec B)) by (split; [exact Hk|]; split; [exact Fd|]; split; [exact L|]; exists t; auto). cbn [bind].
    destruct (beq h (str "xch")) eqn:X; [|reflexivity]. apply beq_eq in X. subst h. cbn [negb]. destruct spec; [reflexivity|]. destruct Q as [Q|[Q| ->]]; [congruence|discriminate|reflexivity].
Qed.
Theorem chia_decode_never_panics : forall lower upper H s, uni_address_decode lower upper H s XCH_mainnetAddress <> Panic.
Proof.
  intros lower upper H s. unfold uni_address_decode. change (beq (encode_type XCH_mainnetAddress) (str "bech32m")) with true. cbv iota.
  change (alphabet_of XCH_mainnetAddress) with bech32_alphabet. unfold uni_bech32m_decode, uni_bm_decode. destruct (90 <? zlen s); [discriminate|]. destruct (_ && _); [discriminate|].
  destruct (bm_lowered (strings_map lower s) bech32_alphabet) as [[[h d] spec]| |] eqn:E; cbn [bind]; [|discriminate|exfalso; eapply bm_lowered_no_panic; exact E]. destruct (beq h _); cbn [negb]; [|discriminate]. destruct spec; [discriminate|].
  unfold convertbits. destruct (cb_loop d 0 0 5 8) as [[ret acc] bits]. destruct (5 <=? bits); [discriminate|]. destruct (negb _); discriminate.
Qed.
(** Up to fifty bytes come back; longer data are encoded to a text that is refused. *)
Theorem chia_roundtrip_iff : forall lower upper, unicode_lower lower -> unicode_upper upper -> forall H d, is_bytes d -> d <> [] ->
  exists t, address_encode H d XCH_mainnetAddress = Ok t /\ (zlen d <= 50 -> uni_address_decode lower upper H t XCH_mainnetAddress = Ok d) /\ (50 < zlen d -> uni_address_decode lower upper H t XCH_mainnetAddress = Err).
Proof.
  intros lower upper Lo Up H d B N. destruct (convertbits_8_5_value d B) as (out & p & E & _ & Hp & L & D & _). exists (text (str "xch") (out ++ bm_checksum (str "xch") out Bech32m)).
  assert (Ea : address_encode H d XCH_mainnetAddress = Ok (text (str "xch") (out ++ bm_checksum (str "xch") out Bech32m))).
  { unfold address_encode. change (beq (encode_type XCH_mainnetAddress) (str "bech32m")) with true. cbv iota. change (alphabet_of XCH_mainnetAddress) with bech32_alphabet. change (checksum_type XCH_mainnetAddress) with (str "xch"). unfold bech32m_encode. rewrite E. cbn [bind]. rewrite bm_encode_text by exact D. reflexivity. }
  split; [exact Ea|]. pose proof xch_ok as Hk.
  assert (Lt : zlen (text (str "xch") (out ++ bm_checksum (str "xch") out Bech32m)) = zlen out + 10). { unfold text. rewrite zlen_app, zlen_app, zlen_map, zlen_app. change (zlen (bm_checksum (str "xch") out Bech32m)) with 6. change (zlen (str "xch")) with 3. change (zlen [49]) with 1. lia. }
  assert (Nc : no_capitals (text (str "xch") (out ++ bm_checksum (str "xch") out Bech32m))) by (apply text_low; [exact Hk|apply Forall_app; split; [exact D|rewrite bm_checksum_digits; apply digits6_range]]). split.
  - intros S. apply (chia_decode_iff lower upper Lo Up); [eapply Forall_impl; [|exact Nc]; unfold is_byte; cbn beta; intros; lia|exact N|]. split; [exact B|]. split; [lia|]. eexists. split; [exact Ea|left; reflexivity].
  - intros S. unfold uni_address_decode. change (beq (encode_type XCH_mainnetAddress) (str "bech32m")) with true. cbv iota. unfold uni_bech32m_decode, uni_bm_decode. rewrite Lt. replace (90 <? zlen out + 10) with true by lia. reflexivity.
Qed.
(** For ASCII texts the simpler model of C13 says the same. *)
Theorem ascii_address_decode : forall lower upper, unicode_lower lower -> unicode_upper upper -> forall H s T, is_ascii s -> uni_address_decode lower upper H s T = address_decode H s T.
Proof.
  intros lower upper Lo Up H s T A. unfold uni_address_decode, address_decode. destruct (beq (encode_type T) (str "bech32m")); [|reflexivity]. unfold uni_bech32m_decode, bech32m_decode, uni_bm_decode, bm_decode. rewrite strings_lower_ascii, strings_upper_ascii by assumption. reflexivity.
Qed.

(** ** Examples *)
(** A pair of functions that meets the description of the Unicode tables. *)
Definition ex_lower (c : Z) : Z := if c =? 0x212A then 107 else if c =? 0x130 then 105 else if (65 <=? c) && (c <=? 90) then c + 32 else c.
Definition ex_upper (c : Z) : Z := if c =? 0x17F then 83 else if c =? 0x131 then 73 else if (97 <=? c) && (c <=? 122) then c - 32 else c.
Example ex_tables : unicode_lower ex_lower /\ unicode_upper ex_upper.
Proof.
  split; unfold unicode_lower, unicode_upper, ex_lower, ex_upper; repeat (split; [try reflexivity|]).
  - intros c C. replace (c =? 0x212A) with false by lia. replace (c =? 0x130) with false by lia. reflexivity.
  - intros c C N1 N2. replace (c =? 0x212A) with false by lia. replace (c =? 0x130) with false by lia. replace (_ && _) with false by lia. exact C.
  - intros c C. replace (c =? 0x17F) with false by lia. replace (c =? 0x131) with false by lia. reflexivity.
  - intros c C N1 N2. replace (c =? 0x17F) with false by lia. replace (c =? 0x131) with false by lia. replace (_ && _) with false by lia. exact C.
Qed.
(** A text with the Kelvin sign: the address of a hash whose text has a k, in capitals, with that sign in the place of K. *)
Definition ex_hash : bytes := [182] ++ repeat 0 31.
Definition ex_text : list Z := match address_encode (fun _ x => x) ex_hash XCH_mainnetAddress with Ok t => t | _ => [] end.
Definition ex_capitals : list Z := flat_map (fun c => if c =? 107 then [226; 132; 170] else [upper_char c]) ex_text.
Example ex_kelvin : forall H, address_encode H ex_hash XCH_mainnetAddress = Ok ex_text /\ ~ is_ascii ex_capitals /\ uni_address_decode ex_lower ex_upper H ex_capitals XCH_mainnetAddress = Ok ex_hash.
Proof.
  intros H. split; [vm_compute; reflexivity|]. split.
  - intros A. unfold is_ascii in A. rewrite Forall_forall in A. specialize (A 226). assert (0 <= 226 < 128); [apply A; vm_compute; tauto|lia].
  - vm_compute. reflexivity.
Qed.
Print Assumptions uni_bech32m_text_iff.
Print Assumptions chia_decode_iff.
Print Assumptions chia_decode_nothing_iff.
Print Assumptions chia_decode_never_panics.
Print Assumptions chia_roundtrip_iff.
Print Assumptions ascii_address_decode.
