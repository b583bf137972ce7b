(** Lemmas about the Base58 model. *)
From Coq Require Import ZArith List Bool Lia ZifyBool ZifyNat.
From Verif Require Import Go GoFacts Base58Model Base58Spec.
Import ListNotations.
Open Scope Z_scope.
Ltac Zify.zify_post_hook ::= Z.div_mod_to_equations.

(** ** Positional notation, least significant digit first *)
Fixpoint lval (base : Z) (l : list Z) : Z :=
  match l with [] => 0 | d :: r => d + base * lval base r end.
Definition digits (base : Z) (l : list Z) : Prop := Forall (fun d => 0 <= d < base) l.
Definition exact_top (l : list Z) : Prop := last l 1 <> 0.

Lemma lval_nonneg base l : 0 < base -> digits base l -> 0 <= lval base l.
Proof. intros Hb H; induction H; cbn [lval]; nia. Qed.
Lemma exact_top_cons x l : exact_top (x :: l) -> exact_top l.
Proof. unfold exact_top. destruct l; cbn [last]; [discriminate | auto]. Qed.
Lemma last_cons (x : Z) l d : l <> [] -> last (x :: l) d = last l d.
Proof. destruct l; [contradiction | reflexivity]. Qed.
Lemma exact_zero base l : 1 < base -> digits base l -> exact_top l -> lval base l = 0 -> l = [].
Proof.
  intros Hb. induction l as [|x l IH]; intros D E V; [reflexivity|].
  inversion D; subst. cbn [lval] in V.
  pose proof (lval_nonneg base l ltac:(lia) H2).
  assert (lval base l = 0) by nia. assert (x = 0) by nia.
  rewrite (IH H2 (exact_top_cons _ _ E) H0) in E. subst x. unfold exact_top in E; cbn in E. contradiction.
Qed.
Lemma exact_unique base : 1 < base -> forall a b,
  digits base a -> digits base b -> exact_top a -> exact_top b ->
  lval base a = lval base b -> a = b.
Proof.
  intros Hb. induction a as [|x a IH]; intros b Da Db Ea Eb V.
  - symmetry. apply (exact_zero base); auto.
  - destruct b as [|y b].
    + apply (exact_zero base); auto.
    + inversion Da; inversion Db; subst. cbn [lval] in V.
      assert (x = y).
      { assert (x mod base = y mod base).
        { rewrite <- (Z_mod_plus_full x (lval base a) base), <- (Z_mod_plus_full y (lval base b) base).
          f_equal. lia. }
        rewrite !Z.mod_small in H by lia. exact H. }
      subst y. f_equal. apply IH; auto; try (eapply exact_top_cons; eassumption). nia.
Qed.

(** ** The generic carry loop *)
Fixpoint conv (mul base carry : Z) (used : nat) (out : list Z) : res (list Z * nat) :=
  match out with
  | [] => if (carry =? 0) && (used =? 0)%nat then Ok ([], O) else Panic
  | d :: ds =>
      if (carry =? 0) && (used =? 0)%nat then Ok (out, O)
      else
        let c := carry + mul * d in
        '(ds', u) <- conv mul base (c / base) (pred used) ds ;;
        Ok (c mod base :: ds', S u)
  end.

Lemma conv_spec mul base : 1 < base -> 0 < mul -> forall n ds k carry,
  (length ds + k = n)%nat -> digits base ds -> exact_top ds -> 0 <= carry ->
  mul * lval base ds + carry < base ^ Z.of_nat n ->
  exists ds' k',
    conv mul base carry (length ds) (ds ++ zeros k) = Ok (ds' ++ zeros k', length ds') /\
    (length ds' + k' = n)%nat /\ digits base ds' /\ exact_top ds' /\
    lval base ds' = mul * lval base ds + carry.
Proof.
  intros Hb Hm. induction n as [|n IH]; intros ds k carry Hn D E Hc Hlt.
  - destruct ds; [|cbn in Hn; lia]. destruct k; [|cbn in Hn; lia].
    cbn [lval length] in *. change (base ^ Z.of_nat 0) with 1 in Hlt.
    exists [], O. cbn [app zeros repeat conv length]. replace (carry =? 0) with true by lia.
    cbn. repeat split; auto; lia.
  - rewrite Nat2Z.inj_succ, Z.pow_succ_r in Hlt by lia.
    destruct ds as [|d ds].
    + cbn [lval length app] in *. destruct k as [|k]; [lia|]. cbn [zeros repeat].
      cbn [conv]. destruct (carry =? 0) eqn:C0; cbn [andb Nat.eqb].
      * exists [], (S k). cbn. repeat split; auto; lia.
      * rewrite Z.mul_0_r, Z.add_0_r. cbn [pred].
        destruct (IH [] k (carry / base)) as (ds' & k' & R & L & D' & E' & V).
        -- cbn; lia.
        -- constructor.
        -- exact E.
        -- apply Z.div_pos; lia.
        -- cbn [lval]. rewrite Z.mul_0_r, Z.add_0_l. apply Z.div_lt_upper_bound; lia.
        -- cbn [length app] in R. change (zeros k) with (repeat 0 k) in R. rewrite R. cbn [bind].
           exists (carry mod base :: ds'), k'. cbn [app length lval] in *.
           assert (0 <= carry mod base < base) by (apply Z.mod_pos_bound; lia).
           split; [reflexivity|]. split; [lia|]. split; [constructor; assumption|]. split.
           ++ unfold exact_top. destruct ds' as [|e ds'].
              ** cbn [last]. cbn [lval] in V. assert (carry / base = 0) by lia.
                 pose proof (Z.div_mod carry base ltac:(lia)). lia.
              ** exact E'.
           ++ rewrite V, Z.mul_0_r, Z.add_0_l. pose proof (Z.div_mod carry base ltac:(lia)). lia.
    + cbn [length app conv]. rewrite andb_false_r. cbn [pred].
      inversion D; subst. cbn [lval] in *.
      set (c := carry + mul * d). assert (0 <= c) by (unfold c; nia).
      destruct (IH ds k (c / base)) as (ds' & k' & R & L & D' & E' & V).
      * cbn in Hn; lia.
      * assumption.
      * eapply exact_top_cons; eassumption.
      * apply Z.div_pos; lia.
      * pose proof (Z.div_mod c base ltac:(lia)).
        pose proof (Z.mod_pos_bound c base ltac:(lia)).
        assert (base * (mul * lval base ds + c / base) < base * base ^ Z.of_nat n) by (unfold c in *; nia).
        apply Z.mul_lt_mono_pos_l with (p := base); lia.
      * rewrite R. cbn [bind]. exists (c mod base :: ds'), k'.
        assert (0 <= c mod base < base) by (apply Z.mod_pos_bound; lia).
        cbn [app length lval] in *. 
        split; [reflexivity|]. split; [lia|]. split; [constructor; assumption|]. split.
        -- unfold exact_top. destruct ds' as [|e ds'].
           ++ cbn [last]. cbn [lval] in V.
              assert (0 <= lval base ds) by (apply lval_nonneg; [lia | assumption]).
              assert (0 <= c / base) by (apply Z.div_pos; lia).
              assert (lval base ds = 0) by nia. assert (c / base = 0) by nia.
              assert (ds = []) by (apply (exact_zero base); auto; eapply exact_top_cons; eassumption).
              subst ds. unfold exact_top in E. cbn [last] in E.
              pose proof (Z.div_mod c base ltac:(lia)). unfold c in *. nia.
           ++ exact E'.
        -- rewrite V. pose proof (Z.div_mod c base ltac:(lia)). unfold c in *. nia.
Qed.

(** The two loops of the code are instances of the generic one on digit arrays. *)
Lemma enc_carry_conv : forall out carry used, digits 58 out -> 0 <= carry < 256 ->
  enc_carry carry used out = conv 256 58 carry used out.
Proof.
  induction out as [|d out IH]; intros carry used D Hc; cbn [enc_carry conv]; [reflexivity|].
  inversion D; subst. destruct (_ && _); [reflexivity|].
  replace (u32 (carry + u32 (d * 256))) with (carry + 256 * d).
  2:{ unfold u32. rewrite (Z.mod_small (d * 256)) by lia. rewrite Z.mod_small by lia. ring. }
  cbv zeta. rewrite IH; [|assumption|split; [apply Z.div_pos; lia | apply Z.div_lt_upper_bound; lia]].
  destruct (conv 256 58 _ _ out) as [[? ?]| |]; cbn [bind]; try reflexivity.
  repeat f_equal. unfold u8. apply Z.mod_small.
  pose proof (Z.mod_pos_bound (carry + 256 * d) 58). lia.
Qed.
Lemma dec_carry_conv : forall out carry used, digits 256 out -> 0 <= carry < 58 ->
  dec_carry carry used out = conv 58 256 carry used out.
Proof.
  induction out as [|d out IH]; intros carry used D Hc; cbn [dec_carry conv]; [reflexivity|].
  inversion D; subst. destruct (_ && _); [reflexivity|]. cbv zeta.
  rewrite Z.shiftr_div_pow2 by lia. change (2 ^ 8) with 256.
  rewrite IH; [|assumption|split; [apply Z.div_pos; lia | apply Z.div_lt_upper_bound; lia]].
  destruct (conv 58 256 _ _ out) as [[? ?]| |]; cbn [bind]; try reflexivity.
  repeat f_equal. unfold u8, u32.
  change 255 with (Z.ones 8). rewrite Z.land_ones by lia.
  change (2 ^ 8) with 256. change (2 ^ 32) with (256 * 16777216).
  rewrite Z.mod_mod by lia. rewrite Z.mod_small with (b := 256 * 16777216) by lia. reflexivity.
Qed.

(** ** Capacities *)
Lemma pow_iter a n : 0 <= n -> forall k, 0 <= k -> (a ^ k) ^ n = a ^ (k * n).
Proof. intros. rewrite <- Z.pow_mul_r by lia. reflexivity. Qed.
Lemma enc_capacity n : 256 ^ Z.of_nat n <= 58 ^ Z.of_nat (n * 138 / 100 + 1).
Proof.
  set (k := Z.of_nat (n * 138 / 100 + 1)). set (m := Z.of_nat n).
  assert (HK : 138 * m < 100 * k).
  { unfold k, m. rewrite Nat2Z.inj_add, Nat2Z.inj_div, Nat2Z.inj_mul.
    change (Z.of_nat 138) with 138. change (Z.of_nat 100) with 100. change (Z.of_nat 1) with 1. lia. }
  assert (Hm : 0 <= m) by (unfold m; lia). assert (0 <= k) by (unfold k; lia).
  assert (P : (256 ^ m) ^ 100 <= (58 ^ k) ^ 100).
  { rewrite !pow_iter by lia. transitivity (58 ^ (138 * m)).
    - rewrite (Z.mul_comm m), <- !pow_iter by lia. apply Z.pow_le_mono_l. split; [vm_compute; discriminate | vm_compute; discriminate].
    - apply Z.pow_le_mono_r; lia. }
  destruct (Z_le_gt_dec (256 ^ m) (58 ^ k)); [assumption|].
  exfalso. assert ((58 ^ k) ^ 100 < (256 ^ m) ^ 100).
  { apply Z.pow_lt_mono_l; [lia|]. split; [apply Z.pow_nonneg; lia | lia]. }
  lia.
Qed.
Lemma dec_capacity n : 58 ^ Z.of_nat n <= 256 ^ Z.of_nat (n * 733 / 1000 + 1).
Proof.
  set (k := Z.of_nat (n * 733 / 1000 + 1)). set (m := Z.of_nat n).
  assert (HK : 733 * m < 1000 * k).
  { unfold k, m. rewrite Nat2Z.inj_add, Nat2Z.inj_div, Nat2Z.inj_mul.
    change (Z.of_nat 733) with 733. change (Z.of_nat 1000) with 1000. change (Z.of_nat 1) with 1. lia. }
  assert (Hm : 0 <= m) by (unfold m; lia). assert (0 <= k) by (unfold k; lia).
  assert (P : (58 ^ m) ^ 1000 <= (256 ^ k) ^ 1000).
  { rewrite !pow_iter by lia. transitivity (256 ^ (733 * m)).
    - rewrite (Z.mul_comm m), <- !pow_iter by lia. apply Z.pow_le_mono_l. split; [vm_compute; discriminate | vm_compute; discriminate].
    - apply Z.pow_le_mono_r; lia. }
  destruct (Z_le_gt_dec (58 ^ m) (256 ^ k)); [assumption|].
  exfalso. assert ((256 ^ k) ^ 1000 < (58 ^ m) ^ 1000).
  { apply Z.pow_lt_mono_l; [lia|]. split; [apply Z.pow_nonneg; lia | lia]. }
  lia.
Qed.

(** ** Most significant first value, generic base *)
Definition bval (base : Z) (l : list Z) : Z := lval base (rev l).
Lemma lval_app base a b : lval base (a ++ b) = lval base a + base ^ zlen a * lval base b.
Proof.
  induction a as [|x a IH]; cbn [app lval].
  - change (zlen (@nil Z)) with 0. rewrite Z.pow_0_r. ring.
  - rewrite IH, zlen_cons, Z.pow_add_r by (pose proof (zlen_nonneg a); lia). rewrite Z.pow_1_r. ring.
Qed.
Lemma bval_snoc base a x : bval base (a ++ [x]) = base * bval base a + x.
Proof. unfold bval. rewrite rev_app_distr. cbn [rev app lval]. ring. Qed.
Lemma bval_bound base l : 0 < base -> digits base l -> 0 <= bval base l < base ^ zlen l.
Proof.
  intros Hb. induction l as [|x l IH] using rev_ind; intros H.
  - unfold bval; cbn. lia.
  - apply Forall_app in H as [H1 H2]. inversion H2; subst.
    rewrite bval_snoc, zlen_app, Z.pow_add_r by (pose proof (zlen_nonneg l); try rewrite zlen_cons; pose proof (zlen_nonneg (@nil Z)); lia).
    change (zlen [x]) with 1. rewrite Z.pow_1_r. specialize (IH H1). nia.
Qed.
Lemma lval_256 l : lval 256 l = le_num l.
Proof. induction l; cbn [lval le_num]; congruence. Qed.
Lemma bval_256 l : bval 256 l = be_num l.
Proof. unfold bval. rewrite lval_256. apply le_num_rev. Qed.

Lemma pow_base_le base a b : 1 < base -> (a <= b)%nat -> base ^ Z.of_nat a <= base ^ Z.of_nat b.
Proof. intros; apply Z.pow_le_mono_r; lia. Qed.

(** ** Outer loops *)
Lemma enc_loop_spec n : forall r pre ds k,
  (length ds + k = n)%nat -> digits 58 ds -> exact_top ds -> is_bytes (pre ++ r) ->
  lval 58 ds = be_num pre ->
  256 ^ zlen (pre ++ r) <= 58 ^ Z.of_nat n ->
  exists ds' k', enc_loop r (length ds) (ds ++ zeros k) = Ok (ds' ++ zeros k', length ds') /\
    digits 58 ds' /\ exact_top ds' /\ lval 58 ds' = be_num (pre ++ r).
Proof.
  induction r as [|b r IH]; intros pre ds k Hn D E Hb V Hcap; cbn [enc_loop].
  - exists ds, k. rewrite app_nil_r. auto.
  - assert (Hb' : is_bytes (pre ++ [b])).
    { apply is_bytes_app in Hb as [H1 H2]. apply is_bytes_cons in H2 as [H2 H3].
      apply is_bytes_app; split; [assumption|]. apply is_bytes_cons; split; [assumption|constructor]. }
    assert (Bb : 0 <= b < 256).
    { apply is_bytes_app in Hb' as [_ H2]. apply is_bytes_cons in H2 as [H2 _]. exact H2. }
    rewrite enc_carry_conv.
    2:{ apply Forall_app; split; [exact D|]. eapply Forall_impl; [|apply Forall_forall; intros x Hx; apply (repeat_spec _ _ _ Hx)]. cbn; intros; lia. }
    2:{ exact Bb. }
    destruct (conv_spec 256 58 ltac:(lia) ltac:(lia) n ds k b) as (ds1 & k1 & R & L & D1 & E1 & V1); auto.
    + lia.
    + pose proof (be_num_bound _ Hb') as B. rewrite be_num_snoc in B. rewrite V.
      assert (256 ^ zlen (pre ++ [b]) <= 256 ^ zlen (pre ++ b :: r)).
      { apply Z.pow_le_mono_r; [lia|]. rewrite !zlen_app, !zlen_cons. change (zlen (@nil Z)) with 0. pose proof (zlen_nonneg r). lia. }
      lia.
    + rewrite R. cbn [bind].
      replace (pre ++ b :: r) with ((pre ++ [b]) ++ r) in * by (rewrite <- app_assoc; reflexivity).
      apply IH; auto. rewrite V1, V, be_num_snoc. ring.
Qed.

Lemma strip0_bytes l : is_bytes l -> is_bytes (strip0 l).
Proof. intros H. rewrite (strip0_lead0 l) in H. apply is_bytes_app in H; tauto. Qed.
Lemma strip0_length l : (length (strip0 l) <= length l)%nat.
Proof. rewrite (strip0_lead0 l) at 2. rewrite app_length. lia. Qed.

(** digits of the encoder: most significant first, no leading zero, right value *)
Lemma enc_digits input : is_bytes input ->
  exists ds k, enc_loop (strip0 input) 0 (zeros (length input * 138 / 100 + 1)) = Ok (ds ++ zeros k, length ds) /\
    digits 58 ds /\ exact_top ds /\ lval 58 ds = be_num input.
Proof.
  intros Hb.
  destruct (enc_loop_spec (length input * 138 / 100 + 1) (strip0 input) [] [] (length input * 138 / 100 + 1))
    as (ds & k & R & D & E & V).
  - reflexivity.
  - constructor.
  - unfold exact_top; cbn; discriminate.
  - cbn [app]. apply strip0_bytes, Hb.
  - reflexivity.
  - cbn [app]. etransitivity; [|apply enc_capacity]. unfold zlen. apply Z.pow_le_mono_r; [lia|].
    pose proof (strip0_length input). lia.
  - cbn [app length] in *. exists ds, k. rewrite be_num_strip0 in V. auto.
Qed.

(** ** Alphabets *)
(** index of the first occurrence *)
Fixpoint pos_of (c : Z) (l : list Z) : option Z :=
  match l with
  | [] => None
  | x :: r => if x =? c then Some 0 else option_map Z.succ (pos_of c r)
  end.

Lemma set_nth_length l : forall n v, length (set_nth l n v) = length l.
Proof. induction l; intros [|n] v; cbn; auto. Qed.
Lemma set_nth_same l : forall n v, (n < length l)%nat -> nth_error (set_nth l n v) n = Some v.
Proof. induction l; intros [|n] v H; cbn in *; try lia; auto. apply IHl; lia. Qed.
Lemma set_nth_other l : forall n m v, n <> m -> nth_error (set_nth l n v) m = nth_error l m.
Proof. induction l; intros [|n] [|m] v H; cbn; auto; try contradiction; try congruence. Qed.

Lemma fill_tables_spec rs : forall i dt, is_ascii rs -> NoDup rs -> length dt = 256%nat ->
  let '(dt', ut') := fill_tables i rs dt [] in
  ut' = [] /\ length dt' = 256%nat /\
  forall c, 0 <= c < 256 ->
    nth_error dt' (Z.to_nat c) =
      match pos_of c rs with Some p => Some (i + p) | None => nth_error dt (Z.to_nat c) end.
Proof.
  induction rs as [|ch rs IH]; intros i dt HA ND HL; cbn [fill_tables pos_of].
  - auto.
  - inversion HA; inversion ND; subst. replace ((0 <=? ch) && (ch <? 256)) with true by lia.
    specialize (IH (i + 1) (set_nth dt (Z.to_nat ch) i) H2 H6).
    rewrite set_nth_length in IH. specialize (IH HL).
    destruct (fill_tables (i + 1) rs _ []) as [dt' ut']. destruct IH as (U & L & P).
    split; [exact U|]. split; [exact L|]. intros c Hc. rewrite (P c Hc).
    destruct (ch =? c) eqn:E.
    + assert (ch = c) by lia; subst ch.
      assert (N : pos_of c rs = None).
      { clear -H5. induction rs as [|x rs IH]; cbn; [reflexivity|].
        destruct (x =? c) eqn:E; [exfalso; apply H5; left; lia|].
        rewrite IH; [reflexivity|]. intros K; apply H5; right; exact K. }
      rewrite N. rewrite set_nth_same by lia. f_equal; lia.
    + destruct (pos_of c rs); cbn [option_map]; [f_equal; lia|].
      rewrite set_nth_other; [reflexivity | lia].
Qed.

(** What an accepted ASCII alphabet gives. *)
Record al_spec (rs : list Z) (al : alphabet) : Prop := {
  as_enc : enc_table al = rs;
  as_uni : uni_table al = [];
  as_dec : forall c, rune_value al c = Ok (match pos_of c rs with Some p => p | None => -1 end)
}.

Lemma pos_of_bounds c l p : pos_of c l = Some p -> 0 <= p < zlen l /\ nth_error l (Z.to_nat p) = Some c.
Proof.
  revert p. induction l as [|x l IH]; intros p; cbn [pos_of]; [discriminate|].
  destruct (x =? c) eqn:E.
  - intros H; injection H as <-. rewrite zlen_cons. pose proof (zlen_nonneg l). split; [lia|]. cbn [Z.to_nat nth_error]. f_equal; lia.
  - destruct (pos_of c l) as [q|]; cbn [option_map]; [|discriminate].
    intros H; injection H as <-. destruct (IH q eq_refl) as [B N]. rewrite zlen_cons. split; [lia|].
    rewrite Z2Nat.inj_succ by lia. exact N.
Qed.
Lemma pos_of_In c l : In c l <-> exists p, pos_of c l = Some p.
Proof.
  induction l as [|x l IH]; cbn [pos_of In].
  - split; [intros [] | intros [p H]; discriminate].
  - destruct (x =? c) eqn:E.
    + split; [eauto|]. left; lia.
    + split.
      * intros [->|H]; [lia|]. apply IH in H as [p ->]. cbn; eauto.
      * intros [p H]. destruct (pos_of c l); [|discriminate]. right; apply IH; eauto.
Qed.
Lemma pos_of_nth l : NoDup l -> forall p c, nth_error l p = Some c -> pos_of c l = Some (Z.of_nat p).
Proof.
  induction l as [|x l IH]; intros ND [|p] c H; cbn in H; try discriminate.
  - injection H as <-. cbn. rewrite Z.eqb_refl. reflexivity.
  - inversion ND; subst. cbn [pos_of]. destruct (x =? c) eqn:E.
    + exfalso. assert (x = c) by lia. subst. apply H2. eapply nth_error_In; eassumption.
    + rewrite (IH H3 _ _ H). cbn [option_map]. f_equal. lia.
Qed.

Lemma new_alphabet_spec rs : alphabet_ok rs -> exists al, new_alphabet rs = Ok al /\ al_spec rs al.
Proof.
  intros (HL & ND & HA). unfold new_alphabet. replace (zlen rs =? 58) with true by (unfold zlen; lia).
  pose proof (fill_tables_spec rs 0 (repeat (-1) 256) HA ND (repeat_length _ _)) as F.
  destruct (fill_tables 0 rs (repeat (-1) 256) []) as [dt ut]. destruct F as (U & L & P).
  eexists; split; [reflexivity|]. constructor; cbn [enc_table uni_table]; auto.
  intros c. unfold rune_value. cbn [dec_table uni_table].
  destruct ((0 <=? c) && (c <? 256)) eqn:E.
  - unfold idx. replace (c <? 0) with false by lia. rewrite P by lia.
    destruct (pos_of c rs) as [p|] eqn:Ep; [f_equal; lia|].
    destruct (nth_error (repeat (-1) 256) (Z.to_nat c)) as [z|] eqn:N.
    + apply nth_error_In in N. apply repeat_spec in N. subst z. reflexivity.
    + apply nth_error_None in N. rewrite repeat_length in N. exfalso.
      assert (Z.of_nat 256 <= Z.of_nat (Z.to_nat c)) by (apply Nat2Z.inj_le; exact N).
      change (Z.of_nat 256) with 256 in H. lia.
  - rewrite U. cbn [uni_lookup].
    destruct (pos_of c rs) as [p|] eqn:Ep; [|reflexivity]. exfalso.
    assert (In c rs) by (apply pos_of_In; eauto). unfold is_ascii in HA. rewrite Forall_forall in HA. specialize (HA c H). cbn beta in HA. lia.
Qed.

Section WithAlphabet.
Variable rs : list Z.
Hypothesis Hrs : alphabet_ok rs.
Variable al : alphabet.
Hypothesis Hal : al_spec rs al.

Definition sym (d : Z) : Z := nth (Z.to_nat d) rs 0.
Lemma nth_sym d : 0 <= d < 58 -> nth_error rs (Z.to_nat d) = Some (sym d).
Proof.
  intros H. unfold sym. apply nth_error_nth'. destruct Hrs as (L & _). rewrite L.
  lia.
Qed.
Lemma idx_sym d : 0 <= d < 58 -> idx (enc_table al) d = Ok (sym d).
Proof. intros H. unfold idx. rewrite (as_enc _ _ Hal). replace (d <? 0) with false by lia. rewrite nth_sym by lia. reflexivity. Qed.
Lemma sym_value d : 0 <= d < 58 -> rune_value al (sym d) = Ok d.
Proof.
  intros H. rewrite (as_dec _ _ Hal). destruct Hrs as (L & ND & _).
  rewrite (pos_of_nth rs ND _ _ (nth_sym d H)). f_equal. lia.
Qed.
Lemma sym_inj a b : 0 <= a < 58 -> 0 <= b < 58 -> sym a = sym b -> a = b.
Proof. intros Ha Hb E. pose proof (sym_value a Ha) as H. rewrite E, sym_value in H by assumption. congruence. Qed.
Lemma sym_ascii d : 0 <= d < 58 -> 0 <= sym d < 128.
Proof.
  intros H. destruct Hrs as (_ & _ & A). unfold is_ascii in A. rewrite Forall_forall in A. apply A.
  eapply nth_error_In. apply nth_sym; exact H.
Qed.
Lemma lookup_all_sym ds : digits 58 ds -> lookup_all (enc_table al) ds = Ok (map sym ds).
Proof.
  induction 1; cbn [lookup_all map]; [reflexivity|]. rewrite idx_sym by assumption. cbn [bind]. rewrite IHForall. reflexivity.
Qed.
Lemma map_sym_ascii ds : digits 58 ds -> is_ascii (map sym ds).
Proof. intros H. unfold is_ascii. apply Forall_map. eapply Forall_impl; [|exact H]. intros a Ha. apply sym_ascii, Ha. Qed.
Lemma map_u8_ascii s : is_ascii s -> map u8 s = s.
Proof. induction 1; cbn [map]; [reflexivity|]. f_equal; [unfold u8; apply Z.mod_small; lia | assumption]. Qed.
Lemma digits_repeat0 n : digits 58 (repeat 0 n).
Proof. apply Forall_forall. intros x Hx. apply repeat_spec in Hx. subst; lia. Qed.
Lemma map_repeat {A B} (f : A -> B) x n : map f (repeat x n) = repeat (f x) n.
Proof. induction n; cbn; congruence. Qed.

(** the encoder: zero symbols followed by the digits *)
Lemma base58_encode_eq input : is_bytes input ->
  exists ds, base58_encode al input = Ok (map sym (repeat 0 (lead0 input) ++ ds)) /\
    digits 58 ds /\ hd 1 ds <> 0 /\ bval 58 ds = be_num input.
Proof.
  intros Hb. destruct (enc_digits input Hb) as (ds & k & R & D & E & V).
  exists (rev ds).
  assert (D' : digits 58 (rev ds)) by (apply Forall_rev; exact D).
  unfold base58_encode. rewrite R. cbn [bind].
  rewrite firstn_app, firstn_all, Nat.sub_diag. cbn [firstn]. rewrite app_nil_r.
  rewrite lookup_all_sym by exact D'. cbn [bind].
  rewrite idx_sym by lia. cbn [bind]. rewrite (as_uni _ _ Hal).
  split; [|split; [exact D'|split]].
  - f_equal. rewrite (map_app sym), (map_repeat sym). apply map_u8_ascii.
    apply Forall_app; split; [|apply map_sym_ascii; exact D'].
    apply Forall_forall. intros x Hx. apply repeat_spec in Hx. subst. apply sym_ascii; lia.
  - rewrite hd_rev_last. exact E.
  - unfold bval. rewrite rev_involutive. exact V.
Qed.

(** the decoder on symbol strings *)
Lemma dec_loop_spec n : forall r pre ds k,
  (length ds + k = n)%nat -> digits 256 ds -> exact_top ds -> digits 58 (pre ++ r) ->
  lval 256 ds = bval 58 pre ->
  58 ^ zlen (pre ++ r) <= 256 ^ Z.of_nat n ->
  exists ds' k', dec_loop al (map sym r) (length ds) (ds ++ zeros k) = Ok (ds' ++ zeros k', length ds') /\
    digits 256 ds' /\ exact_top ds' /\ lval 256 ds' = bval 58 (pre ++ r).
Proof.
  induction r as [|b r IH]; intros pre ds k Hn D E Hb V Hcap; cbn [dec_loop map].
  - exists ds, k. rewrite app_nil_r. auto.
  - assert (Hb' : digits 58 (pre ++ [b])).
    { apply Forall_app in Hb as [H1 H2]. inversion H2; subst. apply Forall_app; split; auto. }
    assert (Bb : 0 <= b < 58). { apply Forall_app in Hb' as [_ H2]. inversion H2; assumption. }
    rewrite sym_value by exact Bb. cbn [bind]. replace (b =? -1) with false by lia.
    rewrite dec_carry_conv.
    2:{ apply Forall_app; split; [exact D|]. apply Forall_forall. intros x Hx. apply repeat_spec in Hx. lia. }
    2:{ exact Bb. }
    destruct (conv_spec 58 256 ltac:(lia) ltac:(lia) n ds k b) as (ds1 & k1 & R & L & D1 & E1 & V1); auto.
    + lia.
    + pose proof (bval_bound 58 _ ltac:(lia) Hb') as B. rewrite bval_snoc in B. rewrite V.
      assert (58 ^ zlen (pre ++ [b]) <= 58 ^ zlen (pre ++ b :: r)).
      { apply Z.pow_le_mono_r; [lia|]. rewrite !zlen_app, !zlen_cons. change (zlen (@nil Z)) with 0. pose proof (zlen_nonneg r). lia. }
      lia.
    + rewrite R. cbn [bind].
      replace (pre ++ b :: r) with ((pre ++ [b]) ++ r) in * by (rewrite <- app_assoc; reflexivity).
      apply IH; auto. rewrite V1, V, bval_snoc. ring.
Qed.

(** count of leading zero digits and the corresponding symbols *)
Lemma lead_sym_map ds : digits 58 ds -> lead_sym (sym 0) (map sym ds) = lead0 ds.
Proof.
  induction 1; cbn [map lead_sym]; [reflexivity|].
  destruct (sym x =? sym 0) eqn:E.
  - assert (x = 0) by (apply sym_inj; lia). subst. cbn [lead0]. congruence.
  - assert (x <> 0) by (intros ->; lia). rewrite lead0_nz by assumption. reflexivity.
Qed.

Lemma base58_decode_sym ds : digits 58 ds ->
  exists b, base58_decode_runes al (map sym ds) = Ok (zeros (lead0 ds) ++ b) /\
    is_bytes b /\ hd 1 b <> 0 /\ be_num b = bval 58 ds.
Proof.
  intros D. unfold base58_decode_runes. rewrite idx_sym by lia. cbn [bind]. rewrite map_length.
  destruct (dec_loop_spec (length ds * 733 / 1000 + 1) ds [] [] (length ds * 733 / 1000 + 1))
    as (bs & k & R & Db & E & V); auto.
  - constructor.
  - unfold exact_top; cbn; discriminate.
  - cbn [app]. apply dec_capacity.
  - cbn [app length] in R. rewrite R. cbn [bind]. rewrite lead_sym_map by assumption.
    rewrite firstn_app, firstn_all, Nat.sub_diag. cbn [firstn]. rewrite app_nil_r.
    exists (rev bs). split; [reflexivity|]. split; [|split].
    + apply is_bytes_rev. exact Db.
    + rewrite hd_rev_last. exact E.
    + rewrite be_num_rev, <- lval_256. exact V.
Qed.

(** any accepted rune list is a symbol string *)
Lemma dec_loop_valid r : forall used out out' u,
  dec_loop al r used out = Ok (out', u) -> Forall (fun c => In c rs) r.
Proof.
  induction r as [|c r IH]; intros used out out' u H; [constructor|]. cbn [dec_loop] in H.
  rewrite (as_dec _ _ Hal) in H. cbn [bind] in H. destruct (pos_of c rs) eqn:E.
  - destruct (_ =? -1); [discriminate|]. destruct (dec_carry z used out) as [[o2 u2]| |]; cbn [bind] in H; try discriminate.
    constructor; [apply pos_of_In; eauto | eapply IH; eassumption].
  - discriminate.
Qed.
Lemma valid_symbols s : Forall (fun c => In c rs) s -> exists ds, digits 58 ds /\ s = map sym ds.
Proof.
  induction 1 as [|c s Hc Hs (ds & D & ->)].
  - exists []; split; [constructor|reflexivity].
  - apply pos_of_In in Hc as [p Hp]. apply pos_of_bounds in Hp as [B N].
    assert (zlen rs = 58) by (destruct Hrs as (L & _); unfold zlen; lia).
    exists (p :: ds). split; [constructor; [lia | exact D]|]. cbn [map]. f_equal.
    rewrite nth_sym in N by lia. congruence.
Qed.

(** the decoder on strings with a foreign symbol *)
Lemma dec_loop_foreign r : forall n ds k pre,
  (length ds + k = n)%nat -> digits 256 ds -> exact_top ds -> digits 58 pre ->
  lval 256 ds = bval 58 pre ->
  58 ^ (zlen pre + zlen r) <= 256 ^ Z.of_nat n ->
  ~ Forall (fun c => In c rs) r ->
  dec_loop al r (length ds) (ds ++ zeros k) = Err.
Proof.
  induction r as [|c r IH]; intros n ds k pre Hn D E Hp V Hcap Hf.
  - exfalso; apply Hf; constructor.
  - cbn [dec_loop]. rewrite (as_dec _ _ Hal). cbn [bind]. destruct (pos_of c rs) as [p|] eqn:Ep; [|reflexivity].
    assert (Hin : In c rs) by (apply pos_of_In; eauto).
    apply pos_of_bounds in Ep as [B _]. assert (zlen rs = 58) by (destruct Hrs as (L & _); unfold zlen; lia).
    replace (p =? -1) with false by lia.
    assert (Hp' : digits 58 (pre ++ [p])) by (apply Forall_app; split; [exact Hp | constructor; [lia | constructor]]).
    rewrite dec_carry_conv.
    2:{ apply Forall_app; split; [exact D|]. apply Forall_forall. intros x Hx. apply repeat_spec in Hx. lia. }
    2:{ lia. }
    rewrite zlen_cons in Hcap.
    destruct (conv_spec 58 256 ltac:(lia) ltac:(lia) n ds k p) as (ds1 & k1 & R & L & D1 & E1 & V1); auto.
    + lia.
    + pose proof (bval_bound 58 _ ltac:(lia) Hp') as B'. rewrite bval_snoc in B'. rewrite V.
      assert (58 ^ zlen (pre ++ [p]) <= 58 ^ (zlen pre + (1 + zlen r))).
      { apply Z.pow_le_mono_r; [lia|]. rewrite !zlen_app, !zlen_cons. change (zlen (@nil Z)) with 0. pose proof (zlen_nonneg r). lia. }
      lia.
    + rewrite R. cbn [bind]. apply (IH n ds1 k1 (pre ++ [p])); auto.
      * rewrite V1, V, bval_snoc. ring.
      * rewrite zlen_app. change (zlen [p]) with 1. rewrite <- Z.add_assoc. exact Hcap.
Qed.
Lemma base58_decode_foreign s : ~ Forall (fun c => In c rs) s -> base58_decode_runes al s = Err.
Proof.
  intros H. unfold base58_decode_runes. rewrite idx_sym by lia. cbn [bind].
  pose proof (dec_loop_foreign s (length s * 733 / 1000 + 1) [] (length s * 733 / 1000 + 1) []) as F.
  cbn [length app] in F. rewrite F; auto.
  - constructor.
  - unfold exact_top; cbn; discriminate.
  - constructor.
  - apply dec_capacity.
Qed.

(** a list splits into its leading zeros and a rest with non-zero head *)
Lemma lead0_app n b : hd 1 b <> 0 -> lead0 (zeros n ++ b) = n.
Proof.
  intros H. induction n; cbn.
  - destruct b; [reflexivity|]. cbn in H. apply lead0_nz; exact H.
  - f_equal. exact IHn.
Qed.
Lemma hd_strip0 l : hd 1 (strip0 l) <> 0.
Proof. pose proof (strip0_head l). destruct (strip0 l); cbn; [lia | assumption]. Qed.
Lemma strip_hd b : hd 1 b <> 0 -> strip0 b = b.
Proof. destruct b; cbn [hd]; intros; [reflexivity | apply strip0_nz; assumption]. Qed.

Lemma bval_zeros base n l : bval base (zeros n ++ l) = bval base l.
Proof.
  unfold bval. rewrite rev_app_distr, lval_app.
  replace (lval base (rev (zeros n))) with 0; [ring|].
  symmetry. induction n; [reflexivity|]. cbn [zeros repeat rev]. rewrite lval_app.
  change (repeat 0 n) with (zeros n). rewrite IHn. cbn [lval]. ring.
Qed.
Lemma bval_unique a b : digits 58 a -> digits 58 b -> hd 1 a <> 0 -> hd 1 b <> 0 -> bval 58 a = bval 58 b -> a = b.
Proof.
  intros Da Db Ha Hb V. rewrite <- (rev_involutive a), <- (rev_involutive b). f_equal.
  apply (exact_unique 58); try lia; try (apply Forall_rev; assumption); try exact V.
  - unfold exact_top. rewrite <- hd_rev_last, rev_involutive. exact Ha.
  - unfold exact_top. rewrite <- hd_rev_last, rev_involutive. exact Hb.
Qed.

(** *** Main lemmas on rune lists *)
Lemma decode_encode_runes b s : is_bytes b -> base58_encode al b = Ok s -> base58_decode_runes al s = Ok b.
Proof.
  intros Hb He. destruct (base58_encode_eq b Hb) as (ds & R & D & Hh & V).
  rewrite R in He. injection He as <-.
  assert (D' : digits 58 (repeat 0 (lead0 b) ++ ds)) by (apply Forall_app; split; [apply digits_repeat0 | exact D]).
  destruct (base58_decode_sym _ D') as (b' & R' & Hb' & Hh' & V').
  rewrite R'. f_equal. change (repeat 0 (lead0 b)) with (zeros (lead0 b)) in *.
  rewrite lead0_app by exact Hh. rewrite bval_zeros, V in V'.
  rewrite (strip0_lead0 b) at 2. f_equal.
  apply stripped_unique; auto using strip0_bytes, strip_hd, hd_strip0.
  rewrite V', be_num_strip0. reflexivity.
Qed.
Lemma encode_total b : is_bytes b -> exists s, base58_encode al b = Ok s.
Proof. intros Hb. destruct (base58_encode_eq b Hb) as (ds & R & _). eauto. Qed.
Lemma encode_ascii b s : is_bytes b -> base58_encode al b = Ok s -> is_ascii s.
Proof.
  intros Hb He. destruct (base58_encode_eq b Hb) as (ds & R & D & _). rewrite R in He. injection He as <-.
  apply map_sym_ascii. apply Forall_app; split; [apply digits_repeat0 | exact D].
Qed.
Lemma encode_decode_runes s b : base58_decode_runes al s = Ok b -> is_bytes b /\ base58_encode al b = Ok s.
Proof.
  intros H.
  assert (Hv : Forall (fun c => In c rs) s).
  { unfold base58_decode_runes in H. rewrite idx_sym in H by lia. cbn [bind] in H.
    destruct (dec_loop al s 0 _) as [[o u]| |] eqn:E; cbn [bind] in H; try discriminate.
    eapply dec_loop_valid; eassumption. }
  apply valid_symbols in Hv as (ds & D & ->).
  destruct (base58_decode_sym ds D) as (b' & R & Hb & Hh & V). rewrite R in H. injection H as <-.
  assert (Hb2 : is_bytes (zeros (lead0 ds) ++ b')) by (apply is_bytes_app; split; [apply is_bytes_zeros | exact Hb]).
  split; [exact Hb2|].
  destruct (base58_encode_eq _ Hb2) as (es & Re & De & He & Ve). rewrite Re. f_equal. f_equal.
  rewrite lead0_app by exact Hh. rewrite (strip0_lead0 ds) at 2. change (repeat 0 (lead0 ds)) with (zeros (lead0 ds)). f_equal.
  apply bval_unique; auto using hd_strip0.
  - rewrite (strip0_lead0 ds) in D. apply Forall_app in D. tauto.
  - rewrite Ve, be_num_zeros, V. rewrite (strip0_lead0 ds) at 1. rewrite bval_zeros. reflexivity.
Qed.
Lemma decode_total_runes s : (Forall (fun c => In c rs) s /\ exists b, base58_decode_runes al s = Ok b) \/
  (~ Forall (fun c => In c rs) s /\ base58_decode_runes al s = Err).
Proof.
  assert (Dec : {Forall (fun c => In c rs) s} + {~ Forall (fun c => In c rs) s}).
  { apply Forall_dec. intros x. apply in_dec, Z.eq_dec. }
  destruct Dec as [Hv|Hn].
  - left; split; [exact Hv|]. apply valid_symbols in Hv as (ds & D & ->).
    destruct (base58_decode_sym ds D) as (b & R & _). eauto.
  - right; split; [exact Hn | apply base58_decode_foreign, Hn].
Qed.

(** *** On Go strings *)
Lemma valid_runes_string s : is_bytes s -> Forall (fun c => In c rs) (runes s) -> runes s = s.
Proof.
  intros Hb H. apply runes_ascii. apply runes_non_ascii; [exact Hb|].
  eapply Forall_impl; [|exact H]. intros c Hc. destruct Hrs as (_ & _ & A).
  unfold is_ascii in A. rewrite Forall_forall in A. specialize (A c Hc). cbn beta in A; lia.
Qed.
Lemma decode_encode b : is_bytes b -> exists s, base58_encode al b = Ok s /\ base58_decode al s = Ok b /\ is_ascii s.
Proof.
  intros Hb. destruct (encode_total b Hb) as [s He]. exists s. split; [exact He|].
  pose proof (encode_ascii b s Hb He) as A. split; [|exact A].
  unfold base58_decode. rewrite runes_ascii by exact A. apply decode_encode_runes; assumption.
Qed.
Lemma encode_decode s b : is_bytes s -> base58_decode al s = Ok b -> is_bytes b /\ base58_encode al b = Ok s.
Proof.
  intros Hs H. unfold base58_decode in H.
  assert (R : runes s = s).
  { apply valid_runes_string; [exact Hs|]. destruct (decode_total_runes (runes s)) as [[V _]|[_ E]]; [exact V | congruence]. }
  rewrite R in H. apply encode_decode_runes; exact H.
Qed.
Lemma decode_cases s : is_bytes s ->
  (Forall (fun c => In c rs) s /\ exists b, base58_decode al s = Ok b) \/
  (~ Forall (fun c => In c rs) s /\ base58_decode al s = Err).
Proof.
  intros Hs. unfold base58_decode. destruct (decode_total_runes (runes s)) as [[V [b E]]|[V E]].
  - left. rewrite valid_runes_string in V by assumption. split; eauto.
  - right. split; [|exact E]. intros K. apply V. rewrite runes_ascii; [exact K|].
    eapply Forall_impl; [|exact K]. intros c Hc. destruct Hrs as (_ & _ & A).
    unfold is_ascii in A. rewrite Forall_forall in A. apply (A c Hc).
Qed.
End WithAlphabet.

(** ** Statements in terms of [new_alphabet] and the specification *)
Lemma new_alphabet_al rs al : alphabet_ok rs -> new_alphabet rs = Ok al -> al_spec rs al.
Proof. intros H E. destruct (new_alphabet_spec rs H) as (al' & E' & S). congruence. Qed.
Lemma positional_snoc base l x : positional base (l ++ [x]) = positional base l * base + x.
Proof. unfold positional. rewrite fold_left_app. reflexivity. Qed.
Lemma positional_bval base l : positional base l = bval base l.
Proof.
  induction l as [|x l IH] using rev_ind; [reflexivity|].
  rewrite positional_snoc, bval_snoc, IH. ring.
Qed.
Lemma base58_numeral rs al b s : alphabet_ok rs -> new_alphabet rs = Ok al -> is_bytes b ->
  base58_encode al b = Ok s -> is_base58_of rs b s.
Proof.
  intros Hrs Hal Hb He. apply new_alphabet_al in Hal; [|exact Hrs].
  destruct (base58_encode_eq rs Hrs al Hal b Hb) as (ds & R & D & Hh & V). rewrite R in He. injection He as <-.
  exists (lead0 b), (strip0 b), ds. split; [apply strip0_lead0|]. split; [apply hd_strip0|].
  split; [exact D|]. split; [exact Hh|]. split.
  - rewrite !positional_bval, bval_256, be_num_strip0. exact V.
  - rewrite map_app, map_repeat. reflexivity.
Qed.
