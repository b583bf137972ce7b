(** Linear algebra of the bech32-style checksum registers (30 and 40 bits):
    linearity, invertibility, checksum creation and detection of up to four
    substituted symbols. No code is modelled here. *)
From Coq Require Import ZArith List Bool Lia.
From Verif Require Import Go GoFacts Bech32Spec.
Import ListNotations.
Open Scope Z_scope.

Ltac xbits :=
  apply Z.bits_inj'; let n := fresh "n" in let H := fresh "H" in intros n H;
  rewrite ?Z.lxor_spec, ?Z.bits_0;
  repeat match goal with |- context [Z.testbit ?a ?b] => destruct (Z.testbit a b) end;
  reflexivity.

Lemma lxor_swap a b c d : Z.lxor (Z.lxor a b) (Z.lxor c d) = Z.lxor (Z.lxor a c) (Z.lxor b d).
Proof. xbits. Qed.
Lemma lxor_eq0 a b : Z.lxor a b = 0 -> a = b.
Proof. apply Z.lxor_eq. Qed.
Lemma lxor_cancel a b : Z.lxor a (Z.lxor a b) = b.
Proof. rewrite <- Z.lxor_assoc, Z.lxor_nilpotent. apply Z.lxor_0_l. Qed.

Lemma small_testbit n a : 0 <= n -> 0 <= a < 2 ^ n -> forall i, n <= i -> Z.testbit a i = false.
Proof.
  intros Hn Ha i Hi. rewrite Z.testbit_false by lia.
  rewrite Z.div_small; [reflexivity|].
  split; [lia|]. apply Z.lt_le_trans with (2 ^ n); [lia|]. apply Z.pow_le_mono_r; lia.
Qed.
Lemma testbit_small n a : 0 <= n -> 0 <= a -> (forall i, n <= i -> Z.testbit a i = false) -> a < 2 ^ n.
Proof.
  intros Hn Ha H. destruct (Z.eq_dec a 0) as [->|Hz]; [apply Z.pow_pos_nonneg; lia|].
  assert (Hl : Z.log2 a < n).
  { destruct (Z_lt_le_dec (Z.log2 a) n) as [|Hc]; [assumption|exfalso].
    pose proof (Z.bit_log2 a ltac:(lia)) as Hb. rewrite (H _ Hc) in Hb. discriminate. }
  apply Z.log2_lt_pow2; lia.
Qed.
Lemma lxor_range n a b : 0 <= n -> 0 <= a < 2 ^ n -> 0 <= b < 2 ^ n -> 0 <= Z.lxor a b < 2 ^ n.
Proof.
  intros Hn Ha Hb.
  assert (H0 : 0 <= Z.lxor a b) by (apply Z.lxor_nonneg; lia).
  split; [assumption|]. apply testbit_small; auto.
  intros i Hi. rewrite Z.lxor_spec, (small_testbit n a), (small_testbit n b) by auto. reflexivity.
Qed.
Lemma land_pow2 a i : 0 <= i -> (Z.land a (2 ^ i) =? 0) = negb (Z.testbit a i).
Proof.
  intros Hi.
  assert (H : Z.land a (2 ^ i) = if Z.testbit a i then 2 ^ i else 0).
  { apply Z.bits_inj'; intros n Hn. rewrite Z.land_spec, Z.pow2_bits_eqb by assumption.
    destruct (Z.eqb_spec i n) as [->|Hne].
    - destruct (Z.testbit a n); [rewrite Z.pow2_bits_true by lia; reflexivity|rewrite Z.bits_0; reflexivity].
    - rewrite andb_false_r. destruct (Z.testbit a i); [rewrite Z.pow2_bits_false by lia|rewrite Z.bits_0]; reflexivity. }
  rewrite H. destruct (Z.testbit a i); [|reflexivity].
  cbn [negb]. apply Z.eqb_neq. pose proof (Z.pow_pos_nonneg 2 i). lia.
Qed.

(** ** Linear maps given by the images of the powers of two *)
Fixpoint gsum (gs : list Z) (i t : Z) : Z :=
  match gs with
  | [] => 0
  | g :: r => Z.lxor (if Z.testbit t i then g else 0) (gsum r (i + 1) t)
  end.
Lemma gsum_lxor gs i a b : gsum gs i (Z.lxor a b) = Z.lxor (gsum gs i a) (gsum gs i b).
Proof.
  revert i; induction gs as [|g gs IH]; intros i; cbn [gsum]; [reflexivity|].
  rewrite IH, Z.lxor_spec.
  destruct (Z.testbit a i), (Z.testbit b i); cbn [xorb]; xbits.
Qed.
Lemma gsum_0 gs i : gsum gs i 0 = 0.
Proof. revert i; induction gs as [|g gs IH]; intros i; cbn [gsum]; [reflexivity|]. rewrite IH, Z.bits_0. reflexivity. Qed.
Lemma gsum_range n gs i t : 0 <= n -> Forall (fun g => 0 <= g < 2 ^ n) gs -> 0 <= gsum gs i t < 2 ^ n.
Proof.
  intros Hn H; revert i; induction H as [|g gs Hg _ IH]; intros i; cbn [gsum].
  - pose proof (Z.pow_pos_nonneg 2 n). lia.
  - apply lxor_range; auto. destruct (Z.testbit t i); [assumption|]. pose proof (Z.pow_pos_nonneg 2 n). lia.
Qed.

Definition linear (f : Z -> Z) := forall a b, f (Z.lxor a b) = Z.lxor (f a) (f b).
Lemma linear_0 f : linear f -> f 0 = 0.
Proof. intros H. pose proof (H 0 0) as E. rewrite Z.lxor_nilpotent in E. rewrite Z.lxor_nilpotent in E. exact E. Qed.
Lemma linear_ext (f g : Z -> Z) (n : nat) :
  linear f -> linear g ->
  (forall i, (i < n)%nat -> f (2 ^ Z.of_nat i) = g (2 ^ Z.of_nat i)) ->
  forall c, 0 <= c < 2 ^ Z.of_nat n -> f c = g c.
Proof.
  intros Hf Hg. induction n as [|n IH]; intros Hb c Hc.
  - assert (c = 0) by (change (2 ^ Z.of_nat 0) with 1 in Hc; lia). subst.
    rewrite (linear_0 f), (linear_0 g); auto.
  - destruct (Z_lt_le_dec c (2 ^ Z.of_nat n)) as [Hl|Hl].
    + apply IH; [intros; apply Hb; lia|lia].
    + assert (Hp : 0 < 2 ^ Z.of_nat n) by (apply Z.pow_pos_nonneg; lia).
      assert (Hs : 2 ^ Z.of_nat (S n) = 2 * 2 ^ Z.of_nat n) by (rewrite Nat2Z.inj_succ, Z.pow_succ_r; lia).
      assert (E : c = Z.lxor (2 ^ Z.of_nat n) (c - 2 ^ Z.of_nat n)).
      { set (d := c - 2 ^ Z.of_nat n) in *. assert (Hd : 0 <= d < 2 ^ Z.of_nat n) by lia.
        rewrite <- Z.add_nocarry_lxor; [lia|].
        apply Z.bits_inj'; intros k Hk. rewrite Z.land_spec, Z.bits_0, Z.pow2_bits_eqb by lia.
        destruct (Z.eqb_spec (Z.of_nat n) k) as [<-|]; [|reflexivity].
        rewrite (small_testbit (Z.of_nat n) d); auto; lia. }
      rewrite E, Hf, Hg, (Hb n) by lia. f_equal. apply IH; [intros; apply Hb; lia|lia].
Qed.

(** ** A small set of positives *)
Inductive pset := PLeaf | PNode (b : bool) (l r : pset).
Fixpoint padd (p : positive) (t : pset) : pset :=
  match p with
  | xH => match t with PLeaf => PNode true PLeaf PLeaf | PNode _ l r => PNode true l r end
  | xO q => match t with PLeaf => PNode false (padd q PLeaf) PLeaf | PNode b l r => PNode b (padd q l) r end
  | xI q => match t with PLeaf => PNode false PLeaf (padd q PLeaf) | PNode b l r => PNode b l (padd q r) end
  end.
Fixpoint pmem (p : positive) (t : pset) : bool :=
  match t with
  | PLeaf => false
  | PNode b l r => match p with xH => b | xO q => pmem q l | xI q => pmem q r end
  end.
Lemma pmem_add_same p t : pmem p (padd p t) = true.
Proof. revert t; induction p; intros [|b l r]; cbn; auto. Qed.
Lemma pmem_add_mono q p t : pmem q t = true -> pmem q (padd p t) = true.
Proof.
  revert q t; induction p as [p IH|p IH|]; intros [q|q|] [|b l r]; cbn; auto; discriminate.
Qed.
Definition zadd (z : Z) (t : pset) : pset := match z with Zpos p => padd p t | _ => t end.
Definition zmem (z : Z) (t : pset) : bool := match z with Zpos p => pmem p t | _ => false end.
Definition zset (l : list Z) : pset := fold_right zadd PLeaf l.
Lemma zmem_zset z l : 0 < z -> In z l -> zmem z (zset l) = true.
Proof.
  intros Hz. induction l as [|x l IH]; [intros []|]. intros [->|H]; cbn [zset fold_right].
  - destruct z; try lia. cbn. apply pmem_add_same.
  - specialize (IH H). destruct z; try lia. cbn [zmem] in *. destruct x; cbn [zadd]; auto.
    apply pmem_add_mono. exact IH.
Qed.

(** ** The register *)
Section Register.
  Variable m : Z.
  Hypothesis Hm : 0 <= m.
  Variable gens : list Z.
  Hypothesis Hgens : Forall (fun g => 0 <= g < 2 ^ (m + 5)) gens.

  (** multiply by x, then add v *)
  Definition shx (c : Z) : Z := Z.lxor (Z.shiftl (Z.land c (Z.ones m)) 5) (gsum gens 0 (Z.shiftr c m)).
  Definition gstep (c v : Z) : Z := Z.lxor (shx c) v.

  Lemma shx_linear : linear shx.
  Proof.
    intros a b. unfold shx. rewrite Z.shiftr_lxor, gsum_lxor.
    replace (Z.shiftl (Z.land (Z.lxor a b) (Z.ones m)) 5)
      with (Z.lxor (Z.shiftl (Z.land a (Z.ones m)) 5) (Z.shiftl (Z.land b (Z.ones m)) 5)).
    - apply lxor_swap.
    - rewrite <- Z.shiftl_lxor. f_equal. apply Z.bits_inj'; intros n Hn.
      rewrite Z.lxor_spec, !Z.land_spec, Z.lxor_spec.
      destruct (Z.testbit a n), (Z.testbit b n), (Z.testbit (Z.ones m) n); reflexivity.
  Qed.
  Lemma shx_0 : shx 0 = 0.
  Proof. apply linear_0, shx_linear. Qed.
  Lemma shx_range c : 0 <= c -> 0 <= shx c < 2 ^ (m + 5).
  Proof.
    intros Hc. apply lxor_range; [lia| |apply gsum_range; [lia|assumption]].
    rewrite Z.land_ones, Z.shiftl_mul_pow2 by lia.
    rewrite Z.pow_add_r by lia. pose proof (Z.mod_pos_bound c (2 ^ m)).
    assert (0 < 2 ^ m) by (apply Z.pow_pos_nonneg; lia). change (2 ^ 5) with 32. nia.
  Qed.
  Lemma gstep_lxor a b u v : gstep (Z.lxor a b) (Z.lxor u v) = Z.lxor (gstep a u) (gstep b v).
  Proof. unfold gstep. rewrite shx_linear. apply lxor_swap. Qed.
  Lemma pow5_le n : 0 <= n -> 2 ^ 5 <= 2 ^ (n + 5).
  Proof. intros. apply Z.pow_le_mono_r; lia. Qed.
  Lemma gstep_range c v : 0 <= c -> 0 <= v < 32 -> 0 <= gstep c v < 2 ^ (m + 5).
  Proof.
    intros. apply lxor_range; [lia|apply shx_range; assumption|]. pose proof (pow5_le m Hm). change (2 ^ 5) with 32 in *. lia.
  Qed.
  Lemma fold_range vs c : Forall (fun v => 0 <= v < 32) vs -> 0 <= c < 2 ^ (m + 5) ->
    0 <= fold_left gstep vs c < 2 ^ (m + 5).
  Proof.
    intros H; revert c; induction H as [|v vs Hv _ IH]; intros c Hc; cbn [fold_left]; [assumption|].
    apply IH. apply gstep_range; lia.
  Qed.

  Fixpoint xor2 (a b : list Z) : list Z :=
    match a, b with x :: r, y :: t => Z.lxor x y :: xor2 r t | _, _ => [] end.
  Lemma fold_xor2 vs ws a b : length vs = length ws ->
    fold_left gstep (xor2 vs ws) (Z.lxor a b) = Z.lxor (fold_left gstep vs a) (fold_left gstep ws b).
  Proof.
    revert ws a b; induction vs as [|v vs IH]; intros [|w ws] a b Hl; try discriminate; cbn [xor2 fold_left]; [reflexivity|].
    rewrite gstep_lxor. apply IH. cbn in Hl. lia.
  Qed.

  (** feeding 5-bit digits into an empty register just packs them, up to m/5+1 digits *)
  Lemma shx_small c : 0 <= c < 2 ^ m -> shx c = c * 32.
  Proof.
    intros Hc. unfold shx. rewrite Z.land_ones, Z.mod_small, Z.shiftl_mul_pow2 by lia.
    rewrite Z.shiftr_div_pow2, Z.div_small by lia. rewrite gsum_0. apply Z.lxor_0_r.
  Qed.
  Lemma gstep_small c v : 0 <= c < 2 ^ m -> 0 <= v < 32 -> gstep c v = c * 32 + v.
  Proof.
    intros Hc Hv. unfold gstep. rewrite shx_small by assumption.
    rewrite <- Z.add_nocarry_lxor; [reflexivity|].
    change 32 with (2 ^ 5). rewrite <- Z.shiftl_mul_pow2 by lia.
    apply Z.bits_inj'; intros k Hk. rewrite Z.land_spec, Z.bits_0.
    destruct (Z_lt_le_dec k 5).
    - rewrite Z.shiftl_spec_low by lia. reflexivity.
    - rewrite (small_testbit 5 v) by (try lia; change (2 ^ 5) with 32; lia). apply andb_false_r.
  Qed.

  (** *** Injectivity *)
  Hypothesis low_ok : forallb (fun t => (t =? 0) || negb (Z.land (gsum gens 0 t) 31 =? 0))
                      (map Z.of_nat (seq 0 32)) = true.
  Lemma shx_ker c : 0 <= c < 2 ^ (m + 5) -> shx c = 0 -> c = 0.
  Proof.
    intros Hc H. unfold shx in H. apply lxor_eq0 in H.
    set (t := Z.shiftr c m) in *.
    assert (Ht : 0 <= t < 32).
    { unfold t. rewrite Z.shiftr_div_pow2 by lia. rewrite Z.pow_add_r in Hc by lia.
      split; [apply Z.div_pos; [lia|apply Z.pow_pos_nonneg; lia]|].
      apply Z.div_lt_upper_bound; [apply Z.pow_pos_nonneg; lia|]. change (2 ^ 5) with 32 in Hc. lia. }
    assert (Hland : Z.land (gsum gens 0 t) 31 = 0).
    { rewrite <- H. apply Z.bits_inj'; intros k Hk. rewrite Z.land_spec, Z.bits_0.
      destruct (Z_lt_le_dec k 5).
      - rewrite Z.shiftl_spec_low by lia. reflexivity.
      - rewrite (small_testbit 5 31) by (try lia; change (2 ^ 5) with 32; lia). apply andb_false_r. }
    assert (t = 0).
    { rewrite forallb_forall in low_ok. specialize (low_ok t).
      assert (Hin : In t (map Z.of_nat (seq 0 32))).
      { apply in_map_iff. exists (Z.to_nat t). split; [lia|]. apply in_seq. lia. }
      specialize (low_ok Hin). rewrite Hland in low_ok. cbn [negb Z.eqb] in low_ok.
      rewrite orb_false_r in low_ok. lia. }
    rewrite H0 in H. rewrite gsum_0 in H.
    rewrite Z.land_ones, Z.shiftl_mul_pow2 in H by lia.
    unfold t in H0. rewrite Z.shiftr_div_pow2 in H0 by lia.
    pose proof (Z.div_mod c (2 ^ m)). assert (0 < 2 ^ m) by (apply Z.pow_pos_nonneg; lia).
    change (2 ^ 5) with 32 in H. nia.
  Qed.

  (** *** Error patterns, last symbol first *)
  Fixpoint tpow (d : nat) (v : Z) : Z := match d with O => v | S d' => shx (tpow d' v) end.
  Fixpoint sy (d : nat) (r : list Z) : Z :=
    match r with [] => 0 | v :: r' => Z.lxor (tpow d v) (sy (S d) r') end.
  Lemma sy_S d r : shx (sy d r) = sy (S d) r.
  Proof. revert d; induction r as [|v r IH]; intros d; cbn [sy]; [apply shx_0|]. rewrite shx_linear, IH. reflexivity. Qed.
  Lemma fold_sy r : fold_left gstep (rev r) 0 = sy 0 r.
  Proof.
    induction r as [|v r IH]; [reflexivity|]. cbn [rev]. rewrite fold_left_app, IH. cbn [fold_left].
    unfold gstep. rewrite sy_S. cbn [sy tpow]. apply Z.lxor_comm.
  Qed.
  Lemma tpow_0 d : tpow d 0 = 0.
  Proof. induction d; cbn [tpow]; [reflexivity|]. rewrite IHd. apply shx_0. Qed.
  Lemma tpow_linear d : linear (tpow d).
  Proof. induction d; intros a b; cbn [tpow]; [reflexivity|]. rewrite IHd. apply shx_linear. Qed.
  Lemma tpow_range d v : 0 <= v < 32 -> 0 <= tpow d v < 2 ^ (m + 5).
  Proof.
    intros Hv; induction d; cbn [tpow]; [|apply shx_range; lia].
    pose proof (pow5_le m Hm). change (2 ^ 5) with 32 in *. lia.
  Qed.

  Fixpoint pts (d : nat) (r : list Z) : list (nat * Z) :=
    match r with [] => [] | v :: r' => if v =? 0 then pts (S d) r' else (d, v) :: pts (S d) r' end.
  Definition xsum (l : list (nat * Z)) : Z := fold_right (fun p a => Z.lxor (tpow (fst p) (snd p)) a) 0 l.
  Lemma sy_pts d r : sy d r = xsum (pts d r).
  Proof.
    revert d; induction r as [|v r IH]; intros d; cbn [sy pts]; [reflexivity|].
    destruct (Z.eqb_spec v 0) as [->|]; [rewrite tpow_0, Z.lxor_0_l; apply IH|].
    cbn [xsum fold_right fst snd]. f_equal. apply IH.
  Qed.
  Lemma pts_bound d r : Forall (fun v => 0 <= v < 32) r ->
    Forall (fun p => (d <= fst p < d + length r)%nat /\ 0 < snd p < 32) (pts d r).
  Proof.
    intros H; revert d; induction H as [|v r Hv _ IH]; intros d; cbn [pts length]; [constructor|].
    destruct (Z.eqb_spec v 0) as [->|].
    - eapply Forall_impl; [|apply IH]. intros [a b]; cbn. lia.
    - constructor; [cbn; lia|]. eapply Forall_impl; [|apply IH]. intros [a b]; cbn. lia.
  Qed.
  Fixpoint incr (l : list (nat * Z)) : Prop :=
    match l with [] => True | p :: r => Forall (fun q => (fst p < fst q)%nat) r /\ incr r end.
  Lemma pts_incr d r : Forall (fun v => 0 <= v < 32) r -> incr (pts d r).
  Proof.
    intros H; revert d; induction H as [|v r Hv H IH]; intros d; cbn [pts]; [exact I|].
    destruct (v =? 0); [apply IH|]. cbn [incr]. split; [|apply IH].
    eapply Forall_impl; [|apply (pts_bound (S d) r H)]. intros [a b]; cbn. lia.
  Qed.

  (** [good k l]: no non-empty set of at most k errors at increasing distances 1..N cancels the
      upper digits of the register *)
  Variable N : nat.
  Variable K : nat.
  Hypothesis free : forall l, (0 < length l <= K)%nat -> incr l ->
    Forall (fun p => (1 <= fst p <= N)%nat /\ 0 < snd p < 32) l -> Z.shiftr (xsum l) 5 <> 0.

  Definition weight (r : list Z) : nat := length (filter (fun v => negb (v =? 0)) r).
  Lemma pts_weight d r : length (pts d r) = weight r.
  Proof.
    revert d; induction r as [|v r IH]; intros d; cbn [pts]; [reflexivity|].
    unfold weight in *. cbn [filter]. destruct (v =? 0); cbn [negb length]; rewrite <- (IH (S d)); reflexivity.
  Qed.
  Lemma sy_range d r : Forall (fun v => 0 <= v < 32) r -> 0 <= sy d r < 2 ^ (m + 5).
  Proof.
    intros H; revert d; induction H as [|v r Hv _ IH]; intros d; cbn [sy].
    - pose proof (Z.pow_pos_nonneg 2 (m + 5)). lia.
    - apply lxor_range; [lia|apply tpow_range; assumption|apply IH].
  Qed.
  Lemma syndrome_nonzero r : Forall (fun v => 0 <= v < 32) r ->
    (length r <= S N)%nat -> (0 < weight r <= S K)%nat -> sy 0 r <> 0.
  Proof.
    induction r as [|v r IH]; intros Hr Hl Hw Hz; [cbn in Hw; lia|].
    inversion Hr as [|? ? Hv Hr']; subst. cbn [length] in Hl.
    unfold weight in Hw. cbn [filter] in Hw. cbn [sy tpow] in Hz.
    destruct (Z.eqb_spec v 0) as [->|Hv0]; cbn [negb length] in Hw.
    - rewrite Z.lxor_0_l, <- sy_S in Hz. apply shx_ker in Hz; [|apply sy_range; assumption].
      revert Hz. apply IH; auto. lia.
    - apply lxor_eq0 in Hz.
      assert (Hs : Z.shiftr (sy 1 r) 5 = 0).
      { rewrite <- Hz, Z.shiftr_div_pow2, Z.div_small; lia. }
      rewrite sy_pts in Hs.
      destruct (Nat.eq_dec (weight r) 0) as [Hw0|Hw0].
      + rewrite <- (pts_weight 1) in Hw0. rewrite sy_pts in Hz.
        destruct (pts 1 r); [cbn in Hz; lia|discriminate].
      + revert Hs. apply free.
        * rewrite pts_weight. unfold weight in *. lia.
        * apply pts_incr; assumption.
        * eapply Forall_impl; [|apply (pts_bound 1 r Hr')]. intros [a b]; cbn. lia.
  Qed.

  Lemma weight_xor2 a b : length a = length b -> weight (xor2 a b) = hamming a b.
  Proof.
    revert b; induction a as [|x a IH]; intros [|y b] Hl; try discriminate; [reflexivity|].
    cbn [xor2 hamming]. unfold weight in *. cbn [filter].
    destruct (Z.eqb_spec x y) as [->|Hxy].
    - rewrite Z.lxor_nilpotent. cbn [negb Z.eqb]. apply IH. cbn in Hl; lia.
    - destruct (Z.eqb_spec (Z.lxor x y) 0) as [E|]; [apply Z.lxor_eq in E; contradiction|].
      cbn [negb length]. rewrite IH by (cbn in Hl; lia). reflexivity.
  Qed.
  Lemma weight_rev r : weight (rev r) = weight r.
  Proof.
    unfold weight. induction r as [|v r IH]; [reflexivity|].
    cbn [rev]. rewrite filter_app, app_length, IH. cbn [filter]. destruct (negb (v =? 0)); cbn [length]; lia.
  Qed.
  Lemma xor2_length a b : length a = length b -> length (xor2 a b) = length a.
  Proof. revert b; induction a as [|x a IH]; intros [|y b] Hl; try discriminate; cbn [xor2 length]; [reflexivity|]. rewrite IH; cbn in Hl; lia. Qed.
  Lemma xor2_range a b : Forall (fun v => 0 <= v < 32) a -> Forall (fun v => 0 <= v < 32) b ->
    Forall (fun v => 0 <= v < 32) (xor2 a b).
  Proof.
    intros H; revert b; induction H as [|x a Hx _ IH]; intros b Hb; [constructor|].
    destruct Hb as [|y b Hy Hb]; cbn [xor2]; [constructor|]. constructor; [|apply IH; assumption].
    apply (lxor_range 5); change (2 ^ 5) with 32; lia.
  Qed.
  (** up to K+1 substitutions among at most N+1 symbols change the register *)
  Theorem errors_detected a b s :
    Forall (fun v => 0 <= v < 32) a -> Forall (fun v => 0 <= v < 32) b ->
    length a = length b -> (length a <= S N)%nat -> (0 < hamming a b <= S K)%nat ->
    fold_left gstep a s <> fold_left gstep b s.
  Proof.
    intros Ha Hb Hl HN Hh E.
    assert (H0 : fold_left gstep (xor2 a b) 0 = 0).
    { rewrite <- (Z.lxor_nilpotent s) at 1. rewrite fold_xor2, E by assumption. apply Z.lxor_nilpotent. }
    rewrite <- (rev_involutive (xor2 a b)), fold_sy in H0. revert H0.
    apply syndrome_nonzero.
    - apply Forall_rev, xor2_range; assumption.
    - rewrite rev_length, xor2_length; assumption.
    - rewrite weight_rev, weight_xor2; assumption.
  Qed.
End Register.
