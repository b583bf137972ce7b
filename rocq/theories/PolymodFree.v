(** Reduction of the error-pattern check of [PolymodProofs.errors_detected] to a finite
    computation, using multiplication by the generator of GF(32) to normalise one error to 1. *)
From Coq Require Import ZArith List Bool Lia.
From Verif Require Import Go GoFacts Bech32Spec PolymodProofs.
Import ListNotations.
Open Scope Z_scope.

Fixpoint mul_basis (groups : nat) (j : Z) : list Z :=
  match groups with
  | O => []
  | S g => [2 ^ (j + 1); 2 ^ (j + 2); 2 ^ (j + 3); 2 ^ (j + 4); 9 * 2 ^ j] ++ mul_basis g (j + 5)
  end.

Section Free.
  Variable m : Z.
  Hypothesis Hm : 0 <= m.
  Variable gens : list Z.
  Hypothesis Hgens : Forall (fun g => 0 <= g < 2 ^ (m + 5)) gens.
  Variable groups : nat.
  Hypothesis Hgroups : m + 5 = Z.of_nat (5 * groups).
  Let X := shx m gens.
  Let T := tpow m gens.
  Definition mula (c : Z) : Z := gsum (mul_basis groups 0) 0 c.

  Lemma mula_linear : linear mula.
  Proof. intros a b. apply gsum_lxor. Qed.

  Hypothesis commute_check :
    forallb (fun i => Z.eqb (mula (X (2 ^ Z.of_nat i))) (X (mula (2 ^ Z.of_nat i)))) (seq 0 (5 * groups)) = true.
  Lemma mula_X c : 0 <= c < 2 ^ (m + 5) -> mula (X c) = X (mula c).
  Proof.
    intros Hc. rewrite Hgroups in Hc.
    apply (linear_ext (fun c => mula (X c)) (fun c => X (mula c)) (5 * groups)); auto.
    - intros a b. unfold X. rewrite shx_linear by assumption. apply mula_linear.
    - intros a b. rewrite mula_linear. unfold X. apply shx_linear; assumption.
    - intros i Hi. rewrite forallb_forall in commute_check. specialize (commute_check i).
      apply Z.eqb_eq, commute_check, in_seq. lia.
  Qed.
  Hypothesis small_check :
    forallb (fun v => (1 <=? mula v) && (mula v <? 32)) (map Z.of_nat (seq 1 31)) = true.
  Lemma in_small v : 0 < v < 32 -> In v (map Z.of_nat (seq 1 31)).
  Proof. intros. apply in_map_iff. exists (Z.to_nat v). split; [lia|]. apply in_seq. lia. Qed.
  Lemma mula_small v : 0 < v < 32 -> 0 < mula v < 32.
  Proof.
    intros Hv. rewrite forallb_forall in small_check. specialize (small_check v (in_small v Hv)). lia.
  Qed.
  Lemma mula_T d v : 0 < v < 32 -> mula (T d v) = T d (mula v).
  Proof.
    intros Hv. induction d as [|d IH]; [reflexivity|].
    unfold T in *. cbn [tpow]. fold X. rewrite mula_X; [congruence|].
    apply tpow_range; auto. lia.
  Qed.
  Fixpoint mulk (k : nat) (v : Z) : Z := match k with O => v | S k' => mula (mulk k' v) end.
  Lemma mulk_linear k : linear (mulk k).
  Proof. induction k; intros a b; cbn [mulk]; [reflexivity|]. rewrite IHk. apply mula_linear. Qed.
  Lemma mulk_small k v : 0 < v < 32 -> 0 < mulk k v < 32.
  Proof. intros; induction k; cbn [mulk]; [assumption|]. apply mula_small; assumption. Qed.
  Lemma mulk_T k d v : 0 < v < 32 -> mulk k (T d v) = T d (mulk k v).
  Proof.
    intros; induction k; cbn [mulk]; [reflexivity|]. rewrite IHk. apply mula_T. apply mulk_small; assumption.
  Qed.
  Hypothesis orbit_check :
    forallb (fun v => existsb (fun k => mulk k v =? 1) (seq 0 31)) (map Z.of_nat (seq 1 31)) = true.
  Lemma orbit v : 0 < v < 32 -> exists k, mulk k v = 1.
  Proof.
    intros Hv. rewrite forallb_forall in orbit_check. specialize (orbit_check v (in_small v Hv)).
    apply existsb_exists in orbit_check. destruct orbit_check as (k & _ & Hk). exists k. lia.
  Qed.
  Lemma mulk_xsum k l : Forall (fun p : nat * Z => 0 < snd p < 32) l ->
    mulk k (xsum m gens l) = xsum m gens (map (fun p => (fst p, mulk k (snd p))) l).
  Proof.
    intros H; induction H as [|[d v] l Hv _ IH]; cbn [xsum fold_right map fst snd].
    - apply linear_0, mulk_linear.
    - fold (xsum m gens l). rewrite mulk_linear, IH. f_equal. apply (mulk_T k d v Hv).
  Qed.
  Lemma shiftr5_0 c : 0 <= c -> (Z.shiftr c 5 = 0 <-> c < 32).
  Proof.
    intros Hc. rewrite Z.shiftr_div_pow2 by lia. change (2 ^ 5) with 32.
    split; intros; [|apply Z.div_small; lia].
    pose proof (Z.div_mod c 32). pose proof (Z.mod_pos_bound c 32). lia.
  Qed.
  Lemma xsum_range l : Forall (fun p : nat * Z => 0 < snd p < 32) l -> 0 <= xsum m gens l < 2 ^ (m + 5).
  Proof.
    intros H; induction H as [|[d v] l Hv _ IH]; cbn [xsum fold_right fst snd].
    - pose proof (Z.pow_pos_nonneg 2 (m + 5)). lia.
    - apply lxor_range; [lia| |apply IH]. apply tpow_range; auto. cbn in Hv. lia.
  Qed.

  (** *** The table *)
  Definition es : list Z := map Z.of_nat (seq 1 31).
  Definition hi (c : Z) : Z := Z.shiftr c 5.
  Fixpoint rows (n : nat) (cur : list Z) : list (list Z) :=
    match n with
    | O => []
    | S n' => let c := map X cur in map hi c :: rows n' c
    end.
  Definition hT (d : nat) (v : Z) : Z := hi (T d v).
  (** rows with distances d+1, d+2, ... *)
  Lemma rows_eq n d : rows n (map (T d) es) = map (fun d => map (hT d) es) (seq (S d) n).
  Proof.
    revert d; induction n as [|n IH]; intros d; cbn [rows seq map]; [reflexivity|].
    assert (E : map X (map (T d) es) = map (T (S d)) es) by (rewrite map_map; apply map_ext; reflexivity).
    rewrite E, IH. f_equal; apply map_map.
  Qed.

  Definition pair_ok (s : pset) (x : Z) (later : list (list Z)) : bool :=
    forallb (forallb (fun y => let z := Z.lxor x y in (0 <? z) && negb (zmem z s))) later.
  Fixpoint tri_check (s : pset) (rs : list (list Z)) : bool :=
    match rs with
    | [] => true
    | r :: later =>
        match r with
        | [] => false
        | x :: _ => (0 <? x) && pair_ok s x later && tri_check s later
        end
    end.
  Definition free_check (n : nat) : bool :=
    let rs := rows n es in tri_check (zset (concat rs)) rs.

  Variable n : nat.
  Hypothesis Hfree : free_check n = true.
  Let S0 := zset (concat (rows n es)).
  Lemma T0 : map (T 0) es = es.
  Proof. unfold T. cbn [tpow]. apply map_id. Qed.
  Lemma rows_es : rows n es = map (fun d => map (hT d) es) (seq 1 n).
  Proof. rewrite <- (rows_eq n 0), T0. reflexivity. Qed.
  Lemma tri_spec s k d : tri_check s (map (fun d => map (hT d) es) (seq d k)) = true ->
    forall d1, (d <= d1 < d + k)%nat ->
      0 < hT d1 1 /\
      forall d2 e2, (d1 < d2 < d + k)%nat -> 0 < e2 < 32 ->
        0 < Z.lxor (hT d1 1) (hT d2 e2) /\ zmem (Z.lxor (hT d1 1) (hT d2 e2)) s = false.
  Proof.
    revert d; induction k as [|k IH]; intros d H d1 Hd1; [lia|].
    cbn [seq map] in H. unfold tri_check in H; fold tri_check in H.
    change (map (hT d) es) with (hT d 1 :: map (hT d) (map Z.of_nat (seq 2 30))) in H.
    cbv iota in H.
    apply andb_true_iff in H; destruct H as [H Hrec]. apply andb_true_iff in H; destruct H as [H1 Hp].
    destruct (Nat.eq_dec d1 d) as [->|Hne].
    - split; [lia|]. intros d2 e2 Hd2 He2.
      unfold pair_ok in Hp. rewrite forallb_forall in Hp.
      assert (Hin : In (map (hT d2) es) (map (fun d => map (hT d) es) (seq (S d) k))).
      { apply in_map_iff. exists d2. split; [reflexivity|]. apply in_seq. lia. }
      specialize (Hp _ Hin). rewrite forallb_forall in Hp.
      assert (Hin2 : In (hT d2 e2) (map (hT d2) es)) by (apply in_map, in_small; assumption).
      specialize (Hp _ Hin2). cbv zeta in Hp. apply andb_true_iff in Hp. destruct Hp as [Ha Hb].
      split; [lia|]. destruct (zmem _ _); [discriminate|reflexivity].
    - destruct (IH (S d) Hrec d1 ltac:(lia)) as [Ha Hb]. split; [assumption|].
      intros. apply Hb; [lia|assumption].
  Qed.
  Lemma free_one d1 : (1 <= d1 <= n)%nat ->
      0 < hT d1 1 /\
      forall d2 e2, (d1 < d2 <= n)%nat -> 0 < e2 < 32 ->
        0 < Z.lxor (hT d1 1) (hT d2 e2) /\ zmem (Z.lxor (hT d1 1) (hT d2 e2)) S0 = false.
  Proof.
    intros Hd. pose proof Hfree as H. unfold free_check in H. cbv zeta in H. rewrite rows_es in H at 2.
    destruct (tri_spec _ _ _ H d1 ltac:(lia)) as [Ha Hb]. split; [assumption|].
    intros. apply Hb; [lia|assumption].
  Qed.
  Lemma in_table d e : (1 <= d <= n)%nat -> 0 < e < 32 -> In (hT d e) (concat (rows n es)).
  Proof.
    intros Hd He. rewrite rows_es. apply in_concat. exists (map (hT d) es). split.
    - apply in_map_iff. exists d. split; [reflexivity|]. apply in_seq. lia.
    - apply in_map, in_small; assumption.
  Qed.

  Lemma hi_xsum l : hi (xsum m gens l) = fold_right (fun p a => Z.lxor (hT (fst p) (snd p)) a) 0 l.
  Proof.
    induction l as [|[d v] l IH]; [reflexivity|]. cbn [xsum fold_right fst snd].
    unfold hi at 1. rewrite Z.shiftr_lxor. f_equal. exact IH.
  Qed.

  Theorem free_3 : forall l, (0 < length l <= 3)%nat -> incr l ->
    Forall (fun p => (1 <= fst p <= n)%nat /\ 0 < snd p < 32) l -> Z.shiftr (xsum m gens l) 5 <> 0.
  Proof.
    intros l Hl Hi Hf H0.
    assert (Hs : Forall (fun p : nat * Z => 0 < snd p < 32) l).
    { eapply Forall_impl; [|exact Hf]. intros p [_ Hp]; exact Hp. }
    destruct l as [|[d1 e1] l]; [cbn in Hl; lia|].
    inversion Hf as [|? ? [Hd1 He1] Hf']; subst. cbn [fst snd] in *.
    destruct (orbit e1 He1) as [k Hk].
    apply shiftr5_0 in H0; [|apply xsum_range; assumption].
    assert (Hsm : 0 <= mulk k (xsum m gens ((d1, e1) :: l)) < 32).
    { destruct (Z.eq_dec (xsum m gens ((d1, e1) :: l)) 0) as [->|Hne].
      - rewrite (linear_0 _ (mulk_linear k)). lia.
      - pose proof (xsum_range _ Hs). pose proof (mulk_small k (xsum m gens ((d1, e1) :: l))). lia. }
    rewrite mulk_xsum in Hsm by assumption. cbn [map fst snd] in Hsm. rewrite Hk in Hsm.
    assert (Hz : hi (xsum m gens ((d1, 1) :: map (fun p => (fst p, mulk k (snd p))) l)) = 0).
    { apply shiftr5_0; lia. }
    rewrite hi_xsum in Hz.
    destruct (free_one d1 Hd1) as [Ha Hb].
    destruct Hi as [Hlt Hi].
    destruct l as [|[d2 e2] l]; cbn [map fold_right fst snd] in Hz.
    - rewrite Z.lxor_0_r in Hz. lia.
    - inversion Hf' as [|? ? [Hd2 He2] Hf'']; subst. inversion Hlt as [|? ? Hlt2 Hlt']; subst. cbn [fst snd] in *.
      destruct (Hb d2 (mulk k e2) ltac:(lia) (mulk_small k e2 He2)) as [Hx Hy].
      destruct l as [|[d3 e3] l]; cbn [map fold_right fst snd] in Hz.
      + rewrite Z.lxor_0_r in Hz. lia.
      + inversion Hf'' as [|? ? [Hd3 He3] _]; subst. cbn [fst snd] in *.
        destruct l; [|cbn in Hl; lia]. cbn [map fold_right] in Hz.
        rewrite Z.lxor_0_r, <- Z.lxor_assoc in Hz. apply lxor_eq0 in Hz. rewrite Hz in Hx, Hy.
        unfold S0 in Hy. rewrite zmem_zset in Hy; [discriminate|assumption|].
        apply in_table; [assumption|apply mulk_small; assumption].
  Qed.
End Free.

(** The BIP173 register. *)
Definition gens30 : list Z := [996825010; 642813549; 513874426; 1027748829; 705979059].
Lemma gens30_range : Forall (fun g => 0 <= g < 2 ^ (25 + 5)) gens30.
Proof. repeat constructor; cbv; congruence. Qed.
Lemma low30_ok : forallb (fun t => (t =? 0) || negb (Z.land (gsum gens30 0 t) 31 =? 0)) (map Z.of_nat (seq 0 32)) = true.
Proof. vm_compute. reflexivity. Qed.
Lemma free30 : forall l, (0 < length l <= 3)%nat -> incr l ->
    Forall (fun p => (1 <= fst p <= 88)%nat /\ 0 < snd p < 32) l -> Z.shiftr (xsum 25 gens30 l) 5 <> 0.
Proof.
  apply free_3 with (groups := 6%nat).
  - lia.
  - exact gens30_range.
  - reflexivity.
  - vm_cast_no_check (eq_refl true).
  - vm_cast_no_check (eq_refl true).
  - vm_cast_no_check (eq_refl true).
  - vm_cast_no_check (eq_refl true).
Qed.
(** Up to four substitutions among at most 89 symbols are detected. *)
Theorem errors_detected30 a b s :
  Forall (fun v => 0 <= v < 32) a -> Forall (fun v => 0 <= v < 32) b ->
  length a = length b -> (length a <= 89)%nat -> (0 < hamming a b <= 4)%nat ->
  fold_left (gstep 25 gens30) a s <> fold_left (gstep 25 gens30) b s.
Proof.
  intros. apply (errors_detected 25 ltac:(lia) gens30 gens30_range low30_ok 88 3 free30); auto.
Qed.

(** The 40-bit register of the cash-address code. *)
Definition gens40 : list Z := [656907472481; 522768456162; 1044723512260; 748107326120; 130178868336].
Lemma gens40_range : Forall (fun g => 0 <= g < 2 ^ (35 + 5)) gens40.
Proof. repeat constructor; cbv; congruence. Qed.
Lemma low40_ok : forallb (fun t => (t =? 0) || negb (Z.land (gsum gens40 0 t) 31 =? 0)) (map Z.of_nat (seq 0 32)) = true.
Proof. vm_compute. reflexivity. Qed.
Lemma free40 : forall l, (0 < length l <= 3)%nat -> incr l ->
    Forall (fun p => (1 <= fst p <= 88)%nat /\ 0 < snd p < 32) l -> Z.shiftr (xsum 35 gens40 l) 5 <> 0.
Proof.
  apply free_3 with (groups := 8%nat).
  - lia.
  - exact gens40_range.
  - reflexivity.
  - vm_cast_no_check (eq_refl true).
  - vm_cast_no_check (eq_refl true).
  - vm_cast_no_check (eq_refl true).
  - vm_cast_no_check (eq_refl true).
Qed.
Theorem errors_detected40 a b s :
  Forall (fun v => 0 <= v < 32) a -> Forall (fun v => 0 <= v < 32) b ->
  length a = length b -> (length a <= 89)%nat -> (0 < hamming a b <= 4)%nat ->
  fold_left (gstep 35 gens40) a s <> fold_left (gstep 35 gens40) b s.
Proof.
  intros. apply (errors_detected 35 ltac:(lia) gens40 gens40_range low40_ok 88 3 free40); auto.
Qed.
