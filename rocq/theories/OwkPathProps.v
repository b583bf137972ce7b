(** C25: derivation paths of owkeychain. *)
From Coq Require Import String ZArith List Bool Lia ZifyBool ZifyNat.
From Verif Require Import Go GoFacts GoFacts2 Base58Spec PadLoop OwkModel OwkSpec OwkDeriveProofs OwkToy.
Import ListNotations.
Open Scope Z_scope.
Ltac Zify.zify_post_hook ::= idtac.

(** ** Specification *)
(** [s] is a non-empty string of decimal digits with value [v]. *)
Definition decimal (s : list Z) (v : Z) : Prop :=
  exists ds, ds <> [] /\ Forall (fun d => 0 <= d < 10) ds /\ s = map (fun d => 48 + d) ds /\ v = positional 10 ds.
(** A signed decimal number in the int64 range. *)
Definition signed_decimal (s : list Z) (w : Z) : Prop :=
  - 2 ^ 63 <= w < 2 ^ 63 /\
  exists sg d v, s = sg ++ d /\ decimal d v /\ ((sg = [] \/ sg = str "+") /\ w = v \/ sg = str "-" /\ w = - v).
(** A path element: a number, possibly followed by an apostrophe; and the child number it selects. *)
Definition element (e : list Z) (n : Z) : Prop :=
  exists d w, signed_decimal d w /\ (e = d /\ n = w mod 2 ^ 32 \/ e = d ++ str "'" /\ n = (w + 2 ^ 31) mod 2 ^ 32).
(** "/e1/e2/..." *)
Definition slashed (es : list (list Z)) : list Z := flat_map (fun e => str "/" ++ e) es.
Definition no_spaces (p q : list Z) : Prop := filter (fun c => negb (c =? 32)) p = q.

(** ** Lemmas *)
Lemma positional_acc base l : forall a, fold_left (fun acc d => acc * base + d) l a = a * base ^ zlen l + positional base l.
Proof.
  unfold positional. induction l as [|x l IH]; intros a; cbn [fold_left].
  - change (zlen (@nil Z)) with 0. rewrite Z.pow_0_r. ring.
  - rewrite IH, (IH (0 * base + x)), zlen_cons, Z.pow_add_r by (pose proof (zlen_nonneg l); lia). rewrite Z.pow_1_r. ring.
Qed.
Lemma digits_value_ok ds : forall a, Forall (fun d => 0 <= d < 10) ds ->
  digits_value (map (fun d => 48 + d) ds) a = Some (fold_left (fun acc d => acc * 10 + d) ds a).
Proof.
  induction ds as [|d ds IH]; intros a F; cbn [map digits_value fold_left]; [reflexivity|]. inversion F; subst.
  replace ((48 <=? 48 + d) && (48 + d <=? 57)) with true by lia. rewrite IH by assumption. f_equal. f_equal. lia.
Qed.
Lemma digits_value_inv s : forall a v, digits_value s a = Some v ->
  exists ds, Forall (fun d => 0 <= d < 10) ds /\ s = map (fun d => 48 + d) ds /\ v = fold_left (fun acc d => acc * 10 + d) ds a.
Proof.
  induction s as [|c s IH]; intros a v H; cbn [digits_value] in H.
  - injection H as <-. exists []. repeat split; constructor.
  - destruct ((48 <=? c) && (c <=? 57)) eqn:Q; [|discriminate]. destruct (IH _ _ H) as (ds & F & -> & ->).
    exists (c - 48 :: ds). split; [constructor; [lia|exact F]|]. cbn [map fold_left]. split; [f_equal; lia|reflexivity].
Qed.
Lemma decimal_cons_digit s v : decimal s v -> exists c r, s = c :: r /\ 48 <= c <= 57.
Proof. intros (ds & N & F & -> & _). destruct ds as [|d ds]; [contradiction|]. inversion F; subst. exists (48 + d), (map (fun d => 48 + d) ds). split; [reflexivity|lia]. Qed.
Lemma decimal_chars s v : decimal s v -> Forall (fun c => 48 <= c <= 57) s.
Proof. intros (ds & _ & F & -> & _). apply Forall_map. eapply Forall_impl; [|exact F]. cbn beta. intros; lia. Qed.
Lemma decimal_value s v : decimal s v -> digits_value s 0 = Some v.
Proof. intros (ds & _ & F & -> & ->). apply digits_value_ok, F. Qed.
Lemma atoi_iff s w : atoi s = Ok w <-> signed_decimal s w.
Proof.
  split.
  - unfold atoi. intros H.
    assert (G : exists sg d neg, s = sg ++ d /\ (neg = false /\ (sg = [] \/ sg = str "+") \/ neg = true /\ sg = str "-") /\
      match d with [] => Err | _ :: _ => match digits_value d 0 with None => Err | Some v => let w := if neg : bool then - v else v in
        if (- 2 ^ 63 <=? w) && (w <? 2 ^ 63) then Ok w else Err end end = Ok w).
    { destruct s as [|c r]; [discriminate|]. destruct (c =? 43) eqn:E1; [|destruct (c =? 45) eqn:E2].
      - apply Z.eqb_eq in E1. subst c. exists (str "+"), r, false. split; [reflexivity|]. split; [auto|exact H].
      - apply Z.eqb_eq in E2. subst c. exists (str "-"), r, true. split; [reflexivity|]. split; [auto|exact H].
      - exists [], (c :: r), false. split; [reflexivity|]. split; [auto|exact H]. }
    clear H. destruct G as (sg & d & neg & -> & Hs & H).
    destruct d as [|c d']; [discriminate|]. set (d := c :: d') in *. assert (Hd : d <> []) by discriminate. clearbody d.
    destruct (digits_value d 0) as [v|] eqn:V; [|discriminate]. cbv zeta in H. destruct (_ && _) eqn:R; [|discriminate]. injection H as <-.
    destruct (digits_value_inv _ _ _ V) as (ds & F & -> & ->). split; [lia|].
    exists sg, (map (fun d => 48 + d) ds), (positional 10 ds). split; [reflexivity|].
    split; [exists ds; split; [intros ->; apply Hd; reflexivity|split; [exact F|split; reflexivity]]|].
    destruct Hs as [(-> & Hs)|(-> & Hs)]; [left|right]; split; try assumption; reflexivity.
  - intros (R & sg & d & v & -> & D & S). pose proof (decimal_value d v D) as V. destruct (decimal_cons_digit d v D) as (c & r & Ed & Hc).
    unfold atoi. destruct S as [[[-> | ->] ->]|[-> ->]].
    + rewrite Ed at 1. cbn [app]. replace (c =? 43) with false by lia. replace (c =? 45) with false by lia.
      cbn [app]. rewrite Ed in *. rewrite V. cbv zeta. replace (_ && _) with true by lia. reflexivity.
    + change (str "+" ++ d) with (43 :: d). cbn [Z.eqb Pos.eqb]. rewrite Ed in *. rewrite V. cbv zeta. replace (_ && _) with true by lia. reflexivity.
    + change (str "-" ++ d) with (45 :: d). cbn [Z.eqb Pos.eqb]. rewrite Ed in *. rewrite V. cbv zeta. replace (_ && _) with true by lia. reflexivity.
Qed.
Lemma atoi_no_panic s : atoi s <> Panic.
Proof.
  unfold atoi. destruct (match s with [] => _ | _ :: _ => _ end) as [neg d]. destruct d; [discriminate|].
  destruct (digits_value _ 0); [|discriminate]. cbv zeta. destruct (_ && _); discriminate.
Qed.
Lemma index_absent x s : ~ In x s -> index_byte x s = -1.
Proof.
  induction s as [|c s IH]; intros H; cbn [index_byte]; [reflexivity|]. destruct (c =? x) eqn:E; [exfalso; apply H; left; lia|].
  rewrite IH; [reflexivity|]. intros Q; apply H; right; exact Q.
Qed.
Lemma index_first x d r : ~ In x d -> index_byte x (d ++ x :: r) = zlen d.
Proof.
  induction d as [|c d IH]; intros H; cbn [index_byte app].
  - rewrite Z.eqb_refl. reflexivity.
  - destruct (c =? x) eqn:E; [exfalso; apply H; left; lia|]. rewrite IH by (intros Q; apply H; right; exact Q).
    rewrite zlen_cons. pose proof (zlen_nonneg d). replace (zlen d =? -1) with false by lia. lia.
Qed.
Lemma index_inv x s : (index_byte x s = -1 /\ ~ In x s) \/ exists d r, s = d ++ x :: r /\ ~ In x d /\ index_byte x s = zlen d.
Proof.
  induction s as [|c s IH]; cbn [index_byte].
  - left. split; [reflexivity|intros []].
  - destruct (c =? x) eqn:E.
    + right. exists [], s. apply Z.eqb_eq in E. subst. split; [reflexivity|]. split; [intros []|reflexivity].
    + destruct IH as [[-> N]|(d & r & -> & N & ->)].
      * left. split; [reflexivity|]. intros [Q|Q]; [lia|contradiction].
      * right. exists (c :: d), r. split; [reflexivity|]. split; [intros [Q|Q]; [lia|contradiction]|].
        rewrite zlen_cons. pose proof (zlen_nonneg d). replace (zlen d =? -1) with false by lia. lia.
Qed.
Lemma signed_chars s w : signed_decimal s w -> Forall (fun c => 43 <= c <= 57 /\ c <> 47) s.
Proof.
  intros (_ & sg & d & v & -> & D & S). apply Forall_app. split.
  - destruct S as [[[-> | ->] _]|[-> _]]; [constructor| |]; (constructor; [cbn; lia|constructor]).
  - eapply Forall_impl; [|apply (decimal_chars _ _ D)]. cbn beta. intros; lia.
Qed.
Lemma signed_no s w x : signed_decimal s w -> (x < 43 \/ x = 47 \/ 57 < x) -> ~ In x s.
Proof. intros H Hx Q. pose proof (signed_chars s w H) as F. rewrite Forall_forall in F. specialize (F x Q). cbn beta in F. lia. Qed.
Lemma signed_nonempty s w : signed_decimal s w -> s <> [].
Proof. intros (_ & sg & d & v & -> & D & _) Q. destruct (decimal_cons_digit d v D) as (c & r & -> & _). destruct sg; discriminate. Qed.
Lemma u32_u32 w : u32 (u32 w + 2 ^ 31) = (w + 2 ^ 31) mod 2 ^ 32.
Proof. unfold u32. apply Zplus_mod_idemp_l. Qed.
Lemma zlen_eq0 {A} (l : list A) : (zlen l =? 0) = match l with [] => true | _ => false end.
Proof. destruct l; [reflexivity|]. rewrite zlen_cons. pose proof (zlen_nonneg l). lia. Qed.
Lemma elem_serial_iff e n : elem_serial e = Ok n <-> element e n.
Proof.
  split.
  - unfold elem_serial. intros H. rewrite zlen_eq0 in H. destruct e as [|c0 e0]; [discriminate|]. set (e := c0 :: e0) in *.
    assert (NE : 0 < zlen e) by (unfold e; rewrite zlen_cons; pose proof (zlen_nonneg e0); lia). clearbody e.
    destruct (index_byte 39 e =? zlen e - 1) eqn:Q.
    + apply Z.eqb_eq in Q. destruct (index_inv 39 e) as [[I N]|(d & r & -> & N & I)].
      * rewrite I in Q. lia.
      * rewrite I, zlen_app, zlen_cons in Q. assert (r = []) by (apply zlen_0; lia). subst r.
        rewrite zlen_app, zlen_cons in H. change (zlen (@nil Z)) with 0 in H. rewrite slice_pre in H by lia. cbn [bind] in H.
        apply bind_ok in H as (w & Hw & H). injection H as <-. apply atoi_iff in Hw. exists d, w. split; [exact Hw|]. right. split; [reflexivity|apply u32_u32].
    + apply bind_ok in H as (w & Hw & H). injection H as <-. apply atoi_iff in Hw. exists e, w. split; [exact Hw|]. left. split; reflexivity.
  - intros (d & w & Hw & [[-> ->]|[-> ->]]); unfold elem_serial; rewrite zlen_eq0.
    + pose proof (signed_nonempty _ _ Hw). assert (0 < zlen d) by (destruct d; [contradiction|]; rewrite zlen_cons; pose proof (zlen_nonneg d); lia).
      rewrite index_absent by (apply (signed_no _ _ 39 Hw); lia). replace (-1 =? zlen d - 1) with false by lia.
      destruct d; [contradiction|]. apply atoi_iff in Hw. rewrite Hw. reflexivity.
    + change (str "'") with [39]. rewrite index_first by (apply (signed_no _ _ 39 Hw); lia). rewrite zlen_app. change (zlen [39]) with 1.
      replace (zlen d =? zlen d + 1 - 1) with true by lia. destruct (d ++ [39]) eqn:Q; [destruct d; discriminate|]. rewrite <- Q.
      rewrite slice_pre by lia. cbn [bind]. apply atoi_iff in Hw. rewrite Hw. cbn [bind]. rewrite u32_u32. reflexivity.
Qed.
Lemma elem_serial_no_panic e : elem_serial e <> Panic.
Proof.
  unfold elem_serial. rewrite zlen_eq0. destruct e as [|c0 e0]; [discriminate|]. set (e := c0 :: e0).
  assert (NE : 0 < zlen e) by (unfold e; rewrite zlen_cons; pose proof (zlen_nonneg e0); lia).
  destruct (_ =? _).
  - destruct (slice_total e 0 (zlen e - 1) ltac:(lia) ltac:(lia)) as [d ->]. cbn [bind]. pose proof (atoi_no_panic d). destruct (atoi d); cbn [bind]; congruence.
  - pose proof (atoi_no_panic e). destruct (atoi e); cbn [bind]; congruence.
Qed.
Lemma elem_serial_cases e : (exists n, element e n /\ elem_serial e = Ok n) \/ (~ (exists n, element e n) /\ elem_serial e = Err).
Proof.
  destruct (elem_serial e) as [n| |] eqn:E.
  - left. exists n. split; [apply elem_serial_iff, E|reflexivity].
  - right. split; [|reflexivity]. intros (n & H). apply elem_serial_iff in H. congruence.
  - exfalso. exact (elem_serial_no_panic e E).
Qed.
Lemma element_no_slash e n : element e n -> ~ In 47 e.
Proof.
  intros (d & w & H & [[-> _]|[-> _]]) Q; [exact (signed_no _ _ 47 H ltac:(lia) Q)|].
  apply in_app_or in Q as [Q|[Q|[]]]; [exact (signed_no _ _ 47 H ltac:(lia) Q)|cbn in Q; lia].
Qed.
Lemma element_no_space e n : element e n -> ~ In 32 e.
Proof.
  intros (d & w & H & [[-> _]|[-> _]]) Q; [exact (signed_no _ _ 32 H ltac:(lia) Q)|].
  apply in_app_or in Q as [Q|[Q|[]]]; [exact (signed_no _ _ 32 H ltac:(lia) Q)|cbn in Q; lia].
Qed.
Lemma split_slash_app e s : ~ In 47 e -> split_slash (e ++ 47 :: s) = e :: split_slash s.
Proof.
  induction e as [|c e IH]; intros H; cbn [app split_slash]; [reflexivity|].
  destruct (c =? 47) eqn:E; [exfalso; apply H; left; lia|]. rewrite IH by (intros Q; apply H; right; exact Q). reflexivity.
Qed.
Lemma split_slash_one e : ~ In 47 e -> split_slash e = [e].
Proof.
  induction e as [|c e IH]; intros H; cbn [split_slash]; [reflexivity|].
  destruct (c =? 47) eqn:E; [exfalso; apply H; left; lia|]. rewrite IH by (intros Q; apply H; right; exact Q). reflexivity.
Qed.
Lemma split_slash_join es : forall e, Forall (fun e => ~ In 47 e) (e :: es) -> split_slash (e ++ slashed es) = e :: es.
Proof.
  induction es as [|e' es IH]; intros e F; inversion F; subst.
  - cbn [slashed flat_map]. rewrite app_nil_r. apply split_slash_one. assumption.
  - unfold slashed. cbn [flat_map]. change (str "/" ++ e') with (47 :: e'). cbn [app]. rewrite split_slash_app by assumption. f_equal.
    apply IH. assumption.
Qed.
Lemma split_slash_inv s : exists e es, split_slash s = e :: es /\ s = e ++ slashed es.
Proof.
  induction s as [|c s (e & es & E1 & E2)]; cbn [split_slash].
  - exists [], []. split; reflexivity.
  - destruct (c =? 47) eqn:E.
    + apply Z.eqb_eq in E. subst c. exists [], (e :: es). rewrite E1. split; [reflexivity|]. rewrite E2. reflexivity.
    + rewrite E1. exists (c :: e), es. split; [reflexivity|]. rewrite E2. reflexivity.
Qed.

Lemma derive_elems_chain gen : forall es ns k, Forall2 element es ns -> derive_elems gen k es = derive_chain gen k ns.
Proof.
  induction es as [|e es IH]; intros ns k F; inversion F; subst; cbn [derive_elems derive_chain]; [reflexivity|].
  match goal with H : element e _ |- _ => apply elem_serial_iff in H; rewrite H end. cbn [bind].
  destruct (gen k _); cbn [bind]; [apply IH; assumption|reflexivity|reflexivity].
Qed.
Lemma derive_elems_inv gen : forall es k k', derive_elems gen k es = Ok k' -> exists ns, Forall2 element es ns /\ derive_chain gen k ns = Ok k'.
Proof.
  induction es as [|e es IH]; intros k k' H; cbn [derive_elems] in H.
  - exists []. split; [constructor|exact H].
  - apply bind_ok in H as (n & Hn & H). apply bind_ok in H as (k1 & Hk & H). destruct (IH _ _ H) as (ns & F & D).
    exists (n :: ns). split; [constructor; [apply elem_serial_iff, Hn|exact F]|]. cbn [derive_chain]. rewrite Hk. exact D.
Qed.
Lemma slashed_no_space es ns : Forall2 element es ns -> filter (fun c => negb (c =? 32)) (slashed es) = slashed es.
Proof.
  induction 1 as [|e n es ns H F IH]; [reflexivity|]. unfold slashed in *. cbn [flat_map]. rewrite filter_app, IH. f_equal.
  change (str "/" ++ e) with (47 :: e). cbn [filter]. change (negb (47 =? 32)) with true. cbv iota. f_equal.
  assert (G : forall l, ~ In 32 l -> filter (fun c => negb (c =? 32)) l = l).
  { induction l as [|x l IHl]; intros N; [reflexivity|]. cbn [filter]. destruct (x =? 32) eqn:Q; [exfalso; apply N; left; lia|].
    cbn [negb]. rewrite IHl by (intros R; apply N; right; exact R). reflexivity. }
  apply G. apply (element_no_space _ _ H).
Qed.

(** ** Theorems *)
(** Every path m/e1/e2/... (with any spaces strewn in) whose elements are numbers, optionally signed and
    optionally marked with an apostrophe, derives the root key along exactly the child numbers the elements
    denote. *)
Theorem private_path_derives C seed ct p es ns : es <> [] -> Forall2 element es ns -> no_spaces p (str "m" ++ slashed es) ->
  derive_private_path C seed p ct =
    match init_root C seed ct with Ok root => derive_chain (gen_private C) root ns | Err => Err | Panic => Panic end.
Proof.
  intros N F S. unfold derive_private_path, remove_spaces. unfold no_spaces in S. rewrite S.
  destruct es as [|e es]; [contradiction|]. change (str "m" ++ slashed (e :: es)) with ([109; 47] ++ (e ++ slashed es)).
  assert (A : beq ([109; 47] ++ e ++ slashed es) (str "m") || beq ([109; 47] ++ e ++ slashed es) (str "/") || beq ([109; 47] ++ e ++ slashed es) [] = false) by reflexivity.
  rewrite A. assert (B : starts_with (str "m/") ([109; 47] ++ e ++ slashed es) = true) by reflexivity. rewrite B. cbn [negb].
  destruct (init_root C seed ct) as [root| |]; cbn [bind]; try reflexivity.
  rewrite slice_from_post by reflexivity. cbn [bind].
  rewrite split_slash_join; [apply derive_elems_chain; exact F|].
  clear - F. induction F as [|e0 n0 es0 ns0 H F IH]; [constructor|constructor; [apply (element_no_slash _ _ H)|exact IH]].
Qed.
(** Conversely nothing else is accepted: if a path yields a key, it is a root alias (and the key is the root)
    or it is of that form, with that key. *)
Theorem private_path_accepts_only C seed ct p k : derive_private_path C seed p ct = Ok k ->
  (exists a, no_spaces p a /\ (a = str "m" \/ a = str "/" \/ a = []) /\ init_root C seed ct = Ok k) \/
  (exists es ns root, es <> [] /\ Forall2 element es ns /\ no_spaces p (str "m" ++ slashed es) /\
     init_root C seed ct = Ok root /\ derive_chain (gen_private C) root ns = Ok k).
Proof.
  intros H. unfold derive_private_path, remove_spaces in H. set (q := filter (fun c => negb (c =? 32)) p) in H.
  destruct (beq q (str "m") || beq q (str "/") || beq q []) eqn:A.
  - left. exists q. split; [reflexivity|]. split; [|exact H]. apply orb_true_iff in A as [A|A]; [apply orb_true_iff in A as [A|A]|]; apply beq_eq in A; auto.
  - right. destruct (starts_with (str "m/") q) eqn:B; cbn [negb] in H; [|discriminate].
    apply beq_eq in B. apply bind_ok in H as (root & R & H). apply bind_ok in H as (rest & Er & H).
    assert (Q : q = [109; 47] ++ rest).
    { unfold slice_from in Er. apply slice_ok in Er as (_ & _ & a & c & Q & La & Lr).
      assert (La2 : length a = 2%nat) by (unfold zlen in La; lia). 
      assert (c = []). { apply zlen_0. apply (f_equal zlen) in Q. rewrite !zlen_app in Q. lia. } subst c. rewrite app_nil_r in Q. rewrite Q in B |- *.
      change (length (str "m/")) with 2%nat in B. rewrite firstn_app, La2, firstn_all2 in B by lia. change (firstn (2 - 2) rest) with (@nil Z) in B. rewrite app_nil_r in B.
      rewrite B. reflexivity. }
    destruct (split_slash_inv rest) as (e & es & E1 & E2). rewrite E1 in H. destruct (derive_elems_inv _ _ _ _ H) as (ns & F & D).
    exists (e :: es), ns, root. split; [discriminate|]. split; [exact F|]. split; [|auto]. unfold no_spaces. fold q. rewrite Q, E2. reflexivity.
Qed.
Theorem root_aliases C seed ct p : no_spaces p (str "m") \/ no_spaces p (str "/") \/ no_spaces p [] ->
  derive_private_path C seed p ct = init_root C seed ct.
Proof. unfold no_spaces, derive_private_path, remove_spaces. intros [-> | [-> | ->]]; reflexivity. Qed.
(** Numbers below 2^31 select themselves, or themselves plus 2^31 when marked. *)
Theorem element_meaning d v : decimal d v -> 0 <= v < 2 ^ 31 -> element d v /\ element (d ++ str "'") (v + 2 ^ 31).
Proof.
  intros D Hv. assert (S : signed_decimal d v). { split; [lia|]. exists [], d, v. split; [reflexivity|]. split; [exact D|]. left. auto. }
  split; exists d, v; (split; [exact S|]); [left|right]; (split; [reflexivity|]); rewrite Z.mod_small by lia; reflexivity.
Qed.
(** Larger numbers are reduced silently: "v'" with 2^31 <= v < 2^32 selects the unhardened child v - 2^31. *)
Theorem hardened_mark_wraps d d' v : decimal d v -> decimal d' (v - 2 ^ 31) -> 2 ^ 31 <= v < 2 ^ 32 ->
  elem_serial (d ++ str "'") = elem_serial d' /\ elem_serial d' = Ok (v - 2 ^ 31).
Proof.
  intros D D' Hv.
  assert (E1 : element (d ++ str "'") (v - 2 ^ 31)).
  { exists d, v. split; [split; [lia|]; exists [], d, v; split; [reflexivity|]; split; [exact D|left; auto]|].
    right. split; [reflexivity|]. replace (v + 2 ^ 31) with (v - 2 ^ 31 + 1 * 2 ^ 32) by lia. rewrite Z.mod_add by lia. rewrite Z.mod_small by lia. reflexivity. }
  assert (E2 : element d' (v - 2 ^ 31)) by (apply (element_meaning d' (v - 2 ^ 31) D'); lia).
  apply elem_serial_iff in E1, E2. rewrite E1, E2. auto.
Qed.
Theorem large_index_wraps d d' v : decimal d v -> decimal d' (v mod 2 ^ 32) -> v < 2 ^ 63 -> elem_serial d = elem_serial d'.
Proof.
  intros D D' Hv. assert (V0 : 0 <= v).
  { destruct D as (ds & _ & F & _ & ->). clear - F. unfold positional. assert (G : forall ds a, 0 <= a -> Forall (fun d => 0 <= d < 10) ds -> 0 <= fold_left (fun acc d => acc * 10 + d) ds a).
    { induction ds0 as [|x l IH]; intros a Ha Fl; cbn [fold_left]; [exact Ha|]. inversion Fl; subst. apply IH; [lia|assumption]. } apply G; [lia|exact F]. }
  pose proof (Z.mod_pos_bound v (2 ^ 32) ltac:(lia)) as B.
  assert (E1 : element d (v mod 2 ^ 32)) by (exists d, v; split; [split; [lia|]; exists [], d, v; split; [reflexivity|]; split; [exact D|left; auto]|left; auto]).
  assert (E2 : element d' (v mod 2 ^ 32)).
  { exists d', (v mod 2 ^ 32). split; [split; [lia|]; exists [], d', (v mod 2 ^ 32); split; [reflexivity|]; split; [exact D'|left; auto]|left].
    rewrite Z.mod_mod by lia. auto. }
  apply elem_serial_iff in E1, E2. congruence.
Qed.
(** Relative public paths. *)
Theorem public_path_derives C k p es ns : es <> [] -> Forall2 element es ns -> no_spaces p (slashed es) ->
  derive_public_path C k p = derive_chain (gen_public C) k ns.
Proof.
  intros N F S. unfold derive_public_path, remove_spaces. unfold no_spaces in S. rewrite S.
  destruct es as [|e es]; [contradiction|]. change (slashed (e :: es)) with (47 :: (e ++ slashed es)).
  assert (B : starts_with (str "/") (47 :: (e ++ slashed es)) = true) by reflexivity. rewrite B. cbn [negb].
  cbn [split_slash]. change (47 =? 47) with true. cbv iota.
  rewrite split_slash_join; [|clear - F; induction F as [|e0 n0 es0 ns0 H F IH]; [constructor|constructor; [apply (element_no_slash _ _ H)|exact IH]]].
  rewrite slice_from_cons. cbn [bind]. apply derive_elems_chain, F.
Qed.
Theorem public_path_accepts_only C k p k' : derive_public_path C k p = Ok k' ->
  exists es ns, es <> [] /\ Forall2 element es ns /\ no_spaces p (slashed es) /\ derive_chain (gen_public C) k ns = Ok k'.
Proof.
  intros H. unfold derive_public_path, remove_spaces in H. set (q := filter (fun c => negb (c =? 32)) p) in H.
  destruct (starts_with (str "/") q) eqn:B; cbn [negb] in H; [|discriminate]. apply beq_eq in B.
  destruct q as [|c q'] eqn:Eq; [discriminate|]. cbn in B. injection B as ->.
  change (split_slash (47 :: q')) with ([] :: split_slash q') in H. rewrite slice_from_cons in H. cbn [bind] in H.
  destruct (split_slash_inv q') as (e & es & E1 & E2). rewrite E1 in H. destruct (derive_elems_inv _ _ _ _ H) as (ns & F & D).
  exists (e :: es), ns. split; [discriminate|]. split; [exact F|]. split; [|exact D]. unfold no_spaces. fold q. rewrite Eq, E2. reflexivity.
Qed.
(** No path makes the private derivation panic. *)
Lemma init_root_no_panic C (K : hashes_ok C) seed ct : init_root C seed ct <> Panic.
Proof.
  unfold init_root. destruct (_ || _); [discriminate|]. destruct (hk_sha512 _ K seed) as [B L]. set (h := sha512 C seed) in *. clearbody h.
  assert (MN : forall l j f, length (map_nth_byte l j f) = length l).
  { induction l as [|x l IH]; intros [|j] f; cbn [map_nth_byte length]; try reflexivity. f_equal. apply IH. }
  assert (CB : forall l, length (clamp_bls l) = length l) by (intros [|x l]; reflexivity).
  match goal with |- bind (slice ?i 0 32) _ <> _ => assert (L2 : length i = 64%nat) end.
  { destruct (kind C ct); cbn [is_bls]; rewrite ?MN, ?CB, ?MN; exact L. }
  rewrite slice32 by exact L2. cbn [bind]. rewrite slice_from32 by exact L2. discriminate.
Qed.
Lemma pri_child_no_panic il k c : length il = 32%nat -> pri_child il k c <> Panic.
Proof.
  intros L. unfold pri_child. rewrite slice28 by exact L. cbn [bind].
  destruct (norm_curve c); repeat match goal with |- context [if ?b then _ else _] => destruct b end; discriminate.
Qed.
Lemma gen_private_no_panic C (K : hashes_ok C) k i : gen_private C k i <> Panic.
Proof.
  rewrite gen_private_eq by exact K. cbv zeta. destruct (depth k =? 255); [discriminate|]. destruct (negb _); [discriminate|].
  set (I := get_I C _ _ _ _). assert (L : length I = 64%nat) by apply (get_I_ok C K).
  pose proof (pri_child_no_panic (firstn 32 I) (key k) (norm_curve (kind C (curve_type k))) ltac:(rewrite firstn_length, L; reflexivity)).
  destruct (pri_child _ _ _); cbn [bind]; congruence.
Qed.
Theorem private_path_never_panics C seed ct p : hashes_ok C -> derive_private_path C seed p ct <> Panic.
Proof.
  intros K. unfold derive_private_path. set (q := remove_spaces p). clearbody q.
  pose proof (init_root_no_panic C K seed ct) as R.
  destruct (_ || _); [exact R|]. destruct (starts_with (str "m/") q) eqn:B; cbn [negb]; [|discriminate].
  destruct (init_root C seed ct) as [root| |]; cbn [bind]; try congruence. clear R.
  assert (2 <= zlen q). { apply beq_eq in B. apply (f_equal zlen) in B. change (zlen (str "m/")) with 2 in B. unfold zlen in B. rewrite firstn_length in B. unfold zlen. lia. }
  destruct (slice_total q 2 (zlen q) ltac:(lia) ltac:(lia)) as [rest Er]. unfold slice_from. rewrite Er. cbn [bind].
  generalize (split_slash rest) root. induction l as [|e es IH]; intros k; cbn [derive_elems]; [discriminate|].
  pose proof (elem_serial_no_panic e). destruct (elem_serial e); cbn [bind]; try congruence.
  pose proof (gen_private_no_panic C K k a). destruct (gen_private C k a); cbn [bind]; try (apply IH); congruence.
Qed.

(** ** Examples *)
Example ex_decimal : decimal (str "2147483648") (2 ^ 31) /\ decimal (str "007") 7 /\ decimal (str "44") 44.
Proof.
  split; [exists [2;1;4;7;4;8;3;6;4;8]|split; [exists [0;0;7]|exists [4;4]]];
    (split; [discriminate|split; [repeat (apply Forall_cons; [lia|]); apply Forall_nil|split; reflexivity]]).
Qed.
Example ex_path : Forall2 element [str "44'"; str "88'"; str "5"] [44 + 2 ^ 31; 88 + 2 ^ 31; 5] /\
  exists k, derive_private_path toyC toy_seed (str "m / 44'") 1 = Ok k /\ derive_chain (gen_private toyC) (toy_root 1) [44 + 2 ^ 31] = Ok k /\ depth k = 1.
Proof.
  split.
  - repeat constructor; apply elem_serial_iff; vm_compute; reflexivity.
  - eexists. split; [vm_compute; reflexivity|]. split; [vm_compute; reflexivity|reflexivity].
Qed.
Example ex_wraps : elem_serial (str "2147483648'") = elem_serial (str "0") /\ elem_serial (str "-1") = elem_serial (str "2147483647'") /\ elem_serial (str "4294967297") = elem_serial (str "+1").
Proof. split; [vm_compute; reflexivity|split; vm_compute; reflexivity]. Qed.
Example ex_bad_paths : derive_private_path toyC toy_seed (str "1/2") 1 = Err /\ elem_serial (str "") = Err /\ elem_serial (str "1''") = Err /\
  elem_serial (str "'") = Err /\ elem_serial (str "9223372036854775808") = Err.
Proof. repeat split; vm_compute; reflexivity. Qed.
Example ex_public_path : exists k', derive_public_path toyC (get_public toyC (toy_root 1)) (str "/3") = Ok k' /\
  derive_chain (gen_public toyC) (get_public toyC (toy_root 1)) [3] = Ok k'.
Proof. eexists. split; [vm_compute; reflexivity|vm_compute; reflexivity]. Qed.
Print Assumptions private_path_derives.
Print Assumptions private_path_accepts_only.
Print Assumptions root_aliases.
Print Assumptions element_meaning.
Print Assumptions hardened_mark_wraps.
Print Assumptions large_index_wraps.
Print Assumptions public_path_derives.
Print Assumptions public_path_accepts_only.
Print Assumptions private_path_never_panics.
