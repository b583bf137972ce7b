(** C149: exactly which texts the bech32 address decoder accepts, what it makes of them, and exactly
    which texts crash it (addressEncoder/bech32/bech32.go:353-419, btcTransaction/bech32.go and the copies). *)
From Coq Require Import String ZArith List Bool Lia ZifyBool ZifyNat.
From Verif Require Import Go GoFacts Base58Proofs Bech32Spec PolymodProofs PolymodFree Bech32Model Bech32Proofs Bech32Text BtcTxProofs Bech32DecSpec.
Import ListNotations.
Open Scope Z_scope.
Ltac Zify.zify_post_hook ::= idtac.

(** ** The scan *)
Definition low_b (c : Z) : bool := (97 <=? c) && (c <=? 122).
Definition up_b (c : Z) : bool := (65 <=? c) && (c <=? 90).
Definition num_b (c : Z) : bool := (c =? 48) || ((50 <=? c) && (c <=? 57)).
Lemma low_lower c : low_b c = true <-> lower_case c.
Proof. unfold low_b, lower_case. lia. Qed.
Lemma up_upper c : up_b c = true <-> upper_case c.
Proof. unfold up_b, upper_case. lia. Qed.
Lemma alnum_split c : alphanumeric c -> c <> 49 -> low_b c = true \/ (low_b c = false /\ up_b c = true) \/ (low_b c = false /\ up_b c = false /\ num_b c = true).
Proof. unfold alphanumeric, letter, lower_case, upper_case, decimal, low_b, up_b, num_b. lia. Qed.
Lemma ex_low s : existsb low_b s = true <-> Exists lower_case s.
Proof.
  rewrite existsb_exists, Exists_exists. split; intros (x & I & E); exists x; split; auto; apply low_lower; exact E.
Qed.
Lemma ex_up s : existsb up_b s = true <-> Exists upper_case s.
Proof.
  rewrite existsb_exists, Exists_exists. split; intros (x & I & E); exists x; split; auto; apply up_upper; exact E.
Qed.
Lemma one_case_b s : existsb up_b s && existsb low_b s = false <-> one_case s.
Proof.
  unfold one_case. rewrite <- ex_low, <- ex_up. destruct (existsb up_b s), (existsb low_b s); cbn; intuition congruence.
Qed.

(** Characters without a '1' are scanned one by one. *)
Lemma scan_plain s : forall i lo up hn ps, Forall alphanumeric s -> ~ In 49 s ->
  scan s i lo up hn ps = Ok (lo || existsb low_b s, up || existsb up_b s, ps).
Proof.
  induction s as [|c s IH]; intros i lo up hn ps A N; cbn [scan existsb]; [rewrite !orb_false_r; reflexivity|].
  inversion A as [|? ? Ac As]; subst. assert (Nc : c <> 49) by (intros ->; apply N; left; reflexivity). assert (Ns : ~ In 49 s) by (intros I; apply N; right; exact I).
  fold (low_b c). fold (up_b c). fold (num_b c).
  destruct (alnum_split c Ac Nc) as [E|[[E1 E2]|(E1 & E2 & E3)]].
  - rewrite E. rewrite IH by assumption. assert (up_b c = false) as -> by (unfold low_b, up_b in *; lia). rewrite orb_true_r. destruct lo; reflexivity.
  - rewrite E1, E2. rewrite IH by assumption. rewrite orb_true_r. destruct up; reflexivity.
  - rewrite E1, E2, E3. rewrite IH by assumption. reflexivity.
Qed.
Lemma scan_inv s : forall i lo up hn ps r, scan s i lo up hn ps = Ok r -> Forall alphanumeric s.
Proof.
  induction s as [|c s IH]; intros i lo up hn ps r E; cbn [scan] in E; [constructor|].
  unfold alphanumeric, letter, lower_case, upper_case, decimal in *.
  destruct ((97 <=? c) && (c <=? 122)) eqn:E1; [constructor; [lia|eapply IH; exact E]|].
  destruct ((65 <=? c) && (c <=? 90)) eqn:E2; [constructor; [lia|eapply IH; exact E]|].
  destruct ((c =? 48) || ((50 <=? c) && (c <=? 57))) eqn:E3; [constructor; [lia|eapply IH; exact E]|].
  destruct (c =? 49) eqn:E4; [|discriminate]. destruct (hn || (i =? 0) || negb (ps =? 0)); [discriminate|].
  constructor; [lia|eapply IH; exact E].
Qed.
(** After a separator no further '1' is accepted. *)
Lemma scan_no_sep s : forall i lo up hn ps r, ps <> 0 -> scan s i lo up hn ps = Ok r -> ~ In 49 s.
Proof.
  induction s as [|c s IH]; intros i lo up hn ps r P E; cbn [scan] in E; [intros []|].
  destruct ((97 <=? c) && (c <=? 122)) eqn:E1; [intros [->|I]; [discriminate|eapply IH; eassumption]|].
  destruct ((65 <=? c) && (c <=? 90)) eqn:E2; [intros [->|I]; [discriminate|eapply IH; eassumption]|].
  destruct ((c =? 48) || ((50 <=? c) && (c <=? 57))) eqn:E3; [intros [->|I]; [discriminate|eapply IH; eassumption]|].
  destruct (c =? 49) eqn:E4; [|discriminate]. replace (hn || (i =? 0) || negb (ps =? 0)) with true in E; [discriminate|].
  destruct (Z.eqb_spec ps 0); [contradiction|]. destruct hn, (i =? 0); reflexivity.
Qed.
Lemma scan_sep p d i lo up hn r : 0 < i + zlen p -> ~ In 49 p -> scan (p ++ 49 :: d) i lo up hn 0 = Ok r ->
  Forall letter p /\ hn = false /\ Forall alphanumeric d /\ ~ In 49 d.
Proof.
  revert i lo up hn; induction p as [|c p IH]; intros i lo up hn P N E.
  - cbn [app scan] in E. change ((97 <=? 49) && (49 <=? 122)) with false in E. change ((65 <=? 49) && (49 <=? 90)) with false in E.
    change ((49 =? 48) || ((50 <=? 49) && (49 <=? 57))) with false in E. change (49 =? 49) with true in E. cbv iota in E.
    destruct (hn || (i =? 0) || negb (0 =? 0)) eqn:Q; [discriminate|]. change (zlen (@nil Z)) with 0 in P.
    split; [constructor|]. split; [destruct hn; [discriminate|reflexivity]|]. split; [eapply scan_inv; exact E|]. eapply scan_no_sep; [|exact E]. lia.
  - rewrite zlen_cons in P. assert (Nc : c <> 49) by (intros ->; apply N; left; reflexivity). assert (Ns : ~ In 49 p) by (intros I; apply N; right; exact I).
    cbn [app scan] in E. assert (0 <= zlen p) by apply zlen_nonneg.
    destruct ((97 <=? c) && (c <=? 122)) eqn:E1.
    { destruct (IH (i + 1) true up hn ltac:(lia) Ns E) as (A & B & C). repeat split; try tauto. constructor; [left; unfold lower_case; lia|exact A]. }
    destruct ((65 <=? c) && (c <=? 90)) eqn:E2.
    { destruct (IH (i + 1) lo true hn ltac:(lia) Ns E) as (A & B & C). repeat split; try tauto. constructor; [right; unfold upper_case; lia|exact A]. }
    destruct ((c =? 48) || ((50 <=? c) && (c <=? 57))) eqn:E3.
    { destruct (IH (i + 1) lo up true ltac:(lia) Ns E) as (A & B & C). discriminate. }
    destruct (c =? 49) eqn:E4; [lia|discriminate].
Qed.
Lemma letter_alnum p : Forall letter p -> Forall alphanumeric p /\ ~ In 49 p.
Proof.
  intros F. split; [eapply Forall_impl; [|exact F]; intros c H; left; exact H|].
  intros I. rewrite Forall_forall in F. specialize (F _ I). unfold letter, lower_case, upper_case in F. lia.
Qed.
Lemma scan_letters p : forall rest i lo up, Forall letter p -> scan (p ++ rest) i lo up false 0 = scan rest (i + zlen p) (lo || existsb low_b p) (up || existsb up_b p) false 0.
Proof.
  induction p as [|c p IH]; intros rest i lo up F.
  - cbn [app existsb]. rewrite !orb_false_r. change (zlen (@nil Z)) with 0. rewrite Z.add_0_r. reflexivity.
  - inversion F as [|? ? Hc Hp]; subst. cbn [app scan existsb]. fold (low_b c). fold (up_b c). rewrite zlen_cons, Z.add_assoc.
    destruct (low_b c) eqn:El.
    + rewrite IH by assumption. assert (up_b c = false) as -> by (unfold low_b, up_b in *; lia). rewrite orb_true_r. destruct lo; reflexivity.
    + assert (up_b c = true) as -> by (unfold letter, lower_case, upper_case, low_b, up_b in *; lia). rewrite IH by assumption. rewrite orb_true_r. destruct up; reflexivity.
Qed.
Lemma before_none a : ~ In 49 a -> before 49 a = a.
Proof.
  induction a as [|c a IH]; intros N; cbn [before]; [reflexivity|]. destruct (Z.eqb_spec c 49) as [->|]; [exfalso; apply N; left; reflexivity|].
  f_equal. apply IH. intros I; apply N; right; exact I.
Qed.
Lemma before_sep p d : ~ In 49 p -> before 49 (p ++ 49 :: d) = p.
Proof.
  induction p as [|c p IH]; intros N; cbn [before app]; [reflexivity|]. destruct (Z.eqb_spec c 49) as [->|]; [exfalso; apply N; left; reflexivity|].
  f_equal. apply IH. intros I; apply N; right; exact I.
Qed.
Lemma split_at a : In 49 a -> exists p d, a = p ++ 49 :: d /\ ~ In 49 p.
Proof.
  induction a as [|c a IH]; intros I; [destruct I|]. destruct (Z.eq_dec c 49) as [->|N]; [exists [], a; split; [reflexivity|intros []]|].
  destruct I as [->|I]; [congruence|]. destruct (IH I) as (p & d & -> & Np). exists (c :: p), d. split; [reflexivity|]. intros [->|I']; auto.
Qed.

(** What the decoder does with a divided text. *)
Definition after_split (hrp data : list Z) : res (list Z) :=
  value <- rev_lookup data ;;
  if negb (verify_checksum hrp value) then Err else
  if zlen value <? 6 then Panic else
  ret <- unextend_payload (firstn (length value - 6) value) ;;
  if zlen ret =? 33 then h <- slice (hex_encode ret) 1 65 ;; hex_decode h else Ok ret.
Lemma decode_divided a hrp data : divided a hrp data -> one_case a -> bech32_decode a = after_split hrp data.
Proof.
  intros D O. apply one_case_b in O. unfold bech32_decode.
  destruct D as [(-> & Nh & Fh & Fd & Nd)|(Na & Fa & N & -> & ->)].
  - cbn [app] in O |- *. destruct (letter_alnum _ Fh) as [Ah Nnh].
    rewrite scan_letters by exact Fh. cbn [scan]. change ((97 <=? 49) && (49 <=? 122)) with false. change ((65 <=? 49) && (49 <=? 90)) with false.
    change ((49 =? 48) || ((50 <=? 49) && (49 <=? 57))) with false. change (49 =? 49) with true. cbv iota.
    assert (Pz : 0 < zlen hrp) by (destruct hrp; [congruence|]; rewrite zlen_cons; pose proof (zlen_nonneg hrp); lia).
    replace (false || (0 + zlen hrp =? 0) || negb (0 =? 0)) with false by (cbn; lia). rewrite scan_plain by assumption. cbn [bind].
    rewrite !existsb_app in O. cbn [existsb] in O. change (low_b 49) with false in O. change (up_b 49) with false in O. cbn [orb] in O |- *.
    rewrite O. cbv beta zeta. rewrite before_sep by exact Nnh. rewrite zlen_app, zlen_cons.
    replace (zlen hrp + (1 + zlen data) - (0 + zlen hrp + 1) <? 0) with false by (pose proof (zlen_nonneg data); lia).
    replace (Z.to_nat (0 + zlen hrp + 1)) with (length (hrp ++ [49])) by (rewrite app_length; cbn [length]; unfold zlen; lia).
    change (hrp ++ 49 :: data) with (hrp ++ [49] ++ data). rewrite app_assoc, skipn_app, skipn_all, Nat.sub_diag. reflexivity.
  - rewrite scan_plain by assumption. cbn [bind orb]. rewrite O. cbv beta zeta. rewrite before_none by exact N.
    destruct a as [|c a]; [congruence|]. rewrite zlen_cons. replace (1 + zlen a - (0 + 1) <? 0) with false by (pose proof (zlen_nonneg a); lia).
    reflexivity.
Qed.
Lemma scan_no_panic a : forall i lo up hn ps, scan a i lo up hn ps <> Panic.
Proof.
  induction a as [|c a IH]; intros i lo up hn ps; cbn [scan]; [discriminate|].
  repeat match goal with |- context [if ?b then _ else _] => destruct b end; try discriminate; apply IH.
Qed.
Lemma scan_divides a r : a <> [] -> scan a 0 false false false 0 = Ok r -> exists hrp data, divided a hrp data.
Proof.
  intros Na E. destruct (in_dec Z.eq_dec 49 a) as [I|N].
  - destruct (split_at a I) as (p & d & -> & Np). destruct p as [|c p]; [cbn in E; discriminate|].
    assert (P : 0 < 0 + zlen (c :: p)) by (rewrite zlen_cons; pose proof (zlen_nonneg p); lia).
    destruct (scan_sep (c :: p) d 0 false false false _ P Np E) as (Fl & _ & Ad & Nd). exists (c :: p), d. left. repeat split; auto. discriminate.
  - exists a, (tl a). right. repeat split; auto. eapply scan_inv; exact E.
Qed.
(** A text that cannot be divided, or has both cases, is refused. *)
Lemma decode_undivided a : a <> [] -> ~ (one_case a /\ exists hrp data, divided a hrp data) -> bech32_decode a = Err.
Proof.
  intros Na ND. unfold bech32_decode. destruct (scan a 0 false false false 0) as [[[lo up] ps]| |] eqn:E; cbn [bind]; [|reflexivity|].
  2: exfalso; exact (scan_no_panic _ _ _ _ _ _ E).
  destruct (in_dec Z.eq_dec 49 a) as [I|N].
  - destruct (split_at a I) as (p & d & -> & Np). destruct p as [|c p].
    { exfalso. cbn [app scan] in E. cbn in E. discriminate. }
    assert (P : 0 < 0 + zlen (c :: p)) by (rewrite zlen_cons; pose proof (zlen_nonneg p); lia).
    destruct (scan_sep (c :: p) d 0 false false false _ P Np E) as (Fl & _ & Ad & Nd).
    assert (D : divided ((c :: p) ++ 49 :: d) (c :: p) d) by (left; repeat split; auto; discriminate).
    destruct (up && lo) eqn:U; [reflexivity|]. exfalso. apply ND. split; [|eauto].
    rewrite scan_letters in E by exact Fl. cbn [scan] in E. change ((97 <=? 49) && (49 <=? 122)) with false in E. change ((65 <=? 49) && (49 <=? 90)) with false in E.
    change ((49 =? 48) || ((50 <=? 49) && (49 <=? 57))) with false in E. change (49 =? 49) with true in E. cbv iota in E.
    replace (false || (0 + zlen (c :: p) =? 0) || negb (0 =? 0)) with false in E by (cbn [orb negb Z.eqb]; lia). rewrite scan_plain in E by assumption.
    injection E as <- <- <-. apply one_case_b. rewrite !existsb_app. cbn [existsb]. change (low_b 49) with false. change (up_b 49) with false. exact U.
  - pose proof (scan_inv _ _ _ _ _ _ _ E) as A. rewrite scan_plain in E by assumption. injection E as <- <- <-. cbn [orb].
    destruct (existsb up_b a && existsb low_b a) eqn:U; [reflexivity|]. exfalso. apply ND. split; [apply one_case_b; exact U|].
    exists a, (tl a). right. repeat split; auto.
Qed.

(** ** Digits *)
Definition digit_table : list Z := map Z.of_nat (seq 0 128).
Definition stands_b (c d : Z) : bool :=
  match nth_error bech32_symbols (Z.to_nat d) with Some s => (0 <=? d) && ((c =? s) || (low_b s && (c =? s - 32))) | None => false end.
Lemma stands_b_ok c d : stands_b c d = true <-> stands_for c d.
Proof.
  unfold stands_b, stands_for. destruct (nth_error bech32_symbols (Z.to_nat d)) as [s|].
  - rewrite andb_true_iff, orb_true_iff, andb_true_iff, low_lower, !Z.eqb_eq, Z.leb_le. split.
    + intros [P Q]. split; [exact P|]. exists s. split; [reflexivity|tauto].
    + intros [P (s' & E & Q)]. assert (s' = s) by congruence. subst s'. tauto.
  - split; [discriminate|]. intros [_ (s & E & _)]. discriminate.
Qed.
Lemma stands_range c d : stands_for c d -> 0 <= d < 32 /\ 0 <= c < 128.
Proof.
  intros [P (s & E & Q)]. assert (L : (Z.to_nat d < 32)%nat) by (change 32%nat with (length bech32_symbols); apply nth_error_Some; congruence).
  split; [lia|]. apply nth_error_In in E. assert (A : forallb (fun s => (48 <=? s) && (s <? 128)) bech32_symbols = true) by reflexivity.
  rewrite forallb_forall in A. specialize (A s E). unfold lower_case in Q. lia.
Qed.
Definition find_digit (c : Z) : option Z := find (stands_b c) (map Z.of_nat (seq 0 32)).
Definition digit_or (c : Z) : Z := match find_digit c with Some d => d | None => -1 end.
Definition first_ok (c : Z) : bool := match idx charset_rev c with Ok v => v =? digit_or c | _ => false end.
Lemma table_once : forallb (fun c => forallb (fun d => negb (stands_b c d) || (d =? digit_or c)) (map Z.of_nat (seq 0 32))) digit_table = true.
Proof. vm_compute. reflexivity. Qed.
Lemma table_first : forallb first_ok digit_table = true.
Proof. vm_compute. reflexivity. Qed.
Lemma in_digits x : 0 <= x < 32 -> In x (map Z.of_nat (seq 0 32)).
Proof. intros X; apply in_map_iff; exists (Z.to_nat x); split; [lia|apply in_seq; lia]. Qed.
Lemma in_table c : 0 <= c < 128 -> In c digit_table.
Proof. intros X; apply in_map_iff; exists (Z.to_nat c); split; [lia|apply in_seq; lia]. Qed.
Lemma find_some c d : find_digit c = Some d -> stands_for c d.
Proof. intros E. apply find_some in E as [_ E]. apply stands_b_ok. exact E. Qed.
Lemma find_none c d : find_digit c = None -> ~ stands_for c d.
Proof. intros E H. pose proof (stands_range _ _ H) as [R _]. apply stands_b_ok in H. rewrite (find_none _ _ E d (in_digits d R)) in H. discriminate. Qed.
Lemma charset_find c : 0 <= c < 128 -> idx charset_rev c = Ok (digit_or c).
Proof.
  intros R. pose proof table_first as A. rewrite forallb_forall in A. specialize (A c (in_table c R)). unfold first_ok in A.
  destruct (idx charset_rev c) as [v| |]; try discriminate. apply Z.eqb_eq in A. rewrite A. reflexivity.
Qed.
Lemma rev_lookup_step c r : is_byte c ->
  rev_lookup (c :: r) = match find_digit c with Some d => t <- rev_lookup r ;; Ok (d :: t) | None => Err end.
Proof.
  intros B. unfold is_byte in B. cbn [rev_lookup]. destruct (find_digit c) as [d|] eqn:Ef.
  - pose proof (find_some _ _ Ef) as S0. pose proof (stands_range _ _ S0) as [Rd Rc]. replace (127 <? c) with false by lia.
    rewrite charset_find by exact Rc. cbn [bind]. unfold digit_or. rewrite Ef. replace (d =? -1) with false by lia. reflexivity.
  - destruct (Z.ltb_spec 127 c); [reflexivity|]. rewrite charset_find by lia. cbn [bind]. unfold digit_or. rewrite Ef. reflexivity.
Qed.
Lemma stands_fun c d d' : stands_for c d -> stands_for c d' -> d = d'.
Proof.
  intros A B. pose proof (stands_range _ _ A) as [Rd Rc]. pose proof (stands_range _ _ B) as [Rd' _]. apply stands_b_ok in A, B.
  pose proof table_once as T. rewrite forallb_forall in T. specialize (T c (in_table c Rc)). rewrite forallb_forall in T.
  pose proof (T d (in_digits d Rd)) as T1. pose proof (T d' (in_digits d' Rd')) as T2. cbv beta in T1, T2. rewrite A in T1. rewrite B in T2. cbn [negb orb] in T1, T2. lia.
Qed.
Lemma rev_lookup_cases s : is_bytes s ->
  (exists ds, rev_lookup s = Ok ds /\ Forall2 stands_for s ds) \/ (rev_lookup s = Err /\ forall ds, ~ Forall2 stands_for s ds).
Proof.
  induction s as [|c s IH]; intros B; [left; exists []; split; [reflexivity|constructor]|].
  apply is_bytes_cons in B as [Bc Bs]. rewrite rev_lookup_step by exact Bc.
  destruct (find_digit c) as [d|] eqn:Ef.
  - destruct (IH Bs) as [(ds & E & F)|[E N]].
    + left. rewrite E. cbn [bind]. exists (d :: ds). split; [reflexivity|]. constructor; [apply find_some; exact Ef|exact F].
    + right. rewrite E. split; [reflexivity|]. intros ds F. inversion F; subst. eapply N; eassumption.
  - right. split; [reflexivity|]. intros ds F. inversion F as [|? d ? ? Sd Fr]; subst. exact (find_none _ _ Ef Sd).
Qed.
Lemma stands_all_fun s : forall ds ds', Forall2 stands_for s ds -> Forall2 stands_for s ds' -> ds = ds'.
Proof.
  induction s as [|c s IH]; intros ds ds' A B; inversion A; inversion B; subst; [reflexivity|]. f_equal; [eapply stands_fun; eassumption|auto].
Qed.
Lemma stands_all_d5 s ds : Forall2 stands_for s ds -> Forall d5 ds.
Proof. induction 1 as [|c d s ds H _ IH]; constructor; [|exact IH]. apply stands_range in H. unfold d5. lia. Qed.

(** ** The checksum *)
Lemma bip173_gstep c v : 0 <= c < 2 ^ 30 -> d5 v -> bip173_step c v = gstep 25 gens30 c v.
Proof.
  intros Hc Hv. unfold bip173_step, gstep, shx. rewrite Z.shiftr_div_pow2, Z.land_ones, Z.shiftl_mul_pow2 by lia. cbv zeta.
  set (top := c / 2 ^ 25). unfold gens30. cbn [gsum]. rewrite !(Z.add_0_l 1). change (0 + 1) with 1. change (1 + 1) with 2. change (2 + 1) with 3. change (3 + 1) with 4.
  rewrite !Z.testbit_odd, !Z.shiftr_div_pow2 by lia. rewrite Z.lxor_0_r.
  set (x := (c mod 2 ^ 25) * 2 ^ 5). rewrite (Z.lxor_assoc x v), (Z.lxor_comm v), <- Z.lxor_assoc. reflexivity.
Qed.
Lemma fold_bip vs : forall c, 0 <= c < 2 ^ 30 -> Forall d5 vs -> fold_left bip173_step vs c = fold_left (gstep 25 gens30) vs c.
Proof.
  induction vs as [|v vs IH]; intros c Hc F; cbn [fold_left]; [reflexivity|]. inversion F; subst. rewrite bip173_gstep by assumption. apply IH; [|assumption].
  unfold gstep. apply lxor_range; [lia|apply (shx_range 25 ltac:(lia) gens30 gens30_range); lia|]. unfold d5 in *. change (2 ^ (25 + 5)) with 1073741824. lia.
Qed.
Lemma expand_eq p : expand_prefix p = bip173_expand p.
Proof.
  unfold expand_prefix, bip173_expand. f_equal; [|f_equal]; apply map_ext; intros c; [rewrite Z.shiftr_div_pow2 by lia; reflexivity|apply land31].
Qed.
Lemma expand_alnum p : Forall alphanumeric p -> Forall d5 (bip173_expand p).
Proof.
  intros F. unfold bip173_expand. apply Forall_app; split; [|apply Forall_app; split; [repeat constructor; unfold d5; lia|]]; apply Forall_map; (eapply Forall_impl; [|exact F]);
    intros c H; unfold d5; unfold alphanumeric, letter, lower_case, upper_case, decimal in H; [|apply Z.mod_pos_bound; lia].
  assert (0 <= c < 128) by lia. split; [apply Z.div_pos; lia|apply Z.div_lt_upper_bound; lia].
Qed.
Lemma verify_bip p ds : Forall alphanumeric p -> Forall d5 ds -> (verify_checksum p ds = true <-> bip173_checksum_ok p ds).
Proof.
  intros Hp Hd. unfold verify_checksum, poly_mod, bip173_checksum_ok. rewrite expand_eq.
  assert (F : Forall d5 (bip173_expand p ++ ds)) by (apply Forall_app; split; [apply expand_alnum|]; assumption).
  rewrite fold_poly, <- fold_bip by (try exact F; lia). rewrite Z.eqb_eq. split; intros H; [apply Z.lxor_eq in H; exact H|]. rewrite H. reflexivity.
Qed.

(** ** The bytes *)
Lemma value32_bval ds : value32 ds = bval 32 ds.
Proof. induction ds as [|d ds IH]; [reflexivity|]. cbn [value32]. rewrite bval_cons, IH. reflexivity. Qed.
Lemma half_byte out : is_bytes out -> zlen out = 33 -> exists h, is_bytes h /\ zlen h = 32 /\ be_num h = (be_num out / 16) mod 256 ^ 32 /\
  (x <- slice (hex_encode out) 1 65 ;; hex_decode x) = Ok h.
Proof.
  intros B L. set (N := be_num out). pose proof (be_num_bound out B) as Bd. rewrite L in Bd. fold N in Bd.
  exists (be_bytes 32 (N / 16)). split; [apply be_bytes_is_bytes|]. split; [unfold zlen; rewrite be_bytes_length; reflexivity|].
  split; [rewrite be_num_be_bytes; reflexivity|].
  set (h := be_bytes 32 (N / 16)). assert (Bh : is_bytes h) by apply be_bytes_is_bytes. assert (Lh : length h = 32%nat) by apply be_bytes_length.
  assert (Vh : be_num h = (N / 16) mod 256 ^ 32) by (unfold h; rewrite be_num_be_bytes; reflexivity).
  change (256 ^ 33) with (16 * (16 * 256 ^ 32)) in Bd. set (K := 256 ^ 32) in *. assert (PK : 0 < K) by (subst K; apply Z.pow_pos_nonneg; lia).
  assert (Hn : nibbles out = (N / (16 * K)) :: nibbles h ++ [N mod 16]).
  { apply (bval_inj 16); [lia|apply nibbles_digits; exact B| | |].
    - constructor; [split; [apply Z.div_pos; lia|apply Z.div_lt_upper_bound; lia]|].
      apply Forall_app; split; [apply nibbles_digits; exact Bh|repeat constructor; apply Z.mod_pos_bound; lia].
    - rewrite nibbles_len. cbn [length]. rewrite app_length, nibbles_len. cbn [length]. unfold zlen in L. lia.
    - rewrite nibbles_val. rewrite (bval_cons 16), (bval_app 16), nibbles_val. fold N.
      replace (bval 16 [N mod 16]) with (N mod 16) by (rewrite bval_cons; change (bval 16 []) with 0; change (zlen (@nil Z)) with 0; rewrite Z.pow_0_r; lia).
      change (zlen [N mod 16]) with 1. replace (zlen (nibbles h ++ [N mod 16])) with 65 by (rewrite zlen_app; unfold zlen; rewrite nibbles_len, Lh; reflexivity).
      change (16 ^ 65) with (16 * 256 ^ 32). fold K. rewrite Vh. rewrite Z.pow_1_r.
      rewrite <- (Z.div_div N 16 K) by lia. pose proof (Z.div_mod N 16 ltac:(lia)) as D1. pose proof (Z.div_mod (N / 16) K ltac:(lia)) as D2. set (q := N / 16) in *.
      set (r := N mod 16) in *. set (s := q / K) in *. set (t := q mod K) in *. clearbody q r s t. rewrite D1, D2. ring. }
  rewrite hex_nibbles, Hn. cbn [map]. rewrite map_app. cbn [map]. rewrite <- hex_nibbles.
  change (hex_digit (N / (16 * K)) :: hex_encode h ++ [hex_digit (N mod 16)]) with ([hex_digit (N / (16 * K))] ++ hex_encode h ++ [hex_digit (N mod 16)]).
  unfold slice. replace ((0 <=? 1) && (1 <=? 65) && (65 <=? zlen ([hex_digit (N / (16 * K))] ++ hex_encode h ++ [hex_digit (N mod 16)]))) with true.
  2: { rewrite !zlen_app, zlen_hex_encode. change (zlen [hex_digit (N / (16 * K))]) with 1. change (zlen [hex_digit (N mod 16)]) with 1. unfold zlen. rewrite Lh. reflexivity. }
  cbv iota. cbn [bind]. change (Z.to_nat 1) with 1%nat. change (Z.to_nat (65 - 1)) with 64%nat. cbn [app skipn].
  rewrite firstn_app, hex_encode_length, Lh. change (64 - 2 * 32)%nat with 0%nat. rewrite firstn_O, app_nil_r.
  rewrite firstn_all2 by (rewrite hex_encode_length, Lh; lia). apply hex_decode_encode. exact Bh.
Qed.
Lemma unpack_ok ds : (2 <= length ds)%nat -> Forall d5 ds -> exists h, unpacked ds h /\
  (ret <- unextend_payload ds ;; if zlen ret =? 33 then h <- slice (hex_encode ret) 1 65 ;; hex_decode h else Ok ret) = Ok h.
Proof.
  intros L F. destruct (unextend_spec ds L F) as (out & E & B & Lo & V). rewrite E. cbn [bind].
  assert (Zn : zlen out = zlen ds * 5 / 8) by (unfold zlen; rewrite Lo, Nat2Z.inj_div, Nat2Z.inj_mul; reflexivity).
  destruct (Z.eqb_spec (zlen out) 33) as [E33|N33].
  - destruct (half_byte out B E33) as (h & Bh & Lh & Vh & Eh). exists h. split; [|exact Eh]. unfold unpacked. rewrite <- Zn. split; [exact Bh|]. right.
    split; [exact E33|]. split; [exact Lh|]. rewrite Vh, V, E33, value32_bval. set (X := bval 32 ds). change (256 ^ 33) with (16 * (16 * 256 ^ 32)).
    set (K := 256 ^ 32). assert (0 < K) by (subst K; apply Z.pow_pos_nonneg; lia).
    rewrite (Z.rem_mul_r X 16 (16 * K)) by lia. rewrite (Z.mul_comm 16 ((X / 16) mod (16 * K))), Z.div_add by lia.
    rewrite (Z.div_small (X mod 16) 16) by (apply Z.mod_pos_bound; lia). cbn [Z.add]. rewrite (Z.mul_comm 16 K), (Z.rem_mul_r (X / 16) K 16) by lia.
    rewrite Z.mul_comm, Z_mod_plus_full, Z.mod_mod by lia. reflexivity.
  - exists out. split; [|reflexivity]. unfold unpacked. rewrite <- Zn. split; [exact B|]. left. split; [exact N33|]. split; [reflexivity|]. rewrite value32_bval. exact V.
Qed.
Lemma unpacked_fun ds h h' : unpacked ds h -> unpacked ds h' -> h = h'.
Proof.
  intros [B [(N & L & V)|(N & L & V)]] [B' [(N' & L' & V')|(N' & L' & V')]]; try congruence; apply be_num_inj; try assumption; try congruence; unfold zlen in *; lia.
Qed.
Lemma short_panics ds : (length ds < 2)%nat -> unextend_payload ds = Panic.
Proof. destruct ds as [|a [|b ds]]; intros H; [reflexivity|reflexivity|cbn in H; lia]. Qed.

Lemma divided_bytes a hrp data : divided a hrp data -> Forall alphanumeric hrp /\ is_bytes data.
Proof.
  assert (AB : forall l, Forall alphanumeric l -> is_bytes l).
  { intros l F. eapply Forall_impl; [|exact F]. intros c H. unfold alphanumeric, letter, lower_case, upper_case, decimal in H. unfold is_byte. lia. }
  intros [(-> & _ & Fh & Fd & _)|(Na & Fa & _ & -> & ->)].
  - split; [apply letter_alnum; exact Fh|apply AB; exact Fd].
  - split; [exact Fa|]. destruct a; [constructor|]. inversion Fa; subst. apply AB. assumption.
Qed.
Lemma decode_spelt a hrp ds : well_spelt a hrp ds ->
  bech32_decode a = if (length ds <? 8)%nat then Panic else
    ret <- unextend_payload (firstn (length ds - 6) ds) ;; if zlen ret =? 33 then h <- slice (hex_encode ret) 1 65 ;; hex_decode h else Ok ret.
Proof.
  intros (data & D & O & F & C). rewrite (decode_divided _ _ _ D O). destruct (divided_bytes _ _ _ D) as [Ah Bd]. unfold after_split.
  destruct (rev_lookup_cases data Bd) as [(ds' & E & F')|[_ N]]; [|exfalso; exact (N _ F)]. rewrite (stands_all_fun _ _ _ F' F) in E. rewrite E. cbn [bind].
  apply (verify_bip hrp ds Ah (stands_all_d5 _ _ F)) in C. rewrite C. cbn [negb]. unfold zlen.
  destruct (Z.ltb_spec (Z.of_nat (length ds)) 6).
  - replace (length ds <? 8)%nat with true by lia. reflexivity.
  - destruct (Nat.ltb_spec (length ds) 8); [|reflexivity]. rewrite short_panics by (rewrite firstn_length; lia). reflexivity.
Qed.
(** A text is well spelt or refused. *)
Lemma spelt_or_refused a : a <> [] -> (exists hrp ds, well_spelt a hrp ds) \/ bech32_decode a = Err.
Proof.
  intros Na. destruct (bech32_decode a) as [x| |] eqn:E0; [left|right; reflexivity|left].
  all: destruct (scan a 0 false false false 0) as [[[lo up] ps]| |] eqn:Es;
    [|unfold bech32_decode in E0; rewrite Es in E0; discriminate|exfalso; exact (scan_no_panic _ _ _ _ _ _ Es)].
  all: destruct (scan_divides a _ Na Es) as (hrp & data & D);
    destruct (existsb up_b a && existsb low_b a) eqn:U; [rewrite (decode_undivided _) in E0; [discriminate|exact Na|]; intros [O _]; apply one_case_b in O; congruence|].
  all: apply one_case_b in U; rewrite (decode_divided _ _ _ D U) in E0; unfold after_split in E0; destruct (divided_bytes _ _ _ D) as [Ah Bd];
    destruct (rev_lookup_cases data Bd) as [(ds & El & F)|[El _]]; rewrite El in E0; cbn [bind] in E0; [|discriminate];
    destruct (verify_checksum hrp ds) eqn:V; [|discriminate]; apply (verify_bip _ _ Ah (stands_all_d5 _ _ F)) in V;
    exists hrp, ds, data; exact (conj D (conj U (conj F V))).
Qed.
Lemma empty_not_spelt hrp ds : ~ well_spelt [] hrp ds.
Proof. intros (data & [(E & _)|(E & _)] & _); [destruct hrp; discriminate|congruence]. Qed.
Lemma spelt_firstn a hrp ds : well_spelt a hrp ds -> (8 <= length ds)%nat -> exists h, unpacked (firstn (length ds - 6) ds) h /\ bech32_decode a = Ok h.
Proof.
  intros W L. rewrite (decode_spelt _ _ _ W). destruct (Nat.ltb_spec (length ds) 8); [lia|]. destruct W as (data & _ & _ & F & _).
  apply unpack_ok; [rewrite firstn_length; lia|]. apply stands_all_d5 in F. rewrite <- (firstn_skipn (length ds - 6) ds) in F. apply Forall_app in F. tauto.
Qed.

(** A text is spelt in at most one way. *)
Lemma spelt_fun a hrp ds hrp' ds' : well_spelt a hrp ds -> well_spelt a hrp' ds' -> hrp = hrp' /\ ds = ds'.
Proof.
  intros (data & D & _ & F & _) (data' & D' & _ & F' & _).
  assert (hrp = hrp' /\ data = data') as [-> ->].
  { destruct D as [(-> & _ & Fh & _ & Nd)|(Na & _ & N49 & -> & ->)], D' as [(E & _ & Fh' & _ & _)|(_ & _ & N49' & -> & ->)].
    - cbn [app] in E. pose proof (before_sep hrp data ltac:(apply letter_alnum; exact Fh)) as B. rewrite E, before_sep in B by (apply letter_alnum; exact Fh'). subst hrp'.
      apply app_inv_head in E. split; [reflexivity|congruence].
    - exfalso. apply N49'. apply in_or_app; right; left; reflexivity.
    - exfalso. subst a. apply N49. apply in_or_app; right; left; reflexivity.
    - auto. }
  split; [reflexivity|]. eapply stands_all_fun; eassumption.
Qed.

(** C149. The decoder accepts exactly the well-spelt texts with at least eight digits; the bytes are
    those of the digits before the last six. *)
Theorem bech32_decodes_exactly : forall a h,
  bech32_decode a = Ok h <->
  exists hrp ds, well_spelt a hrp ds /\ (8 <= length ds)%nat /\ unpacked (firstn (length ds - 6) ds) h.
Proof.
  intros a h. split.
  - intros E. destruct (list_eq_dec Z.eq_dec a []) as [->|Na]; [discriminate|].
    destruct (spelt_or_refused a Na) as [(hrp & ds & W)|R]; [|congruence]. exists hrp, ds. split; [exact W|].
    destruct (Nat.ltb_spec (length ds) 8) as [L|L].
    + rewrite (decode_spelt _ _ _ W) in E. replace (length ds <? 8)%nat with true in E by lia. discriminate.
    + split; [exact L|]. destruct (spelt_firstn _ _ _ W L) as (h' & U & E'). assert (h' = h) by congruence. subst h'. exact U.
  - intros (hrp & ds & W & L & U). destruct (spelt_firstn _ _ _ W L) as (h' & U' & E). rewrite E. f_equal. eapply unpacked_fun; eassumption.
Qed.

(** C149. It crashes exactly on the empty text and on well-spelt texts with fewer than eight digits. *)
Theorem bech32_crashes_exactly : forall a,
  bech32_decode a = Panic <-> a = [] \/ exists hrp ds, well_spelt a hrp ds /\ (length ds < 8)%nat.
Proof.
  intros a. split.
  - intros E. destruct (list_eq_dec Z.eq_dec a []) as [->|Na]; [left; reflexivity|right].
    destruct (spelt_or_refused a Na) as [(hrp & ds & W)|R]; [|congruence]. exists hrp, ds. split; [exact W|].
    destruct (Nat.ltb_spec (length ds) 8) as [L|L]; [exact L|]. destruct (spelt_firstn _ _ _ W L) as (h & _ & E'). congruence.
  - intros [->|(hrp & ds & W & L)]; [reflexivity|]. rewrite (decode_spelt _ _ _ W). replace (length ds <? 8)%nat with true by lia. reflexivity.
Qed.

(** C149. Every other text is refused with an error. *)
Theorem bech32_refuses_exactly : forall a,
  bech32_decode a = Err <-> a <> [] /\ forall hrp ds, ~ well_spelt a hrp ds.
Proof.
  intros a. split.
  - intros E. split; [intros ->; discriminate|]. intros hrp ds W. destruct (Nat.ltb_spec (length ds) 8) as [L|L].
    + rewrite (decode_spelt _ _ _ W) in E. replace (length ds <? 8)%nat with true in E by lia. discriminate.
    + destruct (spelt_firstn _ _ _ W L) as (h & _ & E'). congruence.
  - intros [Na N]. destruct (spelt_or_refused a Na) as [(hrp & ds & W)|R]; [|exact R]. exfalso. exact (N _ _ W).
Qed.

(** ** An address in capitals *)
Definition capital (c : Z) : Z := if (97 <=? c) && (c <=? 122) then c - 32 else c.
Lemma hamming_app_same a b t : length a = length b -> hamming (a ++ t) (b ++ t) = hamming a b.
Proof.
  revert b; induction a as [|x a IH]; intros [|y b] L; try discriminate.
  - cbn [app]. change (hamming [] []) with 0%nat. induction t as [|z t IHt]; cbn [hamming]; [reflexivity|]. rewrite Z.eqb_refl. exact IHt.
  - cbn [app hamming]. rewrite IH by (cbn in L; congruence). reflexivity.
Qed.
Lemma capital_expand p : Forall lower_case p -> bip173_expand (map capital p) = map (fun _ => 2) p ++ [0] ++ map (fun c => c mod 32) p /\
  bip173_expand p = map (fun _ => 3) p ++ [0] ++ map (fun c => c mod 32) p.
Proof.
  intros F. unfold bip173_expand. rewrite !map_map.
  assert (E : map (fun c => capital c mod 32) p = map (fun c => c mod 32) p).
  { apply map_ext_in. intros c I. rewrite Forall_forall in F. specialize (F c I). unfold lower_case in F. unfold capital. replace ((97 <=? c) && (c <=? 122)) with true by lia.
    replace (c - 32) with (c + (-1) * 32) by lia. apply Z_mod_plus_full. }
  rewrite E. assert (Q : map (fun c => capital c / 32) p = map (fun _ => 2) p /\ map (fun c => c / 32) p = map (fun _ => 3) p).
  { split; apply map_ext_in; intros c I; rewrite Forall_forall in F; specialize (F c I); unfold lower_case in F; unfold capital;
      [replace ((97 <=? c) && (c <=? 122)) with true by lia|]; symmetry; [apply (Z.div_unique (c - 32) 32 2 (c - 96))|apply (Z.div_unique c 32 3 (c - 96))]; lia. }
  destruct Q as [Q1 Q2]. rewrite Q1, Q2. auto.
Qed.
Lemma bip_lower_d5 p : Forall lower_case p -> Forall alphanumeric p.
Proof. intros F. eapply Forall_impl; [|exact F]. intros c H. left; left; exact H. Qed.
Lemma stands_bsym d : d5 d -> stands_for (bsym d) d /\ stands_for (capital (bsym d)) d /\ alphanumeric (bsym d) /\ bsym d <> 49 /\ alphanumeric (capital (bsym d)) /\ capital (bsym d) <> 49.
Proof.
  intros Hd. assert (A : forall d, d5 d -> stands_b (bsym d) d && stands_b (capital (bsym d)) d && (low_b (bsym d) || num_b (bsym d)) && (up_b (capital (bsym d)) || num_b (capital (bsym d))) = true) by (apply forall32; vm_compute; reflexivity).
  specialize (A d Hd). rewrite !andb_true_iff in A. destruct A as [[[A B] C] D]. apply stands_b_ok in A, B. split; [exact A|]. split; [exact B|].
  unfold alphanumeric, letter, lower_case, upper_case, decimal, low_b, up_b, num_b in *. lia.
Qed.
Lemma stands_bsyms ds : Forall d5 ds -> Forall2 stands_for (map bsym ds) ds /\ Forall2 stands_for (map capital (map bsym ds)) ds /\
  (Forall alphanumeric (map bsym ds) /\ ~ In 49 (map bsym ds)) /\ (Forall alphanumeric (map capital (map bsym ds)) /\ ~ In 49 (map capital (map bsym ds))).
Proof.
  induction 1 as [|d ds H _ (A & B & [C D] & [E F])]; cbn [map]; [repeat split; try constructor; intros []|].
  destruct (stands_bsym d H) as (a & b & c & x & e & f). repeat split; try (constructor; assumption); intros [I|I]; auto.
Qed.
(** C149. BIP 173 also accepts an address written in capitals, for its readable part is read in lower
    case. Here the readable part enters the checksum as it is written: with a readable part of one to
    four letters, the capital form of an address that passes is always refused. *)
Theorem bech32_capitals_refused : forall p s,
  lower_prefix p -> (length p <= 4)%nat -> Forall is_bech32_char s -> (2 * length p + 1 + length s <= 89)%nat ->
  bech32_decode (p ++ [49] ++ s) <> Err -> bech32_decode (map capital (p ++ [49] ++ s)) = Err.
Proof.
  intros p s [Np Fp] L4 Fs L89 Ok1.
  destruct (bech32_chars_syms s Fs) as (ds & D & ->). destruct (stands_bsyms ds D) as (S1 & S2 & [A1 N1] & [A2 N2]). rewrite map_length in L89.
  assert (W1 : bip173_checksum_ok p ds).
  { destruct (spelt_or_refused (p ++ [49] ++ map bsym ds)) as [(hrp & ds' & W)|R]; [destruct p; discriminate| |contradiction].
    destruct W as (data & [(E & _ & Fh & _ & _)|(_ & _ & N49 & _)] & _ & F & C); [|exfalso; apply N49; apply in_or_app; right; left; reflexivity].
    assert (Lp : Forall letter p) by (eapply Forall_impl; [|exact Fp]; intros c H; left; exact H).
    pose proof (before_sep p (map bsym ds) ltac:(apply letter_alnum; exact Lp)) as B. cbn [app] in E. rewrite E, before_sep in B by (apply letter_alnum; exact Fh). subst hrp.
    apply app_inv_head in E. injection E as E. rewrite <- E in F. rewrite (stands_all_fun _ _ _ S1 F). exact C. }
  destruct (spelt_or_refused (map capital (p ++ [49] ++ map bsym ds))) as [(hrp & ds' & W)|R]; [destruct p; discriminate| |exact R]. exfalso.
  rewrite !map_app in W. change (map capital [49]) with [49] in W. destruct W as (data & [(E & _ & Fh & _ & _)|(_ & _ & N49 & _)] & _ & F & C); [|apply N49; apply in_or_app; right; left; reflexivity].
  assert (Lp : Forall letter (map capital p)).
  { apply Forall_map. eapply Forall_impl; [|exact Fp]. intros c H. right. unfold upper_case, capital. cbv beta in H. replace ((97 <=? c) && (c <=? 122)) with true by lia. lia. }
  pose proof (before_sep (map capital p) (map capital (map bsym ds)) ltac:(apply letter_alnum; exact Lp)) as B. cbn [app] in E. rewrite E, before_sep in B by (apply letter_alnum; exact Fh). subst hrp.
  apply app_inv_head in E. injection E as E. rewrite <- E in F. assert (ds' = ds) by (eapply stands_all_fun; eassumption). subst ds'.
  unfold bip173_checksum_ok in *. assert (Al : Forall alphanumeric p) by (apply bip_lower_d5; exact Fp). assert (Ac : Forall alphanumeric (map capital p)) by (apply letter_alnum; exact Lp).
  rewrite fold_bip in W1; [|lia|apply Forall_app; split; [apply expand_alnum; assumption|exact D]].
  rewrite fold_bip in C; [|lia|apply Forall_app; split; [apply expand_alnum; assumption|exact D]].
  destruct (capital_expand p Fp) as [X1 X2].
  assert (Hh : hamming (bip173_expand p ++ ds) (bip173_expand (map capital p) ++ ds) = length p).
  { rewrite hamming_app_same by (unfold bip173_expand; rewrite !app_length, !map_length; reflexivity). rewrite X1, X2.
    rewrite hamming_app_same by (rewrite !map_length; reflexivity). clear. induction p as [|c p IH]; [reflexivity|]. cbn [map hamming length]. rewrite IH. reflexivity. }
  apply (errors_detected30 (bip173_expand p ++ ds) (bip173_expand (map capital p) ++ ds) 1).
  - apply Forall_app; split; [apply expand_alnum; exact Al|exact D].
  - apply Forall_app; split; [apply expand_alnum; exact Ac|exact D].
  - unfold bip173_expand. rewrite !app_length, !map_length. reflexivity.
  - unfold bip173_expand. rewrite !app_length, !map_length. cbn [length]. lia.
  - rewrite Hh. destruct p; [congruence|]. cbn [length] in *. lia.
  - rewrite W1, C. reflexivity.
Qed.

(** ** Cases *)
(** The hypotheses are met by BIP 173's first test address. *)
Example capitals_case : let s := str "qw508d6qejxtdg4y5r3zarvary0c5xw7kv8f3t4" in
  lower_prefix (str "bc") /\ Forall is_bech32_char s /\ bech32_decode (str "bc" ++ [49] ++ s) = hex_decode (str "751e76e8199196d454941c45d1b3a323f1433bd6") /\
  map capital (str "bc" ++ [49] ++ s) = str "BC1QW508D6QEJXTDG4Y5R3ZARVARY0C5XW7KV8F3T4" /\ bech32_decode (str "BC1QW508D6QEJXTDG4Y5R3ZARVARY0C5XW7KV8F3T4") = Err.
Proof.
  cbv zeta. split; [split; [discriminate|apply Forall_forall; intros c [<-|[<-|[]]]; cbv; split; discriminate]|].
  split; [apply Forall_forall; intros c I; unfold is_bech32_char; cbn in I; repeat (destruct I as [<-|I]; [cbn; tauto|]); destruct I|].
  split; [vm_compute; reflexivity|]. split; vm_compute; reflexivity.
Qed.
(** A text with no separator at all that the decoder accepts, and one with it that crashes it. *)
Example no_separator_case : bech32_decode (str "bcevwyweq") = Ok [25] /\ ~ In 49 (str "bcevwyweq") /\ bech32_decode (str "bc1gmk9yu") = Panic.
Proof. split; [vm_compute; reflexivity|]. split; [cbn; intuition discriminate|vm_compute; reflexivity]. Qed.
Example well_spelt_case : exists ds, well_spelt (str "bc1gmk9yu") (str "bc") ds /\ length ds = 6%nat.
Proof.
  assert (P : bech32_decode (str "bc1gmk9yu") = Panic) by (vm_compute; reflexivity). apply bech32_crashes_exactly in P as [P|(hrp & ds & W & L)]; [discriminate|].
  destruct W as (data & D & O & F & C). assert (hrp = str "bc" /\ data = str "gmk9yu") as [-> ->].
  { destruct D as [(E & _ & Fh & _ & Nd)|(_ & _ & N & _)]; [|exfalso; apply N; right; right; left; reflexivity].
    pose proof (before_sep (str "bc") (str "gmk9yu") ltac:(cbn; intuition discriminate)) as B. change (str "bc" ++ 49 :: str "gmk9yu") with (str "bc1gmk9yu") in B.
    rewrite E in B. cbn [app] in B. rewrite before_sep in B by (apply letter_alnum; exact Fh). subst hrp. split; [reflexivity|]. change (str "bc1gmk9yu") with (str "bc" ++ [49] ++ str "gmk9yu") in E.
    apply app_inv_head in E. injection E as E. symmetry. exact E. }
  exists ds. split; [exists (str "gmk9yu"); auto|]. repeat match goal with F : Forall2 stands_for _ _ |- _ => inversion F; clear F; subst end. reflexivity.
Qed.
Print Assumptions bech32_decodes_exactly.
Print Assumptions bech32_crashes_exactly.
Print Assumptions bech32_refuses_exactly.
Print Assumptions bech32_capitals_refused.
