(** C143: VerifyAndCombineTransaction of hypercashTransaction on every text, with signatures and keys of every size. *)
From Coq Require Import String ZArith List Bool Lia ZifyBool ZifyNat.
From Verif Require Import Go GoFacts GoFacts2 SigModel SigDerProps SigSizeProps CodecModel HyperModel HyperProps LiteProps.
Import ListNotations.
Open Scope Z_scope.
Ltac Zify.zify_post_hook ::= idtac.

Section T.
Variables (B decompress : bytes -> bytes) (verify : bytes -> bytes -> bytes -> bool).
(** ** Specification *)
Definition hc_typed (s : hsig) : Prop := is_bytes (s_signature s).
(** The script of a signature and a key: what remains of the two parts of the signature with the type 1, and the key, with the length in
    front. Every length is written into one byte. *)
Definition hc_script (s : hsig) (e : bytes) : Prop :=
  exists R S, trimmed (firstn 32 (s_signature s)) R /\ trimmed (skipn 32 (s_signature s)) S /\
    let c := any_script R S 1 ++ zlen (s_pubkey s) mod 256 :: s_pubkey s in e = zlen c mod 256 :: c.
(** For a signature of 64 bytes and a key of 33 bytes this is: the DER form of the two numbers. *)
Definition hc_sized (s : hsig) : Prop := is_bytes (s_signature s) /\ length (s_signature s) = 64%nat /\ length (s_pubkey s) = 33%nat.
Definition hc_der_script (s : hsig) (e : bytes) : Prop :=
  exists R S, r_of (s_signature s) <> 0 /\ s_of (s_signature s) <> 0 /\ der_int (r_of (s_signature s)) R /\ der_int (s_of (s_signature s)) S /\
    let c := sig_script R S 1 ++ 33 :: s_pubkey s in e = zlen c :: c.
(** The signature [s] is valid for the input [k] of [n] of the transaction [tx] with the lock script [lock]. *)
Definition hc_valid (tx : bytes) (n k : nat) (lock : bytes) (s : hsig) : Prop :=
  exists c point, decompress (s_pubkey s) = c :: point /\ verify point (rehash B tx n k lock) (s_signature s) = true.
(** The text [d] of the input [k] is accepted with [s] and gives the witness [w]. *)
Definition round_ok (tx : bytes) (n k : nat) (d : list Z) (s : hsig) (w : bytes) : Prop :=
  exists lt st lock sc e, d = lt ++ str "/" ++ st /\ hex_decode lt = Ok lock /\ hex_decode st = Ok sc /\ hc_valid tx n k lock s /\ hc_script s e /\ w = sc ++ e.
(** It crashes: the key does not decompress, or the signature is valid and cannot be put into a script. *)
Definition round_crash (tx : bytes) (n k : nat) (d : list Z) (s : hsig) : Prop :=
  exists lt st lock, d = lt ++ str "/" ++ st /\ ~ In 47 st /\ hex_decode lt = Ok lock /\
    (decompress (s_pubkey s) = [] \/ hc_valid tx n k lock s /\ (exists sc, hex_decode st = Ok sc) /\ unusable (s_signature s)).
Fixpoint rounds_ok (tx : bytes) (n k : nat) (ds : list (list Z)) (ss : list hsig) (ws : list bytes) : Prop :=
  match ds, ss, ws with
  | [], [], [] => True
  | d :: ds, s :: ss, w :: ws => round_ok tx n k d s w /\ rounds_ok tx n (S k) ds ss ws
  | _, _, _ => False
  end.

(** ** Lemmas *)
Lemma hex_no c s b : hex_decode s = Ok b -> c = 47 \/ c = 58 -> ~ In c s.
Proof.
  revert b. induction s as [|x|x y r IH] using pair_ind; intros b; cbn [hex_decode]; [intros _ _ []|destruct (hex_val x); discriminate|]. destruct (hex_val x) eqn:Ex; [|discriminate]. destruct (hex_val y) eqn:Ey; [|discriminate].
  intros E C. apply bind_ok in E as (t & Et & E). intros [Q|[Q|Q]]; [subst x; destruct C; subst c; discriminate|subst y; destruct C; subst c; discriminate|exact (IH _ Et C Q)].
Qed.
Lemma split_on_free c s : Forall (fun p => ~ In c p) (split_on c s).
Proof.
  induction s as [|x s IH]; cbn [split_on]; [constructor; [intros []|constructor]|]. destruct (Z.eqb_spec x c) as [E|E]; [constructor; [intros []|exact IH]|].
  destruct (split_on c s) as [|h t]; [constructor; [intros [Q|[]]; contradiction|constructor]|]. inversion IH; subst. constructor; [intros [Q|Q]; contradiction|assumption].
Qed.
Lemma sigpub_cases s : hc_typed s ->
  (exists e, ~ unusable (s_signature s) /\ hypercash_sigpub (s_signature s) (s_pubkey s) 1 = Ok e /\ forall e', hc_script s e' <-> e' = e) \/
  (unusable (s_signature s) /\ hypercash_sigpub (s_signature s) (s_pubkey s) 1 = Panic /\ forall e, ~ hc_script s e).
Proof.
  intros Bs. destruct (halves_bytes _ Bs) as [B1 B2]. unfold hypercash_sigpub, encode_script, hc_script. destruct (encode_any (s_signature s) 1 Bs) as [(U & ->)|(U & R & S & T1 & T2 & ->)]; cbn [bind].
  - right. split; [exact U|]. split; [reflexivity|]. intros e (R & S & T1 & T2 & _). destruct (usable_trimmed _ Bs) as [(_ & N)|(N & _)]; [exact (N _ _ T1 T2)|contradiction].
  - left. rewrite wrap_is. eexists. split; [exact U|]. split; [reflexivity|]. intros e'. split.
    + intros (R' & S' & T1' & T2' & ->). rewrite (trimmed_one _ _ _ B1 T1' T1), (trimmed_one _ _ _ B2 T2' T2). reflexivity.
    + intros ->. exists R, S. auto.
Qed.
Lemma sigpub_sized s : hc_sized s ->
  (exists e, hypercash_sigpub (s_signature s) (s_pubkey s) 1 = Ok e /\ forall e', hc_der_script s e' <-> e' = e) \/
  ((r_of (s_signature s) = 0 \/ s_of (s_signature s) = 0) /\ hypercash_sigpub (s_signature s) (s_pubkey s) 1 = Panic /\ forall e, ~ hc_der_script s e).
Proof.
  intros (Bs & Ls & Lp). destruct (signature_script_panics_iff (s_signature s) (s_pubkey s) 1 Bs Ls) as [_ P]. unfold hypercash_sigpub.
  destruct (Z.eq_dec (r_of (s_signature s)) 0) as [Zr|Nr]; [right; split; [auto|]; rewrite (proj2 P (or_introl Zr)); split; [reflexivity|intros e (R & S & N & _); contradiction]|].
  destruct (Z.eq_dec (s_of (s_signature s)) 0) as [Zs|Ns]; [right; split; [auto|]; rewrite (proj2 P (or_intror Zs)); split; [reflexivity|intros e (R & S & _ & N & _); contradiction]|]. left.
  destruct (signature_script_is_minimal_der (s_signature s) 1 Bs Ls Nr Ns) as (R & S & D1 & D2 & E).
  destruct (input_script_reads_as (s_signature s) (s_pubkey s) 1 Bs Ls Nr Ns Lp) as (script & _ & Es & _ & _ & _ & Eh).
  assert (U : u8 (zlen (s_pubkey s)) = 33) by (unfold zlen; rewrite Lp; reflexivity).
  assert (Q : script = sig_script R S 1 ++ 33 :: s_pubkey s) by (unfold encode_script in Es; rewrite E in Es; cbn [bind] in Es; rewrite U in Es; congruence).
  unfold hypercash_sigpub in Eh. exists (zlen script :: script). split; [exact Eh|]. intros e'. split.
  - intros (R' & S' & _ & _ & D1' & D2' & ->). rewrite <- (minimal_der_unique _ _ _ D1 D1'), <- (minimal_der_unique _ _ _ D2 D2'), <- Q. reflexivity.
  - intros ->. exists R, S. rewrite <- Q. auto.
Qed.
Lemma round_iff tx n k d s : (k < n)%nat -> hc_typed s -> let r := verify_round B decompress verify (firstn 2 tx ++ [1; 0] ++ skipn 4 tx) n k d s in
  (forall w, r = Ok (Some w) <-> round_ok tx n k d s w) /\ (r = Panic <-> round_crash tx n k d s) /\ r <> Err.
Proof.
  intros L SZ. unfold verify_round, round_ok, round_crash. destruct (split_on 47 d) as [|lt [|st [|x rest]]] eqn:Sp.
  - exfalso. destruct d as [|y d]; cbn [split_on] in Sp; [discriminate|destruct (y =? 47); [discriminate|destruct (split_on 47 d); discriminate]].
  - cbv zeta. assert (N : forall lt' st', d = lt' ++ str "/" ++ st' -> False).
    { intros lt' st' E. pose proof (split_on_free 47 d) as F. pose proof (split_on_inv _ _ _ _ Sp) as Q. cbn [flat_map] in Q. rewrite app_nil_r in Q. rewrite Sp in F. apply Forall_inv in F. apply F. rewrite <- Q, E. apply in_or_app. right. left. reflexivity. }
    split; [|split; [|discriminate]]; [intros w|]; (split; [discriminate|]); [intros (lt' & st' & ? & ? & ? & E & _)|intros (lt' & st' & ? & E & _)]; destruct (N _ _ E).
  - pose proof (split_on_free 47 d) as F. rewrite Sp in F. pose proof (Forall_inv F) as F1. pose proof (Forall_inv (Forall_inv_tail F)) as F3. pose proof (split_on_inv _ _ _ _ Sp) as Q. cbn [flat_map app] in Q. rewrite app_nil_r in Q.
    assert (U : forall lt' st', d = lt' ++ str "/" ++ st' -> ~ In 47 st' -> lt' = lt /\ st' = st).
    { intros lt' st' E N. assert (F' : ~ In 47 lt').
      { intros I. apply in_split in I as (a & b & ->). assert (E3 : split_on 47 d <> [lt; st]); [|congruence]. clear Sp F1 F3 Q F. rewrite E, <- app_assoc. cbn [app].
        assert (G : forall x y, (2 <= length (split_on 47%Z (x ++ 47%Z :: y)))%nat) by (induction x as [|c x IH]; intros y; cbn [app split_on]; [change (47 =? 47) with true; cbv iota; destruct y as [|c y]; cbn [split_on]; [cbn; lia|destruct (c =? 47); [cbn [length]; lia|destruct (split_on 47 y); cbn [length]; lia]]|destruct (c =? 47); [specialize (IH y); cbn [length]; lia|specialize (IH y); destruct (split_on 47%Z (x ++ 47%Z :: y)); cbn [length] in *; lia]]).
        assert (G3 : forall x y, (length (split_on 47%Z (x ++ 47%Z :: y)) >= S (length (split_on 47%Z y)))%nat) by (induction x as [|c x IH]; intros y; cbn [app split_on]; [change (47 =? 47) with true; cbv iota; cbn [length]; lia|destruct (c =? 47); [specialize (IH y); cbn [length]; lia|specialize (IH y); destruct (split_on 47%Z (x ++ 47%Z :: y)); cbn [length] in *; lia]]).
        intros Q. pose proof (G3 a (b ++ 47 :: st')) as H1. pose proof (G b st') as H2. change (str "/") with [47] in Q. cbn [app] in Q. rewrite Q in H1. cbn [length] in H1. lia. }
      rewrite E in Sp. change (str "/") with [47] in Sp. cbn [app] in Sp. rewrite split_on_cons, split_on_none in Sp by assumption. injection Sp as -> ->. auto. }
    pose proof (hex_decode_not_panic lt) as N1. pose proof (hex_decode_not_panic st) as N2. cbv zeta.
    assert (ED : d = lt ++ str "/" ++ st) by exact Q.
    destruct (hex_decode lt) as [lock| |] eqn:Hl; [| |contradiction].
    2: { split; [|split; [|discriminate]]; [intros w|]; (split; [discriminate|]); [intros (lt' & st' & lock & sc & e & E & H1 & H2 & _)|intros (lt' & st' & lock & E & N & H1 & _)]; [assert (~ In 47 st') as N by (exact (hex_no _ _ _ H2 (or_introl eq_refl)))|]; destruct (U _ _ E N) as [-> ->]; congruence. }
    rewrite (witness_slots_eq) by exact L.
    match goal with |- context [verify _ ?h _] => change h with (rehash B tx n k lock) end.
    unfold hc_valid. destruct (decompress (s_pubkey s)) as [|c point] eqn:D.
    { cbn [bind]. change (slice_from [] 1) with (@Panic bytes). cbn [bind]. split; [|split; [|discriminate]]; [intros w; split; [discriminate|intros (? & ? & ? & ? & ? & _ & _ & _ & (? & ? & Q2 & _) & _); discriminate]|]. split; [intros _|reflexivity]. exists lt, st, lock. auto. }
    rewrite slice_from_cons. cbn [bind]. destruct (verify point (rehash B tx n k lock) (s_signature s)) eqn:V; cbn [negb].
    2: { split; [|split; [|discriminate]]; [intros w|]; (split; [discriminate|]); [intros (lt' & st' & lock' & sc & e & E & H1 & H2 & (c' & point' & Q2 & Q3) & _)|intros (lt' & st' & lock' & E & N & H1 & [Q2|((c' & point' & Q2 & Q3) & _)])]; [assert (~ In 47 st') as N by (exact (hex_no _ _ _ H2 (or_introl eq_refl)))|discriminate|]; destruct (U _ _ E N) as [-> ->]; congruence. }
    destruct (hex_decode st) as [sc| |] eqn:Hs; [| |contradiction].
    2: { split; [|split; [|discriminate]]; [intros w|]; (split; [discriminate|]); [intros (lt' & st' & lock' & sc & e & E & H1 & H2 & _)|intros (lt' & st' & lock' & E & N & H1 & [Q2|(_ & (sc & H2) & _)])]; [assert (~ In 47 st') as N by (exact (hex_no _ _ _ H2 (or_introl eq_refl)))|discriminate|]; destruct (U _ _ E N) as [-> ->]; congruence. }
    destruct (sigpub_cases s SZ) as [(e & NU & -> & SE)|(ZZ & -> & NE)]; cbn [bind].
    + split; [|split; [|discriminate]].
      * intros w. split.
        -- intros E. assert (w = sc ++ e) by congruence. subst w. exists lt, st, lock, sc, e. split; [exact ED|]. split; [exact Hl|]. split; [exact Hs|]. split; [exists c, point; auto|]. split; [apply SE; reflexivity|reflexivity].
        -- intros (lt' & st' & lock' & sc' & e' & E & H1 & H2 & _ & H3 & ->). assert (~ In 47 st') as N by (exact (hex_no _ _ _ H2 (or_introl eq_refl))). destruct (U _ _ E N) as [-> ->]. apply SE in H3. subst e'. assert (sc' = sc) by congruence. subst sc'. reflexivity.
      * split; [discriminate|]. intros (lt' & st' & lock' & E & N & H1 & [Q2|(_ & _ & ZZ)]); [discriminate|]. contradiction.
    + split; [|split; [|discriminate]].
      * intros w. split; [discriminate|]. intros (lt' & st' & lock' & sc' & e' & _ & _ & _ & _ & H3 & _). destruct (NE _ H3).
      * split; [intros _|reflexivity]. exists lt, st, lock. split; [exact ED|]. split; [exact F3|]. split; [exact Hl|]. right. split; [exists c, point; auto|]. split; [exists sc; exact Hs|exact ZZ].
  - assert (N : forall lt' st', d = lt' ++ str "/" ++ st' -> ~ In 47 lt' -> ~ In 47 st' -> False) by (intros lt' st' E N1 N2; rewrite E in Sp; change (str "/") with [47] in Sp; cbn [app] in Sp; rewrite split_on_cons, split_on_none in Sp by assumption; discriminate).
    cbv zeta. split; [|split; [|discriminate]]; [intros w|]; (split; [discriminate|]); [intros (lt' & st' & lock' & sc & e & E & H1 & H2 & _)|intros (lt' & st' & lock' & E & N2 & H1 & _)]; exfalso; [exact (N _ _ E (hex_no _ _ _ H1 (or_introl eq_refl)) (hex_no _ _ _ H2 (or_introl eq_refl)))|exact (N _ _ E (hex_no _ _ _ H1 (or_introl eq_refl)) N2)].
Qed.
Lemma loop_iff tx n : forall ds ss k, length ds = length ss -> (k + length ds <= n)%nat -> Forall hc_typed ss -> let r := verify_loop B decompress verify (firstn 2 tx ++ [1; 0] ++ skipn 4 tx) n k ds ss in
  (forall x, r = Ok (Some x) <-> exists ws, rounds_ok tx n k ds ss ws /\ x = concat ws) /\
  (r = Panic <-> exists ds1 d ds2 ss1 s ss2 ws, ds = ds1 ++ d :: ds2 /\ ss = ss1 ++ s :: ss2 /\ rounds_ok tx n k ds1 ss1 ws /\ round_crash tx n (k + length ds1) d s) /\ r <> Err.
Proof.
  induction ds as [|d ds IH]; intros [|s ss] k Ll Lk F; try discriminate Ll; cbn [verify_loop].
  - cbv zeta. split; [|split; [|discriminate]].
    + intros x. split; [intros E; exists []; split; [exact I|injection E as <-; reflexivity]|]. intros ([|w ws] & R & ->); [reflexivity|destruct R].
    + split; [discriminate|]. intros ([|? ?] & ? & ? & ? & ? & ? & ? & E & _); discriminate.
  - cbv zeta. cbn [length] in Ll, Lk. inversion F as [|? ? F1 F2]; subst. destruct (round_iff tx n k d s ltac:(lia) F1) as (R1 & R2 & R3). cbv zeta in R1, R2, R3. destruct (IH ss (S k) ltac:(lia) ltac:(lia) F2) as (I1 & I2 & I3). cbv zeta in I1, I2, I3.
    assert (CR : forall (P : Prop), P -> (round_crash tx n k d s -> P) -> True) by auto.
    destruct (verify_round B decompress verify (firstn 2 tx ++ [1; 0] ++ skipn 4 tx) n k d s) as [[y|]| |]; [| |contradiction|]; cbn [bind].
    + pose proof (proj1 (R1 y) eq_refl) as RO. assert (NC : ~ round_crash tx n k d s) by (intros C; apply R2 in C; discriminate).
      destruct (verify_loop B decompress verify (firstn 2 tx ++ [1; 0] ++ skipn 4 tx) n (S k) ds ss) as [[z|]| |]; [| |contradiction|]; cbn [bind].
      * split; [|split; [|discriminate]].
        -- intros x. split.
           ++ intros E. injection E as <-. destruct (proj1 (I1 z) eq_refl) as (ws & RW & ->). exists (y :: ws). split; [split; assumption|reflexivity].
           ++ intros ([|w ws] & RW & ->); [destruct RW|]. destruct RW as [RW RWs]. apply R1 in RW. assert (Q : Ok (Some z) = Ok (Some (concat ws))) by (apply I1; exists ws; auto). cbn [concat]. injection RW as <-. injection Q as <-. reflexivity.
        -- split; [discriminate|]. intros ([|d1 ds1] & d' & ds2 & [|s1 ss1] & s' & ss2 & ws & E1 & E2 & RW & C); cbn [app] in E1, E2.
           ++ injection E1 as <- <-. injection E2 as <- <-. cbn [length] in C. rewrite Nat.add_0_r in C. contradiction.
           ++ destruct RW.
           ++ destruct RW.
           ++ injection E1 as <- E1. injection E2 as <- E2. destruct ws as [|w ws]; [destruct RW|]. destruct RW as [_ RW]. assert (Q : Ok (Some z) = Panic) by (apply I2; exists ds1, d', ds2, ss1, s', ss2, ws; cbn [length] in C; replace (S k + length ds1)%nat with (k + S (length ds1))%nat by lia; auto). discriminate.
      * split; [|split; [|discriminate]].
        -- intros x. split; [discriminate|]. intros ([|w ws] & RW & ->); [destruct RW|]. destruct RW as [RW RWs]. assert (Q : Ok None = Ok (Some (concat ws))) by (apply I1; exists ws; auto). discriminate.
        -- split; [discriminate|]. intros ([|d1 ds1] & d' & ds2 & [|s1 ss1] & s' & ss2 & ws & E1 & E2 & RW & C); cbn [app] in E1, E2; [|destruct RW|destruct RW|].
           ++ injection E1 as <- <-. injection E2 as <- <-. cbn [length] in C. rewrite Nat.add_0_r in C. contradiction.
           ++ injection E1 as <- E1. injection E2 as <- E2. destruct ws as [|w ws]; [destruct RW|]. destruct RW as [_ RW]. assert (Q : @Ok (option bytes) None = Panic) by (apply I2; exists ds1, d', ds2, ss1, s', ss2, ws; cbn [length] in C; replace (S k + length ds1)%nat with (k + S (length ds1))%nat by lia; auto). discriminate.
      * split; [|split; [|discriminate]].
        -- intros x. split; [discriminate|]. intros ([|w ws] & RW & ->); [destruct RW|]. destruct RW as [RW RWs]. assert (Q : Panic = Ok (Some (concat ws))) by (apply I1; exists ws; auto). discriminate.
        -- split; [intros _|reflexivity]. destruct (proj1 I2 eq_refl) as (ds1 & d' & ds2 & ss1 & s' & ss2 & ws & -> & -> & RW & C). exists (d :: ds1), d', ds2, (s :: ss1), s', ss2, (y :: ws). split; [reflexivity|]. split; [reflexivity|]. split; [split; assumption|]. cbn [length]. replace (k + S (length ds1))%nat with (S k + length ds1)%nat by lia. exact C.
    + assert (NR : forall w, ~ round_ok tx n k d s w) by (intros w C; apply R1 in C; discriminate). assert (NC : ~ round_crash tx n k d s) by (intros C; apply R2 in C; discriminate). split; [|split; [|discriminate]].
      * intros x. split; [discriminate|]. intros ([|w ws] & RW & ->); [destruct RW|]. destruct RW as [RW _]. destruct (NR _ RW).
      * split; [discriminate|]. intros ([|d1 ds1] & d' & ds2 & [|s1 ss1] & s' & ss2 & ws & E1 & E2 & RW & C); cbn [app] in E1, E2; [|destruct RW|destruct RW|].
        -- injection E1 as <- <-. injection E2 as <- <-. cbn [length] in C. rewrite Nat.add_0_r in C. contradiction.
        -- injection E1 as <- E1. injection E2 as <- E2. destruct ws as [|w ws]; [destruct RW|]. destruct RW as [RW _]. destruct (NR _ RW).
    + assert (NR : forall w, ~ round_ok tx n k d s w) by (intros w C; apply R1 in C; discriminate). pose proof (proj1 R2 eq_refl) as C. split; [|split; [|discriminate]].
      * intros x. split; [discriminate|]. intros ([|w ws] & RW & ->); [destruct RW|]. destruct RW as [RW _]. destruct (NR _ RW).
      * split; [intros _|reflexivity]. exists [], d, ds, [], s, ss, []. cbn [length app]. rewrite Nat.add_0_r. repeat split; assumption || exact I.
Qed.
Lemma split_on_unique c s : exists a ps, split_on c s = a :: ps.
Proof. destruct (split_on c s) as [|a ps] eqn:E; [|eauto]. exfalso. destruct s as [|y s]; cbn [split_on] in E; [discriminate|destruct (y =? c); [discriminate|destruct (split_on c s); discriminate]]. Qed.
Lemma round_no_colon tx n k d s w : round_ok tx n k d s w -> ~ In 58 d.
Proof. intros (lt & st & lock & sc & e & -> & H1 & H2 & _) I. apply in_app_or in I as [I|I]; [exact (hex_no _ _ _ H1 (or_intror eq_refl) I)|]. apply in_app_or in I as [[I|[]]|I]; [discriminate|exact (hex_no _ _ _ H2 (or_intror eq_refl) I)]. Qed.
Lemma rounds_facts tx n : forall ds ss k ws, rounds_ok tx n k ds ss ws -> length ds = length ss /\ Forall (fun d => ~ In 58 d) ds.
Proof.
  induction ds as [|d ds IH]; intros [|s ss] k [|w ws] R; try destruct R as []; [split; [reflexivity|constructor]|]. destruct (IH _ _ _ H0) as [L F]. split; [cbn [length]; lia|]. constructor; [exact (round_no_colon _ _ _ _ _ _ H)|exact F].
Qed.
Lemma idx_nth (tx : bytes) (i : nat) : idx tx (Z.of_nat i) = match nth_error tx i with Some x => Ok x | None => Panic end.
Proof. unfold idx. replace (Z.of_nat i <? 0) with false by lia. rewrite Nat2Z.id. reflexivity. Qed.

(** ** C143 *)
(** A text is combined exactly when it is a transaction in hexadecimal, then for every signature a colon, a lock script, a slash and
    the beginning of a witness, and every signature is valid for its own input. *)
Theorem hc_combine_iff : forall text sigs r, Forall hc_typed sigs ->
  (verify_combine B decompress verify text sigs = Ok (Some r) <->
   exists t0 tx ds ws, text = t0 ++ flat_map (cons 58) ds /\ hex_decode t0 = Ok tx /\ nth_error tx 2 = Some 0 /\ nth_error tx 3 = Some 0 /\
     sigs <> [] /\ rounds_ok tx (length sigs) 0 ds sigs ws /\ r = hex_encode (tx ++ var_int (zlen sigs) ++ concat ws)).
Proof.
  intros text sigs r F. unfold verify_combine. destruct (split_on_unique 58 text) as (t0 & ds & Sp). rewrite Sp. split.
  - destruct (Z.leb_spec (zlen (t0 :: ds)) 1) as [|Ln]; [discriminate|]. destruct (Nat.eqb_spec (length ds) (length sigs)) as [L|]; cbn [negb]; [|discriminate]. destruct (hex_decode t0) as [tx| |] eqn:Ht; try discriminate. intros E.
    apply bind_ok in E as (b2 & I2 & E). destruct (Z.eqb_spec 0 b2) as [Z2|]; cbn [negb] in E; [|discriminate]. apply bind_ok in E as (b3 & I3 & E). destruct (Z.eqb_spec 0 b3) as [Z3|]; cbn [negb] in E; [|discriminate]. subst b2 b3. cbv zeta in E. change (put_le 2 1) with [1; 0] in E.
    apply bind_ok in E as (x & E & R). destruct x as [x|]; [|discriminate]. destruct (loop_iff tx (length sigs) ds sigs 0%nat L ltac:(lia) F) as (LI & _). apply LI in E as (ws & RW & ->).
    change 2 with (Z.of_nat 2) in I2. change 3 with (Z.of_nat 3) in I3. rewrite idx_nth in I2, I3. exists t0, tx, ds, ws. split; [exact (split_on_inv _ _ _ _ Sp)|]. split; [exact Ht|]. split; [destruct (nth_error tx 2); congruence|]. split; [destruct (nth_error tx 3); congruence|].
    split; [intros ->; rewrite zlen_cons in Ln; unfold zlen in Ln; cbn [length] in L; lia|]. split; [exact RW|]. rewrite app_assoc. congruence.
  - intros (t1 & tx & ds1 & ws & ET & Ht & N2 & N3 & NE & RW & ->). destruct (rounds_facts _ _ _ _ _ _ RW) as [L NC]. rewrite ET, split_on_join in Sp; [|exact (hex_no _ _ _ Ht (or_intror eq_refl))|exact NC]. injection Sp as <- <-.
    replace (zlen (t1 :: ds1) <=? 1) with false by (destruct sigs; [contradiction|]; unfold zlen; cbn [length] in *; lia). rewrite L, Nat.eqb_refl. cbn [negb]. rewrite Ht. change 2 with (Z.of_nat 2) at 1. change 3 with (Z.of_nat 3) at 1. rewrite !idx_nth, N2, N3. cbn [bind]. change (negb (0 =? 0)) with false. cbv iota zeta. change (put_le 2 1) with [1; 0].
    destruct (loop_iff tx (length sigs) ds1 sigs 0%nat L ltac:(lia) F) as (LI & _). rewrite (proj2 (LI (concat ws))) by (exists ws; auto). cbn [bind]. rewrite <- app_assoc. reflexivity.
Qed.
(** It crashes on a transaction that is too short to have a type, and in the first round that is not accepted when its key does not
    decompress or its signature is valid and has a zero number. *)
Theorem hc_combine_panics_iff : forall text sigs, Forall hc_typed sigs ->
  (verify_combine B decompress verify text sigs = Panic <->
   exists t0 tx ds, text = t0 ++ flat_map (cons 58) ds /\ Forall (fun d => ~ In 58 d) ds /\ hex_decode t0 = Ok tx /\ length ds = length sigs /\ sigs <> [] /\
     (zlen tx <= 2 \/ (zlen tx = 3 /\ nth_error tx 2 = Some 0) \/
      (nth_error tx 2 = Some 0 /\ nth_error tx 3 = Some 0 /\ exists ds1 d ds2 ss1 s ss2 ws, ds = ds1 ++ d :: ds2 /\ sigs = ss1 ++ s :: ss2 /\
         rounds_ok tx (length sigs) 0 ds1 ss1 ws /\ round_crash tx (length sigs) (length ds1) d s))).
Proof.
  intros text sigs F. unfold verify_combine. destruct (split_on_unique 58 text) as (t0 & ds & Sp). pose proof (split_on_free 58 text) as SF. rewrite Sp in SF |- *. inversion SF as [|? ? SF1 SF2]; subst.
  assert (U : forall t1 ds1 tx, text = t1 ++ flat_map (cons 58) ds1 -> Forall (fun d => ~ In 58 d) ds1 -> hex_decode t1 = Ok tx -> t1 = t0 /\ ds1 = ds).
  { intros t1 ds1 tx E F1 H1. rewrite E, split_on_join in Sp; [|exact (hex_no _ _ _ H1 (or_intror eq_refl))|exact F1]. injection Sp as -> ->. auto. }
  assert (LE : zlen (t0 :: ds) <= 1 <-> ds = []) by (unfold zlen; destruct ds; cbn [length]; split; intros; try lia; try reflexivity; discriminate).
  assert (SH : forall (tx : bytes) (i : nat), nth_error tx i = None <-> zlen tx <= Z.of_nat i) by (intros tx i; rewrite nth_error_None; unfold zlen; lia).
  destruct (Z.leb_spec (zlen (t0 :: ds)) 1) as [Z1|Z1].
  { split; [discriminate|]. intros (t1 & tx & ds1 & E & F1 & H1 & L & NE & _). destruct (U _ _ _ E F1 H1) as [-> ->]. apply LE in Z1. subst ds. destruct sigs; [contradiction|discriminate]. }
  destruct (Nat.eqb_spec (length ds) (length sigs)) as [L|L]; cbn [negb].
  2: { split; [discriminate|]. intros (t1 & tx & ds1 & E & F1 & H1 & L1 & _). destruct (U _ _ _ E F1 H1) as [-> ->]. contradiction. }
  assert (NE : sigs <> []) by (intros ->; destruct ds; [pose proof (proj2 LE eq_refl); lia|discriminate]).
  destruct (hex_decode t0) as [tx| |] eqn:Ht.
  2: { split; [discriminate|]. intros (t1 & tx & ds1 & E & F1 & H1 & _). destruct (U _ _ _ E F1 H1) as [-> ->]. congruence. }
  2: { destruct (hex_decode_not_panic _ Ht). }
  assert (G : forall P : bytes -> list (list Z) -> Prop, (exists t1 tx' ds1, text = t1 ++ flat_map (cons 58) ds1 /\ Forall (fun d => ~ In 58 d) ds1 /\ hex_decode t1 = Ok tx' /\ length ds1 = length sigs /\ sigs <> [] /\ P tx' ds1) <-> P tx ds).
  { intros P. split.
    - intros (t1 & tx' & ds1 & E & F1 & H1 & _ & _ & Q). destruct (U _ _ _ E F1 H1) as [-> ->]. assert (tx' = tx) by congruence. subst. exact Q.
    - intros Q. exists t0, tx, ds. split; [exact (split_on_inv _ _ _ _ Sp)|]. auto. }
  rewrite (G (fun tx ds => zlen tx <= 2 \/ (zlen tx = 3 /\ nth_error tx 2 = Some 0) \/ (nth_error tx 2 = Some 0 /\ nth_error tx 3 = Some 0 /\ exists ds1 d ds2 ss1 s ss2 ws, ds = ds1 ++ d :: ds2 /\ sigs = ss1 ++ s :: ss2 /\ rounds_ok tx (length sigs) 0 ds1 ss1 ws /\ round_crash tx (length sigs) (length ds1) d s))). clear G.
  change 2 with (Z.of_nat 2) at 1. change 3 with (Z.of_nat 3) at 1. rewrite !idx_nth. pose proof (SH tx 2%nat) as S2. pose proof (SH tx 3%nat) as S3.
  destruct (nth_error tx 2) as [b2|] eqn:N2; [|cbn [bind]; split; [intros _; left; apply S2; reflexivity|reflexivity]]. cbn [bind].
  assert (L2 : 2 < zlen tx) by (destruct (Z.le_gt_cases (zlen tx) 2) as [Q|Q]; [apply S2 in Q; discriminate|lia]).
  destruct (Z.eqb_spec 0 b2) as [<-|NZ]; cbn [negb]; [|split; [discriminate|intros [Q|[(_ & Q)|(Q & _)]]; [lia|congruence|congruence]]].
  destruct (nth_error tx 3) as [b3|] eqn:N3; [|cbn [bind]; split; [intros _; right; left; split; [|reflexivity]; assert (zlen tx <= Z.of_nat 3) by (apply S3; reflexivity); lia|reflexivity]]. cbn [bind].
  assert (L3 : 3 < zlen tx) by (destruct (Z.le_gt_cases (zlen tx) 3) as [Q|Q]; [apply S3 in Q; discriminate|lia]).
  destruct (Z.eqb_spec 0 b3) as [<-|NZ]; cbn [negb]; [|split; [discriminate|intros [Q|[(Q & _)|(_ & Q & _)]]; [lia|lia|congruence]]].
  cbv zeta. change (put_le 2 1) with [1; 0]. destruct (loop_iff tx (length sigs) ds sigs 0%nat L ltac:(lia) F) as (_ & LP & LN). cbv zeta in LP, LN. cbn [Nat.add] in LP.
  split.
  - intros E. right; right. split; [reflexivity|]. split; [reflexivity|]. apply LP. destruct (verify_loop _ _ _ _ _ _ _ _) as [[x|]| |]; [discriminate..| |reflexivity]. contradiction.
  - intros [Q|[(Q & _)|(_ & _ & Q)]]; [lia|lia|]. apply LP in Q. rewrite Q. reflexivity.
Qed.
(** For signatures of 64 bytes and keys of 33 bytes the script is the minimal DER form, and it is missing exactly for a zero number. *)
Theorem hc_script_is_der : forall s, hc_sized s ->
  (forall e, hc_script s e <-> hc_der_script s e) /\ (unusable (s_signature s) <-> r_of (s_signature s) = 0 \/ s_of (s_signature s) = 0).
Proof.
  intros s SZ. assert (T : hc_typed s) by (destruct SZ as [T _]; exact T).
  destruct (sigpub_cases s T) as [(e & U & E & G)|(U & E & G)]; destruct (sigpub_sized s SZ) as [(e' & E' & G')|(Q & E' & G')]; try congruence.
  - assert (e' = e) by congruence. subst e'. split; [intros x; split; intros X; [apply G', G, X|apply G, G', X]|]. split; [contradiction|]. intros Q. destruct (proj2 (G' e) eq_refl) as (? & ? & ? & ? & _). destruct Q; contradiction.
  - split; [intros x; split; intros X; [destruct (G _ X)|destruct (G' _ X)]|]. tauto.
Qed.
End T.

(** ** Examples *)
Definition ex_hsig : hsig := {| s_signature := repeat 0 31 ++ [5] ++ repeat 0 31 ++ [200]; s_pubkey := 2 :: repeat 9 32 |}.
(** Four bytes are a transaction, also with an empty lock script. *)
Example ex_short : hc_sized ex_hsig /\ verify_combine (fun b => b) (fun b => 4 :: b) (fun _ _ _ => true) (str "01000000:/") [ex_hsig] =
  Ok (Some (str "01000000" ++ str "01" ++ hex_encode (45 :: sig_script [5] [0; 200] 1 ++ 33 :: 2 :: repeat 9 32))).
Proof. split; [split; [repeat (apply Forall_cons; [unfold is_byte; lia|]); apply Forall_nil|split; reflexivity]|reflexivity]. Qed.
Example ex_crash : verify_combine (fun b => b) (fun b => 4 :: b) (fun _ _ _ => true) (str "0100:/") [ex_hsig] = Panic.
Proof. reflexivity. Qed.
(** A signature of 40 bytes and a key of 300 bytes: the lengths 300 and 349 are written as 44 and 93. *)
Example ex_any : verify_combine (fun b => b) (fun b => 4 :: b) (fun _ _ _ => true) (str "01000000:/") [{| s_signature := repeat 1 40; s_pubkey := repeat 9 300 |}] =
  Ok (Some (str "01000000" ++ str "01" ++ hex_encode (93 :: [47; 48; 44; 2; 32] ++ repeat 1 32 ++ [2; 8] ++ repeat 1 8 ++ [1] ++ 44 :: repeat 9 300))).
Proof. reflexivity. Qed.
Print Assumptions hc_script_is_der.
Print Assumptions hc_combine_iff.
Print Assumptions hc_combine_panics_iff.
