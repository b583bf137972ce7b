From Coq Require Import ZArith List Bool Lia ZifyBool ZifyNat.
From Verif Require Import Go GoFacts Base58Model Base58Spec Base58Proofs Base58CheckModel Base58CheckSpec.
Import ListNotations.
Open Scope Z_scope.

Section S.
Variable H : bytes -> bytes.
Hypothesis HH : hash_ok H.

Lemma cks_len d : is_bytes d -> zlen (firstn 4 (H d)) = 4.
Proof. intros Hd. destruct (HH d Hd) as [_ L]. unfold zlen. rewrite firstn_length. lia. Qed.
Lemma firstn_bytes n l : is_bytes l -> is_bytes (firstn n l).
Proof. intros B. rewrite <- (firstn_skipn n l) in B. apply is_bytes_app in B. tauto. Qed.
Lemma skipn_bytes n l : is_bytes l -> is_bytes (skipn n l).
Proof. intros B. rewrite <- (firstn_skipn n l) in B. apply is_bytes_app in B. tauto. Qed.
Lemma cks_bytes d : is_bytes d -> is_bytes (firstn 4 (H d)).
Proof. intros Hd. apply firstn_bytes. destruct (HH d Hd); assumption. Qed.
Lemma cks_slice d : is_bytes d -> slice (H d) 0 4 = Ok (firstn 4 (H d)).
Proof.
  intros Hd. pose proof (cks_len d Hd) as L. rewrite <- (firstn_skipn 4 (H d)) at 1.
  apply slice_pre. congruence.
Qed.
Lemma checked_bytes d : is_bytes d -> is_bytes (checked H d).
Proof. intros Hd. apply is_bytes_app; split; [exact Hd | apply cks_bytes, Hd]. Qed.
Lemma checked_len d : is_bytes d -> zlen (checked H d) = zlen d + 4.
Proof. intros Hd. unfold checked. rewrite zlen_app, cks_len by assumption. reflexivity. Qed.
Lemma checked_inj a b : is_bytes a -> is_bytes b -> checked H a = checked H b -> a = b.
Proof.
  intros Ha Hb E. pose proof (f_equal zlen E) as L. rewrite !checked_len in L by assumption.
  unfold checked in E.
  apply (f_equal (firstn (length a))) in E.
  rewrite firstn_app, firstn_all, Nat.sub_diag in E. cbn [firstn] in E. rewrite app_nil_r in E.
  replace (length a) with (length b) in E by (unfold zlen in L; lia).
  rewrite firstn_app, firstn_all, Nat.sub_diag in E. cbn [firstn] in E. rewrite app_nil_r in E. exact E.
Qed.

Lemma check_split_checked d : is_bytes d -> check_split H (checked H d) = Ok d.
Proof.
  intros Hd. unfold check_split. rewrite checked_len by exact Hd.
  replace (zlen d + 4 - 4) with (zlen d) by lia.
  unfold checked. rewrite slice_pre by reflexivity. cbn [bind].
  rewrite cks_slice by exact Hd. cbn [bind].
  rewrite slice_post; [|reflexivity|rewrite cks_len by exact Hd; reflexivity]. cbn [bind].
  rewrite beq_refl. reflexivity.
Qed.
Lemma check_split_cases r : is_bytes r ->
  (zlen r < 4 /\ check_split H r = Panic) \/
  (4 <= zlen r /\ (exists d, is_bytes d /\ r = checked H d /\ check_split H r = Ok d)) \/
  (4 <= zlen r /\ (forall d, r <> checked H d \/ ~ is_bytes d) /\ check_split H r = Err).
Proof.
  intros Hr. destruct (Z_lt_ge_dec (zlen r) 4) as [L|L].
  - left; split; [exact L|]. unfold check_split.
    assert (E : slice r 0 (zlen r - 4) = Panic) by (apply slice_panic; lia). rewrite E. reflexivity.
  - right. pose proof (zlen_nonneg r).
    set (n := Z.to_nat (zlen r - 4)). set (d := firstn n r). set (c := skipn n r).
    assert (R : r = d ++ c) by (symmetry; apply firstn_skipn).
    assert (Ld : zlen d = zlen r - 4) by (unfold d, n, zlen in *; rewrite firstn_length; lia).
    assert (Lc : zlen c = 4) by (unfold c, n, zlen in *; rewrite skipn_length; lia).
    assert (Hd : is_bytes d) by (apply firstn_bytes, Hr).
    assert (CS : check_split H r = if beq (firstn 4 (H d)) c then Ok d else Err).
    { unfold check_split. rewrite R at 1. rewrite slice_pre by lia. cbn [bind].
      rewrite cks_slice by exact Hd. cbn [bind]. rewrite R at 1. rewrite slice_post by lia. reflexivity. }
    rewrite CS. destruct (beq _ c) eqn:E.
    + left. split; [lia|]. exists d. apply beq_eq in E. unfold checked. rewrite E. auto.
    + right. split; [lia|]. split; [|reflexivity]. intros d'. 
      destruct (Forall_dec is_byte (fun b => match Z_le_dec 0 b, Z_lt_dec b 256 with
         | left a, left b => left (conj a b) | right n, _ => right (fun k => n (proj1 k)) | _, right n => right (fun k => n (proj2 k)) end) d') as [B|B]; [|right; exact B].
      left. intros K. apply beq_neq in E. apply E.
      assert (d' = d).
      { pose proof (checked_len d' B) as L'. rewrite <- K in L'.
        unfold checked in K. rewrite R in K. 
        apply (f_equal (firstn (length d))) in K. rewrite firstn_app, firstn_all, Nat.sub_diag in K.
        cbn [firstn] in K. rewrite app_nil_r in K.
        replace (length d) with (length d') in K by (unfold zlen in *; lia).
        rewrite firstn_app, firstn_all, Nat.sub_diag in K. cbn [firstn] in K. rewrite app_nil_r in K. congruence. }
      subst d'. unfold checked in K. rewrite R in K at 1. apply app_inv_head in K. congruence.
Qed.
Lemma check_split_inv r d : is_bytes r -> check_split H r = Ok d -> is_bytes d /\ r = checked H d.
Proof.
  intros Hr E. destruct (check_split_cases r Hr) as [[_ P]|[[_ (d' & B & R & P)]|[_ [_ P]]]]; rewrite P in E; try discriminate.
  injection E as <-. auto.
Qed.

Variable rs : list Z.
Hypothesis Hrs : alphabet_ok rs.
Variable al : alphabet.
Hypothesis Hal : new_alphabet rs = Ok al.
Let As := new_alphabet_al rs al Hrs Hal.

Lemma enc_checked d : is_bytes d -> exists s, base58_encode al (checked H d) = Ok s /\ base58_decode al s = Ok (checked H d) /\ is_ascii s.
Proof. intros Hd. apply (decode_encode rs Hrs al As). apply checked_bytes, Hd. Qed.
Lemma encode_check_eq p h : is_bytes p -> is_bytes h -> encode_check al H p h = base58_encode al (checked H (p ++ h)).
Proof.
  intros Hp Hh. unfold encode_check. assert (B : is_bytes (p ++ h)) by (apply is_bytes_app; auto).
  rewrite cks_slice by exact B. reflexivity.
Qed.
Lemma ascii_bytes s : is_ascii s -> is_bytes s.
Proof. intros A. eapply Forall_impl; [|exact A]. unfold is_byte. cbn; intros; lia. Qed.

Lemma decode_check_encode p h : is_bytes p -> is_bytes h -> length h = 20%nat ->
  exists s, encode_check al H p h = Ok s /\ decode_check al H s = Ok (p, h).
Proof.
  intros Hp Hh Lh. assert (B : is_bytes (p ++ h)) by (apply is_bytes_app; auto).
  destruct (enc_checked _ B) as (s & E & D & _). exists s. rewrite encode_check_eq by assumption. split; [exact E|].
  unfold decode_check. rewrite D. cbn [bind]. rewrite check_split_checked by exact B. cbn [bind].
  rewrite checked_len by exact B. rewrite zlen_app. assert (zlen h = 20) by (unfold zlen; lia).
  unfold checked. rewrite <- app_assoc.
  rewrite slice_pre by lia. cbn [bind]. rewrite slice_mid by lia. reflexivity.
Qed.
Lemma decode_check1_encode p h : is_byte p -> is_bytes h ->
  exists s, encode_check1 al H p h = Ok s /\ decode_check1 al H s = Ok (p, h).
Proof.
  intros Hp Hh. assert (Hp' : is_bytes [p]) by (constructor; [exact Hp | constructor]).
  assert (B : is_bytes ([p] ++ h)) by (apply is_bytes_app; auto).
  destruct (enc_checked _ B) as (s & E & D & _). exists s. unfold encode_check1. rewrite encode_check_eq by assumption. split; [exact E|].
  unfold decode_check1. rewrite D. cbn [bind]. rewrite check_split_checked by exact B. cbn [bind].
  rewrite checked_len by exact B. rewrite zlen_app. change (zlen [p]) with 1.
  unfold checked. rewrite <- app_assoc. cbn [app].
  change (p :: h ++ firstn 4 (H (p :: h))) with ([] ++ p :: h ++ firstn 4 (H (p :: h))) at 1.
  rewrite idx_mid by reflexivity. cbn [bind].
  change (p :: h ++ firstn 4 (H (p :: h))) with ([p] ++ h ++ firstn 4 (H (p :: h))).
  pose proof (zlen_nonneg h).
  rewrite slice_mid; [reflexivity | reflexivity | change (zlen [p]) with 1; lia].
Qed.
Lemma decode_check_all_encode p h : is_byte p -> is_bytes h ->
  exists s, encode_check1 al H p h = Ok s /\ decode_check_all al H s = Ok (checked H (p :: h)).
Proof.
  intros Hp Hh. assert (Hp' : is_bytes [p]) by (constructor; [exact Hp | constructor]).
  assert (B : is_bytes ([p] ++ h)) by (apply is_bytes_app; auto).
  destruct (enc_checked _ B) as (s & E & D & _). exists s. unfold encode_check1. rewrite encode_check_eq by assumption. split; [exact E|].
  unfold decode_check_all. rewrite D. cbn [bind]. rewrite check_split_checked by exact B. reflexivity.
Qed.
Lemma prefix_loop_ok p : forall a r, prefix_loop p (a ++ p ++ r) (zlen a) = Ok tt.
Proof.
  induction p as [|x p IH]; intros a r; cbn [prefix_loop]; [reflexivity|].
  cbn [app]. rewrite idx_mid by reflexivity. cbn [bind]. rewrite Z.eqb_refl.
  replace (a ++ x :: p ++ r) with ((a ++ [x]) ++ p ++ r) by (rewrite <- app_assoc; reflexivity).
  replace (zlen a + 1) with (zlen (a ++ [x])) by (rewrite zlen_app; reflexivity). apply IH.
Qed.
Lemma prefix_loop_inv p : forall a r, prefix_loop p (a ++ r) (zlen a) = Ok tt -> exists r', r = p ++ r'.
Proof.
  induction p as [|x p IH]; intros a r E; cbn [prefix_loop] in E; [exists r; reflexivity|].
  destruct (idx (a ++ r) (zlen a)) eqn:I; cbn [bind] in E; try discriminate.
  destruct (x =? a0) eqn:X; [|discriminate]. 
  apply idx_ok in I as (a' & b' & Q & L).
  assert (a' = a /\ r = a0 :: b') as [-> ->].
  { revert a' L Q. clear. induction a as [|y a IH]; intros [|z a'] L Q.
    - auto.
    - rewrite zlen_cons in L. pose proof (zlen_nonneg a'). change (zlen (@nil Z)) with 0 in L. lia.
    - rewrite zlen_cons in L. pose proof (zlen_nonneg a). change (zlen (@nil Z)) with 0 in L. lia.
    - cbn in Q. injection Q as <- Q. rewrite !zlen_cons in L. destruct (IH a' ltac:(lia) Q) as [-> ->]. auto. }
  assert (x = a0) by lia. subst a0.
  replace (a ++ x :: b') with ((a ++ [x]) ++ b') in E by (rewrite <- app_assoc; reflexivity).
  replace (zlen a + 1) with (zlen (a ++ [x])) in E by (rewrite zlen_app; reflexivity).
  apply IH in E as (r' & ->). exists r'. reflexivity.
Qed.
Lemma decode_check_prefix_encode p h : is_bytes p -> is_bytes h -> length h = 20%nat ->
  exists s, encode_check al H p h = Ok s /\ decode_check_prefix al H s p = Ok h.
Proof.
  intros Hp Hh Lh. assert (B : is_bytes (p ++ h)) by (apply is_bytes_app; auto).
  destruct (enc_checked _ B) as (s & E & D & _). exists s. rewrite encode_check_eq by assumption. split; [exact E|].
  unfold decode_check_prefix. rewrite D. cbn [bind]. rewrite check_split_checked by exact B. cbn [bind].
  rewrite checked_len by exact B. rewrite zlen_app. assert (zlen h = 20) by (unfold zlen; lia).
  unfold checked. rewrite <- app_assoc.
  pose proof (prefix_loop_ok p [] (h ++ firstn 4 (H (p ++ h)))) as PL. cbn [app] in PL. change (zlen (@nil Z)) with 0 in PL. rewrite PL.
  cbn [bind]. replace (_ =? 20) with true by lia. rewrite slice_mid by lia. reflexivity.
Qed.

(** Soundness *)
Lemma decode_check_inv s p h : is_bytes s -> decode_check al H s = Ok (p, h) ->
  is_bytes p /\ is_bytes h /\ length h = 20%nat /\ encode_check al H p h = Ok s.
Proof.
  intros Hs E. unfold decode_check in E.
  apply bind_ok in E as (r & D & E). apply bind_ok in E as (d & C & E).
  destruct (encode_decode rs Hrs al As s r Hs D) as [Br Er].
  destruct (check_split_inv r d Br C) as [Bd ->].
  apply bind_ok in E as (p' & Sp & E). apply bind_ok in E as (h' & Sh & E). injection E as -> ->.
  rewrite checked_len in * by exact Bd.
  apply slice_ok in Sp as (_ & _ & a1 & c1 & Q1 & L1 & L1').
  apply slice_ok in Sh as (G1 & G2 & a2 & c2 & Q2 & L2 & L2').
  assert (N : a1 = []) by (apply zlen_0; exact L1). subst a1. cbn [app] in Q1.
  assert (F : forall (u v x y : list Z), u ++ v = x ++ y -> zlen u = zlen x -> u = x /\ v = y).
  { clear. induction u as [|e u IH]; intros v [|f x] y Q L.
    - auto.
    - rewrite zlen_cons in L. pose proof (zlen_nonneg x). change (zlen (@nil Z)) with 0 in L. lia.
    - rewrite zlen_cons in L. pose proof (zlen_nonneg u). change (zlen (@nil Z)) with 0 in L. lia.
    - cbn in Q. injection Q as <- Q. rewrite !zlen_cons in L. destruct (IH v x y Q ltac:(lia)) as [-> ->]. auto. }
  rewrite Q1 in Q2. apply F in Q2 as [-> ->]; [|lia].
  assert (Dd : d = a2 ++ h).
  { unfold checked in Q1. rewrite app_assoc in Q1. apply F in Q1 as [-> _]; [reflexivity|].
    rewrite zlen_app. lia. }
  subst d. apply is_bytes_app in Bd as [B1 B2].
  split; [exact B1|]. split; [exact B2|]. split; [unfold zlen in *; lia|].
  rewrite encode_check_eq by assumption. exact Er.
Qed.
Lemma decode_check1_inv s p h : is_bytes s -> decode_check1 al H s = Ok (p, h) ->
  is_byte p /\ is_bytes h /\ encode_check1 al H p h = Ok s.
Proof.
  intros Hs E. unfold decode_check1 in E.
  apply bind_ok in E as (r & D & E). apply bind_ok in E as (d & C & E).
  destruct (encode_decode rs Hrs al As s r Hs D) as [Br Er].
  destruct (check_split_inv r d Br C) as [Bd ->].
  apply bind_ok in E as (p' & Sp & E). apply bind_ok in E as (h' & Sh & E). injection E as -> ->.
  rewrite checked_len in * by exact Bd.
  pose proof (slice_ok _ _ _ _ Sh) as (G & _).
  destruct d as [|x d]; [change (zlen (@nil Z)) with 0 in G; lia|].
  unfold checked in Sp, Sh. cbn [app] in Sp, Sh.
  change (x :: d ++ firstn 4 (H (x :: d))) with ([] ++ x :: d ++ firstn 4 (H (x :: d))) in Sp.
  rewrite idx_mid in Sp by reflexivity. injection Sp as <-.
  change (x :: d ++ firstn 4 (H (x :: d))) with ([x] ++ d ++ firstn 4 (H (x :: d))) in Sh.
  rewrite slice_mid in Sh; [|reflexivity|rewrite zlen_cons; change (zlen [x]) with 1; lia]. injection Sh as <-.
  apply is_bytes_cons in Bd as [B1 B2]. split; [exact B1|]. split; [exact B2|].
  unfold encode_check1. rewrite encode_check_eq; [exact Er | constructor; [exact B1|constructor] | exact B2].
Qed.
Lemma decode_check_prefix_inv s p h : is_bytes s -> decode_check_prefix al H s p = Ok h ->
  is_bytes p /\ is_bytes h /\ length h = 20%nat /\ encode_check al H p h = Ok s.
Proof.
  intros Hs E. unfold decode_check_prefix in E.
  apply bind_ok in E as (r & D & E). apply bind_ok in E as (d & C & E).
  destruct (encode_decode rs Hrs al As s r Hs D) as [Br Er].
  destruct (check_split_inv r d Br C) as [Bd ->].
  apply bind_ok in E as (u & P & E). destruct u.
  destruct (_ =? 20) eqn:L; [|discriminate]. rewrite checked_len in * by exact Bd.
  pose proof (prefix_loop_inv p [] (checked H d) P) as (r' & Q).
  rewrite Q in E.
  assert (Dd : exists h', d = p ++ h').
  { unfold checked in Q. exists (skipn (length p) d).
    rewrite <- (firstn_skipn (length p) d) at 1. f_equal.
    apply (f_equal (firstn (length p))) in Q. rewrite !firstn_app, firstn_all, Nat.sub_diag in Q.
    cbn [firstn] in Q. rewrite app_nil_r in Q.
    replace (length p - length d)%nat with O in Q by (unfold zlen in *; lia). cbn [firstn] in Q. rewrite app_nil_r in Q. exact Q. }
  destruct Dd as (h' & ->). unfold checked in Q. rewrite <- app_assoc in Q. apply app_inv_head in Q. subst r'.
  rewrite zlen_app in *.
  rewrite slice_mid in E by lia. injection E as <-.
  apply is_bytes_app in Bd as [B1 B2].
  split; [exact B1|]. split; [exact B2|]. split; [unfold zlen in *; lia|].
  rewrite encode_check_eq by assumption. exact Er.
Qed.
Lemma decode_check_panic s : is_bytes s ->
  (decode_check al H s = Panic <->
   exists r, base58_decode al s = Ok r /\ (zlen r < 4 \/ exists d, is_bytes d /\ r = checked H d /\ zlen r < 24)).
Proof.
  intros Hs. unfold decode_check.
  destruct (decode_cases rs Hrs al As s Hs) as [[_ [r E]]|[_ E]]; rewrite E; cbn [bind].
  - destruct (encode_decode rs Hrs al As s r Hs E) as [Br _].
    destruct (check_split_cases r Br) as [[L P]|[[L (d & B & R & P)]|[L [N P]]]]; rewrite P; cbn [bind].
    + split; [intros _; exists r; auto | reflexivity].
    + destruct (Z_lt_ge_dec (zlen r) 24) as [G|G].
      * assert (Sl : slice r 0 (zlen r - 4 - 20) = Panic) by (apply slice_panic; lia). rewrite Sl. cbn [bind].
        split; [intros _; exists r; split; [reflexivity|]; right; eauto | reflexivity].
      * destruct (slice_total r 0 (zlen r - 4 - 20)) as (x & ->); [lia | lia |]. cbn [bind].
        destruct (slice_total r (zlen r - 4 - 20) (zlen r - 4)) as (y & ->); [lia | lia |]. cbn [bind].
        split; [discriminate|]. intros (r' & Q & K). injection Q as <-. destruct K as [K|(d' & _ & _ & K)]; lia.
    + split; [discriminate|]. intros (r' & Q & K). injection Q as <-. destruct K as [K|(d' & B & R & K)]; [lia|].
      destruct (N d'); contradiction.
  - split; [discriminate|]. intros (r & Q & _). discriminate.
Qed.

(** Program hashes *)
Lemma program_hash_total ps from s : is_bytes s -> 0 <= from <= 21 -> program_hash al H ps from s <> Panic.
Proof.
  intros Hs F. unfold program_hash.
  destruct (decode_cases rs Hrs al As s Hs) as [[_ [r E]]|[_ E]]; rewrite E; cbn [bind]; [|discriminate].
  destruct (encode_decode rs Hrs al As s r Hs E) as [Br _].
  destruct (zlen r =? 25) eqn:L; [|discriminate].
  destruct (check_split_cases r Br) as [[G P]|[[G (d & B & R & P)]|[G [N P]]]]; rewrite P; cbn [bind]; [lia| |discriminate].
  destruct (idx_total r 0) as (x & ->); [lia|]. cbn [bind]. destruct (existsb _ _); [|discriminate].
  destruct (slice_total r from (zlen r - 4)) as (y & ->); [lia|lia|discriminate].
Qed.
Lemma program_hash_inv ps from s h : is_bytes s -> (from = 0 \/ from = 1) -> program_hash al H ps from s = Ok h ->
  exists p body, In p ps /\ is_byte p /\ is_bytes body /\ length body = 20%nat /\
    h = (if from =? 0 then p :: body else body) /\ encode_check al H [p] body = Ok s.
Proof.
  intros Hs F E. unfold program_hash in E. apply bind_ok in E as (r & D & E).
  destruct (encode_decode rs Hrs al As s r Hs D) as [Br Er].
  destruct (zlen r =? 25) eqn:L; [|discriminate].
  apply bind_ok in E as (d & C & E). destruct (check_split_inv r d Br C) as [Bd ->].
  apply bind_ok in E as (p & Ip & E). destruct (existsb _ ps) eqn:X; [|discriminate].
  rewrite checked_len in * by exact Bd.
  destruct d as [|x body]; [change (zlen (@nil Z)) with 0 in L; lia|]. rewrite zlen_cons in *.
  unfold checked in *. cbn [app] in *.
  change (x :: body ++ firstn 4 (H (x :: body))) with ([] ++ x :: body ++ firstn 4 (H (x :: body))) in Ip.
  rewrite idx_mid in Ip by reflexivity. injection Ip as <-.
  apply is_bytes_cons in Bd as [B1 B2].
  exists x, body. apply existsb_exists in X as (y & Iy & Ey). assert (x = y) by lia. subst y.
  split; [exact Iy|]. split; [exact B1|]. split; [exact B2|]. split; [unfold zlen in *; lia|].
  split.
  - destruct F as [-> | ->].
    + change (x :: body ++ firstn 4 (H (x :: body))) with ((x :: body) ++ firstn 4 (H (x :: body))) in E.
      rewrite slice_pre in E by (rewrite zlen_cons; lia). injection E as <-. reflexivity.
    + change (x :: body ++ firstn 4 (H (x :: body))) with ([x] ++ body ++ firstn 4 (H (x :: body))) in E.
      rewrite slice_mid in E; [|reflexivity|change (zlen [x]) with 1; lia]. injection E as <-. reflexivity.
  - rewrite encode_check_eq; [exact Er | constructor; [exact B1 | constructor] | exact B2].
Qed.
Lemma program_hash_encode ps from p h : (from = 0 \/ from = 1) -> is_byte p -> In p ps -> is_bytes h -> length h = 20%nat ->
  exists s, encode_check al H [p] h = Ok s /\
    program_hash al H ps from s = Ok (if from =? 0 then p :: h else h).
Proof.
  intros F Hp Ip Hh Lh. assert (Hp' : is_bytes [p]) by (constructor; [exact Hp | constructor]).
  assert (B : is_bytes ([p] ++ h)) by (apply is_bytes_app; auto).
  destruct (enc_checked _ B) as (s & E & D & _). exists s. rewrite encode_check_eq by assumption. split; [exact E|].
  unfold program_hash. rewrite D. cbn [bind]. rewrite checked_len by exact B. rewrite zlen_app.
  change (zlen [p]) with 1. assert (L : zlen h = 20) by (unfold zlen; lia). rewrite L. cbn [Z.eqb Z.add].
  change (1 + 20 + 4 =? 25) with true. cbv iota. rewrite check_split_checked by exact B. cbn [bind].
  unfold checked. rewrite <- app_assoc. cbn [app].
  change (p :: h ++ firstn 4 (H (p :: h))) with ([] ++ p :: h ++ firstn 4 (H (p :: h))) at 1.
  rewrite idx_mid by reflexivity. cbn [bind].
  assert (X : existsb (Z.eqb p) ps = true) by (apply existsb_exists; exists p; split; [exact Ip | apply Z.eqb_refl]).
  rewrite X. destruct F as [-> | ->].
  - change (p :: h ++ firstn 4 (H (p :: h))) with ((p :: h) ++ firstn 4 (H (p :: h))).
    rewrite slice_pre by (rewrite zlen_cons; lia). reflexivity.
  - change (p :: h ++ firstn 4 (H (p :: h))) with ([p] ++ h ++ firstn 4 (H (p :: h))).
    rewrite slice_mid; [reflexivity|reflexivity|change (zlen [p]) with 1; lia].
Qed.
End S.
