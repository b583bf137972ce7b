(** btcLikeTxDriver: exactly which bytes with the segwit marker DecodeRawTransaction accepts, on which it panics, and what
    it leaves in the caller's bytes. *)
From Coq Require Import ZArith List Bool Lia ZifyBool ZifyNat.
From Verif Require Import Go GoFacts GoFacts2 Rd Base58CheckProofs BtcSpec BtcProofs BtcTxProofs BtcSigProps BtcModel SigModel SigDerProps LikeModel LikeProofs LikeProps LikeSigProofs LikeWitModel.
Import ListNotations.
Open Scope Z_scope.
Ltac Zify.zify_post_hook ::= idtac.

(** ** Specification *)
(** An integer of a witness signature: 32 bytes whatever the length byte says, except that with length byte 33 one more byte
    stands in front, zero or followed by a byte with the high bit. *)
Definition sig_int (l : Z) (field value : bytes) : Prop :=
  length value = 32%nat /\ ((l <> 33 /\ field = value) \/ (l = 33 /\ exists a, field = a :: value /\ (a = 0 \/ 128 <= hd 0 value))).
(** The two items of a witness the decoder takes: signature of two integers of type SIGHASH_ALL, and a 33-byte key. The length
    bytes of the integers only have to add up modulo 256. *)
Definition sigkey_text (rLen sLen : Z) (rf sf pub : bytes) : bytes :=
  [zlen rf + zlen sf + 7; 48; zlen rf + zlen sf + 4; 2; rLen] ++ rf ++ [2; sLen] ++ sf ++ [1; 33] ++ pub.
Definition sigkey (s sig pub : bytes) : Prop :=
  exists rLen sLen rf sf r v, sig_int rLen rf r /\ sig_int sLen sf v /\ length pub = 33%nat /\ (rLen + sLen - (zlen rf + zlen sf)) mod 256 = 0 /\
    s = sigkey_text rLen sLen rf sf pub /\ sig = r ++ v.
(** One witness that is taken, and what is shown for it. *)
Inductive taken_wit : bytes -> sigpub -> Prop :=
| taken_none : taken_wit [0] no_sigpub
| taken_some s sig pub : sigkey s sig pub -> taken_wit (2 :: s) {| sp_sig := sig; sp_pub := pub |}.

(** ** One integer *)
Lemma idx_here {A} (pre rest : list A) i x : i = zlen pre -> idx (pre ++ rest) i = Ok x -> exists r, rest = x :: r.
Proof. intros -> E. apply idx_ok in E as (a & b & E & L). apply app_split in E as [_ ->]; [eauto|lia]. Qed.
Lemma slice_here {A} (pre rest : list A) i j d : i = zlen pre -> slice (pre ++ rest) i j = Ok d -> exists r, rest = d ++ r /\ zlen d = j - i.
Proof. intros -> E. apply slice_ok in E as (_ & _ & a & c & E & L & D). apply app_split in E as [_ ->]; [eauto|lia]. Qed.
Lemma segwit_int_iff pre rest d l j : is_bytes rest -> segwit_int (pre ++ rest) (zlen pre) = Ok (d, l, j) <-> exists f r, rest = 2 :: l :: f ++ r /\ sig_int l f d /\ j = zlen pre + 2 + zlen f.
Proof.
  intros B. split.
  - intros E. unfold segwit_int in E. apply bind_ok in E as (tag & E1 & E). apply idx_here in E1 as (r1 & ->); [|reflexivity]. destruct (tag =? 2) eqn:T; [|discriminate]. cbn [negb] in E. assert (tag = 2) by lia. subst tag.
    replace (pre ++ 2 :: r1) with ((pre ++ [2]) ++ r1) in E by (rewrite <- app_assoc; reflexivity).
    apply bind_ok in E as (rl & E1 & E). apply idx_here in E1 as (r2 & ->); [|rewrite zlen_app; reflexivity]. cbv zeta in E.
    apply is_bytes_cons in B as [_ B]. apply is_bytes_cons in B as [_ B].
    replace ((pre ++ [2]) ++ rl :: r2) with ((pre ++ [2; rl]) ++ r2) in E by (rewrite <- !app_assoc; reflexivity).
    assert (L2 : zlen pre + 2 = zlen (pre ++ [2; rl])) by (rewrite zlen_app; reflexivity).
    destruct (rl =? 33) eqn:E33.
    + apply bind_ok in E as (ix & E1 & E). apply bind_ok in E1 as (a & E2 & E1). apply idx_here in E2 as (r3 & ->); [|exact L2]. apply bind_ok in E1 as (bad & E2 & E1). destruct bad; [discriminate|]. assert (ix = zlen pre + 2 + 1) by congruence. subst ix.
      replace ((pre ++ [2; rl]) ++ a :: r3) with ((pre ++ [2; rl; a]) ++ r3) in E, E2 by (rewrite <- !app_assoc; reflexivity).
      apply bind_ok in E as (d0 & E3 & E). apply slice_here in E3 as (r4 & -> & Ld); [|rewrite zlen_app; change (zlen [2; rl; a]) with 3; lia]. assert (d0 = d) by congruence. assert (rl = l) by congruence. assert (Ej : zlen pre + 2 + 1 + 32 = j) by congruence. subst d0 rl.
      exists (a :: d), r4. split; [reflexivity|]. split; [|rewrite zlen_cons; lia]. split; [unfold zlen in Ld; lia|]. right. split; [lia|]. exists a. split; [reflexivity|].
      destruct (a =? 0) eqn:Ea; [left; lia|right]. apply bind_ok in E2 as (b & E4 & E2). destruct d as [|x d]; [change (zlen (@nil Z)) with 0 in Ld; lia|]. cbn [app] in E4. rewrite idx_mid in E4 by (rewrite zlen_app; change (zlen [2; l; a]) with 3; lia). assert (b = x) by congruence. subst b.
      apply is_bytes_cons in B as [_ B]. apply is_bytes_cons in B as [Bx _]. rewrite high_bit in E2 by exact Bx. cbn [hd]. destruct (128 <=? x) eqn:Q; [lia|discriminate].
    + cbn [bind] in E. apply bind_ok in E as (d0 & E3 & E). apply slice_here in E3 as (r4 & -> & Ld); [|exact L2]. assert (d0 = d) by congruence. assert (rl = l) by congruence. assert (Ej : zlen pre + 2 + 32 = j) by congruence. subst d0 rl.
      exists d, r4. split; [reflexivity|]. split; [|lia]. split; [unfold zlen in Ld; lia|]. left. split; [lia|reflexivity].
  - intros (f & r & -> & (Ld & C) & ->). unfold segwit_int. rewrite idx_mid by reflexivity. cbn [bind]. change (negb (2 =? 2)) with false. cbv iota.
    replace (pre ++ 2 :: l :: f ++ r) with ((pre ++ [2]) ++ l :: f ++ r) by (rewrite <- app_assoc; reflexivity). rewrite idx_mid by (rewrite zlen_app; reflexivity). cbn [bind]. cbv zeta.
    replace ((pre ++ [2]) ++ l :: f ++ r) with ((pre ++ [2; l]) ++ f ++ r) by (rewrite <- !app_assoc; reflexivity).
    assert (L2 : zlen pre + 2 = zlen (pre ++ [2; l])) by (rewrite zlen_app; reflexivity). assert (Zd : zlen d = 32) by (unfold zlen; lia).
    destruct C as [(N & ->)|(-> & a & -> & C)].
    + replace (l =? 33) with false by lia. cbn [bind]. rewrite slice_mid by lia. cbn [bind]. rewrite Zd. f_equal; f_equal; lia.
    + change (33 =? 33) with true. cbv iota. cbn [app]. rewrite idx_mid by exact L2. cbn [bind].
      replace ((pre ++ [2; 33]) ++ a :: d ++ r) with ((pre ++ [2; 33; a]) ++ d ++ r) by (rewrite <- !app_assoc; reflexivity).
      assert (L3 : zlen pre + 2 + 1 = zlen (pre ++ [2; 33; a])) by (rewrite zlen_app; change (zlen [2; 33; a]) with 3; lia).
      assert (Q : (if a =? 0 then Ok false else b <- idx ((pre ++ [2; 33; a]) ++ d ++ r) (zlen pre + 2 + 1) ;; Ok (negb (Z.land b 128 =? 128))) = Ok false).
      { destruct (a =? 0) eqn:Ea; [reflexivity|]. destruct C as [C|C]; [lia|]. destruct d as [|x d]; [discriminate Zd|]. cbn [app]. rewrite idx_mid by exact L3. cbn [bind]. cbn [hd] in C.
        apply is_bytes_cons in B as [_ B]. apply is_bytes_cons in B as [_ B]. cbn [app] in B. apply is_bytes_cons in B as [_ B]. apply is_bytes_cons in B as [Bx _]. rewrite high_bit by exact Bx. replace (128 <=? x) with true by lia. reflexivity. }
      rewrite Q. cbn [bind]. rewrite slice_mid by lia. cbn [bind]. rewrite zlen_cons, Zd. f_equal; f_equal; lia.
Qed.
Lemma sig_int_len l f v : sig_int l f v -> 32 <= zlen f <= 33 /\ zlen v = 32.
Proof. intros (L & [(_ & ->)|(_ & a & -> & _)]); rewrite ?zlen_cons; unfold zlen; lia. Qed.
Lemma decode_segwit_iff s sig pub : is_bytes s -> decode_segwit 1 s = Ok (sig, pub) <-> sigkey s sig pub.
Proof.
  intros B. split.
  - intros E. unfold decode_segwit in E. apply bind_ok in E as (s0 & E1 & E). destruct s as [|x s]; [discriminate E1|]. assert (x = s0) by (cbv in E1; congruence). subst x. clear E1.
    apply bind_ok in E as (s1 & E1 & E). destruct s as [|x s]; [discriminate E1|]. assert (x = s1) by (cbv in E1; congruence). subst x. clear E1. destruct (s1 =? 48) eqn:Q; [|discriminate]. cbn [negb] in E. assert (s1 = 48) by lia. subst s1. clear Q.
    apply bind_ok in E as (s2 & E1 & E). destruct s as [|x s]; [discriminate E1|]. assert (x = s2) by (cbv in E1; congruence). subst x. clear E1.
    apply is_bytes_cons in B as [B0 B]. apply is_bytes_cons in B as [_ B]. apply is_bytes_cons in B as [B2 B].
    apply bind_ok in E as ([[r rl] i1] & E1 & E). apply (segwit_int_iff [s0; 48; s2] s) in E1 as (rf & r1 & -> & Ir & J1); [|exact B]. change (zlen [s0; 48; s2]) with 3 in J1.
    apply is_bytes_cons in B as [_ B]. apply is_bytes_cons in B as [Brl B]. apply is_bytes_app in B as [_ B].
    replace (s0 :: 48 :: s2 :: 2 :: rl :: rf ++ r1) with (([s0; 48; s2; 2; rl] ++ rf) ++ r1) in E by (rewrite <- app_assoc; reflexivity).
    apply bind_ok in E as ([[v sl] i2] & E1 & E). replace i1 with (zlen ([s0; 48; s2; 2; rl] ++ rf)) in E1 by (rewrite zlen_app; change (zlen [s0; 48; s2; 2; rl]) with 5; lia).
    apply segwit_int_iff in E1 as (sf & r2 & -> & Is & J2); [|exact B]. rewrite zlen_app in J2. change (zlen [s0; 48; s2; 2; rl]) with 5 in J2.
    apply is_bytes_cons in B as [_ B]. apply is_bytes_cons in B as [Bsl B].
    replace (([s0; 48; s2; 2; rl] ++ rf) ++ 2 :: sl :: sf ++ r2) with (([s0; 48; s2; 2; rl] ++ rf ++ [2; sl] ++ sf) ++ r2) in E by (rewrite <- !app_assoc; reflexivity).
    set (hd0 := [s0; 48; s2; 2; rl] ++ rf ++ [2; sl] ++ sf) in *.
    assert (Lh : zlen hd0 = 7 + zlen rf + zlen sf) by (unfold hd0; rewrite !zlen_app; change (zlen [s0; 48; s2; 2; rl]) with 5; change (zlen [2; sl]) with 2; lia).
    apply bind_ok in E as (ty & E1 & E). apply idx_here in E1 as (r3 & ->); [|lia]. destruct (ty =? 1) eqn:Q; [|discriminate]. cbn [negb] in E. assert (ty = 1) by lia. subst ty. clear Q.
    replace (hd0 ++ 1 :: r3) with ((hd0 ++ [1]) ++ r3) in E by (rewrite <- app_assoc; reflexivity).
    apply bind_ok in E as (pl & E1 & E). apply idx_here in E1 as (r4 & ->); [|rewrite zlen_app; change (zlen [1]) with 1; lia]. destruct (pl =? 33) eqn:Q; [|discriminate]. cbn [negb] in E. assert (pl = 33) by lia. subst pl. clear Q.
    replace ((hd0 ++ [1]) ++ 33 :: r4) with ((hd0 ++ [1; 33]) ++ r4) in E by (rewrite <- !app_assoc; reflexivity). cbv zeta in E.
    apply bind_ok in E as (pb & E1 & E). apply slice_here in E1 as (r5 & -> & Lp); [|rewrite zlen_app; change (zlen [1; 33]) with 2; lia].
    assert (Lt : zlen ((hd0 ++ [1; 33]) ++ pb ++ r5) = zlen rf + zlen sf + 42 + zlen r5) by (rewrite !zlen_app; change (zlen [1; 33]) with 2; lia). rewrite Lt in E.
    destruct (negb (u8 (rl + sl + 4) =? s2) || negb (u8 (s2 + 3) =? s0) || negb (u8 (s0 + 33 + 2) =? u8 (zlen rf + zlen sf + 42 + zlen r5))) eqn:C; [discriminate|].
    destruct (negb (i2 + 2 + 33 =? zlen rf + zlen sf + 42 + zlen r5)) eqn:C2; [discriminate|].
    assert (Z5 : zlen r5 = 0) by lia. destruct r5; [|rewrite zlen_cons in Z5; pose proof (zlen_nonneg r5); lia]. rewrite Z5 in *.
    assert (sig = r ++ v) by congruence. assert (pb = pub) by congruence. subst sig pb. destruct (sig_int_len _ _ _ Ir) as [Lr _]. destruct (sig_int_len _ _ _ Is) as [Ls _].
    assert (C1 : u8 (rl + sl + 4) = s2) by lia. assert (C3 : u8 (s2 + 3) = s0) by lia. assert (C4 : u8 (s0 + 33 + 2) = u8 (zlen rf + zlen sf + 42 + 0)) by lia. clear C C2 Lt. unfold u8 in C1, C3, C4. change (2 ^ 8) with 256 in *. unfold is_byte in *.
    rewrite (Z.mod_small (zlen rf + zlen sf + 42 + 0)) in C4 by lia.
    assert (S0 : s0 = zlen rf + zlen sf + 7) by (pose proof (Z.div_mod (s0 + 33 + 2) 256 ltac:(lia)); assert (0 <= (s0 + 33 + 2) / 256 <= 1) by (split; [apply Z.div_pos; lia|]; apply Z.lt_succ_r, Z.div_lt_upper_bound; lia); lia).
    assert (S2 : s2 = zlen rf + zlen sf + 4) by (pose proof (Z.div_mod (s2 + 3) 256 ltac:(lia)); assert (0 <= (s2 + 3) / 256 <= 1) by (split; [apply Z.div_pos; lia|]; apply Z.lt_succ_r, Z.div_lt_upper_bound; lia); lia).
    exists rl, sl, rf, sf, r, v. split; [exact Ir|]. split; [exact Is|]. split; [unfold zlen in Lp; lia|]. split.
    + rewrite Z.mod_eq by lia. pose proof (Z.div_mod (rl + sl + 4) 256 ltac:(lia)) as D. rewrite C1, S2 in D. replace (rl + sl - (zlen rf + zlen sf)) with ((rl + sl + 4) / 256 * 256) by lia. rewrite Z.div_mul by lia. lia.
    + split; [|reflexivity]. unfold sigkey_text. rewrite <- S0, <- S2. unfold hd0. rewrite app_nil_r, ?app_assoc_reverse. reflexivity.
  - intros (rl & sl & rf & sf & r & v & Ir & Is & Lp & M & -> & ->). destruct (sig_int_len _ _ _ Ir) as [Lr _]. destruct (sig_int_len _ _ _ Is) as [Ls _].
    assert (Zp : zlen pub = 33) by (unfold zlen; lia). set (n := zlen rf + zlen sf) in *. unfold decode_segwit.
    assert (T : sigkey_text rl sl rf sf pub = [n + 7; 48; n + 4] ++ 2 :: rl :: rf ++ 2 :: sl :: sf ++ 1 :: 33 :: pub) by reflexivity.
    rewrite T in *. set (tx := [n + 7; 48; n + 4] ++ 2 :: rl :: rf ++ 2 :: sl :: sf ++ 1 :: 33 :: pub) in *.
    change (idx tx 0) with (@Ok Z (n + 7)). cbn [bind]. change (idx tx 1) with (@Ok Z 48). cbn [bind]. change (negb (48 =? 48)) with false. cbv iota. change (idx tx 2) with (@Ok Z (n + 4)). cbn [bind].
    assert (Lt : zlen tx = n + 42) by (unfold tx; rewrite zlen_app, !zlen_cons, zlen_app, !zlen_cons, zlen_app, !zlen_cons; change (zlen (@nil Z)) with 0; unfold n; lia).
    assert (B1 := B). unfold tx in B1. apply is_bytes_app in B1 as [_ B1].
    assert (E1 : segwit_int tx 3 = Ok (r, rl, 5 + zlen rf)). { apply (segwit_int_iff [n + 7; 48; n + 4] _ r rl (5 + zlen rf) B1). exists rf, (2 :: sl :: sf ++ 1 :: 33 :: pub). split; [reflexivity|]. split; [exact Ir|]. change (zlen [n + 7; 48; n + 4]) with 3. lia. }
    rewrite E1. cbn [bind]. clear E1. apply is_bytes_cons in B1 as [_ B1]. apply is_bytes_cons in B1 as [_ B1]. apply is_bytes_app in B1 as [_ B1].
    assert (T2 : tx = ([n + 7; 48; n + 4; 2; rl] ++ rf) ++ 2 :: sl :: sf ++ 1 :: 33 :: pub) by (unfold tx; rewrite ?app_assoc_reverse; reflexivity).
    assert (Lq : zlen ([n + 7; 48; n + 4; 2; rl] ++ rf) = 5 + zlen rf) by (rewrite zlen_app; reflexivity).
    assert (E1 : segwit_int tx (5 + zlen rf) = Ok (v, sl, 7 + zlen rf + zlen sf)). { rewrite T2, <- Lq at 1. apply segwit_int_iff; [exact B1|]. exists sf, (1 :: 33 :: pub). split; [reflexivity|]. split; [exact Is|]. lia. }
    rewrite E1. cbn [bind]. clear E1.
    assert (T3 : tx = ([n + 7; 48; n + 4; 2; rl] ++ rf ++ [2; sl] ++ sf) ++ 1 :: 33 :: pub) by (unfold tx; rewrite ?app_assoc_reverse; reflexivity).
    assert (Lh : zlen ([n + 7; 48; n + 4; 2; rl] ++ rf ++ [2; sl] ++ sf) = 7 + zlen rf + zlen sf) by (rewrite !zlen_app; change (zlen [n + 7; 48; n + 4; 2; rl]) with 5; change (zlen [2; sl]) with 2; lia).
    assert (E1 : idx tx (7 + zlen rf + zlen sf) = Ok 1) by (rewrite T3; apply idx_mid; lia). rewrite E1. cbn [bind]. clear E1. change (negb (1 =? 1)) with false. cbv iota.
    assert (E1 : idx tx (7 + zlen rf + zlen sf + 1) = Ok 33). { rewrite T3. change (1 :: 33 :: pub) with ([1] ++ 33 :: pub). rewrite app_assoc. apply idx_mid. rewrite zlen_app. change (zlen [1]) with 1. lia. } rewrite E1. cbn [bind]. clear E1. change (negb (33 =? 33)) with false. cbv iota zeta.
    assert (E1 : slice tx (7 + zlen rf + zlen sf + 2) (7 + zlen rf + zlen sf + 2 + 33) = Ok pub). { rewrite T3. change (1 :: 33 :: pub) with ([1; 33] ++ pub). rewrite app_assoc. apply slice_post; rewrite zlen_app; change (zlen [1; 33]) with 2; lia. } rewrite E1. cbn [bind]. clear E1.
    rewrite Lt. fold n. unfold u8. change (2 ^ 8) with 256.
    assert (C1 : (rl + sl + 4) mod 256 = n + 4). { apply Z.mod_divide in M; [|lia]. destruct M as (q & M). replace (rl + sl + 4) with (n + 4 + q * 256) by lia. rewrite Z.mod_add by lia. apply Z.mod_small. lia. }
    rewrite C1. rewrite (Z.mod_small (n + 4 + 3)) by lia. rewrite (Z.mod_small (n + 7 + 33 + 2)) by lia. rewrite (Z.mod_small (n + 42)) by lia.
    replace (negb (n + 4 =? n + 4) || negb (n + 4 + 3 =? n + 7) || negb (n + 7 + 33 + 2 =? n + 42)) with false by lia. replace (negb (7 + zlen rf + zlen sf + 2 + 33 =? n + 42)) with false by lia. reflexivity.
Qed.
(** ** One witness, and one per input *)
Lemma sigkey_head s sig pub : sigkey s sig pub -> zlen s = hd 0 s + 35.
Proof.
  intros (rl & sl & rf & sf & r & v & Ir & Is & Lp & _ & -> & _). unfold sigkey_text. rewrite !zlen_app. change (zlen [zlen rf + zlen sf + 7; 48; zlen rf + zlen sf + 4; 2; rl]) with 5. change (zlen [2; sl]) with 2. change (zlen [1; 33]) with 2. cbn [hd app]. unfold zlen at 3. lia.
Qed.
Lemma need_exact {A} n (a r : bytes) (k : bytes -> bytes -> res A) : zlen a = n -> need n (a ++ r) k = k a r.
Proof. apply need_app. Qed.
Lemma decode_wit_taken w t r : is_bytes (w ++ r) -> taken_wit w t -> like_decode_wit (w ++ r) = Ok ([t], r).
Proof.
  intros B T. destruct T as [|s sig pub K]; [reflexivity|]. unfold like_decode_wit. cbn [app need1]. change (2 =? 0) with false. change (2 =? 2) with true. cbv iota. pose proof (sigkey_head _ _ _ K) as L.
  assert (N : s <> []) by (intros ->; discriminate L). destruct s as [|x s]; [contradiction|]. cbn [hd] in L. cbn [app need1]. change (x :: s ++ r) with ((x :: s) ++ r). rewrite need_app by exact L.
  assert (Bs : is_bytes (x :: s)) by (cbn [app] in B; apply is_bytes_cons in B as [_ B]; change (x :: s ++ r) with ((x :: s) ++ r) in B; apply is_bytes_app in B; apply B).
  apply (decode_segwit_iff _ _ _ Bs) in K. rewrite K. reflexivity.
Qed.
(** The two bytes announcing nothing the decoder knows, a witness it takes, one it chokes on, or too few bytes. *)
Definition choke (s : bytes) : Prop := s <> [] /\ zlen s = hd 0 s + 35 /\ ~ exists sig pub, sigkey s sig pub.
Lemma decode_wit_cases rest : is_bytes rest ->
  (exists w t r, rest = w ++ r /\ taken_wit w t /\ like_decode_wit rest = Ok ([t], r)) \/
  (exists x r, rest = x :: r /\ x <> 0 /\ x <> 2 /\ like_decode_wit rest = Ok ([], rest)) \/
  (exists s r, rest = 2 :: s ++ r /\ choke s /\ like_decode_wit rest = Panic) \/
  like_decode_wit rest = Err.
Proof.
  intros B. destruct rest as [|x r]; [right; right; right; reflexivity|]. destruct (Z.eq_dec x 0) as [->|N0]; [left; exists [0], no_sigpub, r; split; [reflexivity|]; split; [constructor|reflexivity]|].
  destruct (Z.eq_dec x 2) as [->|N2]; [|right; left; exists x, r; split; [reflexivity|]; split; [exact N0|]; split; [exact N2|]; unfold like_decode_wit; cbn [need1]; replace (x =? 0) with false by lia; replace (x =? 2) with false by lia; reflexivity].
  apply is_bytes_cons in B as [_ B]. unfold like_decode_wit. cbn [need1]. change (2 =? 0) with false. change (2 =? 2) with true. cbv iota. destruct r as [|n r]; [right; right; right; reflexivity|]. cbn [need1].
  assert (Bn : is_byte n) by (apply is_bytes_cons in B; apply B). unfold is_byte in Bn.
  destruct (Z.lt_ge_cases (zlen (n :: r)) (n + 35)) as [Lt|Ge]; [right; right; right; unfold need; replace (zlen (n :: r) <? n + 35) with true by lia; reflexivity|].
  assert (S : exists s r', n :: r = s ++ r' /\ zlen s = n + 35) by (exists (firstn (Z.to_nat (n + 35)) (n :: r)), (skipn (Z.to_nat (n + 35)) (n :: r)); split; [symmetry; apply firstn_skipn|]; unfold zlen in *; rewrite firstn_length; lia).
  destruct S as (s & r' & E & L). rewrite E. rewrite need_app by exact L. destruct s as [|y s]; [change (zlen (@nil Z)) with 0 in L; lia|]. assert (y = n) by (cbn [app] in E; congruence). subst y.
  rewrite E in B. apply is_bytes_app in B as [B _].
  destruct (decode_segwit 1 (n :: s)) as [[sig pub]| |] eqn:D.
  - left. apply (decode_segwit_iff _ _ _ B) in D. exists (2 :: n :: s), {| sp_sig := sig; sp_pub := pub |}, r'. split; [reflexivity|]. split; [constructor; exact D|reflexivity].
  - right; right; left. exists (n :: s), r'. split; [reflexivity|]. split; [|reflexivity]. split; [discriminate|]. split; [exact L|]. intros (sig & pub & K). apply (decode_segwit_iff _ _ _ B) in K. congruence.
  - right; right; left. exists (n :: s), r'. split; [reflexivity|]. split; [|reflexivity]. split; [discriminate|]. split; [exact L|]. intros (sig & pub & K). apply (decode_segwit_iff _ _ _ B) in K. congruence.
Qed.
Lemma taken_split w1 t1 r1 w2 t2 r2 : is_bytes (w1 ++ r1) -> taken_wit w1 t1 -> taken_wit w2 t2 -> w1 ++ r1 = w2 ++ r2 -> w1 = w2 /\ t1 = t2 /\ r1 = r2.
Proof.
  intros B T1 T2 E. pose proof (decode_wit_taken _ _ _ B T1) as D1. rewrite E in B. pose proof (decode_wit_taken _ _ _ B T2) as D2. rewrite E, D2 in D1. assert (t1 = t2 /\ r1 = r2) as [-> ->] by (split; congruence). split; [|tauto]. apply app_inv_tail in E. exact E.
Qed.
Definition stops (r : bytes) : Prop := exists x r', r = x :: r' /\ x <> 0 /\ x <> 2.
Lemma decode_wits_iff n : forall rest ws r, is_bytes rest -> like_decode_wits n rest = Ok (ws, r) <->
  exists wb, Forall2 taken_wit wb ws /\ rest = concat wb ++ r /\ (length wb = n \/ (length wb < n)%nat /\ stops r).
Proof.
  induction n as [|n IH]; intros rest ws r B; cbn [like_decode_wits].
  - split.
    + intros E. assert (ws = [] /\ r = rest) as [-> ->] by (split; congruence). exists []. split; [constructor|]. split; [reflexivity|left; reflexivity].
    + intros (wb & F & -> & [L|[L _]]); [|lia]. destruct wb; [|discriminate]. inversion F. reflexivity.
  - destruct (decode_wit_cases rest B) as [(w & t & r1 & -> & T & E)|[(x & r1 & -> & N0 & N2 & E)|[(s & r1 & -> & K & E)|E]]]; rewrite E; cbn [bind].
    + assert (B1 : is_bytes r1) by (apply is_bytes_app in B; apply B). split.
      * intros E1. apply bind_ok in E1 as ([ws1 r2] & E1 & E2). assert (ws = [t] ++ ws1 /\ r = r2) as [-> ->] by (split; congruence). apply (IH _ _ _ B1) in E1 as (wb & F & -> & C). exists (w :: wb). split; [constructor; assumption|]. split; [cbn [concat]; rewrite <- app_assoc; reflexivity|]. cbn [length]. destruct C as [C|[C S]]; [left; lia|right; split; [lia|exact S]].
      * intros (wb & F & Q & C). destruct wb as [|w2 wb].
        { inversion F. subst ws. cbn [concat app] in Q. destruct C as [C|[_ (x & r' & -> & N0 & N2)]]; [discriminate C|]. exfalso. destruct T; cbn [app] in Q; congruence. }
        { destruct ws as [|t2 ws]; [inversion F|]. assert (T2 : taken_wit w2 t2 /\ Forall2 taken_wit wb ws) by (inversion F; split; assumption). destruct T2 as [T2 F2]. cbn [concat] in Q. rewrite <- app_assoc in Q. apply (taken_split _ t _ _ t2) in Q as (-> & -> & ->); try assumption.
          assert (E1 : like_decode_wits n (concat wb ++ r) = Ok (ws, r)). { apply IH; [exact B1|]. exists wb. split; [exact F2|]. split; [reflexivity|]. cbn [length] in C. destruct C as [C|[C S]]; [left; lia|right; split; [lia|exact S]]. } rewrite E1. reflexivity. }
    + split.
      * intros E1. apply bind_ok in E1 as ([ws1 r2] & E1 & E2). assert (ws = ws1 /\ r = r2) as [-> ->] by (split; cbn [app] in E2; congruence). apply (IH _ _ _ B) in E1 as (wb & F & Q & C). exists wb. split; [exact F|]. split; [exact Q|].
        destruct wb as [|w wb]; [cbn [concat app] in Q; right; split; [cbn [length]; lia|]; exists x, r1; split; [congruence|]; split; assumption|]. exfalso. cbn [concat] in Q. inversion F as [|? ? ? ? T]. subst. destruct T; cbn [app] in Q; congruence.
      * intros (wb & F & Q & C). assert (wb = []). { destruct wb as [|w wb]; [reflexivity|]. exfalso. cbn [concat] in Q. inversion F as [|? ? ? ? T]. subst. destruct T; cbn [app] in Q; congruence. } subst wb.
        assert (E1 : like_decode_wits n (x :: r1) = Ok (ws, r)). { apply (IH _ _ _ B). exists []. split; [exact F|]. split; [exact Q|]. cbn [concat app] in Q. subst r. destruct n; [left; reflexivity|right]. split; [cbn [length]; lia|]. exists x, r1. tauto. } rewrite E1. reflexivity.
    + split; [discriminate|]. intros (wb & F & Q & C). exfalso. destruct wb as [|w wb].
      * cbn [concat app] in Q. destruct C as [C|[_ (x & r' & -> & N0 & N2)]]; [discriminate C|]. congruence.
      * cbn [concat] in Q. rewrite <- app_assoc in Q. inversion F as [|? ? ? ? T]. subst. rewrite Q in B, E. rewrite (decode_wit_taken _ _ _ B T) in E. discriminate E.
    + split; [discriminate|]. intros (wb & F & Q & C). exfalso. destruct wb as [|w wb].
      * cbn [concat app] in Q. destruct C as [C|[_ (x & r' & -> & N0 & N2)]]; [discriminate C|]. subst rest. unfold like_decode_wit in E. cbn [need1] in E. replace (x =? 0) with false in E by lia. replace (x =? 2) with false in E by lia. discriminate E.
      * cbn [concat] in Q. rewrite <- app_assoc in Q. inversion F as [|? ? ? ? T]. subst. rewrite (decode_wit_taken _ _ _ B T) in E. discriminate E.
Qed.
Lemma decode_wits_stop n r : is_bytes r -> stops r -> like_decode_wits n r = Ok ([], r).
Proof. intros B S. apply decode_wits_iff; [exact B|]. exists []. split; [constructor|]. split; [reflexivity|]. destruct n; [left; reflexivity|right; split; [cbn [length]; lia|exact S]]. Qed.
Lemma decode_wits_panic_iff n : forall rest, is_bytes rest -> like_decode_wits n rest = Panic <->
  exists wb ws s r, Forall2 taken_wit wb ws /\ (length wb < n)%nat /\ choke s /\ rest = concat wb ++ 2 :: s ++ r.
Proof.
  induction n as [|n IH]; intros rest B; cbn [like_decode_wits].
  - split; [discriminate|]. intros (wb & ws & s & r & _ & L & _). lia.
  - assert (CH : forall s r, choke s -> is_bytes (2 :: s ++ r) -> like_decode_wit (2 :: s ++ r) = Panic).
    { clear. intros s r (N & L & K) B. unfold like_decode_wit. cbn [need1]. change (2 =? 0) with false. change (2 =? 2) with true. cbv iota. destruct s as [|x s]; [contradiction|]. cbn [hd] in L. cbn [app need1]. change (x :: s ++ r) with ((x :: s) ++ r). rewrite need_app by exact L.
      destruct (decode_segwit 1 (x :: s)) as [[sig pub]| |] eqn:D; try reflexivity. exfalso. apply K. exists sig, pub. apply decode_segwit_iff; [|exact D]. apply is_bytes_cons in B as [_ B]. apply is_bytes_app in B. apply B. }
    destruct (decode_wit_cases rest B) as [(w & t & r1 & -> & T & E)|[(x & r1 & -> & N0 & N2 & E)|[(s & r1 & -> & K & E)|E]]]; rewrite E; cbn [bind].
    + assert (B1 : is_bytes r1) by (apply is_bytes_app in B; apply B). split.
      * intros E1. destruct (like_decode_wits n r1) as [[ws1 r2]| |] eqn:E2; try discriminate. apply (IH _ B1) in E2 as (wb & ws & s & r & F & L & K & ->). exists (w :: wb), (t :: ws), s, r. split; [constructor; assumption|]. split; [cbn [length]; lia|]. split; [exact K|]. cbn [concat]. rewrite <- app_assoc. reflexivity.
      * intros (wb & ws & s & r & F & L & K & Q). destruct wb as [|w2 wb].
        { cbn [concat app] in Q. exfalso. rewrite Q in B, E. rewrite (CH _ _ K B) in E. discriminate E. }
        { destruct ws as [|t2 ws]; [inversion F|]. assert (T2 : taken_wit w2 t2 /\ Forall2 taken_wit wb ws) by (inversion F; split; assumption). destruct T2 as [T2 F2]. cbn [concat] in Q. rewrite <- app_assoc in Q. apply (taken_split _ t _ _ t2) in Q as (-> & -> & ->); try assumption.
          assert (E1 : like_decode_wits n (concat wb ++ 2 :: s ++ r) = Panic). { apply IH; [exact B1|]. exists wb, ws, s, r. cbn [length] in L. split; [exact F2|]. split; [lia|]. split; [exact K|reflexivity]. } rewrite E1. reflexivity. }
    + rewrite (decode_wits_stop n (x :: r1) B) by (exists x, r1; tauto). split; [discriminate|]. intros (wb & ws & s & r & F & L & K & Q). exfalso. destruct wb as [|w wb]; cbn [concat app] in Q; [congruence|]. inversion F as [|? ? ? ? T]. subst. destruct T; cbn [app] in Q; congruence.
    + split; [|reflexivity]. intros _. exists [], [], s, r1. split; [constructor|]. split; [cbn [length]; lia|]. split; [exact K|reflexivity].
    + split; [discriminate|]. intros (wb & ws & s & r & F & L & K & Q). exfalso. destruct wb as [|w wb].
      * cbn [concat app] in Q. subst rest. rewrite (CH _ _ K B) in E. discriminate E.
      * cbn [concat] in Q. rewrite <- app_assoc in Q. inversion F as [|? ? ? ? T]. subst. rewrite (decode_wit_taken _ _ _ B T) in E. discriminate E.
Qed.
(** ** C115, with the marker *)
(** A transaction with the marker: [w] stands for the bytes of all witnesses. *)
Definition marked_tx (version : Z) (ins : list spec_in) (outs : list spec_out) (w : bytes) (rest : bytes) : bytes :=
  le_bytes 4 version ++ [0; 1] ++ zlen ins :: concat (map wire_spec_in ins) ++ zlen outs :: concat (map wire_spec_out outs) ++ w ++ rest.
Definition marked_fields (version : Z) (ins : list spec_in) (outs : list spec_out) : Prop :=
  0 <= version < 2 ^ 32 /\ zlen ins <= 255 /\ zlen outs <= 255 /\ Forall in_field ins /\ Forall out_field outs.
Lemma marked_prefix b : is_bytes b -> nth 4 b 1 = 0 ->
  like_decode b = Err \/ exists version ins outs rest, marked_fields version ins outs /\ is_bytes rest /\ b = marked_tx version ins outs [] rest.
Proof.
  intros B N4. destruct (Z.lt_ge_cases (zlen b) 6) as [L6|L6].
  { left. unfold like_decode, need. destruct (zlen b <? 4) eqn:Q; [reflexivity|]. replace (zlen (skipn (Z.to_nat 4) b) <? 2) with true; [reflexivity|]. unfold zlen in *. rewrite skipn_length. lia. }
  destruct b as [|v0 [|v1 [|v2 [|v3 [|b4 [|b5 b]]]]]]; try (exfalso; clear - L6; cbv in L6; congruence). cbn [nth] in N4. subst b4.
  change (v0 :: v1 :: v2 :: v3 :: 0 :: b5 :: b) with ([v0; v1; v2; v3] ++ 0 :: b5 :: b) in *. destruct (Z.eq_dec b5 1) as [->|N]; [|left; apply like_decode_flag; [reflexivity|exact N]].
  apply is_bytes_app in B as [BV B]. apply is_bytes_cons in B as [_ B]. apply is_bytes_cons in B as [_ B]. destruct (field_of 4 [v0; v1; v2; v3] BV eq_refl) as [EV RV]. set (v := [v0; v1; v2; v3]) in *.
  assert (U : like_decode (v ++ 0 :: 1 :: b) = need1 b (fun nin r1 => '(ins, r2) <- readn (Z.to_nat nin) like_decode_in r1 ;; need1 r2 (fun nout r3 => '(outs, r4) <- readn (Z.to_nat nout) like_decode_out r3 ;;
    '(wits, r5) <- like_decode_wits (Z.to_nat nin) r4 ;; need 4 r5 (fun locktime r6 => if negb (zlen r6 =? 0) then Err else Ok {| l_version := v; l_vins := ins; l_vouts := outs; l_wit := wits; l_locktime := locktime |})))).
  { unfold like_decode. rewrite need_app by reflexivity. rewrite !zlen_cons. pose proof (zlen_nonneg b). replace (1 + (1 + zlen b) <? 2) with false by lia. reflexivity. }
  destruct b as [|nin b]; [left; rewrite U; reflexivity|]. cbn [need1] in U. apply is_bytes_cons in B as [Bn B]. unfold is_byte in Bn.
  destruct (readn (Z.to_nat nin) like_decode_in b) as [[ins0 r2]| |] eqn:E1; [|left; exact U|exfalso; exact (readn_fine _ _ decode_in_fine _ E1)]. cbn [bind] in U.
  apply (readn_inv like_decode_in lin_of in_field wire_spec_in _ decode_in_inv) in E1 as (ins & -> & Fi & Li & ->); [|exact B]. apply is_bytes_app in B as [_ B].
  destruct r2 as [|nout r2]; [left; exact U|]. cbn [need1] in U. apply is_bytes_cons in B as [Bo B]. unfold is_byte in Bo.
  destruct (readn (Z.to_nat nout) like_decode_out r2) as [[outs0 r4]| |] eqn:E1; [|left; exact U|exfalso; exact (readn_fine _ _ decode_out_fine _ E1)]. cbn [bind] in U.
  apply (readn_inv like_decode_out lout_of out_field wire_spec_out _ decode_out_inv) in E1 as (outs & -> & Fo & Lo & ->); [|exact B]. apply is_bytes_app in B as [_ B].
  right. exists (le_num v), ins, outs, r4. assert (zlen ins = nin) by (unfold zlen; lia). assert (zlen outs = nout) by (unfold zlen; lia). split; [split; [exact RV|]; split; [lia|]; split; [lia|]; split; assumption|]. split; [exact B|].
  unfold marked_tx. rewrite <- EV. cbn [app]. congruence.
Qed.
Lemma marked_decode version ins outs w rest : marked_fields version ins outs -> like_decode (marked_tx version ins outs w rest) = after_outs true (le_bytes 4 version) (map lin_of ins) (map lout_of outs) (w ++ rest).
Proof. intros (_ & Ni & No & Fi & _). apply (decode_prefix version ins outs true); [exact Ni|exact No|discriminate|]. eapply Forall_impl; [|exact Fi]. intros s F. apply F. Qed.
(** With the marker the decoder accepts exactly a transaction whose inputs are followed by witnesses it takes, one per input,
    or fewer when the lock time begins with a byte other than 0 and 2. *)
Theorem like_decode_marked : forall b t, is_bytes b -> nth 4 b 1 = 0 ->
  (like_decode b = Ok t <-> exists version ins outs wb ws lt, marked_fields version ins outs /\ 0 <= lt < 2 ^ 32 /\ Forall2 taken_wit wb ws /\
     (length wb = length ins \/ (length wb < length ins)%nat /\ lt mod 256 <> 0 /\ lt mod 256 <> 2) /\
     b = marked_tx version ins outs (concat wb) (le_bytes 4 lt) /\ t = ltx_of version ins outs ws lt).
Proof.
  intros b t B N4. split.
  - intros E. destruct (marked_prefix b B N4) as [X|(version & ins & outs & rest & M & Br & ->)]; [congruence|]. rewrite marked_decode in E by exact M. cbn [app] in E. unfold after_outs in E. rewrite map_length in E.
    apply bind_ok in E as ([ws r] & E1 & E). apply decode_wits_iff in E1 as (wb & F & -> & C); [|exact Br]. apply is_bytes_app in Br as [_ Br]. apply need_inv in E as (l & r5 & -> & LL & E); [|lia].
    destruct (zlen r5 =? 0) eqn:L5; [|discriminate]. destruct r5 as [|x r5]; [|rewrite zlen_cons in L5; pose proof (zlen_nonneg r5); lia]. cbn [negb] in E. rewrite app_nil_r in *. destruct (field_of 4 l Br LL) as [EL RL].
    exists version, ins, outs, wb, ws, (le_num l). split; [exact M|]. split; [exact RL|]. split; [exact F|]. split; [|split; [unfold marked_tx; rewrite <- EL; reflexivity|unfold ltx_of; rewrite <- EL; congruence]].
    destruct C as [C|[C (x & r' & -> & N0 & N2)]]; [left; exact C|right]. split; [exact C|]. apply is_bytes_cons in Br as [Bx Br]. unfold is_byte in Bx.
    assert (Q : le_num (x :: r') mod 256 = x). { cbn [le_num]. rewrite Z.add_comm, (Z.mul_comm 256), Z.add_comm, Z.mod_add by lia. apply Z.mod_small. lia. } rewrite Q. split; assumption.
  - intros (version & ins & outs & wb & ws & lt & M & L & F & C & -> & ->). rewrite marked_decode by exact M. unfold after_outs. rewrite map_length.
    assert (Br : is_bytes (concat wb ++ le_bytes 4 lt)). { unfold marked_tx in B. do 2 apply is_bytes_app in B as [_ B]. apply is_bytes_cons in B as [_ B]. apply is_bytes_app in B as [_ B]. apply is_bytes_cons in B as [_ B]. apply is_bytes_app in B as [_ B]. exact B. }
    assert (E : like_decode_wits (length ins) (concat wb ++ le_bytes 4 lt) = Ok (ws, le_bytes 4 lt)).
    { apply decode_wits_iff; [exact Br|]. exists wb. split; [exact F|]. split; [reflexivity|]. destruct C as [C|(C & N0 & N2)]; [left; exact C|right]. split; [exact C|]. exists (lt mod 256), (le_bytes 3 (lt / 256)). split; [reflexivity|]. split; assumption. }
    rewrite E. cbn [bind]. rewrite <- (app_nil_r (le_bytes 4 lt)). rewrite need_app by apply zlen_le_bytes. reflexivity.
Qed.
(** And it panics exactly when, after fewer witnesses that it takes than there are inputs, two items follow that have the length
    of the sender's signature and key but are not of that form. *)
Theorem like_decode_marked_panics : forall b, is_bytes b -> nth 4 b 1 = 0 ->
  (like_decode b = Panic <-> exists version ins outs wb ws s rest, marked_fields version ins outs /\ Forall2 taken_wit wb ws /\ (length wb < length ins)%nat /\
     s <> [] /\ zlen s = hd 0 s + 35 /\ (~ exists sig pub, sigkey s sig pub) /\ b = marked_tx version ins outs (concat wb) (2 :: s ++ rest)).
Proof.
  intros b B N4. split.
  - intros E. destruct (marked_prefix b B N4) as [X|(version & ins & outs & rest & M & Br & ->)]; [congruence|]. rewrite marked_decode in E by exact M. cbn [app] in E. unfold after_outs in E. rewrite map_length in E.
    destruct (like_decode_wits (length ins) rest) as [[ws r]| |] eqn:E1; [exfalso; cbn [bind] in E; revert E; apply need_fine; intros l r5; destruct (negb (zlen r5 =? 0)); discriminate|discriminate|].
    apply decode_wits_panic_iff in E1 as (wb & ws & s & r & F & L & (K1 & K2 & K3) & ->); [|exact Br]. exists version, ins, outs, wb, ws, s, r. repeat (split; [assumption|]). reflexivity.
  - intros (version & ins & outs & wb & ws & s & r & M & F & L & K1 & K2 & K3 & ->). rewrite marked_decode by exact M. unfold after_outs. rewrite map_length.
    assert (Br : is_bytes (concat wb ++ 2 :: s ++ r)). { unfold marked_tx in B. do 2 apply is_bytes_app in B as [_ B]. apply is_bytes_cons in B as [_ B]. apply is_bytes_app in B as [_ B]. apply is_bytes_cons in B as [_ B]. apply is_bytes_app in B as [_ B]. exact B. }
    assert (E : like_decode_wits (length ins) (concat wb ++ 2 :: s ++ r) = Panic). { apply decode_wits_panic_iff; [exact Br|]. exists wb, ws, s, r. split; [exact F|]. split; [exact L|]. split; [split; [exact K1|split; assumption]|reflexivity]. }
    rewrite E. reflexivity.
Qed.
(** ** What is left in the caller's bytes *)
(** The signature and key after decoding: the second integer stands directly behind the first, without tag and length, and is
    followed by its own last bytes. *)
Definition sigkey_left (rLen : Z) (rf sf v pub : bytes) : bytes :=
  [zlen rf + zlen sf + 7; 48; zlen rf + zlen sf + 4; 2; rLen] ++ rf ++ v ++ skipn 30 sf ++ [1; 33] ++ pub.
Inductive left_wit : bytes -> bytes -> Prop :=
| left_none : left_wit [0] [0]
| left_some rLen sLen rf sf r v pub : sig_int rLen rf r -> sig_int sLen sf v -> left_wit (2 :: sigkey_text rLen sLen rf sf pub) (2 :: sigkey_left rLen rf sf v pub).
Lemma skipn_pre {A} (a b : list A) n k : length a = n -> skipn (n + k) (a ++ b) = skipn k b.
Proof. intros <-. rewrite skipn_app. rewrite skipn_all2 by lia. cbn [app]. f_equal. lia. Qed.
Lemma segwit_left_text rLen sLen rf sf r v pub : is_bytes (sigkey_text rLen sLen rf sf pub) -> sig_int rLen rf r -> sig_int sLen sf v ->
  segwit_left (sigkey_text rLen sLen rf sf pub) = Ok (sigkey_left rLen rf sf v pub).
Proof.
  intros B Ir Is. destruct (sig_int_len _ _ _ Ir) as [Lr _]. destruct (sig_int_len _ _ _ Is) as [Ls _].
  set (n := zlen rf + zlen sf). set (p := [n + 7; 48; n + 4; 2; rLen] ++ rf).
  assert (T : sigkey_text rLen sLen rf sf pub = [n + 7; 48; n + 4] ++ 2 :: rLen :: rf ++ 2 :: sLen :: sf ++ 1 :: 33 :: pub) by reflexivity.
  assert (T2 : sigkey_text rLen sLen rf sf pub = p ++ 2 :: sLen :: sf ++ 1 :: 33 :: pub) by (unfold p; rewrite T, ?app_assoc_reverse; reflexivity).
  assert (Lp : zlen p = 5 + zlen rf) by (unfold p; rewrite zlen_app; reflexivity). unfold segwit_left.
  assert (E1 : segwit_int (sigkey_text rLen sLen rf sf pub) 3 = Ok (r, rLen, zlen p)).
  { rewrite T. change 3 with (zlen [n + 7; 48; n + 4]) at 1. apply segwit_int_iff; [rewrite T in B; apply is_bytes_app in B; apply B|]. exists rf, (2 :: sLen :: sf ++ 1 :: 33 :: pub). split; [reflexivity|]. split; [exact Ir|]. change (zlen [n + 7; 48; n + 4]) with 3. lia. }
  rewrite E1. cbn [bind].
  assert (E2 : segwit_int (sigkey_text rLen sLen rf sf pub) (zlen p) = Ok (v, sLen, zlen p + 2 + zlen sf)).
  { rewrite T2. apply segwit_int_iff; [rewrite T2 in B; apply is_bytes_app in B; apply B|]. exists sf, (1 :: 33 :: pub). split; [reflexivity|]. split; [exact Is|reflexivity]. }
  rewrite E2. cbn [bind]. f_equal. rewrite T2. unfold sigkey_left. fold n. change ([n + 7; 48; n + 4; 2; rLen] ++ rf ++ v ++ skipn 30 sf ++ [1; 33] ++ pub) with (p ++ v ++ skipn 30 sf ++ [1; 33] ++ pub).
  replace (Z.to_nat (zlen p)) with (length p) by (unfold zlen; lia). rewrite firstn_app, firstn_all, Nat.sub_diag. cbn [firstn]. rewrite app_nil_r. f_equal. f_equal.
  replace (Z.to_nat (zlen p + 32)) with (length p + 32)%nat by (unfold zlen; lia). rewrite skipn_pre by reflexivity. cbn [skipn]. change (skipn 30 (sf ++ 1 :: 33 :: pub) = skipn 30 sf ++ 1 :: 33 :: pub). rewrite skipn_app. replace (30 - length sf)%nat with O by (unfold zlen in Ls; lia). reflexivity.
Qed.
Lemma left_wit_ok w t rest : is_bytes (w ++ rest) -> taken_wit w t -> exists l, left_wit w l /\ like_left_wit (w ++ rest) = Ok (l, rest).
Proof.
  intros B T. pose proof (decode_wit_taken w t rest B T) as D. destruct T as [|s sig pub K]; [exists [0]; split; [constructor|reflexivity]|].
  pose proof K as (rl & sl & rf & sf & r & v & Ir & Is & Lp & M & Es & ->). exists (2 :: sigkey_left rl rf sf v pub). split; [rewrite Es; econstructor; eassumption|].
  unfold like_decode_wit in D. unfold like_left_wit. cbn [app need1] in *. change (2 =? 0) with false in *. change (2 =? 2) with true in *. cbv iota in *. pose proof (sigkey_head _ _ _ K) as L. destruct s as [|x s]; [discriminate L|]. cbn [hd] in L. cbn [app need1] in *.
  change (x :: s ++ rest) with ((x :: s) ++ rest) in *. rewrite need_app in D by exact L. rewrite need_app by exact L.
  assert (Bs : is_bytes (x :: s)) by (apply is_bytes_cons in B as [_ B]; apply is_bytes_app in B; apply B).
  destruct (decode_segwit 1 (x :: s)) as [[? ?]| |]; try discriminate D. rewrite Es in *. rewrite (segwit_left_text rl sl rf sf r v pub) by assumption. reflexivity.
Qed.
Lemma left_wits_ok wb ws : Forall2 taken_wit wb ws -> forall n r, is_bytes (concat wb ++ r) -> (length wb = n \/ (length wb < n)%nat /\ stops r) -> exists lb, Forall2 left_wit wb lb /\ like_left_wits n (concat wb ++ r) = Ok (concat lb, r).
Proof.
  induction 1 as [|w t wb ws T F IH]; intros n r B C.
  - exists []. split; [constructor|]. cbn [concat app]. destruct C as [C|[_ (x & r' & -> & N0 & N2)]]; [subst n; reflexivity|].
    induction n as [|n IH]; [reflexivity|]. cbn [like_left_wits]. assert (E : like_left_wit (x :: r') = Ok ([], x :: r')) by (unfold like_left_wit; cbn [need1]; replace (x =? 0) with false by lia; replace (x =? 2) with false by lia; reflexivity).
    rewrite E. cbn [bind]. rewrite IH. reflexivity.
  - destruct n as [|n]; [cbn [length] in C; lia|]. cbn [concat]. cbn [concat] in B. rewrite <- app_assoc in *. destruct (left_wit_ok w t _ B T) as (l & Wl & E). apply is_bytes_app in B as [_ B].
    destruct (IH n r B) as (lb & Fl & E2); [cbn [length] in C; destruct C as [C|[C S]]; [left; lia|right; split; [lia|exact S]]|]. exists (l :: lb). split; [constructor; assumption|]. cbn [like_left_wits]. rewrite E. cbn [bind]. rewrite E2. reflexivity.
Qed.
Lemma left_prefix version ins outs (segwit : bool) rest : zlen ins <= 255 -> zlen outs <= 255 -> (segwit = false -> 1 <= zlen ins) -> Forall (fun s => zlen (s_txid s) = 32) ins ->
  let pre := le_bytes 4 version ++ (if segwit then [0; 1] else []) ++ zlen ins :: concat (map wire_spec_in ins) ++ zlen outs :: concat (map wire_spec_out outs) in
  like_decode_left (pre ++ rest) =
  ('(wits, _) <- (if segwit then like_decode_wits (length ins) rest else Ok ([], rest)) ;;
   '(kept, r) <- (if segwit then like_left_wits (length ins) rest else Ok ([], rest)) ;;
   need 4 r (fun locktime r => if negb (zlen r =? 0) then Err else
   Ok ({| l_version := le_bytes 4 version; l_vins := map lin_of ins; l_vouts := map lout_of outs; l_wit := wits; l_locktime := locktime |}, pre ++ kept ++ locktime))).
Proof.
  intros Ni No Ns Fi pre. unfold like_decode_left. set (all := pre ++ rest).
  assert (PB : firstn (length all - length rest) all = pre) by (unfold all; rewrite app_length; replace (length pre + length rest - length rest)%nat with (length pre) by lia; rewrite firstn_app, firstn_all, Nat.sub_diag; cbn [firstn]; apply app_nil_r).
  set (body := concat (map wire_spec_in ins) ++ zlen outs :: concat (map wire_spec_out outs) ++ rest).
  assert (AL : all = le_bytes 4 version ++ (if segwit then [0; 1] else []) ++ zlen ins :: body). { unfold all, pre, body. rewrite <- !app_assoc. cbn [app]. rewrite <- !app_assoc. reflexivity. }
  rewrite AL at 1. rewrite need_app by apply zlen_le_bytes.
  assert (Lb : 1 <= zlen body) by (unfold body; rewrite zlen_app, zlen_cons; pose proof (zlen_nonneg (concat (map wire_spec_in ins))); pose proof (zlen_nonneg (concat (map wire_spec_out outs) ++ rest)); lia).
  pose proof (zlen_nonneg ins). pose proof (zlen_nonneg outs).
  assert (E : forall (k : Z -> list lin -> list lout -> bytes -> res (ltx * bytes)), need1 (zlen ins :: body) (fun nin rest0 => '(ins0, rest1) <- readn (Z.to_nat nin) like_decode_in rest0 ;;
    need1 rest1 (fun nout rest2 => '(outs0, rest3) <- readn (Z.to_nat nout) like_decode_out rest2 ;; k nin ins0 outs0 rest3)) = k (zlen ins) (map lin_of ins) (map lout_of outs) rest).
  { intros k. cbn [need1]. unfold body. replace (Z.to_nat (zlen ins)) with (length ins) by (unfold zlen; lia).
    rewrite (readn_map like_decode_in lin_of wire_spec_in); [|intros x r0 Hx; apply decode_in_of; rewrite Forall_forall in Fi; apply Fi; exact Hx]. cbn [bind need1].
    replace (Z.to_nat (zlen outs)) with (length outs) by (unfold zlen; lia). rewrite (readn_map like_decode_out lout_of wire_spec_out); [|intros x r0 _; apply decode_out_of]. reflexivity. }
  pose (k := fun (nin : Z) (ins0 : list lin) (outs0 : list lout) (rest3 : bytes) =>
     let before := firstn (length all - length rest3) all in
     '(wits, _) <- (if segwit then like_decode_wits (Z.to_nat nin) rest3 else Ok ([], rest3)) ;;
     '(kept, r) <- (if segwit then like_left_wits (Z.to_nat nin) rest3 else Ok ([], rest3)) ;;
     need 4 r (fun locktime r => if negb (zlen r =? 0) then Err else
     Ok ({| l_version := le_bytes 4 version; l_vins := ins0; l_vouts := outs0; l_wit := wits; l_locktime := locktime |}, before ++ kept ++ locktime))).
  specialize (E k). assert (EK : k (zlen ins) (map lin_of ins) (map lout_of outs) rest = k (zlen ins) (map lin_of ins) (map lout_of outs) rest) by reflexivity. unfold k at 2 in EK. cbv zeta in EK. rewrite PB in EK. replace (Z.to_nat (zlen ins)) with (length ins) in EK by (unfold zlen; lia).
  rewrite EK in E. clear EK PB AL. clearbody all. 
  destruct segwit; cbn [app].
  - rewrite !zlen_cons. replace (1 + (1 + (1 + zlen body)) <? 2) with false by lia. change (0 =? 0) with true. cbn [negb Z.eqb Pos.eqb bind]. exact E.
  - specialize (Ns eq_refl). rewrite zlen_cons. replace (1 + zlen body <? 2) with false by lia. clearbody body.
    destruct body as [|x body']; [cbv in Lb; lia|]. replace (zlen ins =? 0) with false by lia. cbn [bind]. exact E.
Qed.
(** ** C133 *)
(** Without the marker the caller's bytes stay as they are. *)
Theorem like_decode_leaves_plain : forall b t, is_bytes b -> nth 4 b 1 <> 0 -> like_decode b = Ok t -> like_decode_left b = Ok (t, b).
Proof.
  intros b t B N4 E. apply (like_decode_plain b B N4) in E as (version & ins & outs & lt & V & L & Ni & No & Fi & Fo & -> & ->).
  assert (Ft : Forall (fun s => zlen (s_txid s) = 32) ins) by (eapply Forall_impl; [|exact Fi]; intros s F; apply F).
  pose proof (left_prefix version ins outs false (le_bytes 4 lt) ltac:(lia) ltac:(lia) (fun _ => proj1 Ni) Ft) as D. cbv zeta in D. cbn [bind app] in D.
  rewrite <- (app_nil_r (le_bytes 4 lt)) in D at 2. rewrite need_app in D by apply zlen_le_bytes. cbn [zlen length Z.of_nat Z.eqb negb] in D.
  assert (Q : wire_spec_tx version ins outs lt = (le_bytes 4 version ++ zlen ins :: concat (map wire_spec_in ins) ++ zlen outs :: concat (map wire_spec_out outs)) ++ le_bytes 4 lt) by (unfold wire_spec_tx; rewrite <- !app_assoc; cbn [app]; rewrite <- !app_assoc; reflexivity).
  rewrite Q. exact D.
Qed.
(** With witnesses the second integer of every signature is written behind the first, over its own tag and length. *)
Theorem like_decode_leaves : forall version ins outs wb ws lt, marked_fields version ins outs -> Forall2 taken_wit wb ws -> is_bytes (concat wb) ->
  (length wb = length ins \/ (length wb < length ins)%nat /\ lt mod 256 <> 0 /\ lt mod 256 <> 2) ->
  exists lb, Forall2 left_wit wb lb /\
    like_decode_left (marked_tx version ins outs (concat wb) (le_bytes 4 lt)) = Ok (ltx_of version ins outs ws lt, marked_tx version ins outs (concat lb) (le_bytes 4 lt)).
Proof.
  intros version ins outs wb ws lt (V & Ni & No & Fi & Fo) F Bw C.
  assert (Ft : Forall (fun s => zlen (s_txid s) = 32) ins) by (eapply Forall_impl; [|exact Fi]; intros s Fs; apply Fs).
  assert (Br : is_bytes (concat wb ++ le_bytes 4 lt)) by (apply is_bytes_app; split; [exact Bw|apply le_bytes_is_bytes]).
  assert (C2 : length wb = length ins \/ (length wb < length ins)%nat /\ stops (le_bytes 4 lt)). { destruct C as [C|(C & N0 & N2)]; [left; exact C|right]. split; [exact C|]. exists (lt mod 256), (le_bytes 3 (lt / 256)). split; [reflexivity|]. split; assumption. }
  destruct (left_wits_ok wb ws F (length ins) (le_bytes 4 lt) Br C2) as (lb & Fl & E). exists lb. split; [exact Fl|].
  pose proof (left_prefix version ins outs true (concat wb ++ le_bytes 4 lt) Ni No ltac:(discriminate) Ft) as D. cbv zeta in D.
  assert (E1 : like_decode_wits (length ins) (concat wb ++ le_bytes 4 lt) = Ok (ws, le_bytes 4 lt)) by (apply decode_wits_iff; [exact Br|]; exists wb; split; [exact F|]; split; [reflexivity|exact C2]).
  rewrite E1, E in D. cbn [bind] in D. rewrite <- (app_nil_r (le_bytes 4 lt)) in D at 2. rewrite need_app in D by apply zlen_le_bytes. cbn [zlen length Z.of_nat Z.eqb negb] in D.
  assert (Q : forall w, marked_tx version ins outs w (le_bytes 4 lt) = (le_bytes 4 version ++ [0; 1] ++ zlen ins :: concat (map wire_spec_in ins) ++ zlen outs :: concat (map wire_spec_out outs)) ++ w ++ le_bytes 4 lt) by (intros w; unfold marked_tx; rewrite <- !app_assoc; cbn [app]; rewrite <- !app_assoc; reflexivity).
  rewrite !Q. exact D.
Qed.
Lemma sig_int_bytes l f v : sig_int l f v -> is_bytes f -> is_bytes v.
Proof. intros (_ & [(_ & ->)|(_ & a & -> & _)]) B; [exact B|]. apply is_bytes_cons in B. apply B. Qed.
Lemma left_bytes rLen sLen rf sf v pub : is_bytes (sigkey_text rLen sLen rf sf pub) -> sig_int sLen sf v -> is_bytes (sigkey_left rLen rf sf v pub).
Proof.
  intros B Is. unfold sigkey_text in B. unfold sigkey_left. apply is_bytes_app in B as [B1 B]. apply is_bytes_app in B as [B2 B]. apply is_bytes_app in B as [_ B]. apply is_bytes_app in B as [B3 B]. 
  apply is_bytes_app; split; [exact B1|]. apply is_bytes_app; split; [exact B2|]. apply is_bytes_app; split; [exact (sig_int_bytes _ _ _ Is B3)|]. apply is_bytes_app; split; [|exact B].
  rewrite <- (firstn_skipn 30 sf) in B3. apply is_bytes_app in B3. apply B3.
Qed.
Lemma left_len rLen rf sf r v pub sLen : sig_int rLen rf r -> sig_int sLen sf v -> length pub = 33%nat -> zlen (sigkey_left rLen rf sf v pub) = hd 0 (sigkey_left rLen rf sf v pub) + 35.
Proof.
  intros Ir Is Lp. destruct (sig_int_len _ _ _ Ir) as [Lr _]. destruct (sig_int_len _ _ _ Is) as [Ls Lv]. unfold sigkey_left. rewrite !zlen_app. change (zlen [zlen rf + zlen sf + 7; 48; zlen rf + zlen sf + 4; 2; rLen]) with 5. change (zlen [1; 33]) with 2. cbn [hd app].
  assert (zlen (skipn 30 sf) = zlen sf - 30) by (unfold zlen in *; rewrite skipn_length; lia). unfold zlen at 4. lia.
Qed.
Lemma not_again rLen sLen rf sf r v pub sig pub2 : sig_int rLen rf r -> sig_int sLen sf v -> nth 0 v 2 <> 2 -> ~ sigkey (sigkey_left rLen rf sf v pub) sig pub2.
Proof.
  intros Ir Is N (rl & sl & rf2 & sf2 & r2 & v2 & Ir2 & Is2 & _ & _ & E & _). unfold sigkey_left, sigkey_text in E. cbn [app] in E. assert (rl = rLen) by congruence. subst rl.
  assert (Q : rf ++ v ++ skipn 30 sf ++ 1 :: 33 :: pub = rf2 ++ 2 :: sl :: sf2 ++ 1 :: 33 :: pub2) by congruence. clear E.
  assert (L : zlen rf = zlen rf2). { destruct Ir as (L1 & [(A1 & ->)|(A1 & a & -> & _)]), Ir2 as (L2 & [(A2 & ->)|(A2 & a2 & -> & _)]); try contradiction; unfold zlen; cbn [length]; lia. }
  apply app_split in Q as [_ Q]; [|exact L]. destruct Is as (Lv & _). destruct v as [|x v]; [discriminate Lv|]. cbn [nth] in N. cbn [app] in Q. congruence.
Qed.
Lemma wit_again s r : s <> [] -> zlen s = hd 0 s + 35 -> like_decode_wit (2 :: s ++ r) = match decode_segwit 1 s with Ok (sig, pub) => Ok ([{| sp_sig := sig; sp_pub := pub |}], r) | _ => Panic end.
Proof.
  intros N L. unfold like_decode_wit. cbn [need1]. change (2 =? 0) with false. change (2 =? 2) with true. cbv iota. destruct s as [|x s]; [contradiction|]. cbn [hd] in L. cbn [app need1]. change (x :: s ++ r) with ((x :: s) ++ r). rewrite need_app by exact L. reflexivity.
Qed.
Lemma wits_again wb ws lb : Forall2 taken_wit wb ws -> Forall2 left_wit wb lb -> is_bytes (concat wb) -> (exists w, In w ws /\ nth 32 (sp_sig w) 2 <> 2) ->
  forall n r, (length wb <= n)%nat -> like_decode_wits n (concat lb ++ r) = Panic.
Proof.
  intros F. revert lb. induction F as [|w t wb ws T F IH]; intros lb G B (w0 & I & N) n r L; [contradiction I|]. destruct lb as [|l lb]; [inversion G|]. assert (G2 : left_wit w l /\ Forall2 left_wit wb lb) by (inversion G; split; assumption). destruct G2 as [Gw G2].
  destruct n as [|n]; [cbn [length] in L; lia|]. cbn [concat like_decode_wits]. rewrite <- app_assoc. cbn [concat] in B. apply is_bytes_app in B as [Bw B]. cbn [length] in L.
  destruct Gw as [|rl sl rf sf r0 v pub Ir Is].
  - assert (t = no_sigpub) by (inversion T; reflexivity). subst t. assert (I2 : In w0 ws) by (destruct I as [<-|I]; [exfalso; apply N; reflexivity|exact I]). change (like_decode_wit ([0] ++ concat lb ++ r)) with (@Ok (list sigpub * bytes) ([no_sigpub], concat lb ++ r)). cbn [bind].
    rewrite (IH lb G2 B) by (lia || eauto). reflexivity.
  - assert (K : exists sig p, t = {| sp_sig := sig; sp_pub := p |} /\ sigkey (sigkey_text rl sl rf sf pub) sig p) by (inversion T as [|? sig p K]; subst; eauto). destruct K as (sig & p & -> & K). apply is_bytes_cons in Bw as [_ Bw].
    assert (KK : sig = r0 ++ v /\ p = pub /\ length pub = 33%nat).
    { pose proof (sigkey_head _ _ _ K) as HL. unfold sigkey_text in HL. rewrite !zlen_app in HL. change (zlen [zlen rf + zlen sf + 7; 48; zlen rf + zlen sf + 4; 2; rl]) with 5 in HL. change (zlen [2; sl]) with 2 in HL. change (zlen [1; 33]) with 2 in HL. cbn [hd app] in HL.
      destruct K as (rl2 & sl2 & rf2 & sf2 & r2 & v2 & Ir2 & Is2 & Lp & _ & E & ->). unfold sigkey_text in E. cbn [app] in E. assert (rl2 = rl) by congruence. subst rl2.
      assert (Q : rf ++ 2 :: sl :: sf ++ 1 :: 33 :: pub = rf2 ++ 2 :: sl2 :: sf2 ++ 1 :: 33 :: p) by congruence. clear E.
      assert (LL : forall l f1 f2 x1 x2, sig_int l f1 x1 -> sig_int l f2 x2 -> zlen f1 = zlen f2). { intros l f1 f2 x1 x2 (L1 & [(A1 & ->)|(A1 & a & -> & _)]) (L2 & [(A2 & ->)|(A2 & a2 & -> & _)]); try contradiction; unfold zlen; cbn [length]; lia. }
      assert (VV : forall l f x1 x2, sig_int l f x1 -> sig_int l f x2 -> x1 = x2). { intros l f x1 x2 (L1 & [(A1 & E1)|(A1 & a & E1 & _)]) (L2 & [(A2 & E2)|(A2 & a2 & E2 & _)]); try contradiction; congruence. }
      apply app_split in Q as [<- Q]; [|exact (LL _ _ _ _ _ Ir Ir2)]. assert (sl2 = sl) by congruence. subst sl2. assert (Q2 : sf ++ 1 :: 33 :: pub = sf2 ++ 1 :: 33 :: p) by congruence. apply app_split in Q2 as [<- Q2]; [|exact (LL _ _ _ _ _ Is Is2)].
      rewrite (VV _ _ _ _ Ir Ir2), (VV _ _ _ _ Is Is2). split; [reflexivity|]. split; [congruence|]. unfold zlen at 3 in HL. lia. }
    destruct KK as (-> & -> & Lp). change ((2 :: sigkey_left rl rf sf v pub) ++ concat lb ++ r) with (2 :: sigkey_left rl rf sf v pub ++ concat lb ++ r).
    rewrite wit_again; [|discriminate|exact (left_len _ _ _ _ _ _ _ Ir Is Lp)].
    destruct (decode_segwit 1 (sigkey_left rl rf sf v pub)) as [[g q]| |] eqn:D; try reflexivity. cbn [bind].
    assert (I2 : In w0 ws). { destruct I as [<-|I]; [|exact I]. exfalso. apply (decode_segwit_iff _ _ _ (left_bytes _ _ _ _ _ _ Bw Is)) in D. revert D. apply (not_again rl sl rf sf r0); [exact Ir|exact Is|]. cbn [sp_sig] in N. destruct Ir as (Lr & _). rewrite app_nth2 in N by lia. rewrite Lr in N. exact N. }
    rewrite (IH lb G2 B) by (lia || eauto). reflexivity.
Qed.
(** So the same bytes cannot be decoded a second time: whenever the second integer of a signature does not happen to begin with the
    byte 2, decoding the slice again panics. *)
Theorem like_decode_twice : forall b t b', is_bytes b -> like_decode b = Ok t -> like_decode_left b = Ok (t, b') ->
  (exists w, In w (l_wit t) /\ nth 32 (sp_sig w) 2 <> 2) -> like_decode b' = Panic /\ b' <> b.
Proof.
  intros b t b' B E El (w & I & N). assert (P : like_decode b' = Panic); [|split; [exact P|congruence]].
  destruct (Z.eq_dec (nth 4 b 1) 0) as [N4|N4].
  - pose proof E as E0. apply (like_decode_marked b t B N4) in E0 as (version & ins & outs & wb & ws & lt & M & L & F & C & Eb & ->). 
    assert (Bw : is_bytes (concat wb)). { rewrite Eb in B. unfold marked_tx in B. do 2 apply is_bytes_app in B as [_ B]. apply is_bytes_cons in B as [_ B]. apply is_bytes_app in B as [_ B]. apply is_bytes_cons in B as [_ B]. apply is_bytes_app in B as [_ B]. apply is_bytes_app in B. apply B. }
    destruct (like_decode_leaves version ins outs wb ws lt M F Bw C) as (lb & G & D). rewrite <- Eb, El in D. assert (b' = marked_tx version ins outs (concat lb) (le_bytes 4 lt)) by congruence. subst b'.
    rewrite marked_decode by exact M. unfold after_outs. rewrite map_length. cbn [ltx_of l_wit] in I. rewrite (wits_again wb ws lb F G Bw); [reflexivity|eauto|]. destruct C as [C|[C _]]; lia.
  - exfalso. apply (like_decode_plain b B N4) in E as (version & ins & outs & lt & _ & _ & _ & _ & _ & _ & _ & ->). contradiction I.
Qed.

(** ** Concrete cases *)
Definition ex_ins2 : list spec_in := [ex_like_in 1; ex_like_in 9].
Lemma ex_marked_fields : marked_fields 2 ex_ins2 [ex_like_out].
Proof.
  split; [lia|]. split; [cbv; discriminate|]. split; [cbv; discriminate|]. split; [constructor; [apply ex_like_in_field; lia|constructor; [apply ex_like_in_field; lia|constructor]]|].
  constructor; [|constructor]. split; [cbv; split; [discriminate|reflexivity]|]. split; [repeat (constructor; [unfold is_byte; lia|]); constructor|cbv; discriminate].
Qed.
(** A witness whose integers have the length bytes 200 and 120, and one whose integers have 33 bytes. *)
Lemma ex_taken1 : taken_wit (2 :: sigkey_text 200 120 (repeat 5 32) (repeat 6 32) (repeat 2 33)) {| sp_sig := repeat 5 32 ++ repeat 6 32; sp_pub := repeat 2 33 |}.
Proof. constructor. exists 200, 120, (repeat 5 32), (repeat 6 32), (repeat 5 32), (repeat 6 32). split; [split; [reflexivity|left; split; [lia|reflexivity]]|]. split; [split; [reflexivity|left; split; [lia|reflexivity]]|]. repeat (split; [reflexivity|]). reflexivity. Qed.
Lemma ex_taken2 : taken_wit (2 :: sigkey_text 33 33 (0 :: repeat 5 32) (7 :: repeat 200 32) (repeat 2 33)) {| sp_sig := repeat 5 32 ++ repeat 200 32; sp_pub := repeat 2 33 |}.
Proof. constructor. exists 33, 33, (0 :: repeat 5 32), (7 :: repeat 200 32), (repeat 5 32), (repeat 200 32). split; [split; [reflexivity|right; split; [reflexivity|]; exists 0; split; [reflexivity|left; reflexivity]]|]. split; [split; [reflexivity|right; split; [reflexivity|]; exists 7; split; [reflexivity|right; cbn [repeat hd]; lia]]|]. repeat (split; [reflexivity|]). reflexivity. Qed.
Definition ex_wb : list bytes := [2 :: sigkey_text 200 120 (repeat 5 32) (repeat 6 32) (repeat 2 33); 2 :: sigkey_text 33 33 (0 :: repeat 5 32) (7 :: repeat 200 32) (repeat 2 33)].
Definition ex_ws : list sigpub := [{| sp_sig := repeat 5 32 ++ repeat 6 32; sp_pub := repeat 2 33 |}; {| sp_sig := repeat 5 32 ++ repeat 200 32; sp_pub := repeat 2 33 |}].
Lemma ex_bytes w : forallb (fun x => (0 <=? x) && (x <? 256)) w = true -> is_bytes w.
Proof. intros F. apply Forall_forall. intros x I. rewrite forallb_forall in F. specialize (F x I). unfold is_byte. lia. Qed.
Lemma ex_wb_bytes : is_bytes (concat ex_wb).
Proof. apply ex_bytes. vm_compute. reflexivity. Qed.
Example like_marked_example : like_decode (marked_tx 2 ex_ins2 [ex_like_out] (concat ex_wb) (le_bytes 4 0)) = Ok (ltx_of 2 ex_ins2 [ex_like_out] ex_ws 0).
Proof.
  apply like_decode_marked; [apply ex_bytes; vm_compute; reflexivity|reflexivity|]. exists 2, ex_ins2, [ex_like_out], ex_wb, ex_ws, 0. split; [apply ex_marked_fields|]. split; [lia|]. split; [constructor; [apply ex_taken1|constructor; [apply ex_taken2|constructor]]|]. split; [left; reflexivity|]. split; reflexivity.
Qed.
(** No witness at all for two inputs, and lock time 1: accepted. *)
Example like_missing_witness_example : like_decode (marked_tx 2 ex_ins2 [ex_like_out] [] (le_bytes 4 1)) = Ok (ltx_of 2 ex_ins2 [ex_like_out] [] 1).
Proof.
  apply like_decode_marked; [apply ex_bytes; vm_compute; reflexivity|reflexivity|]. exists 2, ex_ins2, [ex_like_out], [], [], 1. split; [apply ex_marked_fields|]. split; [lia|]. split; [constructor|]. split; [right; split; [cbn [length ex_ins2]; lia|]; split; discriminate|]. split; reflexivity.
Qed.
Example like_marked_panics_example : like_decode (marked_tx 2 ex_ins2 [ex_like_out] (concat [[0]]) (2 :: repeat 0 35 ++ [9; 9])) = Panic.
Proof.
  apply like_decode_marked_panics; [apply ex_bytes; vm_compute; reflexivity|reflexivity|]. exists 2, ex_ins2, [ex_like_out], [[0]], [no_sigpub], (repeat 0 35), [9; 9]. split; [apply ex_marked_fields|]. split; [constructor; [constructor|constructor]|]. split; [cbn [length ex_ins2]; lia|].
  split; [discriminate|]. split; [reflexivity|]. split; [|reflexivity]. intros (sig & pub & rl & sl & rf & sf & r & v & _ & _ & _ & _ & E & _). unfold sigkey_text in E. cbn [repeat app] in E. congruence.
Qed.
Example like_twice_example : exists b t b', is_bytes b /\ like_decode b = Ok t /\ like_decode_left b = Ok (t, b') /\ like_decode b' = Panic /\ b' <> b.
Proof.
  destruct (like_decode_leaves 2 ex_ins2 [ex_like_out] ex_wb ex_ws 0 ex_marked_fields) as (lb & G & D); [constructor; [apply ex_taken1|constructor; [apply ex_taken2|constructor]]|exact ex_wb_bytes|left; reflexivity|].
  exists (marked_tx 2 ex_ins2 [ex_like_out] (concat ex_wb) (le_bytes 4 0)), (ltx_of 2 ex_ins2 [ex_like_out] ex_ws 0), (marked_tx 2 ex_ins2 [ex_like_out] (concat lb) (le_bytes 4 0)).
  assert (B : is_bytes (marked_tx 2 ex_ins2 [ex_like_out] (concat ex_wb) (le_bytes 4 0))) by (apply ex_bytes; vm_compute; reflexivity).
  split; [exact B|]. split; [exact like_marked_example|]. split; [exact D|]. apply (like_decode_twice _ _ _ B like_marked_example D). exists {| sp_sig := repeat 5 32 ++ repeat 6 32; sp_pub := repeat 2 33 |}. split; [left; reflexivity|]. cbv. discriminate.
Qed.
Print Assumptions like_decode_marked.
Print Assumptions like_decode_marked_panics.
Print Assumptions like_decode_leaves_plain.
Print Assumptions like_decode_leaves.
Print Assumptions like_decode_twice.
