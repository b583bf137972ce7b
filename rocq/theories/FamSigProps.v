(** C110-C113: hashing, signing and checking in the packages derived from btcTransaction. *)
From Coq Require Import String ZArith List Bool Lia ZifyBool ZifyNat.
From Verif Require Import Go GoFacts GoFacts2 Rd Base58Model Base58Spec Base58CheckModel Base58CheckSpec Base58CheckProofs Base58CheckProps
  Bech32Model Bech32Spec Bech32Text CashAddrModel CashAddrProps AddressModel BtcModel BtcSpec BtcProofs BtcTxProofs BtcTxProps BtcSigProps SigModel SigDerProps BtcVerModel BtcVerProps FamModel FamProofs FamTxProps FamSigProofs Toy.
From Verif Require LiteModel.
Import ListNotations.
Open Scope Z_scope.
Ltac Zify.zify_post_hook ::= idtac.

(** ** Specification *)
(** The address shown for a key hash: base58 with the network's prefix, or the main-net cash address. *)
Definition shows_base58 (H : bytes -> bytes) (ap : addr_prefix) (h : bytes) (a : list Z) : Prop := is_base58_of bitcoin_rs (checked H (p_p2pkh ap ++ h)) a.
Definition shows_cash (H : bytes -> bytes) (ap : addr_prefix) (h : bytes) (a : list Z) : Prop := cash_encode (str "bitcoincash") bech32_alphabet (0 :: h) = Ok a.
(** bitcoincashTransaction and bitcoinsvTransaction: hash type 0x41, and the BIP143 message for everything but a
    multi-signature without segwit. The code of a nested witness input is the locking script. A redeem script beside a
    key-hash script is not looked at; there is no case for a witness script. *)
Definition fork_hash_for (address : bytes -> list Z -> Prop) (H : bytes -> bytes) (ap : addr_prefix) (segwitOn : bool) (ins : list spec_in) (outs : list spec_out) (lockTime : Z) (n : nat) (u : unlock) (th : txhash) : Prop :=
  u_sigtype u = 0x41 /\ exists lock i, hex_decode (u_lock u) = Ok lock /\ nth_error ins n = Some i /\
  ((exists h a, length h = 20%nat /\ lock = p2pkh_script h /\ u_amount u <> 0 /\ address h a /\
      th = single_t 0x41 H (bip143_typed 0x41 H 1 ins outs lockTime i lock (u_amount u)) a) \/
   (exists s h a, length s = 20%nat /\ length h = 20%nat /\ lock = p2sh_script s /\ hex_decode (u_redeem u) = Ok (witness_v0_script h) /\ u_amount u <> 0 /\
      is_base58_of bitcoin_rs (checked H (p_p2wpkh ap ++ s)) a /\
      th = single_t 0x41 H (bip143_typed 0x41 H 1 ins outs lockTime i lock (u_amount u)) a) \/
   (exists s redeem required keys, length s = 20%nat /\ lock = p2sh_script s /\ hex_decode (u_redeem u) = Ok redeem /\ 37 <= zlen redeem /\ last redeem 0 = 0xAE /\
      multisig_form required keys redeem /\
      (segwitOn = false /\ th = multi_t 0x41 H (legacy_typed 0x41 1 ins outs lockTime n redeem) required keys \/
       segwitOn = true /\ u_amount u <> 0 /\ th = multi_t 0x41 H (bip143_typed 0x41 H 1 ins outs lockTime i redeem (u_amount u)) required keys))).
(** cxcTransaction: as btcTransaction with version 1; the key-hash and script-hash scripts may carry 30 more bytes, of
    any content, and are hashed with them. *)
Definition maybe30 (t : bytes) : Prop := t = [] \/ zlen t = 30.
Definition cxc_hash_for (H : bytes -> bytes) (ap : addr_prefix) (segwitOn : bool) (ins : list spec_in) (outs : list spec_out) (lockTime : Z) (n : nat) (u : unlock) (th : txhash) : Prop :=
  u_sigtype u = 1 /\ exists lock redeem i, hex_decode (u_lock u) = Ok lock /\ hex_decode (u_redeem u) = Ok redeem /\ nth_error ins n = Some i /\
  ((exists h t a, length h = 20%nat /\ maybe30 t /\ lock = p2pkh_script h ++ t /\ redeem = [] /\
      is_base58_of bitcoin_rs (checked H (p_p2pkh ap ++ h)) a /\
      th = single_t 1 H (legacy_typed 1 1 ins outs lockTime n lock) a) \/
   (exists s t h a, length s = 20%nat /\ maybe30 t /\ length h = 20%nat /\ lock = p2sh_script s ++ t /\ redeem = witness_v0_script h /\ u_amount u <> 0 /\
      is_base58_of bitcoin_rs (checked H (p_p2wpkh ap ++ s)) a /\
      th = single_t 1 H (bip143_typed 1 H 1 ins outs lockTime i (p2pkh_script h) (u_amount u)) a) \/
   (exists h a, length h = 20%nat /\ lock = witness_v0_script h /\ redeem = [] /\ u_amount u <> 0 /\
      bech32_encode (p_bech32 ap) bech32_alphabet h (Some [0]) = Ok a /\
      th = single_t 1 H (bip143_typed 1 H 1 ins outs lockTime i (p2pkh_script h) (u_amount u)) a) \/
   (exists s t required keys, length s = 20%nat /\ maybe30 t /\ lock = p2sh_script s ++ t /\ 37 <= zlen redeem /\ last redeem 0 = 0xAE /\
      multisig_form required keys redeem /\
      (segwitOn = false /\ th = multi_t 1 H (legacy_typed 1 1 ins outs lockTime n redeem) required keys \/
       segwitOn = true /\ u_amount u <> 0 /\ th = multi_t 1 H (bip143_typed 1 H 1 ins outs lockTime i redeem (u_amount u)) required keys))).
(** zencashTransaction: whatever the script is, the legacy message over all of it and the address of its bytes 3 to 22;
    of a text that is not hex, the bytes before the first bad digit. Nothing else of the request is used. *)
Definition zen_hash_for (H : bytes -> bytes) (ap : addr_prefix) (ins : list spec_in) (outs : list spec_out) (lockTime : Z) (n : nat) (u : unlock) (th : txhash) : Prop :=
  u_sigtype u = 1 /\ exists pre h post a i, length pre = 3%nat /\ length h = 20%nat /\ LiteModel.hex_prefix (u_lock u) = pre ++ h ++ post /\ nth_error ins n = Some i /\
    is_base58_of bitcoin_rs (checked H (p_p2pkh ap ++ h)) a /\
    th = single_t 1 H (legacy_typed 1 1 ins outs lockTime n (pre ++ h ++ post)) a.
(** The input script, the witness and whether the input is a segwit input. *)
Definition fork_unlocks (u : unlock) (sp : sigpub) (script witness : bytes) (segwit : bool) : Prop :=
  exists e lock, pushes 0x41 sp e /\ hex_decode (u_lock u) = Ok lock /\
  ((exists h, length h = 20%nat /\ lock = p2pkh_script h /\ script = e /\ witness = [0] /\ segwit = false) \/
   (exists s h redeem, length s = 20%nat /\ length h = 20%nat /\ lock = p2sh_script s /\ hex_decode (u_redeem u) = Ok redeem /\ redeem = witness_v0_script h /\ script = 22 :: redeem /\ witness = 2 :: e /\ segwit = true)).
Definition cxc_unlocks (u : unlock) (sp : sigpub) (script witness : bytes) (segwit : bool) : Prop :=
  exists e lock redeem, pushes 1 sp e /\ hex_decode (u_lock u) = Ok lock /\ hex_decode (u_redeem u) = Ok redeem /\
  ((exists h t, length h = 20%nat /\ maybe30 t /\ lock = p2pkh_script h ++ t /\ script = e /\ witness = [0] /\ segwit = false) \/
   (exists s t h, length s = 20%nat /\ maybe30 t /\ length h = 20%nat /\ lock = p2sh_script s ++ t /\ redeem = witness_v0_script h /\ script = 22 :: redeem /\ witness = 2 :: e /\ segwit = true) \/
   (exists h, length h = 20%nat /\ lock = witness_v0_script h /\ script = [] /\ witness = 2 :: e /\ segwit = true)).
(** What insertion returns: the serialisation of the transaction with each input's script and witness, refused exactly
    when there is a segwit input and segwit is off. *)
Definition signed_by (unlocks : unlock -> sigpub -> bytes -> bytes -> bool -> Prop) (version : Z) (ins : list spec_in) (outs : list spec_out) (lt : Z) (us : list unlock) (sps : list sigpub) (segwitOn : bool) (result : res (list Z)) : Prop :=
  exists scripts wits flags, length scripts = length ins /\ length wits = length ins /\ length flags = length ins /\
    (forall k u sp, nth_error us k = Some u -> nth_error sps k = Some sp -> exists s w f, nth_error scripts k = Some s /\ nth_error wits k = Some w /\ nth_error flags k = Some f /\ unlocks u sp s w f) /\
    let segwit := existsb (fun f => f) flags in
    result = if segwit && negb segwitOn then Err
             else Ok (hex_encode (signed_bytes segwit version (map (fun p => with_script (fst p) (snd p)) (combine ins scripts)) outs wits lt)).
Definition short_redeem (u : unlock) : Prop := forall r, hex_decode (u_redeem u) = Ok r -> zlen r <= 252.

(** ** Lemmas *)
Lemma p2pkh_nth h t : length h = 20%nat -> nth 0 (p2pkh_script h ++ t) 0 = 0x76 /\ nth 1 (p2pkh_script h ++ t) 0 = 0xA9 /\ nth 2 (p2pkh_script h ++ t) 0 = 0x14 /\ nth 23 (p2pkh_script h ++ t) 0 = 0x88 /\ nth 24 (p2pkh_script h ++ t) 0 = 0xAC.
Proof. intros L. take 20%nat h. repeat split; reflexivity. Qed.
Lemma p2sh_nth h t : length h = 20%nat -> nth 0 (p2sh_script h ++ t) 0 = 0xA9 /\ nth 1 (p2sh_script h ++ t) 0 = 0x14 /\ nth 22 (p2sh_script h ++ t) 0 = 0x87.
Proof. intros L. take 20%nat h. repeat split; reflexivity. Qed.
Lemma wpkh_nth h : length h = 20%nat -> nth 0 (witness_v0_script h) 0 = 0 /\ nth 1 (witness_v0_script h) 0 = 0x14.
Proof. intros L. take 20%nat h. split; reflexivity. Qed.
Lemma not_wpkh r : 37 <= zlen r -> (zlen r =? 22) && (nth 0 r 0 =? 0) && (nth 1 r 0 =? 0x14) = false.
Proof. intros L. replace (zlen r =? 22) with false by lia. reflexivity. Qed.
Lemma fork_check_iff lk rd l r ty : fork_check lk rd = Ok (l, r, ty) <->
  hex_decode lk = Ok l /\
  ((ty = TypeP2PKH /\ r = [] /\ exists h, length h = 20%nat /\ l = p2pkh_script h) \/
   (ty = TypeP2WPKH /\ hex_decode rd = Ok r /\ (exists s, length s = 20%nat /\ l = p2sh_script s) /\ exists h, length h = 20%nat /\ r = witness_v0_script h) \/
   (ty = TypeBech32 /\ rd = [] /\ r = [] /\ exists h, length h = 20%nat /\ l = witness_v0_script h) \/
   (ty = TypeMultiSig /\ hex_decode rd = Ok r /\ (exists s, length s = 20%nat /\ l = p2sh_script s) /\ 37 <= zlen r /\ last r 0 = 0xAE)).
Proof.
  unfold fork_check. split.
  - intros E. apply bind_ok in E as (x & Ex & E). cbv zeta in E. destruct ((zlen x =? 25) && _ && _ && _ && _ && _) eqn:P.
    { apply is_p2pkh in P. assert (l = x /\ r = [] /\ ty = TypeP2PKH) as (-> & -> & ->) by (clear - E; repeat split; congruence). auto 6. } clear P.
    destruct ((zlen x =? 23) && _ && _ && _) eqn:P.
    { apply is_p2sh in P. apply bind_ok in E as (y & Ey & E). destruct ((zlen y =? 22) && _ && _) eqn:Q.
      - apply is_wpkh in Q. assert (l = x /\ r = y /\ ty = TypeP2WPKH) as (-> & -> & ->) by (clear - E; repeat split; congruence). auto 8.
      - destruct (37 <=? zlen y) eqn:Q1; [|discriminate]. destruct (last y 0 =? 0xAE) eqn:Q2; [|discriminate]. cbn [andb] in E. assert (l = x /\ r = y /\ ty = TypeMultiSig) as (-> & -> & ->) by (clear - E; repeat split; congruence).
        split; [exact Ex|]. right. right. right. repeat (split; [assumption || reflexivity || lia|]). lia. } clear P.
    destruct ((zlen x =? 22) && _ && _) eqn:P; [|discriminate]. apply is_wpkh in P. destruct (zlen rd =? 0) eqn:R; [|discriminate]. destruct rd as [|c rd]; [|rewrite zlen_cons in R; pose proof (zlen_nonneg rd); lia].
    assert (l = x /\ r = [] /\ ty = TypeBech32) as (-> & -> & ->) by (clear - E; repeat split; congruence). auto 9.
  - intros (El & [(-> & -> & h & Lh & ->)|[(-> & Er & (s & Ls & ->) & h & Lh & ->)|[(-> & -> & -> & h & Lh & ->)|(-> & Er & (s & Ls & ->) & L37 & La)]]]); rewrite El; cbn [bind]; cbv zeta.
    + rewrite p2pkh_len by exact Lh. destruct (p2pkh_nth h [] Lh) as (A & B & C & D & E). rewrite app_nil_r in *. rewrite A, B, C, D, E. reflexivity.
    + rewrite p2sh_len by exact Ls. destruct (p2sh_nth s [] Ls) as (A & B & C). rewrite app_nil_r in *. rewrite A, B, C. cbn. rewrite Er. cbn [bind]. rewrite (proj2 (is_wpkh _)) by eauto. reflexivity.
    + rewrite wpkh_len by exact Lh. destruct (wpkh_nth h Lh) as (A & B). rewrite A, B. reflexivity.
    + rewrite p2sh_len by exact Ls. destruct (p2sh_nth s [] Ls) as (A & B & C). rewrite app_nil_r in *. rewrite A, B, C. cbn. rewrite Er. cbn [bind]. rewrite not_wpkh by exact L37. replace (37 <=? zlen r) with true by lia. rewrite La. reflexivity.
Qed.
Lemma tails n l : ((zlen l =? n) || (zlen l =? n + 30)) = true -> 0 <= n -> maybe30 (skipn (Z.to_nat n) l).
Proof.
  intros E N. unfold maybe30. assert (L : zlen (skipn (Z.to_nat n) l) = zlen l - n) by (unfold zlen in *; rewrite skipn_length; lia).
  destruct (zlen l =? n) eqn:Q; [left|right; lia]. destruct (skipn (Z.to_nat n) l) as [|c t]; [reflexivity|]. rewrite zlen_cons in L. pose proof (zlen_nonneg t). lia.
Qed.
Lemma is_p2pkh_t l : ((zlen l =? 25) || (zlen l =? 55)) && (nth 0 l 0 =? 0x76) && (nth 1 l 0 =? 0xA9) && (nth 2 l 0 =? 0x14) && (nth 23 l 0 =? 0x88) && (nth 24 l 0 =? 0xAC) = true <->
  exists h t, length h = 20%nat /\ maybe30 t /\ l = p2pkh_script h ++ t.
Proof.
  split.
  - intros E. rewrite !andb_true_iff in E. destruct E as (((((E1 & E2) & E3) & E4) & E5) & E6). apply Z.eqb_eq in E2, E3, E4, E5, E6. pose proof (tails 25 l E1 ltac:(lia)) as T. change (Z.to_nat 25) with 25%nat in T.
    assert (L : (25 <= length l)%nat) by (unfold zlen in E1; lia). clear E1. exists (firstn 20 (skipn 3 l)), (skipn 25 l). split; [rewrite firstn_length, skipn_length; lia|]. split; [exact T|]. clear T.
    do 25 (destruct l as [|? l]; [exfalso; cbn [length] in L; lia|]). cbn [nth] in *. subst. reflexivity.
  - intros (h & t & L & T & ->). destruct (p2pkh_nth h t L) as (-> & -> & -> & -> & ->). rewrite zlen_app, p2pkh_len by exact L. destruct T as [-> | ->]; reflexivity.
Qed.
Lemma is_p2sh_t l : ((zlen l =? 23) || (zlen l =? 53)) && (nth 0 l 0 =? 0xA9) && (nth 1 l 0 =? 0x14) && (nth 22 l 0 =? 0x87) = true <->
  exists h t, length h = 20%nat /\ maybe30 t /\ l = p2sh_script h ++ t.
Proof.
  split.
  - intros E. rewrite !andb_true_iff in E. destruct E as (((E1 & E2) & E3) & E4). apply Z.eqb_eq in E2, E3, E4. pose proof (tails 23 l E1 ltac:(lia)) as T. change (Z.to_nat 23) with 23%nat in T.
    assert (L : (23 <= length l)%nat) by (unfold zlen in E1; lia). clear E1. exists (firstn 20 (skipn 2 l)), (skipn 23 l). split; [rewrite firstn_length, skipn_length; lia|]. split; [exact T|]. clear T.
    do 23 (destruct l as [|? l]; [exfalso; cbn [length] in L; lia|]). cbn [nth] in *. subst. reflexivity.
  - intros (h & t & L & T & ->). destruct (p2sh_nth h t L) as (-> & -> & ->). rewrite zlen_app, p2sh_len by exact L. destruct T as [-> | ->]; reflexivity.
Qed.
Lemma cxc_check_iff lk rd l r ty : cxc_check lk rd = Ok (l, r, ty) <->
  hex_decode lk = Ok l /\ hex_decode rd = Ok r /\
  ((ty = TypeP2PKH /\ r = [] /\ exists h t, length h = 20%nat /\ maybe30 t /\ l = p2pkh_script h ++ t) \/
   (ty = TypeP2WPKH /\ (exists s t, length s = 20%nat /\ maybe30 t /\ l = p2sh_script s ++ t) /\ exists h, length h = 20%nat /\ r = witness_v0_script h) \/
   (ty = TypeBech32 /\ r = [] /\ exists h, length h = 20%nat /\ l = witness_v0_script h) \/
   (ty = TypeMultiSig /\ (exists s t, length s = 20%nat /\ maybe30 t /\ l = p2sh_script s ++ t) /\ 37 <= zlen r /\ last r 0 = 0xAE)).
Proof.
  unfold cxc_check. split.
  - intros E. apply bind_ok in E as (x & Ex & E). cbv zeta in E. destruct (((zlen x =? 25) || (zlen x =? 55)) && _ && _ && _ && _ && _) eqn:P.
    { apply is_p2pkh_t in P. destruct (zlen rd =? 0) eqn:R; [|discriminate]. apply Z.eqb_eq, hex_nil in R. assert (l = x /\ r = [] /\ ty = TypeP2PKH) as (-> & -> & ->) by (clear - E; repeat split; congruence). auto 6. } clear P.
    destruct (((zlen x =? 23) || (zlen x =? 53)) && _ && _ && _) eqn:P.
    { apply is_p2sh_t in P. apply bind_ok in E as (y & Ey & E). destruct ((zlen y =? 22) && _ && _) eqn:Q.
      - apply is_wpkh in Q. assert (l = x /\ r = y /\ ty = TypeP2WPKH) as (-> & -> & ->) by (clear - E; repeat split; congruence). auto 8.
      - destruct (37 <=? zlen y) eqn:Q1; [|discriminate]. destruct (last y 0 =? 0xAE) eqn:Q2; [|discriminate]. cbn [andb] in E. assert (l = x /\ r = y /\ ty = TypeMultiSig) as (-> & -> & ->) by (clear - E; repeat split; congruence).
        split; [exact Ex|]. split; [exact Ey|]. right. right. right. repeat (split; [assumption || reflexivity || lia|]). lia. } clear P.
    destruct ((zlen x =? 22) && _ && _) eqn:P; [|discriminate]. apply is_wpkh in P. destruct (zlen rd =? 0) eqn:R; [|discriminate]. apply Z.eqb_eq, hex_nil in R.
    assert (l = x /\ r = [] /\ ty = TypeBech32) as (-> & -> & ->) by (clear - E; repeat split; congruence). auto 9.
  - intros (El & Er & [(-> & -> & h & t & Lh & Lt & ->)|[(-> & (s & t & Ls & Lt & ->) & h & Lh & ->)|[(-> & -> & h & Lh & ->)|(-> & (s & t & Ls & Lt & ->) & L37 & La)]]]); rewrite El; cbn [bind]; cbv zeta.
    + rewrite (proj2 (is_p2pkh_t _)) by eauto. apply hex_nil in Er. rewrite Er. reflexivity.
    + destruct (p2sh_nth s t Ls) as (A & B & C). rewrite A. change (0xA9 =? 0x76) with false. rewrite andb_false_r. cbn [andb]. rewrite B, C.
      replace ((zlen (p2sh_script s ++ t) =? 23) || (zlen (p2sh_script s ++ t) =? 53)) with true by (rewrite zlen_app, p2sh_len by exact Ls; destruct Lt as [-> | ->]; reflexivity).
      cbn [andb Z.eqb Pos.eqb]. rewrite Er. cbn [bind]. rewrite (proj2 (is_wpkh _)) by eauto. reflexivity.
    + apply hex_nil in Er. rewrite Er. rewrite wpkh_len by exact Lh. destruct (wpkh_nth h Lh) as (A & B). rewrite A, B. reflexivity.
    + destruct (p2sh_nth s t Ls) as (A & B & C). rewrite A. change (0xA9 =? 0x76) with false. rewrite andb_false_r. cbn [andb]. rewrite B, C.
      replace ((zlen (p2sh_script s ++ t) =? 23) || (zlen (p2sh_script s ++ t) =? 53)) with true by (rewrite zlen_app, p2sh_len by exact Ls; destruct Lt as [-> | ->]; reflexivity).
      cbn [andb Z.eqb Pos.eqb]. rewrite Er. cbn [bind]. rewrite not_wpkh by exact L37. replace (37 <=? zlen r) with true by lia. rewrite La. reflexivity.
Qed.
Lemma code_p2pkh h : script_code (p2pkh_script h) = Ok (p2pkh_script h). Proof. reflexivity. Qed.
Lemma code_p2sh h : script_code (p2sh_script h) = Ok (p2sh_script h). Proof. reflexivity. Qed.
Lemma slice_p2pkh_t h t : length h = 20%nat -> slice (p2pkh_script h ++ t) 3 23 = Ok h.
Proof. intros L. unfold slice. replace (_ && _ && _) with true by (rewrite zlen_app, p2pkh_len by exact L; pose proof (zlen_nonneg t); lia). take 20%nat h. reflexivity. Qed.
Lemma slice_p2sh_t h t : length h = 20%nat -> slice (p2sh_script h ++ t) 2 22 = Ok h.
Proof. intros L. unfold slice. replace (_ && _ && _) with true by (rewrite zlen_app, p2sh_len by exact L; pose proof (zlen_nonneg t); lia). take 20%nat h. reflexivity. Qed.
(** One input of the fork packages. *)
Definition fork_coin (f : (bytes -> bytes) -> addr_prefix -> bytes -> res (list Z)) : coin := {| k_version := 1; k_all := 0x41; k_check := fork_check; k_fork := true; k_address := f; k_bech32 := false |}.
Lemma fork_one f (address : (bytes -> bytes) -> addr_prefix -> bytes -> list Z -> Prop) H ap sw ins outs lt n u th : hash_ok H -> prefixes_ok ap -> 1 <= zlen ins <= 252 -> 1 <= zlen outs <= 252 ->
  Forall (fun s => zlen (s_txid s) = 32) ins -> Forall (fun s => 1 <= zlen (s_lock s) <= 252) outs ->
  (forall h a, length h = 20%nat -> is_bytes h -> f H ap h = Ok a <-> address H ap h a) -> short_redeem u ->
  one_v (fork_coin f) H ins outs lt sw ap n u = Ok th <-> fork_hash_for (address H ap) H ap sw ins outs lt n u th.
Proof.
  intros HH (P1 & P2 & P3) Ni No Fi Fo Ad Lr. unfold one_v, fork_hash_for. cbn [fork_coin k_check]. split.
  - intros E. apply bind_ok in E as ([[l r] ty] & Ec & E). apply fork_check_iff in Ec as (El & C). destruct (hex_decode_bytes _ _ El) as [Bl _].
    destruct (after_inv _ _ _ _ _ _ _ _ _ _ _ _ _ _ E) as (i & En & S). cbn [fork_coin k_all] in S. split; [exact S|]. exists l, i. split; [exact El|]. split; [exact En|]. rewrite S in E. change 65 with (k_all (fork_coin f)) in E at 1.
    destruct C as [(-> & -> & h & Lh & ->)|[(-> & Er & (s & Ls & ->) & h & Lh & ->)|[(-> & _ & -> & h & Lh & ->)|(-> & Er & (s & Ls & ->) & L37 & La)]]].
    + left. rewrite (after_p2pkh_fork _ _ _ _ _ _ _ Fo n i En) in E; [|reflexivity|apply code_p2pkh|rewrite p2pkh_len by exact Lh; lia]. destruct (u_amount u =? 0) eqn:A; [discriminate|]. rewrite slice_p2pkh in E by exact Lh. cbn [bind] in E. apply bind_ok in E as (a & Ea & E).
      exists h, a. split; [exact Lh|]. split; [reflexivity|]. split; [lia|]. split; [apply Ad; [exact Lh|apply p2pkh_bytes, Bl|exact Ea]|]. injection E as <-. reflexivity.
    + right. left. rewrite (after_p2wpkh _ _ _ _ _ _ _ Fo n i En _ _ (p2sh_script s)) in E; [|apply code_p2sh|rewrite p2sh_len by exact Ls; lia]. destruct (u_amount u =? 0) eqn:A; [discriminate|]. rewrite slice_p2sh in E by exact Ls. cbn [bind] in E. apply bind_ok in E as (a & Ea & E).
      apply address_text in Ea; try assumption; [|apply p2sh_bytes, Bl]. exists s, h, a. repeat (split; [assumption || reflexivity || lia|]). injection E as <-. reflexivity.
    + rewrite (after_bech32 _ _ _ _ _ _ _ Fo n i En _ _ (p2pkh_script h)) in E; [|apply code_wpkh; exact Lh|rewrite p2pkh_len by exact Lh; lia]. destruct (u_amount u =? 0); discriminate E.
    + right. right. destruct (proj1 (after_multi _ _ _ _ _ _ _ Ni No Fi Fo n i En _ _ _ _ (proj1 (hex_decode_bytes _ _ Er)) (Lr _ Er)) E) as (m & ks & Em & C).
      exists s, r, m, ks. repeat (split; [assumption || reflexivity|]). exact C.
  - intros (S & l & i & El & En & C). destruct (hex_decode_bytes _ _ El) as [Bl _]. rewrite S. change 65 with (k_all (fork_coin f)) at 1.
    destruct C as [(h & a & Lh & -> & A & Ea & ->)|[(s & h & a & Ls & Lh & -> & Er & A & Ea & ->)|(s & r & m & ks & Ls & -> & Er & L37 & La & Em & C)]].
    + rewrite (proj2 (fork_check_iff (u_lock u) (u_redeem u) (p2pkh_script h) [] TypeP2PKH)) by (split; [exact El|left; eauto 6]). cbn [bind].
      rewrite (after_p2pkh_fork _ _ _ _ _ _ _ Fo n i En); [|reflexivity|apply code_p2pkh|rewrite p2pkh_len by exact Lh; lia]. replace (u_amount u =? 0) with false by lia. rewrite slice_p2pkh by exact Lh. cbn [bind fork_coin k_address].
      rewrite (proj2 (Ad h a Lh (p2pkh_bytes _ Bl)) Ea). reflexivity.
    + rewrite (proj2 (fork_check_iff (u_lock u) (u_redeem u) (p2sh_script s) (witness_v0_script h) TypeP2WPKH)) by (split; [exact El|right; left; eauto 8]). cbn [bind].
      rewrite (after_p2wpkh _ _ _ _ _ _ _ Fo n i En _ _ (p2sh_script s)); [|apply code_p2sh|rewrite p2sh_len by exact Ls; lia]. replace (u_amount u =? 0) with false by lia. rewrite slice_p2sh by exact Ls. cbn [bind].
      apply address_text in Ea; try assumption; [|apply p2sh_bytes, Bl]. rewrite Ea. reflexivity.
    + rewrite (proj2 (fork_check_iff (u_lock u) (u_redeem u) (p2sh_script s) r TypeMultiSig)) by (split; [exact El|right; right; right; eauto 8]). cbn [bind].
      apply (after_multi _ _ _ _ _ _ _ Ni No Fi Fo n i En); [apply (proj1 (hex_decode_bytes _ _ Er))|apply Lr; exact Er|]. exists m, ks. split; [exact Em|exact C].
Qed.
Lemma cxc_one H ap sw ins outs lt n u th : hash_ok H -> prefixes_ok ap -> 1 <= zlen ins <= 252 -> 1 <= zlen outs <= 252 ->
  Forall (fun s => zlen (s_txid s) = 32) ins -> Forall (fun s => 1 <= zlen (s_lock s) <= 252) outs -> short_redeem u ->
  one_v cxc H ins outs lt sw ap n u = Ok th <-> cxc_hash_for H ap sw ins outs lt n u th.
Proof.
  intros HH (P1 & P2 & P3) Ni No Fi Fo Lr. unfold one_v, cxc_hash_for. change (k_check cxc) with cxc_check.
  assert (M : forall t, maybe30 t -> 0 <= zlen t <= 30) by (intros t [-> | ->]; [change (zlen (@nil Z)) with 0|]; lia). split.
  - intros E. apply bind_ok in E as ([[l r] ty] & Ec & E). apply cxc_check_iff in Ec as (El & Er & C). destruct (hex_decode_bytes _ _ El) as [Bl _]. destruct (hex_decode_bytes _ _ Er) as [Br _].
    destruct (after_inv _ _ _ _ _ _ _ _ _ _ _ _ _ _ E) as (i & En & S). change (k_all cxc) with 1 in S. split; [exact S|]. exists l, r, i. split; [exact El|]. split; [exact Er|]. split; [exact En|]. rewrite S in E. change 1 with (k_all cxc) in E at 1.
    destruct C as [(-> & -> & h & t & Lh & Lt & ->)|[(-> & (s & t & Ls & Lt & ->) & h & Lh & ->)|[(-> & -> & h & Lh & ->)|(-> & (s & t & Ls & Lt & ->) & L37 & La)]]].
    + left. rewrite (after_p2pkh _ _ _ _ _ _ _ Ni No Fi Fo n i En) in E; [|reflexivity|rewrite zlen_app, p2pkh_len by exact Lh; pose proof (M t Lt); lia]. rewrite slice_p2pkh_t in E by exact Lh. cbn [bind] in E. apply bind_ok in E as (a & Ea & E).
      apply is_bytes_app in Bl as [Bl _]. apply address_text in Ea; try assumption; [|apply p2pkh_bytes, Bl]. exists h, t, a. repeat (split; [assumption || reflexivity|]). injection E as <-. reflexivity.
    + right. left. rewrite (after_p2wpkh _ _ _ _ _ _ _ Fo n i En _ _ (p2pkh_script h)) in E; [|apply code_wpkh; exact Lh|rewrite p2pkh_len by exact Lh; lia]. destruct (u_amount u =? 0) eqn:A; [discriminate|]. rewrite slice_p2sh_t in E by exact Ls. cbn [bind] in E. apply bind_ok in E as (a & Ea & E).
      apply is_bytes_app in Bl as [Bl _]. apply address_text in Ea; try assumption; [|apply p2sh_bytes, Bl]. exists s, t, h, a. repeat (split; [assumption || reflexivity || lia|]). injection E as <-. reflexivity.
    + right. right. left. rewrite (after_bech32 _ _ _ _ _ _ _ Fo n i En _ _ (p2pkh_script h)) in E; [|apply code_wpkh; exact Lh|rewrite p2pkh_len by exact Lh; lia]. destruct (u_amount u =? 0) eqn:A; [discriminate|]. change (k_bech32 cxc) with true in E. cbv iota in E. rewrite slice_wpkh in E by exact Lh. cbn [bind] in E. apply bind_ok in E as (a & Ea & E).
      exists h, a. repeat (split; [assumption || reflexivity || lia|]). injection E as <-. reflexivity.
    + right. right. right. destruct (proj1 (after_multi _ _ _ _ _ _ _ Ni No Fi Fo n i En _ _ _ _ Br (Lr _ Er)) E) as (m & ks & Em & C).
      exists s, t, m, ks. repeat (split; [assumption || reflexivity|]). exact C.
  - intros (S & l & r & i & El & Er & En & C). destruct (hex_decode_bytes _ _ El) as [Bl _]. destruct (hex_decode_bytes _ _ Er) as [Br _]. rewrite S. change 1 with (k_all cxc) at 1.
    destruct C as [(h & t & a & Lh & Lt & -> & -> & Ea & ->)|[(s & t & h & a & Ls & Lt & Lh & -> & -> & A & Ea & ->)|[(h & a & Lh & -> & -> & A & Ea & ->)|(s & t & m & ks & Ls & Lt & -> & L37 & La & Em & C)]]].
    + rewrite (proj2 (cxc_check_iff (u_lock u) (u_redeem u) (p2pkh_script h ++ t) [] TypeP2PKH)) by (split; [exact El|split; [exact Er|left; eauto 7]]). cbn [bind].
      rewrite (after_p2pkh _ _ _ _ _ _ _ Ni No Fi Fo n i En); [|reflexivity|rewrite zlen_app, p2pkh_len by exact Lh; pose proof (M t Lt); lia]. rewrite slice_p2pkh_t by exact Lh. cbn [bind].
      apply is_bytes_app in Bl as [Bl _]. apply address_text in Ea; try assumption; [|apply p2pkh_bytes, Bl]. change (k_address cxc H ap h) with (encode_check bitcoin_al H (p_p2pkh ap) h). rewrite Ea. reflexivity.
    + rewrite (proj2 (cxc_check_iff (u_lock u) (u_redeem u) (p2sh_script s ++ t) (witness_v0_script h) TypeP2WPKH)) by (split; [exact El|split; [exact Er|right; left; eauto 9]]). cbn [bind].
      rewrite (after_p2wpkh _ _ _ _ _ _ _ Fo n i En _ _ (p2pkh_script h)); [|apply code_wpkh; exact Lh|rewrite p2pkh_len by exact Lh; lia]. replace (u_amount u =? 0) with false by lia. rewrite slice_p2sh_t by exact Ls. cbn [bind].
      apply is_bytes_app in Bl as [Bl _]. apply address_text in Ea; try assumption; [|apply p2sh_bytes, Bl]. rewrite Ea. reflexivity.
    + rewrite (proj2 (cxc_check_iff (u_lock u) (u_redeem u) (witness_v0_script h) [] TypeBech32)) by (split; [exact El|split; [exact Er|right; right; left; eauto 7]]). cbn [bind].
      rewrite (after_bech32 _ _ _ _ _ _ _ Fo n i En _ _ (p2pkh_script h)); [|apply code_wpkh; exact Lh|rewrite p2pkh_len by exact Lh; lia]. replace (u_amount u =? 0) with false by lia. change (k_bech32 cxc) with true. cbv iota. rewrite slice_wpkh by exact Lh. cbn [bind]. rewrite Ea. reflexivity.
    + rewrite (proj2 (cxc_check_iff (u_lock u) (u_redeem u) (p2sh_script s ++ t) r TypeMultiSig)) by (split; [exact El|split; [exact Er|right; right; right; eauto 9]]). cbn [bind].
      apply (after_multi _ _ _ _ _ _ _ Ni No Fi Fo n i En); [exact Br|apply Lr; exact Er|]. exists m, ks. split; [exact Em|exact C].
Qed.
Lemma hex_val_range c v : hex_val c = Some v -> 0 <= v < 16.
Proof. unfold hex_val. repeat match goal with |- context [if ?b then _ else _] => destruct b eqn:? end; intros E; injection E as <- || discriminate; lia. Qed.
Lemma hex_prefix_bytes s : is_bytes (LiteModel.hex_prefix s).
Proof.
  assert (Q : forall n s, (length s <= n)%nat -> is_bytes (LiteModel.hex_prefix s)); [|apply (Q (length s)); lia]. clear s.
  induction n as [|n IH]; intros s L; destruct s as [|a [|b s]]; try constructor; cbn [length] in L; try lia. cbn [LiteModel.hex_prefix]. destruct (hex_val a) as [x|] eqn:Ea; [|constructor]. destruct (hex_val b) as [y|] eqn:Eb; [|constructor].
  apply hex_val_range in Ea. apply hex_val_range in Eb. apply is_bytes_cons. split; [unfold is_byte; lia|]. apply IH. lia.
Qed.
Definition short_lock (u : unlock) : Prop := zlen (LiteModel.hex_prefix (u_lock u)) <= 252.
Lemma slice_mid (pre h post : bytes) : length pre = 3%nat -> length h = 20%nat -> slice (pre ++ h ++ post) 3 23 = Ok h.
Proof.
  intros L1 L2. unfold slice. replace (_ && _ && _) with true by (rewrite !zlen_app; pose proof (zlen_nonneg post); unfold zlen in *; lia). 
  take 3%nat pre. change (Z.to_nat 3) with 3%nat. cbn [app skipn]. f_equal. change (Z.to_nat (23 - 3)) with 20%nat. rewrite <- L2. rewrite firstn_app, Nat.sub_diag, firstn_all, firstn_O, app_nil_r. reflexivity.
Qed.
Lemma slice_split (l h : bytes) : slice l 3 23 = Ok h -> exists pre post, length pre = 3%nat /\ length h = 20%nat /\ l = pre ++ h ++ post.
Proof.
  unfold slice. destruct (_ && _ && _) eqn:B; [|discriminate]. intros E. change (Z.to_nat (23 - 3)) with 20%nat in E. change (Z.to_nat 3) with 3%nat in E. assert (h = firstn 20 (skipn 3 l)) by congruence. subst h. exists (firstn 3 l), (skipn 23 l). unfold zlen in B.
  rewrite !firstn_length, skipn_length. split; [lia|]. split; [lia|]. rewrite <- (firstn_skipn 3 l) at 1. f_equal. rewrite <- (firstn_skipn 20 (skipn 3 l)) at 1. f_equal.
  do 3 (destruct l as [|? l]; [cbn [length] in B; lia|]). reflexivity.
Qed.
Lemma zen_one H ap sw ins outs lt n u th : hash_ok H -> prefixes_ok ap -> 1 <= zlen ins <= 252 -> 1 <= zlen outs <= 252 ->
  Forall (fun s => zlen (s_txid s) = 32) ins -> Forall (fun s => 1 <= zlen (s_lock s) <= 252) outs -> short_lock u ->
  one_v zen H ins outs lt sw ap n u = Ok th <-> zen_hash_for H ap ins outs lt n u th.
Proof.
  intros HH (P1 & P2 & P3) Ni No Fi Fo Ll. unfold one_v, zen_hash_for. change (k_check zen) with zen_check. unfold zen_check. cbn [bind]. split.
  - intros E. destruct (after_inv _ _ _ _ _ _ _ _ _ _ _ _ _ _ E) as (i & En & S). change (k_all zen) with 1 in S. split; [exact S|]. rewrite S in E. change 1 with (k_all zen) in E at 1.
    rewrite (after_p2pkh _ _ _ _ _ _ _ Ni No Fi Fo n i En) in E; [|reflexivity|exact Ll]. apply bind_ok in E as (h & Es & E). apply bind_ok in E as (a & Ea & E).
    destruct (slice_split _ _ Es) as (pre & post & Lp & Lh & El). pose proof (hex_prefix_bytes (u_lock u)) as B. rewrite El in B. apply is_bytes_app in B as [_ B]. apply is_bytes_app in B as [B _].
    apply address_text in Ea; try assumption. exists pre, h, post, a, i. repeat (split; [assumption|]). rewrite <- El. injection E as <-. reflexivity.
  - intros (S & pre & h & post & a & i & Lp & Lh & El & En & Ea & ->). rewrite S. change 1 with (k_all zen) at 1. pose proof (hex_prefix_bytes (u_lock u)) as B. unfold short_lock in Ll. rewrite El in *. apply is_bytes_app in B as [_ B]. apply is_bytes_app in B as [B _].
    rewrite (after_p2pkh _ _ _ _ _ _ _ Ni No Fi Fo n i En); [|reflexivity|exact Ll]. rewrite slice_mid by assumption. cbn [bind]. change (k_address zen H ap h) with (encode_check bitcoin_al H (p_p2pkh ap) h). apply address_text in Ea; try assumption. rewrite Ea. reflexivity.
Qed.
(** Turning a list of items into the shape of the statement. *)
Lemma items_signed (U : unlock -> sigpub -> bytes -> bytes -> bool -> Prop) version its ins outs lt us sps sw : map it_in its = ins -> map it_u its = us -> map it_sp its = sps -> (forall t, In t its -> U (it_u t) (it_sp t) (it_script t) (it_wit t) (it_segwit t)) ->
  signed_by U version ins outs lt us sps sw (if segwit_of_items its && negb sw then Err
      else Ok (hex_encode (signed_bytes (segwit_of_items its) version (map (fun t => with_script (it_in t) (it_script t)) its) outs (map it_wit its) lt))).
Proof.
  intros <- <- <- F. exists (map it_script its), (map it_wit its), (map it_segwit its). rewrite !map_length. repeat (split; [reflexivity|]). split.
  - intros k u sp Eu Es. rewrite nth_error_map in Eu, Es. rewrite !nth_error_map. destruct (nth_error its k) as [t|] eqn:Et; [|discriminate]. cbn [option_map] in *.
    exists (it_script t), (it_wit t), (it_segwit t). repeat (split; [reflexivity|]). assert (u = it_u t) by congruence. assert (sp = it_sp t) by congruence. subst. apply F. eapply nth_error_In. exact Et.
  - cbv zeta. assert (S : existsb (fun f => f) (map it_segwit its) = segwit_of_items its) by (clear; induction its as [|t its IH]; [reflexivity|]; cbn [map existsb]; rewrite IH; reflexivity). rewrite S.
    assert (M : map (fun p => with_script (fst p) (snd p)) (combine (map it_in its) (map it_script its)) = map (fun t => with_script (it_in t) (it_script t)) its) by (clear; induction its as [|t its IH]; [reflexivity|]; cbn [map combine fst snd]; rewrite IH; reflexivity). rewrite M. reflexivity.
Qed.
Lemma pointwise_impl {A B} (R R' : nat -> A -> B -> Prop) (D : B -> Prop) k l m : (forall k a b, D b -> R k a b -> R' k a b) -> Forall D m -> pointwise R k l m -> pointwise R' k l m.
Proof. intros Q F P. induction P as [|k a b l m Rab P IH]; [constructor|]. apply Forall_cons_iff in F as [F0 F]. constructor; auto. Qed.
Lemma fork_single f address H ap sw ins outs lt k u th : th_required th = 0 -> fork_hash_for address H ap sw ins outs lt k u th -> single_kind (fork_coin f) ins k u th.
Proof.
  intros R (S & l & i & El & En & C). unfold single_kind. cbn [fork_coin k_check k_all].
  destruct C as [(h & a & Lh & -> & A & Ea & ->)|[(s & h & a & Ls & Lh & -> & Er & A & Ea & ->)|(s & r & m & ks & Ls & -> & Er & L37 & La & (Em & _) & C)]].
  - exists (p2pkh_script h), [], TypeP2PKH, i. split; [exact En|]. split; [apply fork_check_iff; split; [exact El|left; eauto 6]|]. split; [auto|]. split; [discriminate|]. eexists _, _. reflexivity.
  - exists (p2sh_script s), (witness_v0_script h), TypeP2WPKH, i. split; [exact En|]. split; [apply fork_check_iff; split; [exact El|right; left; eauto 8]|]. split; [auto|]. split; [intros _; apply wpkh_len; exact Lh|]. eexists _, _. reflexivity.
  - exfalso. destruct C as [[_ ->]|(_ & _ & ->)]; cbn in R; lia.
Qed.
Lemma cxc_single H ap sw ins outs lt k u th : th_required th = 0 -> cxc_hash_for H ap sw ins outs lt k u th -> single_kind cxc ins k u th.
Proof.
  intros R (S & l & r & i & El & Er & En & C). unfold single_kind. change (k_check cxc) with cxc_check. change (k_all cxc) with 1. exists l, r.
  destruct C as [(h & t & a & Lh & Lt & -> & -> & Ea & ->)|[(s & t & h & a & Ls & Lt & Lh & -> & -> & A & Ea & ->)|[(h & a & Lh & -> & -> & A & Ea & ->)|(s & t & m & ks & Ls & Lt & -> & L37 & La & (Em & _) & C)]]].
  - exists TypeP2PKH, i. split; [exact En|]. split; [apply cxc_check_iff; split; [exact El|split; [exact Er|left; eauto 7]]|]. split; [auto|]. split; [discriminate|]. eexists _, _. reflexivity.
  - exists TypeP2WPKH, i. split; [exact En|]. split; [apply cxc_check_iff; split; [exact El|split; [exact Er|right; left; eauto 9]]|]. split; [auto|]. split; [intros _; apply wpkh_len; exact Lh|]. eexists _, _. reflexivity.
  - exists TypeBech32, i. split; [exact En|]. split; [apply cxc_check_iff; split; [exact El|split; [exact Er|right; right; left; eauto 7]]|]. split; [auto|]. split; [discriminate|]. eexists _, _. reflexivity.
  - exfalso. destruct C as [[_ ->]|(_ & _ & ->)]; cbn in R; lia.
Qed.
Lemma zen_single H ap ins outs lt k u th : zen_hash_for H ap ins outs lt k u th -> single_kind zen ins k u th.
Proof.
  intros (S & pre & h & post & a & i & Lp & Lh & El & En & Ea & ->). exists (LiteModel.hex_prefix (u_lock u)), [], TypeP2PKH, i. split; [exact En|]. split; [reflexivity|]. split; [auto|]. split; [discriminate|]. eexists _, _. reflexivity.
Qed.
Lemma fork_addresses H ap h a : hash_ok H -> prefixes_ok ap -> length h = 20%nat -> is_bytes h -> (base58_address H ap h = Ok a <-> shows_base58 H ap h a) /\ (cash_address H ap h = Ok a <-> shows_cash H ap h a).
Proof.
  intros HH (P1 & _) L B. split; [symmetry; apply address_text; assumption|]. unfold cash_address, shows_cash, address_encode. rewrite zlen_cons. replace (1 + zlen h) with 21 by (unfold zlen; lia). reflexivity.
Qed.

(** ** C110 *)
(** The hashes to sign of Bitcoin Cash and Bitcoin SV. *)
Theorem fork_hashes_iff : forall H ap ins outs lt hexs us segwitOn hs, hash_ok H -> prefixes_ok ap -> unsigned 1 ins outs lt hexs -> Forall short_redeem us ->
  (create_hashes_v bsv H hexs us segwitOn ap = Ok hs <-> zlen us = zlen ins /\ pointwise (fork_hash_for (shows_base58 H ap) H ap segwitOn ins outs lt) 0 us hs) /\
  (create_hashes_v bch H hexs us segwitOn ap = Ok hs <-> zlen us = zlen ins /\ pointwise (fork_hash_for (shows_cash H ap) H ap segwitOn ins outs lt) 0 us hs).
Proof.
  intros H ap ins outs lt hexs us sw hs HH HP U D. destruct (unsigned_facts 1 _ _ _ _ sw ltac:(lia) U) as (_ & _ & F1 & F2 & No & _). pose proof U as (Ni & _).
  split; eapply hashes_v_iff; try exact D; try exact U; try (cbn; lia).
  - intros n u th Du. apply (fork_one base58_address shows_base58); try assumption. intros h a L B. apply fork_addresses; assumption.
  - intros n u th Du. apply (fork_one cash_address shows_cash); try assumption. intros h a L B. apply fork_addresses; assumption.
Qed.
(** The cash address shown carries the key hash: it is read back as version 0 and the hash. *)
Theorem shown_cash_decodes : forall H ap h a, is_bytes h -> shows_cash H ap h a -> cash_decode a = Ok (0 :: h).
Proof.
  intros H ap h a B E. destruct (cash_roundtrip (str "bitcoincash") 0 h) as (s' & E' & D).
  - split; [discriminate|]. apply Forall_forall. intros c Hc. cbn in Hc. repeat destruct Hc as [<-|Hc]; try lia.
  - apply is_bytes_cons. split; [unfold is_byte; lia|exact B].
  - unfold shows_cash in E. rewrite E in E'. injection E' as <-. exact D.
Qed.
(** A witness script as the first of the scripts to unlock ends the program, if the amount and hash type are as needed. *)
Theorem fork_witness_panics : forall K H ap ins outs lt hexs u us segwitOn h, In K [bch; bsv] -> unsigned 1 ins outs lt hexs -> zlen (u :: us) = zlen ins ->
  length h = 20%nat -> hex_decode (u_lock u) = Ok (witness_v0_script h) -> u_redeem u = [] -> u_amount u <> 0 -> u_sigtype u = 0x41 ->
  create_hashes_v K H hexs (u :: us) segwitOn ap = Panic.
Proof.
  intros K H ap ins outs lt hexs u us sw h Hin U Lu Lh El Er A S. destruct (unsigned_facts 1 _ _ _ _ sw ltac:(lia) U) as (E1 & E2 & F1 & F2 & No & _). pose proof U as (Ni & _).
  assert (Q : forall f, create_hashes_v (fork_coin f) H hexs (u :: us) sw ap = Panic); [|destruct Hin as [<-|[<-|[]]]; apply Q]. intros f.
  unfold create_hashes_v. rewrite E1. cbn [bind]. change (k_version (fork_coin f)) with 1. rewrite E2. cbn [bind]. unfold hashes_for_sig_v. cbn [tx_of tx_vins tx_vouts]. rewrite !zlen_map, Lu, Z.eqb_refl. replace (zlen ins =? 0) with false by lia. replace (zlen outs =? 0) with false by lia. cbn [negb orb].
  change {| tx_version := le_bytes 4 1; tx_vins := map in_of ins; tx_vouts := map out_of outs; tx_locktime := le_bytes 4 lt; tx_witness := false |} with (tx_of 1 ins outs lt). cbn [hashes_loop_v]. cbv zeta.
  replace (set_vins (map set_empty (tx_vins (tx_of 1 ins outs lt))) (tx_of 1 ins outs lt)) with (tx_of 1 ins outs lt) by (unfold set_vins, tx_of; cbn [tx_version tx_vins tx_vouts tx_locktime tx_witness]; rewrite set_empty_of; reflexivity).
  change (k_check (fork_coin f)) with fork_check. rewrite (proj2 (fork_check_iff (u_lock u) (u_redeem u) (witness_v0_script h) [] TypeBech32)) by (split; [exact El|right; right; left; eauto 8]). cbn [bind].
  destruct ins as [|i ins]; [change (zlen (@nil spec_in)) with 0 in Ni; lia|]. pose proof (after_bech32 (fork_coin f) H (i :: ins) outs lt sw ap F2 0 i eq_refl (witness_v0_script h) [] (p2pkh_script h) (u_amount u) (code_wpkh h Lh) ltac:(rewrite p2pkh_len by exact Lh; lia)) as E.
  replace (u_amount u =? 0) with false in E by lia. cbn [fork_coin k_bech32 k_all] in E. unfold after in E. rewrite S. change (k_version (fork_coin f)) with 1 in E.
  destruct (bytes_for_sig_v (fork_coin f) H (tx_of 1 (i :: ins) outs lt) (witness_v0_script h) [] TypeBech32 65 0 (u_amount u) sw) as [b| |]; cbn [bind] in E |- *; [|discriminate|reflexivity]. rewrite E. reflexivity.
Qed.
(** What these packages create can be hashed this way. *)
Theorem fork_created_unsigned : forall H ap vins vouts lt r hexs, hash_ok H -> prefixes_ok ap -> Forall vin_typed vins -> Forall vout_typed vouts -> zlen vins <= 252 -> zlen vouts <= 252 ->
  create_fork H vins vouts lt r ap = Ok hexs -> exists ins outs, Forall2 (spends lt r) vins ins /\ all_paid H ap true [] vouts outs /\ unsigned 1 ins outs lt hexs.
Proof.
  intros H ap vins vouts lt r hexs HH HP TI TO Ni No E. apply fork_create_iff in E; try assumption. apply (created_unsigned 1 (all_paid H ap true [] vouts)) in E; try assumption.
  - intros so. apply (all_paid_holds H ap true []); try assumption; [constructor|cbv; discriminate].
  - intros so. apply all_paid_nonempty; try assumption; [constructor|cbv; discriminate].
Qed.
(** ** C111 *)
(** Inserting and checking single-key signatures in Bitcoin Cash and Bitcoin SV. *)
Lemma fork_item ht t f : ok_item (k_check (fork_coin f)) ht t -> ht = 0x41 -> negb (it_ty t =? TypeBech32) = true -> fork_unlocks (it_u t) (it_sp t) (it_script t) (it_wit t) (it_segwit t).
Proof.
  intros (_ & C & Ty & _ & _ & _ & _ & _ & _ & _ & _ & P) -> NB. exists (it_e t), (it_lock t). split; [exact P|]. apply fork_check_iff in C as (El & C). split; [exact El|]. unfold it_script, it_wit, it_segwit.
  destruct C as [(-> & _ & (h & L & E))|[(-> & Er & (s & Ls & E) & (h & L & E2))|[(T & _)|(T & _)]]].
  - left. exists h. repeat split; assumption.
  - right. exists s, h, (it_redeem t). repeat split; assumption.
  - rewrite T in NB. discriminate NB.
  - rewrite T in Ty. destruct Ty as [T'|[T'|T']]; discriminate.
Qed.
Lemma fork_flow f (address : (bytes -> bytes) -> addr_prefix -> bytes -> list Z -> Prop) : forall H sha decompress ecdsa ap ins outs lt hexs us segwitOn hs sps, hash_ok H -> prefixes_ok ap -> unsigned 1 ins outs lt hexs -> Forall short_redeem us ->
  (forall h a, length h = 20%nat -> is_bytes h -> f H ap h = Ok a <-> address H ap h a) -> (forall k, decompress k <> []) ->
  create_hashes_v (fork_coin f) H hexs us segwitOn ap = Ok hs -> Forall (fun h => th_required h = 0) hs -> length sps = length hs -> Forall good_sp sps ->
  signed_by fork_unlocks 1 ins outs lt us sps segwitOn (insert_signatures_v (fork_coin f) sha hexs (sign_all hs sps) us segwitOn) /\
  forall signed, insert_signatures_v (fork_coin f) sha hexs (sign_all hs sps) us segwitOn = Ok signed ->
    verify_raw_v (fork_coin f) H decompress ecdsa signed us segwitOn ap = Ok (read_valid 0x41 decompress ecdsa hs sps).
Proof.
  intros H sha decompress ecdsa ap ins outs lt hexs us sw hs sps HH HP U D Ad HD E R0 Ls G. destruct (unsigned_facts 1 _ _ _ _ sw ltac:(lia) U) as (_ & _ & F1 & F2 & No & _). pose proof U as (Ni & _).
  assert (One : forall n u th, short_redeem u -> one_v (fork_coin f) H ins outs lt sw ap n u = Ok th <-> fork_hash_for (address H ap) H ap sw ins outs lt n u th) by (intros n u th Du; apply (fork_one f address); assumption).
  destruct (hashes_v_iff (fork_coin f) H ap sw ins outs lt hexs _ _ ltac:(cbn; lia) U One us D hs) as [I1 I2]. apply I1 in E as [EQ P]. specialize (I2 (conj EQ P)).
  assert (P' : pointwise (single_kind (fork_coin f) ins) 0 us hs) by (eapply pointwise_impl; [|exact R0|exact P]; intros k u th Rq W; eapply fork_single; eassumption).
  split.
  - destruct (signed_shape_v (fork_coin f) sha ins outs lt hexs us sw hs sps ltac:(cbn; lia) ltac:(cbn; unfold is_byte; lia) U EQ P' Ls G) as (its & E1 & E2 & E3 & E4 & OK & I'). rewrite I'. change (k_version (fork_coin f)) with 1. apply items_signed; try assumption.
    intros t It. rewrite Forall_forall in OK. pose proof (OK t It) as O. apply (fork_item (k_all (fork_coin f)) t f O eq_refl).
    assert (Fu : exists k, nth_error us k = Some (it_u t) /\ nth_error hs k = Some (it_th t)) by (apply In_nth_error in It as (k & Ek); exists k; subst us hs; rewrite !nth_error_map, Ek; auto).
    destruct Fu as (k & K1 & K2). pose proof (pointwise_nth _ _ _ _ P k _ _ K1 K2) as W. destruct O as (_ & C & _). apply fork_check_iff in C as (El & C). destruct W as (_ & l & i & El' & _ & W).
    destruct C as [(-> & _)|[(-> & _)|[(_ & _ & _ & h & Lh & E)|(-> & _)]]]; try reflexivity. exfalso. assert (l = witness_v0_script h) by congruence. subst l.
    destruct W as [(h' & a & Lh' & X & _)|[(s & h' & a & Ls' & _ & X & _)|(s & r & m & ks & Ls' & X & _)]]; apply (f_equal zlen) in X; rewrite wpkh_len in X by exact Lh; [rewrite p2pkh_len in X by exact Lh'|rewrite p2sh_len in X by exact Ls'|rewrite p2sh_len in X by exact Ls']; lia.
  - intros signed I. eapply (verify_v (fork_coin f)); try eassumption; try (cbn; unfold is_byte; lia). intros lk rd l r ty C. apply fork_check_iff in C as (_ & [(_ & -> & _)|[(_ & Er & _)|[(_ & _ & -> & _)|(_ & Er & _)]]]); try constructor; apply (proj1 (hex_decode_bytes _ _ Er)).
Qed.
Theorem fork_inserted_and_checked : forall K H sha decompress ecdsa ap ins outs lt hexs us segwitOn hs sps, In K [bch; bsv] -> hash_ok H -> prefixes_ok ap -> unsigned 1 ins outs lt hexs -> Forall short_redeem us ->
  (forall k, decompress k <> []) ->
  create_hashes_v K H hexs us segwitOn ap = Ok hs -> Forall (fun h => th_required h = 0) hs -> length sps = length hs -> Forall good_sp sps ->
  signed_by fork_unlocks 1 ins outs lt us sps segwitOn (insert_signatures_v K sha hexs (sign_all hs sps) us segwitOn) /\
  forall signed, insert_signatures_v K sha hexs (sign_all hs sps) us segwitOn = Ok signed ->
    verify_raw_v K H decompress ecdsa signed us segwitOn ap = Ok (read_valid 0x41 decompress ecdsa hs sps).
Proof.
  intros K H sha decompress ecdsa ap ins outs lt hexs us sw hs sps Hin HH HP U D HD E R0 Ls G.
  destruct Hin as [<-|[<-|[]]]; [apply (fork_flow cash_address shows_cash)|apply (fork_flow base58_address shows_base58)]; try assumption; intros h a L B; apply fork_addresses; assumption.
Qed.
(** ** C112 *)
Theorem cxc_hashes_iff : forall H ap ins outs lt hexs us segwitOn hs, hash_ok H -> prefixes_ok ap -> unsigned 1 ins outs lt hexs -> Forall short_redeem us ->
  (create_hashes_v cxc H hexs us segwitOn ap = Ok hs <-> zlen us = zlen ins /\ pointwise (cxc_hash_for H ap segwitOn ins outs lt) 0 us hs).
Proof.
  intros H ap ins outs lt hexs us sw hs HH HP U D. destruct (unsigned_facts 1 _ _ _ _ sw ltac:(lia) U) as (_ & _ & F1 & F2 & No & _). pose proof U as (Ni & _).
  eapply hashes_v_iff; try exact D; try exact U; try (cbn; lia). intros n u th Du. apply cxc_one; assumption.
Qed.
Theorem cxc_inserted_and_checked : forall H sha decompress ecdsa ap ins outs lt hexs us segwitOn hs sps, hash_ok H -> prefixes_ok ap -> unsigned 1 ins outs lt hexs -> Forall short_redeem us ->
  (forall k, decompress k <> []) ->
  create_hashes_v cxc H hexs us segwitOn ap = Ok hs -> Forall (fun h => th_required h = 0) hs -> length sps = length hs -> Forall good_sp sps ->
  signed_by cxc_unlocks 1 ins outs lt us sps segwitOn (insert_signatures_v cxc sha hexs (sign_all hs sps) us segwitOn) /\
  forall signed, insert_signatures_v cxc sha hexs (sign_all hs sps) us segwitOn = Ok signed ->
    verify_raw_v cxc H decompress ecdsa signed us segwitOn ap = Ok (read_valid 1 decompress ecdsa hs sps).
Proof.
  intros H sha decompress ecdsa ap ins outs lt hexs us sw hs sps HH HP U D HD E R0 Ls G. destruct (unsigned_facts 1 _ _ _ _ sw ltac:(lia) U) as (_ & _ & F1 & F2 & No & _). pose proof U as (Ni & _).
  assert (One : forall n u th, short_redeem u -> one_v cxc H ins outs lt sw ap n u = Ok th <-> cxc_hash_for H ap sw ins outs lt n u th) by (intros n u th Du; apply cxc_one; assumption).
  destruct (hashes_v_iff cxc H ap sw ins outs lt hexs _ _ ltac:(cbn; lia) U One us D hs) as [I1 I2]. apply I1 in E as [EQ P]. specialize (I2 (conj EQ P)).
  assert (P' : pointwise (single_kind cxc ins) 0 us hs) by (eapply pointwise_impl; [|exact R0|exact P]; intros k u th Rq W; eapply cxc_single; eassumption).
  split.
  - destruct (signed_shape_v cxc sha ins outs lt hexs us sw hs sps ltac:(cbn; lia) ltac:(cbn; unfold is_byte; lia) U EQ P' Ls G) as (its & E1 & E2 & E3 & E4 & OK & I'). rewrite I'. apply items_signed; try assumption.
    intros t It. rewrite Forall_forall in OK. destruct (OK t It) as (_ & C & Ty & _ & _ & _ & _ & _ & _ & _ & _ & Pu). exists (it_e t), (it_lock t), (it_redeem t). split; [exact Pu|]. apply cxc_check_iff in C as (El & Er & C). split; [exact El|]. split; [exact Er|]. unfold it_script, it_wit, it_segwit.
    destruct C as [(-> & _ & (h & tl & L & Lt & E))|[(-> & (s & tl & Ls' & Lt & E) & (h & L & Eh))|[(-> & _ & (h & L & E))|(T & _)]]].
    + left. exists h, tl. repeat split; assumption.
    + right. left. exists s, tl, h. repeat split; assumption.
    + right. right. exists h. repeat split; assumption.
    + rewrite T in Ty. destruct Ty as [T'|[T'|T']]; discriminate.
  - intros signed I. eapply (verify_v cxc); try eassumption; try (cbn; unfold is_byte; lia). intros lk rd l r ty C. apply cxc_check_iff in C as (_ & Er & _). apply (proj1 (hex_decode_bytes _ _ Er)).
Qed.
(** ** C113 *)
Theorem zen_hashes_iff : forall H ap ins outs lt hexs us segwitOn hs, hash_ok H -> prefixes_ok ap -> unsigned 1 ins outs lt hexs -> Forall short_lock us ->
  (create_hashes_v zen H hexs us segwitOn ap = Ok hs <-> zlen us = zlen ins /\ pointwise (zen_hash_for H ap ins outs lt) 0 us hs).
Proof.
  intros H ap ins outs lt hexs us sw hs HH HP U D. destruct (unsigned_facts 1 _ _ _ _ sw ltac:(lia) U) as (_ & _ & F1 & F2 & No & _). pose proof U as (Ni & _).
  eapply hashes_v_iff; try exact D; try exact U; try (cbn; lia). intros n u th Du. apply zen_one; assumption.
Qed.
Theorem zen_inserted_and_checked : forall H sha decompress ecdsa ap ins outs lt hexs us segwitOn hs sps, hash_ok H -> prefixes_ok ap -> unsigned 1 ins outs lt hexs -> Forall short_lock us ->
  (forall k, decompress k <> []) ->
  create_hashes_v zen H hexs us segwitOn ap = Ok hs -> length sps = length hs -> Forall good_sp sps ->
  exists scripts signed, Forall2 (pushes 1) sps scripts /\
    insert_signatures_v zen sha hexs (sign_all hs sps) us segwitOn = Ok signed /\
    signed = hex_encode (consensus_tx 1 (map (fun p => with_script (fst p) (snd p)) (combine ins scripts)) outs lt) /\
    verify_raw_v zen H decompress ecdsa signed us segwitOn ap = Ok (read_valid 1 decompress ecdsa hs sps).
Proof.
  intros H sha decompress ecdsa ap ins outs lt hexs us sw hs sps HH HP U D HD E Ls G. destruct (unsigned_facts 1 _ _ _ _ sw ltac:(lia) U) as (_ & _ & F1 & F2 & No & _). pose proof U as (Ni & _).
  assert (One : forall n u th, short_lock u -> one_v zen H ins outs lt sw ap n u = Ok th <-> zen_hash_for H ap ins outs lt n u th) by (intros n u th Du; apply zen_one; assumption).
  destruct (hashes_v_iff zen H ap sw ins outs lt hexs _ _ ltac:(cbn; lia) U One us D hs) as [I1 I2]. apply I1 in E as [EQ P]. specialize (I2 (conj EQ P)).
  assert (P' : pointwise (single_kind zen ins) 0 us hs) by (eapply (pointwise_impl _ _ (fun _ => True)); [|apply Forall_forall; auto|exact P]; intros k u th _ W; eapply zen_single; eassumption).
  destruct (signed_shape_v zen sha ins outs lt hexs us sw hs sps ltac:(cbn; lia) ltac:(cbn; unfold is_byte; lia) U EQ P' Ls G) as (its & E1 & E2 & E3 & E4 & OK & I').
  assert (T : Forall (fun t => it_ty t = TypeP2PKH) its) by (eapply Forall_impl; [|exact OK]; intros t (_ & C & _); change (k_check zen) with zen_check in C; unfold zen_check in C; congruence).
  assert (SG : segwit_of_items its = false) by (clear - T; induction T as [|t its T F IH]; [reflexivity|]; unfold segwit_of_items in *; cbn [existsb]; rewrite IH; unfold it_segwit; rewrite T; reflexivity).
  rewrite SG in I'. cbn [andb] in I'.
  assert (M : map (fun p => with_script (fst p) (snd p)) (combine ins (map it_e its)) = map (fun t => with_script (it_in t) (it_script t)) its).
  { rewrite <- E1. clear - T. induction T as [|t its T F IH]; [reflexivity|]. cbn [map combine fst snd]. rewrite IH. unfold it_script. rewrite T. reflexivity. }
  exists (map it_e its). eexists. split; [|split; [exact I'|split]].
  - rewrite <- E4. clear - OK. induction OK as [|t its O F IH]; cbn [map]; constructor; [|exact IH]. destruct O as (_ & _ & _ & _ & _ & _ & _ & _ & _ & _ & _ & Pu). exact Pu.
  - rewrite M. f_equal. 
  - eapply (verify_v zen); try eassumption; try (cbn; unfold is_byte; lia). intros lk rd l r ty C. change (k_check zen) with zen_check in C. unfold zen_check in C. injection C as _ <- _. constructor.
Qed.
(** ** Examples *)
(** One transaction and its hexadecimal text; unlocking requests of several kinds; the steps succeed. *)
Definition ex_fins : list spec_in := [{| s_txid := repeat 1 32; s_vout := 1; s_script := []; s_seq := 5 |}; {| s_txid := repeat 77 32; s_vout := 0; s_script := []; s_seq := 6 |}].
Definition ex_fouts : list spec_out := [{| s_amount := 9; s_lock := p2pkh_script (repeat 4 20) |}].
Definition ex_fhex : list Z := hex_encode (consensus_tx 1 ex_fins ex_fouts 3).
Example unsigned_example : unsigned 1 ex_fins ex_fouts 3 ex_fhex.
Proof.
  split; [cbv; split; discriminate|]. split; [|split; [split|split]].
  - apply Forall_forall. intros s Hs. assert (Q : exists c, is_byte c /\ s_txid s = repeat c 32 /\ s_script s = []) by (destruct Hs as [<-|[<-|[]]]; [exists 1|exists 77]; (split; [unfold is_byte; lia|split; reflexivity])).
    destruct Q as (c & B & -> & ->). split; [reflexivity|]. split; [|reflexivity]. apply Forall_forall. intros x Hx. apply repeat_spec in Hx. subst x. exact B.
  - cbv; split; discriminate.
  - constructor; [|constructor]. split; [cbv; split; discriminate || reflexivity|]. split; [|cbv; discriminate]. apply Forall_forall. intros x Hx. cbn in Hx. unfold is_byte. repeat (destruct Hx as [<- |Hx]; [lia|]). destruct Hx.
  - constructor; [discriminate|constructor].
  - reflexivity.
Qed.
Definition ex_unlock (lock redeem : bytes) (ht : Z) : unlock := {| u_lock := hex_encode lock; u_redeem := hex_encode redeem; u_amount := 5; u_sigtype := ht |}.
Definition ex_fus (ht : Z) (tail : bytes) : list unlock := [ex_unlock (p2pkh_script (repeat 7 20) ++ tail) [] ht; ex_unlock (p2sh_script (repeat 8 20)) (witness_v0_script (repeat 3 20)) ht].
Definition ex_fsps : list sigpub := [ex_sp 1; ex_sp 200].
Definition flows (K : coin) (us : list unlock) : bool :=
  match create_hashes_v K toy_hash ex_fhex us true btc_main with
  | Ok hs => match insert_signatures_v K toy_hash ex_fhex (sign_all hs ex_fsps) us true with
             | Ok signed => match verify_raw_v K toy_hash (fun k => 4 :: tl k) ex_ecdsa signed us true btc_main with Ok b => b && (zlen hs =? 2) | _ => false end
             | _ => false
             end
  | _ => false
  end.
Example fork_flow_example : flows bch (ex_fus 0x41 []) = true /\ flows bsv (ex_fus 0x41 []) = true. Proof. split; vm_compute; reflexivity. Qed.
Example cxc_flow_example : flows cxc (ex_fus 1 (repeat 9 30)) = true. Proof. vm_compute; reflexivity. Qed.
(** The second request is for a pay-to-script-hash output; it is signed like a key-hash one. *)
Example zen_flow_example : flows zen (ex_fus 1 (repeat 9 30)) = true. Proof. vm_compute; reflexivity. Qed.
Example fork_panic_example : create_hashes_v bsv toy_hash ex_fhex [ex_unlock (witness_v0_script (repeat 7 20)) [] 0x41; ex_unlock (p2pkh_script (repeat 7 20)) [] 0x41] true btc_main = Panic.
Proof. vm_compute; reflexivity. Qed.
Print Assumptions fork_hashes_iff.
Print Assumptions shown_cash_decodes.
Print Assumptions fork_witness_panics.
Print Assumptions fork_created_unsigned.
Print Assumptions fork_inserted_and_checked.
Print Assumptions cxc_hashes_iff.
Print Assumptions cxc_inserted_and_checked.
Print Assumptions zen_hashes_iff.
Print Assumptions zen_inserted_and_checked.
