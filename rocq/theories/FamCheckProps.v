(** C151: exactly when checking the signatures of a Bitcoin-family transaction crashes (single-key scripts). *)
From Coq Require Import String ZArith List Bool Lia ZifyBool ZifyNat.
From Verif Require Import Go GoFacts GoFacts2 Rd Base58CheckSpec Base58CheckProofs Bech32Model SigModel SigDerProps BtcModel BtcSpec BtcProofs BtcTxProofs BtcSigProps BtcVerModel BtcVerProps
  BtcDecodeProps FamModel FamProofs FamSigProofs FamSigProps FamPanicProps Toy.
Import ListNotations.
Open Scope Z_scope.
Ltac Zify.zify_post_hook ::= idtac.

(** ** Specification *)
(** The signature and key an input shows: none without a script, otherwise those read from its script or witness. *)
Definition input_shows (i : txin) (sp : sigpub) : Prop :=
  (in_type i = TypeEmpty /\ sp = no_sigpub) \/
  (In (in_type i) [TypeP2PKH; TypeP2WPKH; TypeBech32] /\ exists t, decode_script (in_sig i) = Ok (sp_sig sp, sp_pub sp, t)).
(** The message of an entry. *)
Definition message (th : txhash) : bytes := match hex_decode (th_hash th) with Ok h => h | _ => [] end.
Definition signature_valid (decompress : bytes -> bytes) (ecdsa : bytes -> bytes -> bytes -> bool) (th : txhash) (sp : sigpub) : Prop :=
  decompress (sp_pub sp) <> [] /\ ecdsa (tl (decompress (sp_pub sp))) (message th) (sp_sig sp) = true.
(** All inputs can be read, and the first key that is not one with a valid signature is no point of the curve. *)
Definition bad_key_reached (decompress : bytes -> bytes) (ecdsa : bytes -> bytes -> bytes -> bool) (ins : list txin) (ths : list txhash) : Prop :=
  exists sps before sp after thb th tha, Forall2 input_shows ins sps /\ sps = before ++ sp :: after /\ ths = thb ++ th :: tha /\
    Forall2 (signature_valid decompress ecdsa) thb before /\ decompress (sp_pub sp) = [].
(** The hashes of the transaction, its scripts left out. *)
Definition single (th : txhash) : Prop := th_required th = 0 /\ exists n, th_normal th = Some n /\ n_sp n = no_sigpub.

(** ** Lemmas *)
Lemma taken_script_bytes m f ty pub sig multi : taken_script m f (ty, pub, sig, multi) -> is_bytes f -> is_bytes sig.
Proof. intros T B. inversion T; subst; try constructor. apply is_bytes_cons in B as [_ B]. exact B. Qed.
Lemma taken_ins_bytes m ib ins : Forall2 (taken_in m) ib ins -> is_bytes (concat ib) -> Forall (fun i => is_bytes (in_sig i)) ins.
Proof.
  induction 1 as [|w i ib ins T F IH]; intros B; [constructor|]. cbn [concat] in B. apply is_bytes_app in B as [Bw B]. constructor; [|auto]. inversion T; subst. cbn [in_sig].
  apply is_bytes_app in Bw as [_ Bw]. apply is_bytes_app in Bw as [_ Bw]. apply is_bytes_app in Bw as [Bw _]. eapply taken_script_bytes; eassumption.
Qed.
Lemma taken_wits_bytes sw ins wb ins' : taken_wits sw ins wb ins' -> is_bytes (concat wb) -> Forall (fun i => is_bytes (in_sig i)) ins -> Forall (fun i => is_bytes (in_sig i)) ins'.
Proof.
  induction 1 as [|i w i' l ws l' T W IH]; intros B F; [constructor|]. cbn [concat] in B. apply is_bytes_app in B as [Bw B]. apply Forall_cons_iff in F as [Fi F]. constructor; [|auto].
  inversion T; subst; cbn [with_sig with_multi in_sig]; try assumption. apply is_bytes_cons in Bw as [_ Bw]. exact Bw.
Qed.
Lemma decoded_sig_bytes v b sw t : is_bytes b -> 0 <= v < 2 ^ 32 -> decode_v v b sw = Ok t -> Forall (fun i => is_bytes (in_sig i)) (tx_vins t).
Proof.
  intros B V E. apply btc_decode_iff in E as (m & ib & ins & ob & outs & wb & ins' & lt & N1 & N2 & Fi & _ & W & _ & Eb & ->); [|assumption..]. cbn [tx_vins]. subst b.
  apply is_bytes_app in B as [_ B]. apply is_bytes_app in B as [_ B]. apply is_bytes_cons in B as [_ B]. apply is_bytes_app in B as [Bi B]. apply is_bytes_cons in B as [_ B]. apply is_bytes_app in B as [_ B]. apply is_bytes_app in B as [Bw _].
  pose proof (taken_ins_bytes _ _ _ Fi Bi) as Fs. destruct m; [eapply taken_wits_bytes; eassumption|]. destruct W as [_ ->]. exact Fs.
Qed.
Definition with_sp (th : txhash) (sp : sigpub) : Prop := th_required th = 0 /\ exists n, th_normal th = Some n /\ n_sp n = sp.
Lemma fill_one_cases i th : is_bytes (in_sig i) -> In (in_type i) [TypeEmpty; TypeP2PKH; TypeP2WPKH; TypeBech32] -> single th ->
  (fill_one i th = Err /\ forall sp, ~ input_shows i sp) \/ exists sp th', fill_one i th = Ok th' /\ input_shows i sp /\ (forall sp', input_shows i sp' -> sp' = sp) /\ with_sp th' sp /\ message th' = message th.
Proof.
  intros B Ty (R & n & Nn & Sn). unfold fill_one, input_shows.
  assert (C : in_type i = TypeEmpty \/ In (in_type i) [TypeP2PKH; TypeP2WPKH; TypeBech32]) by (destruct Ty as [Q|Q]; [left; auto|right; exact Q]).
  destruct C as [E|E].
  - right. rewrite E. exists no_sigpub, th. cbn [TypeEmpty TypeP2PKH TypeP2WPKH TypeBech32 TypeMultiSig Z.eqb orb]. split; [reflexivity|]. split; [left; auto|]. split; [intros sp' [[_ Q]|[[Q|[Q|[Q|[]]]] _]]; [exact Q|discriminate..]|]. split; [split; [exact R|eauto]|reflexivity].
  - assert (Q : (in_type i =? TypeP2PKH) || (in_type i =? TypeP2WPKH) || (in_type i =? TypeBech32) = true) by (destruct E as [<-|[<-|[<-|[]]]]; reflexivity). rewrite Q.
    assert (NE : in_type i <> TypeEmpty) by (destruct E as [<-|[<-|[<-|[]]]]; discriminate).
    destruct (input_script_accepts_exactly (in_sig i) B) as [NP _]. destruct (decode_script (in_sig i)) as [[[sig pub] t]| |] eqn:D; cbn [bind]; [right|left|contradiction].
    + rewrite Nn. exists {| sp_sig := sig; sp_pub := pub |}. eexists. split; [reflexivity|]. split; [right; split; [exact E|]; exists t; reflexivity|]. split.
      * intros sp' [[W _]|[_ (t' & W)]]; [contradiction|]. destruct sp'. cbn in W. congruence.
      * split; [split; [exact R|eexists; split; reflexivity]|reflexivity].
    + split; [reflexivity|]. intros sp [[W _]|[_ (t' & W)]]; [contradiction|discriminate].
Qed.
Lemma fill_all_cases ins : Forall (fun i => is_bytes (in_sig i)) ins -> Forall (fun i => In (in_type i) [TypeEmpty; TypeP2PKH; TypeP2WPKH; TypeBech32]) ins ->
  forall ths, length ins = length ths -> Forall single ths ->
  (fill_all ins ths = Err /\ forall sps, ~ Forall2 input_shows ins sps) \/
  exists sps ths', fill_all ins ths = Ok ths' /\ Forall2 input_shows ins sps /\ (forall sps', Forall2 input_shows ins sps' -> sps' = sps) /\ Forall2 with_sp ths' sps /\ map message ths' = map message ths.
Proof.
  intros B. induction B as [|i ins Bi B IH]; intros Ty [|th ths] L S; try discriminate L; cbn [fill_all].
  - right. exists [], []. split; [reflexivity|]. split; [constructor|]. split; [intros sps' F; inversion F; reflexivity|]. split; [constructor|reflexivity].
  - apply Forall_cons_iff in Ty as [Ti Ty]. apply Forall_cons_iff in S as [St S]. injection L as L. destruct (fill_one_cases i th Bi Ti St) as [[E N]|(sp & th' & E & Sh & Un & W & M)]; rewrite E; cbn [bind].
    + left. split; [reflexivity|]. intros sps F. inversion F as [|? sp' ? ? Q]; subst. exact (N _ Q).
    + destruct (IH Ty ths L S) as [[E2 N]|(sps & ths' & E2 & F & Un2 & W2 & M2)]; rewrite E2; cbn [bind].
      * left. split; [reflexivity|]. intros sps' F'. inversion F' as [|? ? ? ? _ Q]; subst. exact (N _ Q).
      * right. exists (sp :: sps), (th' :: ths'). split; [reflexivity|]. split; [constructor; assumption|]. split; [|split; [constructor; assumption|cbn [map]; congruence]].
        intros sps' F'. inversion F' as [|? ? ? ? Q1 Q2]; subst. f_equal; auto.
Qed.
Lemma slice_from_one (l : bytes) : l <> [] -> slice_from l 1 = Ok (tl l).
Proof. destruct l; [contradiction|]. intros _. apply slice_from_cons. Qed.
Lemma check_all_cases decompress ecdsa sps : forall ths ths', Forall2 with_sp ths' sps -> map message ths' = map message ths ->
  check_all decompress ecdsa ths' = Panic <-> exists before sp after thb th tha, sps = before ++ sp :: after /\ ths = thb ++ th :: tha /\ Forall2 (signature_valid decompress ecdsa) thb before /\ decompress (sp_pub sp) = [].
Proof.
  induction sps as [|sp sps IH]; intros ths ths' F M.
  - inversion F; subst. cbn [check_all]. split; [discriminate|]. intros ([|x0 l0] & q & after & _ & _ & _ & Q & _); discriminate.
  - inversion F as [|th' ? ths0 ? Wsp F']; subst. destruct Wsp as (R & n & Nn & Sn). destruct ths as [|th ths]; [discriminate|]. cbn [map] in M. injection M as M1 M. cbn [check_all]. unfold check_hash. fold (message th'). rewrite R, Nn, Sn. change (0 =? 0) with true. cbv iota zeta.
    destruct (decompress (sp_pub sp)) as [|c k] eqn:D.
    + split; [intros _|reflexivity]. exists [], sp, sps, [], th, ths. split; [reflexivity|]. split; [reflexivity|]. split; [constructor|]. exact D.
    + rewrite slice_from_cons. cbn [bind]. rewrite M1. destruct (ecdsa k (message th) (sp_sig sp)) eqn:V.
      * rewrite (IH ths ths0 F' M). split.
        -- intros (before & s & after & thb & t & tha & -> & -> & G & Dn). exists (sp :: before), s, after, (th :: thb), t, tha. split; [reflexivity|]. split; [reflexivity|]. split; [|exact Dn]. constructor; [|exact G]. unfold signature_valid. rewrite D. split; [discriminate|exact V].
        -- intros ([|s0 before] & s & after & thb & t & tha & Q & Q2 & G & Dn); injection Q as <- Q; [congruence|]. inversion G as [|t0 ? thb' ? _ G']; subst. injection Q2 as <- Q2. exists before, s, after, thb', t, tha. auto.
      * split; [discriminate|]. intros ([|s0 before] & s & after & thb & t & tha & Q & Q2 & G & Dn); injection Q as <- Q; [congruence|]. exfalso. inversion G as [|t0 ? thb' ? [_ G0] G']; subst. injection Q2 as <- Q2. rewrite D in G0. cbn [tl] in G0. congruence.
Qed.
Lemma hashes_loop_single K kind H sw ap : reads_kinds (k_check K) kind -> forall us t i ths, Forall (fun u => forall r, ~ kind u SharedKeys r) us -> hashes_loop_v K H t sw ap i us = Ok ths -> Forall single ths /\ length ths = length us.
Proof.
  intros R us. induction us as [|u us IH]; intros t i ths N E; cbn [hashes_loop_v] in E; [injection E as <-; split; [constructor|reflexivity]|]. cbv zeta in E. apply Forall_cons_iff in N as [Nu N].
  apply bind_ok in E as ([[l r] ty] & C & E). apply bind_ok in E as (b & _ & E). apply bind_ok in E as (th & Et & E). apply bind_ok in E as (rest & Er & E). injection E as <-. destruct (IH _ _ _ N Er) as [F L]. split; [|cbn [length]; congruence]. constructor; [|exact F].
  destruct (kind_cases (k_check K) kind u R) as [[Q _]|(l' & r' & k & Q & Kk & _)]; [congruence|]. assert (ty = ty_of k) by congruence. subst ty. unfold new_txhash_v in Et. cbv zeta in Et.
  destruct k; cbn [ty_of TypeP2PKH TypeP2WPKH TypeBech32 TypeMultiSig Z.eqb Pos.eqb] in Et.
  - apply bind_ok in Et as (? & _ & Et). apply bind_ok in Et as (? & _ & Et). injection Et as <-. split; [reflexivity|]. eexists. split; reflexivity.
  - apply bind_ok in Et as (? & _ & Et). apply bind_ok in Et as (? & _ & Et). injection Et as <-. split; [reflexivity|]. eexists. split; reflexivity.
  - destruct (k_bech32 K); [|discriminate]. apply bind_ok in Et as (? & _ & Et). apply bind_ok in Et as (? & _ & Et). injection Et as <-. split; [reflexivity|]. eexists. split; reflexivity.
  - exfalso. exact (Nu _ Kk).
Qed.
Definition no_multi_input (version : Z) (txHex : list Z) (segwitOn : bool) : Prop :=
  forall b t, hex_decode txHex = Ok b -> decode_v version b segwitOn = Ok t -> Forall (fun i => In (in_type i) [TypeEmpty; TypeP2PKH; TypeP2WPKH; TypeBech32]) (tx_vins t).
Lemma verify_cases K kind H decompress ecdsa txHex us sw ap : reads_kinds (k_check K) kind -> 0 <= k_version K < 2 ^ 32 ->
  Forall (fun u => forall r, ~ kind u SharedKeys r) us -> no_multi_input (k_version K) txHex sw ->
  verify_raw_v K H decompress ecdsa txHex us sw ap = Panic <->
  decoder_crash (k_version K) txHex sw \/
  exists b t, hex_decode txHex = Ok b /\ decode_v (k_version K) b sw = Ok t /\ zlen (tx_vins t) = zlen us /\
    (hashes_for_sig_v K H (clone_empty t) us sw ap = Panic \/ exists ths, hashes_for_sig_v K H (clone_empty t) us sw ap = Ok ths /\ bad_key_reached decompress ecdsa (tx_vins t) ths).
Proof.
  intros R V N NM. unfold verify_raw_v, decoder_crash. pose proof (hex_decode_not_panic txHex) as HN. destruct (hex_decode txHex) as [b| |] eqn:E; cbn [bind]; [| |contradiction].
  2:{ split; [discriminate|]. intros [(? & Q & _)|(? & ? & Q & _)]; discriminate. }
  destruct (decode_v (k_version K) b sw) as [t| |] eqn:D; cbn [bind].
  - assert (X : forall P Q : Prop, ((exists b0, Ok b = Ok b0 /\ decode_v (k_version K) b0 sw = Panic) \/ exists b0 t0, Ok b = Ok b0 /\ decode_v (k_version K) b0 sw = Ok t0 /\ zlen (tx_vins t0) = zlen us /\
        (hashes_for_sig_v K H (clone_empty t0) us sw ap = Panic \/ exists ths, hashes_for_sig_v K H (clone_empty t0) us sw ap = Ok ths /\ bad_key_reached decompress ecdsa (tx_vins t0) ths)) <->
      (zlen (tx_vins t) = zlen us /\ (hashes_for_sig_v K H (clone_empty t) us sw ap = Panic \/ exists ths, hashes_for_sig_v K H (clone_empty t) us sw ap = Ok ths /\ bad_key_reached decompress ecdsa (tx_vins t) ths))).
    { intros _ _. split; [|intros Q; right; exists b, t; auto]. intros [(b0 & Q & Q2)|(b0 & t0 & Q & Q2 & Q3)]; assert (b0 = b) by congruence; subst b0; [congruence|]. assert (t0 = t) by congruence. subst t0. exact Q3. }
    rewrite (X True True). clear X. destruct (zlen (tx_vins t) =? zlen us) eqn:Lz; cbn [negb]; [|split; [discriminate|lia]]. assert (Lv : zlen (tx_vins t) = zlen us) by lia.
    destruct (hashes_for_sig_v K H (clone_empty t) us sw ap) as [ths| |] eqn:Hh; cbn [bind].
    + assert (S : Forall single ths /\ length ths = length us). { unfold hashes_for_sig_v in Hh. destruct (_ || _) in Hh; [discriminate|]. destruct (_ =? _) in Hh; [discriminate|]. eapply hashes_loop_single; eassumption. } destruct S as [S Ls].
      assert (Q : (exists ths0, Ok ths = Ok ths0 /\ bad_key_reached decompress ecdsa (tx_vins t) ths0) <-> bad_key_reached decompress ecdsa (tx_vins t) ths) by (split; [intros (x & Q & W); assert (x = ths) by congruence; subst x; exact W|eauto]).
      assert (Q' : zlen (tx_vins t) = zlen us /\ (Ok ths = Panic \/ exists ths0, Ok ths = Ok ths0 /\ bad_key_reached decompress ecdsa (tx_vins t) ths0) <-> bad_key_reached decompress ecdsa (tx_vins t) ths) by (rewrite Q; split; [intros [_ [W|W]]; [discriminate|exact W]|auto]). rewrite Q'. clear Q Q'.
      destruct (fill_all_cases (tx_vins t) (decoded_sig_bytes _ _ _ _ (hex_of _ _ E) V D) (NM b t E D) ths) as [[Ef Nf]|(sps & ths' & Ef & F & Un & W & M)]; [unfold zlen in Lv; lia|exact S| |]; rewrite Ef.
      * split; [discriminate|]. intros (sps & before & sp & after & thb & th & tha & F & _). exfalso. exact (Nf _ F).
      * rewrite (check_all_cases decompress ecdsa sps ths ths' W M). unfold bad_key_reached. split.
        -- intros (before & sp & after & thb & th & tha & Q). exists sps, before, sp, after, thb, th, tha. split; [exact F|exact Q].
        -- intros (sps' & before & sp & after & thb & th & tha & F' & Q). rewrite (Un _ F') in Q. exists before, sp, after, thb, th, tha. exact Q.
    + split; [discriminate|]. intros [_ [Q|(? & Q & _)]]; discriminate.
    + split; auto.
  - split; [discriminate|]. intros [(b0 & Q & Q2)|(b0 & t0 & Q & Q2 & _)]; congruence.
  - split; [intros _; left; eauto|reflexivity].
Qed.
Lemma clone_hashing K H t us sw ap : hash_ok H -> prefixes_ok ap -> addresses K H ap -> 
  Forall (fun u => k_check K (u_lock u) (u_redeem u) <> Panic /\ forall l r ty, k_check K (u_lock u) (u_redeem u) = Ok (l, r, ty) -> sliceable K l r ty) us ->
  hashes_for_sig_v K H (clone_empty t) us sw ap <> Panic.
Proof.
  intros HH HP A F P. unfold hashes_for_sig_v in P. destruct ((zlen (tx_vins (clone_empty t)) =? 0) || negb (zlen (tx_vins (clone_empty t)) =? zlen us)) eqn:Q; [discriminate|]. destruct (_ =? _) in P; [discriminate|]. apply orb_false_iff in Q as [_ Q]. revert P. apply hashes_loop_fine; try assumption. unfold zlen in Q. lia.
Qed.
Definition slices (K : coin) (u : unlock) : Prop := k_check K (u_lock u) (u_redeem u) <> Panic /\ forall l r ty, k_check K (u_lock u) (u_redeem u) = Ok (l, r, ty) -> sliceable K l r ty.
Lemma btc_slices u : slices btc_coin u.
Proof.
  split; [apply check_script_fine|]. intros l r ty E. apply check_script_iff in E as (El & Er & C). apply hex_of in El, Er. split; [exact El|]. split; [exact Er|].
  destruct C as [(-> & _ & h & L & ->)|[(-> & (s & Ls & ->) & h & L & ->)|[(-> & _ & h & L & ->)|(-> & _ & L & _)]]].
  - left. rewrite p2pkh_len by exact L. lia.
  - right; left. rewrite p2sh_len, wpkh_len by assumption. lia.
  - right; right; left. rewrite wpkh_len by assumption. repeat split; lia.
  - right; right; right. lia.
Qed.
Lemma cxc_slices u : slices cxc u.
Proof.
  split; [apply cxc_check_fine|]. intros l r ty E. apply cxc_check_iff in E as (El & Er & C). apply hex_of in El, Er. split; [exact El|]. split; [exact Er|].
  destruct C as [(-> & _ & h & t & L & _ & ->)|[(-> & (s & t & Ls & _ & ->) & h & L & ->)|[(-> & _ & h & L & ->)|(-> & _ & L & _)]]].
  - left. rewrite zlen_app, p2pkh_len by exact L. pose proof (zlen_nonneg t). lia.
  - right; left. rewrite zlen_app, p2sh_len, wpkh_len by assumption. pose proof (zlen_nonneg t). lia.
  - right; right; left. rewrite wpkh_len by assumption. repeat split; lia.
  - right; right; right. lia.
Qed.
Lemma fork_slices K u : k_check K = fork_check -> ~ native_witness u -> slices K u.
Proof.
  intros Ck Nu. unfold slices. rewrite Ck. split; [apply fork_check_fine|]. intros l r ty E. apply fork_check_iff in E as (El & C).
  pose proof (hex_of _ _ El) as Bl. split; [exact Bl|]. destruct C as [(-> & -> & h & L & ->)|[(-> & Er & (s & Ls & ->) & h & L & ->)|[(-> & _ & -> & h & L & ->)|(-> & Er & _ & L & _)]]].
  - split; [constructor|]. left. rewrite p2pkh_len by exact L. lia.
  - split; [exact (hex_of _ _ Er)|]. right; left. rewrite p2sh_len, wpkh_len by assumption. lia.
  - exfalso. apply Nu. exists h. auto.
  - split; [exact (hex_of _ _ Er)|]. right; right; right. lia.
Qed.
Lemma zen_slices u : 23 <= zlen (LiteModel.hex_prefix (u_lock u)) -> slices zen u.
Proof.
  intros L. unfold slices. change (k_check zen) with zen_check. unfold zen_check. split; [discriminate|]. intros l r ty E. injection E as <- <- <-. split; [apply hex_prefix_bytes|]. split; [constructor|]. left. lia.
Qed.
Lemma btc_coin_checks H decompress ecdsa txHex us sw ap : verify_raw H decompress ecdsa txHex us sw ap = verify_raw_v btc_coin H decompress ecdsa txHex us sw ap.
Proof.
  unfold verify_raw, verify_raw_v. destruct (hex_decode txHex) as [b| |]; cbn [bind]; try reflexivity. change (decode_tx b sw) with (decode_v (k_version btc_coin) b sw). destruct (decode_v _ b sw) as [t| |]; cbn [bind]; try reflexivity.
  destruct (negb _); [reflexivity|]. replace (hashes_for_sig H (clone_empty t) us sw ap) with (hashes_for_sig_v btc_coin H (clone_empty t) us sw ap); [reflexivity|]. unfold hashes_for_sig, hashes_for_sig_v. rewrite btc_coin_loop. reflexivity.
Qed.
Lemma verify_fine K kind H decompress ecdsa txHex us sw ap : reads_kinds (k_check K) kind -> 0 <= k_version K < 2 ^ 32 -> hash_ok H -> prefixes_ok ap -> addresses K H ap ->
  Forall (slices K) us -> Forall (fun u => forall r, ~ kind u SharedKeys r) us -> no_multi_input (k_version K) txHex sw ->
  verify_raw_v K H decompress ecdsa txHex us sw ap = Panic <->
  decoder_crash (k_version K) txHex sw \/
  exists b t ths, hex_decode txHex = Ok b /\ decode_v (k_version K) b sw = Ok t /\ zlen (tx_vins t) = zlen us /\ hashes_for_sig_v K H (clone_empty t) us sw ap = Ok ths /\ bad_key_reached decompress ecdsa (tx_vins t) ths.
Proof.
  intros R V HH HP A F N NM. rewrite (verify_cases K kind H decompress ecdsa txHex us sw ap R V N NM). split; (intros [X|X]; [left; exact X|right]).
  - destruct X as (b & t & E & D & L & [P|(ths & Hh & B)]); [exfalso; exact (clone_hashing K H t us sw ap HH HP A F P)|]. exists b, t, ths. auto.
  - destruct X as (b & t & ths & E & D & L & Hh & B). exists b, t. repeat (split; [assumption|]). right. eauto.
Qed.

(** ** C151 *)
(** btcTransaction and its twins: no script to be unlocked and no input is a shared-key one. *)
Theorem btc_check_crashes_exactly : forall H decompress ecdsa txHex us segwitOn ap, hash_ok H -> prefixes_ok ap ->
  Forall (fun u => forall redeem, ~ btc_kind u SharedKeys redeem) us -> no_multi_input 2 txHex segwitOn ->
  verify_raw H decompress ecdsa txHex us segwitOn ap = Panic <->
  decoder_crash 2 txHex segwitOn \/
  exists b t ths, hex_decode txHex = Ok b /\ decode_tx b segwitOn = Ok t /\ zlen (tx_vins t) = zlen us /\ hashes_for_sig H (clone_empty t) us segwitOn ap = Ok ths /\ bad_key_reached decompress ecdsa (tx_vins t) ths.
Proof.
  intros H decompress ecdsa txHex us sw ap HH HP N NM. rewrite btc_coin_checks. assert (Q : forall t, hashes_for_sig H t us sw ap = hashes_for_sig_v btc_coin H t us sw ap) by (intros t; unfold hashes_for_sig, hashes_for_sig_v; rewrite btc_coin_loop; reflexivity).
  rewrite (verify_fine btc_coin btc_kind H decompress ecdsa txHex us sw ap); try assumption; [|apply btc_reads|cbn; lia|apply base58_addresses; auto|apply Forall_forall; intros u _; apply btc_slices].
  change (k_version btc_coin) with 2. split; (intros [X|X]; [left; exact X|right]); destruct X as (b & t & ths & E & D & L & Hh & B); exists b, t, ths; [rewrite Q|rewrite <- Q]; auto.
Qed.
(** The forks; bitcoincashTransaction and bitcoinsvTransaction without witness scripts to be unlocked, zencashTransaction with locking scripts of 23 bytes. *)
Theorem fam_check_crashes_exactly : forall H decompress ecdsa txHex us segwitOn ap K kind, hash_ok H -> prefixes_ok ap ->
  (K = cxc /\ kind = cxc_kind) \/ (In K [bch; bsv] /\ kind = fork_kind /\ Forall (fun u => ~ native_witness u) us) \/ (K = zen /\ kind = zen_kind /\ Forall (fun u => 23 <= zlen (LiteModel.hex_prefix (u_lock u))) us) ->
  Forall (fun u => forall redeem, ~ kind u SharedKeys redeem) us -> no_multi_input 1 txHex segwitOn ->
  verify_raw_v K H decompress ecdsa txHex us segwitOn ap = Panic <->
  decoder_crash 1 txHex segwitOn \/
  exists b t ths, hex_decode txHex = Ok b /\ decode_v 1 b segwitOn = Ok t /\ zlen (tx_vins t) = zlen us /\ hashes_for_sig_v K H (clone_empty t) us segwitOn ap = Ok ths /\ bad_key_reached decompress ecdsa (tx_vins t) ths.
Proof.
  intros H decompress ecdsa txHex us sw ap K kind HH HP C N NM.
  assert (X : k_version K = 1 /\ reads_kinds (k_check K) kind /\ addresses K H ap /\ Forall (slices K) us).
  { destruct C as [(-> & ->)|[(Hin & -> & F)|(-> & -> & F)]].
    - split; [reflexivity|]. split; [apply cxc_reads|]. split; [apply base58_addresses; auto|]. apply Forall_forall. intros u _. apply cxc_slices.
    - destruct Hin as [<-|[<-|[]]]; (split; [reflexivity|]; split; [apply fork_reads|]; split; [first [apply cash_addresses; assumption | apply base58_addresses; auto]|]; eapply Forall_impl; [|exact F]; intros u; apply fork_slices; reflexivity).
    - split; [reflexivity|]. split; [apply zen_reads|]. split; [apply base58_addresses; auto|]. eapply Forall_impl; [|exact F]. intros u. apply zen_slices. }
  destruct X as (V & R & A & F). rewrite <- V in *. apply (verify_fine K kind); try assumption. rewrite V. lia.
Qed.
(** When no key decompresses to nothing, the check of single-key scripts crashes only where the transaction cannot be decoded without a crash. *)
Theorem sound_keys_never_crash_check : forall H decompress ecdsa txHex us segwitOn ap, hash_ok H -> prefixes_ok ap ->
  Forall (fun u => forall redeem, ~ btc_kind u SharedKeys redeem) us -> no_multi_input 2 txHex segwitOn -> (forall k, decompress k <> []) ->
  verify_raw H decompress ecdsa txHex us segwitOn ap = Panic <-> decoder_crash 2 txHex segwitOn.
Proof.
  intros H decompress ecdsa txHex us sw ap HH HP N NM D. rewrite btc_check_crashes_exactly by assumption. split; [|auto]. intros [X|(b & t & ths & _ & _ & _ & _ & (? & ? & sp & ? & ? & ? & ? & _ & _ & _ & _ & Q))]; [exact X|]. exfalso. exact (D _ Q).
Qed.
(** Checking a transaction nobody has signed crashes when the missing key decompresses to nothing; one would expect the answer no. *)
Theorem unsigned_check_crashes : forall H decompress ecdsa txHex us segwitOn ap b t ths, hash_ok H -> prefixes_ok ap ->
  Forall (fun u => forall redeem, ~ btc_kind u SharedKeys redeem) us -> hex_decode txHex = Ok b -> decode_tx b segwitOn = Ok t ->
  Forall (fun i => in_type i = TypeEmpty) (tx_vins t) -> zlen (tx_vins t) = zlen us -> hashes_for_sig H (clone_empty t) us segwitOn ap = Ok ths -> decompress [] = [] ->
  verify_raw H decompress ecdsa txHex us segwitOn ap = Panic.
Proof.
  intros H decompress ecdsa txHex us sw ap b t ths HH HP N E D T L Hh Dn. apply btc_check_crashes_exactly; try assumption.
  - intros b' t' E' D'. assert (b' = b) by congruence. subst b'. change (decode_tx b sw = Ok t') in D'. assert (t' = t) by congruence. subst t'. eapply Forall_impl; [|exact T]. intros i Q. left. auto.
  - right. exists b, t, ths. repeat (split; [assumption|]). assert (Ne : ths <> [] /\ tx_vins t <> []).
    { unfold hashes_for_sig in Hh. destruct (zlen (tx_vins (clone_empty t)) =? 0) eqn:Z1; [discriminate|]. cbn [orb] in Hh. destruct (negb _) in Hh; [discriminate|]. destruct (_ =? _) in Hh; [discriminate|]. rewrite <- btc_coin_loop in Hh. apply (hashes_loop_single btc_coin btc_kind) in Hh as [_ Q]; [|apply btc_reads|exact N].
      cbn [clone_empty tx_vins] in Z1. unfold zlen in *. rewrite map_length in Z1. split; intros Q0; rewrite Q0 in *; cbn [length] in *; lia. }
    destruct Ne as [Ne Ni]. destruct ths as [|th tha]; [contradiction|]. destruct (tx_vins t) as [|i ins]; [contradiction|]. exists (no_sigpub :: repeat no_sigpub (length ins)), [], no_sigpub, (repeat no_sigpub (length ins)), [], th, tha. split; [|repeat (split; [reflexivity || constructor|]); exact Dn].
    apply Forall_cons_iff in T as [Ti T]. constructor; [left; auto|]. clear - T. induction T; cbn [length repeat]; constructor; [left; auto|assumption].
Qed.

(** ** Examples *)
(** Nobody has signed; one key is good and the next is no point; the first signature is false and the second key is never looked at. *)
Definition ex_points (k : bytes) : bytes := if nth 0 k 0 =? 2 then 4 :: tl k else [].
Definition ex_signed (sps : list sigpub) : list Z := match insert_signatures_v cxc toy_hash ex_fhex (match create_hashes_v cxc toy_hash ex_fhex (ex_fus 1 []) true btc_main with Ok hs => sign_all hs sps | _ => [] end) (ex_fus 1 []) true with Ok s => s | _ => [] end.
Definition ex_off_curve (sp : sigpub) : sigpub := {| sp_sig := sp_sig sp; sp_pub := 7 :: tl (sp_pub sp) |}.
Example check_crash_example :
  verify_raw_v cxc toy_hash ex_points (fun _ _ _ => true) ex_fhex (ex_fus 1 []) true btc_main = Panic /\
  verify_raw_v cxc toy_hash ex_points (fun _ _ _ => true) (ex_signed [ex_sp 1; ex_off_curve (ex_sp 200)]) (ex_fus 1 []) true btc_main = Panic /\
  verify_raw_v cxc toy_hash ex_points (fun _ _ _ => false) (ex_signed [ex_sp 1; ex_off_curve (ex_sp 200)]) (ex_fus 1 []) true btc_main = Ok false /\
  verify_raw_v cxc toy_hash ex_points (fun _ _ _ => true) (ex_signed [ex_sp 1; ex_sp 200]) (ex_fus 1 []) true btc_main = Ok true.
Proof. repeat (split; [vm_compute; reflexivity|]). vm_compute. reflexivity. Qed.
Example check_hypotheses_met : let tx := ex_signed [ex_sp 1; ex_off_curve (ex_sp 200)] in
  Forall (fun u => forall redeem, ~ cxc_kind u SharedKeys redeem) (ex_fus 1 []) /\ no_multi_input 1 tx true /\
  exists b t ths, hex_decode tx = Ok b /\ decode_v 1 b true = Ok t /\ hashes_for_sig_v cxc toy_hash (clone_empty t) (ex_fus 1 []) true btc_main = Ok ths /\ bad_key_reached ex_points (fun _ _ _ => true) (tx_vins t) ths.
Proof.
  cbv zeta. assert (A : Forall (fun u => forall redeem, ~ cxc_kind u SharedKeys redeem) (ex_fus 1 [])).
  { constructor; [|constructor; [|constructor]]; intros r (l & _ & E & _ & L & _); vm_compute in E; injection E as <-; vm_compute in L; apply L; reflexivity. }
  assert (B : no_multi_input 1 (ex_signed [ex_sp 1; ex_off_curve (ex_sp 200)]) true).
  { intros b t E D. vm_compute in E. injection E as <-. vm_compute in D. injection D as <-. cbn [tx_vins]. constructor; [right; left; reflexivity|]. constructor; [right; right; left; reflexivity|constructor]. }
  split; [exact A|]. split; [exact B|]. assert (HP : prefixes_ok btc_main) by (repeat split; cbn; repeat constructor; unfold is_byte; lia).
  destruct (proj1 (fam_check_crashes_exactly toy_hash ex_points (fun _ _ _ => true) _ _ true btc_main cxc cxc_kind toy_hash_ok HP (or_introl (conj eq_refl eq_refl)) A B)) as [(b & E & P)|(b & t & ths & E & D & _ & Hh & K)]; [apply check_crash_example| |exists b, t, ths; auto].
  exfalso. vm_compute in E. injection E as <-. vm_compute in P. discriminate.
Qed.
Print Assumptions btc_check_crashes_exactly.
Print Assumptions fam_check_crashes_exactly.
Print Assumptions sound_keys_never_crash_check.
Print Assumptions unsigned_check_crashes.
