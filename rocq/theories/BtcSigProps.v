(** C34, C35: what is hashed for signing. *)
From Coq Require Import String ZArith List Bool Lia ZifyBool ZifyNat.
From Verif Require Import Go GoFacts GoFacts2 Rd Base58Model Base58Spec Base58CheckModel Base58CheckSpec Base58CheckProofs Base58CheckProps
  Bech32Model Bech32Spec Bech32Text BtcModel BtcSpec BtcProofs BtcTxProofs BtcTxProps SigDerProps Toy.
Import ListNotations.
Open Scope Z_scope.
Ltac Zify.zify_post_hook ::= idtac.

(** ** Specification *)
(** A single-key result: the hex hash of message [m] and the address that must sign. *)
Definition single (H : bytes -> bytes) (m : bytes) (a : list Z) : txhash :=
  {| th_hash := hex_encode (H m); th_required := 0; th_normal := Some {| n_addr := a; n_sigtype := 1; n_sp := no_sigpub |}; th_multi := [] |}.
(** A multi-signature result: the hash, the number of signatures required and the keys. *)
Definition multi (H : bytes -> bytes) (m : bytes) (required : Z) (keys : list bytes) : txhash :=
  {| th_hash := hex_encode (H m); th_required := required; th_normal := None;
     th_multi := map (fun k => {| m_pub := hex_encode k; m_sigtype := 1; m_sp := no_sigpub |}) keys |}.
(** An m-of-n script as the code reads it: OP_m, pushes of 33-byte keys, OP_n; what follows OP_n is not looked at. *)
Definition multisig_form (required : Z) (keys : list bytes) (script : bytes) : Prop :=
  1 <= required <= 16 /\ required <= zlen keys mod 256 /\ zlen keys mod 256 <> 209 /\ Forall (fun k => zlen k = 33) keys /\
  exists tail, script = (0x50 + required) :: concat (map (fun k => 33 :: k) keys) ++ (0x50 + zlen keys) mod 256 :: tail.
(** The result for input number [n], given the locking script, redeem script and amount it unlocks. *)
Definition hash_for (H : bytes -> bytes) (ap : addr_prefix) (segwitOn : bool) (ins : list spec_in) (outs : list spec_out) (lockTime : Z) (n : nat) (u : unlock) (th : txhash) : Prop :=
  u_sigtype u = 1 /\ exists lock redeem i, hex_decode (u_lock u) = Ok lock /\ hex_decode (u_redeem u) = Ok redeem /\ nth_error ins n = Some i /\
  ((* pay to public key hash *)
   (exists h a, length h = 20%nat /\ lock = p2pkh_script h /\ redeem = [] /\
      is_base58_of bitcoin_rs (checked H (p_p2pkh ap ++ h)) a /\
      th = single H (legacy_preimage 2 ins outs lockTime n lock) a) \/
   (* pay to witness public key hash, nested in pay to script hash *)
   (exists s h a, length s = 20%nat /\ length h = 20%nat /\ lock = p2sh_script s /\ redeem = witness_v0_script h /\ u_amount u <> 0 /\
      is_base58_of bitcoin_rs (checked H (p_p2wpkh ap ++ s)) a /\
      th = single H (bip143_preimage H 2 ins outs lockTime i (p2pkh_script h) (u_amount u)) a) \/
   (* pay to witness public key hash *)
   (exists h a, length h = 20%nat /\ lock = witness_v0_script h /\ redeem = [] /\ u_amount u <> 0 /\
      bech32_encode (p_bech32 ap) bech32_alphabet h (Some [0]) = Ok a /\
      th = single H (bip143_preimage H 2 ins outs lockTime i (p2pkh_script h) (u_amount u)) a) \/
   (* multi-signature, nested in pay to script hash *)
   (exists s required keys, length s = 20%nat /\ lock = p2sh_script s /\ 37 <= zlen redeem /\ last redeem 0 = 0xAE /\
      multisig_form required keys redeem /\
      (segwitOn = false /\ th = multi H (legacy_preimage 2 ins outs lockTime n redeem) required keys \/
       segwitOn = true /\ u_amount u <> 0 /\ th = multi H (bip143_preimage H 2 ins outs lockTime i redeem (u_amount u)) required keys))).
(** [R n a b] for the elements at the same position [n] (counted from [k]) of two lists of the same length. *)
Inductive pointwise {A B} (R : nat -> A -> B -> Prop) : nat -> list A -> list B -> Prop :=
| pw_nil : forall k, pointwise R k [] []
| pw_cons : forall k a b l m, R k a b -> pointwise R (S k) l m -> pointwise R k (a :: l) (b :: m).

(** ** Lemmas *)
Definition in_with (s : spec_in) : txin := set_pub (s_script s) (in_of s).
Definition at_step (n : nat) (script : bytes) (p : nat * spec_in) : spec_in :=
  {| s_txid := s_txid (snd p); s_vout := s_vout (snd p); s_script := if Nat.eqb (fst p) n then script else []; s_seq := s_seq (snd p) |}.
Lemma upd_scripts script ins : forall k n, 
  upd (map in_of ins) n (set_pub script) = map in_with (map (at_step (k + n) script) (combine (seq k (length ins)) ins)).
Proof.
  induction ins as [|s ins IH]; intros k n; [reflexivity|]. cbn [length seq combine map upd]. destruct n as [|n].
  - rewrite Nat.add_0_r. f_equal.
    + unfold at_step, in_with, set_pub, in_of. cbn. rewrite Nat.eqb_refl. reflexivity.
    + rewrite map_map. assert (G : forall m j, (k < j)%nat -> map in_of m = map (fun x => in_with (at_step k script x)) (combine (seq j (length m)) m)).
      { clear. induction m as [|s m IHm]; intros j Hj; [reflexivity|]. cbn [length seq combine map]. f_equal; [|apply IHm; lia].
        unfold at_step, in_with, set_pub, in_of. cbn. replace (Nat.eqb j k) with false by (symmetry; apply Nat.eqb_neq; lia). reflexivity. }
      apply G. lia.
  - f_equal.
    + unfold at_step, in_with, set_pub, in_of. cbn. replace (Nat.eqb k (k + S n)) with false by (symmetry; apply Nat.eqb_neq; lia). reflexivity.
    + rewrite (IH (S k) n). do 2 f_equal. f_equal. lia.
Qed.
Lemma scripts_upd n script ins : upd (map in_of ins) n (set_pub script) = map in_with (spec_scripts_only_at n script ins).
Proof. rewrite (upd_scripts script ins 0 n). reflexivity. Qed.
Lemma compact_small n : n <= 252 -> compact_size n = [n].
Proof. intros L. unfold compact_size. replace (n <? 253) with true by lia. reflexivity. Qed.
Lemma scripts_facts n script ins : Forall (fun s => zlen (s_txid s) = 32) ins -> zlen script <= 252 ->
  zlen (spec_scripts_only_at n script ins) = zlen ins /\ Forall (fun s => zlen (s_txid s) = 32 /\ zlen (s_script s) <= 252) (spec_scripts_only_at n script ins).
Proof.
  intros F L. unfold spec_scripts_only_at. split.
  - unfold zlen. rewrite map_length, combine_length, seq_length. lia.
  - apply Forall_map. apply Forall_forall. intros [j s] Hj. apply in_combine_r in Hj. rewrite Forall_forall in F. cbn. split; [apply F, Hj|]. destruct (Nat.eqb j n); [exact L|cbn; lia].
Qed.
(** The serialiser on unsigned inputs, one of which shows a script. *)
Lemma tx_bytes_with sw version ins outs lt : 1 <= zlen ins <= 252 -> 1 <= zlen outs <= 252 ->
  Forall (fun s => zlen (s_txid s) = 32 /\ zlen (s_script s) <= 252) ins -> Forall (fun s => 1 <= zlen (s_lock s) <= 252) outs ->
  tx_bytes sw {| tx_version := le_bytes 4 version; tx_vins := map in_with ins; tx_vouts := map out_of outs; tx_locktime := le_bytes 4 lt; tx_witness := false |} = Ok (consensus_tx version ins outs lt).
Proof.
  intros Ni No Fi Fo. rewrite tx_bytes_wire; cbn [tx_version tx_vins tx_vouts tx_locktime tx_witness]; rewrite ?zlen_map; try lia; try reflexivity; try (apply zlen_le_bytes).
  - f_equal. unfold wire_tx, consensus_tx. rewrite !zlen_map, !map_map. rewrite !compact_small by lia. cbn [app].
    replace (map consensus_in ins) with (map (fun x => wire_in (fst (in_with x, in_pub (in_with x))) (snd (in_with x, in_pub (in_with x)))) ins).
    2: { apply map_ext_in. intros s Hs. rewrite Forall_forall in Fi. destruct (Fi s Hs) as [_ L]. unfold wire_in, consensus_in. cbn [fst snd]. rewrite compact_small by exact L. reflexivity. }
    replace (map consensus_out outs) with (map (fun x => wire_out (out_of x)) outs); [reflexivity|].
    apply map_ext_in. intros s Hs. rewrite Forall_forall in Fo. pose proof (Fo s Hs). unfold wire_out, consensus_out. rewrite compact_small by lia. reflexivity.
  - apply Forall_map. eapply Forall_impl; [|exact Fi]. intros s [Q W]. split; [apply (ok_in_of s Q)|]. split; [reflexivity|]. cbn. lia.
  - apply Forall_map. eapply Forall_impl; [|exact Fo]. intros s Q. apply ok_out_of. cbn in Q. lia.
Qed.
Lemma legacy_bytes sw ins outs lt n script : 1 <= zlen ins <= 252 -> 1 <= zlen outs <= 252 -> zlen script <= 252 ->
  Forall (fun s => zlen (s_txid s) = 32) ins -> Forall (fun s => 1 <= zlen (s_lock s) <= 252) outs ->
  (b <- tx_bytes sw (set_vins (upd (tx_vins (tx_of 2 ins outs lt)) n (set_pub script)) (tx_of 2 ins outs lt)) ;; Ok (b ++ le32 1)) = Ok (legacy_preimage 2 ins outs lt n script).
Proof.
  intros Ni No Ls Fi Fo. unfold set_vins, tx_of. cbn [tx_version tx_vins tx_vouts tx_locktime tx_witness]. rewrite scripts_upd.
  destruct (scripts_facts n script ins Fi Ls) as [LL FF]. rewrite tx_bytes_with by (rewrite ?LL; assumption). reflexivity.
Qed.
Lemma outputs_of ins outs lt : Forall (fun s => 1 <= zlen (s_lock s) <= 252) outs -> outputs (tx_of 2 ins outs lt) = concat (map consensus_out outs).
Proof.
  intros Fo. unfold outputs, tx_of. cbn [tx_vouts]. rewrite map_map. f_equal. apply map_ext_in. intros s Hs. rewrite Forall_forall in Fo. pose proof (Fo s Hs). unfold consensus_out. rewrite compact_small by lia. cbn [out_of out_amount out_lock]. rewrite u8_small by lia. reflexivity.
Qed.
Lemma prevouts_of ins outs lt : prevouts (tx_of 2 ins outs lt) = concat (map (fun i => s_txid i ++ le_bytes 4 (s_vout i)) ins).
Proof. unfold prevouts, tx_of. cbn [tx_vins]. rewrite map_map. reflexivity. Qed.
Lemma sequences_of ins outs lt : sequences (tx_of 2 ins outs lt) = concat (map (fun i => le_bytes 4 (s_seq i)) ins).
Proof. unfold sequences, tx_of. cbn [tx_vins]. rewrite map_map. reflexivity. Qed.
Lemma segwit_of H ins outs lt redeem code i amount : script_code redeem = Ok code -> zlen code <= 252 -> Forall (fun s => 1 <= zlen (s_lock s) <= 252) outs ->
  (b <- segwit_bytes H (tx_of 2 ins outs lt) redeem (in_of i) amount ;; Ok (b ++ le32 1)) =
  if amount =? 0 then Err else Ok (bip143_preimage H 2 ins outs lt i code amount).
Proof.
  intros E L Fo. unfold segwit_bytes. rewrite E. cbn [bind]. destruct (amount =? 0); [reflexivity|]. cbn [bind]. pose proof (zlen_nonneg code).
  rewrite outputs_of, prevouts_of, sequences_of by exact Fo. unfold bip143_preimage. rewrite compact_small by exact L. rewrite u8_small by lia. cbn [in_of in_txid in_vout in_seq tx_of tx_version tx_locktime]. 
  rewrite <- !app_assoc. cbn [app]. rewrite <- !app_assoc. reflexivity.
Qed.

Lemma hex_nil s : hex_decode s = Ok [] <-> zlen s = 0.
Proof.
  split.
  - intros E. destruct (hex_decode_bytes _ _ E) as [_ L]. unfold zlen. cbn in L. lia.
  - intros E. destruct s; [reflexivity|]. rewrite zlen_cons in E. pose proof (zlen_nonneg s). lia.
Qed.
Ltac take n l := match n with O => destruct l as [|? l]; [clear l|exfalso; cbn [length] in *; lia] | S ?m => destruct l as [|? l]; [exfalso; cbn [length] in *; lia|take m l] end.
Lemma is_p2pkh l : (zlen l =? 25) && (nth 0 l 0 =? 0x76) && (nth 1 l 0 =? 0xA9) && (nth 2 l 0 =? 0x14) && (nth 23 l 0 =? 0x88) && (nth 24 l 0 =? 0xAC) = true <->
  exists h, length h = 20%nat /\ l = p2pkh_script h.
Proof.
  split.
  - intros E. rewrite !andb_true_iff in E. destruct E as (((((E1 & E2) & E3) & E4) & E5) & E6). apply Z.eqb_eq in E1, E2, E3, E4, E5, E6.
    assert (L : length l = 25%nat) by (unfold zlen in E1; lia). clear E1.
    exists (firstn 20 (skipn 3 l)). split; [rewrite firstn_length, skipn_length; lia|].
    take 25%nat l. cbn [nth] in *. subst. reflexivity.
  - intros (h & L & ->). take 20%nat h. reflexivity.
Qed.
Lemma is_p2sh l : (zlen l =? 23) && (nth 0 l 0 =? 0xA9) && (nth 1 l 0 =? 0x14) && (nth 22 l 0 =? 0x87) = true <->
  exists h, length h = 20%nat /\ l = p2sh_script h.
Proof.
  split.
  - intros E. rewrite !andb_true_iff in E. destruct E as (((E1 & E2) & E3) & E4). apply Z.eqb_eq in E1, E2, E3, E4.
    assert (L : length l = 23%nat) by (unfold zlen in E1; lia). clear E1.
    exists (firstn 20 (skipn 2 l)). split; [rewrite firstn_length, skipn_length; lia|].
    take 23%nat l. cbn [nth] in *. subst. reflexivity.
  - intros (h & L & ->). take 20%nat h. reflexivity.
Qed.
Lemma is_wpkh l : (zlen l =? 22) && (nth 0 l 0 =? 0) && (nth 1 l 0 =? 0x14) = true <->
  exists h, length h = 20%nat /\ l = witness_v0_script h.
Proof.
  split.
  - intros E. rewrite !andb_true_iff in E. destruct E as ((E1 & E2) & E3). apply Z.eqb_eq in E1, E2, E3.
    assert (L : length l = 22%nat) by (unfold zlen in E1; lia). clear E1.
    exists (skipn 2 l). split; [rewrite skipn_length; lia|].
    take 22%nat l. cbn [nth] in *. subst. reflexivity.
  - intros (h & L & ->). take 20%nat h. reflexivity.
Qed.
Lemma wpkh_len h : length h = 20%nat -> zlen (witness_v0_script h) = 22.
Proof. intros L. unfold witness_v0_script. rewrite zlen_app. unfold zlen. cbn [length]. lia. Qed.
(** What the script classifier accepts. *)
Lemma check_script_iff lk rd l r ty : check_script lk rd = Ok (l, r, ty) <->
  hex_decode lk = Ok l /\ hex_decode rd = Ok r /\
  ((ty = TypeP2PKH /\ r = [] /\ exists h, length h = 20%nat /\ l = p2pkh_script h) \/
   (ty = TypeP2WPKH /\ (exists s, length s = 20%nat /\ l = p2sh_script s) /\ exists h, length h = 20%nat /\ r = witness_v0_script h) \/
   (ty = TypeBech32 /\ r = [] /\ exists h, length h = 20%nat /\ l = witness_v0_script h) \/
   (ty = TypeMultiSig /\ (exists s, length s = 20%nat /\ l = p2sh_script s) /\ 37 <= zlen r /\ last r 0 = 0xAE)).
Proof.
  unfold check_script. destruct (hex_decode lk) as [x| |] eqn:Ex; cbn [bind]; try (split; [discriminate|intros [Q _]; discriminate]). cbv zeta.
  destruct ((zlen x =? 25) && _ && _ && _ && _ && _) eqn:P.
  { apply is_p2pkh in P as (h & L & ->). destruct (zlen rd =? 0) eqn:R.
    - apply Z.eqb_eq, hex_nil in R. split.
      + intros E. injection E as <- <- <-. split; [reflexivity|]. split; [exact R|]. left. eauto 6.
      + intros (E & Er & C). injection E as <-. assert (r = []) by congruence. subst r.
        destruct C as [(-> & _)|[(-> & (s & Ls & E) & _)|[(-> & _ & (s & Ls & E))|(-> & _ & Q & _)]]]; [reflexivity|..]; exfalso.
        * apply (f_equal zlen) in E. rewrite p2pkh_len, p2sh_len in E by assumption. lia.
        * apply (f_equal zlen) in E. rewrite p2pkh_len, wpkh_len in E by assumption. lia.
        * cbv in Q. apply Q. reflexivity.
    - split; [discriminate|]. intros (E & Er & C). injection E as <-. exfalso.
      destruct C as [(-> & -> & _)|[(-> & (s & Ls & E) & _)|[(-> & _ & (s & Ls & E))|(-> & (s & Ls & E) & _)]]].
      + apply hex_nil in Er. lia.
      + apply (f_equal zlen) in E. rewrite p2pkh_len, p2sh_len in E by assumption. lia.
      + apply (f_equal zlen) in E. rewrite p2pkh_len, wpkh_len in E by assumption. lia.
      + apply (f_equal zlen) in E. rewrite p2pkh_len, p2sh_len in E by assumption. lia. }
  assert (N1 : forall h, length h = 20%nat -> x <> p2pkh_script h) by (intros h L E; assert (Q : exists h, length h = 20%nat /\ x = p2pkh_script h) by eauto; apply is_p2pkh in Q; congruence). clear P.
  destruct ((zlen x =? 23) && _ && _ && _) eqn:P.
  { apply is_p2sh in P as (h & L & ->). destruct (hex_decode rd) as [y| |] eqn:Er; cbn [bind]; try (split; [discriminate|intros (_ & Q & _); discriminate]).
    destruct ((zlen y =? 22) && _ && _) eqn:Y.
    - apply is_wpkh in Y as (w & Lw & ->). split.
      + intros E. injection E as <- <- <-. split; [reflexivity|]. split; [reflexivity|]. right. left. eauto 8.
      + intros (E & E2 & C). assert (l = p2sh_script h) by congruence. assert (r = witness_v0_script w) by congruence. subst.
        destruct C as [(-> & Q & _)|[(-> & _)|[(-> & Q & _)|(-> & _ & Q & _)]]]; [|reflexivity|..]; exfalso; try discriminate Q.
        rewrite wpkh_len in Q by assumption. lia.
    - assert (NY : forall h, length h = 20%nat -> y <> witness_v0_script h) by (intros w Lw E; assert (Q : exists h, length h = 20%nat /\ y = witness_v0_script h) by eauto; apply is_wpkh in Q; congruence).
      destruct ((37 <=? zlen y) && (last y 0 =? 0xAE)) eqn:M.
      + apply andb_prop in M as [M1 M2]. split.
        * intros E. assert (l = p2sh_script h /\ r = y /\ ty = TypeMultiSig) as (-> & -> & ->) by (clear - E; repeat split; congruence).
          split; [reflexivity|]. split; [reflexivity|]. right. right. right. split; [reflexivity|]. split; [eauto|lia].
        * intros (E & E2 & C). assert (l = p2sh_script h) by congruence. assert (r = y) by congruence. subst.
          destruct C as [(-> & Q & _)|[(-> & _ & (w & Lw & Q))|[(-> & Q & _)|(-> & _)]]]; [| | |reflexivity]; exfalso; try (subst y; cbn in M1; discriminate). exact (NY w Lw Q).
      + split; [discriminate|]. intros (E & E2 & C). exfalso. assert (l = p2sh_script h) by congruence. assert (r = y) by congruence. subst.
        destruct C as [(-> & _ & (w & Lw & Q))|[(-> & _ & (w & Lw & Q))|[(-> & _ & (w & Lw & Q))|(-> & _ & Q & W)]]].
        * exact (N1 w Lw Q).
        * exact (NY w Lw Q).
        * apply (f_equal zlen) in Q. rewrite p2sh_len, wpkh_len in Q by assumption. lia.
        * lia. }
  assert (N2 : forall h, length h = 20%nat -> x <> p2sh_script h) by (intros h L E; assert (Q : exists h, length h = 20%nat /\ x = p2sh_script h) by eauto; apply is_p2sh in Q; congruence). clear P.
  destruct ((zlen x =? 22) && _ && _) eqn:P.
  { apply is_wpkh in P as (h & L & ->). destruct (zlen rd =? 0) eqn:R.
    - apply Z.eqb_eq, hex_nil in R. split.
      + intros E. assert (l = witness_v0_script h /\ r = [] /\ ty = TypeBech32) as (-> & -> & ->) by (clear - E; repeat split; congruence). split; [reflexivity|]. split; [exact R|]. right. right. left. eauto 6.
      + intros (E & Er & C). assert (l = witness_v0_script h) by congruence. assert (r = []) by congruence. subst.
        destruct C as [(-> & _ & (w & Lw & Q))|[(-> & (w & Lw & Q) & _)|[(-> & _)|(-> & (w & Lw & Q) & _)]]]; [| |reflexivity|]; exfalso; [exact (N1 w Lw Q)|exact (N2 w Lw Q)|exact (N2 w Lw Q)].
    - split; [discriminate|]. intros (E & Er & C). assert (l = witness_v0_script h) by congruence. subst l. exfalso.
      destruct C as [(-> & _ & (w & Lw & Q))|[(-> & (w & Lw & Q) & _)|[(-> & Q & _)|(-> & (w & Lw & Q) & _)]]]; [exact (N1 w Lw Q)|exact (N2 w Lw Q)| |exact (N2 w Lw Q)].
      subst r. apply hex_nil in Er. lia. }
  split; [discriminate|]. intros (E & Er & C). assert (l = x) by congruence. subst l. exfalso.
  destruct C as [(-> & _ & (w & Lw & Q))|[(-> & (w & Lw & Q) & _)|[(-> & _ & (w & Lw & Q))|(-> & (w & Lw & Q) & _)]]]; [exact (N1 w Lw Q)|exact (N2 w Lw Q)| |exact (N2 w Lw Q)].
  assert (W : exists h, length h = 20%nat /\ x = witness_v0_script h) by eauto. apply is_wpkh in W. congruence.
Qed.

Lemma detail_keys_sound fuel : forall rest ks r, multi_detail_keys fuel rest = Ok (ks, r) ->
  rest = concat (map (fun k => 33 :: k) ks) ++ r /\ Forall (fun k => zlen k = 33) ks /\ exists b t, r = b :: t /\ b <> 33.
Proof.
  induction fuel as [|f IH]; intros rest ks r E; cbn [multi_detail_keys] in E; apply need1_inv in E as (b & l & -> & E);
    (destruct (b =? 33) eqn:B; cbn [negb] in E; cbv iota in E; [|assert (ks = [] /\ r = b :: l) as [-> ->] by (split; congruence); split; [reflexivity|]; split; [constructor|]; exists b, l; split; [reflexivity|lia]]).
  - discriminate.
  - apply need_inv in E as (k & t & -> & Lk & E); [|lia]. apply bind_ok in E as ([ks' r'] & E1 & E2). cbv iota beta in E2. injection E2 as <- <-.
    destruct (IH _ _ _ E1) as (-> & F & Q). split; [|split; [constructor; assumption|exact Q]]. cbn [map concat app]. rewrite <- app_assoc. apply Z.eqb_eq in B. rewrite B. reflexivity.
Qed.
Lemma detail_keys_complete (ks : list bytes) : Forall (fun k => zlen k = 33) ks -> forall fuel b t, b <> 33 -> Nat.le (length (concat (map (fun k => 33 :: k) ks) ++ b :: t)) fuel ->
  multi_detail_keys fuel (concat (map (fun k => 33 :: k) ks) ++ b :: t) = Ok (ks, b :: t).
Proof.
  induction 1 as [|k ks Lk F IH]; intros fuel b t Nb Lf.
  - destruct fuel; cbn [map concat app multi_detail_keys need1]; replace (b =? 33) with false by lia; reflexivity.
  - destruct fuel as [|fuel]; [cbn in Lf; lia|]. cbn [map concat app multi_detail_keys need1]. change (negb (33 =? 33)) with false. cbv iota.
    rewrite <- app_assoc, need_app by exact Lk. rewrite IH; [reflexivity|exact Nb|]. cbn [map concat app length] in Lf. rewrite <- app_assoc, app_length in Lf. lia.
Qed.
Lemma multi_details_iff redeem m ks : is_bytes redeem -> multi_details redeem = Ok (m, ks) <-> multisig_form m ks redeem.
Proof.
  intros B. unfold multi_details, multisig_form. split.
  - intros E. apply need1_inv in E as (b & rest & -> & E). cbv zeta in E. apply is_bytes_cons in B as [Bb Br]. unfold is_byte in Bb.
    destruct ((u8 (b + 1 - 81) <=? 0) || (16 <? u8 (b + 1 - 81))) eqn:R; [discriminate|]. apply bind_ok in E as ([ks' r] & E1 & E2).
    apply need1_inv in E2 as (c & t & -> & E2). destruct (negb _ || _) eqn:Q in E2; [discriminate|]. assert (m = u8 (b + 1 - 81) /\ ks = ks') as [-> ->] by (split; congruence).
    destruct (detail_keys_sound _ _ _ _ E1) as (-> & F & (c' & t' & E & Nc)). assert (c = c') by congruence. subst c'. clear E t'.
    apply is_bytes_app in Br as [_ Bc]. apply is_bytes_cons in Bc as [Bc _]. unfold is_byte in Bc.
    unfold u8 in *. split; [lia|]. split; [lia|]. split; [|split; [exact F|]].
    + intros N. apply Nc. clear - N Q Bc. Z.div_mod_to_equations. lia.
    + exists t. assert (b = 80 + (b + 1 - 81) mod 256) by (clear - Bb R; Z.div_mod_to_equations; lia).
      assert (c = (80 + zlen ks') mod 256) by (clear - Bc Q; Z.div_mod_to_equations; lia). f_equal; [exact H|]. f_equal. f_equal. exact H0.
  - intros (M & N & N9 & F & tail & ->). cbn [need1]. cbv zeta. replace (u8 (80 + m + 1 - 81)) with m by (unfold u8; rewrite Z.mod_small; lia).
    replace ((m <=? 0) || (16 <? m)) with false by lia. rewrite detail_keys_complete; [|exact F| |lia].
    + cbn [bind need1]. cbv zeta. assert (T : u8 ((80 + zlen ks) mod 256 + 1 - 81) = u8 (zlen ks)) by (unfold u8; clear; Z.div_mod_to_equations; lia). rewrite T.
      unfold u8. change (2 ^ 8) with 256. replace (negb (zlen ks mod 256 =? zlen ks mod 256) || (zlen ks mod 256 <? m)) with false by lia. reflexivity.
    + clear - N9. Z.div_mod_to_equations. lia.
Qed.
Lemma code_wpkh h : length h = 20%nat -> script_code (witness_v0_script h) = Ok (p2pkh_script h).
Proof. intros L. take 20%nat h. reflexivity. Qed.
Lemma code_multi m ks r : multisig_form m ks r -> script_code r = Ok r.
Proof.
  intros (M & _ & _ & _ & tail & ->). unfold script_code, idx. cbn [Z.ltb Z.compare Z.to_nat nth_error bind]. replace (80 + m =? 0) with false by lia. reflexivity.
Qed.
Lemma set_empty_of ins : map set_empty (map in_of ins) = map in_of ins.
Proof. rewrite map_map. apply map_ext. reflexivity. Qed.
Lemma slice_p2pkh h : length h = 20%nat -> slice (p2pkh_script h) 3 23 = Ok h.
Proof. intros L. take 20%nat h. reflexivity. Qed.
Lemma slice_p2sh h : length h = 20%nat -> slice (p2sh_script h) 2 22 = Ok h.
Proof. intros L. take 20%nat h. reflexivity. Qed.
Lemma slice_wpkh h : length h = 20%nat -> slice_from (witness_v0_script h) 2 = Ok h.
Proof. intros L. take 20%nat h. reflexivity. Qed.
Lemma p2pkh_bytes h : is_bytes (p2pkh_script h) -> is_bytes h.
Proof. intros B. apply is_bytes_app in B as [_ B]. apply is_bytes_app in B as [B _]. exact B. Qed.
Lemma p2sh_bytes h : is_bytes (p2sh_script h) -> is_bytes h.
Proof. intros B. apply is_bytes_app in B as [_ B]. apply is_bytes_app in B as [B _]. exact B. Qed.
(** One round of the loop. *)
Definition one (H : bytes -> bytes) (t : tx) (segwitOn : bool) (ap : addr_prefix) (i : nat) (u : unlock) : res txhash :=
  '(lock, redeem, ty) <- check_script (u_lock u) (u_redeem u) ;;
  b <- bytes_for_sig H t lock redeem ty (u_sigtype u) i (u_amount u) segwitOn ;;
  new_txhash H (H b) lock redeem ty (u_sigtype u) ap.
Lemma one_iff H ap sw ins outs lt n u th : hash_ok H -> prefixes_ok ap -> 1 <= zlen ins <= 252 -> 1 <= zlen outs <= 252 ->
  Forall (fun s => zlen (s_txid s) = 32) ins -> Forall (fun s => 1 <= zlen (s_lock s) <= 252) outs ->
  (forall r, hex_decode (u_redeem u) = Ok r -> zlen r <= 252) ->
  one H (tx_of 2 ins outs lt) sw ap n u = Ok th <-> hash_for H ap sw ins outs lt n u th.
Proof.
  intros HH (P1 & P2 & P3) Ni No Fi Fo Lr. unfold one, hash_for. split.
  - intros E. apply bind_ok in E as ([[l r] ty] & Ec & E). apply check_script_iff in Ec as (El & Er & C).
    destruct (hex_decode_bytes _ _ El) as [Bl _]. destruct (hex_decode_bytes _ _ Er) as [Br _]. specialize (Lr _ Er).
    unfold bytes_for_sig in E. cbn [tx_of tx_vins] in E. rewrite nth_error_map in E. destruct (nth_error ins n) as [i|] eqn:En; cbn [option_map] in E; [|discriminate].
    destruct (u_sigtype u =? 1) eqn:S; cbn [negb] in E; [|discriminate]. apply Z.eqb_eq in S. split; [exact S|]. exists l, r, i. rewrite S in E. split; [exact El|]. split; [exact Er|]. split; [reflexivity|].
    change {| tx_version := le_bytes 4 2; tx_vins := map in_of ins; tx_vouts := map out_of outs; tx_locktime := le_bytes 4 lt; tx_witness := false |} with (tx_of 2 ins outs lt) in E.
    change (map in_of ins) with (tx_vins (tx_of 2 ins outs lt)) in E.
    destruct C as [(-> & -> & (h & Lh & ->))|[(-> & (s & Ls & ->) & (h & Lh & ->))|[(-> & -> & (h & Lh & ->))|(-> & (s & Ls & ->) & L37 & La)]]].
    + left. change (TypeP2PKH =? TypeP2PKH) with true in E. cbv iota in E. rewrite legacy_bytes in E by (try assumption; rewrite p2pkh_len by assumption; lia). cbn [bind] in E.
      unfold new_txhash in E. cbv zeta in E. change (TypeP2PKH =? TypeP2PKH) with true in E. cbv iota in E. rewrite slice_p2pkh in E by assumption. cbn [bind] in E. apply bind_ok in E as (a & Ea & E).
      exists h, a. apply address_text in Ea; try assumption; [|apply p2pkh_bytes, Bl]. repeat (split; [assumption || reflexivity|]). unfold single. congruence.
    + right. left. change (TypeP2WPKH =? TypeP2PKH) with false in E. change (TypeP2WPKH =? TypeP2WPKH) with true in E. cbv iota in E.
      rewrite (segwit_of _ _ _ _ _ (p2pkh_script h)) in E by (try assumption; try (apply code_wpkh; assumption); rewrite p2pkh_len by assumption; lia).
      destruct (u_amount u =? 0) eqn:A; [discriminate|]. cbn [bind] in E. unfold new_txhash in E. cbv zeta in E. change (TypeP2WPKH =? TypeP2PKH) with false in E. change (TypeP2WPKH =? TypeP2WPKH) with true in E. cbv iota in E.
      rewrite slice_p2sh in E by assumption. cbn [bind] in E. apply bind_ok in E as (a & Ea & E). apply address_text in Ea; try assumption; [|apply p2sh_bytes, Bl].
      exists s, h, a. repeat (split; [assumption || reflexivity || lia|]). unfold single. congruence.
    + right. right. left. change (TypeBech32 =? TypeP2PKH) with false in E. change (TypeBech32 =? TypeP2WPKH) with false in E. change (TypeBech32 =? TypeBech32) with true in E. cbv iota in E.
      rewrite (segwit_of _ _ _ _ _ (p2pkh_script h)) in E by (try assumption; try (apply code_wpkh; assumption); rewrite p2pkh_len by assumption; lia).
      destruct (u_amount u =? 0) eqn:A; [discriminate|]. cbn [bind] in E. unfold new_txhash in E. cbv zeta in E. change (TypeBech32 =? TypeP2PKH) with false in E. change (TypeBech32 =? TypeP2WPKH) with false in E. change (TypeBech32 =? TypeBech32) with true in E. cbv iota in E.
      rewrite slice_wpkh in E by assumption. cbn [bind] in E. apply bind_ok in E as (a & Ea & E).
      exists h, a. repeat (split; [assumption || reflexivity || lia|]). unfold single. congruence.
    + right. right. right. change (TypeMultiSig =? TypeP2PKH) with false in E. change (TypeMultiSig =? TypeP2WPKH) with false in E. change (TypeMultiSig =? TypeBech32) with false in E. cbv iota in E.
      apply bind_ok in E as (b & Eb & E). unfold new_txhash in E. cbv zeta in E. change (TypeMultiSig =? TypeP2PKH) with false in E. change (TypeMultiSig =? TypeP2WPKH) with false in E. change (TypeMultiSig =? TypeBech32) with false in E. cbv iota in E.
      apply bind_ok in E as ([m ks] & Em & E). apply multi_details_iff in Em; [|exact Br]. exists s, m, ks. repeat (split; [assumption || reflexivity|]). destruct sw.
      * right. rewrite (segwit_of _ _ _ _ _ r) in Eb by (try assumption; eapply code_multi; eassumption). destruct (u_amount u =? 0) eqn:A; [discriminate|]. assert (b = bip143_preimage H 2 ins outs lt i r (u_amount u)) by congruence. subst b.
        split; [reflexivity|]. split; [lia|]. unfold multi. congruence.
      * left. rewrite legacy_bytes in Eb by assumption. assert (b = legacy_preimage 2 ins outs lt n r) by congruence. subst b. split; [reflexivity|]. unfold multi. congruence.
  - intros (S & l & r & i & El & Er & En & C). destruct (hex_decode_bytes _ _ El) as [Bl _]. destruct (hex_decode_bytes _ _ Er) as [Br _]. specialize (Lr _ Er).
    assert (Cs : exists ty, check_script (u_lock u) (u_redeem u) = Ok (l, r, ty)).
    { destruct C as [(h & a & Lh & -> & -> & _)|[(s & h & a & Ls & Lh & -> & -> & _)|[(h & a & Lh & -> & -> & _)|(s & m & ks & Ls & -> & Q1 & Q2 & _)]]];
      [exists TypeP2PKH|exists TypeP2WPKH|exists TypeBech32|exists TypeMultiSig]; apply check_script_iff; split; auto; split; auto; [left|right; left|right; right; left|right; right; right]; eauto 10. }
    clear Cs. rewrite S. unfold bytes_for_sig. cbn [tx_of tx_vins]. rewrite nth_error_map, En. cbn [option_map].
    change {| tx_version := le_bytes 4 2; tx_vins := map in_of ins; tx_vouts := map out_of outs; tx_locktime := le_bytes 4 lt; tx_witness := false |} with (tx_of 2 ins outs lt).
    change (map in_of ins) with (tx_vins (tx_of 2 ins outs lt)). change (negb (1 =? 1)) with false. cbv iota.
    destruct C as [(h & a & Lh & El' & Er' & Ea & ->)|[(s & h & a & Ls & Lh & El' & Er' & A & Ea & ->)|[(h & a & Lh & El' & Er' & A & Ea & ->)|(s & m & ks & Ls & El' & Q1 & Q2 & Em & C)]]].
    + assert (Cs : check_script (u_lock u) (u_redeem u) = Ok (l, r, TypeP2PKH)) by (apply check_script_iff; split; auto; split; auto; left; eauto 10). rewrite Cs. cbn [bind]. subst l r.
      change (TypeP2PKH =? TypeP2PKH) with true. cbv iota. rewrite legacy_bytes by (try assumption; rewrite p2pkh_len by assumption; lia). cbn [bind]. unfold new_txhash. cbv zeta. change (TypeP2PKH =? TypeP2PKH) with true. cbv iota.
      rewrite slice_p2pkh by assumption. cbn [bind]. apply address_text in Ea; try assumption; [|apply p2pkh_bytes, Bl]. rewrite Ea. reflexivity.
    + assert (Cs : check_script (u_lock u) (u_redeem u) = Ok (l, r, TypeP2WPKH)) by (apply check_script_iff; split; auto; split; auto; right; left; eauto 10). rewrite Cs. cbn [bind]. subst l r.
      change (TypeP2WPKH =? TypeP2PKH) with false. change (TypeP2WPKH =? TypeP2WPKH) with true. cbv iota.
      rewrite (segwit_of _ _ _ _ _ (p2pkh_script h)) by (try assumption; try (apply code_wpkh; assumption); rewrite p2pkh_len by assumption; lia).
      replace (u_amount u =? 0) with false by lia. cbn [bind]. unfold new_txhash. cbv zeta. change (TypeP2WPKH =? TypeP2PKH) with false. change (TypeP2WPKH =? TypeP2WPKH) with true. cbv iota.
      rewrite slice_p2sh by assumption. cbn [bind]. apply address_text in Ea; try assumption; [|apply p2sh_bytes, Bl]. rewrite Ea. reflexivity.
    + assert (Cs : check_script (u_lock u) (u_redeem u) = Ok (l, r, TypeBech32)) by (apply check_script_iff; split; auto; split; auto; right; right; left; eauto 10). rewrite Cs. cbn [bind]. subst l r.
      change (TypeBech32 =? TypeP2PKH) with false. change (TypeBech32 =? TypeP2WPKH) with false. change (TypeBech32 =? TypeBech32) with true. cbv iota.
      rewrite (segwit_of _ _ _ _ _ (p2pkh_script h)) by (try assumption; try (apply code_wpkh; assumption); rewrite p2pkh_len by assumption; lia).
      replace (u_amount u =? 0) with false by lia. cbn [bind]. unfold new_txhash. cbv zeta. change (TypeBech32 =? TypeP2PKH) with false. change (TypeBech32 =? TypeP2WPKH) with false. change (TypeBech32 =? TypeBech32) with true. cbv iota.
      rewrite slice_wpkh by assumption. cbn [bind]. rewrite Ea. reflexivity.
    + assert (Cs : check_script (u_lock u) (u_redeem u) = Ok (l, r, TypeMultiSig)) by (apply check_script_iff; split; auto; split; auto; right; right; right; eauto 10). rewrite Cs. cbn [bind]. subst l.
      change (TypeMultiSig =? TypeP2PKH) with false. change (TypeMultiSig =? TypeP2WPKH) with false. change (TypeMultiSig =? TypeBech32) with false. cbv iota.
      pose proof (proj2 (multi_details_iff _ _ _ Br) Em) as Em'. destruct C as [[-> ->]|(-> & A & ->)]; cbv iota.
      * rewrite legacy_bytes by assumption. cbn [bind]. unfold new_txhash. cbv zeta. change (TypeMultiSig =? TypeP2PKH) with false. change (TypeMultiSig =? TypeP2WPKH) with false. change (TypeMultiSig =? TypeBech32) with false. cbv iota. rewrite Em'. reflexivity.
      * rewrite (segwit_of _ _ _ _ _ r) by (try assumption; eapply code_multi; eassumption). replace (u_amount u =? 0) with false by lia. cbn [bind]. unfold new_txhash. cbv zeta. change (TypeMultiSig =? TypeP2PKH) with false. change (TypeMultiSig =? TypeP2WPKH) with false. change (TypeMultiSig =? TypeBech32) with false. cbv iota. rewrite Em'. reflexivity.
Qed.
Lemma loop_iff H ap sw ins outs lt : hash_ok H -> prefixes_ok ap -> 1 <= zlen ins <= 252 -> 1 <= zlen outs <= 252 ->
  Forall (fun s => zlen (s_txid s) = 32) ins -> Forall (fun s => 1 <= zlen (s_lock s) <= 252) outs ->
  forall us n hs, Forall (fun u => forall r, hex_decode (u_redeem u) = Ok r -> zlen r <= 252) us ->
  hashes_loop H (tx_of 2 ins outs lt) sw ap n us = Ok hs <-> pointwise (hash_for H ap sw ins outs lt) n us hs.
Proof.
  intros HH HP Ni No Fi Fo. induction us as [|u us IH]; intros n hs F.
  - cbn [hashes_loop]. split; intros E; [assert (hs = []) by congruence; subst; constructor|inversion E; reflexivity].
  - apply Forall_cons_iff in F as [Fu F]. cbn [hashes_loop]. cbv zeta.
    replace (set_vins (map set_empty (tx_vins (tx_of 2 ins outs lt))) (tx_of 2 ins outs lt)) with (tx_of 2 ins outs lt) by (unfold set_vins, tx_of; cbn [tx_version tx_vins tx_vouts tx_locktime tx_witness]; rewrite set_empty_of; reflexivity).
    pose proof (one_iff H ap sw ins outs lt n u) as One. unfold one in One. split; intros E.
    + apply bind_ok in E as ([[l r] ty] & Ec & E). apply bind_ok in E as (b & Eb & E). apply bind_ok in E as (th & Et & E). apply bind_ok in E as (hs' & Er & E).
      assert (hs = th :: hs') by congruence. subst hs. constructor; [|apply IH; assumption]. apply One; try assumption. rewrite Ec. cbn [bind]. rewrite Eb. exact Et.
    + inversion E as [|? ? th ? hs' Ot Er]; subst. apply One in Ot; try assumption. apply bind_ok in Ot as ([[l r] ty] & Ec & Ot). apply bind_ok in Ot as (b & Eb & Et).
      rewrite Ec. cbn [bind]. rewrite Eb. cbn [bind]. rewrite Et. cbn [bind]. apply IH in Er; [|exact F]. rewrite Er. reflexivity.
Qed.
Lemma pointwise_len {A B} (R : nat -> A -> B -> Prop) k l m : pointwise R k l m -> length l = length m.
Proof. induction 1; cbn; congruence. Qed.
Lemma pointwise_nth {A B} (R : nat -> A -> B -> Prop) k l m : pointwise R k l m -> forall n a b, nth_error l n = Some a -> nth_error m n = Some b -> R (k + n)%nat a b.
Proof.
  induction 1 as [|k a b l m Rab _ IH]; intros n x y X Y; destruct n as [|n]; cbn in X, Y; try discriminate.
  - assert (x = a /\ y = b) as [-> ->] by (split; congruence). rewrite Nat.add_0_r. exact Rab.
  - replace (k + S n)%nat with (S k + n)%nat by lia. eapply IH; eassumption.
Qed.
(** ** C34 *)
(** The hashes to sign for a created transaction: one per input, in order, each of the consensus message for that
    input's kind of output, with the address or keys that must sign. *)
Theorem hashes_to_sign_iff : forall H ap vins vouts lt r hexs us segwitOn, hash_ok H -> prefixes_ok ap ->
  Forall vin_typed vins -> Forall vout_typed vouts -> Forall (fun v => zlen (v_addr v) <= 400) vouts -> zlen vins <= 252 -> zlen vouts <= 252 ->
  create_empty H vins vouts lt r ap = Ok hexs ->
  Forall (fun u => forall b, hex_decode (u_redeem u) = Ok b -> zlen b <= 252) us ->
  exists ins outs, Forall2 (spends lt r) vins ins /\ Forall2 (pays H ap) vouts outs /\
    forall hs, create_hashes H hexs us segwitOn ap = Ok hs <->
      zlen us = zlen vins /\ pointwise (hash_for H ap segwitOn ins outs lt) 0 us hs.
Proof.
  intros H ap vins vouts lt r hexs us sw HH HP TI TO L Ni No E Fr.
  destruct (create_shape H ap vins vouts lt r hexs HH HP TI TO L E) as (ins & outs & Fi & Fo & _ & D & S1 & S2 & P1 & P2 & N1 & N2 & _).
  assert (Mi : zlen ins <= 252) by (rewrite (Forall2_len _ _ _ Fi); assumption). assert (Mo : zlen outs <= 252) by (rewrite (Forall2_len _ _ _ Fo); assumption).
  rewrite trunc_small in D by lia. exists ins, outs. split; [exact Fi|]. split; [exact Fo|]. intros hs. unfold create_hashes. rewrite D. cbn [bind].
  rewrite <- (app_nil_r (wire_spec_tx _ _ _ _)). rewrite decode_wire_spec by (try assumption; try (apply weaken_locks; assumption); lia). cbn [bind].
  unfold hashes_for_sig. cbn [tx_of tx_vins tx_vouts]. rewrite !zlen_map.
  replace (zlen outs =? 0) with false by lia. rewrite <- (Forall2_len _ _ _ Fi).
  change {| tx_version := le_bytes 4 2; tx_vins := map in_of ins; tx_vouts := map out_of outs; tx_locktime := le_bytes 4 lt; tx_witness := false |} with (tx_of 2 ins outs lt).
  destruct (zlen ins =? zlen us) eqn:EQ; cbn [negb].
  - replace ((zlen ins =? 0) || false) with false by lia. assert (S0 : Forall (fun s => zlen (s_txid s) = 32) ins) by (eapply Forall_impl; [|exact S1]; intros s [Q _]; exact Q). rewrite loop_iff by (try assumption; lia).
    split; [intros Q; split; [lia|exact Q]|intros [_ Q]; exact Q].
  - rewrite orb_true_r. split; [discriminate|]. lia.
Qed.

(** ** The messages determine what they sign *)
(** Values of the field widths. *)
Definition in_wf (i : spec_in) : Prop := zlen (s_txid i) = 32 /\ 0 <= s_vout i < 2 ^ 32 /\ 0 <= s_seq i < 2 ^ 32 /\ zlen (s_script i) < 2 ^ 64.
Definition out_wf (o : spec_out) : Prop := 0 <= s_amount o < 2 ^ 64 /\ zlen (s_lock o) < 2 ^ 64.
Definition prefix_code {A} (P : A -> Prop) (f : A -> bytes) : Prop := forall a b x y, P a -> P b -> f a ++ x = f b ++ y -> a = b /\ x = y.
Lemma app_split {A} (a b x y : list A) : zlen a = zlen b -> a ++ x = b ++ y -> a = b /\ x = y.
Proof.
  intros L. assert (L' : length a = length b) by (unfold zlen in L; lia). clear L.
  revert b L'. induction a as [|c a IH]; intros [|d b] L E; try discriminate L.
  - split; [reflexivity|exact E].
  - injection E as -> E. destruct (IH b ltac:(cbn in L; lia) E) as [-> ->]. split; reflexivity.
Qed.
Lemma le_code n : prefix_code (fun v => 0 <= v < 256 ^ Z.of_nat n) (le_bytes n).
Proof.
  intros a b x y A B E. apply app_split in E as [E ->]; [|rewrite !zlen_le_bytes; reflexivity]. split; [|reflexivity].
  apply (f_equal le_num) in E. rewrite !le_num_small in E by assumption. exact E.
Qed.
Lemma compact_code : prefix_code (fun n => 0 <= n < 2 ^ 64) compact_size.
Proof.
  intros a b x y A B E. unfold compact_size in E.
  destruct (a <? 253) eqn:A1; [|destruct (a <? 2 ^ 16) eqn:A2; [|destruct (a <? 2 ^ 32) eqn:A3]];
  (destruct (b <? 253) eqn:B1; [|destruct (b <? 2 ^ 16) eqn:B2; [|destruct (b <? 2 ^ 32) eqn:B3]]); cbn [app] in E;
  pose proof (f_equal (hd 0) E) as E0; cbn [hd] in E0; try lia; pose proof (f_equal (@tl Z) E) as E1; cbn [tl] in E1.
  - split; assumption.
  - apply le_code in E1; [exact E1|change (256 ^ Z.of_nat 2) with (2 ^ 16); lia|change (256 ^ Z.of_nat 2) with (2 ^ 16); lia].
  - apply le_code in E1; [exact E1|change (256 ^ Z.of_nat 4) with (2 ^ 32); lia|change (256 ^ Z.of_nat 4) with (2 ^ 32); lia].
  - apply le_code in E1; [exact E1|change (256 ^ Z.of_nat 8) with (2 ^ 64); lia|change (256 ^ Z.of_nat 8) with (2 ^ 64); lia].
Qed.
(** A byte string with its length in front. *)
Lemma sized_code : prefix_code (fun s => zlen s < 2 ^ 64) (fun s : bytes => compact_size (zlen s) ++ s).
Proof.
  intros a b x y A B E. rewrite <- !app_assoc in E. pose proof (zlen_nonneg a). pose proof (zlen_nonneg b).
  apply compact_code in E as [L E]; [|lia|lia]. apply app_split in E; assumption.
Qed.
Lemma in_code : prefix_code in_wf consensus_in.
Proof.
  intros a b x y (A1 & A2 & A3 & A4) (B1 & B2 & B3 & B4) E. unfold consensus_in in E. rewrite <- !app_assoc in E.
  apply app_split in E as [E1 E]; [|congruence]. apply le_code in E as [E2 E]; [|assumption|assumption].
  rewrite (app_assoc (compact_size (zlen (s_script a)))), (app_assoc (compact_size (zlen (s_script b)))) in E. apply sized_code in E as [E3 E]; [|assumption|assumption].
  apply le_code in E as [E4 E]; [|assumption|assumption]. split; [|exact E]. destruct a, b. cbn in *. congruence.
Qed.
Lemma out_code : prefix_code out_wf consensus_out.
Proof.
  intros a b x y (A1 & A2) (B1 & B2) E. unfold consensus_out in E. rewrite <- !app_assoc in E. apply le_code in E as [E2 E]; [|assumption|assumption].
  rewrite (app_assoc (compact_size (zlen (s_lock a)))), (app_assoc (compact_size (zlen (s_lock b)))) in E. apply sized_code in E as [E3 E]; [|assumption|assumption].
  split; [|exact E]. destruct a, b. cbn in *. congruence.
Qed.
Lemma list_code {A} (P : A -> Prop) (f : A -> bytes) : prefix_code P f -> prefix_code (fun l => Forall P l /\ zlen l < 2 ^ 64) (fun l => compact_size (zlen l) ++ concat (map f l)).
Proof.
  intros C a b x y [FA LA] [B LB] E. rewrite <- !app_assoc in E. pose proof (zlen_nonneg a). pose proof (zlen_nonneg b).
  apply compact_code in E as [L E]; [|lia|lia]. clear LA LB H H0. assert (L' : length a = length b) by (unfold zlen in L; lia). clear L.
  revert b B L' E. induction FA as [|u a Pu FA IH]; intros [|v b] B L' E; try discriminate L'; [split; [reflexivity|exact E]|].
  apply Forall_cons_iff in B as [Pv B]. cbn [map concat] in E. rewrite <- !app_assoc in E. apply C in E as [-> E]; try assumption.
  apply IH in E as [-> ->]; [split; reflexivity|assumption|cbn in L'; lia].
Qed.
Lemma consensus_code version ins outs lt version' ins' outs' lt' x y :
  0 <= version < 2 ^ 32 -> 0 <= version' < 2 ^ 32 -> 0 <= lt < 2 ^ 32 -> 0 <= lt' < 2 ^ 32 ->
  Forall in_wf ins /\ zlen ins < 2 ^ 64 -> Forall in_wf ins' /\ zlen ins' < 2 ^ 64 -> Forall out_wf outs /\ zlen outs < 2 ^ 64 -> Forall out_wf outs' /\ zlen outs' < 2 ^ 64 ->
  consensus_tx version ins outs lt ++ x = consensus_tx version' ins' outs' lt' ++ y -> version = version' /\ ins = ins' /\ outs = outs' /\ lt = lt' /\ x = y.
Proof.
  intros V V' T T' I I' O O' E. unfold consensus_tx in E. rewrite <- !app_assoc in E. apply le_code in E as [-> E]; [|assumption|assumption].
  rewrite (app_assoc (compact_size (zlen ins))), (app_assoc (compact_size (zlen ins'))) in E. apply (list_code in_wf consensus_in in_code) in E as [-> E]; [|assumption|assumption].
  rewrite (app_assoc (compact_size (zlen outs))), (app_assoc (compact_size (zlen outs'))) in E. apply (list_code out_wf consensus_out out_code) in E as [-> E]; [|assumption|assumption].
  apply le_code in E as [-> E]; [|assumption|assumption]. repeat split; assumption.
Qed.
Lemma scripts_nth n script ins k : nth_error (spec_scripts_only_at n script ins) k =
  option_map (fun i => {| s_txid := s_txid i; s_vout := s_vout i; s_script := if Nat.eqb k n then script else []; s_seq := s_seq i |}) (nth_error ins k).
Proof.
  unfold spec_scripts_only_at. rewrite nth_error_map.
  assert (G : forall (l : list spec_in) j k, nth_error (combine (seq j (length l)) l) k = option_map (fun i => ((j + k)%nat, i)) (nth_error l k)).
  { induction l as [|i l IH]; intros j m; [destruct m; reflexivity|]. destruct m as [|m]; cbn [length seq combine nth_error option_map]; [rewrite Nat.add_0_r; reflexivity|].
    rewrite IH. replace (S j + m)%nat with (j + S m)%nat by lia. reflexivity. }
  rewrite G. destruct (nth_error ins k); reflexivity.
Qed.
Lemma scripts_wf n script ins : Forall in_wf ins -> zlen script < 2 ^ 64 -> Forall in_wf (spec_scripts_only_at n script ins) /\ zlen (spec_scripts_only_at n script ins) = zlen ins.
Proof.
  intros F L. split.
  - unfold spec_scripts_only_at. apply Forall_map. apply Forall_forall. intros [j s] Hj. apply in_combine_r in Hj. rewrite Forall_forall in F. destruct (F s Hj) as (A & B & C & D).
    cbn [fst snd]. unfold in_wf. cbn [s_txid s_vout s_script s_seq]. split; [exact A|]. split; [exact B|]. split; [exact C|]. destruct (Nat.eqb j n); [exact L|reflexivity].
  - unfold spec_scripts_only_at, zlen. rewrite map_length, combine_length, seq_length. lia.
Qed.
Lemma nth_error_same {A} (l : list A) : forall m, (forall k, nth_error l k = nth_error m k) -> l = m.
Proof.
  induction l as [|a l IH]; intros [|b m] E; [reflexivity|discriminate (E 0%nat)|discriminate (E 0%nat)|].
  pose proof (E 0%nat) as E0. cbn in E0. injection E0 as ->. f_equal. apply IH. intros k. exact (E (S k)).
Qed.
(** C34. Equal legacy messages: the same transaction, the same input, the same script. *)
Theorem legacy_message_injective : forall version ins outs lt n script version' ins' outs' lt' n' script',
  0 <= version < 2 ^ 32 -> 0 <= version' < 2 ^ 32 -> 0 <= lt < 2 ^ 32 -> 0 <= lt' < 2 ^ 32 ->
  Forall in_wf ins -> Forall in_wf ins' -> Forall out_wf outs -> Forall out_wf outs' ->
  zlen ins < 2 ^ 64 -> zlen ins' < 2 ^ 64 -> zlen outs < 2 ^ 64 -> zlen outs' < 2 ^ 64 ->
  (n < length ins)%nat -> script <> [] -> zlen script < 2 ^ 64 -> zlen script' < 2 ^ 64 ->
  Forall (fun i => s_script i = []) ins -> Forall (fun i => s_script i = []) ins' ->
  legacy_preimage version ins outs lt n script = legacy_preimage version' ins' outs' lt' n' script' ->
  version = version' /\ ins = ins' /\ outs = outs' /\ lt = lt' /\ n = n' /\ script = script'.
Proof.
  intros version ins outs lt n script version' ins' outs' lt' n' script' V V' T T' I I' O O' LI LI' LO LO' N S LS LS' E E' EQ. unfold legacy_preimage in EQ.
  destruct (scripts_wf n script ins I LS) as [W WL]. destruct (scripts_wf n' script' ins' I' LS') as [W' WL'].
  apply consensus_code in EQ as (-> & EI & -> & -> & _); try (split; [assumption|rewrite ?WL, ?WL'; assumption]); try assumption.
  assert (P : forall k, option_map (fun i => {| s_txid := s_txid i; s_vout := s_vout i; s_script := if Nat.eqb k n then script else []; s_seq := s_seq i |}) (nth_error ins k) =
     option_map (fun i => {| s_txid := s_txid i; s_vout := s_vout i; s_script := if Nat.eqb k n' then script' else []; s_seq := s_seq i |}) (nth_error ins' k)).
  { intros k. rewrite <- !scripts_nth, EI. reflexivity. }
  assert (LL : length ins = length ins') by (unfold zlen in *; rewrite EI in WL; lia).
  destruct (nth_error ins n) as [i|] eqn:Ei; [|apply nth_error_None in Ei; lia]. destruct (nth_error ins' n) as [i'|] eqn:Ei'; [|apply nth_error_None in Ei'; lia].
  pose proof (P n) as Pn. rewrite Ei, Ei' in Pn. cbn [option_map] in Pn. rewrite Nat.eqb_refl in Pn. assert (SS : script = if Nat.eqb n n' then script' else []) by (apply (f_equal (fun o => match o with Some i => s_script i | None => [] end)) in Pn; exact Pn).
  destruct (Nat.eqb n n') eqn:NN; [|contradiction]. apply Nat.eqb_eq in NN. split; [reflexivity|]. split; [|repeat split; assumption].
  clear - P E E' LL. apply nth_error_same. intros k. specialize (P k). destruct (nth_error ins k) as [u|] eqn:U, (nth_error ins' k) as [v|] eqn:X; try discriminate P; [|reflexivity].
  cbn [option_map] in P. rewrite Forall_forall in E, E'. pose proof (E u (nth_error_In _ _ U)). pose proof (E' v (nth_error_In _ _ X)). f_equal. destruct u, v. cbn in *. congruence.
Qed.
(** C35. Equal segwit messages: the same outpoint, script code, amount, sequence number and lock time, and equal hashes
    of all outpoints, all sequence numbers and all outputs. *)
Theorem segwit_message_injective : forall H version ins outs lt i code amount version' ins' outs' lt' i' code' amount',
  (forall d, zlen (H d) = 32) ->
  0 <= version < 2 ^ 32 -> 0 <= version' < 2 ^ 32 -> 0 <= lt < 2 ^ 32 -> 0 <= lt' < 2 ^ 32 -> in_wf i -> in_wf i' ->
  0 <= amount < 2 ^ 64 -> 0 <= amount' < 2 ^ 64 -> zlen code < 2 ^ 64 -> zlen code' < 2 ^ 64 ->
  bip143_preimage H version ins outs lt i code amount = bip143_preimage H version' ins' outs' lt' i' code' amount' ->
  version = version' /\ lt = lt' /\ s_txid i = s_txid i' /\ s_vout i = s_vout i' /\ s_seq i = s_seq i' /\ code = code' /\ amount = amount' /\
  H (concat (map (fun i => s_txid i ++ le_bytes 4 (s_vout i)) ins)) = H (concat (map (fun i => s_txid i ++ le_bytes 4 (s_vout i)) ins')) /\
  H (concat (map (fun i => le_bytes 4 (s_seq i)) ins)) = H (concat (map (fun i => le_bytes 4 (s_seq i)) ins')) /\
  H (concat (map consensus_out outs)) = H (concat (map consensus_out outs')).
Proof.
  intros H version ins outs lt i code amount version' ins' outs' lt' i' code' amount' HL V V' T T' (I1 & I2 & I3 & _) (J1 & J2 & J3 & _) A A' C C' E. unfold bip143_preimage in E.
  apply le_code in E as [-> E]; [|assumption|assumption]. apply app_split in E as [E1 E]; [|rewrite !HL; reflexivity]. apply app_split in E as [E2 E]; [|rewrite !HL; reflexivity].
  apply app_split in E as [E3 E]; [|congruence]. apply le_code in E as [E4 E]; [|assumption|assumption].
  rewrite (app_assoc (compact_size (zlen code))), (app_assoc (compact_size (zlen code'))) in E. apply sized_code in E as [E5 E]; [|assumption|assumption].
  apply le_code in E as [E6 E]; [|assumption|assumption]. apply le_code in E as [E7 E]; [|assumption|assumption]. apply app_split in E as [E8 E]; [|rewrite !HL; reflexivity].
  apply le_code in E as [E9 E]; [|assumption|assumption]. repeat split; assumption.
Qed.

(** C35. A segwit multi-signature script longer than 252 bytes (eight keys or more) is hashed with a one-byte length, so
    the message is not the BIP143 message of any transaction with 32-byte hashes and that script. *)
Lemma loop_nth H t sw ap us : (forall i, In i (tx_vins t) -> set_empty i = i) -> forall n hs k u, hashes_loop H t sw ap n us = Ok hs -> nth_error us k = Some u ->
  exists th, nth_error hs k = Some th /\ one H t sw ap (n + k) u = Ok th.
Proof.
  intros ES. assert (ET : set_vins (map set_empty (tx_vins t)) t = t).
  { unfold set_vins. replace (map set_empty (tx_vins t)) with (tx_vins t); [destruct t; reflexivity|]. rewrite (map_ext_in _ (fun x => x)) by exact ES. rewrite map_id. reflexivity. }
  induction us as [|v us IH]; intros n hs k u E U; [destruct k; discriminate U|]. cbn [hashes_loop] in E. cbv zeta in E. rewrite ET in E.
  apply bind_ok in E as ([[l r] ty] & Ec & E). apply bind_ok in E as (b & Eb & E). apply bind_ok in E as (th & Et & E). apply bind_ok in E as (hs' & Er & E). injection E as <-.
  destruct k as [|k]; cbn [nth_error] in *.
  - injection U as ->. exists th. split; [reflexivity|]. rewrite Nat.add_0_r. unfold one. rewrite Ec. cbn [bind]. rewrite Eb. exact Et.
  - replace (n + S k)%nat with (S n + k)%nat by lia. eapply IH; eassumption.
Qed.
Definition one_byte_length_message (H : bytes -> bytes) (ins : list spec_in) (outs : list spec_out) (lockTime : Z) (i : spec_in) (code : bytes) (amount : Z) : bytes :=
  le_bytes 4 2 ++
  H (concat (map (fun i => s_txid i ++ le_bytes 4 (s_vout i)) ins)) ++
  H (concat (map (fun i => le_bytes 4 (s_seq i)) ins)) ++
  s_txid i ++ le_bytes 4 (s_vout i) ++ [zlen code mod 256] ++ code ++ le_bytes 8 amount ++ le_bytes 4 (s_seq i) ++ H (concat (map consensus_out outs)) ++ le_bytes 4 lockTime ++ le_bytes 4 1.
Theorem long_script_length_truncated : forall H ap vins vouts lt r hexs us n u script, hash_ok H -> prefixes_ok ap ->
  Forall vin_typed vins -> Forall vout_typed vouts -> Forall (fun v => zlen (v_addr v) <= 400) vouts -> zlen vins <= 252 -> zlen vouts <= 252 ->
  create_empty H vins vouts lt r ap = Ok hexs ->
  nth_error us n = Some u -> hex_decode (u_redeem u) = Ok script -> 253 <= zlen script -> forall hs, create_hashes H hexs us true ap = Ok hs ->
  exists ins outs i th m, Forall2 (spends lt r) vins ins /\ Forall2 (pays H ap) vouts outs /\ nth_error ins n = Some i /\ nth_error hs n = Some th /\
    th_hash th = hex_encode (H m) /\ m = one_byte_length_message H ins outs lt i script (u_amount u) /\
    ((forall d, zlen (H d) = 32) -> forall ins' outs' lt' i' amount', zlen (s_txid i') = 32 -> m <> bip143_preimage H 2 ins' outs' lt' i' script amount').
Proof.
  intros H ap vins vouts lt r hexs us n u script HH HP TI TO L Ni No E Un Es LL hs C.
  destruct (create_shape H ap vins vouts lt r hexs HH HP TI TO L E) as (ins & outs & Fi & Fo & _ & D & S1 & S2 & P1 & P2 & N1 & N2 & _).
  assert (Mi : zlen ins <= 252) by (rewrite (Forall2_len _ _ _ Fi); assumption). assert (Mo : zlen outs <= 252) by (rewrite (Forall2_len _ _ _ Fo); assumption).
  rewrite trunc_small in D by lia. unfold create_hashes in C. rewrite D in C. cbn [bind] in C.
  rewrite <- (app_nil_r (wire_spec_tx _ _ _ _)) in C. rewrite decode_wire_spec in C by (try assumption; try (apply weaken_locks; assumption); lia). cbn [bind] in C.
  unfold hashes_for_sig in C. destruct (_ || _) in C; [discriminate|]. destruct (_ =? 0) in C; [discriminate|].
  apply (loop_nth H (tx_of 2 ins outs lt) true ap us) with (k := n) (u := u) in C as (th & Th & One); [|intros i Hi; cbn [tx_of tx_vins] in Hi; apply in_map_iff in Hi as (s & <- & _); reflexivity|exact Un].
  cbn [Nat.add] in One. unfold one in One. apply bind_ok in One as ([[l s] ty] & Ec & One). apply check_script_iff in Ec as (El & Er & Ca). assert (s = script) by congruence. subst s.
  destruct Ca as [(_ & -> & _)|[(_ & _ & (h & Lh & ->))|[(_ & -> & _)|(-> & _)]]]; [cbn in LL; lia|rewrite wpkh_len in LL by assumption; lia|cbn in LL; lia|].
  unfold bytes_for_sig in One. cbn [tx_of tx_vins] in One. rewrite nth_error_map in One. destruct (nth_error ins n) as [i|] eqn:En; cbn [option_map] in One; [|discriminate].
  destruct (u_sigtype u =? 1) eqn:S; cbn [negb] in One; [|discriminate].
  change {| tx_version := le_bytes 4 2; tx_vins := map in_of ins; tx_vouts := map out_of outs; tx_locktime := le_bytes 4 lt; tx_witness := false |} with (tx_of 2 ins outs lt) in One.
  change (TypeMultiSig =? TypeP2PKH) with false in One. change (TypeMultiSig =? TypeP2WPKH) with false in One. change (TypeMultiSig =? TypeBech32) with false in One. cbv iota in One.
  apply bind_ok in One as (b & Eb & One). unfold new_txhash in One. cbv zeta in One. change (TypeMultiSig =? TypeP2PKH) with false in One. change (TypeMultiSig =? TypeP2WPKH) with false in One. change (TypeMultiSig =? TypeBech32) with false in One. cbv iota in One.
  apply bind_ok in One as ([mm ks] & Em & One). destruct (hex_decode_bytes _ _ Er) as [Br _]. apply multi_details_iff in Em; [|exact Br].
  unfold segwit_bytes in Eb. rewrite (code_multi _ _ _ Em) in Eb. cbn [bind] in Eb. destruct (u_amount u =? 0); [discriminate|]. cbn [bind] in Eb.
  rewrite outputs_of, prevouts_of, sequences_of in Eb by exact P1. cbn [in_of in_txid in_vout in_seq tx_of tx_version tx_locktime] in Eb. apply (f_equal (fun x => match x with Ok v => v | _ => [] end)) in Eb. cbv beta iota in Eb.
  exists ins, outs, i, th, b. split; [exact Fi|]. split; [exact Fo|]. split; [exact En|]. split; [exact Th|]. split; [injection One as <-; reflexivity|].
  assert (M : b = one_byte_length_message H ins outs lt i script (u_amount u)).
  { rewrite <- Eb. unfold one_byte_length_message. rewrite <- !app_assoc. cbn [app]. rewrite <- !app_assoc. reflexivity. }
  split; [exact M|]. intros HL ins' outs' lt' i' amount' L' Q. rewrite M in Q. apply (f_equal zlen) in Q. unfold one_byte_length_message, bip143_preimage in Q.
  rewrite !zlen_app, !HL, !zlen_le_bytes, L' in Q. pose proof (zlen_nonneg script). destruct (compact_size_len (zlen script) ltac:(lia)) as [[_ W]|[_ W]]; [lia|].
  rewrite Forall_forall in S1. destruct (S1 i (nth_error_In _ _ En)) as [S0 _]. rewrite S0 in Q. change (zlen [zlen script mod 256]) with 1 in Q. lia.
Qed.
(** C35. Unlocking data without an amount is refused for every segwit input. *)
Theorem segwit_needs_amount : forall H ap vins vouts lt r hexs us segwitOn n u script, hash_ok H -> prefixes_ok ap ->
  Forall vin_typed vins -> Forall vout_typed vouts -> Forall (fun v => zlen (v_addr v) <= 400) vouts -> zlen vins <= 252 -> zlen vouts <= 252 ->
  create_empty H vins vouts lt r ap = Ok hexs ->
  Forall (fun u => forall b, hex_decode (u_redeem u) = Ok b -> zlen b <= 252) us ->
  nth_error us n = Some u -> u_amount u = 0 -> hex_decode (u_lock u) = Ok script -> zlen script = 22 -> forall hs, create_hashes H hexs us segwitOn ap <> Ok hs.
Proof.
  intros H ap vins vouts lt r hexs us sw n u script HH HP TI TO L Ni No E Fr Un A0 El L22 hs C.
  destruct (hashes_to_sign_iff H ap vins vouts lt r hexs us sw HH HP TI TO L Ni No E Fr) as (ins & outs & _ & _ & I). destruct (proj1 (I hs) C) as [_ C2].
  pose proof (pointwise_len _ _ _ _ C2) as LL. destruct (nth_error hs n) as [th|] eqn:Th; [|apply nth_error_None in Th; assert (n < length us)%nat by (apply nth_error_Some; congruence); lia].
  destruct (pointwise_nth _ _ _ _ C2 n u th Un Th) as (_ & l & rd & i & El' & _ & _ & Q). assert (l = script) by congruence. subst l.
  destruct Q as [(h & a & Lh & -> & _)|[(s & h & a & Ls & Lh & -> & _)|[(h & a & Lh & -> & _ & Q & _)|(s & m & ks & Ls & -> & _)]]].
  - rewrite p2pkh_len in L22 by assumption. lia.
  - rewrite p2sh_len in L22 by assumption. lia.
  - contradiction.
  - rewrite p2sh_len in L22 by assumption. lia.
Qed.

(** ** Examples *)
Definition ex_keys (n : nat) : list bytes := map (fun i => 2 :: repeat (Z.of_nat i) 32) (seq 1 n).
Definition ex_script (m : Z) (n : nat) : bytes := (0x50 + m) :: concat (map (fun k => 33 :: k) (ex_keys n)) ++ [0x50 + Z.of_nat n; 0xAE].
Definition ex_us : list unlock :=
  [{| u_lock := hex_encode (p2pkh_script (repeat 7 20)); u_redeem := []; u_amount := 0; u_sigtype := 1 |};
   {| u_lock := hex_encode (p2sh_script (repeat 8 20)); u_redeem := hex_encode (ex_script 2 3); u_amount := 5; u_sigtype := 1 |};
   {| u_lock := hex_encode (witness_v0_script (repeat 9 20)); u_redeem := []; u_amount := 6; u_sigtype := 1 |}].
Definition ex_long : list unlock :=
  [{| u_lock := hex_encode (p2pkh_script (repeat 7 20)); u_redeem := []; u_amount := 0; u_sigtype := 1 |};
   {| u_lock := hex_encode (p2sh_script (repeat 8 20)); u_redeem := hex_encode (ex_script 2 9); u_amount := 5; u_sigtype := 1 |};
   {| u_lock := hex_encode (p2sh_script (repeat 9 20)); u_redeem := hex_encode (witness_v0_script (repeat 3 20)); u_amount := 6; u_sigtype := 1 |}].
Example hashes_example : exists hexs hs, Forall (fun u => forall b, hex_decode (u_redeem u) = Ok b -> zlen b <= 252) ex_us /\
  create_empty toy_hash ex_vins ex_vouts 7 false btc_main = Ok hexs /\ create_hashes toy_hash hexs ex_us true btc_main = Ok hs /\ map th_required hs = [0; 2; 0] /\ map (fun h => zlen (th_multi h)) hs = [0; 3; 0].
Proof.
  eexists _, _. split; [repeat constructor; intros b E; vm_compute in E; injection E as <-; vm_compute; discriminate|].
  split; [vm_compute; reflexivity|]. split; [vm_compute; reflexivity|]. split; vm_compute; reflexivity.
Qed.
Example long_example : exists hexs hs u script, create_empty toy_hash ex_vins ex_vouts 7 false btc_main = Ok hexs /\ create_hashes toy_hash hexs ex_long true btc_main = Ok hs /\
  nth_error ex_long 1 = Some u /\ hex_decode (u_redeem u) = Ok script /\ zlen script = 309.
Proof.
  eexists _, _, _, _. split; [vm_compute; reflexivity|]. split; [vm_compute; reflexivity|]. split; [reflexivity|]. split; vm_compute; reflexivity.
Qed.
Example injective_example : exists ins outs, Forall in_wf ins /\ Forall out_wf outs /\ zlen ins = 2 /\ zlen outs = 1 /\ Forall (fun i => s_script i = []) ins.
Proof.
  exists [{| s_txid := repeat 5 32; s_vout := 1; s_script := []; s_seq := 7 |}; {| s_txid := repeat 6 32; s_vout := 0; s_script := []; s_seq := 4294967295 |}], [{| s_amount := 12; s_lock := p2pkh_script (repeat 3 20) |}].
  repeat split; repeat constructor; cbv; congruence.
Qed.
Print Assumptions hashes_to_sign_iff.
Print Assumptions legacy_message_injective.
Print Assumptions segwit_message_injective.
Print Assumptions long_script_length_truncated.
Print Assumptions segwit_needs_amount.
