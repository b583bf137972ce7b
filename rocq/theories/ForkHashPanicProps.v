(** C158: exactly when hashing a transaction for signing crashes with bitcoincashTransaction, bitcoinsvTransaction and zencashTransaction. *)
From Coq Require Import String ZArith List Bool Lia ZifyBool ZifyNat.
From Verif Require Import Go GoFacts GoFacts2 Rd Base58Model Base58Spec Base58Props Base58Proofs Base58CheckModel Base58CheckSpec Base58CheckProofs AddressProofs Bech32Model CashAddrModel CashAddrProps AddressModel
  BtcModel BtcSpec BtcProofs BtcTxProofs BtcSigProps BtcVerModel BtcVerProps BtcDecodeProps BtcMultiProps FamModel FamProofs FamSigProps FamPanicProps Toy.
From Verif Require LiteModel.
Import ListNotations.
Open Scope Z_scope.
Ltac Zify.zify_post_hook ::= idtac.

(** ** Specification *)
(** The first entry that [fine] does not cover is [bad]. *)
Definition first_that {A} (fine bad : A -> Prop) (l : list A) : Prop := exists pre x post, l = pre ++ x :: post /\ Forall fine pre /\ bad x.
(** bitcoincashTransaction and bitcoinsvTransaction give a hash for an entry that asks for signature type 0x41 and has an
    amount with a key-hash script or a script hash of a witness script; and for shared keys, where the amount is needed with
    segwit on, and with segwit off the transaction must have no segwit marker. *)
Definition fork_hashable (segwitOn marker : bool) (u : unlock) : Prop :=
  u_sigtype u = 0x41 /\ exists lock, hex_decode (u_lock u) = Ok lock /\
  ((u_amount u <> 0 /\ exists h, length h = 20%nat /\ lock = p2pkh_script h) \/
   (u_amount u <> 0 /\ (exists s, length s = 20%nat /\ lock = p2sh_script s) /\ exists h, length h = 20%nat /\ hex_decode (u_redeem u) = Ok (witness_v0_script h)) \/
   ((if segwitOn then u_amount u <> 0 else marker = false) /\ (exists s, length s = 20%nat /\ lock = p2sh_script s) /\
    exists redeem required keys, hex_decode (u_redeem u) = Ok redeem /\ multisig_form required keys redeem /\ 37 <= zlen redeem /\ last redeem 0 = 0xAE)).
(** They crash on a witness script without redeem script. *)
Definition fork_trap (u : unlock) : Prop := u_sigtype u = 0x41 /\ u_amount u <> 0 /\ u_redeem u = [] /\ native_witness u.
(** The text begins with [n] bytes in hex. *)
Definition begins_hex (n : Z) (s : list Z) : Prop := exists p rest x, s = p ++ rest /\ hex_decode p = Ok x /\ zlen x = n.
(** zencashTransaction gives a hash for any text that begins with 23 bytes in hex, and crashes on any other. *)
Definition zen_hashable (marker : bool) (u : unlock) : Prop := u_sigtype u = 1 /\ marker = false /\ begins_hex 23 (u_lock u).
Definition zen_trap (marker : bool) (u : unlock) : Prop := u_sigtype u = 1 /\ marker = false /\ ~ begins_hex 23 (u_lock u).
(** The transaction can be read and has as many inputs as there are entries, and a bad entry comes first. *)
Definition entry_crash (txHex : list Z) (us : list unlock) (segwitOn : bool) (fine bad : bool -> unlock -> Prop) : Prop :=
  exists b t, hex_decode txHex = Ok b /\ decode_v 1 b segwitOn = Ok t /\ length us = length (tx_vins t) /\ first_that (fine (tx_witness t)) (bad (tx_witness t)) us.

(** ** Lemmas *)
Definition sized_in (i : txin) : Prop := zlen (in_txid i) = 32 /\ zlen (in_vout i) = 4 /\ zlen (in_seq i) = 4.
Definition sized_out (o : txout) : Prop := zlen (out_amount o) = 8 /\ 1 <= zlen (out_lock o).
Definition sized (t : tx) : Prop := zlen (tx_version t) = 4 /\ zlen (tx_locktime t) = 4 /\ 1 <= zlen (tx_vins t) /\ 1 <= zlen (tx_vouts t) /\ Forall sized_in (tx_vins t) /\ Forall sized_out (tx_vouts t).
Definition emptied (t : tx) : tx := set_vins (map set_empty (tx_vins t)) t.
Lemma taken_ins_sized m ib ins : Forall2 (taken_in m) ib ins -> Forall sized_in ins.
Proof. induction 1 as [|b i ib ins T _ IH]; constructor; [|exact IH]. destruct T. repeat split; assumption. Qed.
Lemma taken_outs_sized ob outs : Forall2 taken_out ob outs -> Forall sized_out outs.
Proof. induction 1 as [|b i ib ins T _ IH]; constructor; [|exact IH]. destruct T. split; cbn [out_amount out_lock]; lia. Qed.
Lemma wits_sized sw l ws l' : taken_wits sw l ws l' -> Forall sized_in l -> Forall sized_in l' /\ length l' = length l.
Proof.
  induction 1 as [|i w i' l ws l' T _ IH]; intros F; [auto|]. apply Forall_cons_iff in F as [S F]. destruct (IH F) as [F' L]. cbn [length]. split; [|lia].
  constructor; [|exact F']. destruct T; exact S.
Qed.
Lemma decoded_sized v b sw t : is_bytes b -> 0 <= v < 2 ^ 32 -> decode_v v b sw = Ok t -> sized t.
Proof.
  intros B V E. apply btc_decode_iff in E as (m & ib & ins & ob & outs & wb & ins' & lt & N1 & N2 & Fi & Fo & W & Lt & _ & ->); [|assumption..].
  apply taken_ins_sized in Fi. apply taken_outs_sized in Fo. unfold sized. cbn [tx_version tx_vins tx_vouts tx_locktime tx_witness].
  assert (X : Forall sized_in ins' /\ length ins' = length ins) by (destruct m; [eapply wits_sized; eassumption|destruct W as [_ ->]; auto]).
  destruct X as [Fi' L]. repeat split; try assumption; unfold zlen in *; lia.
Qed.
Lemma emptied_sized t : sized t -> sized (emptied t).
Proof.
  intros (A & B & C & D & E & F). unfold emptied, sized, set_vins. cbn [tx_version tx_vins tx_vouts tx_locktime tx_witness]. repeat split; try assumption; [unfold zlen in *; rewrite map_length; lia|].
  apply Forall_map. eapply Forall_impl; [|exact E]. intros i S. exact S.
Qed.
Lemma upd_forall {A} (P : A -> Prop) f l : (forall x, P x -> P (f x)) -> Forall P l -> forall n, Forall P (upd l n f).
Proof. intros Hf. induction 1 as [|x l Px F IH]; intros n; cbn [upd]; [constructor|]. destruct n; constructor; auto. Qed.
Lemma upd_len {A} f (l : list A) : forall n, length (upd l n f) = length l.
Proof. induction l as [|x l IH]; intros n; cbn [upd]; [reflexivity|]. destruct n; cbn [length]; [reflexivity|]. f_equal. apply IH. Qed.
Lemma mapr_all {A B} (f : A -> res B) l : Forall (fun x => exists y, f x = Ok y) l -> exists ys, mapr f l = Ok ys.
Proof. induction 1 as [|x l (y & E) _ (ys & IH)]; cbn [mapr]; [eauto|]. rewrite E. cbn [bind]. rewrite IH. cbn [bind]. eauto. Qed.
(** The serialisation of an emptied transaction with one script filled in. *)
Lemma tx_bytes_emptied sw t p i : sized t ->
  (tx_witness t = false /\ exists b, tx_bytes sw (set_vins (upd (tx_vins (emptied t)) i (set_pub p)) (emptied t)) = Ok b) \/
  (tx_witness t = true /\ tx_bytes sw (set_vins (upd (tx_vins (emptied t)) i (set_pub p)) (emptied t)) = Err).
Proof.
  intros (A & B & C & D & E & F). unfold emptied, set_vins. cbn [tx_version tx_vins tx_vouts tx_locktime tx_witness]. set (l := upd (map set_empty (tx_vins t)) i (set_pub p)).
  assert (Fl : Forall (fun i => sized_in i /\ in_type i = TypeEmpty) l).
  { apply upd_forall; [intros x Q; exact Q|]. apply Forall_map. eapply Forall_impl; [|exact E]. intros x S. split; [exact S|reflexivity]. }
  assert (Ll : zlen l = zlen (tx_vins t)) by (unfold l, zlen; rewrite upd_len, map_length; reflexivity).
  unfold tx_bytes. cbn [tx_version tx_vins tx_vouts tx_locktime tx_witness]. rewrite Ll.
  replace (zlen (tx_vins t) =? 0) with false by lia. replace (zlen (tx_vouts t) =? 0) with false by lia. replace (zlen (tx_version t) =? 4) with true by lia. replace (zlen (tx_locktime t) =? 4) with true by lia. cbn [negb].
  destruct (mapr_all (in_bytes sw) l) as (ins & ->).
  { eapply Forall_impl; [|exact Fl]. intros x ((X1 & X2 & X3) & Ty). unfold in_bytes. rewrite X1, X2, X3, Ty. cbn [Z.eqb Pos.eqb negb TypeEmpty bind]. eauto. }
  cbn [bind]. destruct (mapr_all out_bytes (tx_vouts t)) as (outs & ->).
  { eapply Forall_impl; [|exact F]. intros o (O1 & O2). unfold out_bytes. rewrite O1. replace (zlen (out_lock o) =? 0) with false by lia. cbn [Z.eqb Pos.eqb negb]. eauto. }
  cbn [bind]. destruct (tx_witness t); [right|left; cbn [bind]; eauto]. split; [reflexivity|].
  destruct l as [|x l']; [unfold zlen in *; cbn [length] in *; lia|]. apply Forall_cons_iff in Fl as [[_ Ty] _]. cbn [mapr]. unfold in_segwit_bytes at 1. rewrite Ty. reflexivity.
Qed.

(** ** The loop *)
Definition hash_step (K : coin) (H : bytes -> bytes) (t : tx) (sw : bool) (ap : addr_prefix) (i : nat) (u : unlock) : res txhash :=
  '(lock, redeem, ty) <- k_check K (u_lock u) (u_redeem u) ;;
  b <- bytes_for_sig_v K H t lock redeem ty (u_sigtype u) i (u_amount u) sw ;;
  new_txhash_v K H (H b) lock redeem ty (u_sigtype u) ap.
Lemma loop_step K H t sw ap i u us : hashes_loop_v K H t sw ap i (u :: us) =
  (th <- hash_step K H (emptied t) sw ap i u ;; r <- hashes_loop_v K H (emptied t) sw ap (S i) us ;; Ok (th :: r)).
Proof.
  cbn [hashes_loop_v]. cbv zeta. unfold hash_step. destruct (k_check K (u_lock u) (u_redeem u)) as [[[l r] ty]| |]; cbn [bind]; [|reflexivity..]. fold (emptied t).
  destruct (bytes_for_sig_v _ _ _ _ _ _ _ _ _ _); cbn [bind]; reflexivity.
Qed.
Lemma loop_panics K H sw ap fine bad w us :
  (forall t i u, sized t -> tx_witness t = w -> (i < length (tx_vins t))%nat ->
    ((exists th, hash_step K H (emptied t) sw ap i u = Ok th) <-> fine u) /\ (hash_step K H (emptied t) sw ap i u = Panic <-> bad u)) ->
  forall t i, sized t -> tx_witness t = w -> (i + length us <= length (tx_vins t))%nat ->
  (hashes_loop_v K H t sw ap i us = Panic <-> first_that fine bad us).
Proof.
  intros St. induction us as [|u us IH]; intros t i Sz W L.
  - cbn [hashes_loop_v]. split; [discriminate|]. intros ([|? ?] & x & post & Q & _); discriminate.
  - cbn [length] in L. rewrite loop_step. destruct (St t i u Sz W) as [Sf Sb]; [lia|].
    assert (I : hashes_loop_v K H (emptied t) sw ap (S i) us = Panic <-> first_that fine bad us).
    { apply IH; [apply emptied_sized; exact Sz|exact W|]. unfold emptied, set_vins. cbn [tx_vins]. rewrite map_length. lia. }
    rewrite bind_panics. split.
    + intros [E|(th & E & P)]; [exists [], u, us; split; [reflexivity|]; split; [constructor|]; apply Sb; exact E|].
      apply bind_panics in P as [P|(? & _ & P)]; [|discriminate]. apply I in P as (pre & x & post & -> & F & B). exists (u :: pre), x, post. split; [reflexivity|]. split; [|exact B]. constructor; [apply Sf; eauto|exact F].
    + intros (pre & x & post & Q & F & B). destruct pre as [|u' pre].
      * cbn [app] in Q. assert (u = x) by congruence. subst x. left. apply Sb. exact B.
      * cbn [app] in Q. assert (u = u') by congruence. assert (us = pre ++ x :: post) by congruence. subst u' us. apply Forall_cons_iff in F as [Fu F]. right. apply Sf in Fu as (th & E). exists th. split; [exact E|]. apply bind_panics. left. apply I. exists pre, x, post. auto.
Qed.
Lemma create_panics K H sw ap fine bad txHex us : k_version K = 1 ->
  (forall w t i u, sized t -> tx_witness t = w -> (i < length (tx_vins t))%nat ->
    ((exists th, hash_step K H (emptied t) sw ap i u = Ok th) <-> fine w u) /\ (hash_step K H (emptied t) sw ap i u = Panic <-> bad w u)) ->
  (create_hashes_v K H txHex us sw ap = Panic <-> decoder_crash 1 txHex sw \/ entry_crash txHex us sw fine bad).
Proof.
  intros V St. unfold create_hashes_v. rewrite V, bind_panics. split.
  - intros [E|(b & E & P)]; [exfalso; exact (hex_decode_not_panic _ E)|]. apply bind_panics in P as [P|(t & D & P)]; [left; exists b; auto|]. right. exists b, t. split; [exact E|]. split; [exact D|].
    assert (Sz : sized t) by (eapply decoded_sized; [exact (hex_of _ _ E)| |exact D]; lia).
    unfold hashes_for_sig_v in P. destruct ((zlen (tx_vins t) =? 0) || negb (zlen (tx_vins t) =? zlen us)) eqn:Q; [discriminate|]. destruct (zlen (tx_vouts t) =? 0); [discriminate|]. apply orb_false_iff in Q as [_ Q]. unfold zlen in Q.
    assert (L : length us = length (tx_vins t)) by lia. split; [exact L|]. eapply loop_panics; [apply St|exact Sz|reflexivity| |exact P]. lia.
  - intros [(b & E & P)|(b & t & E & D & L & X)]; right; exists b; (split; [exact E|]); [rewrite P; reflexivity|]. rewrite D. cbn [bind].
    assert (Sz : sized t) by (eapply decoded_sized; [exact (hex_of _ _ E)| |exact D]; lia). unfold hashes_for_sig_v. destruct Sz as (S1 & S2 & S3 & S4 & S5 & S6).
    replace ((zlen (tx_vins t) =? 0) || negb (zlen (tx_vins t) =? zlen us)) with false by (unfold zlen in *; lia). replace (zlen (tx_vouts t) =? 0) with false by lia.
    eapply loop_panics; [apply St|repeat split; assumption|reflexivity| |exact X]. lia.
Qed.

(** ** One entry *)
Lemma code_p2pkh h : script_code (p2pkh_script h) = Ok (p2pkh_script h).
Proof. reflexivity. Qed.
Lemma code_p2sh h : script_code (p2sh_script h) = Ok (p2sh_script h).
Proof. reflexivity. Qed.
Lemma segwit_bytes_cases H t r i am c : script_code r = Ok c -> (am = 0 /\ segwit_bytes H t r i am = Err) \/ (am <> 0 /\ exists b, segwit_bytes H t r i am = Ok b).
Proof. intros E. unfold segwit_bytes. rewrite E. cbn [bind]. destruct (am =? 0) eqn:A; [left; split; [lia|reflexivity]|right; split; [lia|eauto]]. Qed.
Lemma encode_check_some H p h : hash_ok H -> is_bytes p -> is_bytes h -> exists s, encode_check bitcoin_al H p h = Ok s.
Proof.
  intros HH Bp Bh. rewrite (encode_check_eq H HH bitcoin_al) by assumption.
  assert (B : is_bytes (checked H (p ++ h))) by (apply checked_bytes; [assumption|apply is_bytes_app; auto]).
  destruct (base58_encode_never_panics bitcoin_rs bitcoin_al _ bitcoin_alphabet_ok bitcoin_al_eq B) as (s & E). eauto.
Qed.
Definition addresses_some (K : coin) (H : bytes -> bytes) (ap : addr_prefix) : Prop := forall h, is_bytes h -> length h = 20%nat -> exists a, k_address K H ap h = Ok a.
Lemma base58_some K H ap : k_address K = base58_address -> hash_ok H -> prefixes_ok ap -> addresses_some K H ap.
Proof. intros E HH (P1 & _) h Bh _. rewrite E. apply encode_check_some; assumption. Qed.
Lemma cash_some H ap : addresses_some bch H ap.
Proof.
  intros h Bh Lh. change (k_address bch) with cash_address. unfold cash_address, address_encode. rewrite zlen_cons. replace (1 + zlen h) with 21 by (unfold zlen; lia).
  destruct (cash_roundtrip (str "bitcoincash") 0 h) as (s & E' & _); [|apply is_bytes_cons; split; [unfold is_byte; lia|exact Bh]|].
  - split; [discriminate|]. vm_compute. repeat constructor; congruence.
  - exists s. exact E'.
Qed.
(** A result that is a value exactly when [P] holds and a crash exactly when [Q] does. *)
Definition when {A} (x : res A) (P Q : Prop) : Prop := ((exists y, x = Ok y) <-> P) /\ (x = Panic <-> Q).
Lemma when_ok {A} (x : res A) (P Q : Prop) : (exists y, x = Ok y) -> P -> ~ Q -> when x P Q.
Proof. intros (y & ->) HP HQ. split; split; intros; eauto; try discriminate; contradiction. Qed.
Lemma when_err {A} (x : res A) (P Q : Prop) : x = Err -> ~ P -> ~ Q -> when x P Q.
Proof. intros -> HP HQ. split; split; try contradiction; [intros (? & E); discriminate|discriminate]. Qed.
Lemma when_panic {A} (x : res A) (P Q : Prop) : x = Panic -> ~ P -> Q -> when x P Q.
Proof. intros -> HP HQ. split; split; try contradiction; [intros (? & E); discriminate|auto|auto]. Qed.

Lemma emptied_nth t i : (i < length (tx_vins t))%nat -> exists x, nth_error (tx_vins (emptied t)) i = Some x.
Proof.
  intros L. destruct (nth_error (tx_vins (emptied t)) i) as [x|] eqn:E; [eauto|]. apply nth_error_None in E. unfold emptied, set_vins in E. cbn [tx_vins] in E. rewrite map_length in E. lia.
Qed.

Lemma fork_checked K u sw w : k_check K = fork_check -> (fork_hashable sw w u \/ fork_trap u) -> exists l r ty, fork_check (u_lock u) (u_redeem u) = Ok (l, r, ty).
Proof.
  intros _ [(_ & l & El & C)|(_ & _ & Er & h & L & El)].
  - exists l. destruct C as [(_ & h & L & Q)|[(_ & Ps & h & L & Er)|(_ & Ps & r & m & ks & Er & _ & L & La)]].
    + exists [], TypeP2PKH. apply fork_check_iff. split; [exact El|]. left. eauto.
    + exists (witness_v0_script h), TypeP2WPKH. apply fork_check_iff. split; [exact El|]. right; left. eauto 6.
    + exists r, TypeMultiSig. apply fork_check_iff. split; [exact El|]. right; right; right. auto.
  - exists (witness_v0_script h), [], TypeBech32. apply fork_check_iff. split; [exact El|]. right; right; left. eauto 6.
Qed.
Lemma fork_step K H ap sw : In K [bch; bsv] -> hash_ok H -> prefixes_ok ap ->
  forall w t i u, sized t -> tx_witness t = w -> (i < length (tx_vins t))%nat -> when (hash_step K H (emptied t) sw ap i u) (fork_hashable sw w u) (fork_trap u).
Proof.
  intros Hin HH HP w t i u Sz W L.
  assert (V : k_all K = 0x41 /\ k_check K = fork_check /\ k_fork K = true /\ k_bech32 K = false /\ addresses_some K H ap).
  { destruct Hin as [<-|[<-|[]]]; repeat (split; [reflexivity|]); [apply cash_some|apply base58_some; auto]. }
  destruct V as (Va & Vc & Vf & Vb & A). unfold hash_step. rewrite Vc. destruct (fork_check (u_lock u) (u_redeem u)) as [[[l r] ty]| |] eqn:Ec; cbn [bind].
  2: { apply when_err; [reflexivity|intros F|intros F]; destruct (fork_checked K u sw w Vc) as (? & ? & ? & E); auto; congruence. }
  2: { exfalso. exact (fork_check_fine _ _ Ec). }
  destruct (emptied_nth t i L) as (x & Ex). unfold bytes_for_sig_v. rewrite Ex, Va, Vf.
  destruct (u_sigtype u =? 65) eqn:St; cbn [negb bind].
  2: { apply when_err; [reflexivity|intros [F _]; lia|intros [F _]; lia]. }
  apply Z.eqb_eq in St. apply fork_check_iff in Ec as (El & C). pose proof (hex_of _ _ El) as Bl. destruct HP as (P1 & P2 & P3).
  destruct C as [(-> & -> & h & Lh & ->)|[(-> & Er & (s & Ls & ->) & h & Lh & ->)|[(-> & Er & -> & h & Lh & ->)|(-> & Er & (s & Ls & ->) & Lr & La)]]].
  - change (TypeP2PKH =? TypeP2PKH) with true. cbv iota.
    assert (NT : ~ fork_trap u) by (clear - El; intros (_ & _ & _ & h' & _ & Q); rewrite El in Q; discriminate).
    destruct (segwit_bytes_cases H (emptied t) (p2pkh_script h) x (u_amount u) _ (code_p2pkh h)) as [[Am ->]|[Am (b & ->)]]; cbn [bind].
    + apply when_err; [reflexivity| |exact NT]. intros (_ & l & El' & [[N _]|[[N _]|(_ & (s & _ & ->) & _)]]); [lia|lia|rewrite El in El'; discriminate].
    + apply when_ok; [|split; [exact St|]; exists (p2pkh_script h); split; [exact El|]; left; eauto|exact NT].
      unfold new_txhash_v. cbv zeta. change (TypeP2PKH =? TypeP2PKH) with true. cbv iota. rewrite (slice_p2pkh h Lh). cbn [bind]. destruct (A h (p2pkh_bytes h Bl) Lh) as (a & ->). cbn [bind]. eauto.
  - change (TypeP2WPKH =? TypeP2PKH) with false. change (TypeP2WPKH =? TypeP2WPKH) with true. cbv iota.
    assert (NT : ~ fork_trap u) by (clear - El; intros (_ & _ & _ & h' & _ & Q); rewrite El in Q; discriminate).
    destruct (segwit_bytes_cases H (emptied t) (p2sh_script s) x (u_amount u) _ (code_p2sh s)) as [[Am ->]|[Am (b & ->)]]; cbn [bind].
    + apply when_err; [reflexivity| |exact NT]. intros (_ & l & El' & [[N _]|[[N _]|(_ & _ & r & m & ks & Er' & _ & Lr & _)]]); [lia|lia|]. assert (r = witness_v0_script h) by congruence. subst r. rewrite wpkh_len in Lr by exact Lh. lia.
    + apply when_ok; [|split; [exact St|]; exists (p2sh_script s); split; [exact El|]; right; left; eauto 8|exact NT].
      unfold new_txhash_v. cbv zeta. change (TypeP2WPKH =? TypeP2PKH) with false. change (TypeP2WPKH =? TypeP2WPKH) with true. cbv iota. rewrite (slice_p2sh s Ls). cbn [bind]. destruct (encode_check_some H _ s HH P2 (p2sh_bytes s Bl)) as (a & ->). cbn [bind]. eauto.
  - change (TypeBech32 =? TypeP2PKH) with false. change (TypeBech32 =? TypeP2WPKH) with false. change (TypeBech32 =? TypeBech32) with true. cbv iota.
    assert (NF : ~ fork_hashable sw w u) by (intros (_ & l & El' & [(_ & h' & _ & ->)|[(_ & (s & _ & ->) & _)|(_ & (s & _ & ->) & _)]]); rewrite El in El'; discriminate).
    destruct (segwit_bytes_cases H (emptied t) (witness_v0_script h) x (u_amount u) _ (code_wpkh h Lh)) as [[Am ->]|[Am (b & ->)]]; cbn [bind].
    + apply when_err; [reflexivity|exact NF|]. intros (_ & N & _). lia.
    + apply when_panic; [|exact NF|split; [exact St|]; split; [exact Am|]; split; [exact Er|]; exists h; auto].
      unfold new_txhash_v. cbv zeta. change (TypeBech32 =? TypeP2PKH) with false. change (TypeBech32 =? TypeP2WPKH) with false. change (TypeBech32 =? TypeBech32) with true. cbv iota. rewrite Vb. reflexivity.
  - change (TypeMultiSig =? TypeP2PKH) with false. change (TypeMultiSig =? TypeP2WPKH) with false. change (TypeMultiSig =? TypeBech32) with false. cbv iota. pose proof (hex_of _ _ Er) as Br.
    assert (NT : ~ fork_trap u) by (clear - El; intros (_ & _ & _ & h' & _ & Q); rewrite El in Q; discriminate).
    assert (Fh : fork_hashable sw w u <-> (if sw then u_amount u <> 0 else w = false) /\ exists m ks, multisig_form m ks r).
    { split.
      - intros (_ & l & El' & [(_ & h' & _ & ->)|[(_ & _ & h & Lh & Er')|(G & _ & r' & m & ks & Er' & M & _)]]); [rewrite El in El'; discriminate| |].
        + assert (r = witness_v0_script h) by congruence. subst r. rewrite wpkh_len in Lr by exact Lh. lia.
        + assert (r' = r) by congruence. subst r'. eauto.
      - intros (G & m & ks & M). split; [exact St|]. exists (p2sh_script s). split; [exact El|]. right; right. split; [exact G|]. split; [exists s; auto|]. exists r, m, ks. auto. }
    assert (Md : (exists m ks, multisig_form m ks r) \/ ((~ exists m ks, multisig_form m ks r) /\ multi_details r = Err)).
    { destruct (multi_details r) as [[m ks]| |] eqn:E; [left; exists m, ks; apply multi_details_iff; assumption| |exfalso; exact (multi_details_no_panic _ E)].
      right. split; [|reflexivity]. intros (m & ks & M). apply multi_details_iff in M; [|exact Br]. congruence. }
    assert (N : forall b, when (new_txhash_v K H (H b) (p2sh_script s) r TypeMultiSig (u_sigtype u) ap) (exists m ks, multisig_form m ks r) False).
    { intros b. unfold new_txhash_v. cbv zeta. change (TypeMultiSig =? TypeP2PKH) with false. change (TypeMultiSig =? TypeP2WPKH) with false. change (TypeMultiSig =? TypeBech32) with false. cbv iota.
      destruct Md as [(m & ks & M)|[NM ->]]; cbn [bind]; [|apply when_err; auto]. apply when_ok; [|exists m, ks; exact M|tauto]. apply multi_details_iff in M; [|exact Br]. rewrite M. cbn [bind]. eexists. reflexivity. }
    destruct sw.
    + assert (Sc : (exists c, script_code r = Ok c) \/ (script_code r = Err /\ ~ exists m ks, multisig_form m ks r)).
      { destruct (script_code r) as [c| |] eqn:E; [eauto| |exfalso; apply (script_code_fine r); [lia|exact E]]. right. split; [reflexivity|]. intros (m & ks & M). apply code_multi in M. congruence. }
      destruct Sc as [(c & Ec)|[Ec NM]].
      * destruct (segwit_bytes_cases H (emptied t) r x (u_amount u) c Ec) as [[Am ->]|[Am (b & ->)]]; cbn [bind].
        -- apply when_err; [reflexivity| |exact NT]. rewrite Fh. tauto.
        -- destruct (N (b ++ le32 65)) as [N1 N2]. split; [rewrite N1, Fh; tauto|rewrite N2; tauto].
      * unfold segwit_bytes. rewrite Ec. cbn [bind]. apply when_err; [reflexivity| |exact NT]. rewrite Fh. tauto.
    + destruct (tx_bytes_emptied false t r i Sz) as [[Tw (b & ->)]|[Tw ->]]; cbn [bind].
      * destruct (N (b ++ le32 65)) as [N1 N2]. split; [rewrite N1, Fh; subst w; tauto|rewrite N2; tauto].
      * apply when_err; [reflexivity| |exact NT]. rewrite Fh. subst w. intros [Q _]. congruence.
Qed.

Lemma begins_hex_iff s n : begins_hex (Z.of_nat n) s <-> (n <= length (LiteModel.hex_prefix s))%nat.
Proof.
  revert s. induction n as [|n IH]; intros s.
  - split; [lia|]. intros _. exists [], s, []. split; [reflexivity|]. split; reflexivity.
  - split.
    + intros (p & rest & x & -> & E & L). destruct p as [|a [|b p]]; cbn [hex_decode] in E.
      * assert (x = []) by congruence. subst x. change (zlen (@nil Z)) with 0 in L. lia.
      * destruct (hex_val a); discriminate.
      * destruct (hex_val a) as [y|] eqn:Ea; [|discriminate]. destruct (hex_val b) as [z|] eqn:Eb; [|discriminate]. apply bind_ok in E as (q & E & Q). cbn [app LiteModel.hex_prefix]. rewrite Ea, Eb. cbn [length].
        assert (L' : (n <= length (LiteModel.hex_prefix (p ++ rest)))%nat); [|lia]. apply IH. exists p, rest, q. split; [reflexivity|]. split; [exact E|].
        assert (Q' : x = (y * 16 + z) :: q) by congruence. subst x. rewrite zlen_cons in L. lia.
    + intros L. destruct s as [|a [|b s]]; cbn [LiteModel.hex_prefix length] in L; [lia|lia|]. destruct (hex_val a) as [y|] eqn:Ea; [|cbn [length] in L; lia]. destruct (hex_val b) as [z|] eqn:Eb; [|cbn [length] in L; lia].
      cbn [length] in L. destruct (proj2 (IH s)) as (p & rest & x & -> & E & Lx); [lia|]. exists (a :: b :: p), rest, ((y * 16 + z) :: x). split; [reflexivity|]. cbn [hex_decode]. rewrite Ea, Eb, E. split; [reflexivity|]. rewrite zlen_cons. lia.
Qed.
Lemma zen_step H ap sw : hash_ok H -> prefixes_ok ap ->
  forall w t i u, sized t -> tx_witness t = w -> (i < length (tx_vins t))%nat -> when (hash_step zen H (emptied t) sw ap i u) (zen_hashable w u) (zen_trap w u).
Proof.
  intros HH HP w t i u Sz W L. unfold hash_step. change (k_check zen) with zen_check. unfold zen_check. cbn [bind]. destruct (emptied_nth t i L) as (x & Ex). unfold bytes_for_sig_v. rewrite Ex.
  change (k_all zen) with 1. change (k_fork zen) with false. change (TypeP2PKH =? TypeP2PKH) with true. cbv iota. unfold zen_hashable, zen_trap. pose proof (begins_hex_iff (u_lock u) 23) as BH. change (Z.of_nat 23) with 23 in BH.
  destruct (u_sigtype u =? 1) eqn:St; cbn [negb bind]; [|apply when_err; [reflexivity|intros [F _]; lia|intros [F _]; lia]]. apply Z.eqb_eq in St.
  destruct (tx_bytes_emptied sw t (LiteModel.hex_prefix (u_lock u)) i Sz) as [[Tw (b & ->)]|[Tw ->]]; cbn [bind].
  2: { apply when_err; [reflexivity|intros (_ & F & _); congruence|intros (_ & F & _); congruence]. }
  unfold new_txhash_v. cbv zeta. change (TypeP2PKH =? TypeP2PKH) with true. cbv iota. set (l := LiteModel.hex_prefix (u_lock u)). fold l in BH.
  destruct (Nat.le_gt_cases 23 (length l)) as [G|G].
  - apply when_ok; [|subst w; tauto|tauto]. destruct (slice_some l 3 23) as (h & -> & Bh & Lh); [lia|lia|unfold zlen; lia|apply hex_prefix_bytes|]. cbn [bind]. destruct (base58_some zen H ap eq_refl HH HP h Bh Lh) as (a & ->). cbn [bind]. eauto.
  - apply when_panic; [|intros (_ & _ & F); apply BH in F; lia|subst w; split; [exact St|]; split; [exact Tw|]; intros F; apply BH in F; lia]. rewrite (proj2 (slice_panic l 3 23)); [reflexivity|]. unfold zlen. lia.
Qed.

(** ** C158 *)
Theorem fork_hashing_crashes_exactly : forall K H ap txHex us segwitOn, In K [bch; bsv] -> hash_ok H -> prefixes_ok ap ->
  (create_hashes_v K H txHex us segwitOn ap = Panic <->
   decoder_crash 1 txHex segwitOn \/ entry_crash txHex us segwitOn (fork_hashable segwitOn) (fun _ => fork_trap)).
Proof.
  intros K H ap txHex us sw Hin HH HP. apply create_panics; [destruct Hin as [<-|[<-|[]]]; reflexivity|]. exact (fork_step K H ap sw Hin HH HP).
Qed.
Theorem zen_hashing_crashes_exactly : forall H ap txHex us segwitOn, hash_ok H -> prefixes_ok ap ->
  (create_hashes_v zen H txHex us segwitOn ap = Panic <-> decoder_crash 1 txHex segwitOn \/ entry_crash txHex us segwitOn zen_hashable zen_trap).
Proof. intros H ap txHex us sw HH HP. apply create_panics; [reflexivity|]. exact (zen_step H ap sw HH HP). Qed.

(** A key-hash entry and then a witness script: the program ends. With signature type 1 for the first entry there is an error
    instead, and so there is with a redeem text for the second. *)
Definition ex_witness_after (ht : Z) (redeem : bytes) : list unlock := [ex_unlock (p2pkh_script (repeat 7 20)) [] ht; ex_unlock (witness_v0_script (repeat 7 20)) redeem 0x41].
Example fork_hashing_example :
  entry_crash ex_fhex (ex_witness_after 0x41 []) true (fork_hashable true) (fun _ => fork_trap) /\
  create_hashes_v bch toy_hash ex_fhex (ex_witness_after 0x41 []) true btc_main = Panic /\
  create_hashes_v bch toy_hash ex_fhex (ex_witness_after 1 []) true btc_main = Err /\ create_hashes_v bsv toy_hash ex_fhex (ex_witness_after 0x41 [1]) true btc_main = Err.
Proof.
  split; [|repeat split; vm_compute; reflexivity]. eexists _, _. split; [vm_compute; reflexivity|]. split; [vm_compute; reflexivity|]. split; [reflexivity|].
  exists [ex_unlock (p2pkh_script (repeat 7 20)) [] 0x41], (ex_unlock (witness_v0_script (repeat 7 20)) [] 0x41), []. split; [reflexivity|]. split.
  - repeat constructor. eexists. split; [vm_compute; reflexivity|]. left. split; [discriminate|]. exists (repeat 7 20). split; reflexivity.
  - split; [reflexivity|]. split; [discriminate|]. split; [reflexivity|]. exists (repeat 7 20). split; vm_compute; reflexivity.
Qed.
(** zencashTransaction: the second text breaks off after 22 bytes. *)
Example zen_hashing_example :
  entry_crash ex_fhex [ex_unlock (p2pkh_script (repeat 7 20)) [] 1; ex_unlock (repeat 7 22) [] 1] false zen_hashable zen_trap /\
  create_hashes_v zen toy_hash ex_fhex [ex_unlock (p2pkh_script (repeat 7 20)) [] 1; ex_unlock (repeat 7 22) [] 1] false btc_main = Panic.
Proof.
  split; [|vm_compute; reflexivity]. eexists _, _. split; [vm_compute; reflexivity|]. split; [vm_compute; reflexivity|]. split; [reflexivity|].
  eexists [_], _, []. split; [reflexivity|]. change 23 with (Z.of_nat 23). cbn [tx_witness]. split; [constructor; [|constructor]|]; (split; [reflexivity|]; split; [reflexivity|]);
    [apply (begins_hex_iff _ 23); vm_compute; lia|intros F; apply (begins_hex_iff _ 23) in F; vm_compute in F; lia].
Qed.
Print Assumptions fork_hashing_crashes_exactly.
Print Assumptions zen_hashing_crashes_exactly.
