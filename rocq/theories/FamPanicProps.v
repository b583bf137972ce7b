(** C150: exactly when transaction creation, hashing and signature insertion crash in btcTransaction and the packages derived from it. *)
From Coq Require Import String ZArith List Bool Lia ZifyBool ZifyNat.
From Verif Require Import Go GoFacts GoFacts2 Rd Base58Model Base58Spec Base58Props Base58Proofs Base58CheckModel Base58CheckSpec Base58CheckProofs Base58CheckProps AddressProofs
  Bech32Model Bech32Spec Bech32Proofs Bech32Text Bech32DecSpec Bech32DecProps CashAddrModel CashAddrProps AddressModel SigModel SigDerProps BtcModel BtcSpec BtcProofs BtcTxProofs BtcSigProps BtcVerModel BtcVerProps
  BtcDecodeProps BtcMultiProps OmniModel FamModel FamProofs FamSigProps Toy.
From Verif Require LiteModel.
Import ListNotations.
Open Scope Z_scope.
Ltac Zify.zify_post_hook ::= idtac.

(** ** Specification *)
(** The two kinds of address text that end the program: an empty or correctly spelt bech32 text with fewer than eight digits,
    and a base58 text of fewer than four bytes, or of fewer than 24 with a correct checksum. *)
Definition bech32_crash (a : list Z) : Prop := a = [] \/ exists hrp ds, well_spelt a hrp ds /\ (length ds < 8)%nat.
Definition base58_crash (H : bytes -> bytes) (a : list Z) : Prop :=
  exists r, is_bytes r /\ is_base58_of bitcoin_rs r a /\ (zlen r < 4 \/ exists payload, r = checked H payload /\ zlen r < 24).
(** The input names a transaction by 64 hex digits. *)
Definition named (v : vin) : Prop := exists id, hex_decode (v_txid v) = Ok id /\ zlen id = 32.
(** The first output that [fine] does not cover is one whose address is [bad]. *)
Definition first_bad (fine bad : list Z -> Prop) (vouts : list vout) : Prop :=
  exists paid v rest, vouts = paid ++ v :: rest /\ Forall (fun w => fine (v_addr w)) paid /\ bad (v_addr v).
(** btcTransaction: an address that begins with the network's bech32 prefix is read as bech32, every other one as base58check. *)
Definition btc_payable (H : bytes -> bytes) (ap : addr_prefix) (a : list Z) : Prop := exists lock, script_for H ap a lock.
Definition btc_crash (H : bytes -> bytes) (ap : addr_prefix) (a : list Z) : Prop :=
  (begins (p_bech32 ap) a /\ bech32_crash a) \/ (~ begins (p_bech32 ap) a /\ base58_crash H a).
(** The packages that read an address as bech32 and then as base58check. *)
Definition bech32_readable (a : list Z) : Prop := exists hrp ds, well_spelt a hrp ds /\ (8 <= length ds)%nat.
Definition both_payable (H : bytes -> bytes) (ap : addr_prefix) (a : list Z) : Prop :=
  (begins (p_bech32 ap) a -> bech32_readable a) /\ exists lock, base58_script_for H ap false a lock.
Definition both_crash (H : bytes -> bytes) (ap : addr_prefix) (a : list Z) : Prop :=
  (begins (p_bech32 ap) a /\ bech32_crash a) \/ ((begins (p_bech32 ap) a -> bech32_readable a) /\ base58_crash H a).

(** ** Lemmas *)
Lemma bind_panics {A B} (x : res A) (f : A -> res B) : (y <- x ;; f y) = Panic <-> x = Panic \/ exists y, x = Ok y /\ f y = Panic.
Proof.
  destruct x as [y| |]; cbn [bind]; split; try discriminate; auto.
  - intros E. right. exists y. auto.
  - intros [Q|(z & Q & E)]; [discriminate|]. congruence.
  - intros [Q|(z & Q & _)]; discriminate.
Qed.
Lemma mapr_panics_at {A B} (f : A -> res B) l : mapr f l = Panic <-> exists pre x post, l = pre ++ x :: post /\ Forall (fun y => exists z, f y = Ok z) pre /\ f x = Panic.
Proof.
  induction l as [|a l IH]; cbn [mapr].
  - split; [discriminate|]. intros ([|? ?] & x & post & Q & _); discriminate.
  - rewrite bind_panics. split.
    + intros [E|(z & E & P)]; [exists [], a, l; auto|]. apply bind_panics in P as [P|(? & _ & Q)]; [|discriminate]. apply IH in P as (pre & x & post & -> & F & E'). exists (a :: pre), x, post. split; [reflexivity|]. split; [constructor; eauto|exact E'].
    + intros ([|p pre] & x & post & Q & F & E); injection Q as <- Q; [left; exact E|]. right. apply Forall_cons_iff in F as [(z & Ez) F]. exists z. split; [exact Ez|]. apply bind_panics. left. apply IH. eauto 6.
Qed.
Lemma mapr_fine {A B} (f : A -> res B) l : (forall x, In x l -> f x <> Panic) -> mapr f l <> Panic.
Proof. intros F E. apply mapr_panics_at in E as (pre & x & post & -> & _ & E). apply (F x); [apply in_or_app; right; left; reflexivity|exact E]. Qed.
Lemma in_bytes_fine sw i : in_bytes sw i <> Panic.
Proof. unfold in_bytes. repeat (destruct (negb _); [discriminate|]). intros E. apply bind_panics in E as [E|(y & _ & E)]; [repeat (destruct (_ =? _) in E; [discriminate|]); discriminate|]. destruct (negb _); discriminate. Qed.
Lemma out_bytes_fine o : out_bytes o <> Panic.
Proof. unfold out_bytes. destruct (negb _); [discriminate|]. destruct (_ =? _); discriminate. Qed.
Lemma in_segwit_bytes_fine i : in_segwit_bytes i <> Panic.
Proof. unfold in_segwit_bytes. destruct (_ =? _); [discriminate|]. destruct (_ || _); [discriminate|]. destruct (_ =? _); discriminate. Qed.
Lemma tx_bytes_fine sw t : tx_bytes sw t <> Panic.
Proof.
  unfold tx_bytes. destruct (_ =? _); [discriminate|]. destruct (_ =? _); [discriminate|]. destruct (negb _); [discriminate|]. destruct (negb _); [discriminate|].
  intros E. apply bind_panics in E as [E|(a & _ & E)]; [revert E; apply mapr_fine; intros; apply in_bytes_fine|].
  apply bind_panics in E as [E|(b & _ & E)]; [revert E; apply mapr_fine; intros; apply out_bytes_fine|].
  apply bind_panics in E as [E|(c & _ & E)]; [|discriminate]. destruct (tx_witness t); [|discriminate]. revert E. apply mapr_fine. intros; apply in_segwit_bytes_fine.
Qed.
Lemma new_in_named v : (exists i, new_in v = Ok i) <-> named v.
Proof.
  unfold new_in, reverse_hex, named. split.
  - intros (i & E). destruct (zlen (v_txid v) mod 2 =? 1); [discriminate|]. destruct (hex_decode (v_txid v)) as [x| |]; cbn [bind] in E; try discriminate. exists x. split; [reflexivity|]. rewrite zlen_rev in E. destruct (zlen x =? 32) eqn:Q; [lia|discriminate].
  - intros (x & E & L). rewrite E. destruct (hex_decode_bytes _ _ E) as [_ Le]. replace (zlen (v_txid v) mod 2 =? 1) with false; [|symmetry; apply Z.eqb_neq; unfold zlen; rewrite Le, Nat2Z.inj_mul, Z.mul_comm, Z.mod_mul by lia; lia].
    cbn [bind]. rewrite zlen_rev. replace (zlen x =? 32) with true by lia. eauto.
Qed.
Lemma new_in_fine v : new_in v <> Panic.
Proof. unfold new_in, reverse_hex. destruct (_ =? _); [discriminate|]. pose proof (hex_decode_not_panic (v_txid v)). destruct (hex_decode _) as [x| |]; cbn [bind]; try discriminate; [destruct (_ =? _); discriminate|congruence]. Qed.
Lemma zlen_zero {A} (l : list A) : (zlen l =? 0) = true <-> l = [].
Proof. destruct l; [split; reflexivity|]. rewrite zlen_cons. pose proof (zlen_nonneg l). split; [lia|discriminate]. Qed.
Lemma new_ins_cases vins : new_ins vins <> Panic /\ ((exists i, new_ins vins = Ok i) <-> vins <> [] /\ Forall named vins).
Proof.
  unfold new_ins. destruct (zlen vins =? 0) eqn:Zv.
  - apply zlen_zero in Zv. split; [discriminate|]. split; [intros (? & Q); discriminate|intros [Q _]; contradiction].
  - split; [apply mapr_fine; intros; apply new_in_fine|]. split.
    + intros (i & E). split; [intros ->; discriminate|]. apply mapr_forall2 in E. apply Forall_forall. intros v Iv. apply new_in_named. clear -E Iv. induction E; [destruct Iv|]. destruct Iv as [<-|Iv]; [eauto|auto].
    + intros [_ F]. induction F as [|v l Nv F IH]; [exists []; reflexivity|]. apply new_in_named in Nv as (i & E). destruct l as [|w l]; [exists [i]; cbn [mapr]; rewrite E; reflexivity|].
      destruct IH as (is & E2); [rewrite zlen_cons; pose proof (zlen_nonneg l); lia|]. exists (i :: is). cbn [mapr] in *. rewrite E. cbn [bind]. rewrite E2. reflexivity.
Qed.
Lemma create_v_panics version outs vins lt r : create_v version outs vins lt r = Panic <-> (vins <> [] /\ Forall named vins) /\ outs = Panic.
Proof.
  destruct (new_ins_cases vins) as [Ni Oi]. unfold create_v. rewrite bind_panics. split.
  - intros [E|(i & E & P)]; [contradiction|]. split; [apply Oi; eauto|]. cbv zeta in P. apply bind_panics in P as [P|(o & _ & P)]; [exact P|]. apply bind_panics in P as [P|(b & _ & P)]; [exfalso; exact (tx_bytes_fine _ _ P)|discriminate].
  - intros [V ->]. apply Oi in V as (i & E). right. exists i. split; [exact E|]. reflexivity.
Qed.
Lemma decode_check_crash H a : hash_ok H -> is_bytes a -> decode_check bitcoin_al H a = Panic <-> base58_crash H a.
Proof.
  intros HH Ba. rewrite (decode_check_panics_iff H bitcoin_rs bitcoin_al a HH bitcoin_alphabet_ok bitcoin_al_eq Ba). unfold base58_crash.
  assert (D : forall r, base58_decode bitcoin_al a = Ok r <-> is_bytes r /\ is_base58_of bitcoin_rs r a).
  { intros r. split.
    - intros E. pose proof (base58_encode_decode bitcoin_rs bitcoin_al a r bitcoin_alphabet_ok bitcoin_al_eq Ba E) as [Br En]. split; [exact Br|]. exact (base58_numeral bitcoin_rs bitcoin_al r a bitcoin_alphabet_ok bitcoin_al_eq Br En).
    - intros [Br N]. destruct (base58_decode_encode bitcoin_rs bitcoin_al r bitcoin_alphabet_ok bitcoin_al_eq Br) as (s & E & D). pose proof (base58_numeral bitcoin_rs bitcoin_al _ _ bitcoin_alphabet_ok bitcoin_al_eq Br E) as N'. rewrite (base58_of_unique _ _ _ _ N N'). exact D. }
  split.
  - intros (r & E & C). apply D in E as [Br N]. exists r. split; [exact Br|]. split; [exact N|]. destruct C as [C|(p & _ & C)]; [left; exact C|right; exists p; exact C].
  - intros (r & Br & N & C). exists r. split; [apply D; auto|]. destruct C as [C|(p & Er & C)]; [left; exact C|]. right. exists p. split; [|auto]. subst r. unfold checked in Br. apply is_bytes_app in Br as [Bp _]. exact Bp.
Qed.
Lemma bech32_readable_iff a : (exists h, bech32_decode a = Ok h) <-> bech32_readable a.
Proof.
  split.
  - intros (h & E). apply bech32_decodes_exactly in E as (hrp & ds & W & L & _). exists hrp, ds. auto.
  - intros (hrp & ds & W & L). destruct (spelt_firstn _ _ _ W L) as (h & _ & E). eauto.
Qed.
Lemma new_out_cases H ap v : hash_ok H -> prefixes_ok ap -> is_bytes (v_addr v) ->
  ((exists o, new_out H ap v = Ok o) <-> btc_payable H ap (v_addr v)) /\ (new_out H ap v = Panic <-> btc_crash H ap (v_addr v)).
Proof.
  intros HH HP Ba. split.
  - unfold btc_payable. split.
    + intros (o & E). apply new_out_iff in E as [_ S]; [eauto|assumption..].
    + intros (l & S). exists {| out_amount := le_bytes 8 (v_amount v); out_lock := l |}. apply new_out_iff; auto.
  - unfold new_out, btc_crash, bech32_crash. rewrite <- bech32_crashes_exactly, <- (decode_check_crash H _ HH Ba). cbv zeta.
    destruct (is_prefix (p_bech32 ap) (v_addr v)) eqn:P.
    + apply is_prefix_begins in P. rewrite bind_panics. split; [intros [E|(? & _ & Q)]; [left; auto|discriminate]|]. intros [[_ E]|[N _]]; [left; exact E|contradiction].
    + assert (~ begins (p_bech32 ap) (v_addr v)) by (rewrite <- is_prefix_begins; congruence). rewrite bind_panics. split.
      * intros [E|([p h] & _ & Q)]; [right; auto|]. destruct (negb _); [discriminate|]. destruct (beq _ _); [discriminate|]. destruct (_ || _); discriminate.
      * intros [[B _]|[_ E]]; [contradiction|left; exact E].
Qed.
Lemma base58_script_panics H ap third a : hash_ok H -> is_bytes a -> base58_script H ap third a = Panic <-> base58_crash H a.
Proof.
  intros HH Ba. rewrite <- (decode_check_crash H a HH Ba). unfold base58_script. rewrite bind_panics. split; [|auto]. intros [E|([p h] & _ & Q)]; [exact E|].
  destruct (negb _); [discriminate|]. cbv zeta in Q. destruct (beq _ _); [discriminate|]. destruct (_ || _); discriminate.
Qed.
Lemma both_outs_cases H ap tail v : hash_ok H -> prefixes_ok ap -> is_bytes (v_addr v) ->
  ((exists o, both_outs H ap tail v = Ok o) <-> both_payable H ap (v_addr v)) /\ (both_outs H ap tail v = Panic <-> both_crash H ap (v_addr v)).
Proof.
  intros HH HP Ba. unfold both_outs, both_payable, both_crash. pose proof (is_prefix_begins (p_bech32 ap) (v_addr v)) as PB. pose proof (bech32_readable_iff (v_addr v)) as R. pose proof (bech32_crashes_exactly (v_addr v)) as C. fold (bech32_crash (v_addr v)) in C.
  pose proof (base58_script_panics H ap false (v_addr v) HH Ba) as P. pose proof (fun l => base58_script_iff H ap false (v_addr v) l HH HP Ba) as S.
  assert (T : forall x : list txout, ((exists o, (s <- base58_script H ap false (v_addr v) ;; Ok (x ++ [paying (v_amount v) (s ++ tail)])) = Ok o) <-> exists lock, base58_script_for H ap false (v_addr v) lock) /\
     ((s <- base58_script H ap false (v_addr v) ;; Ok (x ++ [paying (v_amount v) (s ++ tail)])) = Panic <-> base58_crash H (v_addr v))).
  { intros x. split.
    - split; [intros (o & E); apply bind_ok in E as (s & E & _); exists s; apply S; exact E|]. intros (l & Q). apply S in Q. rewrite Q. cbn [bind]. eauto.
    - rewrite bind_panics, P. split; [intros [E|(? & _ & Q)]; [exact E|discriminate]|auto]. }
  destruct (is_prefix (p_bech32 ap) (v_addr v)).
  - assert (B : begins (p_bech32 ap) (v_addr v)) by (apply PB; reflexivity). destruct (bech32_decode (v_addr v)) as [h| |] eqn:E; cbn [bind].
    + assert (Rd : bech32_readable (v_addr v)) by (apply R; eauto). assert (NC : ~ bech32_crash (v_addr v)) by (intros Q; apply C in Q; discriminate). specialize (T [paying (v_amount v) (0 :: u8 (zlen h) :: h)]) as [T1 T2]. rewrite T1, T2. split; [tauto|]. tauto.
    + assert (NR : ~ bech32_readable (v_addr v)) by (intros Q; apply R in Q as (? & Q); discriminate). assert (NC : ~ bech32_crash (v_addr v)) by (intros Q; apply C in Q; discriminate). split; split; [intros (? & Q); discriminate|tauto|discriminate|tauto].
    + assert (Cr : bech32_crash (v_addr v)) by (apply C; reflexivity). assert (NR : ~ bech32_readable (v_addr v)) by (intros Q; apply R in Q as (? & Q); discriminate). split; split; [intros (? & Q); discriminate|tauto|auto|reflexivity].
  - assert (B : ~ begins (p_bech32 ap) (v_addr v)) by (intros Q; apply PB in Q; discriminate). cbn [bind]. specialize (T []) as [T1 T2]. rewrite T1, T2. split; tauto.
Qed.
Lemma outs_panic {A} (f : vout -> res A) fine bad l : Forall (fun v => is_bytes (v_addr v)) l ->
  (forall v, is_bytes (v_addr v) -> ((exists o, f v = Ok o) <-> fine (v_addr v)) /\ (f v = Panic <-> bad (v_addr v))) -> mapr f l = Panic <-> first_bad fine bad l.
Proof.
  intros B F. rewrite mapr_panics_at. unfold first_bad. split.
  - intros (pre & x & post & -> & Fp & E). apply Forall_app in B as [Bp Bx]. apply Forall_cons_iff in Bx as [Bx _]. exists pre, x, post. split; [reflexivity|]. split; [|apply F; assumption].
    clear -Bp Fp F. induction Fp as [|y pre Q _ IH]; [constructor|]. apply Forall_cons_iff in Bp as [By Bp]. constructor; [apply F; assumption|auto].
  - intros (pre & x & post & -> & Fp & E). apply Forall_app in B as [Bp Bx]. apply Forall_cons_iff in Bx as [Bx _]. exists pre, x, post. split; [reflexivity|]. split; [|apply F; assumption].
    clear -Bp Fp F. induction Fp as [|y pre Q _ IH]; [constructor|]. apply Forall_cons_iff in Bp as [By Bp]. constructor; [apply F; assumption|auto].
Qed.
Lemma not_empty_bad fine bad l : first_bad fine bad l -> (zlen l =? 0) = false.
Proof. intros (p & v & r & -> & _). destruct (zlen (p ++ v :: r) =? 0) eqn:E; [|reflexivity]. apply zlen_zero in E. destruct p; discriminate. Qed.

(** ** C150, creation *)
(** btcTransaction (also omniTransaction without a token payload): it crashes exactly when all inputs are named and the first address
    that cannot be paid is one of the crashing texts. *)
Theorem btc_creation_crashes_exactly : forall H ap vins vouts lt r, hash_ok H -> prefixes_ok ap -> Forall (fun v => is_bytes (v_addr v)) vouts ->
  (create_empty H vins vouts lt r ap = Panic <->
   vins <> [] /\ Forall named vins /\ first_bad (btc_payable H ap) (btc_crash H ap) vouts).
Proof.
  intros H ap vins vouts lt r HH HP B.
  assert (E : create_empty H vins vouts lt r ap = create_v 2 (new_outs H ap vouts) vins lt r).
  { unfold create_empty, new_empty_tx, create_v. destruct (new_ins vins); cbn [bind]; [|reflexivity..]. cbv zeta. destruct (new_outs H ap vouts); reflexivity. }
  rewrite E, create_v_panics. unfold new_outs. pose proof (outs_panic (new_out H ap) (btc_payable H ap) (btc_crash H ap) vouts B (fun v Q => new_out_cases H ap v HH HP Q)) as Q.
  destruct (zlen vouts =? 0) eqn:Zv; [|tauto]. split; [intros [_ N]; discriminate|]. intros (_ & _ & N). apply not_empty_bad in N. congruence.
Qed.
(** bitcoincashTransaction and bitcoinsvTransaction read every address as base58check. *)
Theorem fork_creation_crashes_exactly : forall H ap vins vouts lt r, hash_ok H -> prefixes_ok ap -> Forall (fun v => is_bytes (v_addr v)) vouts ->
  (create_fork H vins vouts lt r ap = Panic <->
   vins <> [] /\ Forall named vins /\ first_bad (fun a => exists lock, base58_script_for H ap true a lock) (base58_crash H) vouts).
Proof.
  intros H ap vins vouts lt r HH HP B. unfold create_fork. rewrite create_v_panics. unfold fork_outs.
  pose proof (outs_panic (fun v => s <- base58_script H ap true (v_addr v) ;; Ok (paying (v_amount v) s)) (fun a => exists lock, base58_script_for H ap true a lock) (base58_crash H) vouts B) as Q.
  assert (F : forall v, is_bytes (v_addr v) -> ((exists o, (s <- base58_script H ap true (v_addr v) ;; Ok (paying (v_amount v) s)) = Ok o) <-> exists lock, base58_script_for H ap true (v_addr v) lock) /\
     ((s <- base58_script H ap true (v_addr v) ;; Ok (paying (v_amount v) s)) = Panic <-> base58_crash H (v_addr v))).
  { intros v Bv. split.
    - split; [intros (o & E); apply bind_ok in E as (s & E & _); exists s; apply base58_script_iff; assumption|]. intros (l & E). apply base58_script_iff in E; [|assumption..]. rewrite E. cbn [bind]. eauto.
    - rewrite bind_panics, base58_script_panics by assumption. split; [intros [E|(? & _ & N)]; [exact E|discriminate]|auto]. }
  specialize (Q F). destruct (zlen vouts =? 0) eqn:Zv; [|tauto]. split; [intros [_ N]; discriminate|]. intros (_ & _ & N). apply not_empty_bad in N. congruence.
Qed.
(** hcTransaction and cxcTransaction read an address with the bech32 prefix both ways. *)
Theorem both_creation_crashes_exactly : forall H ap vins vouts lt r, hash_ok H -> prefixes_ok ap -> Forall (fun v => is_bytes (v_addr v)) vouts ->
  (create_hc H vins vouts lt r ap = Panic <-> vins <> [] /\ Forall named vins /\ first_bad (both_payable H ap) (both_crash H ap) vouts) /\
  (create_cxc H vins vouts lt r ap = Panic <-> vins <> [] /\ Forall named vins /\ first_bad (both_payable H ap) (both_crash H ap) vouts).
Proof.
  intros H ap vins vouts lt r HH HP B. unfold create_hc, create_cxc. rewrite !create_v_panics.
  assert (Q : plain_outs H ap vouts = Panic <-> first_bad (both_payable H ap) (both_crash H ap) vouts); [|tauto].
  pose proof (outs_panic (both_outs H ap []) (both_payable H ap) (both_crash H ap) vouts B (fun v Q => both_outs_cases H ap [] v HH HP Q)) as Q.
  unfold plain_outs. destruct (zlen vouts =? 0) eqn:Zv; [split; [discriminate|]; intros N; apply not_empty_bad in N; congruence|]. rewrite bind_panics, <- Q. split; [intros [E|(? & _ & N)]; [exact E|discriminate]|auto].
Qed.
(** zencashTransaction, which needs the hex text of a block hash first. *)
Theorem zen_creation_crashes_exactly : forall H ap vins vouts lt r blockHash height, hash_ok H -> prefixes_ok ap -> Forall (fun v => is_bytes (v_addr v)) vouts ->
  (create_zen H vins vouts lt r ap blockHash height = Panic <->
   vins <> [] /\ Forall named vins /\ (exists bh, hex_decode blockHash = Ok bh) /\ first_bad (both_payable H ap) (both_crash H ap) vouts).
Proof.
  intros H ap vins vouts lt r bhash height HH HP B. unfold create_zen. rewrite create_v_panics.
  assert (Q : zen_outs H ap bhash height vouts = Panic <-> (exists bh, hex_decode bhash = Ok bh) /\ first_bad (both_payable H ap) (both_crash H ap) vouts); [|tauto].
  unfold zen_outs. destruct (zlen vouts =? 0) eqn:Zv; [split; [discriminate|]; intros [_ N]; apply not_empty_bad in N; congruence|].
  unfold reverse_hex. destruct (hex_decode bhash) as [x| |] eqn:E.
  - destruct (hex_decode_bytes _ _ E) as [_ Le]. replace (zlen bhash mod 2 =? 1) with false; [|symmetry; apply Z.eqb_neq; unfold zlen; rewrite Le, Nat2Z.inj_mul, Z.mul_comm, Z.mod_mul by lia; lia]. cbn [bind].
    pose proof (outs_panic (both_outs H ap (zen_tail (rev x) height)) (both_payable H ap) (both_crash H ap) vouts B (fun v Q => both_outs_cases H ap _ v HH HP Q)) as Q.
    rewrite bind_panics, <- Q. split; [intros [E'|(? & _ & N)]; [split; [eauto|exact E']|discriminate]|tauto].
  - destruct (_ =? 1); cbn [bind]; (split; [discriminate|intros [(? & N) _]; discriminate]).
  - exfalso. exact (hex_decode_not_panic _ E).
Qed.

(** ** Hashing: lemmas *)
(** btcTransaction, omniTransaction and hcTransaction as one of the packages of FamModel.v. *)
Definition btc_coin := {| k_version := 2; k_all := 1; k_check := check_script; k_fork := false; k_address := base58_address; k_bech32 := true |}.
Lemma btc_coin_bytes H t l r ty st i am sw : bytes_for_sig_v btc_coin H t l r ty st i am sw = bytes_for_sig H t l r ty st i am sw.
Proof. reflexivity. Qed.
Lemma btc_coin_txhash H h l r ty st ap : new_txhash_v btc_coin H h l r ty st ap = new_txhash H h l r ty st ap.
Proof. reflexivity. Qed.
Lemma btc_coin_loop H sw ap us : forall t i, hashes_loop_v btc_coin H t sw ap i us = hashes_loop H t sw ap i us.
Proof.
  induction us as [|u us IH]; intros t i; [reflexivity|]. cbn [hashes_loop_v hashes_loop]. cbv zeta. change (k_check btc_coin) with check_script. destruct (check_script _ _) as [[[l r] ty]| |]; cbn [bind]; [|reflexivity..]. rewrite btc_coin_bytes.
  destruct (bytes_for_sig _ _ _ _ _ _ _ _ _); cbn [bind]; [|reflexivity..]. rewrite btc_coin_txhash. destruct (new_txhash _ _ _ _ _ _ _); cbn [bind]; [|reflexivity..]. rewrite IH. reflexivity.
Qed.
Lemma btc_coin_hashes H txHex us sw ap : create_hashes H txHex us sw ap = create_hashes_v btc_coin H txHex us sw ap.
Proof.
  unfold create_hashes, create_hashes_v, decode_tx. destruct (hex_decode txHex) as [b| |]; cbn [bind]; [|reflexivity..]. change (k_version btc_coin) with 2. destruct (decode_v 2 b sw) as [t| |]; cbn [bind]; [|reflexivity..].
  unfold hashes_for_sig, hashes_for_sig_v. destruct (_ || _); [reflexivity|]. destruct (_ =? _); [reflexivity|]. symmetry. apply btc_coin_loop.
Qed.
Lemma btc_coin_inserts : insert_signatures = insert_signatures_v btc_coin.
Proof. reflexivity. Qed.
(** What a classified script and redeem script must look like for the slices taken of them to exist. *)
Definition sliceable (K : coin) (l r : bytes) (ty : Z) : Prop :=
  is_bytes l /\ is_bytes r /\
  ((ty = TypeP2PKH /\ 23 <= zlen l) \/ (ty = TypeP2WPKH /\ 22 <= zlen l /\ 22 <= zlen r) \/ (ty = TypeBech32 /\ 22 <= zlen l /\ k_bech32 K = true) \/ (ty = TypeMultiSig /\ 2 <= zlen r)).
Definition addresses (K : coin) (H : bytes -> bytes) (ap : addr_prefix) : Prop := forall h, is_bytes h -> length h = 20%nat -> k_address K H ap h <> Panic.
Lemma need_fine {A} n b (f : bytes -> bytes -> res A) : (forall x r, f x r <> Panic) -> need n b f <> Panic.
Proof. intros F. unfold need. destruct (_ <? _); [discriminate|apply F]. Qed.
Lemma script_code_fine r : 2 <= zlen r -> script_code r <> Panic.
Proof.
  intros L. destruct r as [|a [|b r]]; [change (zlen (@nil Z)) with 0 in L; lia|rewrite zlen_cons in L; change (zlen (@nil Z)) with 0 in L; lia|].
  unfold script_code. change (idx (a :: b :: r) 0) with (Ok a). cbn [bind]. change (idx (a :: b :: r) 1) with (Ok b). cbn [bind]. change (slice_from (a :: b :: r) 2) with (slice_from ([a; b] ++ r) 2). rewrite slice_from_post by reflexivity. cbn [bind].
  destruct (a =? 0); cbn [bind]; [|discriminate]. destruct (b =? 0x14); [|discriminate]. destruct (negb _); discriminate.
Qed.
Lemma segwit_bytes_fine H t r i amount : 2 <= zlen r -> segwit_bytes H t r i amount <> Panic.
Proof. intros L. unfold segwit_bytes. pose proof (script_code_fine r L). destruct (script_code r); cbn [bind]; [destruct (_ =? _); discriminate|discriminate|congruence]. Qed.
Lemma encode_check_fine H p h : hash_ok H -> is_bytes p -> is_bytes h -> encode_check bitcoin_al H p h <> Panic.
Proof.
  intros HH Bp Bh. rewrite (encode_check_eq H HH bitcoin_al) by assumption.
  assert (B : is_bytes (checked H (p ++ h))) by (apply checked_bytes; [assumption|apply is_bytes_app; auto]).
  destruct (base58_encode_never_panics bitcoin_rs bitcoin_al _ bitcoin_alphabet_ok bitcoin_al_eq B) as (s & E). rewrite E. discriminate.
Qed.
Lemma bech32_encode_fine p h : is_bytes h -> bech32_encode p bech32_alphabet h (Some [0]) <> Panic.
Proof.
  intros B. unfold bech32_encode. cbv zeta. destruct (extend_spec h B) as (_ & D & _). rewrite lookup_bsyms; [discriminate|]. apply Forall_app. split; [constructor; [unfold d5; lia|exact D]|]. rewrite calc_checksum_digits. apply digits6_range.
Qed.
Lemma slice_some (l : bytes) i j : 0 <= i -> i <= j -> j <= zlen l -> is_bytes l -> exists x, slice l i j = Ok x /\ is_bytes x /\ length x = Z.to_nat (j - i).
Proof.
  intros A B C D. destruct (slice l i j) as [x| |] eqn:E.
  - exists x. split; [reflexivity|]. unfold slice in E. destruct (_ && _ && _) in E; [|discriminate]. injection E as <-. split; [apply firstn_bytes, skipn_bytes, D|]. rewrite firstn_length, skipn_length. unfold zlen in C. lia.
  - unfold slice in E. destruct (_ && _ && _) eqn:Q in E; discriminate.
  - unfold slice in E. destruct (_ && _ && _) eqn:Q in E; [discriminate|]. lia.
Qed.
Lemma bytes_for_sig_fine K H t l r ty st i am sw : sliceable K l r ty -> (i < length (tx_vins t))%nat -> bytes_for_sig_v K H t l r ty st i am sw <> Panic.
Proof.
  intros (_ & _ & C) L. unfold bytes_for_sig_v. destruct (nth_error (tx_vins t) i) as [x|] eqn:E; [|apply nth_error_None in E; lia]. destruct (negb _); [discriminate|]. intros P. apply bind_panics in P as [P|(? & _ & P)]; [|discriminate]. revert P.
  destruct C as [(-> & Ll)|[(-> & Ll & Lr)|[(-> & Ll & _)|(-> & Lr)]]]; cbn [TypeP2PKH TypeP2WPKH TypeBech32 TypeMultiSig Z.eqb Pos.eqb].
  - destruct (k_fork K); [apply segwit_bytes_fine; lia|apply tx_bytes_fine].
  - apply segwit_bytes_fine. destruct (k_fork K); lia.
  - apply segwit_bytes_fine. lia.
  - destruct sw; [apply segwit_bytes_fine; lia|apply tx_bytes_fine].
Qed.
Lemma new_txhash_fine K H h l r ty st ap : hash_ok H -> prefixes_ok ap -> addresses K H ap -> sliceable K l r ty -> new_txhash_v K H h l r ty st ap <> Panic.
Proof.
  intros HH (P1 & P2 & _) A (Bl & Br & C). unfold new_txhash_v. cbv zeta.
  destruct C as [(-> & Ll)|[(-> & Ll & Lr)|[(-> & Ll & Kb)|(-> & Lr)]]]; cbn [TypeP2PKH TypeP2WPKH TypeBech32 TypeMultiSig Z.eqb Pos.eqb].
  - destruct (slice_some l 3 23) as (x & -> & Bx & Lx); [lia|lia|lia|exact Bl|]. cbn [bind]. pose proof (A x Bx Lx). destruct (k_address K H ap x); cbn [bind]; [discriminate|discriminate|congruence].
  - destruct (slice_some l 2 22) as (x & -> & Bx & Lx); [lia|lia|lia|exact Bl|]. cbn [bind]. pose proof (encode_check_fine H _ x HH P2 Bx). destruct (encode_check _ _ _ _); cbn [bind]; [discriminate|discriminate|congruence].
  - rewrite Kb. unfold slice_from. destruct (slice_some l 2 (zlen l)) as (x & -> & Bx & Lx); [lia|lia|lia|exact Bl|]. cbn [bind]. pose proof (bech32_encode_fine (p_bech32 ap) x Bx). destruct (bech32_encode _ _ _ _); cbn [bind]; [discriminate|discriminate|congruence].
  - pose proof (multi_details_no_panic r). destruct (multi_details r) as [[n ks]| |]; cbn [bind]; [discriminate|discriminate|congruence].
Qed.
Lemma hashes_loop_fine K H sw ap us : hash_ok H -> prefixes_ok ap -> addresses K H ap ->
  Forall (fun u => k_check K (u_lock u) (u_redeem u) <> Panic /\ forall l r ty, k_check K (u_lock u) (u_redeem u) = Ok (l, r, ty) -> sliceable K l r ty) us ->
  forall t i, (i + length us <= length (tx_vins t))%nat -> hashes_loop_v K H t sw ap i us <> Panic.
Proof.
  intros HH HP A. induction 1 as [|u us [N C] _ IH]; intros t i L; cbn [hashes_loop_v]; [discriminate|]. cbv zeta. cbn [length] in L.
  destruct (k_check K (u_lock u) (u_redeem u)) as [[[l r] ty]| |]; cbn [bind]; [|discriminate|congruence]. specialize (C _ _ _ eq_refl).
  assert (Lt : length (tx_vins (set_vins (map set_empty (tx_vins t)) t)) = length (tx_vins t)) by (cbn [set_vins tx_vins]; apply map_length).
  intros P. apply bind_panics in P as [P|(b & _ & P)]; [revert P; apply bytes_for_sig_fine; [exact C|lia]|].
  apply bind_panics in P as [P|(th & _ & P)]; [revert P; apply new_txhash_fine; assumption|].
  apply bind_panics in P as [P|(? & _ & P)]; [|discriminate]. revert P. apply IH. lia.
Qed.
Lemma create_hashes_cases K H txHex us sw ap : hash_ok H -> prefixes_ok ap -> addresses K H ap ->
  Forall (fun u => k_check K (u_lock u) (u_redeem u) <> Panic /\ forall l r ty, k_check K (u_lock u) (u_redeem u) = Ok (l, r, ty) -> sliceable K l r ty) us ->
  create_hashes_v K H txHex us sw ap = Panic <-> exists b, hex_decode txHex = Ok b /\ decode_v (k_version K) b sw = Panic.
Proof.
  intros HH HP A F. unfold create_hashes_v. rewrite bind_panics. split.
  - intros [E|(b & E & P)]; [exfalso; exact (hex_decode_not_panic _ E)|]. exists b. split; [exact E|]. apply bind_panics in P as [P|(t & _ & P)]; [exact P|]. exfalso. unfold hashes_for_sig_v in P.
    destruct ((zlen (tx_vins t) =? 0) || negb (zlen (tx_vins t) =? zlen us)) eqn:Q; [discriminate|]. destruct (_ =? _) in P; [discriminate|]. apply orb_false_iff in Q as [_ Q]. revert P. apply hashes_loop_fine; try assumption. unfold zlen in Q. lia.
  - intros (b & E & P). right. exists b. rewrite P. auto.
Qed.
Lemma hex_of s x : hex_decode s = Ok x -> is_bytes x.
Proof. intros E. apply hex_decode_bytes in E as [B _]. exact B. Qed.
Lemma zlen20 (h : bytes) : length h = 20%nat -> zlen h = 20.
Proof. unfold zlen. lia. Qed.
Lemma check_script_fine lk rd : check_script lk rd <> Panic.
Proof.
  unfold check_script. pose proof (hex_decode_not_panic lk). destruct (hex_decode lk) as [x| |]; cbn [bind]; [|discriminate|congruence]. cbv zeta. destruct (_ && _ && _ && _ && _ && _); [destruct (_ =? _); discriminate|].
  destruct (_ && _ && _ && _). { pose proof (hex_decode_not_panic rd). destruct (hex_decode rd) as [y| |]; cbn [bind]; [|discriminate|congruence]. destruct (_ && _ && _); [discriminate|]. destruct (_ && _); discriminate. }
  destruct (_ && _ && _); [|discriminate]. destruct (_ =? _); discriminate.
Qed.
Lemma fork_check_fine lk rd : fork_check lk rd <> Panic.
Proof.
  unfold fork_check. pose proof (hex_decode_not_panic lk). destruct (hex_decode lk) as [x| |]; cbn [bind]; [|discriminate|congruence]. cbv zeta. destruct (_ && _ && _ && _ && _ && _); [discriminate|].
  destruct (_ && _ && _ && _). { pose proof (hex_decode_not_panic rd). destruct (hex_decode rd) as [y| |]; cbn [bind]; [|discriminate|congruence]. destruct (_ && _ && _); [discriminate|]. destruct (_ && _); discriminate. }
  destruct (_ && _ && _); [|discriminate]. destruct (_ =? _); discriminate.
Qed.
Lemma cxc_check_fine lk rd : cxc_check lk rd <> Panic.
Proof.
  unfold cxc_check. pose proof (hex_decode_not_panic lk). destruct (hex_decode lk) as [x| |]; cbn [bind]; [|discriminate|congruence]. cbv zeta. destruct (_ && _ && _ && _ && _ && _); [destruct (_ =? _); discriminate|].
  destruct (_ && _ && _ && _). { pose proof (hex_decode_not_panic rd). destruct (hex_decode rd) as [y| |]; cbn [bind]; [|discriminate|congruence]. destruct (_ && _ && _); [discriminate|]. destruct (_ && _); discriminate. }
  destruct (_ && _ && _); [|discriminate]. destruct (_ =? _); discriminate.
Qed.
Lemma base58_addresses K H ap : k_address K = base58_address -> hash_ok H -> prefixes_ok ap -> addresses K H ap.
Proof. intros E HH (P1 & _) h Bh _. rewrite E. apply encode_check_fine; assumption. Qed.
Lemma cash_addresses H ap : hash_ok H -> prefixes_ok ap -> addresses bch H ap.
Proof.
  intros HH HP h Bh Lh E. change (k_address bch) with cash_address in E. unfold cash_address, address_encode in E. rewrite zlen_cons in E. replace (1 + zlen h) with 21 in E by (unfold zlen; lia).
  destruct (cash_roundtrip (str "bitcoincash") 0 h) as (s & E' & _); [|apply is_bytes_cons; split; [unfold is_byte; lia|exact Bh]|].
  - split; [discriminate|]. vm_compute. repeat constructor; congruence.
  - change (cash_encode (str "bitcoincash") bech32_alphabet (0 :: h) = Panic) in E. congruence.
Qed.

(** ** C150, hashing *)
(** The transaction text is hex and its bytes are among those that crash the decoder (C135). *)
Definition decoder_crash (version : Z) (txHex : list Z) (segwitOn : bool) : Prop :=
  exists b, hex_decode txHex = Ok b /\ decode_v version b segwitOn = Panic.
(** btcTransaction, omniTransaction, hcTransaction and cxcTransaction: whatever scripts are to be unlocked. *)
Theorem hashing_crashes_exactly : forall H ap txHex us segwitOn, hash_ok H -> prefixes_ok ap ->
  (create_hashes H txHex us segwitOn ap = Panic <-> decoder_crash 2 txHex segwitOn) /\
  (create_hashes_v cxc H txHex us segwitOn ap = Panic <-> decoder_crash 1 txHex segwitOn).
Proof.
  intros H ap txHex us sw HH HP. split.
  - rewrite btc_coin_hashes. apply (create_hashes_cases btc_coin); try assumption; [apply base58_addresses; auto|]. apply Forall_forall. intros u _. split; [apply check_script_fine|]. intros l r ty E. apply check_script_iff in E as (El & Er & C). apply hex_of in El, Er. split; [exact El|]. split; [exact Er|].
    destruct C as [(-> & _ & h & L & ->)|[(-> & (s & Ls & ->) & h & L & ->)|[(-> & _ & h & L & ->)|(-> & _ & L & _)]]].
    + left. rewrite p2pkh_len by exact L. lia.
    + right; left. rewrite p2sh_len, wpkh_len by assumption. lia.
    + right; right; left. rewrite wpkh_len by assumption. repeat split; lia.
    + right; right; right. lia.
  - apply (create_hashes_cases cxc); try assumption; [apply base58_addresses; auto|]. apply Forall_forall. intros u _. split; [apply cxc_check_fine|]. intros l r ty E. apply cxc_check_iff in E as (El & Er & C). apply hex_of in El, Er. split; [exact El|]. split; [exact Er|].
    destruct C as [(-> & _ & h & t & L & _ & ->)|[(-> & (s & t & Ls & _ & ->) & h & L & ->)|[(-> & _ & h & L & ->)|(-> & _ & L & _)]]].
    + left. rewrite zlen_app, p2pkh_len by exact L. pose proof (zlen_nonneg t). lia.
    + right; left. rewrite zlen_app, p2sh_len, wpkh_len by assumption. pose proof (zlen_nonneg t). lia.
    + right; right; left. rewrite wpkh_len by assumption. repeat split; lia.
    + right; right; right. lia.
Qed.
(** bitcoincashTransaction and bitcoinsvTransaction: also for a witness script among those to be unlocked; without one, exactly as above. *)
Definition native_witness (u : unlock) : Prop := exists h, length h = 20%nat /\ hex_decode (u_lock u) = Ok (witness_v0_script h).
Theorem fork_hashing_crashes : forall K H ap txHex us segwitOn, In K [bch; bsv] -> hash_ok H -> prefixes_ok ap ->
  (decoder_crash 1 txHex segwitOn -> create_hashes_v K H txHex us segwitOn ap = Panic) /\
  (create_hashes_v K H txHex us segwitOn ap = Panic -> decoder_crash 1 txHex segwitOn \/ Exists native_witness us).
Proof.
  intros K H ap txHex us sw Hin HH HP.
  assert (V : k_version K = 1 /\ k_check K = fork_check /\ addresses K H ap).
  { destruct Hin as [<-|[<-|[]]]; (split; [reflexivity|]; split; [reflexivity|]); [apply cash_addresses; assumption|apply base58_addresses; auto]. }
  destruct V as (V & Ck & A). split.
  - intros (b & E & P). unfold create_hashes_v. rewrite E. cbn [bind]. rewrite V, P. reflexivity.
  - intros P. destruct (Exists_dec native_witness us) as [X|X].
    + intros u. unfold native_witness. destruct (hex_decode (u_lock u)) as [l| |] eqn:E; [|right; intros (? & _ & Q); discriminate..].
      destruct ((zlen l =? 22) && (nth 0 l 0 =? 0) && (nth 1 l 0 =? 0x14)) eqn:W.
      * left. apply is_wpkh in W as (h & L & ->). eauto.
      * right. intros (h & L & Q). assert (Y : exists h, length h = 20%nat /\ l = witness_v0_script h) by (exists h; split; [exact L|congruence]). apply is_wpkh in Y. congruence.
    + right. exact X.
    + left. unfold decoder_crash. rewrite <- V. apply (create_hashes_cases K H txHex us sw ap); try assumption. apply Forall_Exists_neg in X. eapply Forall_impl; [|exact X]. intros u Nu. cbv beta. rewrite Ck. split; [apply fork_check_fine|]. intros l r ty E. apply fork_check_iff in E as (El & C).
      pose proof (hex_of _ _ El) as Bl. split; [exact Bl|]. destruct C as [(-> & -> & h & L & ->)|[(-> & Er & (s & Ls & ->) & h & L & ->)|[(-> & _ & -> & h & L & ->)|(-> & Er & _ & L & _)]]].
      * split; [constructor|]. left. rewrite p2pkh_len by exact L. lia.
      * split; [exact (hex_of _ _ Er)|]. right; left. rewrite p2sh_len, wpkh_len by assumption. lia.
      * exfalso. apply Nu. exists h. auto.
      * split; [exact (hex_of _ _ Er)|]. right; right; right. lia.
Qed.
(** zencashTransaction: also for a locking script text that does not begin with 46 hex digits. *)
Theorem zen_hashing_crashes : forall H ap txHex us segwitOn, hash_ok H -> prefixes_ok ap ->
  (decoder_crash 1 txHex segwitOn -> create_hashes_v zen H txHex us segwitOn ap = Panic) /\
  (create_hashes_v zen H txHex us segwitOn ap = Panic -> decoder_crash 1 txHex segwitOn \/ Exists (fun u => zlen (LiteModel.hex_prefix (u_lock u)) < 23) us).
Proof.
  intros H ap txHex us sw HH HP. split.
  - intros (b & E & P). unfold create_hashes_v. rewrite E. cbn [bind]. change (k_version zen) with 1. rewrite P. reflexivity.
  - intros P. destruct (Exists_dec (fun u => zlen (LiteModel.hex_prefix (u_lock u)) < 23) us) as [X|X]; [intros u; apply Z_lt_dec|right; exact X|]. left.
    apply (create_hashes_cases zen H txHex us sw ap); try assumption; [apply base58_addresses; auto|]. apply Forall_Exists_neg in X. eapply Forall_impl; [|exact X]. intros u Nu. cbv beta in Nu |- *. change (k_check zen) with zen_check. unfold zen_check. split; [discriminate|]. intros l r ty E. injection E as <- <- <-.
    split; [apply hex_prefix_bytes|]. split; [constructor|]. left. lia.
Qed.

(** ** C150, insertion: specification *)
(** What a locking script with its redeem script is to a package. *)
Inductive lock_kind := KeyHash | NestedWitness | NativeWitness | SharedKeys.
Definition btc_kind (u : unlock) (k : lock_kind) (redeem : bytes) : Prop :=
  exists lock, hex_decode (u_lock u) = Ok lock /\ hex_decode (u_redeem u) = Ok redeem /\
  match k with
  | KeyHash => redeem = [] /\ exists h, length h = 20%nat /\ lock = p2pkh_script h
  | NestedWitness => (exists s, length s = 20%nat /\ lock = p2sh_script s) /\ exists h, length h = 20%nat /\ redeem = witness_v0_script h
  | NativeWitness => redeem = [] /\ exists h, length h = 20%nat /\ lock = witness_v0_script h
  | SharedKeys => (exists s, length s = 20%nat /\ lock = p2sh_script s) /\ 37 <= zlen redeem /\ last redeem 0 = 0xAE
  end.
(** bitcoincashTransaction and bitcoinsvTransaction do not look at the redeem text of a key-hash script. *)
Definition fork_kind (u : unlock) (k : lock_kind) (redeem : bytes) : Prop :=
  exists lock, hex_decode (u_lock u) = Ok lock /\
  match k with
  | KeyHash => redeem = [] /\ exists h, length h = 20%nat /\ lock = p2pkh_script h
  | NestedWitness => hex_decode (u_redeem u) = Ok redeem /\ (exists s, length s = 20%nat /\ lock = p2sh_script s) /\ exists h, length h = 20%nat /\ redeem = witness_v0_script h
  | NativeWitness => u_redeem u = [] /\ redeem = [] /\ exists h, length h = 20%nat /\ lock = witness_v0_script h
  | SharedKeys => hex_decode (u_redeem u) = Ok redeem /\ (exists s, length s = 20%nat /\ lock = p2sh_script s) /\ 37 <= zlen redeem /\ last redeem 0 = 0xAE
  end.
(** cxcTransaction: 30 bytes may follow the scripts. *)
Definition cxc_kind (u : unlock) (k : lock_kind) (redeem : bytes) : Prop :=
  exists lock, hex_decode (u_lock u) = Ok lock /\ hex_decode (u_redeem u) = Ok redeem /\
  match k with
  | KeyHash => redeem = [] /\ exists h t, length h = 20%nat /\ maybe30 t /\ lock = p2pkh_script h ++ t
  | NestedWitness => (exists s t, length s = 20%nat /\ maybe30 t /\ lock = p2sh_script s ++ t) /\ exists h, length h = 20%nat /\ redeem = witness_v0_script h
  | NativeWitness => redeem = [] /\ exists h, length h = 20%nat /\ lock = witness_v0_script h
  | SharedKeys => (exists s t, length s = 20%nat /\ maybe30 t /\ lock = p2sh_script s ++ t) /\ 37 <= zlen redeem /\ last redeem 0 = 0xAE
  end.
(** zencashTransaction takes every script for a key-hash script. *)
Definition zen_kind (u : unlock) (k : lock_kind) (redeem : bytes) : Prop := k = KeyHash /\ redeem = [].

(** A signature of 64 bytes with a key of 33, and the entries of a shared lock that carry one or the other. *)
Definition whole (sp : sigpub) : Prop := zlen (sp_sig sp) = 64 /\ zlen (sp_pub sp) = 33.
Definition carries (m : multi_tx) : bool := negb ((zlen (sp_sig (m_sp m)) =? 0) && (zlen (sp_pub (m_sp m)) =? 0)).
Definition carried (th : txhash) : list sigpub := map m_sp (filter carries (th_multi th)).
(** A signature with r or s zero. *)
Definition zero_part (sp : sigpub) : Prop := r_of (sp_sig sp) = 0 \/ s_of (sp_sig sp) = 0.
(** [used] are the signatures that are written for an entry: the single one, or the first [th_required] of a shared lock. *)
Definition written (th : txhash) (redeem : bytes) (segwitOn : bool) (used : list sigpub) : Prop :=
  (th_required th = 0 /\ exists n, th_normal th = Some n /\ whole (n_sp n) /\ used = [n_sp n]) \/
  (th_required th <> 0 /\ Forall whole (carried th) /\ th_required th <= zlen (carried th) mod 256 /\ redeem <> [] /\ (segwitOn = true \/ zlen redeem <= 65535) /\
   used = firstn (Z.to_nat (th_required th)) (carried th)).
Definition entry_fine (th : txhash) (redeem : bytes) (segwitOn : bool) : Prop := exists used, written th redeem segwitOn used /\ ~ Exists zero_part used.
(** An entry that ends the program: no signature slot at all, or r or s zero in a signature that is to be written. *)
Definition entry_crash (th : txhash) (redeem : bytes) (segwitOn : bool) : Prop :=
  (th_required th = 0 /\ th_normal th = None) \/ exists used, written th redeem segwitOn used /\ Exists zero_part used.
(** The first pass over the scripts: without segwit they must all be key-hash or shared ones; with segwit, those up to
    the first that is not a key-hash script must be of a known kind. *)
Definition first_pass (kind : unlock -> lock_kind -> bytes -> Prop) (us : list unlock) (segwitOn : bool) : Prop :=
  if segwitOn then forall done u rest, us = done ++ u :: rest -> (exists k r, kind u k r) \/ Exists (fun v => exists k r, kind v k r /\ k <> KeyHash) done
  else Forall (fun u => exists k r, kind u k r /\ (k = KeyHash \/ k = SharedKeys)) us.
(** The second pass reaches a script of a known kind whose entry is missing or crashes; the entries before it were written. *)
Definition second_pass_crash (kind : unlock -> lock_kind -> bytes -> Prop) (ths : list txhash) (us : list unlock) (segwitOn : bool) : Prop :=
  exists done u rest before, us = done ++ u :: rest /\
    Forall2 (fun v th => exists k r, kind v k r /\ entry_fine th r segwitOn) done before /\
    exists k r, kind u k r /\ (ths = before \/ exists th after, ths = before ++ th :: after /\ entry_crash th r segwitOn).
(** Values of the Go types. *)
Definition entry_typed (th : txhash) : Prop :=
  0 <= th_required th < 256 /\ (forall n, th_normal th = Some n -> is_bytes (sp_sig (n_sp n))) /\ Forall (fun m => is_bytes (sp_sig (m_sp m))) (th_multi th).
Definition insertion_crash (kind : unlock -> lock_kind -> bytes -> Prop) (version : Z) (txHex : list Z) (ths : list txhash) (us : list unlock) (segwitOn : bool) : Prop :=
  decoder_crash version txHex segwitOn \/
  exists b t, hex_decode txHex = Ok b /\ decode_v version b segwitOn = Ok t /\ zlen (tx_vins t) = zlen us /\ ths <> [] /\
    first_pass kind us segwitOn /\ second_pass_crash kind ths us segwitOn.

(** ** Insertion: lemmas *)
Lemma no_sp_carries m : no_sp m = negb (carries m).
Proof. unfold no_sp, carries. rewrite negb_involutive. reflexivity. Qed.
Lemma count_signed_cases l : count_signed l <> Panic /\ forall n, count_signed l = Ok n <-> Forall whole (map m_sp (filter carries l)) /\ n = zlen (filter carries l).
Proof.
  induction l as [|m l [N IH]]; cbn [count_signed filter]; [split; [discriminate|]; intros n; split; [intros E; injection E as <-; split; [constructor|reflexivity]|intros [_ ->]; reflexivity]|].
  rewrite no_sp_carries. destruct (carries m); cbn [negb map]; [|split; assumption].
  destruct (negb (zlen (sp_pub (m_sp m)) =? 33) || negb (zlen (sp_sig (m_sp m)) =? 64)) eqn:W.
  - split; [discriminate|]. intros n. split; [discriminate|]. intros [F _]. apply Forall_cons_iff in F as [[A B] _]. lia.
  - split; [intros P; apply bind_panics in P as [P|(? & _ & P)]; [contradiction|discriminate]|]. intros n. split.
    + intros E. apply bind_ok in E as (k & E & Q). injection Q as <-. apply IH in E as [F ->]. split; [constructor; [split; lia|exact F]|rewrite zlen_cons; lia].
    + intros [F ->]. apply Forall_cons_iff in F as [_ F]. rewrite (proj2 (IH (zlen (filter carries l)))) by auto. cbn [bind]. f_equal. rewrite zlen_cons. lia.
Qed.
Lemma encode_sig_cases sig t : is_bytes sig -> zlen sig = 64 -> (encode_sig sig t = Panic /\ (r_of sig = 0 \/ s_of sig = 0)) \/ ((exists x, encode_sig sig t = Ok x) /\ ~ (r_of sig = 0 \/ s_of sig = 0)).
Proof.
  intros B L. assert (L' : length sig = 64%nat) by (unfold zlen in L; lia). destruct (signature_script_panics_iff sig [] t B L') as [P _]. destruct (Z.eq_dec (r_of sig) 0) as [R|R]; [left; split; [apply P|]; auto|]. destruct (Z.eq_dec (s_of sig) 0) as [Q|Q]; [left; split; [apply P|]; auto|].
  right. split; [|tauto]. destruct (signature_script_is_minimal_der sig t B L' R Q) as (a & b & _ & _ & E). eauto.
Qed.
Lemma sig_scripts_cases l : Forall (fun m => is_bytes (sp_sig (m_sp m))) l -> Forall whole (map m_sp (filter carries l)) -> forall n,
  let used := firstn (S n) (map m_sp (filter carries l)) in
  (sig_scripts (S n) l = Panic /\ Exists zero_part used) \/ ((exists x, sig_scripts (S n) l = Ok x) /\ ~ Exists zero_part used).
Proof.
  intros B. induction B as [|m l Bm B IH]; intros F n; cbv zeta.
  - right. split; [exists []; reflexivity|]. cbn. intros Q. inversion Q.
  - cbn [sig_scripts filter] in *. destruct (carries m) eqn:C; cbn [map] in F.
    + apply Forall_cons_iff in F as [[L1 L2] F]. replace (zlen (sp_sig (m_sp m)) =? 0) with false by lia. cbn [map firstn]. destruct (encode_sig_cases (sp_sig (m_sp m)) (m_sigtype m) Bm L1) as [[E Zp]|[(x & E) Zp]]; rewrite E; cbn [bind].
      * left. split; [reflexivity|]. constructor 1. exact Zp.
      * destruct n as [|n].
        -- right. split; [eauto|]. cbn [firstn]. intros Q. inversion Q as [? ? Q1|? ? Q1]; subst; [exact (Zp Q1)|inversion Q1].
        -- destruct (IH F n) as [[E2 Q]|[(y & E2) Q]]; rewrite E2; cbn [bind].
           ++ left. split; [reflexivity|]. constructor 2. exact Q.
           ++ right. split; [eauto|]. intros Q'. inversion Q' as [? ? Q1|? ? Q1]; subst; [exact (Zp Q1)|exact (Q Q1)].
    + assert (zlen (sp_sig (m_sp m)) = 0). { unfold carries in C. lia. } replace (zlen (sp_sig (m_sp m)) =? 0) with true by lia. apply IH. exact F.
Qed.
Lemma th_script_cases th redeem sw : entry_typed th ->
  ((exists x, th_script th redeem sw = Ok x) <-> entry_fine th redeem sw) /\ (th_script th redeem sw = Panic <-> entry_crash th redeem sw).
Proof.
  intros (R & Bn & Bm). unfold th_script, entry_fine, entry_crash. destruct (th_required th =? 0) eqn:R0.
  - unfold written. assert (E0 : th_required th = 0) by lia. destruct (th_normal th) as [n|] eqn:Nm.
    + specialize (Bn n eq_refl). destruct (negb (zlen (sp_sig (n_sp n)) =? 64)) eqn:L1; [|destruct (negb (zlen (sp_pub (n_sp n)) =? 33)) eqn:L2].
      * split; split; [intros (? & Q); discriminate|intros (u & [(_ & n' & Q & [A _] & _)|(Q & _)] & _); [exfalso; assert (n' = n) by congruence; subst; lia|contradiction]|discriminate|].
        intros [(_ & Q)|(u & [(_ & n' & Q & [A _] & _)|(Q & _)] & _)]; [discriminate|exfalso; assert (n' = n) by congruence; subst; lia|contradiction].
      * split; split; [intros (? & Q); discriminate|intros (u & [(_ & n' & Q & [_ A] & _)|(Q & _)] & _); [exfalso; assert (n' = n) by congruence; subst; lia|contradiction]|discriminate|].
        intros [(_ & Q)|(u & [(_ & n' & Q & [_ A] & _)|(Q & _)] & _)]; [discriminate|exfalso; assert (n' = n) by congruence; subst; lia|contradiction].
      * assert (W : whole (n_sp n)) by (split; lia). assert (L64 : zlen (sp_sig (n_sp n)) = 64) by lia. unfold encode_script. destruct (encode_sig_cases (sp_sig (n_sp n)) (n_sigtype n) Bn L64) as [[E Zp]|[(x & E) Zp]]; rewrite E; cbn [bind].
        -- split; split; [intros (? & Q); discriminate| |intros _|reflexivity].
           ++ intros (u & [(_ & n' & Q & _ & ->)|(Q & _)] & NZ); [exfalso; assert (n' = n) by congruence; subst; apply NZ; constructor 1; exact Zp|contradiction].
           ++ right. exists [n_sp n]. split; [left; eauto 6|constructor 1; exact Zp].
        -- split; split; [intros _|intros _; eauto|discriminate|].
           ++ exists [n_sp n]. split; [left; eauto 6|]. intros Q. inversion Q as [? ? Q1|? ? Q1]; subst; [exact (Zp Q1)|inversion Q1].
           ++ intros [(_ & Q)|(u & [(_ & n' & Q & _ & ->)|(Q & _)] & EZ)]; [discriminate| |contradiction]. exfalso. assert (n' = n) by congruence. subst. inversion EZ as [? ? Q1|? ? Q1]; subst; [exact (Zp Q1)|inversion Q1].
    + split; split; [intros (? & Q); discriminate|intros (u & [(_ & n' & Q & _)|(Q & _)] & _); [discriminate|contradiction]|auto|reflexivity].
  - assert (N0 : th_required th <> 0) by lia. destruct (count_signed_cases (th_multi th)) as [NP CS].
    assert (Bad : forall P : Prop, (forall u, written th redeem sw u -> P) -> (~ P) -> ((exists x : bytes, @Err bytes = Ok x) <-> exists u, written th redeem sw u /\ ~ Exists zero_part u) /\ (@Err bytes = Panic <-> (th_required th = 0 /\ th_normal th = None) \/ exists u, written th redeem sw u /\ Exists zero_part u)).
    { intros P W NPr. split; split; [intros (? & Q); discriminate|intros (u & Q & _); exfalso; exact (NPr (W u Q))|discriminate|]. intros [(Q & _)|(u & Q & _)]; [contradiction|exfalso; exact (NPr (W u Q))]. }
    destruct (count_signed (th_multi th)) as [c| |] eqn:E; cbn [bind]; [|apply (Bad (Forall whole (carried th)))|congruence].
    2:{ intros u [(Q & _)|(_ & F & _)]; [contradiction|exact F]. } 2:{ intros F. discriminate (proj2 (CS (zlen (filter carries (th_multi th)))) (conj F eq_refl)). }
    destruct (proj1 (CS c) eq_refl) as [F ->]. clear E CS NP.
    assert (Zc : zlen (carried th) = zlen (filter carries (th_multi th))) by (unfold carried, zlen; rewrite map_length; reflexivity). rewrite <- Zc in *.
    destruct (u8 (zlen (carried th)) <? th_required th) eqn:C1. { apply (Bad (th_required th <= zlen (carried th) mod 256)); [intros u [(Q & _)|(_ & _ & Q & _)]; [contradiction|exact Q]|unfold u8 in C1; lia]. }
    destruct (zlen redeem =? 0) eqn:C2. { apply zlen_zero in C2. apply (Bad (redeem <> [])); [intros u [(Q & _)|(_ & _ & _ & Q & _)]; [contradiction|exact Q]|auto]. }
    assert (Nr : redeem <> []) by (intros ->; discriminate).
    assert (PR : (push_redeem redeem sw = Err /\ ~ (sw = true \/ zlen redeem <= 65535)) \/ ((exists x, push_redeem redeem sw = Ok x) /\ (sw = true \/ zlen redeem <= 65535))).
    { unfold push_redeem. cbv zeta. destruct sw; [right; eauto|]. destruct (zlen redeem <? 0x4C) eqn:D1; [right; split; [eauto|lia]|]. destruct (zlen redeem <=? 0xFF) eqn:D2; [right; split; [eauto|lia]|]. destruct (zlen redeem <=? 0xFFFF) eqn:D3; [right; split; [eauto|lia]|]. left. split; [reflexivity|]. intros [Q|Q]; [discriminate|lia]. }
    destruct PR as [[E NPr]|[(tail & E) OK]]; rewrite E; cbn [bind]. { apply (Bad (sw = true \/ zlen redeem <= 65535)); [intros u [(Q & _)|(_ & _ & _ & _ & Q & _)]; [contradiction|exact Q]|exact NPr]. }
    assert (W : forall u, written th redeem sw u <-> u = firstn (Z.to_nat (th_required th)) (carried th)).
    { intros u. unfold written. split; [intros [(Q & _)|(_ & _ & _ & _ & _ & Q)]; [contradiction|exact Q]|]. intros ->. right. repeat (split; [assumption|]). split; [unfold u8 in C1; lia|]. auto. }
    destruct (Z.to_nat (th_required th)) as [|n] eqn:En; [lia|]. destruct (sig_scripts_cases _ Bm F n) as [[E2 Zp]|[(x & E2) Zp]]; rewrite E2; cbn [bind].
    + split; split; [intros (? & Q); discriminate|intros (u & Q & NZ); apply W in Q; subst u; contradiction|intros _; right; eexists; split; [apply W; reflexivity|exact Zp]|reflexivity].
    + assert (Y : exists y, (let ret := 0 :: x ++ tail in if sw then Ok ret else if zlen ret <? 253 then Ok (u8 (zlen ret) :: ret) else Ok (253 :: le16 (zlen ret) ++ ret)) = Ok y) by (cbv zeta; destruct sw; [eexists; reflexivity|]; destruct (zlen (0 :: x ++ tail) <? 253); eexists; reflexivity).
      destruct Y as (y & Y). cbv zeta in Y |- *. rewrite Y. split; split; [intros _; eexists; split; [apply W; reflexivity|exact Zp]|eauto|discriminate|]. intros [(Q & _)|(u & Q & EZ)]; [contradiction|]. apply W in Q. subst u. contradiction.
Qed.
Definition ty_of (k : lock_kind) : Z := match k with KeyHash => TypeP2PKH | NestedWitness => TypeP2WPKH | NativeWitness => TypeBech32 | SharedKeys => TypeMultiSig end.
Lemma ty_of_inj k k' : ty_of k = ty_of k' -> k = k'.
Proof. destruct k, k'; cbv; congruence. Qed.
(** The classifier of a package reads the kinds. *)
Definition reads_kinds (check : list Z -> list Z -> res (bytes * bytes * Z)) (kind : unlock -> lock_kind -> bytes -> Prop) : Prop :=
  (forall u, check (u_lock u) (u_redeem u) <> Panic) /\
  forall u r ty, (exists l, check (u_lock u) (u_redeem u) = Ok (l, r, ty)) <-> exists k, ty = ty_of k /\ kind u k r.
Lemma kind_cases check kind u : reads_kinds check kind ->
  (check (u_lock u) (u_redeem u) = Err /\ forall k r, ~ kind u k r) \/
  exists l r k, check (u_lock u) (u_redeem u) = Ok (l, r, ty_of k) /\ kind u k r /\ forall k' r', kind u k' r' -> k' = k /\ r' = r.
Proof.
  intros [N R]. destruct (check (u_lock u) (u_redeem u)) as [[[l r] ty]| |] eqn:E; [right|left|exfalso; exact (N u E)].
  - destruct (proj1 (R u r ty)) as (k & -> & K); [eauto|]. exists l, r, k. split; [reflexivity|]. split; [exact K|]. intros k' r' K'. destruct (proj2 (R u r' (ty_of k'))) as (l' & E'); [eauto|]. rewrite E in E'. split; [apply ty_of_inj|]; congruence.
  - split; [reflexivity|]. intros k r K. destruct (proj2 (R u r (ty_of k))) as (l' & E'); [eauto|]. congruence.
Qed.
Lemma is_segwit_cases check kind us sw : reads_kinds check kind ->
  is_segwit_v check us sw <> Panic /\ ((exists b, is_segwit_v check us sw = Ok b /\ b && negb sw = false) <-> first_pass kind us sw).
Proof.
  intros R. destruct sw; unfold first_pass.
  - induction us as [|u us [NP IH]]; cbn [is_segwit_v].
    + split; [discriminate|]. split; [intros _ [|? ?] v rest Q; discriminate|eauto].
    + destruct (kind_cases check kind u R) as [[E No]|(l & r & k & E & K & Un)]; rewrite E; cbn [bind].
      * split; [discriminate|]. split; [intros (? & Q & _); discriminate|]. intros F. destruct (F [] u us eq_refl) as [(k & r & Q)|Q]; [exfalso; exact (No _ _ Q)|inversion Q].
      * destruct (segwit_type (ty_of k) true) eqn:Sg.
        -- split; [discriminate|]. split; [|eauto]. intros _ [|d done] v rest Q; injection Q as <- Q; [left; eauto|]. right. constructor 1. exists k, r. split; [exact K|]. intros ->. discriminate.
        -- assert (Ek : k = KeyHash) by (destruct k; cbv in Sg; congruence). split; [exact NP|]. rewrite IH. split.
           ++ intros F [|d done] v rest Q; injection Q as <- Q; [left; eauto|]. destruct (F done v rest Q) as [A|A]; [left; exact A|right; constructor 2; exact A].
           ++ intros F done v rest Q. destruct (F (u :: done) v rest) as [A|A]; [cbn; congruence|left; exact A|]. inversion A as [? ? (k' & r' & K' & Nk)|? ? A1]; subst; [|right; exact A1]. destruct (Un _ _ K'). congruence.
  - induction us as [|u us [NP IH]]; cbn [is_segwit_v].
    + split; [discriminate|]. split; [constructor|eauto].
    + destruct (kind_cases check kind u R) as [[E No]|(l & r & k & E & K & Un)]; rewrite E; cbn [bind].
      * split; [discriminate|]. split; [intros (? & Q & _); discriminate|]. intros F. apply Forall_cons_iff in F as [(k & r & Q & _) _]. exfalso; exact (No _ _ Q).
      * destruct (segwit_type (ty_of k) false) eqn:Sg.
        -- split; [discriminate|]. split; [intros (b & Q & Q2); injection Q as <-; discriminate|]. intros F. apply Forall_cons_iff in F as [(k' & r' & Q & C) _]. destruct (Un _ _ Q) as [-> ->]. destruct C as [-> | ->]; discriminate.
        -- split; [exact NP|]. rewrite IH. rewrite Forall_cons_iff. split; [intros F; split; [|exact F]|intros [_ F]; exact F]. exists k, r. split; [exact K|]. destruct k; cbv in Sg; try discriminate; auto.
Qed.
Lemma insert_loop_cases check kind sha segwit sw : reads_kinds check kind -> forall us ins ths, length ins = length us -> Forall entry_typed ths -> first_pass kind us sw \/ sw = true ->
  insert_loop_v check sha segwit sw ins us ths = Panic <-> second_pass_crash kind ths us sw.
Proof.
  intros R. induction us as [|u us IH]; intros [|i ins] ths L T Fp; try discriminate L; cbn [insert_loop_v].
  - split; [discriminate|]. intros ([|? ?] & v & rest & before & Q & _); discriminate.
  - assert (Fp' : first_pass kind us sw \/ sw = true) by (destruct Fp as [Fp|Fp]; [destruct sw; [right; reflexivity|left; apply Forall_cons_iff in Fp as [_ Fp]; exact Fp]|right; exact Fp]).
    unfold insert_one. destruct (kind_cases check kind u R) as [[E No]|(l & r & k & E & K & Un)]; rewrite E; cbn [bind].
    + split; [discriminate|]. intros ([|d done] & v & rest & before & Q & F & k & r & K & _); injection Q as <- Q; [exfalso; exact (No _ _ K)|]. inversion F as [|? ? ? ? (k' & r' & K' & _)]; subst. exfalso; exact (No _ _ K').
    + assert (Sw : sw = true \/ k = KeyHash \/ k = SharedKeys). { destruct Fp as [Fp|Fp]; [|auto]. destruct sw; [auto|]. right. apply Forall_cons_iff in Fp as [(k' & r' & K' & C) _]. destruct (Un _ _ K') as [-> ->]. exact C. }
      cbv zeta. set (script := match hd_error ths with None => Panic | Some th => th_script th r sw end).
      assert (St : exists g, (if ty_of k =? TypeP2PKH then s <- script ;; Ok (Filled (filled i (ty_of k) [] s (in_multi i)))
        else if ty_of k =? TypeP2WPKH then if negb sw then Err else s <- script ;; Ok (Filled (filled i (ty_of k) r s (in_multi i)))
        else if ty_of k =? TypeBech32 then if negb sw then Err else s <- script ;; Ok (Filled (filled i (ty_of k) [] s (in_multi i)))
        else s <- script ;; Ok (Filled (filled i (ty_of k) (if segwit then [35; 34; 0; 32] ++ sha r else []) [] s))) = (s <- script ;; Ok (Filled (g s)))).
      { destruct k; cbn [ty_of TypeP2PKH TypeP2WPKH TypeBech32 TypeMultiSig Z.eqb Pos.eqb].
        - exists (fun s => filled i 1 [] s (in_multi i)). reflexivity.
        - destruct Sw as [-> |[Q|Q]]; try discriminate Q. exists (fun s => filled i 2 r s (in_multi i)). reflexivity.
        - destruct Sw as [-> |[Q|Q]]; try discriminate Q. exists (fun s => filled i 3 [] s (in_multi i)). reflexivity.
        - exists (fun s => filled i 4 (if segwit then [35; 34; 0; 32] ++ sha r else []) [] s). reflexivity. }
      destruct St as (g & St). rewrite St. clear St. unfold script. clear script. destruct ths as [|th ths]; cbn [hd_error bind tl].
      * split; [intros _|reflexivity]. exists [], u, us, []. split; [reflexivity|]. split; [constructor|]. exists k, r. auto.
      * apply Forall_cons_iff in T as [Tt T]. destruct (th_script_cases th r sw Tt) as [Fi Cr]. destruct (th_script th r sw) as [x| |]; cbn [bind].
        -- assert (Fx : entry_fine th r sw) by (apply Fi; eauto). assert (Nc : ~ entry_crash th r sw) by (intros Q; apply Cr in Q; discriminate). injection L as L.
           transitivity (insert_loop_v check sha segwit sw ins us ths = Panic). { rewrite bind_panics. split; [intros [Q|(? & _ & Q)]; [exact Q|discriminate]|auto]. } rewrite (IH ins ths L T Fp'). split.
           ++ intros (done & v & rest & before & -> & F & k' & r' & K' & C). exists (u :: done), v, rest, (th :: before). split; [reflexivity|]. split; [constructor; eauto|]. exists k', r'. split; [exact K'|]. destruct C as [-> |(t & after & -> & C)]; [left; reflexivity|right]. exists t, after. auto.
           ++ intros ([|d done] & v & rest & before & Q & F & k' & r' & K' & C); injection Q as <- Q.
              ** exfalso. inversion F; subst. destruct (Un _ _ K') as [-> ->]. destruct C as [C|(t & after & C & D)]; [discriminate|]. injection C as <- _. contradiction.
              ** inversion F as [|? b ? before' _ F']; subst. exists done, v, rest, before'. split; [reflexivity|]. split; [exact F'|]. exists k', r'. split; [exact K'|]. destruct C as [C|(t & after & C & D)]; injection C as _ C; [left; exact C|right; eauto].
        -- assert (Nc : ~ entry_crash th r sw) by (intros Q; apply Cr in Q; discriminate). assert (Nf : ~ entry_fine th r sw) by (intros Q; apply Fi in Q as (? & Q); discriminate). split; [discriminate|].
           intros ([|d done] & v & rest & before & Q & F & k' & r' & K' & C); injection Q as <- Q; exfalso.
           ++ inversion F; subst. destruct (Un _ _ K') as [-> ->]. destruct C as [C|(t & after & C & D)]; [discriminate|]. injection C as <- _. contradiction.
           ++ inversion F as [|? b ? before' (k2 & r2 & K2 & F2) F']; subst. destruct (Un _ _ K2) as [-> ->]. destruct C as [C|(t & after & C & D)]; injection C as <- _; contradiction.
        -- split; [intros _|reflexivity]. exists [], u, us, []. split; [reflexivity|]. split; [constructor|]. exists k, r. split; [exact K|]. right. exists th, ths. split; [reflexivity|]. apply Cr. reflexivity.
Qed.
Lemma wits_length sw ins : forall wb ins', taken_wits sw ins wb ins' -> length ins' = length ins.
Proof. intros wb ins' W. pose proof (wits_len _ _ _ _ W) as Q. unfold zlen in Q. lia. Qed.
Lemma decoded_some v b sw t : is_bytes b -> 0 <= v < 2 ^ 32 -> decode_v v b sw = Ok t -> tx_vins t <> [] /\ tx_vouts t <> [].
Proof.
  intros B V E. apply btc_decode_iff in E as (m & ib & ins & ob & outs & wb & ins' & lt & N1 & N2 & _ & _ & W & _ & _ & ->); [|assumption..]. cbn [tx_vins tx_vouts].
  split; [|intros ->; change (zlen (@nil txout)) with 0 in N2; lia]. assert (L : length ins' = length ins) by (destruct m; [eapply wits_length; exact W|destruct W as [_ ->]; reflexivity]). intros ->. unfold zlen in N1. cbn [length] in L. lia.
Qed.
Lemma insertion_cases K kind sha txHex ths us sw : reads_kinds (k_check K) kind -> 0 <= k_version K < 2 ^ 32 -> Forall entry_typed ths ->
  insert_signatures_v K sha txHex ths us sw = Panic <-> insertion_crash kind (k_version K) txHex ths us sw.
Proof.
  intros R V T. unfold insert_signatures_v, insertion_crash, decoder_crash. rewrite bind_panics. destruct (is_segwit_cases (k_check K) kind us sw R) as [NP FP]. split.
  - intros [E|(b & E & P)]; [exfalso; exact (hex_decode_not_panic _ E)|]. apply bind_panics in P as [P|(t & D & P)]; [left; eauto|]. right. exists b, t. split; [exact E|]. split; [exact D|].
    destruct (zlen us =? 0) eqn:Z1; [discriminate|]. destruct (zlen ths =? 0) eqn:Z2; [discriminate|]. destruct (zlen (tx_vins t) =? 0) eqn:Z3; [discriminate|]. destruct (zlen (tx_vouts t) =? 0) eqn:Z4; [discriminate|].
    destruct (negb (zlen (tx_vins t) =? zlen us)) eqn:Z5; [discriminate|]. assert (Lz : zlen (tx_vins t) = zlen us) by lia. split; [exact Lz|]. split; [intros ->; discriminate|].
    destruct (is_segwit_v (k_check K) us sw) as [g| |] eqn:G; [|discriminate|contradiction]. destruct (g && negb sw) eqn:G2; [discriminate|]. assert (F : first_pass kind us sw) by (apply FP; eauto). split; [exact F|].
    apply bind_panics in P as [P|([x|] & _ & P)]; [| |discriminate].
    + apply insert_loop_cases with (kind := kind) in P; [exact P|exact R|unfold zlen in Lz; lia|exact T|left; exact F].
    + exfalso. apply bind_panics in P as [P|(? & _ & P)]; [exact (tx_bytes_fine _ _ P)|discriminate].
  - intros [(b & E & D)|(b & t & E & D & Lz & Nt & F & C)]; right; exists b; (split; [exact E|]); rewrite D; [reflexivity|]. cbn [bind].
    destruct (decoded_some _ _ _ _ (hex_of _ _ E) V D) as [N1 N2].
    destruct (zlen (tx_vins t) =? 0) eqn:Z3; [apply zlen_zero in Z3; contradiction|]. rewrite <- Lz, Z3. destruct (zlen ths =? 0) eqn:Z2; [apply zlen_zero in Z2; contradiction|]. destruct (zlen (tx_vouts t) =? 0) eqn:Z4; [apply zlen_zero in Z4; contradiction|].
    rewrite Z.eqb_refl. cbn [negb]. apply FP in F as F'. destruct F' as (g & -> & ->). apply bind_panics. left. apply (insert_loop_cases (k_check K) kind); [exact R|unfold zlen in Lz; lia|exact T|left; exact F|exact C].
Qed.
Lemma btc_reads : reads_kinds check_script btc_kind.
Proof.
  split; [intros; apply check_script_fine|]. intros u r ty. split.
  - intros (l & E). apply check_script_iff in E as (El & Er & C). destruct C as [(-> & C)|[(-> & C)|[(-> & C)|(-> & C)]]]; [exists KeyHash|exists NestedWitness|exists NativeWitness|exists SharedKeys]; (split; [reflexivity|]); exists l; auto.
  - intros (k & -> & l & El & Er & C). exists l. apply check_script_iff. split; [exact El|]. split; [exact Er|]. destruct k; cbn [ty_of]; auto.
Qed.
Lemma fork_reads : reads_kinds fork_check fork_kind.
Proof.
  split; [intros; apply fork_check_fine|]. intros u r ty. split.
  - intros (l & E). apply fork_check_iff in E as (El & C). destruct C as [(-> & C)|[(-> & C)|[(-> & C)|(-> & C)]]]; [exists KeyHash|exists NestedWitness|exists NativeWitness|exists SharedKeys]; (split; [reflexivity|]); exists l; auto.
  - intros (k & -> & l & El & C). exists l. apply fork_check_iff. split; [exact El|]. destruct k; cbn [ty_of]; auto.
Qed.
Lemma cxc_reads : reads_kinds cxc_check cxc_kind.
Proof.
  split; [intros; apply cxc_check_fine|]. intros u r ty. split.
  - intros (l & E). apply cxc_check_iff in E as (El & Er & C). destruct C as [(-> & C)|[(-> & C)|[(-> & C)|(-> & C)]]]; [exists KeyHash|exists NestedWitness|exists NativeWitness|exists SharedKeys]; (split; [reflexivity|]); exists l; auto.
  - intros (k & -> & l & El & Er & C). exists l. apply cxc_check_iff. split; [exact El|]. split; [exact Er|]. destruct k; cbn [ty_of]; auto.
Qed.
Lemma zen_reads : reads_kinds zen_check zen_kind.
Proof.
  split; [intros; discriminate|]. intros u r ty. unfold zen_check, zen_kind. split.
  - intros (l & E). injection E as <- <- <-. exists KeyHash. auto.
  - intros (k & -> & -> & ->). eexists. reflexivity.
Qed.

(** ** C150, insertion *)
(** btcTransaction, omniTransaction, hcTransaction. *)
Theorem btc_insertion_crashes_exactly : forall sha txHex ths us segwitOn, Forall entry_typed ths ->
  (insert_signatures sha txHex ths us segwitOn = Panic <-> insertion_crash btc_kind 2 txHex ths us segwitOn).
Proof. intros sha txHex ths us sw T. rewrite btc_coin_inserts. apply (insertion_cases btc_coin); [apply btc_reads|cbn; lia|exact T]. Qed.
(** The other packages. *)
Theorem fam_insertion_crashes_exactly : forall sha txHex ths us segwitOn, Forall entry_typed ths ->
  (insert_signatures_v bch sha txHex ths us segwitOn = Panic <-> insertion_crash fork_kind 1 txHex ths us segwitOn) /\
  (insert_signatures_v bsv sha txHex ths us segwitOn = Panic <-> insertion_crash fork_kind 1 txHex ths us segwitOn) /\
  (insert_signatures_v cxc sha txHex ths us segwitOn = Panic <-> insertion_crash cxc_kind 1 txHex ths us segwitOn) /\
  (insert_signatures_v zen sha txHex ths us segwitOn = Panic <-> insertion_crash zen_kind 1 txHex ths us segwitOn).
Proof.
  intros sha txHex ths us sw T. split; [|split; [|split]].
  - apply (insertion_cases bch); [apply fork_reads|cbn; lia|exact T].
  - apply (insertion_cases bsv); [apply fork_reads|cbn; lia|exact T].
  - apply (insertion_cases cxc); [apply cxc_reads|cbn; lia|exact T].
  - apply (insertion_cases zen); [apply zen_reads|cbn; lia|exact T].
Qed.

(** ** Examples *)
Lemma checked_byteb l : forallb is_byteb l = true -> is_bytes l.
Proof. intros E. apply Forall_forall. intros x Ix. rewrite forallb_forall in E. specialize (E x Ix). unfold is_byteb in E. unfold is_byte. lia. Qed.
Definition ex_pvin : list vin := [{| v_txid := hex_encode (repeat 1 32); v_vout := 0 |}].
Definition ex_good_addr : list Z := match encode_check bitcoin_al toy_hash [0] (repeat 7 20) with Ok s => s | _ => [] end.
(** A bech32 text with a correct checksum and no digit before it; the base58 text of one zero byte, behind an address that is paid. *)
Definition ex_short_bech : list Z := match bech32_encode (str "bc") bech32_alphabet [] None with Ok s => s | _ => [] end.
Example creation_crash_example :
  create_empty toy_hash ex_pvin [{| v_addr := ex_good_addr; v_amount := 5 |}; {| v_addr := ex_short_bech; v_amount := 5 |}] 0 false btc_main = Panic /\
  create_empty toy_hash ex_pvin [{| v_addr := ex_good_addr; v_amount := 5 |}; {| v_addr := str "1"; v_amount := 5 |}] 0 false btc_main = Panic /\
  create_fork toy_hash ex_pvin [{| v_addr := ex_good_addr; v_amount := 5 |}; {| v_addr := str "1"; v_amount := 5 |}] 0 false btc_main = Panic /\
  create_hc toy_hash ex_pvin [{| v_addr := str "1"; v_amount := 5 |}] 0 false hc_main = Panic /\
  create_zen toy_hash ex_pvin [{| v_addr := str "1"; v_amount := 5 |}] 0 false zen_main (hex_encode (repeat 3 32)) 7 = Panic /\
  create_empty toy_hash ex_pvin [{| v_addr := str "0"; v_amount := 5 |}; {| v_addr := str "1"; v_amount := 5 |}] 0 false btc_main = Err /\
  (exists s, create_empty toy_hash ex_pvin [{| v_addr := ex_good_addr; v_amount := 5 |}] 0 false btc_main = Ok s).
Proof. repeat (split; [vm_compute; reflexivity|]). eexists. vm_compute. reflexivity. Qed.
Example creation_hypotheses_met : hash_ok toy_hash /\ prefixes_ok btc_main /\ Forall named ex_pvin /\ first_bad (btc_payable toy_hash btc_main) (btc_crash toy_hash btc_main) [{| v_addr := ex_good_addr; v_amount := 5 |}; {| v_addr := str "1"; v_amount := 5 |}].
Proof.
  assert (HP : prefixes_ok btc_main) by (repeat split; cbn; repeat constructor; unfold is_byte; lia).
  assert (B : Forall (fun v => is_bytes (v_addr v)) [{| v_addr := ex_good_addr; v_amount := 5 |}; {| v_addr := str "1"; v_amount := 5 |}]) by (constructor; [apply checked_byteb; vm_compute; reflexivity|constructor; [apply checked_byteb; vm_compute; reflexivity|constructor]]).
  destruct (proj1 (btc_creation_crashes_exactly toy_hash btc_main ex_pvin _ 0 false toy_hash_ok HP B)) as (_ & N & F); [apply creation_crash_example|]. repeat (split; [assumption || apply toy_hash_ok|]). exact F.
Qed.
(** Insertion: an entry without a slot; a signature with r zero behind one that is written; a missing entry; a refused one before the crash. *)
Definition ex_th (sp : option sigpub) : txhash := {| th_hash := []; th_required := 0; th_normal := option_map (fun s => {| n_addr := []; n_sigtype := 1; n_sp := s |}) sp; th_multi := [] |}.
Definition ex_zero_sp : sigpub := {| sp_sig := repeat 0 32 ++ repeat 5 32; sp_pub := repeat 2 33 |}.
Definition ex_zero_shared : txhash := {| th_hash := []; th_required := 2; th_normal := None; th_multi := map (fun s => {| m_pub := []; m_sigtype := 1; m_sp := s |}) [ex_sp 1; no_sigpub; ex_zero_sp] |}.
Definition ex_shared_us : list unlock := [ex_unlock (p2pkh_script (repeat 7 20)) [] 1; ex_unlock (p2sh_script (repeat 8 20)) (repeat 1 36 ++ [0xAE]) 1].
Example insertion_crash_example :
  insert_signatures_v zen toy_hash ex_fhex [ex_th None; ex_th None] (ex_fus 1 []) true = Panic /\
  insert_signatures_v cxc toy_hash ex_fhex [ex_th (Some (ex_sp 1)); ex_th (Some ex_zero_sp)] (ex_fus 1 []) true = Panic /\
  insert_signatures_v bch toy_hash ex_fhex [ex_th (Some (ex_sp 1))] (ex_fus 1 []) true = Panic /\
  insert_signatures_v cxc toy_hash ex_fhex [ex_th (Some (ex_sp 1)); ex_zero_shared] ex_shared_us false = Panic /\
  insert_signatures_v cxc toy_hash ex_fhex [ex_th (Some no_sigpub); ex_th None] (ex_fus 1 []) true = Err /\
  insert_signatures_v cxc toy_hash ex_fhex [ex_th (Some (ex_sp 1)); ex_th (Some ex_zero_sp)] (ex_fus 1 []) false = Err.
Proof. repeat (split; [vm_compute; reflexivity|]). vm_compute. reflexivity. Qed.
Example insertion_hypotheses_met : Forall entry_typed [ex_th (Some (ex_sp 1)); ex_zero_shared] /\ insertion_crash cxc_kind 1 ex_fhex [ex_th (Some (ex_sp 1)); ex_zero_shared] ex_shared_us false.
Proof.
  assert (T : Forall entry_typed [ex_th (Some (ex_sp 1)); ex_zero_shared]).
  { constructor; [|constructor; [|constructor]].
    - split; [cbn; lia|]. split; [|constructor]. intros n Q. injection Q as <-. apply checked_byteb. vm_compute. reflexivity.
    - split; [cbn; lia|]. split; [discriminate|]. constructor; [|constructor; [|constructor; [|constructor]]]; apply checked_byteb; vm_compute; reflexivity. }
  split; [exact T|]. apply (fam_insertion_crashes_exactly toy_hash ex_fhex _ ex_shared_us false T). apply insertion_crash_example.
Qed.
(** Hashing: a transaction cut within the sequence number of its input. *)
Definition ex_cut : list Z := firstn 88 ex_fhex.
Example hashing_crash_example : decoder_crash 1 ex_cut false /\ create_hashes_v cxc toy_hash ex_cut [] false btc_main = Panic /\ create_hashes_v zen toy_hash ex_fhex [ex_unlock [1] [] 1; ex_unlock [1] [] 1] false btc_main = Panic.
Proof.
  split; [|split; vm_compute; reflexivity]. eexists. split; vm_compute; reflexivity.
Qed.
Print Assumptions btc_creation_crashes_exactly.
Print Assumptions fork_creation_crashes_exactly.
Print Assumptions both_creation_crashes_exactly.
Print Assumptions zen_creation_crashes_exactly.
Print Assumptions hashing_crashes_exactly.
Print Assumptions fork_hashing_crashes.
Print Assumptions zen_hashing_crashes.
Print Assumptions btc_insertion_crashes_exactly.
Print Assumptions fam_insertion_crashes_exactly.
