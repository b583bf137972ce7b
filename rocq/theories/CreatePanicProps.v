(** C153: exactly when creating a transfer crashes in the drivers outside the Bitcoin family, and when the Mateverse and Polkadot combiners do. *)
From Coq Require Import String ZArith List Bool Lia ZifyBool ZifyNat.
From Verif Require Import Go GoFacts GoFacts2 Rd Base58Model Base58Spec Base58Proofs Base58Props Base58CheckModel Base58CheckSpec Base58CheckProofs Base58CheckProps AddressProofs SigModel SigDerProps Toy.
From Verif Require BtcModel FamPanicProps OntProps LiteProps RippleModel MoacModel VsysModel FilenetModel BigbangModel BigbangProps WaykiModel WaykiProps HyperModel HyperProps CosmosModel PolkadotModel PolkadotProps MateModel MateProps FiiiModel FilenetProps RippleProps.
Import ListNotations.
Open Scope Z_scope.
Ltac Zify.zify_post_hook ::= idtac.

(** ** Specification *)
(** [a] is the base58 text of the bytes [r]. *)
Definition text58 (rs a r : list Z) : Prop := is_bytes r /\ is_base58_of rs r a.
(** The first element that [fine] does not cover is one that is [bad]. *)
Definition meets {A} (fine bad : A -> Prop) (l : list A) : Prop := exists before x after, l = before ++ x :: after /\ Forall fine before /\ bad x.
(** A hex text of [n] bytes. *)
Definition hex_of_len (n : Z) (t : list Z) : Prop := exists b, hex_decode t = Ok b /\ zlen b = n.
Definition is_hex (t : list Z) : Prop := exists b, hex_decode t = Ok b.

Section Check.
Variables (rs : list Z) (H : bytes -> bytes).
(** HyperCash: the address of a key hash, and the text that ends the program: fewer than 4 bytes, or a correct checksum and fewer than 24. *)
Definition hyper_payable (o : HyperModel.hvout) : Prop := exists h, zlen h = 20 /\ text58 rs (HyperModel.v_address o) (checked H ([0x09; 0x7f] ++ h)).
Definition hyper_crash (o : HyperModel.hvout) : Prop := exists r, text58 rs (HyperModel.v_address o) r /\ (zlen r < 4 \/ exists p, r = checked H p /\ zlen r < 24).
Definition hyper_input (i : HyperModel.hvin) : Prop := hex_of_len 32 (HyperModel.i_txid i) /\ is_hex (HyperModel.i_lock i).
(** FiiiCoin: the caller gives the prefix. The text ends the program if it has fewer than 4 bytes, or a correct checksum and fewer bytes
    than the prefix, with which they agree. *)
Definition fiii_payable (w : FiiiModel.vout) : Prop := 0 < FiiiModel.w_amount w /\ exists h, zlen h = 20 /\ text58 rs (FiiiModel.w_address w) (checked H (FiiiModel.w_prefix w ++ h)).
Definition fiii_crash (w : FiiiModel.vout) : Prop := exists r, text58 rs (FiiiModel.w_address w) r /\ (zlen r < 4 \/ (exists p, r = checked H p) /\ exists x, x <> [] /\ FiiiModel.w_prefix w = r ++ x).
Definition fiii_input (v : FiiiModel.vin) : Prop := hex_of_len 32 (FiiiModel.v_txid v).
End Check.

(** Mateverse: key, hash and signature of the right sizes; the key is a point and the signature valid; the key is no point. *)
Section MateSpec.
Variables (decompress : bytes -> bytes) (verify : bytes -> bytes -> bytes -> bool).
Definition mate_shows (n : MateModel.mvin) (p h s : bytes) : Prop :=
  hex_decode (MateModel.m_pub n) = Ok p /\ hex_decode (MateModel.m_hash n) = Ok h /\ hex_decode (MateModel.m_sig n) = Ok s /\ zlen p = 33 /\ zlen h = 32 /\ zlen s = 64.
Definition mate_valid (n : MateModel.mvin) : Prop := exists p h s c q, mate_shows n p h s /\ decompress p = c :: q /\ verify q h s = true.
Definition mate_no_point (n : MateModel.mvin) : Prop := exists p h s, mate_shows n p h s /\ decompress p = [].
Definition mate_zero (n : MateModel.mvin) : Prop := is_hex (MateModel.m_txid n) /\ exists s, hex_decode (MateModel.m_sig n) = Ok s /\ (r_of s = 0 \/ s_of s = 0).
End MateSpec.

(** ** Lemmas *)
Lemma bindp {A B} (x : res A) (f : A -> res B) : (y <- x ;; f y) = Panic <-> x = Panic \/ exists y, x = Ok y /\ f y = Panic.
Proof. apply FamPanicProps.bind_panics. Qed.
Lemma meets_mapr {A B} (f : A -> res B) (fine bad : A -> Prop) l : (forall x, In x l -> ((exists y, f x = Ok y) <-> fine x) /\ (f x = Panic <-> bad x)) -> mapr f l = Panic <-> meets fine bad l.
Proof.
  intros F. rewrite FamPanicProps.mapr_panics_at. split; intros (pre & x & post & -> & G & P); exists pre, x, post; (split; [reflexivity|]); (split; [|apply F; [apply in_or_app; right; left; reflexivity|exact P]]); rewrite Forall_forall in *; intros w I; apply F; try (apply in_or_app; left; exact I); exact (G w I).
Qed.
Lemma mapr_ok_iff {A B} (f : A -> res B) (fine : A -> Prop) l : (forall x, (exists y, f x = Ok y) <-> fine x) -> (exists y, mapr f l = Ok y) <-> Forall fine l.
Proof.
  intros F. induction l as [|x l IH]; cbn [mapr]; [split; [constructor|eauto]|]. split.
  - intros (y & E). apply bind_ok in E as (a & E1 & E). apply bind_ok in E as (b & E2 & _). constructor; [apply F; eauto|apply IH; eauto].
  - intros G. apply Forall_cons_iff in G as [Gx G]. apply F in Gx as (a & ->). apply IH in G as (b & ->). cbn [bind]. eauto.
Qed.
Section B58.
Variables (rs : list Z) (al : alphabet) (H : bytes -> bytes).
Hypotheses (Hrs : alphabet_ok rs) (Hal : new_alphabet rs = Ok al) (HH : hash_ok H).
Lemma decode_text a r : is_bytes a -> base58_decode al a = Ok r <-> text58 rs a r.
Proof.
  intros Ba. split.
  - intros E. destruct (base58_encode_decode rs al a r Hrs Hal Ba E) as [Br En]. split; [exact Br|]. exact (base58_numeral rs al r a Hrs Hal Br En).
  - intros [Br N]. destruct (base58_decode_encode rs al r Hrs Hal Br) as (s & E & D). pose proof (base58_numeral rs al _ _ Hrs Hal Br E) as N'. rewrite (base58_of_unique _ _ _ _ N N'). exact D.
Qed.
Lemma decode_np a : is_bytes a -> base58_decode al a <> Panic.
Proof. intros Ba. apply (base58_decode_never_panics rs al a Hrs Hal Ba). Qed.
Lemma encode_text p h a : is_bytes p -> is_bytes h -> encode_check al H p h = Ok a -> text58 rs a (checked H (p ++ h)).
Proof.
  intros Bp Bh E. rewrite (encode_check_eq H HH al) in E by assumption. assert (B : is_bytes (checked H (p ++ h))) by (apply checked_bytes; [exact HH|apply is_bytes_app; auto]). split; [exact B|]. exact (base58_numeral rs al _ _ Hrs Hal B E).
Qed.
Lemma text_parts p h a : text58 rs a (checked H (p ++ h)) -> is_bytes p /\ is_bytes h.
Proof. intros [B _]. unfold checked in B. apply is_bytes_app in B as [B _]. apply is_bytes_app in B. exact B. Qed.
Lemma text_encode p h a : text58 rs a (checked H (p ++ h)) -> encode_check al H p h = Ok a.
Proof.
  intros T. destruct (text_parts _ _ _ T) as [Bp Bh]. destruct T as [B N]. rewrite (encode_check_eq H HH al) by assumption. destruct (base58_encode_positional rs al _ Hrs Hal B) as (s & E & N'). rewrite E. f_equal. exact (base58_of_unique _ _ _ _ N' N).
Qed.
Lemma hyper_out_cases o : is_bytes (HyperModel.v_address o) -> ((exists t, HyperModel.new_txout al H o = Ok t) <-> hyper_payable rs H o) /\ (HyperModel.new_txout al H o = Panic <-> hyper_crash rs H o).
Proof.
  intros Ba. split.
  - split.
    + intros (t & E). apply (HyperProps.new_txout_iff H) in E as [(h & E & L) _]. exists h. split; [unfold zlen; rewrite L; reflexivity|]. destruct (decode_check_inv H HH rs Hrs al Hal _ _ _ Ba E) as (Bp & Bh & _ & En). exact (encode_text _ _ _ Bp Bh En).
    + intros (h & L & T). destruct (text_parts _ _ _ T) as [Bp Bh]. destruct (decode_check_encode_check H rs al _ h HH Hrs Hal Bp Bh ltac:(unfold zlen in L; lia)) as (s & E & D). rewrite (text_encode _ _ _ T) in E. injection E as <-. eexists. apply (HyperProps.new_txout_iff H). split; [exists h; split; [exact D|unfold zlen in L; lia]|reflexivity].
  - unfold HyperModel.new_txout. rewrite bindp, (decode_check_panics_iff H rs al _ HH Hrs Hal Ba). unfold hyper_crash. split.
    + intros [(r & E & C)|([p h] & _ & Q)]; [|destruct (negb _ || negb _); [discriminate|]; destruct (negb _); discriminate]. exists r. apply decode_text in E; [|exact Ba]. split; [exact E|]. destruct C as [C|(p & _ & C)]; [left; exact C|right; eauto].
    + intros (r & T & C). left. exists r. split; [apply decode_text; assumption|]. destruct C as [C|(p & -> & C)]; [left; exact C|right]. exists p. split; [|auto]. destruct T as [B _]. unfold checked in B. apply is_bytes_app in B. tauto.
Qed.
Lemma prefix_loop_panics p : forall a r, prefix_loop p (a ++ r) (zlen a) = Panic <-> exists x, x <> [] /\ p = r ++ x.
Proof.
  induction p as [|c p IH]; intros a r; cbn [prefix_loop]; [split; [discriminate|]; intros (x & Nx & E); destruct r; [destruct x; [contradiction|discriminate]|discriminate]|].
  destruct r as [|d r].
  - rewrite app_nil_r. unfold idx. replace (zlen a <? 0) with false by (pose proof (zlen_nonneg a); lia). replace (nth_error a (Z.to_nat (zlen a))) with (@None Z) by (symmetry; apply nth_error_None; unfold zlen; lia). cbn [bind]. split; [|reflexivity]. intros _. exists (c :: p). split; [discriminate|reflexivity].
  - rewrite idx_mid by reflexivity. cbn [bind]. replace (a ++ d :: r) with ((a ++ [d]) ++ r) by (rewrite <- app_assoc; reflexivity). replace (zlen a + 1) with (zlen (a ++ [d])) by (rewrite zlen_app; reflexivity). destruct (Z.eqb_spec c d) as [->|N].
    + rewrite IH. split; intros (x & Nx & E); exists x; (split; [exact Nx|]); cbn [app] in *; congruence.
    + split; [discriminate|]. intros (x & _ & E). cbn [app] in E. congruence.
Qed.
Lemma fiii_out_cases w i : is_bytes (FiiiModel.w_address w) -> ((exists o, FiiiModel.new_output al H w i = Ok o) <-> fiii_payable rs H w) /\ (FiiiModel.new_output al H w i = Panic <-> fiii_crash rs H w).
Proof.
  intros Ba. unfold FiiiModel.new_output. split.
  - split.
    + intros (o & E). apply bind_ok in E as (h & E & Q). destruct (FiiiModel.w_amount w <=? 0) eqn:P; [discriminate|]. split; [lia|]. exists h. destruct (decode_check_prefix_inv H HH rs Hrs al Hal _ _ _ Ba E) as (Bp & Bh & L & En). split; [unfold zlen; lia|]. exact (encode_text _ _ _ Bp Bh En).
    + intros [P (h & L & T)]. destruct (text_parts _ _ _ T) as [Bp Bh]. destruct (decode_check_prefix_encode_check H rs al _ h HH Hrs Hal Bp Bh ltac:(unfold zlen in L; lia)) as (s & E & D). rewrite (text_encode _ _ _ T) in E. injection E as <-. rewrite D. cbn [bind]. replace (FiiiModel.w_amount w <=? 0) with false by lia. eauto.
  - rewrite bindp. unfold decode_check_prefix, fiii_crash. split.
    + intros [E|(h & _ & Q)]; [|destruct (_ <=? _); discriminate]. apply bindp in E as [E|(r & D & E)]; [destruct (decode_np _ Ba E)|]. apply decode_text in D; [|exact Ba]. exists r. split; [exact D|]. destruct D as [Br _]. destruct (check_split_cases H HH r Br) as [[L _]|[(L & d & Bd & R & C)|(_ & _ & C)]]; [left; exact L| |rewrite C in E; discriminate].
      right. split; [eauto|]. rewrite C in E. cbn [bind] in E. apply bindp in E as [E|(u & E1 & E)]; [change r with ([] ++ r) in E at 1; change 0 with (zlen (@nil Z)) in E; apply prefix_loop_panics in E; exact E|]. exfalso.
      destruct (_ =? 20) eqn:L20 in E; [|discriminate]. change r with ([] ++ r) in E1 at 1. change 0 with (zlen (@nil Z)) in E1. destruct u. apply prefix_loop_inv in E1 as (r' & ->). rewrite zlen_app in *. unfold slice in E. rewrite zlen_app in E. pose proof (zlen_nonneg (FiiiModel.w_prefix w)). pose proof (zlen_nonneg r').
      match type of E with (if ?c then _ else _) = _ => destruct c eqn:Q in E; [discriminate|] end. lia.
    + intros (r & T & C). left. rewrite (proj2 (decode_text _ r Ba) T). cbn [bind]. destruct T as [Br _]. destruct (check_split_cases H HH r Br) as [[L ->]|[(L & d & Bd & R & ->)|(L & N & _)]]; [reflexivity| |].
      * destruct C as [C|[_ X]]; [lia|]. cbn [bind]. rewrite bindp. left. change r with ([] ++ r) at 1. change 0 with (zlen (@nil Z)). apply prefix_loop_panics. exact X.
      * destruct C as [C|[(p & ->) _]]; [lia|]. destruct (N p) as [Q|Q]; [contradiction|]. destruct Q. unfold checked in Br. apply is_bytes_app in Br. tauto.
Qed.
End B58.
Lemma bind_np {A B} (x : res A) (f : A -> res B) : x <> Panic -> (forall y, x = Ok y -> f y <> Panic) -> (y <- x ;; f y) <> Panic.
Proof. intros N F E. apply bindp in E as [E|(y & E1 & E2)]; [exact (N E)|exact (F y E1 E2)]. Qed.
Lemma mapr_np {A B} (f : A -> res B) l : (forall x, In x l -> f x <> Panic) -> mapr f l <> Panic.
Proof.
  induction l as [|x l IH]; intros F; cbn [mapr]; [discriminate|]. apply bind_np; [apply F; left; reflexivity|]. intros y _. apply bind_np; [apply IH; intros z I; apply F; right; exact I|discriminate].
Qed.
Lemma hex_np s : hex_decode s <> Panic. Proof. apply hex_decode_not_panic. Qed.
Lemma hex_len32 t : hex_of_len 32 t -> zlen t = 64.
Proof. intros (b & E & L). apply hex_decode_bytes in E as [_ E]. unfold zlen in *. lia. Qed.

(** ** Theorems *)
(** Ripple, WaykiChain, FileNet: creation never crashes, whatever the texts. *)
Theorem ripple_creation_never_crashes : forall rs al H H512 p, alphabet_ok rs -> new_alphabet rs = Ok al -> hash_ok H -> (forall d, 32 <= zlen (H512 d)) -> is_bytes (RippleModel.p_from p) -> is_bytes (RippleModel.p_to p) ->
  RippleModel.create al H H512 p <> Panic.
Proof.
  intros rs al H H512 p Hrs Hal HH L Bf Bt. unfold RippleModel.create. apply bind_np.
  - unfold RippleModel.new_tx. apply bind_np; [unfold RippleModel.amount_bytes; destruct (_ =? _); discriminate|intros a _]. apply bind_np; [unfold RippleModel.fee_bytes; destruct (_ =? _); discriminate|intros f _].
    apply bind_np; [|intros k _; apply bind_np; [|intros acc _; apply bind_np; [|discriminate]]].
    + unfold RippleModel.pubkey_bytes. apply bind_np; [apply hex_np|]. intros b _. destruct (Z.eqb_spec (zlen b) 33) as [E|E]; cbn [negb]; [|discriminate]. destruct b as [|c b]; [discriminate E|]. change (idx (c :: b) 0) with (Ok c). cbn [bind]. destruct (negb _ && negb _); discriminate.
    + unfold RippleModel.account_bytes. apply bind_np; [apply (program_hash_never_panics H rs al); auto|discriminate].
    + unfold RippleModel.account_bytes. apply bind_np; [apply (program_hash_never_panics H rs al); auto|discriminate].
  - intros t _. apply bind_np; [|discriminate]. unfold RippleModel.get_hash. intros E. apply slice_panic in E. apply E. split; [lia|apply L].
Qed.
Lemma uvar_np v : WaykiProps.int64 v -> WaykiModel.uvarint v <> Panic.
Proof. intros B. destruct (WaykiProps.uvarint_wire v B) as (b & -> & _). discriminate. Qed.
Lemma user_np s : WaykiModel.user_id s <> Panic.
Proof.
  unfold WaykiModel.user_id. apply bind_np; [|discriminate]. induction (WaykiModel.split_dash s) as [|i ids IH]; cbn [WaykiModel.ids_bytes]; [discriminate|]. apply bind_np; [apply uvar_np, WaykiProps.parse_int_range|]. intros b _. apply bind_np; [exact IH|discriminate].
Qed.
Theorem waykichain_creation_never_crashes : forall rs al H t q, alphabet_ok rs -> new_alphabet rs = Ok al -> hash_ok H -> is_bytes (WaykiModel.q_to q) ->
  WaykiProps.int64 (WaykiModel.q_height q) -> WaykiProps.int64 (WaykiModel.q_amount q) -> WaykiProps.int64 (WaykiModel.q_fee q) -> WaykiModel.create al H t q <> Panic.
Proof.
  intros rs al H t q Hrs Hal HH Bt Ih Ia If. assert (D : WaykiModel.dest_id al H (WaykiModel.q_to q) <> Panic) by (unfold WaykiModel.dest_id; apply bind_np; [apply (program_hash_never_panics H rs al); auto|discriminate]).
  pose proof (uvar_np _ Ih) as Uh. pose proof (uvar_np _ Ia) as Ua. pose proof (uvar_np _ If) as Uf.
  unfold WaykiModel.create. apply bind_np; [|intros b _; apply bind_np; [apply uvar_np; clear; unfold WaykiProps.int64; lia|discriminate]]. unfold WaykiModel.body_of.
  destruct (t =? _); [unfold WaykiModel.common_body|destruct (t =? _); [unfold WaykiModel.register_body|destruct (t =? _); [unfold WaykiModel.contract_body|destruct (t =? _); [unfold WaykiModel.ucoin_body|discriminate]]]];
    repeat first [discriminate | assumption | apply user_np | apply hex_np | apply bind_np; [|intros ? _] | match goal with |- (if ?c then _ else _) <> _ => destruct c end].
Qed.
Theorem filenet_creation_never_crashes : forall rs al H sort now from outs, alphabet_ok rs -> new_alphabet rs = Ok al -> is_bytes from -> Forall (fun o => is_bytes (FilenetModel.o_address o)) (sort FilenetModel.less outs) ->
  FilenetModel.create al H sort now from outs <> Panic.
Proof.
  intros rs al H sort now from outs Hrs Hal Bf Bo. assert (D : forall a, is_bytes a -> FilenetModel.decode_address al a <> Panic).
  { intros a Ba. unfold FilenetModel.decode_address. apply bind_np; [apply (decode_np rs al Hrs Hal a Ba)|]. intros h _. apply bind_np; [apply hex_np|]. intros b _. destruct (negb _); discriminate. }
  assert (N : forall l total, Forall (fun o => is_bytes (FilenetModel.o_address o)) l -> FilenetModel.new_outs al l total <> Panic).
  { induction l as [|o l IH]; intros total F; cbn [FilenetModel.new_outs]; [discriminate|]. apply Forall_cons_iff in F as [Fo F]. destruct (FilenetModel.o_address o) as [|c a] eqn:Ea; [discriminate|]. destruct (_ =? 0); [discriminate|]. apply bind_np; [apply D; exact Fo|]. intros b _. apply bind_np; [apply IH; exact F|]. intros [u v] _. discriminate. }
  unfold FilenetModel.create. apply bind_np; [|discriminate]. unfold FilenetModel.new_tx. destruct from as [|c f]; [discriminate|]. apply bind_np; [apply D; exact Bf|]. intros g _. destruct outs as [|o outs]; [discriminate|]. apply bind_np; [apply N; exact Bo|]. intros [u v] _. discriminate.
Qed.
(** MOAC: exactly on a recipient text of fewer than two characters. *)
Theorem moac_creation_crashes_exactly : forall K to nonce amount limit price testnet, MoacModel.create K to nonce amount limit price testnet = Panic <-> zlen to < 2.
Proof.
  intros K to nonce amount limit price testnet. unfold MoacModel.create, MoacModel.new_tx, MoacModel.address_bytes. split.
  - intros E. destruct (Z_lt_le_dec (zlen to) 2) as [L|L]; [exact L|exfalso; revert E]. apply bind_np; [|discriminate]. apply bind_np; [|discriminate]. apply bind_np; [intros E; apply slice_panic in E; lia|]. intros p _. destruct (negb _); [discriminate|].
    apply bind_np; [unfold slice_from; intros E; apply slice_panic in E; lia|]. intros r _. apply bind_np; [apply hex_np|]. intros h _. destruct (negb _); discriminate.
  - intros L. replace (slice to 0 2) with (@Panic (list Z)) by (symmetry; apply slice_panic; lia). reflexivity.
Qed.
(** V Systems: exactly on a recipient text of fewer than four bytes. *)
Theorem vsys_creation_crashes_exactly : forall rs al H now q, alphabet_ok rs -> new_alphabet rs = Ok al -> hash_ok H -> is_bytes (VsysModel.v_to q) ->
  VsysModel.create al H now q = Panic <-> exists r, text58 rs (VsysModel.v_to q) r /\ zlen r < 4.
Proof.
  intros rs al H now q Hrs Hal HH Ba. unfold VsysModel.create, decode_check_all. rewrite bindp. split.
  - intros [E|(y & _ & E)]; [|destruct (VsysModel.v_attachment q); discriminate]. apply bindp in E as [E|(r & D & E)]; [destruct (decode_np rs al Hrs Hal _ Ba E)|]. apply (decode_text rs al Hrs Hal) in D; [|exact Ba]. exists r. split; [exact D|]. destruct D as [Br _].
    destruct (check_split_cases H HH r Br) as [[L _]|[(L & d & _ & _ & C)|(_ & _ & C)]]; [exact L|rewrite C in E; discriminate..].
  - intros (r & T & L). left. rewrite (proj2 (decode_text rs al Hrs Hal _ r Ba) T). cbn [bind]. destruct T as [Br _]. destruct (check_split_cases H HH r Br) as [[_ ->]|[[L' _]|[L' _]]]; [reflexivity|lia..].
Qed.
(** BigBang: exactly on an empty recipient when the anchor and the inputs are in order. *)
Theorem bigbang_creation_crashes_exactly : forall H now lock anchor inputs to amount fee data, BigbangModel.bb_create H now lock anchor inputs to amount fee data = Panic <->
  to = [] /\ is_hex anchor /\ inputs <> [] /\ Forall (fun i => hex_of_len 32 (fst i)) inputs.
Proof.
  intros H now lock anchor inputs to amount fee data. assert (R : forall t, BigbangModel.bb_rhex t <> Panic) by (intros t; unfold BigbangModel.bb_rhex; destruct (_ =? _); [discriminate|]; apply bind_np; [apply hex_np|discriminate]).
  assert (RO : forall t, (exists b, BigbangModel.bb_rhex t = Ok b) <-> is_hex t).
  { intros t. unfold BigbangModel.bb_rhex, is_hex. split.
    - intros (b & E). destruct (_ =? _); [discriminate|]. apply bind_ok in E as (c & E & _). eauto.
    - intros (b & E). pose proof (proj2 (hex_decode_bytes _ _ E)) as L. replace (zlen t mod 2 =? 1) with false. 2:{ unfold zlen. rewrite L. replace (Z.of_nat (2 * length b)) with (Z.of_nat (length b) * 2) by lia. rewrite Z.mod_mul by lia. reflexivity. } rewrite E. cbn [bind]. eauto. }
  assert (TO : forall i, (exists y, BigbangModel.bb_txin i = Ok y) <-> hex_of_len 32 (fst i)).
  { intros [t v]. unfold BigbangModel.bb_txin. cbn [fst]. split.
    - intros (y & E). destruct (_ || _) eqn:L in E; [discriminate|]. apply bind_ok in E as (b & E & _). destruct (proj1 (RO t) (ex_intro _ b E)) as (d & D). exists d. split; [exact D|]. apply hex_decode_bytes in D as [_ D]. unfold zlen in *. lia.
    - intros T. rewrite (hex_len32 _ T). cbn [Z.eqb Pos.eqb negb orb]. destruct T as (b & E & _). destruct (proj2 (RO t) (ex_intro _ b E)) as (c & ->). cbn [bind]. eauto. }
  assert (TN : forall i, BigbangModel.bb_txin i <> Panic) by (intros [t v]; unfold BigbangModel.bb_txin; destruct (_ || _); [discriminate|]; apply bind_np; [apply R|discriminate]).
  unfold BigbangModel.bb_create, BigbangModel.bb_new. split.
  - intros E. apply bindp in E as [E|(y & _ & E)]; [|discriminate]. apply bindp in E as [E|(a & Ea & E)]; [destruct (R _ E)|]. destruct (zlen inputs =? 0) eqn:N; [discriminate|]. apply bindp in E as [E|(v & Ev & E)]; [destruct (mapr_np _ _ (fun i _ => TN i) E)|].
    apply bindp in E as [E|(b & _ & E)]; [|destruct (amount =? 0); [discriminate|]; destruct (fee =? 0); discriminate]. apply BigbangProps.bb_address_panics_iff in E. split; [exact E|]. split; [apply RO; eauto|]. split; [intros ->; discriminate|]. apply (mapr_ok_iff _ _ _ TO). eauto.
  - intros (-> & A & N & F). apply RO in A as (a & ->). cbn [bind]. replace (zlen inputs =? 0) with false by (destruct inputs; [contradiction|symmetry; apply Z.eqb_neq; rewrite zlen_cons; pose proof (zlen_nonneg inputs); lia]). apply (mapr_ok_iff _ _ _ TO) in F as (v & ->). reflexivity.
Qed.
(** Cosmos: exactly without a fee or with a fee of no coins. *)
Theorem cosmos_creation_crashes_exactly : forall chain memo account sequence f msgs, CosmosModel.new_tx chain memo account sequence f msgs = Panic <->
  f = None \/ exists g, f = Some g /\ (CosmosModel.f_amount g = None \/ CosmosModel.f_amount g = Some []).
Proof.
  intros chain memo account sequence f msgs. unfold CosmosModel.new_tx. destruct f as [g|]; [|split; auto]. destruct (CosmosModel.f_amount g) as [[|c l]|] eqn:E.
  - split; [|reflexivity]. intros _. right. exists g. auto.
  - split; [discriminate|]. intros [Q|(h & [= <-] & [Q|Q])]; rewrite ?E in Q; discriminate.
  - split; [|reflexivity]. intros _. right. exists g. auto.
Qed.
(** HyperCash: exactly when the inputs are in order and the first output that cannot be paid has one of the two short texts. *)
Lemma hyper_in_cases i : ((exists t, HyperModel.new_txin i = Ok t) <-> hyper_input i) /\ HyperModel.new_txin i <> Panic.
Proof.
  split.
  - unfold hyper_input, hex_of_len, is_hex. split.
    + intros (t & E). apply HyperProps.new_txin_iff in E as [[(b & E & L) E2] _]. split; [|exact E2]. exists b. split; [exact E|unfold zlen; lia].
    + intros [(b & E & L) E2]. eexists. apply HyperProps.new_txin_iff. split; [|reflexivity]. split; [|exact E2]. exists b. split; [exact E|unfold zlen in L; lia].
  - unfold HyperModel.new_txin. destruct (BtcModel.reverse_hex _); try discriminate. destruct (negb _); [discriminate|]. destruct (hex_decode _); discriminate.
Qed.
Section Hyper.
Variables (rs : list Z) (al : alphabet) (H : bytes -> bytes).
Hypotheses (Hrs : alphabet_ok rs) (Hal : new_alphabet rs = Ok al) (HH : hash_ok H).
Lemma hyper_new_tx_panics ins outs lt ex : Forall (fun o => is_bytes (HyperModel.v_address o)) outs ->
  HyperModel.new_tx al H ins outs lt ex = Panic <-> ins <> [] /\ Forall hyper_input ins /\ meets (hyper_payable rs H) (hyper_crash rs H) outs.
Proof.
  intros Bo. assert (M : mapr (HyperModel.new_txout al H) outs = Panic <-> meets (hyper_payable rs H) (hyper_crash rs H) outs).
  { apply meets_mapr. intros o I. rewrite Forall_forall in Bo. apply hyper_out_cases; auto. }
  unfold HyperModel.new_tx. destruct ins as [|i ins]; [split; [discriminate|intros [N _]; contradiction]|]. destruct outs as [|o outs].
  { split; [discriminate|]. intros (_ & _ & pre & x & post & E & _). destruct pre; discriminate. }
  split.
  - intros E. split; [discriminate|]. apply bindp in E as [E|(t & Et & E)]; [destruct (mapr_np _ _ (fun i _ => proj2 (hyper_in_cases i)) E)|]. apply bindp in E as [E|(u & _ & E)]; [|discriminate]. split; [|apply M; exact E]. apply (mapr_ok_iff _ _ _ (fun i => proj1 (hyper_in_cases i))). eauto.
  - intros (_ & F & C). apply (mapr_ok_iff _ _ _ (fun i => proj1 (hyper_in_cases i))) in F as (t & ->). cbn [bind]. apply M in C. rewrite C. reflexivity.
Qed.
Theorem hypercash_creation_crashes_exactly : forall B ins outs lt ex, Forall (fun o => is_bytes (HyperModel.v_address o)) outs ->
  HyperModel.create_empty B al H ins outs lt ex = Panic <-> ins <> [] /\ Forall hyper_input ins /\ meets (hyper_payable rs H) (hyper_crash rs H) outs.
Proof.
  intros B ins outs lt ex Bo. rewrite <- (hyper_new_tx_panics ins outs lt ex Bo). unfold HyperModel.create_empty. rewrite bindp. split; [|auto].
  intros [E|(t & Et & E)]; [exact E|]. apply (HyperProps.new_tx_iff H) in Et as (_ & _ & _ & _ & ->). rewrite HyperProps.mk_tx_text in E. discriminate.
Qed.
(** The token transfer: the recipient is read before the change. *)
Theorem hypercash_omni_creation_crashes_exactly : forall B ins to change amount property lt ex, 0 <= property < 2 ^ 32 -> 0 <= amount < 2 ^ 64 -> is_bytes (HyperModel.v_address to) -> (forall c, change = Some c -> is_bytes (HyperModel.v_address c)) ->
  HyperModel.create_omni B al H ins to change amount property lt ex = Panic <->
  ins <> [] /\ Forall hyper_input ins /\ (hyper_crash rs H to \/ hyper_payable rs H to /\ exists c, change = Some c /\ hyper_crash rs H c).
Proof.
  intros B ins to change amount property lt ex Rp Ra Bt Bc. set (outs := [to; to] ++ match change with Some c => [c] | None => [] end).
  assert (Bo : Forall (fun o => is_bytes (HyperModel.v_address o)) outs).
  { unfold outs. constructor; [exact Bt|]. constructor; [exact Bt|]. destruct change as [c|]; constructor; auto. }
  assert (P : HyperModel.create_omni B al H ins to change amount property lt ex = Panic <-> HyperModel.new_tx al H ins outs lt ex = Panic).
  { unfold HyperModel.create_omni. fold outs. rewrite bindp. split; [|auto]. intros [E|(t & Et & E)]; [exact E|exfalso].
    destruct (HyperModel.create_omni B al H ins to change amount property lt ex) as [[text hashes]| |] eqn:Q; unfold HyperModel.create_omni in Q; fold outs in Q; rewrite Et in Q; cbn [bind] in Q.
    - rewrite Q in E. discriminate.
    - rewrite Q in E. discriminate.
    - pose proof Et as Et'. apply (HyperProps.new_tx_iff H) in Et' as (N1 & N2 & V1 & V2 & T). unfold outs in V2. apply Forall_cons_iff in V2 as [Vt V2]. apply Forall_cons_iff in V2 as [_ Vc].
      assert (X : Forall (HyperProps.valid_out al H) (HyperProps.change_list change)) by exact Vc.
      assert (O : exists x, HyperModel.create_omni B al H ins to change amount property lt ex = Ok x) by (eexists (_, _); apply (HyperProps.hc_create_omni_exact B al H ins to change amount property lt ex _ _ Rp Ra); repeat split; eauto). destruct O as (x & O).
      unfold HyperModel.create_omni in O. fold outs in O. rewrite Et in O. cbn [bind] in O. rewrite Q in O. discriminate. }
  rewrite P, (hyper_new_tx_panics ins outs lt ex Bo).
  assert (M : meets (hyper_payable rs H) (hyper_crash rs H) outs <-> hyper_crash rs H to \/ hyper_payable rs H to /\ exists c, change = Some c /\ hyper_crash rs H c); [|rewrite M; reflexivity].
  unfold outs, meets. split.
  - intros (pre & x & post & E & F & C). destruct pre as [|a [|b [|c pre]]]; cbn [app] in E.
    + injection E as <- _. left. exact C.
    + injection E as <- <- _. left. exact C.
    + injection E as <- <- E. destruct change as [c|]; [|discriminate]. injection E as <- _. apply Forall_inv in F. right. split; [exact F|]. eauto.
    + injection E as <- <- E. destruct change as [d|]; [|discriminate]. injection E as <- E. destruct pre; discriminate.
  - intros [C|(F & c & -> & C)]; [exists [], to, (to :: match change with Some c => [c] | None => [] end)|exists [to; to], c, []]; repeat split; auto.
Qed.
End Hyper.
(** FiiiCoin: the same with the caller's prefix. *)
Lemma fiii_in_cases v : ((exists t, FiiiModel.new_input v = Ok t) <-> fiii_input v) /\ FiiiModel.new_input v <> Panic.
Proof.
  unfold FiiiModel.new_input, fiii_input. split.
  - split.
    + intros (t & E). destruct (Z.eqb_spec (zlen (FiiiModel.v_txid v)) 64) as [L|L]; cbn [negb] in E; [|discriminate]. apply bind_ok in E as (b & E & _). exists b. split; [exact E|]. apply hex_decode_bytes in E as [_ E]. unfold zlen in *. lia.
    + intros T. rewrite (hex_len32 _ T). destruct T as (b & -> & _). cbn [Z.eqb Pos.eqb negb bind]. eauto.
  - destruct (negb _); [discriminate|]. apply bind_np; [apply hex_np|discriminate].
Qed.
Theorem fiiicoin_creation_crashes_exactly : forall rs al H now inputs outputs version locktime expired, alphabet_ok rs -> new_alphabet rs = Ok al -> hash_ok H -> Forall (fun w => is_bytes (FiiiModel.w_address w)) outputs ->
  FiiiModel.create al H now inputs outputs version locktime expired = Panic <-> inputs <> [] /\ Forall fiii_input inputs /\ meets (fiii_payable rs H) (fiii_crash rs H) outputs.
Proof.
  intros rs al H now inputs outputs version locktime expired Hrs Hal HH Bo.
  assert (M : forall l i, Forall (fun w => is_bytes (FiiiModel.w_address w)) l -> FiiiModel.new_outputs al H l i = Panic <-> meets (fiii_payable rs H) (fiii_crash rs H) l).
  { induction l as [|w l IH]; intros i F; cbn [FiiiModel.new_outputs]; [split; [discriminate|intros (pre & x & post & E & _); destruct pre; discriminate]|]. apply Forall_cons_iff in F as [Fw F]. destruct (fiii_out_cases rs al H Hrs Hal HH w i Fw) as [CO CP]. split.
    - intros E. apply bindp in E as [E|(o & Eo & E)]; [exists [], w, l; split; [reflexivity|]; split; [constructor|apply CP; exact E]|]. apply bindp in E as [E|(t & _ & E)]; [|discriminate]. apply IH in E as (pre & x & post & -> & G & C); [|exact F]. exists (w :: pre), x, post. split; [reflexivity|]. split; [|exact C]. constructor; [apply CO; eauto|exact G].
    - intros (pre & x & post & E & G & C). destruct pre as [|a pre]; cbn [app] in E; injection E as <- ->; [apply CP in C; rewrite C; reflexivity|]. apply Forall_cons_iff in G as [Gw G]. apply CO in Gw as (o & ->). cbn [bind]. rewrite (proj2 (IH (i + 1) F)); [reflexivity|]. exists pre, x, post. auto. }
  unfold FiiiModel.create. destruct inputs as [|v inputs]; [split; [discriminate|intros [N _]; contradiction]|]. destruct outputs as [|w outputs].
  { split; [discriminate|]. intros (_ & _ & pre & x & post & E & _). destruct pre; discriminate. }
  split.
  - intros E. split; [discriminate|]. apply bindp in E as [E|(t & Et & E)]; [destruct (mapr_np _ _ (fun i _ => proj2 (fiii_in_cases i)) E)|]. apply bindp in E as [E|(u & _ & E)]; [|discriminate]. split; [|apply (M _ 0 Bo); exact E]. apply (mapr_ok_iff _ _ _ (fun i => proj1 (fiii_in_cases i))). eauto.
  - intros (_ & F & C). apply (mapr_ok_iff _ _ _ (fun i => proj1 (fiii_in_cases i))) in F as (t & ->). cbn [bind]. apply (M _ 0 Bo) in C. rewrite C. reflexivity.
Qed.
(** Polkadot: neither the message nor the combiner ever crashes. *)
Lemma polka_encode v : 0 < v < 2 ^ 64 -> exists s, PolkadotModel.encode v = Ok s /\ zlen (PolkadotModel.hex_prefix s) <= 9.
Proof.
  intros B. destruct (PolkadotProps.compact_encoding_exact v B) as (b & E & Bb & _). exists (hex_encode b). split; [exact E|]. rewrite PolkadotProps.hex_prefix_encode by exact Bb. assert (X : PolkadotModel.encode_bytes v = Ok b).
  { unfold PolkadotModel.encode in E. apply bind_ok in E as (c & Ec & E). rewrite Ec. f_equal. injection E as E. assert (Bc : is_bytes c).
    { destruct (Z_lt_le_dec v (2 ^ 30)) as [S30|S30]; [destruct (PolkadotProps.bytes_small v ltac:(lia)) as (d & Ed & C)|destruct (PolkadotProps.bytes_big v ltac:(lia)) as (k & _ & _ & Ed)]; rewrite Ed in Ec; injection Ec as <-; [apply (PolkadotProps.scale_bytes v _ ltac:(lia) C)|].
      apply is_bytes_cons. split; [unfold PolkadotModel.get_prefix, u8, is_byte; change (2 ^ 8) with 256; apply Z.mod_pos_bound; lia|apply le_bytes_is_bytes]. }
    apply (f_equal hex_decode) in E. rewrite !hex_decode_encode in E by assumption. congruence. }
  destruct (Z_lt_le_dec v (2 ^ 30)) as [S30|S30].
  - destruct (PolkadotProps.bytes_small v ltac:(lia)) as (d & Ed & C). rewrite Ed in X. injection X as <-. apply (PolkadotProps.scale_bytes v _ ltac:(lia) C).
  - destruct (PolkadotProps.bytes_big v ltac:(lia)) as (k & K & _ & Ed). rewrite Ed in X. injection X as <-. rewrite zlen_cons. unfold zlen. rewrite le_bytes_length. lia.
Qed.
Lemma polka_zero v : 0 <= v < 2 ^ 64 -> exists b, PolkadotModel.compact_or_zero v = Ok b /\ zlen b <= 9.
Proof.
  intros B. unfold PolkadotModel.compact_or_zero. destruct (Z.eqb_spec v 0) as [E|E]; [exists [0]; split; [reflexivity|]; change (zlen [0]) with 1; lia|]. destruct (polka_encode v ltac:(lia)) as (s & -> & L). cbn [bind]. eauto.
Qed.
Lemma polka_method code t : 0 <= PolkadotModel.amount t < 2 ^ 64 -> PolkadotModel.method_bytes code t = Err \/ exists b, PolkadotModel.method_bytes code t = Ok b /\ zlen b <= zlen code + 41.
Proof.
  intros B. unfold PolkadotModel.method_bytes. destruct (hex_decode (PolkadotModel.recipient t)) as [p| |] eqn:E; [|left; reflexivity|destruct (hex_np _ E)]. cbn [bind]. destruct (Z.eqb_spec (zlen p) 32) as [Lp|Lp]; cbn [negb]; [|left; reflexivity].
  destruct (Z.eqb_spec (PolkadotModel.amount t) 0) as [N|N]; [left; reflexivity|]. destruct (polka_encode (PolkadotModel.amount t) ltac:(lia)) as (s & -> & L). cbn [bind]. destruct (_ =? 0); [left; reflexivity|]. right. eexists. split; [reflexivity|].
  rewrite !zlen_app. pose proof (PolkadotProps.hex_prefix_len code). pose proof (zlen_nonneg code). lia.
Qed.
Theorem polkadot_never_crashes : forall verify code t signature, PolkadotProps.tx_typed t -> zlen code < 2 ^ 32 ->
  PolkadotModel.message code t <> Panic /\ PolkadotModel.verify_and_combine verify code t signature <> Panic.
Proof.
  intros verify code t signature (Ba & Bn & Bf & Bh & _) Lc.
  destruct (polka_zero _ Bn) as (n & En & Ln). destruct (polka_zero _ Bf) as (f & Ef & Lf).
  assert (M : PolkadotModel.message code t <> Panic).
  { unfold PolkadotModel.message. rewrite En, Ef. destruct (polka_method code t Ba) as [->|(m & -> & _)]; [discriminate|]. cbn [bind]. destruct (_ =? 0); [discriminate|]. apply bind_np; [apply hex_np|]. intros g _. destruct (negb _); [discriminate|]. apply bind_np; [apply hex_np|]. intros b _. destruct (negb _); discriminate. }
  split; [exact M|]. unfold PolkadotModel.verify_and_combine. destruct (PolkadotModel.message code t) as [w| |]; [|discriminate|contradiction].
  destruct (hex_decode signature) as [sig| |] eqn:Es; [|discriminate..]. destruct (Z.eqb_spec (zlen sig) 64) as [Ls|Ls]; cbn [negb]; [|discriminate]. destruct (verify _ _ _); cbn [negb]; [|discriminate].
  assert (S : PolkadotModel.signed_tx code t signature <> Panic); [|destruct (PolkadotModel.signed_tx code t signature); [discriminate..|contradiction]].
  unfold PolkadotModel.signed_tx. destruct (hex_decode (PolkadotModel.sender t)) as [from| |]; [|discriminate..]. destruct (Z.eqb_spec (zlen from) 32) as [Lfr|Lfr]; cbn [negb]; [|discriminate]. rewrite Es, Ls. cbn [Z.eqb Pos.eqb negb]. destruct (_ =? 0); [discriminate|].
  rewrite En, Ef. cbn [bind]. destruct (polka_method code t Ba) as [->|(m & -> & Lm)]; [discriminate|]. cbn [bind].
  match goal with |- context [PolkadotModel.encode (zlen ?l)] => set (x := l); assert (L : 0 < zlen x < 2 ^ 64) end.
  { unfold x. rewrite !zlen_app, ?zlen_cons, ?zlen_app, PolkadotProps.era_len by lia. rewrite ?zlen_cons. change (zlen (@nil Z)) with 0. pose proof (zlen_nonneg n). pose proof (zlen_nonneg f). pose proof (zlen_nonneg m). lia. }
  destruct (polka_encode _ L) as (s & -> & _). discriminate.
Qed.
(** Mateverse: the combiner crashes exactly on a key that is no point, met before any input that fails, or, when every input is
    verified and the text is readable, on a signature with a zero half, met before any id that is not hexadecimal. *)
Lemma sigpub_not_err s p : is_bytes s -> zlen s = 64 -> hypercash_sigpub s p 1 <> Err.
Proof.
  intros B L. assert (L' : length s = 64%nat) by (unfold zlen in L; lia). unfold hypercash_sigpub. destruct (Z.eq_dec (r_of s) 0) as [R|R]; [|destruct (Z.eq_dec (s_of s) 0) as [Q|Q]].
  - rewrite (proj2 (proj2 (signature_script_panics_iff s p 1 B L'))) by (left; exact R). discriminate.
  - rewrite (proj2 (proj2 (signature_script_panics_iff s p 1 B L'))) by (right; exact Q). discriminate.
  - unfold encode_script. destruct (signature_script_is_minimal_der s 1 B L' R Q) as (X & Y & _ & _ & ->). discriminate.
Qed.
Section Mate.
Variables (decompress : bytes -> bytes) (verify : bytes -> bytes -> bytes -> bool).
Lemma mate_input_cases n : (MateModel.verify_input decompress verify n = Ok true <-> mate_valid decompress verify n) /\ (MateModel.verify_input decompress verify n = Panic <-> mate_no_point decompress n).
Proof.
  unfold MateModel.verify_input, mate_valid, mate_no_point, mate_shows.
  destruct (hex_decode (MateModel.m_pub n)) as [p| |]; [|split; (split; [discriminate|])..]; [|intros (? & ? & ? & ? & ? & (Q & _) & _); discriminate|intros (? & ? & ? & (Q & _) & _); discriminate|intros (? & ? & ? & ? & ? & (Q & _) & _); discriminate|intros (? & ? & ? & (Q & _) & _); discriminate].
  destruct (hex_decode (MateModel.m_hash n)) as [h| |]; [|split; (split; [discriminate|])..]; [|intros (? & ? & ? & ? & ? & (_ & Q & _) & _); discriminate|intros (? & ? & ? & (_ & Q & _) & _); discriminate|intros (? & ? & ? & ? & ? & (_ & Q & _) & _); discriminate|intros (? & ? & ? & (_ & Q & _) & _); discriminate].
  destruct (hex_decode (MateModel.m_sig n)) as [s| |]; [|split; (split; [discriminate|])..]; [|intros (? & ? & ? & ? & ? & (_ & _ & Q & _) & _); discriminate|intros (? & ? & ? & (_ & _ & Q & _) & _); discriminate|intros (? & ? & ? & ? & ? & (_ & _ & Q & _) & _); discriminate|intros (? & ? & ? & (_ & _ & Q & _) & _); discriminate].
  destruct (_ || _ || _) eqn:L.
  - split; (split; [discriminate|]); [intros (p' & h' & s' & c & q & ([= <-] & [= <-] & [= <-] & L1 & L2 & L3) & _)|intros (p' & h' & s' & ([= <-] & [= <-] & [= <-] & L1 & L2 & L3) & _)]; lia.
  - destruct (decompress p) as [|c q] eqn:D.
    + change (slice_from (@nil Z) 1) with (@Panic (list Z)). cbn [bind]. split; (split; [|]).
      * discriminate.
      * intros (p' & h' & s' & c & q & ([= <-] & _) & D' & _). congruence.
      * intros _. exists p, h, s. repeat split; auto; lia.
      * reflexivity.
    + rewrite slice_from_cons. cbn [bind]. split; (split; [|]).
      * intros [= V]. exists p, h, s, c, q. repeat split; auto; lia.
      * intros (p' & h' & s' & c' & q' & ([= <-] & [= <-] & [= <-] & _) & D' & V). rewrite D in D'. injection D' as <- <-. rewrite V. reflexivity.
      * discriminate.
      * intros (p' & h' & s' & ([= <-] & _) & D'). congruence.
Qed.
Lemma mate_inputs_panic l : MateModel.verify_inputs decompress verify l = Panic <-> meets (mate_valid decompress verify) (mate_no_point decompress) l.
Proof.
  induction l as [|n l IH]; cbn [MateModel.verify_inputs]; [split; [discriminate|intros (pre & x & post & E & _); destruct pre; discriminate]|]. destruct (mate_input_cases n) as [CV CN]. split.
  - intros E. apply bindp in E as [E|(ok & Eo & E)]; [exists [], n, l; split; [reflexivity|]; split; [constructor|apply CN; exact E]|]. destruct ok; [|discriminate]. apply IH in E as (pre & x & post & -> & G & C). exists (n :: pre), x, post. split; [reflexivity|]. split; [|exact C]. constructor; [apply CV; exact Eo|exact G].
  - intros (pre & x & post & E & G & C). destruct pre as [|a pre]; cbn [app] in E; injection E as <- ->; [apply CN in C; rewrite C; reflexivity|]. apply Forall_cons_iff in G as [Gw G]. apply CV in Gw. rewrite Gw. cbn [bind]. apply IH. exists pre, x, post. auto.
Qed.
Lemma mate_inputs_true l : MateModel.verify_inputs decompress verify l = Ok true <-> Forall (mate_valid decompress verify) l.
Proof.
  induction l as [|n l IH]; cbn [MateModel.verify_inputs]; [split; [constructor|reflexivity]|]. rewrite Forall_cons_iff, <- IH, <- (proj1 (mate_input_cases n)). split.
  - intros E. apply bind_ok in E as (ok & Eo & E). destruct ok; [auto|discriminate].
  - intros [-> ->]. reflexivity.
Qed.
Lemma mate_submit_panic l : Forall (mate_valid decompress verify) l -> MateModel.submit_ins l = Panic <-> meets (fun n => is_hex (MateModel.m_txid n)) mate_zero l.
Proof.
  induction l as [|n l IH]; intros F; cbn [MateModel.submit_ins]; [split; [discriminate|intros (pre & x & post & E & _); destruct pre; discriminate]|]. apply Forall_cons_iff in F as [(p & h & s & c & q & (Ep & Eh & Es & Lp & Lh & Ls) & _) F]. specialize (IH F).
  rewrite HyperProps.reverse_hex_dec, (LiteProps.hex_prefix_ok _ _ Es), (LiteProps.hex_prefix_ok _ _ Ep).
  assert (Z0 : hypercash_sigpub s p 1 = Panic <-> r_of s = 0 \/ s_of s = 0).
  { unfold hypercash_sigpub. rewrite bindp. destruct (hex_decode_bytes _ _ Es) as [Bs _]. rewrite (proj2 (signature_script_panics_iff s p 1 Bs ltac:(unfold zlen in Ls; lia))). split; [intros [E|(y & _ & E)]; [exact E|discriminate]|auto]. }
  destruct (hex_decode (MateModel.m_txid n)) as [id| |] eqn:Ei.
  - split.
    + intros E. apply bindp in E as [E|(sp & _ & E)]; [exists [], n, l; split; [reflexivity|]; split; [constructor|]; split; [exists id; exact Ei|]; exists s; split; [exact Es|apply Z0; exact E]|]. apply bindp in E as [E|(r & _ & E)]; [|discriminate]. apply IH in E as (pre & x & post & -> & G & C). exists (n :: pre), x, post. split; [reflexivity|]. split; [|exact C]. constructor; [exists id; exact Ei|exact G].
    + intros (pre & x & post & E & G & C). destruct pre as [|a pre]; cbn [app] in E; injection E as <- ->.
      * destruct C as (_ & s' & Es' & C). rewrite Es in Es'. injection Es' as <-. apply Z0 in C. rewrite C. reflexivity.
      * apply Forall_cons_iff in G as [_ G]. assert (P : MateModel.submit_ins (pre ++ x :: post) = Panic) by (apply IH; exists pre, x, post; auto). destruct (hypercash_sigpub s p 1) as [sp| |] eqn:Q; [cbn [bind]; rewrite P; reflexivity| |reflexivity]. destruct (sigpub_not_err s p (proj1 (hex_decode_bytes _ _ Es)) Ls Q).
  - split; [discriminate|]. intros (pre & x & post & E & G & C). destruct pre as [|a pre]; cbn [app] in E; injection E as <- ->; [destruct C as [(b & Q) _]|apply Forall_inv in G as (b & Q)]; rewrite Ei in Q; discriminate.
  - destruct (hex_np _ Ei).
Qed.
Theorem mateverse_combining_crashes_exactly : forall text ins, MateModel.mate_verify decompress verify text ins = Panic <->
  meets (mate_valid decompress verify) (mate_no_point decompress) ins \/
  Forall (mate_valid decompress verify) ins /\ (exists l, MateModel.get_inputs text = Ok l) /\ meets (fun n => is_hex (MateModel.m_txid n)) mate_zero ins.
Proof.
  intros text ins. rewrite <- mate_inputs_panic. unfold MateModel.mate_verify. rewrite bindp.
  assert (G : (exists l, MateModel.get_inputs text = Ok l) <-> exists tx l tail, hex_decode text = Ok tx /\ MateModel.decode_empty tx = Ok (l, tail)).
  { unfold MateModel.get_inputs. destruct (hex_decode text) as [tx| |]; [|split; [intros (l & Q); discriminate|intros (tx & l & tail & Q & _); discriminate]..]. split.
    - intros (l & E). apply bind_ok in E as ([a b] & E & _). exists tx, a, b. auto.
    - intros (tx' & l & tail & [= <-] & ->). cbn [bind]. eauto. }
  rewrite G. split.
  - intros [E|(ok & Eo & E)]; [left; exact E|]. destruct ok; [|discriminate]. right. cbn [negb] in E. apply mate_inputs_true in Eo. split; [exact Eo|]. apply bindp in E as [E|(r & _ & E)]; [|discriminate]. unfold MateModel.submit_bytes in E. destruct (hex_decode text) as [tx| |]; [|discriminate..].
    destruct (MateModel.decode_empty tx) as [[l tail]| |] eqn:D; [|discriminate..]. apply bindp in E as [E|(y & _ & E)]; [|discriminate]. split; [exists tx, l, tail; auto|]. apply mate_submit_panic; assumption.
  - intros [E|(V & (tx & l & tail & T & D) & C)]; [left; exact E|right]. exists true. split; [apply mate_inputs_true; exact V|]. cbn [negb]. unfold MateModel.submit_bytes. rewrite T, D. apply mate_submit_panic in C; [|exact V]. rewrite C. reflexivity.
Qed.
End Mate.

(** ** Cases *)
Definition ex_one : list Z := str "1".
Lemma ex_one_text : text58 btc_alphabet_str ex_one [0].
Proof. apply (decode_text _ _ btc_alphabet_ok btc_alphabet_new); [apply FamPanicProps.checked_byteb; vm_compute; reflexivity|vm_compute; reflexivity]. Qed.
Definition ex_vsys (to : list Z) : VsysModel.txs := {| VsysModel.v_type := 2; VsysModel.v_to := to; VsysModel.v_amount := 5; VsysModel.v_fee := 1; VsysModel.v_scale := 100; VsysModel.v_attachment := [] |}.
Example ex_vsys_crash : VsysModel.create btc_alphabet toy_hash 1000 (ex_vsys ex_one) = Panic.
Proof. apply (vsys_creation_crashes_exactly btc_alphabet_str); [exact btc_alphabet_ok|exact btc_alphabet_new|exact toy_hash_ok|apply FamPanicProps.checked_byteb; vm_compute; reflexivity|]. exists [0]. split; [exact ex_one_text|reflexivity]. Qed.
Example ex_moac_cases : MoacModel.create toy_hash (str "0") 1 5 21000 1 false = Panic /\ exists r, MoacModel.create toy_hash (str "0x" ++ hex_encode (repeat 7 20)) 1 5 21000 1 false = Ok r.
Proof. split; [vm_compute; reflexivity|eexists; vm_compute; reflexivity]. Qed.
Example ex_bigbang_crash : BigbangModel.bb_create toy_hash 5 0 (hex_encode (repeat 3 32)) [(hex_encode (repeat 7 32), 0)] [] 5 1 [] = Panic.
Proof.
  apply bigbang_creation_crashes_exactly. assert (D : hex_decode (hex_encode (repeat 7 32)) = Ok (repeat 7 32)) by (vm_compute; reflexivity).
  split; [reflexivity|]. split; [eexists; vm_compute; reflexivity|]. split; [discriminate|]. constructor; [|constructor]. exists (repeat 7 32). split; [exact D|reflexivity].
Qed.
Definition ex_fee (c : CosmosModel.coins) : CosmosModel.fee := {| CosmosModel.f_amount := c; CosmosModel.f_gas := str "1" |}.
Example ex_cosmos_cases : CosmosModel.new_tx [] [] 1 2 (Some (ex_fee (Some []))) None = Panic /\ exists r, CosmosModel.new_tx [] [] 1 2 (Some (ex_fee (Some [{| CosmosModel.c_amount := []; CosmosModel.c_denom := [] |}]))) None = Ok r.
Proof. split; [reflexivity|eexists; reflexivity]. Qed.
Definition ex_hyper_to : list Z := match encode_check btc_alphabet toy_hash [9; 127] (repeat 5 20) with Ok s => s | _ => [] end.
Definition ex_hvout (a : list Z) : HyperModel.hvout := {| HyperModel.v_amount := 5; HyperModel.v_version := 0; HyperModel.v_address := a |}.
Example ex_hyper_payable : hyper_payable btc_alphabet_str toy_hash (ex_hvout ex_hyper_to).
Proof. exists (repeat 5 20). split; [reflexivity|]. apply (encode_text _ btc_alphabet _ btc_alphabet_ok btc_alphabet_new toy_hash_ok); [apply FamPanicProps.checked_byteb; vm_compute; reflexivity..|vm_compute; reflexivity]. Qed.
Example ex_hyper_crash : HyperModel.create_empty toy_hash btc_alphabet toy_hash [HyperProps.ex_in] [ex_hvout ex_hyper_to; ex_hvout ex_one] 0 0 = Panic /\
  HyperModel.create_omni toy_hash btc_alphabet toy_hash [HyperProps.ex_in] (ex_hvout ex_hyper_to) (Some (ex_hvout ex_one)) 5 31 0 0 = Panic /\
  exists r, HyperModel.create_empty toy_hash btc_alphabet toy_hash [HyperProps.ex_in] [ex_hvout ex_hyper_to] 0 0 = Ok r.
Proof. split; [vm_compute; reflexivity|]. split; [vm_compute; reflexivity|]. eexists. vm_compute. reflexivity. Qed.
Example ex_hyper_met : meets (hyper_payable btc_alphabet_str toy_hash) (hyper_crash btc_alphabet_str toy_hash) [ex_hvout ex_hyper_to; ex_hvout ex_one].
Proof. exists [ex_hvout ex_hyper_to], (ex_hvout ex_one), []. split; [reflexivity|]. split; [constructor; [exact ex_hyper_payable|constructor]|]. exists [0]. split; [exact ex_one_text|left; reflexivity]. Qed.
(** FiiiCoin: six bytes with a correct checksum, and a prefix of seven that begins with them. *)
Definition ex_short : bytes := checked toy_hash [1; 2].
Definition ex_short_text : list Z := match encode_check btc_alphabet toy_hash [1] [2] with Ok s => s | _ => [] end.
Definition ex_fvout (p a : list Z) : FiiiModel.vout := {| FiiiModel.w_prefix := p; FiiiModel.w_address := a; FiiiModel.w_amount := 5 |}.
Definition ex_fvin : FiiiModel.vin := {| FiiiModel.v_txid := hex_encode (repeat 7 32); FiiiModel.v_vout := 0 |}.
Example ex_fiii_met : fiii_crash btc_alphabet_str toy_hash (ex_fvout (ex_short ++ [9]) ex_short_text) /\ fiii_payable btc_alphabet_str toy_hash (ex_fvout [9; 127] ex_hyper_to) /\ fiii_input ex_fvin.
Proof.
  split; [|split].
  - exists ex_short. split; [|right; split; [exists [1; 2]; reflexivity|exists [9]; split; [discriminate|reflexivity]]]. apply (encode_text _ btc_alphabet _ btc_alphabet_ok btc_alphabet_new toy_hash_ok [1] [2]); [apply FamPanicProps.checked_byteb; vm_compute; reflexivity..|vm_compute; reflexivity].
  - split; [reflexivity|]. exact ex_hyper_payable.
  - exists (repeat 7 32). split; [vm_compute; reflexivity|reflexivity].
Qed.
Example ex_fiii_cases : FiiiModel.create btc_alphabet toy_hash 5 [ex_fvin] [ex_fvout [9; 127] ex_hyper_to; ex_fvout (ex_short ++ [9]) ex_short_text] 1 0 0 = Panic /\
  FiiiModel.create btc_alphabet toy_hash 5 [ex_fvin] [ex_fvout [9; 127] ex_hyper_to; ex_fvout ex_short ex_short_text] 1 0 0 = Err /\ exists r, FiiiModel.create btc_alphabet toy_hash 5 [ex_fvin] [ex_fvout [9; 127] ex_hyper_to] 1 0 0 = Ok r.
Proof. split; [vm_compute; reflexivity|]. split; [vm_compute; reflexivity|]. eexists. vm_compute. reflexivity. Qed.
(** Mateverse: no point, and a signature with a zero half. *)
Definition ex_mate (sig : bytes) (i : bytes * Z * Z) : MateModel.mvin := MateProps.sign_with (MateModel.set_mhash (MateProps.fresh i) (hex_encode (zeros 32))) (hex_encode sig, hex_encode (repeat 2 33)).
Example ex_mate_cases : MateModel.mate_verify (fun _ => []) (fun _ _ _ => true) (MateProps.ex_text [2] [9]) (map (ex_mate (repeat 1 64)) MateProps.ex_ins) = Panic /\
  MateModel.mate_verify (fun p => 4 :: p) (fun _ _ _ => true) (MateProps.ex_text [2] [9]) (map (ex_mate (repeat 1 32 ++ zeros 32)) MateProps.ex_ins) = Panic /\
  MateModel.mate_verify (fun p => 4 :: p) (fun _ _ _ => true) [] (map (ex_mate (repeat 1 32 ++ zeros 32)) MateProps.ex_ins) = Ok None.
Proof. split; [vm_compute; reflexivity|]. split; vm_compute; reflexivity. Qed.
(** The drivers that never crash do create. *)
Example ex_created : (exists r, WaykiModel.create btc_alphabet toy_hash 3 WaykiProps.ex_q = Ok r) /\ (exists r, PolkadotModel.message PolkadotProps.ex_code PolkadotProps.ex_tx = Ok r) /\
  (exists r, FilenetModel.create btc_alphabet toy_hash (fun _ l => l) 5 (FilenetProps.ex_addr 3) FilenetProps.ex_outs = Ok r) /\ WaykiProps.typed WaykiProps.ex_q /\ PolkadotProps.tx_typed PolkadotProps.ex_tx.
Proof.
  split; [eexists; vm_compute; reflexivity|]. split; [eexists; vm_compute; reflexivity|]. split; [eexists; vm_compute; reflexivity|]. split; [exact WaykiProps.ex_typed|]. unfold PolkadotProps.tx_typed, PolkadotProps.ex_tx. cbn [PolkadotModel.amount PolkadotModel.nonce PolkadotModel.fee PolkadotModel.height PolkadotModel.spec_version PolkadotModel.tx_version]. lia.
Qed.
Print Assumptions ripple_creation_never_crashes.
Print Assumptions waykichain_creation_never_crashes.
Print Assumptions filenet_creation_never_crashes.
Print Assumptions moac_creation_crashes_exactly.
Print Assumptions vsys_creation_crashes_exactly.
Print Assumptions bigbang_creation_crashes_exactly.
Print Assumptions cosmos_creation_crashes_exactly.
Print Assumptions hypercash_creation_crashes_exactly.
Print Assumptions hypercash_omni_creation_crashes_exactly.
Print Assumptions fiiicoin_creation_crashes_exactly.
Print Assumptions polkadot_never_crashes.
Print Assumptions mateverse_combining_crashes_exactly.
