(** C40, C41, C75: Ripple payments. *)
From Coq Require Import ZArith List Bool Lia ZifyBool ZifyNat.
From Verif Require Import Go GoFacts GoFacts2 Codes Base58Model Base58Spec Base58Props Base58CheckSpec Base58CheckModel Base58CheckProofs Base58CheckProps SigModel SigDerProps ConvertBitsProofs Toy RippleModel.
Import ListNotations.
Open Scope Z_scope.
Ltac Zify.zify_post_hook ::= idtac.

(** ** Specification *)
(** A counted byte string: one length byte. *)
Definition vl (b : bytes) : bytes := zlen b mod 256 :: b.
Definition optional (id : Z) (b : bytes) : bytes := match b with [] => [] | _ => id :: vl b end.
(** The memo array with one memo; absent without memo data. *)
Definition wire_memos (p : payment) : bytes :=
  match p_mdata p with
  | [] => []
  | _ => [0xF9; 0xEA] ++ optional 0x7C (p_mtype p) ++ 0x7D :: vl (p_mdata p) ++ optional 0x7E (p_mformat p) ++ [0xE1; 0xF1]
  end.
(** The fields of a payment in the order of the ledger format: before the signature and after it. *)
Definition wire_before (p : payment) (pub : bytes) : bytes :=
  [0x12; 0x00; 0x00] ++ [0x22; 0x80; 0x00; 0x00; 0x00] ++
  0x24 :: be_bytes 4 (p_seq p) ++
  (if p_tag p <? 0 then [] else 0x2E :: be_bytes 4 (p_tag p mod 2 ^ 32)) ++
  [0x20; 0x1B] ++ be_bytes 4 (p_last p) ++
  0x61 :: be_bytes 8 (2 ^ 62 + p_amount p mod 2 ^ 62) ++
  0x68 :: be_bytes 8 (2 ^ 62 + p_fee p mod 2 ^ 62) ++
  0x73 :: vl pub.
Definition wire_after (p : payment) (acc dst : bytes) : bytes := 0x81 :: vl acc ++ 0x83 :: vl dst ++ wire_memos p.
(** The signature field: DER of the two numbers. *)
Definition wire_signature (sig f : bytes) : Prop :=
  exists R S, der_int (r_of sig) R /\ der_int (s_of sig) S /\
    f = [0x74; zlen R + zlen S + 6; 0x30; zlen R + zlen S + 4; 2; zlen R] ++ R ++ [2; zlen S] ++ S.
(** "STX", 0. *)
Definition stx : bytes := [0x53; 0x54; 0x58; 0x00].
Definition payment_typed (p : payment) : Prop :=
  0 <= p_seq p < 2 ^ 32 /\ 0 <= p_last p < 2 ^ 32 /\ 0 <= p_amount p < 2 ^ 64 /\ 0 <= p_fee p < 2 ^ 64 /\
  is_bytes (p_from p) /\ is_bytes (p_to p) /\ is_bytes (p_mtype p) /\ is_bytes (p_mdata p) /\ is_bytes (p_mformat p).
(** The key and the account hashes of a payment. *)
Definition address_of (H : bytes -> bytes) (hash : bytes) (address : list Z) : Prop :=
  is_bytes hash /\ zlen hash = 20 /\ encode_check ripple_alphabet H [0] hash = Ok address.
Definition payment_parts (H : bytes -> bytes) (p : payment) (pub acc dst : bytes) : Prop :=
  p_amount p <> 0 /\ p_fee p <> 0 /\ hex_decode (p_pub p) = Ok pub /\ zlen pub = 33 /\ (hd 0 pub = 2 \/ hd 0 pub = 3) /\
  address_of H acc (p_from p) /\ address_of H dst (p_to p).

(** ** Lemmas *)
Lemma value_bytes_eq n : value_bytes n = be_bytes 8 (2 ^ 62 + n mod 2 ^ 62).
Proof.
  unfold value_bytes. f_equal. rewrite (Z.shiftl_mul_pow2 1 62) at 2 by lia. change (1 * 2 ^ 62 - 1) with (Z.ones 62). rewrite Z.land_ones by lia.
  rewrite lor_shift by (try lia; apply Z.mod_pos_bound; lia). lia.
Qed.
Lemma counted_eq b : counted b = vl b.
Proof. reflexivity. Qed.
Lemma memos_eq p : memos_bytes (p_mtype p) (p_mdata p) (p_mformat p) = wire_memos p.
Proof.
  unfold memos_bytes, wire_memos. destruct (p_mdata p) as [|x l]; [reflexivity|]. destruct (p_mtype p), (p_mformat p); reflexivity.
Qed.
Lemma account_iff H field a out : hash_ok H -> is_bytes a -> account_bytes ripple_alphabet H field a = Ok out <-> exists h, address_of H h a /\ out = field ++ vl h.
Proof.
  intros HH Ha. unfold account_bytes, address_of. split.
  - intros E. apply bind_ok in E as (h & Eh & E). injection E as <-.
    destruct (program_hash_inv H HH _ ripple_alphabet_ok _ ripple_alphabet_new [0] 1 a h Ha (or_intror eq_refl) Eh) as (p & b & [<- |[]] & _ & Bb & L & -> & K).
    exists b. split; [|reflexivity]. split; [exact Bb|]. split; [unfold zlen; lia|exact K].
  - intros (h & (Bh & Lh & K) & ->).
    destruct (program_hash_complete H _ _ [0] 1 0 h HH ripple_alphabet_ok ripple_alphabet_new (or_intror eq_refl) ltac:(unfold is_byte; lia) (or_introl eq_refl) Bh ltac:(unfold zlen in Lh; lia)) as (s & Es & Ep).
    rewrite K in Es. injection Es as <-. rewrite Ep. reflexivity.
Qed.
Lemma pubkey_iff k out : pubkey_bytes k = Ok out <-> exists pub, hex_decode k = Ok pub /\ zlen pub = 33 /\ (hd 0 pub = 2 \/ hd 0 pub = 3) /\ out = 0x73 :: vl pub.
Proof.
  unfold pubkey_bytes. split.
  - intros E. apply bind_ok in E as (pub & Ep & E). destruct (zlen pub =? 33) eqn:L; [|discriminate]. cbn [negb] in E. destruct pub as [|x pub]; [discriminate L|]. change (idx (x :: pub) 0) with (Ok x) in E. cbn [bind] in E.
    destruct (x =? 2) eqn:X2; [|destruct (x =? 3) eqn:X3; [|discriminate E]]; cbn [negb andb] in E; (apply (f_equal (fun x => match x with Ok v => v | _ => [] end)) in E; cbv beta iota in E; subst out; exists (x :: pub); split; [exact Ep|]; split; [lia|]; split; [cbn [hd]; lia|reflexivity]).
  - intros (pub & Ep & L & D & ->). rewrite Ep. cbn [bind]. rewrite L. change (negb (33 =? 33)) with false. cbv iota. destruct pub as [|x pub]; [discriminate L|]. change (idx (x :: pub) 0) with (Ok x). cbn [bind hd] in *.
    replace (negb (x =? 2) && negb (x =? 3)) with false by (destruct D; subst x; reflexivity). reflexivity.
Qed.
Definition with_parts (p : payment) (pub acc dst : bytes) : tx :=
  {| TransactionType := [0x12; 0; 0]; Flags := [0x22; 0x80; 0; 0; 0]; Sequence := 0x24 :: be_bytes 4 (p_seq p); LastLedgerSequence := [0x20; 0x1B] ++ be_bytes 4 (p_last p);
     Amount := 0x61 :: be_bytes 8 (2 ^ 62 + p_amount p mod 2 ^ 62); Fee := 0x68 :: be_bytes 8 (2 ^ 62 + p_fee p mod 2 ^ 62); SigningPubKey := 0x73 :: vl pub; TxnSignature := [];
     Account := 0x81 :: vl acc; Destination := 0x83 :: vl dst; DestinationTag := if p_tag p <? 0 then [] else 0x2E :: be_bytes 4 (p_tag p mod 2 ^ 32); Memos := wire_memos p |}.
Lemma new_tx_iff H p t : hash_ok H -> payment_typed p -> new_tx ripple_alphabet H p = Ok t <-> exists pub acc dst, payment_parts H p pub acc dst /\ t = with_parts p pub acc dst.
Proof.
  intros HH (T1 & T2 & T3 & T4 & B1 & B2 & _). unfold new_tx, payment_parts, amount_bytes, fee_bytes. rewrite !value_bytes_eq. split.
  - intros E. destruct (p_amount p =? 0) eqn:A; [discriminate|]. cbn [bind] in E. destruct (p_fee p =? 0) eqn:F; [discriminate|]. cbn [bind] in E.
    apply bind_ok in E as (k & Ek & E). apply pubkey_iff in Ek as (pub & Ep & Lp & Dp & ->). apply bind_ok in E as (a & Ea & E). apply (account_iff H f_account (p_from p) a HH B1) in Ea as (acc & Aa & ->).
    apply bind_ok in E as (d & Ed & E). apply (account_iff H f_destination (p_to p) d HH B2) in Ed as (dst & Ad & ->).
    exists pub, acc, dst. split; [repeat (split; [assumption || lia|]); assumption|]. apply (f_equal (fun x => match x with Ok v => v | _ => t end)) in E. cbv beta iota in E. subst t. unfold with_parts. rewrite memos_eq. reflexivity.
  - intros (pub & acc & dst & (A & F & Ep & Lp & Dp & Aa & Ad) & ->). replace (p_amount p =? 0) with false by lia. replace (p_fee p =? 0) with false by lia. cbn [bind].
    rewrite (proj2 (pubkey_iff (p_pub p) (0x73 :: vl pub))) by (exists pub; auto). cbn [bind].
    rewrite (proj2 (account_iff H f_account (p_from p) (f_account ++ vl acc) HH B1)) by (exists acc; auto). cbn [bind].
    rewrite (proj2 (account_iff H f_destination (p_to p) (f_destination ++ vl dst) HH B2)) by (exists dst; auto). cbn [bind]. rewrite memos_eq. reflexivity.
Qed.
Lemma replace_hex b r : is_bytes b -> replace_s r (hex_encode b) = hex_encode b.
Proof.
  intros Hb. unfold replace_s. assert (F : Forall (fun c => c <> 115) (hex_encode b)).
  { induction Hb as [|x b Hx Hb IH]; [constructor|]. cbn [hex_encode flat_map app]. fold (hex_encode b). unfold is_byte in Hx.
    assert (D : forall v, 0 <= v < 16 -> hex_digit v <> 115) by (intros v Hv; unfold hex_digit; destruct (v <? 10); lia).
    constructor; [apply D; Z.div_mod_to_equations; lia|]. constructor; [apply D; Z.div_mod_to_equations; lia|exact IH]. }
  revert F. generalize (hex_encode b). intros w F. induction F as [|c w Hc F IH]; [reflexivity|]. cbn [flat_map]. replace (c =? 115) with false by lia. rewrite IH. reflexivity.
Qed.
Lemma replace_app r a b : replace_s r (a ++ b) = replace_s r a ++ replace_s r b.
Proof. apply flat_map_app. Qed.
Lemma vl_bytes b : is_bytes b -> is_bytes (vl b).
Proof. intros H. apply is_bytes_cons. split; [unfold is_byte; apply Z.mod_pos_bound; lia|exact H]. Qed.
Lemma optional_bytes id b : is_byte id -> is_bytes b -> is_bytes (optional id b).
Proof. intros I B. unfold optional. destruct b; [constructor|]. apply is_bytes_cons. split; [exact I|]. apply vl_bytes. exact B. Qed.
Lemma before_bytes p pub : is_bytes pub -> is_bytes (wire_before p pub).
Proof.
  intros B. apply vl_bytes in B. unfold wire_before. bts.
Qed.
Lemma after_bytes p acc dst : is_bytes acc -> is_bytes dst -> payment_typed p -> is_bytes (wire_after p acc dst).
Proof.
  intros A D (_ & _ & _ & _ & _ & _ & M1 & M2 & M3). apply vl_bytes in A. apply vl_bytes in D. apply vl_bytes in M2. pose proof (optional_bytes 0x7C _ ltac:(apply byte_lit; reflexivity) M1). pose proof (optional_bytes 0x7E _ ltac:(apply byte_lit; reflexivity) M3). unfold wire_after, wire_memos. bts.
Qed.
Lemma raw_eq p pub acc dst : to_empty_raw (with_parts p pub acc dst) = hex_encode (wire_before p pub) ++ 115 :: hex_encode (wire_after p acc dst).
Proof. reflexivity. Qed.
Lemma to_bytes_eq p pub acc dst : to_bytes (with_parts p pub acc dst) = wire_before p pub ++ wire_after p acc dst.
Proof. unfold to_bytes, wire_before, wire_after, with_parts. cbn [TransactionType Flags Sequence DestinationTag LastLedgerSequence Amount Fee SigningPubKey TxnSignature Account Destination Memos]. rewrite <- !app_assoc. cbn [app]. rewrite <- !app_assoc. cbn [app]. rewrite <- !app_assoc. cbn [app]. rewrite <- ?app_assoc. reflexivity. Qed.

(** ** C40: the hash handed out, the hash checked and the transaction sent *)
Definition hash32_ok (H : bytes -> bytes) : Prop := forall d, is_bytes d -> is_bytes (H d) /\ 32 <= zlen (H d).
Theorem payment_created_iff : forall H H512 p text hash, hash_ok H -> hash32_ok H512 -> payment_typed p ->
  create ripple_alphabet H H512 p = Ok (text, hash) <->
  exists pub acc dst, payment_parts H p pub acc dst /\
    text = hex_encode (wire_before p pub) ++ 115 :: hex_encode (wire_after p acc dst) /\
    hash = hex_encode (firstn 32 (H512 (stx ++ wire_before p pub ++ wire_after p acc dst))).
Proof.
  intros H H512 p text hash HH H5 T.
  assert (G : forall pub acc dst, payment_parts H p pub acc dst -> slice (H512 (stx ++ wire_before p pub ++ wire_after p acc dst)) 0 32 = Ok (firstn 32 (H512 (stx ++ wire_before p pub ++ wire_after p acc dst)))).
  { intros pub acc dst (_ & _ & Ep & _ & _ & (Ba & _) & (Bd & _)). apply hex_decode_bytes in Ep as [Bp _].
    destruct (H5 (stx ++ wire_before p pub ++ wire_after p acc dst)) as [_ L]; [unfold stx; pose proof (before_bytes p pub Bp); pose proof (after_bytes p acc dst Ba Bd T); bts|].
    rewrite <- (firstn_skipn 32 (H512 _)) at 1. apply slice_pre. unfold zlen in *. rewrite firstn_length. lia. }
  unfold create. split.
  - intros E. apply bind_ok in E as (t & Et & E). apply (new_tx_iff H p t HH T) in Et as (pub & acc & dst & P & ->). apply bind_ok in E as (h & Eh & E). injection E as <- <-.
    exists pub, acc, dst. split; [exact P|]. split; [apply raw_eq|]. unfold get_hash in Eh. change ({| TransactionType := _; Flags := _ |}) with (with_parts p pub acc dst) in Eh. cbv zeta in Eh. rewrite to_bytes_eq in Eh. change sign_prefix with stx in Eh. rewrite (G _ _ _ P) in Eh. congruence.
  - intros (pub & acc & dst & P & -> & ->). rewrite (proj2 (new_tx_iff H p (with_parts p pub acc dst) HH T)) by (exists pub, acc, dst; auto). cbn [bind]. unfold get_hash. cbv zeta.
    change ({| TransactionType := _; Flags := _ |}) with (with_parts p pub acc dst). rewrite to_bytes_eq. change sign_prefix with stx. rewrite (G _ _ _ P). cbn [bind]. rewrite raw_eq. reflexivity.
Qed.
Lemma parts_bytes H p pub acc dst : payment_typed p -> payment_parts H p pub acc dst -> is_bytes (wire_before p pub) /\ is_bytes (wire_after p acc dst).
Proof. intros T (_ & _ & Ep & _ & _ & (Ba & _) & (Bd & _)). apply hex_decode_bytes in Ep as [Bp _]. split; [apply before_bytes; exact Bp|apply after_bytes; assumption]. Qed.
Lemma hash_from_raw H512 before after : is_bytes before -> is_bytes after ->
  hash_from_empty H512 (hex_encode before ++ 115 :: hex_encode after) = slice (H512 (stx ++ before ++ after)) 0 32.
Proof.
  intros B A. unfold hash_from_empty. rewrite replace_app. cbn [replace_s flat_map]. rewrite Z.eqb_refl. cbn [app]. fold (replace_s [] (hex_encode after)).
  rewrite !replace_hex by assumption. rewrite <- hex_encode_app, hex_decode_encode by (apply is_bytes_app; auto). reflexivity.
Qed.
(** The hash recomputed from the text is the hash handed out with it. *)
Theorem signing_hash_recomputed : forall H H512 p text hash, hash_ok H -> hash32_ok H512 -> payment_typed p ->
  create ripple_alphabet H H512 p = Ok (text, hash) -> exists h, hash_from_empty H512 text = Ok h /\ hash = hex_encode h.
Proof.
  intros H H512 p text hash HH H5 T E. pose proof E as E0. apply (payment_created_iff H H512 p text hash HH H5 T) in E as (pub & acc & dst & P & -> & ->).
  destruct (parts_bytes _ _ _ _ _ T P) as [B A]. rewrite hash_from_raw by assumption. eexists. split; [|reflexivity].
  destruct (H5 (stx ++ wire_before p pub ++ wire_after p acc dst)) as [_ L]; [unfold stx; bts|].
  rewrite <- (firstn_skipn 32 (H512 _)) at 1. apply slice_pre. unfold zlen in *. rewrite firstn_length. lia.
Qed.

(** ** C75: the signed transaction *)
Lemma slice_bytes (l : bytes) i j r : is_bytes l -> slice l i j = Ok r -> is_bytes r.
Proof. intros B E. apply slice_ok in E as (_ & _ & a & c & -> & _). apply is_bytes_app in B as [_ B]. apply is_bytes_app in B as [B _]. exact B. Qed.
Lemma signature_field signature sig : hex_decode signature = Ok sig -> zlen sig = 64 -> r_of sig <> 0 -> s_of sig <> 0 ->
  exists f, txn_signature_bytes signature = Ok f /\ wire_signature sig f.
Proof.
  intros E L Nr Ns. apply hex_decode_bytes in E as HB. destruct HB as [B _]. assert (L' : length sig = 64%nat) by (unfold zlen in L; lia).
  destruct (halves_bytes sig B) as [B1 B2]. pose proof (be_num_bound _ B1). pose proof (be_num_bound _ B2). destruct (split64 sig L') as (L1 & L2 & Q1 & Q2).
  destruct (der_trim_ok _ B1 ltac:(unfold r_of in *; lia) L1) as (R & E1 & D1 & M1 & _). destruct (der_trim_ok _ B2 ltac:(unfold s_of in *; lia) L2) as (S & E2 & D2 & M2 & _).
  unfold txn_signature_bytes. rewrite E. cbn [bind]. rewrite L. change (negb (64 =? 64)) with false. cbv iota. unfold signature_bytes. rewrite Q1. cbn [bind]. rewrite Q2. cbn [bind]. rewrite E1. cbn [bind]. rewrite E2. cbn [bind].
  eexists. split; [reflexivity|]. exists R, S. split; [exact D1|]. split; [exact D2|]. assert (ZR : zlen R <= 33) by (unfold zlen; lia). assert (ZS : zlen S <= 33) by (unfold zlen; lia). pose proof (zlen_nonneg R). pose proof (zlen_nonneg S).
  cbv zeta. cbn [app]. rewrite !zlen_cons, zlen_app, !zlen_cons. rewrite !SigDerProps.u8_small by lia. change f_txn_signature with [116]. cbn [app]. f_equal. f_equal; [lia|]. f_equal. f_equal. lia.
Qed.
(** A signed transaction is returned exactly when the signature verifies, for the key given in the call, over the hash that
    was handed out; it is the payment with the signature field in its place. *)
Theorem signed_payment_iff : forall H H512 decompress verify p pub acc dst text hash h signature sig publicKey key s, hash_ok H -> hash32_ok H512 -> payment_typed p ->
  payment_parts H p pub acc dst -> create ripple_alphabet H H512 p = Ok (text, hash) -> hex_decode hash = Ok h ->
  hex_decode signature = Ok sig -> zlen sig = 64 -> r_of sig <> 0 -> s_of sig <> 0 -> hex_decode publicKey = Ok key -> decompress key <> [] ->
  verify_and_combine H512 decompress verify text signature publicKey = Ok (true, s) <->
  exists f, verify (tl (decompress key)) h sig = true /\ wire_signature sig f /\ s = hex_encode (wire_before p pub ++ f ++ wire_after p acc dst).
Proof.
  intros H H512 decompress verify p pub acc dst text hash h signature sig publicKey key s HH H5 T P E Eh0 Es Ls Nr Ns Ek Dk.
  destruct (signing_hash_recomputed H H512 p text hash HH H5 T E) as (h' & Eh & Hh). 
  assert (h' = h).
  { assert (Bh : is_bytes h') by (unfold hash_from_empty in Eh; apply bind_ok in Eh as (b & Eb & Eh); apply hex_decode_bytes in Eb as [Bb _]; destruct (H5 (sign_prefix ++ b)) as [Bx _]; [unfold sign_prefix; bts|]; eapply slice_bytes; eassumption).
    rewrite Hh, hex_decode_encode in Eh0 by exact Bh. congruence. }
  subst h'. unfold verify_and_combine. rewrite Eh, Ek, Es. destruct (decompress key) as [|x point]; [contradiction|]. rewrite slice_from_cons. cbn [bind tl].
  destruct (signature_field signature sig Es Ls Nr Ns) as (f & Ef & Wf). rewrite Ef.
  apply (payment_created_iff H H512 p text hash HH H5 T) in E as (pub' & acc' & dst' & P' & Et & Eh2).
  assert (EQ : pub' = pub /\ acc' = acc /\ dst' = dst).
  { destruct P as (_ & _ & Ep & _ & _ & (Ba & La & Ka) & (Bd & Ld & Kd)). destruct P' as (_ & _ & Ep' & _ & _ & (Ba' & La' & Ka') & (Bd' & Ld' & Kd')). split; [congruence|].
    assert (UQ : forall a b c, is_bytes a -> zlen a = 20 -> encode_check ripple_alphabet H [0] a = Ok c -> is_bytes b -> zlen b = 20 -> encode_check ripple_alphabet H [0] b = Ok c -> a = b).
    { intros a b c Pa Qa Ra Pb Qb Rb.
      destruct (program_hash_complete H _ _ [0] 1 0 a HH ripple_alphabet_ok ripple_alphabet_new (or_intror eq_refl) ltac:(unfold is_byte; lia) (or_introl eq_refl) Pa ltac:(unfold zlen in Qa; lia)) as (s1 & Es1 & Ep1).
      destruct (program_hash_complete H _ _ [0] 1 0 b HH ripple_alphabet_ok ripple_alphabet_new (or_intror eq_refl) ltac:(unfold is_byte; lia) (or_introl eq_refl) Pb ltac:(unfold zlen in Qb; lia)) as (s2 & Es2 & Ep2).
      assert (s1 = s2) by congruence. subst s2. rewrite Ep1 in Ep2. change (1 =? 0) with false in Ep2. cbv iota in Ep2. congruence. }
    split; eapply UQ; eassumption. }
  destruct EQ as (-> & -> & ->). clear P'. destruct (parts_bytes _ _ _ _ _ T P) as [B A].
  assert (OUT : replace_s (hex_encode f) text = hex_encode (wire_before p pub ++ f ++ wire_after p acc dst)).
  { rewrite Et, replace_app. cbn [replace_s flat_map]. rewrite Z.eqb_refl. fold (replace_s (hex_encode f) (hex_encode (wire_after p acc dst))). rewrite !replace_hex by assumption. rewrite !hex_encode_app. reflexivity. }
  rewrite OUT.
  assert (WU : forall f', wire_signature sig f' -> f' = f).
  { intros f' (R' & S' & D1' & D2' & ->). destruct Wf as (R & S & D1 & D2 & ->). rewrite (minimal_der_unique _ _ _ D1 D1'), (minimal_der_unique _ _ _ D2 D2'). reflexivity. }
  split.
  - destruct (verify point h sig) eqn:V; cbn [negb]; intros E; [|discriminate]. apply (f_equal (fun x => match x with Ok v => snd v | _ => [] end)) in E. cbv beta iota in E. cbn [snd] in E. exists f. auto.
  - intros (f' & V & W & ->). rewrite (WU _ W), V. reflexivity.
Qed.
(** A signature of another length that the verifier accepts gives "true" with the unsigned transaction. *)
Theorem wrong_length_gives_unsigned : forall H512 decompress verify before after signature sig publicKey key h, is_bytes before -> is_bytes after ->
  hash_from_empty H512 (hex_encode before ++ 115 :: hex_encode after) = Ok h -> hex_decode signature = Ok sig -> zlen sig <> 64 -> hex_decode publicKey = Ok key -> decompress key <> [] ->
  verify (tl (decompress key)) h sig = true ->
  verify_and_combine H512 decompress verify (hex_encode before ++ 115 :: hex_encode after) signature publicKey = Ok (true, hex_encode (before ++ after)).
Proof.
  intros H512 decompress verify before after signature sig publicKey key h B A Eh Es Ls Ek Dk V. unfold verify_and_combine. rewrite Eh, Ek, Es. destruct (decompress key) as [|x point]; [contradiction|]. rewrite slice_from_cons. cbn [bind tl] in *. rewrite V. cbn [negb].
  unfold txn_signature_bytes. rewrite Es. cbn [bind]. replace (zlen sig =? 64) with false by lia. cbn [negb]. rewrite replace_app. cbn [replace_s flat_map]. rewrite Z.eqb_refl. cbn [app]. fold (replace_s [] (hex_encode after)).
  rewrite !replace_hex by assumption. rewrite hex_encode_app. reflexivity.
Qed.
(** A key that does not decompress panics; so does a zero half of the signature. *)
Theorem bad_key_panics : forall H512 decompress verify text signature sig publicKey key h, hash_from_empty H512 text = Ok h -> hex_decode signature = Ok sig -> hex_decode publicKey = Ok key -> decompress key = [] ->
  verify_and_combine H512 decompress verify text signature publicKey = Panic.
Proof. intros H512 decompress verify text signature sig publicKey key h Eh Es Ek Dk. unfold verify_and_combine. rewrite Eh, Ek, Es, Dk. reflexivity. Qed.

(** ** C41: what is truncated, and what the signed bytes determine *)
(** Two payments whose tag, amounts and memo lengths agree modulo 2^32, 2^62 are written identically. *)
Theorem truncated_payments_collide : forall H H512 p k m n text hash, hash_ok H -> hash32_ok H512 -> payment_typed p -> 0 <= p_tag p -> 0 <= k -> 0 <= m -> 0 <= n ->
  p_amount p + m * 2 ^ 62 < 2 ^ 64 -> p_fee p + n * 2 ^ 62 < 2 ^ 64 ->
  create ripple_alphabet H H512 p = Ok (text, hash) ->
  create ripple_alphabet H H512 {| p_from := p_from p; p_pub := p_pub p; p_tag := p_tag p + k * 2 ^ 32; p_seq := p_seq p; p_to := p_to p; p_amount := p_amount p + m * 2 ^ 62; p_fee := p_fee p + n * 2 ^ 62; p_last := p_last p; p_mtype := p_mtype p; p_mdata := p_mdata p; p_mformat := p_mformat p |} = Ok (text, hash).
Proof.
  intros H H512 p k m n text hash HH H5 T Ht Hk Hm Hn Ba Bf E. apply (payment_created_iff H H512 p text hash HH H5 T) in E as (pub & acc & dst & P & Et & Eh).
  pose proof T as (T1 & T2 & T3 & T4 & T5). set (q := {| p_from := _ |}). assert (Tq : payment_typed q) by (unfold payment_typed, q; cbn [p_seq p_last p_amount p_fee p_from p_to p_mtype p_mdata p_mformat]; repeat (split; [lia|]); exact T5).
  assert (W : wire_before q pub = wire_before p pub).
  { unfold wire_before, q. cbn [p_seq p_last p_amount p_fee p_tag]. rewrite !Z_mod_plus_full. replace (p_tag p + k * 2 ^ 32 <? 0) with false by lia. replace (p_tag p <? 0) with false by lia. reflexivity. }
  apply (payment_created_iff H H512 q text hash HH H5 Tq). exists pub, acc, dst. split.
  - destruct P as (P1 & P2 & P3). unfold payment_parts, q. cbn [p_amount p_fee p_pub p_from p_to]. split; [lia|]. split; [lia|exact P3].
  - rewrite W. split; [exact Et|exact Eh].
Qed.
Lemma vl_code : prefix_code (fun b : bytes => zlen b < 256) vl.
Proof.
  intros a b x y La Lb E. unfold vl in E. cbn [app] in E. pose proof (zlen_nonneg a). pose proof (zlen_nonneg b). assert (E1 : zlen a mod 256 = zlen b mod 256) by (apply (f_equal (hd 0)) in E; exact E). apply (f_equal (@tl Z)) in E. cbn [tl] in E.
  rewrite !Z.mod_small in E1 by lia. apply app_split in E; assumption.
Qed.
Definition in_range (p : payment) : Prop := p_amount p < 2 ^ 62 /\ p_fee p < 2 ^ 62 /\ p_tag p < 2 ^ 32 /\ zlen (p_mtype p) < 256 /\ zlen (p_mdata p) < 256 /\ zlen (p_mformat p) < 256.
Lemma optional_split id (a b x y : bytes) : zlen a < 256 -> zlen b < 256 -> hd 0 x <> id -> hd 0 y <> id -> optional id a ++ x = optional id b ++ y -> a = b /\ x = y.
Proof.
  intros La Lb Hx Hy E. unfold optional in E. destruct a as [|u a], b as [|v b].
  - auto.
  - exfalso. apply Hx. apply (f_equal (hd 0)) in E. exact E.
  - exfalso. apply Hy. apply (f_equal (hd 0)) in E. symmetry. exact E.
  - cbn [app] in E. apply (f_equal (@tl Z)) in E. cbn [tl] in E. apply vl_code in E; assumption.
Qed.
(** Payments in range with the same signed bytes agree in every field (addresses by their hash, keys as bytes). *)
Theorem signed_bytes_determine_payment : forall H p q pub acc dst pub' acc' dst', payment_typed p -> payment_typed q -> in_range p -> in_range q ->
  payment_parts H p pub acc dst -> payment_parts H q pub' acc' dst' ->
  wire_before p pub ++ wire_after p acc dst = wire_before q pub' ++ wire_after q acc' dst' ->
  pub = pub' /\ acc = acc' /\ dst = dst' /\ p_from p = p_from q /\ p_to p = p_to q /\ p_seq p = p_seq q /\ p_last p = p_last q /\ p_amount p = p_amount q /\ p_fee p = p_fee q /\
  (p_tag p = p_tag q \/ p_tag p < 0 /\ p_tag q < 0) /\ p_mdata p = p_mdata q /\ (p_mdata p <> [] -> p_mtype p = p_mtype q /\ p_mformat p = p_mformat q).
Proof.
  intros H p q pub acc dst pub' acc' dst' (T1 & T2 & T3 & T4 & _) (U1 & U2 & U3 & U4 & _) (R1 & R2 & R3 & R4 & R5 & R6) (Q1 & Q2 & Q3 & Q4 & Q5 & Q6) (_ & _ & _ & Lp & _ & (_ & La & Ka) & (_ & Ld & Kd)) (_ & _ & _ & Lp' & _ & (_ & La' & Ka') & (_ & Ld' & Kd')) E.
  unfold wire_before, wire_after in E. rewrite <- !app_assoc in E. cbn [app] in E. rewrite <- !app_assoc in E. cbn [app] in E. rewrite <- ?app_assoc in E.
  do 9 apply (f_equal (@tl Z)) in E. cbn [tl] in E.
  apply (be_code 4) in E as [ES E]; [|change (256 ^ Z.of_nat 4) with (2 ^ 32); assumption..].
  assert (TAG : (p_tag p = p_tag q \/ p_tag p < 0 /\ p_tag q < 0) /\ exists x y, 32 :: 27 :: be_bytes 4 (p_last p) ++ x = 32 :: 27 :: be_bytes 4 (p_last q) ++ y /\
     x = 97 :: be_bytes 8 (2 ^ 62 + p_amount p mod 2 ^ 62) ++ 104 :: be_bytes 8 (2 ^ 62 + p_fee p mod 2 ^ 62) ++ 115 :: vl pub ++ 129 :: vl acc ++ 131 :: vl dst ++ wire_memos p /\
     y = 97 :: be_bytes 8 (2 ^ 62 + p_amount q mod 2 ^ 62) ++ 104 :: be_bytes 8 (2 ^ 62 + p_fee q mod 2 ^ 62) ++ 115 :: vl pub' ++ 129 :: vl acc' ++ 131 :: vl dst' ++ wire_memos q).
  { destruct (p_tag p <? 0) eqn:Ep, (p_tag q <? 0) eqn:Eq; cbn [app] in E.
    - split; [lia|]. eexists _, _. split; [exact E|]. rewrite <- ?app_assoc. cbn [app]. rewrite <- ?app_assoc. cbn [app]. rewrite <- ?app_assoc. cbn [app]. rewrite <- ?app_assoc. split; reflexivity.
    - apply (f_equal (hd 0)) in E. discriminate E.
    - apply (f_equal (hd 0)) in E. discriminate E.
    - apply (f_equal (@tl Z)) in E. cbn [tl] in E. rewrite <- !app_assoc in E. apply (be_code 4) in E as [E1 E]; [|change (256 ^ Z.of_nat 4) with (2 ^ 32); apply Z.mod_pos_bound; lia..]. rewrite !Z.mod_small in E1 by lia. split; [lia|].
      eexists _, _. split; [exact E|]. rewrite <- ?app_assoc. cbn [app]. rewrite <- ?app_assoc. cbn [app]. rewrite <- ?app_assoc. cbn [app]. rewrite <- ?app_assoc. split; reflexivity. }
  destruct TAG as (TG & x & y & E2 & Ex & Ey). clear E. do 2 apply (f_equal (@tl Z)) in E2. cbn [tl] in E2. apply (be_code 4) in E2 as [EL E]; [|change (256 ^ Z.of_nat 4) with (2 ^ 32); assumption..]. rewrite Ex, Ey in E. clear Ex Ey x y.
  apply (f_equal (@tl Z)) in E. cbn [tl] in E. assert (PM : forall v, 0 <= 2 ^ 62 + v mod 2 ^ 62 < 256 ^ Z.of_nat 8) by (intros v; change (256 ^ Z.of_nat 8) with (2 ^ 64); pose proof (Z.mod_pos_bound v (2 ^ 62) ltac:(lia)); lia).
  apply (be_code 8) in E as [EA E]; [|apply PM..]. apply (f_equal (@tl Z)) in E. cbn [tl] in E. apply (be_code 8) in E as [EF E]; [|apply PM..]. rewrite !Z.mod_small in EA, EF by lia.
  apply (f_equal (@tl Z)) in E. cbn [tl] in E. apply vl_code in E as [-> E]; [|lia..]. apply (f_equal (@tl Z)) in E. cbn [tl] in E. apply vl_code in E as [-> E]; [|lia..]. apply (f_equal (@tl Z)) in E. cbn [tl] in E. apply vl_code in E as [-> E]; [|lia..].
  assert (MM : p_mdata p = p_mdata q /\ (p_mdata p <> [] -> p_mtype p = p_mtype q /\ p_mformat p = p_mformat q)).
  { unfold wire_memos in E. destruct (p_mdata p) as [|a m], (p_mdata q) as [|a' m']; [split; [reflexivity|intros N; contradiction]|discriminate E|discriminate E|].
    cbn [app] in E. do 2 apply (f_equal (@tl Z)) in E. cbn [tl] in E. apply optional_split in E as [EM E]; [|assumption|assumption|discriminate|discriminate].
    apply (f_equal (@tl Z)) in E. cbn [tl] in E. apply vl_code in E as [ED E]; [|assumption|assumption]. apply optional_split in E as [EFM _]; [|assumption|assumption|discriminate|discriminate]. split; [exact ED|auto]. }
  repeat (split; [assumption || congruence || lia|]). exact MM.
Qed.

(** ** Examples *)
Definition ex_hash1 : bytes := repeat 7 20.
Definition ex_hash2 : bytes := repeat 9 20.
Definition text_of (r : res (list Z)) : list Z := match r with Ok s => s | _ => [] end.
Definition ex_payment : payment :=
  {| p_from := text_of (encode_check ripple_alphabet toy_hash [0] ex_hash1); p_pub := hex_encode (2 :: repeat 5 32); p_tag := 77; p_seq := 3;
     p_to := text_of (encode_check ripple_alphabet toy_hash [0] ex_hash2); p_amount := 1000000; p_fee := 12; p_last := 900; p_mtype := []; p_mdata := [104; 105]; p_mformat := [116] |}.
Example ex_payment_parts : payment_parts toy_hash ex_payment (2 :: repeat 5 32) ex_hash1 ex_hash2.
Proof.
  unfold payment_parts, address_of. split; [discriminate|]. split; [discriminate|]. split; [vm_compute; reflexivity|]. split; [reflexivity|]. split; [left; reflexivity|].
  split; (split; [unfold ex_hash1, ex_hash2; cbn [repeat]; bts|]; split; [reflexivity|vm_compute; reflexivity]).
Qed.
Example ex_created : exists t h, create ripple_alphabet toy_hash toy_hash ex_payment = Ok (t, h) /\
  exists s, verify_and_combine toy_hash (fun k => 4 :: k ++ k) (fun p m s => (zlen p =? 66) && (zlen m =? 32) && (zlen s =? 64)) t (hex_encode (repeat 9 64)) (p_pub ex_payment) = Ok (true, s) /\ zlen s = zlen t - 1 + 2 * 72.
Proof. eexists _, _. split; [vm_compute; reflexivity|]. eexists. split; [vm_compute; reflexivity|]. reflexivity. Qed.
Print Assumptions payment_created_iff.
Print Assumptions signing_hash_recomputed.
Print Assumptions signed_payment_iff.
Print Assumptions wrong_length_gives_unsigned.
Print Assumptions bad_key_panics.
Print Assumptions truncated_payments_collide.
Print Assumptions signed_bytes_determine_payment.
