(** C57, C87: FiiiCoin transactions. *)
From Coq Require Import String ZArith List Bool Lia ZifyBool ZifyNat.
From Verif Require Import Go GoFacts GoFacts2 Codes Rd Reader Base58Model Base58Spec Base58CheckModel Base58CheckSpec Base58CheckProofs Base58Props Base58CheckProps SignerModel FiiiModel.
Import ListNotations.
Open Scope Z_scope.
Ltac Zify.zify_post_hook ::= idtac.

(** ** Specification *)
(** The message to be signed for an output of an earlier transaction: its id and its number as 32 big-endian bits. *)
Definition fiii_message (id : bytes) (n : Z) : bytes := id ++ be_bytes 4 n.
(** An input names a 32-byte id in hexadecimal. *)
Definition names (v : vin) (id : bytes) : Prop := zlen (v_txid v) = 64 /\ hex_decode (v_txid v) = Ok id.
(** An output pays a positive amount to the address of a 20-byte hash. *)
Definition pays (al : alphabet) (H2 : bytes -> bytes) (w : vout) (h : bytes) : Prop :=
  is_bytes h /\ length h = 20%nat /\ encode_check al H2 (w_prefix w) h = Ok (w_address w) /\ 0 < w_amount w.
(** Locking and unlocking scripts, as texts. *)
Definition lock_text (h : bytes) : list Z := ascii "OP_DUP OP_HASH160 " ++ to_upper (hex_encode h) ++ ascii " OP_EQUALVERIFY OP_CHECKSIG".
Definition unlock_text (s : sigpub) : list Z := to_upper (hex_encode (s_signature s)) ++ ascii "[ALL] " ++ ascii "302A300506032B6570032100" ++ to_upper (hex_encode (s_pubkey s)).
(** How the hashed bytes are read: times, inputs (id, number, unlocking script), outputs (number, amount, locking script). *)
Definition rtext : reader (list Z) := n <~ rbe 4 ;; rtake n.
Definition rfin : reader (bytes * Z * list Z) := h <~ rtake 32 ;; i <~ rbe 4 ;; s <~ rtext ;; rret (h, i, s).
Definition rfout : reader (Z * Z * list Z) := i <~ rbe 4 ;; a <~ rbe 8 ;; s <~ rtext ;; rret (i, a, s).
Definition rfiii : reader (Z * Z * Z * list (bytes * Z * list Z) * list (Z * Z * list Z)) :=
  t <~ rbe 8 ;; l <~ rbe 8 ;; e <~ rbe 8 ;;
  n <~ rbe 4 ;; is <~ rrepeat (Z.to_nat n) rfin ;;
  m <~ rbe 4 ;; os <~ rrepeat (Z.to_nat m) rfout ;; rret (t, l, e, is, os).
(** 0, 1, 2, ... *)
Fixpoint numbered {A} (i : Z) (l : list A) : list (Z * A) := match l with [] => [] | x :: r => (i, x) :: numbered (i + 1) r end.

(** ** Creation *)
Section P.
Variable al : alphabet.
Variable H2 : bytes -> bytes.
Variable rs : list Z.
Hypothesis HH : hash_ok H2.
Hypothesis Hrs : alphabet_ok rs.
Hypothesis Hal : new_alphabet rs = Ok al.
Definition mk_output (k : Z) (w : vout) (h : bytes) : output := {| o_index := k; o_amount := w_amount w; o_size := zlen (lock_text h); o_lock := lock_text h |}.
Definition mk_input (v : vin) : input := {| i_hash := v_txid v; i_index := v_vout v; i_size := 0; i_unlock := [] |}.
Lemma new_output_iff w k o : is_bytes (w_address w) -> is_bytes (w_prefix w) -> (new_output al H2 w k = Ok o <-> exists h, pays al H2 w h /\ o = mk_output k w h).
Proof.
  intros Ba Bp. unfold new_output. split.
  - destruct (decode_check_prefix al H2 (w_address w) (w_prefix w)) as [h| |] eqn:E; cbn [bind]; try discriminate. destruct (Z.leb_spec (w_amount w) 0); [discriminate|]. intros Q.
    destruct (decode_check_prefix_inv H2 HH rs Hrs al Hal (w_address w) (w_prefix w) h Ba E) as (B1 & B2 & L & K). exists h. split; [|unfold mk_output, lock_text; unfold lock_script, upper_hex in Q; congruence].
    split; [exact B2|]. split; [exact L|]. split; [exact K|lia].
  - intros (h & (Bh & L & K & A) & ->). destruct (decode_check_prefix_encode_check H2 rs al (w_prefix w) h HH Hrs Hal Bp Bh L) as (s & E1 & E2).
    assert (s = w_address w) by congruence. subst s. rewrite E2. cbn [bind]. replace (w_amount w <=? 0) with false by lia. reflexivity.
Qed.
Lemma new_outputs_iff ws : forall k os, Forall (fun w => is_bytes (w_address w) /\ is_bytes (w_prefix w)) ws ->
  (new_outputs al H2 ws k = Ok os <-> exists hs, Forall2 (pays al H2) ws hs /\ os = map (fun p => mk_output (fst p) (fst (snd p)) (snd (snd p))) (numbered k (combine ws hs))).
Proof.
  induction ws as [|w ws IH]; intros k os F; cbn [new_outputs].
  - split; [intros E; exists []; split; [constructor|cbn; congruence]|]. intros (hs & F2 & ->). inversion F2. reflexivity.
  - inversion F as [|? ? [Ba Bp] F']; subst. split.
    + destruct (new_output al H2 w k) as [o| |] eqn:E1; cbn [bind]; try discriminate. destruct (new_outputs al H2 ws (k + 1)) as [t| |] eqn:E2; cbn [bind]; try discriminate. intros Q.
      apply new_output_iff in E1; [|assumption|assumption]. destruct E1 as (h & P & ->). apply IH in E2; [|exact F']. destruct E2 as (hs & P2 & ->).
      exists (h :: hs). split; [constructor; assumption|]. cbn [combine numbered map fst snd]. congruence.
    + intros (hs & F2 & ->). inversion F2 as [|? h ? hs' P P2]; subst. cbn [combine numbered map fst snd].
      rewrite (proj2 (new_output_iff w k _ Ba Bp) (ex_intro _ h (conj P eq_refl))). cbn [bind].
      rewrite (proj2 (IH (k + 1) _ F') (ex_intro _ hs' (conj P2 eq_refl))). reflexivity.
Qed.
Lemma new_inputs_iff vs is : mapr new_input vs = Ok is <-> (exists ids, Forall2 names vs ids) /\ is = map mk_input vs.
Proof.
  rewrite mapr_forall2. split.
  - intros F. induction F as [|v i vs is E F [[ids IH1] IH2]]; [split; [exists []; constructor|reflexivity]|]. unfold new_input in E.
    destruct (Z.eqb_spec (zlen (v_txid v)) 64) as [L|L]; cbn [negb] in E; [|discriminate]. destruct (hex_decode (v_txid v)) as [d| |] eqn:D; cbn [bind] in E; try discriminate.
    split; [exists (d :: ids); constructor; [split; assumption|exact IH1]|]. cbn [map]. rewrite <- IH2. f_equal. unfold mk_input. congruence.
  - intros [[ids F] ->]. induction F as [|v id vs ids [L D] F IH]; [constructor|]. cbn [map]. constructor; [|exact IH]. unfold new_input. rewrite L, D. reflexivity.
Qed.
End P.

(** CreateEmptyTransactionAndMessage succeeds exactly when there are inputs and outputs, every input names a 32-byte id
    in hexadecimal and every output pays a positive amount to an address of a 20-byte hash with the given prefix; the
    transaction then holds the inputs and outputs in order, and message i is the hexadecimal text of the message of
    input i. *)
Theorem fiii_created_iff : forall al H2 rs now inputs outputs version lock expired tx msgs,
  hash_ok H2 -> alphabet_ok rs -> new_alphabet rs = Ok al ->
  Forall (fun w => is_bytes (w_address w) /\ is_bytes (w_prefix w)) outputs ->
  (create al H2 now inputs outputs version lock expired = Ok (tx, msgs) <->
   inputs <> [] /\ outputs <> [] /\ (exists ids, Forall2 names inputs ids) /\
   (exists hs, Forall2 (pays al H2) outputs hs /\
      tx = {| t_version := version; t_hash := []; t_timestamp := now; t_lock := lock; t_expired := expired; t_incount := zlen inputs; t_outcount := zlen outputs;
              t_inputs := map mk_input inputs; t_outputs := map (fun p => mk_output (fst p) (fst (snd p)) (snd (snd p))) (numbered 0 (combine outputs hs)); t_size := 0 |}) /\
   msgs = map (fun v => v_txid v ++ hex_encode (be_bytes 4 (v_vout v mod 2 ^ 32))) inputs).
Proof.
  intros al H2 rs now inputs outputs version lock expired tx msgs HH Hrs Hal F. unfold create. destruct inputs as [|v vs]; [split; [discriminate|tauto]|].
  destruct outputs as [|w ws]; [split; [discriminate|tauto]|]. set (inputs := v :: vs) in *. set (outputs := w :: ws) in *.
  assert (N1 : inputs <> []) by discriminate. assert (N2 : outputs <> []) by discriminate. clearbody inputs outputs. clear v vs w ws. split.
  - destruct (mapr new_input inputs) as [is| |] eqn:E1; cbn [bind]; try discriminate. destruct (new_outputs al H2 outputs 0) as [os| |] eqn:E2; cbn [bind]; try discriminate. intros Q.
    apply new_inputs_iff in E1. destruct E1 as [I ->]. apply (new_outputs_iff al H2 rs HH Hrs Hal) in E2; [|exact F]. destruct E2 as (hs & P & ->).
    split; [exact N1|]. split; [exact N2|]. split; [exact I|]. split; [exists hs; split; [exact P|congruence]|]. unfold gen_message, u32 in Q. congruence.
  - intros (_ & _ & I & (hs & P & ->) & ->). rewrite (proj2 (new_inputs_iff inputs _) (conj I eq_refl)). cbn [bind].
    rewrite (proj2 (new_outputs_iff al H2 rs HH Hrs Hal outputs 0 _ F) (ex_intro _ hs (conj P eq_refl))). reflexivity.
Qed.

(** ** C57 *)
(** A signature is good for an input: it verifies over the message, and has the right lengths. *)
Definition good (verify : bytes -> bytes -> bytes -> bool) (i : input) (s : sigpub) : Prop :=
  exists id, hex_decode (i_hash i) = Ok id /\ verify (s_pubkey s) (fiii_message id (i_index i mod 2 ^ 32)) (s_signature s) = true /\
    length (s_signature s) = 64%nat /\ length (s_pubkey s) = 32%nat.
Definition unlocked (p : input * sigpub) : input := {| i_hash := i_hash (fst p); i_index := i_index (fst p); i_size := zlen (unlock_text (snd p)); i_unlock := unlock_text (snd p) |}.
Lemma unlock_iff verify is : forall sps out, length sps = length is -> (unlock_inputs verify is sps = Ok out <-> Forall2 (good verify) is sps /\ out = map unlocked (combine is sps)).
Proof.
  induction is as [|i is IH]; intros [|s sps] out L; try discriminate L; cbn [unlock_inputs combine map].
  - split; [intros E; split; [constructor|congruence]|intros [_ ->]; reflexivity].
  - assert (L' : length sps = length is) by (cbn [length] in L; lia). split.
    + unfold gen_message_bytes. destruct (hex_decode (i_hash i)) as [id| |] eqn:D; cbn [bind]; try discriminate.
      destruct (verify (s_pubkey s) (id ++ be_bytes 4 (u32 (i_index i))) (s_signature s)) eqn:V; cbn [negb]; [|discriminate].
      unfold unlock_script. destruct (Z.eqb_spec (zlen (s_signature s)) 64) as [E1|E1]; cbn [negb bind]; [|discriminate]. destruct (Z.eqb_spec (zlen (s_pubkey s)) 32) as [E2|E2]; cbn [negb bind]; [|discriminate].
      destruct (unlock_inputs verify is sps) as [t| |] eqn:U; cbn [bind]; try discriminate. intros Q. apply IH in U; [|exact L']. destruct U as [F ->]. split.
      * constructor; [|exact F]. exists id. split; [exact D|]. split; [exact V|]. unfold zlen in *. lia.
      * unfold unlocked at 1. cbn [fst snd]. unfold unlock_text. unfold upper_hex in Q. congruence.
    + intros [F ->]. inversion F as [|? ? ? ? (id & D & V & L1 & L2) F']; subst. unfold gen_message_bytes. rewrite D. cbn [bind]. unfold fiii_message in V. unfold u32. rewrite V. cbn [negb].
      unfold unlock_script. replace (zlen (s_signature s) =? 64) with true by (unfold zlen; lia). replace (zlen (s_pubkey s) =? 32) with true by (unfold zlen; lia). cbn [negb bind].
      rewrite (proj2 (IH sps _ L') (conj F' eq_refl)). reflexivity.
Qed.
(** VerifyAndCombineTransaction accepts exactly one good signature per input, and returns the transaction with the
    unlocking scripts, the hash and the size filled in. The signing key is not compared with anything. *)
Theorem fiii_combined_iff : forall H verify tx sps out,
  verify_combine H verify tx sps = Ok out <->
  sps <> [] /\ Forall2 (good verify) (t_inputs tx) sps /\
  exists body, body = tx_bytes out /\
  out = {| t_version := t_version tx; t_hash := to_upper (hex_encode (H body)); t_timestamp := t_timestamp tx; t_lock := t_lock tx; t_expired := t_expired tx;
           t_incount := t_incount tx; t_outcount := t_outcount tx; t_inputs := map unlocked (combine (t_inputs tx) sps); t_outputs := t_outputs tx; t_size := zlen body + 36 |}.
Proof.
  intros H verify tx sps out. unfold verify_combine. split.
  - destruct (Z.eqb_spec (zlen sps) 0) as [E0|E0]; cbn [orb]; [discriminate|]. destruct (Z.eqb_spec (zlen sps) (zlen (t_inputs tx))) as [E1|E1]; cbn [negb]; [|discriminate].
    destruct (unlock_inputs verify (t_inputs tx) sps) as [is| |] eqn:U; cbn [bind]; try discriminate. intros Q.
    apply unlock_iff in U; [|unfold zlen in E1; unfold bytes in *; lia]. destruct U as [F ->].
    split; [intros ->; apply E0; reflexivity|]. split; [exact F|]. exists (tx_bytes out). split; [reflexivity|].
    assert (out = complete H {| t_version := t_version tx; t_hash := t_hash tx; t_timestamp := t_timestamp tx; t_lock := t_lock tx; t_expired := t_expired tx;
       t_incount := t_incount tx; t_outcount := t_outcount tx; t_inputs := map unlocked (combine (t_inputs tx) sps); t_outputs := t_outputs tx; t_size := t_size tx |}) by congruence. clear Q. subst out.
    assert (J : forall x, tx_bytes (complete H x) = tx_bytes x) by reflexivity. rewrite J. unfold complete, upper_hex. f_equal. rewrite <- Z.add_assoc. reflexivity.
  - intros (N & F & body & B & ->). assert (L : length sps = length (t_inputs tx)) by (clear - F; induction F; cbn [length]; lia).
    replace (zlen sps =? 0) with false by (destruct sps; [contradiction|rewrite zlen_cons; pose proof (zlen_nonneg sps); lia]). cbn [orb].
    replace (zlen sps =? zlen (t_inputs tx)) with true by (unfold zlen; lia). cbn [negb].
    rewrite (proj2 (unlock_iff verify (t_inputs tx) sps _ L) (conj F eq_refl)). cbn [bind]. f_equal. unfold complete, upper_hex. cbn [t_version t_hash t_timestamp t_lock t_expired t_incount t_outcount t_inputs t_outputs t_size] in *.
    unfold tx_bytes in B. cbn [t_version t_hash t_timestamp t_lock t_expired t_incount t_outcount t_inputs t_outputs t_size] in B. unfold tx_bytes. cbn [t_version t_hash t_timestamp t_lock t_expired t_incount t_outcount t_inputs t_outputs t_size]. rewrite <- B. f_equal. lia.
Qed.
(** The signatures do not cover the outputs, the times, the version or the number of inputs: what is accepted for one
    transaction is accepted for every other one that spends the same outputs (numbers modulo 2^32) in the same order. *)
Theorem fiii_outputs_not_signed : forall H verify tx tx' sps,
  map (fun i => (i_hash i, i_index i mod 2 ^ 32)) (t_inputs tx) = map (fun i => (i_hash i, i_index i mod 2 ^ 32)) (t_inputs tx') ->
  ((exists out, verify_combine H verify tx sps = Ok out) <-> (exists out, verify_combine H verify tx' sps = Ok out)).
Proof.
  assert (G : forall H verify tx tx' sps, map (fun i => (i_hash i, i_index i mod 2 ^ 32)) (t_inputs tx) = map (fun i => (i_hash i, i_index i mod 2 ^ 32)) (t_inputs tx') ->
    (exists out, verify_combine H verify tx sps = Ok out) -> exists out, verify_combine H verify tx' sps = Ok out).
  { intros H verify tx tx' sps E [out O]. apply fiii_combined_iff in O. destruct O as (N & F & _).
    assert (F' : Forall2 (good verify) (t_inputs tx') sps).
    { revert E F. generalize (t_inputs tx) (t_inputs tx'). clear. intros l l' E F. revert l' E. induction F as [|i s l sps G F IH]; intros [|i' l'] E; cbn [map] in E; try discriminate; constructor.
      + assert (E1 : i_hash i' = i_hash i) by congruence. assert (E2 : i_index i' mod 2 ^ 32 = i_index i mod 2 ^ 32) by congruence. unfold good. rewrite E1, E2. exact G.
      + apply IH. congruence. }
    assert (L : length sps = length (t_inputs tx')) by (clear - F'; induction F'; cbn [length]; lia).
    unfold verify_combine. replace (zlen sps =? 0) with false by (destruct sps; [contradiction|rewrite zlen_cons; pose proof (zlen_nonneg sps); lia]). cbn [orb].
    replace (zlen sps =? zlen (t_inputs tx')) with true by (unfold zlen; lia). cbn [negb].
    rewrite (proj2 (unlock_iff verify (t_inputs tx') sps _ L) (conj F' eq_refl)). cbn [bind]. eexists. reflexivity. }
  intros H verify tx tx' sps E. split; apply G; [exact E|symmetry; exact E].
Qed.

(** ** C87 *)
Lemma upper_hex_len b : zlen (to_upper (hex_encode b)) = 2 * zlen b.
Proof. unfold to_upper. rewrite zlen_map. apply zlen_hex_encode. Qed.
Lemma lock_len h : length h = 20%nat -> zlen (lock_text h) = 85.
Proof. intros L. unfold lock_text. rewrite !zlen_app, upper_hex_len. change (zlen (ascii "OP_DUP OP_HASH160 ")) with 18. change (zlen (ascii " OP_EQUALVERIFY OP_CHECKSIG")) with 27. unfold zlen. rewrite L. reflexivity. Qed.
Lemma unlock_len s : length (s_signature s) = 64%nat -> length (s_pubkey s) = 32%nat -> zlen (unlock_text s) = 222.
Proof. intros L1 L2. unfold unlock_text. rewrite !zlen_app, !upper_hex_len. change (zlen (ascii "[ALL] ")) with 6. change (zlen (ascii "302A300506032B6570032100")) with 24. unfold zlen. rewrite L1, L2. reflexivity. Qed.
Lemma text_read t : zlen t < 2 ^ 32 -> reads rtext (be_bytes 4 (u32 (zlen t)) ++ t) t.
Proof.
  intros L. pose proof (zlen_nonneg t). unfold u32. rewrite Z.mod_small by lia. unfold rtext. eapply reads_bind; [apply (reads_be 4); lia|]. apply reads_take. reflexivity.
Qed.
Lemma numbered_length {A} (l : list A) : forall k, length (numbered k l) = length l.
Proof. induction l as [|x l IH]; intros k; [reflexivity|]. cbn [numbered length]. rewrite IH. reflexivity. Qed.

(** The hash of the completed transaction is that of bytes from which the times, the inputs with their unlocking scripts
    and the outputs can be read; the version is not among them. *)
Theorem fiii_hash_covers : forall al H2 H rs verify now inputs outputs version lock expired tx msgs sps out,
  hash_ok H2 -> alphabet_ok rs -> new_alphabet rs = Ok al ->
  Forall (fun w => is_bytes (w_address w) /\ is_bytes (w_prefix w) /\ w_amount w < 2 ^ 63) outputs ->
  Forall (fun v => is_bytes (v_txid v) /\ 0 <= v_vout v < 2 ^ 32) inputs ->
  zlen inputs < 2 ^ 32 -> zlen outputs < 2 ^ 32 -> 0 <= now < 2 ^ 63 -> 0 <= lock < 2 ^ 63 -> 0 <= expired < 2 ^ 63 ->
  create al H2 now inputs outputs version lock expired = Ok (tx, msgs) -> verify_combine H verify tx sps = Ok out ->
  exists ids hs body, Forall2 names inputs ids /\ Forall2 (pays al H2) outputs hs /\ length sps = length inputs /\
    t_hash out = to_upper (hex_encode (H body)) /\ t_size out = zlen body + 36 /\
    rwhole rfiii body = Some (now, lock, expired,
      map (fun p => (fst p, v_vout (fst (snd p)), unlock_text (snd (snd p)))) (combine ids (combine inputs sps)),
      map (fun p => (fst p, w_amount (fst (snd p)), lock_text (snd (snd p)))) (numbered 0 (combine outputs hs))).
Proof.
  intros al H2 H rs verify now inputs outputs version lock expired tx msgs sps out HH Hrs Hal Fo Fi Li Lo Bn Bl Be C V.
  apply (fiii_created_iff al H2 rs) in C; try assumption; [|revert Fo; apply Forall_impl; tauto]. destruct C as (Ni & No & (ids & I) & (hs & P & ->) & _).
  apply fiii_combined_iff in V. destruct V as (Ns & G & body & Eb & E). cbn [t_version t_hash t_timestamp t_lock t_expired t_incount t_outcount t_inputs t_outputs t_size] in *.
  assert (Ls : length sps = length (map mk_input inputs)) by (clear - G; induction G; cbn [length]; lia). rewrite map_length in Ls.
  exists ids, hs, body. split; [exact I|]. split; [exact P|]. split; [exact Ls|].
  split; [rewrite E; reflexivity|]. split; [rewrite E; reflexivity|].
  rewrite Eb, E. unfold tx_bytes. cbn [t_version t_hash t_timestamp t_lock t_expired t_incount t_outcount t_inputs t_outputs t_size]. clear E Eb body out.
  unfold u32, u64. rewrite !Z.mod_small by (pose proof (zlen_nonneg inputs); pose proof (zlen_nonneg outputs); lia).
  assert (Rin : forall n, zlen inputs = n -> reads (rrepeat (Z.to_nat n) rfin) (flat_map input_bytes (map unlocked (combine (map mk_input inputs) sps)))
     (map (fun p => (fst p, v_vout (fst (snd p)), unlock_text (snd (snd p)))) (combine ids (combine inputs sps)))).
  { intros n <-. rewrite flat_map_concat_map.
    replace (Z.to_nat (zlen inputs)) with (length (map (fun p => (fst p, v_vout (fst (snd p)), unlock_text (snd (snd p)))) (combine ids (combine inputs sps)))).
    - apply reads_repeat. clear Ns Ni Li. revert sps G Ls Fi. induction I as [|v id vs ids [Lv Dv] I IH]; intros [|s sps] G Ls Fi; try discriminate Ls; [constructor|].
      cbn [map combine fst snd]. inversion G as [|? ? ? ? Gs G']; subst. inversion Fi as [|? ? [Bv Rv] Fi']; subst. constructor; [|apply IH; [exact G'|cbn [length] in Ls; lia|exact Fi']].
      destruct Gs as (id' & _ & _ & L1 & L2). unfold input_bytes, unlocked, mk_input. cbn [i_hash i_index i_size i_unlock fst snd]. rewrite Dv.
      destruct (hex_decode_bytes _ _ Dv) as [_ L3]. unfold rfin. eapply reads_bind; [apply reads_take; unfold zlen in *; unfold bytes in *; lia|].
      eapply reads_bind; [unfold u32; rewrite Z.mod_small by lia; apply (reads_be 4); lia|].
      apply (reads_last rtext (fun x => (id, v_vout v, x))). apply text_read. rewrite unlock_len by assumption. lia.
    - rewrite map_length, !combine_length. rewrite Ls. assert (length ids = length inputs) by (clear - I; induction I; cbn [length]; lia). unfold zlen. lia. }
  assert (Rout : forall n, zlen outputs = n -> reads (rrepeat (Z.to_nat n) rfout) (flat_map output_bytes (map (fun p => mk_output (fst p) (fst (snd p)) (snd (snd p))) (numbered 0 (combine outputs hs))))
     (map (fun p => (fst p, w_amount (fst (snd p)), lock_text (snd (snd p)))) (numbered 0 (combine outputs hs)))).
  { intros n <-. rewrite flat_map_concat_map, map_map. assert (Lh : length hs = length outputs) by (clear - P; induction P; cbn [length]; lia).
    replace (Z.to_nat (zlen outputs)) with (length (map (fun p => (fst p, w_amount (fst (snd p)), lock_text (snd (snd p)))) (numbered 0 (combine outputs hs)))).
    2: rewrite map_length, numbered_length, combine_length; unfold zlen; lia.
    apply reads_repeat. assert (K : forall k, 0 <= k -> k + zlen outputs < 2 ^ 32 -> Forall2 (reads rfout) (map (fun p => output_bytes (mk_output (fst p) (fst (snd p)) (snd (snd p)))) (numbered k (combine outputs hs)))
       (map (fun p => (fst p, w_amount (fst (snd p)), lock_text (snd (snd p)))) (numbered k (combine outputs hs)))); [|apply K; lia].
    clear - P Fo. induction P as [|w h ws hs (B & L & _ & A) P IH]; intros k K1 K2; [constructor|]. inversion Fo as [|? ? (_ & _ & Am) Fo']; subst. rewrite zlen_cons in K2. pose proof (zlen_nonneg ws).
    cbn [combine numbered map fst snd]. constructor; [|apply IH; [exact Fo'|lia|lia]]. unfold output_bytes, mk_output. cbn [o_index o_amount o_size o_lock].
    unfold rfout. eapply reads_bind; [unfold u32; rewrite Z.mod_small by lia; apply (reads_be 4); lia|].
    eapply reads_bind; [unfold u64; rewrite Z.mod_small by lia; apply (reads_be 8); lia|].
    apply (reads_last rtext (fun x => (k, w_amount w, x))). apply text_read. rewrite lock_len by assumption. lia. }
  apply reads_whole. unfold rfiii.
  pose proof (zlen_nonneg inputs). pose proof (zlen_nonneg outputs).
  eapply reads_bind; [apply (reads_be 8); lia|]. eapply reads_bind; [apply (reads_be 8); lia|]. eapply reads_bind; [apply (reads_be 8); lia|].
  eapply reads_bind; [apply (reads_be 4); lia|]. eapply reads_bind; [apply Rin; reflexivity|]. eapply reads_bind; [apply (reads_be 4); lia|].
  apply (reads_last (rrepeat _ rfout) (fun x => (now, lock, expired, _, x))). apply Rout. reflexivity.
Qed.

(** ** Examples *)
(** A transaction with one input is completed by any 64-byte signature the check accepts. *)
Definition ex_in : input := {| i_hash := hex_encode (zeros 32); i_index := 7; i_size := 0; i_unlock := [] |}.
Definition ex_tx (os : list output) : txmsg := {| t_version := 1; t_hash := []; t_timestamp := 5; t_lock := 0; t_expired := 0; t_incount := 1; t_outcount := zlen os; t_inputs := [ex_in]; t_outputs := os; t_size := 0 |}.
Definition ex_sp : sigpub := {| s_signature := zeros 64; s_pubkey := zeros 32 |}.
Example ex_good : good (fun _ m _ => beq m (zeros 32 ++ [0; 0; 0; 7])) ex_in ex_sp.
Proof. exists (zeros 32). split; [apply hex_decode_encode; apply is_bytes_zeros|]. split; [reflexivity|]. split; reflexivity. Qed.
Example ex_combined : forall os, exists out, verify_combine (fun b => b) (fun _ m _ => beq m (zeros 32 ++ [0; 0; 0; 7])) (ex_tx os) [ex_sp] = Ok out.
Proof.
  intros os. apply (fiii_outputs_not_signed _ _ (ex_tx []) (ex_tx os) [ex_sp] eq_refl). unfold verify_combine. cbn [ex_tx t_inputs]. change (zlen [ex_sp]) with 1. change (zlen [ex_in]) with 1. cbn [Z.eqb orb negb].
  rewrite (proj2 (unlock_iff _ [ex_in] [ex_sp] (map unlocked (combine [ex_in] [ex_sp])) eq_refl)); [|split; [constructor; [exact ex_good|constructor]|reflexivity]]. eexists. reflexivity.
Qed.
(** Creation succeeds for some address of any 20-byte hash. *)
Example ex_created : exists a tx msgs, create btc_alphabet Toy.toy_hash 5 [{| v_txid := hex_encode (zeros 32); v_vout := 7 |}] [{| w_prefix := [5]; w_address := a; w_amount := 1 |}] 1 0 0 = Ok (tx, msgs).
Proof.
  destruct (decode_check_prefix_encode_check Toy.toy_hash btc_alphabet_str btc_alphabet [5] (zeros 20) Toy.toy_hash_ok btc_alphabet_ok btc_alphabet_new ltac:(bts; lia) (is_bytes_zeros 20) eq_refl) as (a & E1 & E2).
  exists a. unfold create, mapr, new_input, new_outputs, new_output. cbn [v_txid w_address w_prefix w_amount]. rewrite E2. rewrite hex_decode_encode by apply is_bytes_zeros. rewrite zlen_hex_encode. cbn [bind]. eexists. eexists. reflexivity.
Qed.
Print Assumptions fiii_created_iff.
Print Assumptions fiii_combined_iff.
Print Assumptions fiii_outputs_not_signed.
Print Assumptions fiii_hash_covers.
