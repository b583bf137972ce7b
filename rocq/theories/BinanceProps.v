(** C124, C125: Binance Chain transfers. *)
From Coq Require Import String ZArith List Bool Lia ZifyBool ZifyNat.
From Verif Require Import Go GoFacts GoFacts2 SigModel SigNormProps BinanceModel Toy Base58CheckSpec.
Import ListNotations.
Open Scope Z_scope.
Ltac Zify.zify_post_hook ::= idtac.

(** ** Specification *)
(** One transfer of one coin: the payer is the only input, the payee the only output, with the same coin. *)
Definition transfer (from to : bytes) (denom : list Z) (amount : Z) : send_msg :=
  {| s_inputs := [{| p_addr := from; p_coins := [{| c_denom := denom; c_amount := amount |}] |}];
     s_outputs := [{| p_addr := to; p_coins := [{| c_denom := denom; c_amount := amount |}] |}] |}.
(** The SDK reads the text of a document with one message back. *)
Definition reads_back (K : sdk) (chain : list Z) (account sequence : Z) (m : send_msg) (memo : list Z) (source : Z) (data : bytes) : Prop :=
  exists raw, k_msg K raw = Some m /\
    k_doc K (k_text K chain account sequence [m] memo source data) =
      Some {| d_chain := chain; d_account := account; d_sequence := sequence; d_memo := memo; d_msgs := [raw]; d_source := source; d_data := data |}.
(** What is sent for a document: its first message, memo, source and data, with one signature by the given key. *)
Definition signed_tx (doc : sign_doc) (m : send_msg) (pub sig : bytes) : std_tx :=
  {| x_msgs := [m]; x_sigs := [{| g_pub := pub; g_sig := sig; g_account := d_account doc; g_sequence := d_sequence doc |}];
     x_memo := d_memo doc; x_source := d_source doc; x_data := d_data doc |}.
(** The bytes whose hash is checked: those of the main network, whatever chain the document names. *)
Definition checked (K : sdk) (doc : sign_doc) (m : send_msg) : bytes :=
  k_text K (str "Binance-Chain-Tigris") (d_account doc) (d_sequence doc) [m] (d_memo doc) (d_source doc) (d_data doc).
(** Signature and key are hexadecimal of 64 and 33 bytes. *)
Definition sized (signature pubkey : list Z) (sig pub : bytes) : Prop :=
  hex_decode signature = Ok sig /\ length sig = 64%nat /\ hex_decode pubkey = Ok pub /\ length pub = 33%nat.

(** ** C124 *)
(** A transfer is made exactly when both addresses decode with the prefix bnb; the text is the SDK's document of that transfer for
    the main network and the hash is the SHA-256 of this very text. There is no crash. *)
Theorem binance_create_iff : forall K sha256 from to denom amount account sequence source memo,
  (forall text hash, create_tx K sha256 from to denom amount account sequence source memo = Ok (text, hash) <->
     exists f t, k_decode K from = Some (str "bnb", f) /\ k_decode K to = Some (str "bnb", t) /\
       text = k_text K (str "Binance-Chain-Tigris") account sequence [transfer f t denom amount] memo source [] /\ hash = hex_encode (sha256 text)) /\
  create_tx K sha256 from to denom amount account sequence source memo <> Panic.
Proof.
  intros. unfold create_tx, create_send_msg, Bech32Prefix, ChainID.
  destruct (k_decode K from) as [[p f]|] eqn:F; cbn [bind]; [|split; [split; [discriminate|intros (? & ? & E & _); congruence]|discriminate]].
  destruct (beq p (str "bnb")) eqn:B; cbn [negb bind].
  2:{ apply beq_neq in B. split; [split; [discriminate|intros (? & ? & E & _); congruence]|discriminate]. }
  apply beq_eq in B. subst p. destruct (k_decode K to) as [[p t]|] eqn:T; cbn [bind]; [|split; [split; [discriminate|intros (? & ? & _ & E & _); congruence]|discriminate]].
  destruct (beq p (str "bnb")) eqn:B; cbn [negb bind].
  2:{ apply beq_neq in B. split; [split; [discriminate|intros (? & ? & _ & E & _); congruence]|discriminate]. }
  apply beq_eq in B. subst p. split; [|discriminate]. intros text hash. split.
  - intros E. exists f, t. split; [reflexivity|]. split; [reflexivity|]. unfold transfer. split; congruence.
  - intros (f' & t' & E1 & E2 & -> & ->). assert (f' = f) by congruence. assert (t' = t) by congruence. subst f' t'. reflexivity.
Qed.
(** Signing: exactly for a hash of 32 bytes in hexadecimal for which the curve gives a signature; the result has the low s. *)
Theorem binance_sign_iff : forall sign hash prikey,
  (forall out, sign_raw sign hash prikey = Ok out <-> exists h sig, hex_decode hash = Ok h /\ length h = 32%nat /\ sign prikey h = Some sig /\ serialize_s secp_order secp_half sig = Ok out) /\
  (sign_raw sign hash prikey = Panic <-> exists h sig, hex_decode hash = Ok h /\ length h = 32%nat /\ sign prikey h = Some sig /\ (length sig < 32)%nat).
Proof.
  intros sign hash prikey. unfold sign_raw. destruct (hex_decode hash) as [h| |] eqn:D.
  2:{ split; [intros out|]; (split; [discriminate|]); intros (? & ? & E & _); discriminate. }
  2:{ exfalso. exact (hex_decode_not_panic _ D). }
  destruct (zlen h =? 32) eqn:L; cbn [negb]; unfold zlen in L.
  2:{ split; [intros out|]; (split; [discriminate|]); intros (h' & ? & E & L' & _); assert (h' = h) by congruence; subst h'; lia. }
  destruct (sign prikey h) as [sig|] eqn:S.
  2:{ split; [intros out|]; (split; [discriminate|]); intros (h' & ? & E & L' & S' & _); assert (h' = h) by congruence; subst h'; congruence. }
  pose proof (normalise_panics_iff secp_order secp_half sig) as NP. split.
  - intros out. split.
    + intros E. exists h, sig. split; [reflexivity|]. split; [lia|]. split; assumption.
    + intros (h' & sig' & E & _ & S' & N). assert (h' = h) by congruence. subst h'. assert (sig' = sig) by congruence. subst sig'. exact N.
  - split.
    + intros E. exists h, sig. split; [reflexivity|]. split; [lia|]. split; [exact S|apply NP; exact E].
    + intros (h' & sig' & E & _ & S' & N). assert (h' = h) by congruence. subst h'. assert (sig' = sig) by congruence. subst sig'. apply NP. exact N.
Qed.

(** ** C125 *)
Lemma new_pubkey_33 pub : length pub = 33%nat -> new_pubkey pub = pub.
Proof. intros L. unfold new_pubkey. rewrite <- L at 1. rewrite firstn_app, firstn_all, Nat.sub_diag. cbn [firstn]. apply app_nil_r. Qed.
Lemma slice_one (pk : bytes) : (forall r, slice_from pk 1 = Ok r <-> exists x, pk = x :: r) /\ (slice_from pk 1 = Panic <-> pk = []) /\ slice_from pk 1 <> Err.
Proof.
  destruct pk as [|x r0].
  - split; [intros r; split; [discriminate|intros (x & E); discriminate]|]. split; [split; reflexivity|discriminate].
  - assert (E : slice_from (x :: r0) 1 = Ok r0) by exact (slice_from_post [x] r0 1 eq_refl). rewrite E. split; [|split; [split; discriminate|discriminate]].
    intros r. split; [intros Q; exists x; congruence|intros (y & Q); congruence].
Qed.
(** A transaction is returned exactly when the text is a document with a first message that can be read, signature and key have
    their lengths, and the signature is one by the key of the hash of the document's fields for the main network; it carries
    the message, memo, source and data of the document and this one signature. Further messages of the document are dropped. *)
Theorem binance_combine_iff : forall K sha256 verify decompress text signature pubkey out,
  combine K sha256 verify decompress text signature pubkey = Ok (Some out) <->
  exists doc raw raws m sig pub mark point wire,
    k_doc K text = Some doc /\ d_msgs doc = raw :: raws /\ k_msg K raw = Some m /\ sized signature pubkey sig pub /\
    decompress pub = mark :: point /\ verify point (sha256 (checked K doc m)) sig = true /\
    k_wire K (signed_tx doc m pub sig) = Some wire /\ out = hex_encode wire.
Proof.
  intros. unfold combine. split.
  - destruct (k_doc K text) as [doc|]; [|discriminate]. destruct (d_msgs doc) as [|raw raws] eqn:M; [discriminate|]. destruct (k_msg K raw) as [m|] eqn:R; [|discriminate].
    destruct (hex_decode signature) as [sig| |] eqn:S; [|discriminate|discriminate]. destruct (zlen sig =? 64) eqn:L1; [|discriminate]. cbn [negb].
    destruct (hex_decode pubkey) as [pub| |] eqn:P; [|discriminate|discriminate]. destruct (zlen pub =? 33) eqn:L2; [|discriminate]. cbn [negb]. unfold zlen in L1, L2.
    destruct (slice_from (decompress pub) 1) as [pk| |] eqn:Q; cbn [bind]; [|discriminate|discriminate]. apply slice_one in Q. destruct Q as [mark Q].
    destruct (verify pk _ sig) eqn:V; [|discriminate]. cbn [negb]. rewrite new_pubkey_33 by lia.
    destruct (k_wire K _) as [wire|] eqn:W; [|discriminate]. intros E. exists doc, raw, raws, m, sig, pub, mark, pk, wire.
    split; [reflexivity|]. split; [exact M|]. split; [exact R|]. split; [repeat split; (assumption || lia)|]. split; [exact Q|]. split; [exact V|]. split; [exact W|congruence].
  - intros (doc & raw & raws & m & sig & pub & mark & pk & wire & D & M & R & (S & L1 & P & L2) & Q & V & W & ->). rewrite D, M, R, S, P. unfold zlen.
    replace (Z.of_nat (length sig) =? 64) with true by lia. replace (Z.of_nat (length pub) =? 33) with true by lia. cbn [negb].
    replace (slice_from (decompress pub) 1) with (Ok pk) by (symmetry; apply slice_one; exists mark; exact Q). cbn [bind]. unfold ChainID. unfold checked in V. rewrite V. cbn [negb].
    rewrite new_pubkey_33 by exact L2. unfold signed_tx in W. rewrite W. reflexivity.
Qed.
(** It crashes exactly on a document without messages and on a key of 33 bytes that is no point of the curve. *)
Theorem binance_combine_crash_iff : forall K sha256 verify decompress text signature pubkey,
  combine K sha256 verify decompress text signature pubkey = Panic <->
  exists doc, k_doc K text = Some doc /\
    (d_msgs doc = [] \/
     exists raw raws m sig pub, d_msgs doc = raw :: raws /\ k_msg K raw = Some m /\ sized signature pubkey sig pub /\ decompress pub = []).
Proof.
  intros. unfold combine. destruct (k_doc K text) as [doc|]; [|split; [discriminate|intros (? & E & _); discriminate]].
  destruct (d_msgs doc) as [|raw raws] eqn:M; [split; [intros _; exists doc; split; [reflexivity|left; exact M]|reflexivity]|].
  assert (I : forall P : Prop, (exists d, Some doc = Some d /\ (d_msgs d = [] \/ exists raw0 raws0 m sig pub, d_msgs d = raw0 :: raws0 /\ k_msg K raw0 = Some m /\ sized signature pubkey sig pub /\ decompress pub = [])) ->
    ((exists m sig pub, k_msg K raw = Some m /\ sized signature pubkey sig pub /\ decompress pub = []) -> P) -> P).
  { intros P (d & E & H) G. assert (d = doc) by congruence. subst d. destruct H as [H|(r0 & rs0 & m & sig & pub & H & R & S & Q)]; [congruence|]. apply G. exists m, sig, pub. assert (r0 = raw) by congruence. subst r0. auto. }
  destruct (k_msg K raw) as [m|] eqn:R. 2:{ split; [discriminate|]. intros H. apply (I _ H). intros (? & ? & ? & E & _). congruence. }
  destruct (hex_decode signature) as [sig| |] eqn:S.
  2:{ split; [discriminate|]. intros H. apply (I _ H). intros (? & ? & ? & _ & (E & _) & _). congruence. }
  2:{ exfalso. exact (hex_decode_not_panic _ S). }
  destruct (zlen sig =? 64) eqn:L1; cbn [negb]; unfold zlen in L1. 2:{ split; [discriminate|]. intros H. apply (I _ H). intros (? & sig' & ? & _ & (E & L & _) & _). assert (sig' = sig) by congruence. subst sig'. lia. }
  destruct (hex_decode pubkey) as [pub| |] eqn:P.
  2:{ split; [discriminate|]. intros H. apply (I _ H). intros (? & ? & ? & _ & (_ & _ & E & _) & _). congruence. }
  2:{ exfalso. exact (hex_decode_not_panic _ P). }
  destruct (zlen pub =? 33) eqn:L2; cbn [negb]; unfold zlen in L2. 2:{ split; [discriminate|]. intros H. apply (I _ H). intros (? & ? & pub' & _ & (_ & _ & E & L) & _). assert (pub' = pub) by congruence. subst pub'. lia. }
  pose proof (slice_one (decompress pub)) as (_ & SP & NE). destruct (slice_from (decompress pub) 1) as [pk| |] eqn:Q; cbn [bind]; [|congruence|].
  - split.
    + destruct (verify pk _ sig); [|discriminate]. cbn [negb]. destruct (k_wire K _); discriminate.
    + intros H. apply (I _ H). intros (? & ? & pub' & _ & (_ & _ & E & _) & D). assert (pub' = pub) by congruence. subst pub'. apply SP in D. discriminate.
  - split; [intros _|reflexivity]. exists doc. split; [reflexivity|]. right. exists raw, raws, m, sig, pub. split; [exact M|]. split; [exact R|]. split; [repeat split; (assumption || lia)|]. apply SP. reflexivity.
Qed.
(** The chain named in the text is not looked at: two documents that differ in it only are treated the same, so that a text that
    names another chain is completed with a signature for the main network. *)
Theorem binance_chain_ignored : forall K sha256 verify decompress text1 text2 signature pubkey d1 chain2,
  k_doc K text1 = Some d1 ->
  k_doc K text2 = Some {| d_chain := chain2; d_account := d_account d1; d_sequence := d_sequence d1; d_memo := d_memo d1; d_msgs := d_msgs d1; d_source := d_source d1; d_data := d_data d1 |} ->
  combine K sha256 verify decompress text2 signature pubkey = combine K sha256 verify decompress text1 signature pubkey.
Proof. intros K sha256 verify decompress text1 text2 signature pubkey d1 chain2 E1 E2. unfold combine. rewrite E1, E2. reflexivity. Qed.
(** Create, sign, combine. Suppose the SDK reads its own document back and writes the signed transaction, and the curve signs with
    r||s of 64 bytes, s below the order, and accepts r||s and r||-s for the signer's key. Then every transfer that is created
    and signed is combined into the transaction with exactly that transfer, unless s is high and the order minus s has fewer than
    31 bytes: then the signature has fewer than 64 bytes and the transaction is refused. *)
Theorem binance_flow : forall K sha256 sign verify decompress from to denom amount account sequence source memo text hash prikey pub mark point f t,
  hash_ok sha256 -> (forall d, is_bytes d -> length (sha256 d) = 32%nat) ->
  create_tx K sha256 from to denom amount account sequence source memo = Ok (text, hash) -> is_bytes text ->
  k_decode K from = Some (str "bnb", f) -> k_decode K to = Some (str "bnb", t) ->
  reads_back K (str "Binance-Chain-Tigris") account sequence (transfer f t denom amount) memo source [] ->
  is_bytes pub -> length pub = 33%nat -> decompress pub = mark :: point ->
  (forall h, length h = 32%nat -> exists r s, sign prikey h = Some (r ++ s) /\ length r = 32%nat /\ length s = 32%nat /\ is_bytes r /\ is_bytes s /\ be_num s < secp_order /\
     forall s', is_bytes s' -> length s' = 32%nat -> be_num s' = be_num s \/ be_num s' = secp_order - be_num s -> verify point h (r ++ s') = true) ->
  exists sig, sign_raw sign hash prikey = Ok sig /\ (length sig <= 64)%nat /\
    (length sig = 64%nat -> forall wire,
       k_wire K {| x_msgs := [transfer f t denom amount]; x_sigs := [{| g_pub := pub; g_sig := sig; g_account := account; g_sequence := sequence |}]; x_memo := memo; x_source := source; x_data := [] |} = Some wire ->
       combine K sha256 verify decompress text (hex_encode sig) (hex_encode pub) = Ok (Some (hex_encode wire))) /\
    ((length sig < 64)%nat -> combine K sha256 verify decompress text (hex_encode sig) (hex_encode pub) = Ok None) /\
    ((length sig < 64)%nat <-> exists r s, sign prikey (sha256 text) = Some (r ++ s) /\ length r = 32%nat /\ length s = 32%nat /\ secp_order < 2 * be_num s /\ secp_order - be_num s < 2 ^ 240).
Proof.
  intros K sha256 sign verify decompress from to denom amount account sequence source memo text hash prikey pub mark point f t HO HL Cr Bt Df Dt RB Bp Lp Dp C.
  apply binance_create_iff in Cr. destruct Cr as (f' & t' & Ef & Et & Tx & ->). assert (f' = f) by congruence. assert (t' = t) by congruence. subst f' t'. clear Ef Et.
  destruct RB as (raw & Rm & Rd). rewrite <- Tx in Rd.
  destruct (C (sha256 text) (HL _ Bt)) as (r & s & Es & Lr & Ls & Br & Bs & Os & V).
  assert (CP : curve_pair secp_order secp_half) by (left; split; reflexivity).
  destruct (normalised_low_s secp_order secp_half r s CP Lr Bs Ls) as (s' & N & Bs' & _ & Low & _ & Min). specialize (Min ltac:(lia)).
  destruct (normalised_length_64_iff secp_order secp_half r s _ CP Lr Bs Ls N) as [L64 Le]. rewrite app_length in L64, Le.
  assert (Bh : is_bytes (sha256 text)) by (apply HO; exact Bt).
  exists (r ++ s'). split.
  { apply binance_sign_iff. exists (sha256 text), (r ++ s). split; [apply hex_decode_encode; exact Bh|]. split; [apply HL; exact Bt|]. split; [exact Es|exact N]. }
  rewrite app_length. split; [lia|].
  assert (Hs : hex_decode (hex_encode (r ++ s')) = Ok (r ++ s')) by (apply hex_decode_encode; apply is_bytes_app; split; assumption).
  split; [|split].
  - intros L wire W. apply binance_combine_iff. eexists _, raw, [], (transfer f t denom amount), (r ++ s'), pub, mark, point, wire. split; [exact Rd|]. split; [reflexivity|]. split; [exact Rm|].
    split; [split; [exact Hs|]; split; [rewrite app_length; exact L|]; split; [apply hex_decode_encode; exact Bp|exact Lp]|]. split; [exact Dp|]. split; [|split; [exact W|reflexivity]].
    unfold checked. cbn [d_account d_sequence d_memo d_source d_data]. rewrite <- Tx. apply V; [exact Bs'|lia|lia].
  - intros L. unfold combine. rewrite Rd. cbn [d_msgs]. rewrite Rm, Hs. replace (zlen (r ++ s') =? 64) with false by (unfold zlen; rewrite app_length; lia). reflexivity.
  - pose proof (be_num_bound s Bs) as Sb. assert (Od : secp_order mod 2 = 1) by reflexivity. assert (Od2 : secp_order = 2 * (secp_order / 2) + 1) by reflexivity. split.
    + intros Lt. exists r, s. split; [exact Es|]. split; [exact Lr|]. split; [exact Ls|]. assert (Kk : ~ (2 * be_num s < secp_order \/ 2 ^ 240 <= Z.abs (secp_order - be_num s))) by (intros Kk; apply L64 in Kk; lia). lia.
    + intros (r1 & s1 & E1 & Lr1 & Ls1 & H1 & H2). rewrite Es in E1. assert (EE : r ++ s = r1 ++ s1) by congruence. assert (Esk : skipn 32 (r ++ s) = skipn 32 (r1 ++ s1)) by (rewrite EE; reflexivity).
      rewrite !skipn_app, Lr, Lr1, (skipn_all2 r), (skipn_all2 r1) in Esk by lia. change (s = s1) in Esk. subst s1.
      assert (Kk : ~ (length r + length s' = 64)%nat) by (intros L; assert (2 * be_num s < secp_order \/ 2 ^ 240 <= Z.abs (secp_order - be_num s)) by (apply L64; lia); lia). lia.
Qed.

(** ** The hypotheses can be met *)
Definition toy_sdk : sdk :=
  let m := transfer [1] [2] (str "BNB") 5 in
  {| k_decode := fun a => if beq a (str "bnb1a") then Some (str "bnb", [1]) else if beq a (str "bnb1b") then Some (str "bnb", [2]) else if beq a (str "tbnb1") then Some (str "tbnb", [3]) else None;
     k_text := fun chain account sequence _ memo source data => [account; sequence; source] ++ chain;
     k_doc := fun text => match text with
                          | account :: sequence :: source :: chain => Some {| d_chain := chain; d_account := account; d_sequence := sequence; d_memo := []; d_msgs := if account =? 0 then [] else [str "m"]; d_source := source; d_data := [] |}
                          | _ => None
                          end;
     k_msg := fun raw => if beq raw (str "m") then Some m else None;
     k_wire := fun x => Some [zlen (x_msgs x); zlen (x_sigs x)];
     k_unwire := fun _ => None |}.
Definition toy_pub : bytes := 2 :: repeat 7 32.
Definition toy_sig : bytes := repeat 1 64.
Definition toy_decompress (pub : bytes) : bytes := match pub with 2 :: x => 4 :: x ++ x | _ => [] end.
Example binance_create_case : exists text hash, create_tx toy_sdk toy_hash (str "bnb1a") (str "bnb1b") (str "BNB") 5 51 9 2 [] = Ok (text, hash) /\
  create_tx toy_sdk toy_hash (str "bnb1a") (str "tbnb1") (str "BNB") 5 51 9 2 [] = Err.
Proof. eexists _, _. split; reflexivity. Qed.
Example binance_flow_case : exists text hash sig wire,
  create_tx toy_sdk toy_hash (str "bnb1a") (str "bnb1b") (str "BNB") 5 51 9 2 [] = Ok (text, hash) /\
  sign_raw (fun _ _ => Some toy_sig) hash (repeat 1 32) = Ok sig /\ length sig = 64%nat /\
  combine toy_sdk toy_hash (fun _ _ s => beq s toy_sig) toy_decompress text (hex_encode sig) (hex_encode toy_pub) = Ok (Some wire).
Proof. eexists _, _, toy_sig, _. split; [reflexivity|]. split; [vm_compute; reflexivity|]. split; [reflexivity|]. vm_compute. reflexivity. Qed.
Example binance_reads_back_case : reads_back toy_sdk (str "Binance-Chain-Tigris") 51 9 (transfer [1] [2] (str "BNB") 5) [] 2 [].
Proof. exists (str "m"). split; reflexivity. Qed.
(** A signer as the flow theorem asks for. *)
Example binance_signer_case : exists sign verify, forall h : bytes, length h = 32%nat -> exists r s, sign (repeat 1 32) h = Some (r ++ s) /\ length r = 32%nat /\ length s = 32%nat /\ is_bytes r /\ is_bytes s /\ be_num s < secp_order /\
  forall s', is_bytes s' -> length s' = 32%nat -> be_num s' = be_num s \/ be_num s' = secp_order - be_num s -> verify (repeat 7 64) h (r ++ s') = true.
Proof.
  exists (fun _ _ => Some (repeat 1 32 ++ repeat 1 32)), (fun _ _ s => (be_num (skipn 32 s) =? be_num (repeat 1 32)) || (be_num (skipn 32 s) =? secp_order - be_num (repeat 1 32))).
  intros h L. exists (repeat 1 32), (repeat 1 32). split; [reflexivity|]. split; [reflexivity|]. split; [reflexivity|]. split; [repeat constructor; lia|]. split; [repeat constructor; lia|].
  split; [reflexivity|]. intros s' _ _ [E|E]; change (skipn 32 (repeat 1 32 ++ s')) with s'; lia.
Qed.
(** The crash, and a text for another chain that is completed. *)
Example binance_crash_case : combine toy_sdk toy_hash (fun _ _ _ => true) toy_decompress [0; 9; 2] (hex_encode toy_sig) (hex_encode toy_pub) = Panic /\
  combine toy_sdk toy_hash (fun _ _ _ => true) toy_decompress [1; 9; 2] (hex_encode toy_sig) (hex_encode (3 :: repeat 7 32)) = Panic /\
  exists wire, combine toy_sdk toy_hash (fun _ _ _ => true) toy_decompress ([1; 9; 2] ++ str "Other") (hex_encode toy_sig) (hex_encode toy_pub) = Ok (Some wire).
Proof. split; [vm_compute; reflexivity|]. split; [vm_compute; reflexivity|]. eexists. vm_compute. reflexivity. Qed.

Print Assumptions binance_create_iff.
Print Assumptions binance_sign_iff.
Print Assumptions binance_combine_iff.
Print Assumptions binance_combine_crash_iff.
Print Assumptions binance_chain_ignored.
Print Assumptions binance_flow.
