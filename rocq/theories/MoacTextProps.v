(** VerifyAndCombineRawTransaction of moacchainTransaction on any text: exactly which texts it signs, and as what. *)
From Coq Require Import ZArith List Bool Lia ZifyBool ZifyNat.
From Verif Require Import Go GoFacts GoFacts2 Codes Rd Bech32mModel AddressProps MoacModel MoacProps.
Import ListNotations.
Open Scope Z_scope.
Ltac Zify.zify_post_hook ::= idtac.

(** ** Specification *)
(** An item behind its length byte, whatever its size up to 127; a number below 128 may stand for itself as the nonce only. *)
Definition item_text (e : bytes) : Prop := exists s, zlen s <= 127 /\ e = (0x80 + zlen s) :: s.
Definition nonce_text (e : bytes) : Prop := (exists b, b < 0x80 /\ e = [b]) \/ item_text e.
(** What is signed: any byte, which must be the header of the list in texts of fewer than 57 bytes only, nine items, any byte
    for the chain, and two empty strings. *)
Definition signable (w : bytes) (items : list bytes) : Prop :=
  exists h n rest c, items = n :: rest /\ length rest = 8%nat /\ nonce_text n /\ Forall item_text rest /\
    w = h :: concat items ++ [c; 0x80; 0x80] /\ (zlen w < 57 -> h = 0xC0 + (zlen w - 1)).

(** ** Proofs *)
Lemma item_ok {A} e r (k : bytes -> bytes -> res A) : item_text e -> item (e ++ r) k = k e r.
Proof.
  intros (s & L & ->). unfold item. cbn [app]. pose proof (zlen_nonneg s). replace (128 + zlen s <? 128) with false by lia. change ((128 + zlen s) :: s ++ r) with (((128 + zlen s) :: s) ++ r). apply need_app. rewrite zlen_cons. lia.
Qed.
Lemma item_inv {A} r (k : bytes -> bytes -> res A) x : is_bytes r -> item r k = Ok x -> exists e r', r = e ++ r' /\ item_text e /\ is_bytes r' /\ k e r' = Ok x.
Proof.
  intros B E. unfold item in E. destruct r as [|b r]; [discriminate|]. destruct (b <? 128) eqn:L; [discriminate|]. apply need_inv in E as (e & r' & Er & Le & E); [|lia]. rewrite Er in B. apply is_bytes_app in B as [Be Br]. exists e, r'. split; [exact Er|]. split; [|split; assumption].
  destruct e as [|y e]; [change (zlen (@nil Z)) with 0 in Le; lia|]. cbn [app] in Er. injection Er as <- _. rewrite zlen_cons in Le. apply is_bytes_cons in Be as [Hb _]. unfold is_byte in Hb. exists e. split; [lia|]. f_equal. lia.
Qed.
Definition tx_of (i : list bytes) (c : Z) : tx :=
  {| m_nonce := nth 0 i []; m_system := nth 1 i []; m_price := nth 2 i []; m_limit := nth 3 i []; m_to := nth 4 i []; m_amount := nth 5 i []; m_payload := nth 6 i [];
     m_sharding := nth 7 i []; m_via := nth 8 i []; m_chain := [c]; m_r := []; m_s := [] |}.
Lemma decode_empty_iff b t : is_bytes b -> (decode_empty b = Ok t <->
  exists n rest c, length rest = 8%nat /\ nonce_text n /\ Forall item_text rest /\ b = concat (n :: rest) ++ [c; 0x80; 0x80] /\ t = tx_of (n :: rest) c).
Proof.
  intros B. split.
  - intros E. unfold decode_empty in E. destruct b as [|b0 b]; [discriminate|].
    assert (N : exists n r, b0 :: b = n ++ r /\ nonce_text n /\ is_bytes r /\ item r (fun sys r => item r (fun price r => item r (fun limit r => item r (fun to r => item r (fun amount r => item r (fun payload r => item r (fun sharding r => item r (fun via r => need 1 r (fun chain r =>
      match r with [x; y] => if (x =? 0x80) && (y =? 0x80) then Ok {| m_nonce := n; m_system := sys; m_price := price; m_limit := limit; m_to := to; m_amount := amount; m_payload := payload; m_sharding := sharding; m_via := via; m_chain := chain; m_r := []; m_s := [] |} else Err | _ => Err end))))))))) = Ok t).
    { destruct (b0 <=? 128) eqn:L; apply need_inv in E as (e & r' & Er & Le & E); [|lia| |lia]; rewrite Er in B; apply is_bytes_app in B as [Be Br]; exists e, r'; (split; [exact Er|]); (split; [|split; assumption]).
      - destruct e as [|y [|z e]]; [change (zlen (@nil Z)) with 0 in Le; lia| |rewrite !zlen_cons in Le; pose proof (zlen_nonneg e); lia]. cbn [app] in Er. injection Er as <- _. destruct (Z.eq_dec b0 128) as [->|Q]; [right; exists []; split; [discriminate|reflexivity]|]. left. exists b0. split; [lia|reflexivity].
      - right. destruct e as [|y e]; [change (zlen (@nil Z)) with 0 in Le; lia|]. cbn [app] in Er. injection Er as <- _. rewrite zlen_cons in Le. apply is_bytes_cons in Be as [Hb _]. unfold is_byte in Hb. exists e. split; [lia|]. f_equal. lia. }
    clear E. destruct N as (n & r & Eb & Tn & Br & E).
    apply item_inv in E as (e1 & r1 & -> & T1 & B1 & E); [|exact Br]. apply item_inv in E as (e2 & r2 & -> & T2 & B2 & E); [|exact B1]. apply item_inv in E as (e3 & r3 & -> & T3 & B3 & E); [|exact B2]. apply item_inv in E as (e4 & r4 & -> & T4 & B4 & E); [|exact B3].
    apply item_inv in E as (e5 & r5 & -> & T5 & B5 & E); [|exact B4]. apply item_inv in E as (e6 & r6 & -> & T6 & B6 & E); [|exact B5]. apply item_inv in E as (e7 & r7 & -> & T7 & B7 & E); [|exact B6]. apply item_inv in E as (e8 & r8 & -> & T8 & B8 & E); [|exact B7].
    apply need_inv in E as (ch & r9 & -> & Lc & E); [|lia]. destruct ch as [|c [|c' ch]]; [change (zlen (@nil Z)) with 0 in Lc; lia| |rewrite !zlen_cons in Lc; pose proof (zlen_nonneg ch); lia]. destruct r9 as [|x [|y [|z r9]]]; try discriminate. destruct ((x =? 128) && (y =? 128)) eqn:XY; [|discriminate]. assert (x = 128) by lia; assert (y = 128) by lia; subst x y.
    exists n, [e1; e2; e3; e4; e5; e6; e7; e8], c. split; [reflexivity|]. split; [exact Tn|]. split; [repeat (constructor; [assumption|]); constructor|]. split; [rewrite Eb; cbn [concat]; rewrite app_nil_r, <- !app_assoc; reflexivity|]. unfold tx_of. cbn [nth]. congruence.
  - intros (n & rest & c & L & Tn & F & -> & ->). do 8 (let e := fresh "e" in destruct rest as [|e rest]; [discriminate L|]). destruct rest; [|discriminate L]. clear L. repeat match goal with H : Forall _ (_ :: _) |- _ => inversion H; clear H; subst end.
    cbn [concat]. rewrite app_nil_r, <- !app_assoc. unfold decode_empty.
    assert (N : forall (X : Type) (k : bytes -> bytes -> res X) r, match n ++ r with [] => Err | b :: _ => (if b <=? 128 then need 1 (n ++ r) else need (1 + b - 128) (n ++ r)) k end = k n r).
    { intros X k r. destruct Tn as [(b & Hb & ->)|(s & Ls & ->)]; cbn [app].
      - replace (b <=? 128) with true by lia. apply (need_app 1 [b] r). reflexivity.
      - pose proof (zlen_nonneg s). destruct (128 + zlen s <=? 128) eqn:Q; change ((128 + zlen s) :: s ++ r) with (((128 + zlen s) :: s) ++ r); apply need_app; rewrite zlen_cons; lia. }
    rewrite N. rewrite !item_ok by assumption. reflexivity.
Qed.
Lemma item_len e : item_text e -> zlen e <= 128.
Proof. intros (s & L & ->). rewrite zlen_cons. lia. Qed.
Lemma items_len l : Forall item_text l -> zlen (concat l) <= 128 * zlen l.
Proof. induction 1 as [|e l T F IH]; [cbn; lia|]. cbn [concat]. rewrite zlen_app, zlen_cons. pose proof (item_len e T). lia. Qed.
Lemma header_unique tag n h h' : header tag n h -> header tag n h' -> h = h'.
Proof. intros [[L ->]|[L (l & M & ->)]] [[L' ->]|[L' (l' & M' & ->)]]; [reflexivity|lia|lia|]. rewrite (minimal_unique _ _ _ M M'). reflexivity. Qed.
(** C138. *)
Theorem moac_signed_iff : forall K recover compress verify emptyTrans signature publicKey tn out,
  verify_and_combine K recover compress verify emptyTrans signature publicKey tn = Ok (true, out) <->
  exists w items sig v r s w', hex_decode emptyTrans = Ok w /\ signable w items /\ recoverable signature sig /\ by_key K recover compress verify w sig publicKey /\
    rlp_number (v_value (nth 64 sig 0) tn) v /\ prefixed (be_num (firstn 32 sig)) r /\ prefixed (be_num (firstn 32 (skipn 32 sig))) s /\
    rlp_list (items ++ [v; r; s]) w' /\ out = 48 :: 120 :: hex_encode w'.
Proof.
  intros K recover compress verify emptyTrans signature publicKey tn out.
  (* what follows once the text is read and the signature is by the key *)
  assert (SG : forall sig i c, is_bytes sig -> zlen sig = 65 -> nth 64 sig 0 = 0 \/ nth 64 sig 0 = 1 -> length i = 9%nat -> zlen (concat i) <= 2 ^ 20 ->
    exists t v r s, add_sig (tx_of i c) sig tn = Ok t /\ rlp_number (v_value (nth 64 sig 0) tn) v /\ prefixed (be_num (firstn 32 sig)) r /\ prefixed (be_num (firstn 32 (skipn 32 sig))) s /\ rlp_list (i ++ [v; r; s]) (tx_bytes t)).
  { intros sig i c Bs Ls Hv Li Lc. destruct (sig_parts sig Bs Ls) as (S1 & S2 & _ & I & B1 & B2).
    set (v := uint64_bytes (v_value (nth 64 sig 0) tn)). set (r := length_bytes (zlen (strip0 (firstn 32 sig))) ++ strip0 (firstn 32 sig)). set (s := length_bytes (zlen (strip0 (firstn 32 (skipn 32 sig)))) ++ strip0 (firstn 32 (skipn 32 sig))).
    assert (L1 : zlen (firstn 32 sig) = 32) by (unfold zlen in *; rewrite firstn_length; lia). assert (L2 : zlen (firstn 32 (skipn 32 sig)) = 32) by (unfold zlen in *; rewrite firstn_length, skipn_length; lia).
    pose proof (strip_prefixed _ B1 L1) as PR. pose proof (strip_prefixed _ B2 L2) as PS. fold r in PR. fold s in PS.
    assert (VV : 0 <= v_value (nth 64 sig 0) tn < 256) by (unfold v_value, chain_id; destruct tn; lia).
    assert (EV : u8 (nth 64 sig 0 + 35 + u8 (chain_id tn * 2)) = v_value (nth 64 sig 0) tn) by (unfold u8, v_value, chain_id in *; change (2 ^ 8) with 256; destruct tn; [change (101 * 2 mod 256) with 202|change (99 * 2 mod 256) with 198]; rewrite Z.mod_small by lia; lia).
    assert (Lv : zlen v <= 9). { unfold v, uint64_bytes. destruct (_ =? 0); [discriminate|]. destruct (_ <? 128); [discriminate|]. cbv zeta. rewrite zlen_app. change (zlen (length_bytes ?x)) with 1. assert (zlen (strip0 (be_bytes 8 (v_value (nth 64 sig 0) tn))) <= 8); [|lia]. apply (minimal_len (be_num (be_bytes 8 (v_value (nth 64 sig 0) tn)))); [apply strip_minimal; apply be_bytes_is_bytes|lia|]. rewrite be_num_of_small; [lia|]. change (256 ^ Z.of_nat 8) with (2 ^ 64). lia. }
    assert (PL : forall b e, is_bytes b -> zlen b = 32 -> prefixed (be_num b) e -> zlen e <= 33). { intros b e Bb Lb (x & M & ->). rewrite zlen_cons. pose proof (be_num_bound b Bb) as BB. rewrite Lb in BB. pose proof (minimal_len _ _ 32 M ltac:(lia) ltac:(lia)). lia. }
    pose proof (PL _ _ B1 L1 PR). pose proof (PL _ _ B2 L2 PS).
    do 9 (let e := fresh "e" in destruct i as [|e i]; [discriminate Li|]). destruct i; [|discriminate Li].
    eexists _, v, r, s. split; [unfold add_sig; rewrite S1; cbn [bind]; rewrite S2; cbn [bind]; rewrite I; cbn [bind]; cbv zeta; rewrite EV; reflexivity|]. split; [apply uint64_canonical; lia|]. split; [exact PR|]. split; [exact PS|].
    unfold tx_bytes, body_bytes, tx_of. cbn [m_nonce m_system m_price m_limit m_to m_amount m_payload m_sharding m_via m_chain m_r m_s nth]. fold r s v. unfold rlp_list. cbn [app concat] in *. rewrite !app_nil_r in *. eexists. split; [apply list_header_canonical|reflexivity]. rewrite !zlen_app in *. assert (2 ^ 20 + 100 < 2 ^ 64) by reflexivity. pose proof (zlen_nonneg v). pose proof (zlen_nonneg r). pose proof (zlen_nonneg s). repeat match goal with |- context [zlen ?x] => lazymatch goal with H : 0 <= zlen x |- _ => fail | _ => pose proof (zlen_nonneg x) end end. lia. }
  assert (RUN : forall w sig, hex_decode emptyTrans = Ok w -> recoverable signature sig -> verify_and_combine K recover compress verify emptyTrans signature publicKey tn =
    match recover sig (K w) with
    | None => Ok (false, [])
    | Some pub =>
        if negb (beq (to_lower (hex_encode (compress pub))) (to_lower publicKey)) then Ok (false, []) else
        if negb (verify pub (K w) (firstn 64 sig)) then Ok (false, []) else
        ok <- (if zlen w <? 57 then h <- idx (head_bytes (u64 (zlen w - 1))) 0 ;; t <- idx w 0 ;; Ok (h =? t) else Ok true) ;;
        if negb ok then Ok (false, []) else
        r <- slice_from w 1 ;;
        match decode_empty r with Panic => Panic | Err => Ok (false, []) | Ok t => t <- add_sig t sig tn ;; Ok (true, 48 :: 120 :: hex_encode (tx_bytes t)) end
    end).
  { intros w sig Ew (Es & Ls & Hv). unfold verify_and_combine. rewrite Ew, Es, Ls. change (negb (65 =? 65)) with false. cbv iota. destruct (sig_parts sig) as (_ & _ & S & I & _); [apply hex_decode_bytes in Es; tauto|exact Ls|]. rewrite I. cbn [bind]. replace (negb (nth 64 sig 0 =? 1) && negb (nth 64 sig 0 =? 0)) with false by lia. rewrite S. reflexivity. }
  assert (HD : forall (h : Z) (q : bytes), zlen (h :: q) < 57 -> idx (head_bytes (u64 (zlen (h :: q) - 1))) 0 = Ok (0xC0 + (zlen (h :: q) - 1))).
  { intros h q L. rewrite zlen_cons in *. pose proof (zlen_nonneg q). replace (1 + zlen q - 1) with (zlen q) by lia. unfold u64. rewrite Z.mod_small by lia. unfold head_bytes. replace (zlen q <? 56) with true by lia. unfold u8. rewrite (Z.mod_small (zlen q)) by (change (2 ^ 8) with 256; lia). rewrite Z.mod_small by (change (2 ^ 8) with 256; lia). reflexivity. }
  assert (IL : forall n rest, length rest = 8%nat -> nonce_text n -> Forall item_text rest -> length (n :: rest) = 9%nat /\ zlen (concat (n :: rest)) <= 2 ^ 20).
  { intros n rest L Tn F. split; [cbn [length]; lia|]. cbn [concat]. rewrite zlen_app. pose proof (items_len _ F) as Q. assert (zlen rest = 8) by (unfold zlen; lia). assert (zlen n <= 128) by (destruct Tn as [(b & _ & ->)|T]; [cbn; lia|apply item_len; exact T]). lia. }
  split.
  - intros E. destruct (hex_decode emptyTrans) as [w| |] eqn:Ew; [|unfold verify_and_combine in E; rewrite Ew in E; discriminate..]. destruct (recoverable_dec signature) as [(sig & RS)|NR]; [|rewrite (bad_signature _ _ _ _ _ w _ _ _ Ew NR) in E; discriminate].
    rewrite (RUN w sig eq_refl RS) in E. destruct (recover sig (K w)) as [key|] eqn:R; [|discriminate]. destruct (beq (to_lower (hex_encode (compress key))) (to_lower publicKey)) eqn:Q; [|discriminate]. cbn [negb] in E. destruct (verify key (K w) (firstn 64 sig)) eqn:V; [|discriminate]. cbn [negb] in E.
    pose proof Ew as Bw. apply hex_decode_bytes in Bw as [Bw _]. destruct w as [|h q]; [discriminate|]. rewrite slice_from_cons in E. change (idx (h :: q) 0) with (@Ok Z h) in E.
    assert (HE : (zlen (h :: q) < 57 -> h = 0xC0 + (zlen (h :: q) - 1)) /\ exists t, decode_empty q = Ok t /\ (t <- add_sig t sig tn ;; Ok (true, 48 :: 120 :: hex_encode (tx_bytes t))) = Ok (true, out)).
    { destruct (zlen (h :: q) <? 57) eqn:L57.
      - rewrite HD in E by lia. cbn [bind] in E. destruct (192 + (zlen (h :: q) - 1) =? h) eqn:Hh; cbn [negb] in E; [|discriminate]. split; [lia|]. cbn [bind] in E. destruct (decode_empty q) as [t| |]; [exists t; auto|discriminate..].
      - cbn [bind negb] in E. split; [lia|]. destruct (decode_empty q) as [t| |]; [exists t; auto|discriminate..]. }
    clear E. destruct HE as (Hh & t & Et & E). apply is_bytes_cons in Bw as [_ Bq]. apply decode_empty_iff in Et as (n & rest & c & L & Tn & F & -> & ->); [|exact Bq]. destruct (IL n rest L Tn F) as [L9 LC]. pose proof RS as (Es & Ls & Hv). pose proof Es as Bs. apply hex_decode_bytes in Bs as [Bs _].
    destruct (SG sig (n :: rest) c Bs Ls Hv L9 LC) as (t' & v & r & s & Ea & Hv' & Hr & Hs & W). rewrite Ea in E. cbn [bind] in E. eexists _, (n :: rest), sig, v, r, s, (tx_bytes t'). split; [reflexivity|]. split; [exists h, n, rest, c; repeat (split; [assumption || reflexivity|]); exact Hh|]. split; [exact RS|]. split; [exists key; split; [exact R|split; [apply beq_eq; exact Q|exact V]]|]. repeat (split; [assumption|]). congruence.
  - intros (w & items & sig & v & r & s & w' & Ew & (h & n & rest & c & -> & L & Tn & F & Eq & Hh) & RS & (key & R & Q & V) & Hv' & Hr & Hs & W & ->). rewrite (RUN w sig Ew RS), R. assert (Q' : beq (to_lower (hex_encode (compress key))) (to_lower publicKey) = true) by (apply beq_eq; exact Q). rewrite Q', V. cbn [negb].
    pose proof Ew as Bw. apply hex_decode_bytes in Bw as [Bw _]. destruct (IL n rest L Tn F) as [L9 LC]. pose proof RS as (Es & Ls & Hv). pose proof Es as Bs. apply hex_decode_bytes in Bs as [Bs _].
    destruct (SG sig (n :: rest) c Bs Ls Hv L9 LC) as (t' & v2 & r2 & s2 & Ea & Hv2 & Hr2 & Hs2 & W2).
    assert (v2 = v) by (eapply number_unique; eassumption). assert (PU : forall x e e', prefixed x e -> prefixed x e' -> e = e') by (intros x e e' (a & M & ->) (a' & M' & ->); rewrite (minimal_unique _ _ _ M M'); reflexivity). assert (r2 = r) by (eapply PU; eassumption). assert (s2 = s) by (eapply PU; eassumption). subst v2 r2 s2.
    assert (WU : w' = tx_bytes t'). { destruct W as (h1 & H1 & ->), W2 as (h2 & H2 & ->). rewrite (header_unique _ _ _ _ H1 H2). reflexivity. } subst w'.
    set (q := concat (n :: rest) ++ [c; 128; 128]) in *. rewrite Eq in *. apply is_bytes_cons in Bw as [_ Bq]. rewrite slice_from_cons. change (idx (h :: q) 0) with (@Ok Z h).
    assert (OK : (if zlen (h :: q) <? 57 then h0 <- idx (head_bytes (u64 (zlen (h :: q) - 1))) 0 ;; t <- Ok h ;; Ok (h0 =? t) else Ok true) = Ok true). { destruct (zlen (h :: q) <? 57) eqn:L57; [|reflexivity]. rewrite HD by lia. cbn [bind]. rewrite <- Hh by lia. rewrite Z.eqb_refl. reflexivity. }
    rewrite OK. cbn [bind negb]. assert (D : decode_empty q = Ok (tx_of (n :: rest) c)) by (apply decode_empty_iff; [exact Bq|]; exists n, rest, c; repeat (split; [assumption || reflexivity|]); reflexivity). rewrite D, Ea. reflexivity.
Qed.

(** ** Concrete cases *)
(** A text of 57 bytes or more whose first byte is no header and whose items are no canonical encodings is signed. *)
Definition ex_items : list bytes := [[5]; [0x81; 0]; 0x84 :: [0; 0; 0; 7]; [0x82; 82; 8]; 0x94 :: repeat 17 20; [0x80]; 0x9E :: repeat 3 30; [0x80]; [0x80]].
Definition ex_text : bytes := 0 :: concat ex_items ++ [77; 0x80; 0x80].
Example ex_signable : is_bytes ex_text /\ signable ex_text ex_items.
Proof.
  split; [apply forallb_bytes; vm_compute; reflexivity|]. eexists 0, [5], _, 77. split; [reflexivity|]. split; [reflexivity|]. split; [left; exists 5; split; [lia|reflexivity]|]. split; [|split; [reflexivity|intros L; vm_compute in L; discriminate L]].
  constructor; [exists [0]; split; [discriminate|reflexivity]|]. constructor; [exists [0; 0; 0; 7]; split; [discriminate|reflexivity]|]. constructor; [exists [82; 8]; split; [discriminate|reflexivity]|]. constructor; [exists (repeat 17 20); split; [discriminate|reflexivity]|].
  constructor; [exists []; split; [discriminate|reflexivity]|]. constructor; [exists (repeat 3 30); split; [discriminate|reflexivity]|]. constructor; [exists []; split; [discriminate|reflexivity]|]. constructor; [exists []; split; [discriminate|reflexivity]|]. constructor.
Qed.
Example moac_signed_example : exists out, verify_and_combine (fun b => b) (fun _ _ => Some [2]) (fun k => k) (fun _ _ _ => true) (hex_encode ex_text) (hex_encode (repeat 1 65)) (hex_encode [2]) true = Ok (true, out).
Proof.
  destruct ex_signable as [B S]. pose proof (hex_decode_encode ex_text B) as D.
  destruct (verify_and_combine (fun b => b) (fun _ _ => Some [2]) (fun k => k) (fun _ _ _ => true) (hex_encode ex_text) (hex_encode (repeat 1 65)) (hex_encode [2]) true) as [[[|] out]| |] eqn:E; [exists out; reflexivity| | |]; vm_compute in E; discriminate E.
Qed.
Print Assumptions moac_signed_iff.
