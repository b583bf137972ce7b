(** btcLikeTxDriver: multi-signature addresses and transactions. *)
From Coq Require Import String ZArith List Bool Lia ZifyBool ZifyNat.
From Verif Require Import Go GoFacts GoFacts2 Rd Base58Model Base58Spec Base58Props Base58CheckModel Base58CheckSpec Base58CheckProofs Base58CheckProps BtcModel BtcSpec BtcProofs BtcTxProofs BtcTxProps BtcSigProps BtcVerProps BtcMultiProps SigModel SigDerProps LikeModel LikeProofs LikeProps LikeSigProofs LikeSigProps LikeInsProps LikeVerProps Toy.
Import ListNotations.
Open Scope Z_scope.
Ltac Zify.zify_post_hook ::= idtac.

(** ** Specification *)
(** A witness in the consensus format: the number of items, then every item with its length. *)
Definition witness_stack (items : list bytes) : bytes := compact_size (zlen items) ++ concat (map (fun x => compact_size (zlen x) ++ x) items).
(** The signature as it stands in a witness: DER with 32-byte integers, then the hash type. *)
Definition sig_item (sp : sigpub) : bytes := tl (sig_script (wide_int (firstn 32 (sp_sig sp))) (wide_int (skipn 32 (sp_sig sp))) 1).
(** What the package writes. *)
Definition multi_witness (sps : list sigpub) (redeem : bytes) : bytes := [4; 0] ++ concat (map (fun sp => zlen (sig_item sp) :: sig_item sp) sps) ++ zlen redeem mod 256 :: redeem.
Definition multi_signed (sha : bytes -> bytes) (version : Z) (i : spec_in) (outs : list spec_out) (sps : list sigpub) (redeem : bytes) (lockTime : Z) : bytes :=
  le_bytes 4 version ++ [0; 1] ++ 1 :: wire_spec_in (with_script i (34 :: 0 :: 32 :: sha redeem)) ++ zlen outs :: concat (map wire_spec_out outs) ++
  multi_witness sps redeem ++ le_bytes 4 lockTime.

(** ** Lemmas *)
Lemma sig_item_eq sp : sig_script (wide_int (firstn 32 (sp_sig sp))) (wide_int (skipn 32 (sp_sig sp))) 1 = zlen (sig_item sp) :: sig_item sp.
Proof. unfold sig_item. generalize (wide_int (firstn 32 (sp_sig sp))) (wide_int (skipn 32 (sp_sig sp))). intros R S. pose proof (sig_script_len R S 1) as L. unfold sig_script in *. cbn [app tl] in *. rewrite zlen_cons in L. f_equal. lia. Qed.
Lemma multi_bytes_ok sp : wit_good (Some sp) -> like_multi_bytes sp = Ok (zlen (sig_item sp) :: sig_item sp).
Proof.
  intros K. unfold like_multi_bytes. rewrite witness_script_wide by exact K. destruct K as (B & L & Lp). replace (zlen (sp_sig sp) =? 0) with false by lia. cbn [bind]. rewrite sig_item_eq. rewrite zlen_app, (zlen_cons 33), Lp.
  set (a := zlen (sig_item sp) :: sig_item sp). change (a ++ 33 :: sp_pub sp) with ([] ++ a ++ 33 :: sp_pub sp). replace (zlen a + (1 + 33) - 34) with (zlen (@nil Z) + zlen a) by (change (zlen (@nil Z)) with 0; lia). apply (slice_mid [] a (33 :: sp_pub sp)); reflexivity.
Qed.
Lemma item_len sp : wit_good (Some sp) -> 0 <= zlen (sig_item sp) <= 252.
Proof.
  intros (B & L & _). destruct (split64 (sp_sig sp)) as (L1 & L2 & _); [unfold zlen in L; lia|]. pose proof (wide_len _ L1) as W1. pose proof (wide_len _ L2) as W2. pose proof (f_equal zlen (sig_item_eq sp)) as Q. rewrite zlen_cons, sig_script_len in Q.
  pose proof (zlen_nonneg (sig_item sp)). unfold zlen in *. lia.
Qed.
(** ** C120 *)
(** CreateMultiSig: which thresholds and keys are accepted, and what is returned. *)
Theorem like_multisig_iff : forall H sha h160 required keys address text, hash_ok H -> script_hashes_ok sha h160 -> Forall is_bytes keys -> 0 <= required < 256 ->
  like_multisig H sha h160 required keys = Ok (address, text) <->
  1 <= required <= zlen keys /\ zlen keys <= 16 /\ Forall (fun k => zlen k = 33 \/ zlen k = 65) keys /\ zlen (multisig_script required keys) <= 520 /\
  text = hex_encode (multisig_script required keys) /\ is_base58_of bitcoin_rs (checked H (0xC4 :: h160 ([0x00; 0x20] ++ sha (multisig_script required keys)))) address.
Proof.
  intros H sha h160 required keys address text HH HS B R. unfold like_multisig. pose proof (zlen_nonneg keys).
  destruct (required <? 1) eqn:C1; [split; [discriminate|lia]|].
  destruct (16 <? zlen keys) eqn:C3. { destruct (_ <? required); split; try discriminate; lia. }
  rewrite !(u8_small (zlen keys)) by lia. destruct (zlen keys <? required) eqn:C2; [split; [discriminate|lia]|].
  rewrite !u8_small by lia. replace (81 + required - 1) with (80 + required) by lia. replace (81 + zlen keys - 1) with (80 + zlen keys) by lia.
  assert (A : forall address, Forall (fun k => zlen k = 33 \/ zlen k = 65) keys -> is_base58_of bitcoin_rs (checked H ([0xC4] ++ h160 ([0x00; 0x20] ++ sha (multisig_script required keys)))) address <->
     encode_check1 bitcoin_al H 0xC4 (h160 ([0x00; 0x20] ++ sha (multisig_script required keys))) = Ok address).
  { intros a F. assert (Bs : is_bytes (multisig_script required keys)) by (apply multisig_script_bytes; try assumption; lia). destruct (HS _ Bs) as (S1 & S2 & S3).
    assert (Bx : is_bytes ([0; 32] ++ sha (multisig_script required keys))) by (apply is_bytes_app; split; [repeat constructor; unfold is_byte; lia|exact S1]). destruct (HS _ Bx) as (_ & S4 & S5).
    unfold encode_check1. apply address_text; [exact HH|repeat constructor; unfold is_byte; lia|exact S4|exact S5]. }
  split.
  - intros E. apply bind_ok in E as (body & Eb & E). apply multi_keys_ok in Eb as [F ->]. fold (multisig_script required keys) in E. cbv zeta in E. destruct (520 <? _) eqn:C4; [discriminate|].
    apply bind_ok in E as (a & Ea & E). apply (f_equal (fun x => match x with Ok v => v | _ => ([], []) end)) in E. cbv beta iota in E. assert (a = address) by (apply (f_equal fst) in E; exact E). apply (f_equal snd) in E. cbn [snd] in E. subst.
    repeat (split; [assumption || lia|]). split; [reflexivity|]. apply A; assumption.
  - intros (_ & _ & F & L & -> & N). rewrite (proj2 (multi_keys_ok keys _) (conj F eq_refl)). cbn [bind]. fold (multisig_script required keys). cbv zeta. replace (520 <? zlen (multisig_script required keys)) with false by lia.
    apply A in N; [|exact F]. rewrite N. reflexivity.
Qed.
(** Paying to the address pays to the nested witness script hash of the redeem script. *)
Theorem like_multisig_pays : forall H sha h160 required keys address text amount, hash_ok H -> script_hashes_ok sha h160 -> Forall is_bytes keys -> 0 <= required < 256 ->
  like_multisig H sha h160 required keys = Ok (address, text) ->
  exists script, hex_decode text = Ok script /\ like_pays H {| v_addr := address; v_amount := amount |} {| s_amount := amount; s_lock := p2sh_script (h160 ([0x00; 0x20] ++ sha script)) |}.
Proof.
  intros H sha h160 required keys address text amount HH HS B R E. apply like_multisig_iff in E as (E1 & E2 & E3 & E4 & -> & E5); try assumption. assert (Bs : is_bytes (multisig_script required keys)) by (apply multisig_script_bytes; try assumption; lia).
  exists (multisig_script required keys). split; [apply hex_decode_encode, Bs|]. split; [reflexivity|]. destruct (HS _ Bs) as (S1 & _ & _).
  assert (Bx : is_bytes ([0; 32] ++ sha (multisig_script required keys))) by (apply is_bytes_app; split; [repeat constructor; unfold is_byte; lia|exact S1]). destruct (HS _ Bx) as (_ & S4 & S5).
  exists (h160 ([0x00; 0x20] ++ sha (multisig_script required keys))). split; [exact S4|]. split; [exact S5|]. right. split; [exact E5|reflexivity].
Qed.
(** Insertion into a transaction with one multi-signature input writes exactly these bytes, for any number of signatures. *)
Theorem like_multi_insert : forall sha version i outs lt sps u h redeem, tx_fits [i] outs -> zlen (s_script i) <= 252 -> is_bytes (consensus_tx version [i] outs lt) -> zlen (sha redeem) = 32 ->
  length h = 20%nat -> hex_decode (lu_lock u) = Ok (p2sh_script h) -> hex_decode (lu_redeem u) = Ok redeem -> last redeem 0 = 0xAE -> sps <> [] -> Forall (fun sp => wit_good (Some sp)) sps ->
  like_insert sha (hex_encode (consensus_tx version [i] outs lt)) sps [u] = Ok (hex_encode (multi_signed sha version i outs sps redeem lt), [u]).
Proof.
  intros sha version i outs lt sps u h redeem T Fs B LS Lh El Er La NS W. pose proof T as (_ & No & Fi & Fo). unfold like_insert. rewrite hex_decode_encode by exact B. cbn [bind]. rewrite decode_plain_tx by (assumption || (constructor; [exact Fs|constructor])). cbn [bind].
  change (l_vins (ltx_of version [i] outs [] lt)) with [lin_of i]. change (l_vouts (ltx_of version [i] outs [] lt)) with (map lout_of outs). change (l_wit (ltx_of version [i] outs [] lt)) with (@nil sigpub). change (l_version (ltx_of version [i] outs [] lt)) with (le_bytes 4 version). change (l_locktime (ltx_of version [i] outs [] lt)) with (le_bytes 4 lt).
  rewrite zlen_map. change (zlen [u] =? 0) with false. change (zlen [lin_of i] =? 0) with false. change (zlen [lin_of i] =? zlen [u]) with true. replace (zlen outs =? 0) with false by lia. destruct (zlen sps =? 0) eqn:S0; [apply zlen0 in S0; contradiction|]. cbn [negb].
  assert (NR : redeem <> []) by (intros X; rewrite X in La; discriminate La). assert (ZR : zlen redeem =? 0 = false) by (destruct (zlen redeem =? 0) eqn:X; [apply zlen0 in X; contradiction|reflexivity]).
  assert (M : like_is_multi (lu_lock u) (lu_redeem u) = Ok true).
  { unfold like_is_multi. pose proof (proj2 (hex_decode_bytes _ _ El)) as Ll. assert (LP : length (p2sh_script h) = 23%nat) by (unfold p2sh_script; rewrite !app_length; cbn [length]; lia). replace (zlen (lu_lock u) =? 46) with true by (unfold zlen; lia). cbn [negb]. rewrite El, Er.
    change (all_at (p2sh_script h) [(0, 169); (1, 20)]) with (@Ok bool true). cbn [bind negb]. rewrite ZR, La. reflexivity. }
  rewrite M. cbn [bind]. rewrite Er. cbn [bind app upd]. unfold like_bytes. cbn [l_vins l_vouts l_wit l_version l_locktime].
  match goal with |- context [is_multi ?t] => replace (is_multi t) with true by (unfold is_multi; cbn [l_vins set_script li_script]; rewrite ZR, La; reflexivity) end.
  change (zlen [set_script redeem (lin_of i)] =? 0) with false. rewrite zlen_map. replace (zlen outs =? 0) with false by lia. rewrite S0.
  assert (E1 : mapr (like_in_bytes (redeem_hash sha)) [set_script redeem (lin_of i)] = Ok [wire_spec_in (with_script i (34 :: 0 :: 32 :: sha redeem))]).
  { cbn [mapr]. unfold like_in_bytes. cbn [set_script li_txid li_vout li_script li_seq lin_of]. rewrite zlen_le_bytes. apply Forall_cons_iff in Fi as [Fi _]. rewrite Fi. change (32 =? 32) with true. change (Z.of_nat 4 =? 4) with true. cbn [negb orb bind]. unfold redeem_hash, wire_spec_in, with_script. cbn [app s_txid s_vout s_script s_seq].
    assert (L35 : zlen (34 :: 0 :: 32 :: sha redeem) = 35) by (rewrite !zlen_cons; lia). unfold bytes in *. rewrite L35. reflexivity. }
  rewrite E1. cbn [bind].
  assert (E2 : mapr like_out_bytes (map lout_of outs) = Ok (map wire_spec_out outs)).
  { clear - Fo. induction Fo as [|s ss A F IH]; [reflexivity|]. cbn [map mapr]. rewrite out_bytes_plain by (cbn in A; lia). cbn [bind]. rewrite IH. reflexivity. }
  rewrite E2. cbn [bind].
  assert (E3 : mapr like_multi_bytes sps = Ok (map (fun sp => zlen (sig_item sp) :: sig_item sp) sps)).
  { clear - W. induction W as [|s ss A F IH]; [reflexivity|]. cbn [map mapr]. rewrite multi_bytes_ok by exact A. cbn [bind]. rewrite IH. reflexivity. }
  rewrite E3. cbn [bind]. unfold multi_signed, multi_witness. change (li_script (set_script redeem (lin_of i))) with redeem. unfold u8. rewrite !(Z.mod_small (zlen outs)) by lia. cbn [concat map]. rewrite app_nil_r. rewrite <- !app_assoc. reflexivity.
Qed.
(** The witness written is a consensus witness exactly for two signatures and a redeem script of at most 252 bytes. *)
Theorem like_multi_witness_iff : forall sps redeem, Forall (fun sp => wit_good (Some sp)) sps -> zlen sps < 2 ^ 32 -> zlen redeem < 2 ^ 32 ->
  multi_witness sps redeem = witness_stack ([] :: map sig_item sps ++ [redeem]) <-> length sps = 2%nat /\ zlen redeem <= 252.
Proof.
  intros sps redeem W LB LR. pose proof (zlen_nonneg redeem) as R0. pose proof (zlen_nonneg sps) as S0.
  assert (C : concat (map (fun x : bytes => compact_size (zlen x) ++ x) (map sig_item sps)) = concat (map (fun sp => zlen (sig_item sp) :: sig_item sp) sps)).
  { clear - W. induction W as [|s ss A F IH]; [reflexivity|]. cbn [map concat]. rewrite IH. pose proof (item_len s A). rewrite compact_small by lia. reflexivity. }
  unfold multi_witness, witness_stack. rewrite zlen_cons, zlen_app, zlen_map. change (zlen [redeem]) with 1. cbn [map concat]. rewrite map_app, concat_app. unfold bytes in C |- *. rewrite C. cbn [map concat]. rewrite app_nil_r. change (compact_size (zlen (@nil Z)) ++ []) with [0]. split.
  - intros E. destruct (zlen sps + 2 <? 253) eqn:Small.
    + rewrite (compact_small (1 + (zlen sps + 1))) in E by lia. cbn [app] in E. assert (E1 : 4 = 1 + (zlen sps + 1)) by (injection E as E1 _; exact E1). split; [unfold zlen in E1; lia|].
      destruct (zlen redeem <? 253) eqn:X; [lia|exfalso].
      assert (L3 : (3 <= length (compact_size (zlen redeem)))%nat).
      { unfold compact_size. rewrite X. destruct (zlen redeem <? 2 ^ 16); [|destruct (zlen redeem <? 2 ^ 32)]; cbn [length]; rewrite le_bytes_length; lia. }
      apply (f_equal (@length Z)) in E. cbn [length] in E. rewrite ?app_length in E. cbn [length] in E. rewrite ?app_length in E. lia.
    + exfalso. unfold compact_size at 1 in E. replace (1 + (zlen sps + 1) <? 253) with false in E by lia. destruct (1 + (zlen sps + 1) <? 2 ^ 16); [discriminate E|]. destruct (1 + (zlen sps + 1) <? 2 ^ 32); discriminate E.
  - intros [L2 L]. assert (Z2 : zlen sps = 2) by (unfold zlen; lia). rewrite Z2, (compact_small (1 + (2 + 1))), (compact_small (zlen redeem)) by lia. rewrite Z.mod_small by lia. cbn [app]. rewrite ?app_nil_r. reflexivity.
Qed.
(** The package itself never reads such a transaction: decoding refuses it and verification answers false, whatever the
    signatures, the redeem script and the unlock data. *)
Theorem like_multi_refused : forall sha version i outs sps redeem lt, 1 <= zlen outs <= 252 -> zlen (s_txid i) = 32 -> 
  like_decode (multi_signed sha version i outs sps redeem lt) = Err /\
  forall H sha' decompress ecdsa us, is_bytes (multi_signed sha version i outs sps redeem lt) -> like_verify H sha' decompress ecdsa (hex_encode (multi_signed sha version i outs sps redeem lt)) us = Ok false.
Proof.
  intros sha version i outs sps redeem lt No Li.
  assert (D : like_decode (multi_signed sha version i outs sps redeem lt) = Err).
  { unfold multi_signed. pose proof (decode_prefix version [with_script i (34 :: 0 :: 32 :: sha redeem)] outs true (multi_witness sps redeem ++ le_bytes 4 lt) ltac:(cbv; discriminate) ltac:(lia) ltac:(discriminate) ltac:(constructor; [exact Li|constructor])) as D.
    cbn [map concat] in D. rewrite app_nil_r in D. change (zlen [with_script i (34 :: 0 :: 32 :: sha redeem)]) with 1 in D. refine (eq_trans D _). unfold after_outs. cbn [length like_decode_wits]. unfold multi_witness. cbn [app].
    unfold like_decode_wit. cbn [need1]. change (4 =? 0) with false. change (4 =? 2) with false. cbv iota. cbn [bind app].
    set (x := (concat _ ++ _) ++ le_bytes 4 lt). assert (Lx : 5 <= zlen x) by (unfold x; rewrite !zlen_app, zlen_cons, zlen_le_bytes; pose proof (zlen_nonneg redeem); match goal with |- context [zlen (concat ?c)] => pose proof (zlen_nonneg (concat c)) end; lia).
    unfold need. destruct (zlen (4 :: 0 :: x) <? 4); [reflexivity|]. destruct (zlen (skipn (Z.to_nat 4) (4 :: 0 :: x)) =? 0) eqn:X; [exfalso|reflexivity]. unfold zlen in X, Lx. rewrite skipn_length in X. cbn [length] in X. lia. }
  split; [exact D|]. intros H sha' decompress ecdsa us B. unfold like_verify. rewrite hex_decode_encode by exact B. cbn [bind]. rewrite D. reflexivity.
Qed.

(** ** Concrete cases *)
Definition ex_multi : bytes := multisig_script 2 [ex_pub; ex_pub; ex_pub].
Definition ex_multi_u : lunlock := ex_like_u (p2sh_script (repeat 4 20)) ex_multi 77.
Lemma ex_multi_bytes : is_bytes ex_multi.
Proof. apply is_bytes_b. reflexivity. Qed.
Example like_multi_example : exists signed, like_insert (fun _ => zeros 32) (hex_encode (consensus_tx 2 [ex_like_in 1] [ex_like_out] 3)) [ex_like_sp; ex_like_sp; ex_like_sp] [ex_multi_u] = Ok (signed, [ex_multi_u]) /\
  signed = hex_encode (multi_signed (fun _ => zeros 32) 2 (ex_like_in 1) [ex_like_out] [ex_like_sp; ex_like_sp; ex_like_sp] ex_multi 3).
Proof.
  eexists. split; [|reflexivity]. apply like_multi_insert with (h := repeat 4 20).
  - split; [cbv; split; discriminate|]. split; [cbv; split; discriminate|]. split; [repeat (constructor; [reflexivity|]); constructor|]. repeat (constructor; [cbv; discriminate|]). constructor.
  - cbv. discriminate.
  - apply is_bytes_b. vm_compute. reflexivity.
  - reflexivity.
  - reflexivity.
  - reflexivity.
  - cbn [ex_multi_u ex_like_u lu_redeem]. apply hex_decode_encode, ex_multi_bytes.
  - reflexivity.
  - discriminate.
  - assert (G : wit_good (Some ex_like_sp)) by (split; [apply ex_like_sound; reflexivity|split; reflexivity]). repeat (constructor; [exact G|]). constructor.
Qed.
Print Assumptions like_multisig_iff.
Print Assumptions like_multisig_pays.
Print Assumptions like_multi_insert.
Print Assumptions like_multi_witness_iff.
Print Assumptions like_multi_refused.
