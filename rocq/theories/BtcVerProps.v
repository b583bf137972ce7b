(** C71, C72: inserting signatures into a transaction and checking the result (single-key inputs). *)
From Coq Require Import String ZArith List Bool Lia ZifyBool ZifyNat.
From Verif Require Import Go GoFacts GoFacts2 Rd Base58Model Base58Spec Base58CheckModel Base58CheckSpec Base58CheckProofs Base58CheckProps
  Bech32Model Bech32Spec Bech32Text BtcModel BtcSpec BtcProofs BtcTxProofs BtcTxProps BtcSigProps SigModel SigDerProps BtcVerModel Toy.
Import ListNotations.
Open Scope Z_scope.
Ltac Zify.zify_post_hook ::= idtac.

(** ** Specification *)
(** A signature with its public key: 64 bytes, neither half zero, and 33 bytes. *)
Definition good_sp (sp : sigpub) : Prop :=
  is_bytes (sp_sig sp) /\ length (sp_sig sp) = 64%nat /\ r_of (sp_sig sp) <> 0 /\ s_of (sp_sig sp) <> 0 /\ is_bytes (sp_pub sp) /\ length (sp_pub sp) = 33%nat.
(** The pushes of the DER signature with hash type [t] and of the public key. *)
Definition pushes (t : Z) (sp : sigpub) (e : bytes) : Prop :=
  exists R S, der_int (r_of (sp_sig sp)) R /\ der_int (s_of (sp_sig sp)) S /\ e = sig_script R S t ++ 33 :: sp_pub sp.
(** The input script, the witness and whether the input is a segwit input, by the kind of the output spent. *)
Definition unlocks (u : unlock) (sp : sigpub) (script witness : bytes) (segwit : bool) : Prop :=
  exists e lock redeem, pushes 1 sp e /\ hex_decode (u_lock u) = Ok lock /\ hex_decode (u_redeem u) = Ok redeem /\
  ((exists h, length h = 20%nat /\ lock = p2pkh_script h /\ script = e /\ witness = [0] /\ segwit = false) \/
   (exists s h, length s = 20%nat /\ length h = 20%nat /\ lock = p2sh_script s /\ redeem = witness_v0_script h /\ script = 22 :: redeem /\ witness = 2 :: e /\ segwit = true) \/
   (exists h, length h = 20%nat /\ lock = witness_v0_script h /\ script = [] /\ witness = 2 :: e /\ segwit = true)).
(** The serialisation of a signed transaction; marker, flag and witnesses only when some input is a segwit input. *)
Definition signed_bytes (segwit : bool) (version : Z) (ins : list spec_in) (outs : list spec_out) (wits : list bytes) (lockTime : Z) : bytes :=
  le_bytes 4 version ++ (if segwit then [0; 1] else []) ++ compact_size (zlen ins) ++ concat (map consensus_in ins) ++
  compact_size (zlen outs) ++ concat (map consensus_out outs) ++ (if segwit then concat wits else []) ++ le_bytes 4 lockTime.
Definition with_script (i : spec_in) (s : bytes) : spec_in := {| s_txid := s_txid i; s_vout := s_vout i; s_script := s; s_seq := s_seq i |}.
(** The hashes with signatures and keys filled in by the caller. *)
Definition put_sp (th : txhash) (sp : sigpub) : txhash :=
  match th_normal th with
  | Some n => {| th_hash := th_hash th; th_required := th_required th; th_normal := Some {| n_addr := n_addr n; n_sigtype := n_sigtype n; n_sp := sp |}; th_multi := th_multi th |}
  | None => th
  end.
Definition sign_all (hs : list txhash) (sps : list sigpub) : list txhash := map (fun p => put_sp (fst p) (snd p)) (combine hs sps).

(** What the decoder makes of the pushes: the signature comes back, and so do key and hash type, except that for an r of
    at least 2^247 and an s below 2^231 their first bytes are replaced by the last bytes of s (C28). *)
Definition read_back (t : Z) (sp : sigpub) : res (bytes * bytes * Z) := key_part (sp_sig sp) (overwritten (lost_of (sp_sig sp)) (skipn 32 (sp_sig sp)) (t :: 33 :: sp_pub sp)).
Fixpoint read_all (t : Z) (sps : list sigpub) : option (list sigpub) :=
  match sps with
  | [] => Some []
  | sp :: r => match read_back t sp, read_all t r with Ok (sig, pub, _), Some r' => Some ({| sp_sig := sig; sp_pub := pub |} :: r') | _, _ => None end
  end.
(** Every signature is valid for its hash under its key. *)
Definition all_valid (decompress : bytes -> bytes) (ecdsa : bytes -> bytes -> bytes -> bool) (hs : list txhash) (sps : list sigpub) : bool :=
  forallb (fun p => ecdsa (tl (decompress (sp_pub (snd p)))) (match hex_decode (th_hash (fst p)) with Ok h => h | _ => [] end) (sp_sig (snd p))) (combine hs sps).
(** The same for what is read back. *)
Definition read_valid (t : Z) (decompress : bytes -> bytes) (ecdsa : bytes -> bytes -> bytes -> bool) (hs : list txhash) (sps : list sigpub) : bool :=
  match read_all t sps with Some sps' => all_valid decompress ecdsa hs sps' | None => false end.

(** ** Lemmas *)
Record item := { it_in : spec_in; it_u : unlock; it_th : txhash; it_sp : sigpub; it_ty : Z; it_lock : bytes; it_redeem : bytes; it_e : bytes }.
Definition it_segwit (t : item) : bool := negb (it_ty t =? TypeP2PKH).
Definition it_script (t : item) : bytes := if it_ty t =? TypeP2PKH then it_e t else if it_ty t =? TypeP2WPKH then 22 :: it_redeem t else [].
Definition it_wit (t : item) : bytes := if it_ty t =? TypeP2PKH then [0] else 2 :: it_e t.
Lemma pushes_of ht sp : is_byte ht -> good_sp sp -> exists e, encode_script (sp_sig sp) (sp_pub sp) ht = Ok e /\ decode_script e = read_back ht sp /\ 42 <= zlen e <= 108 /\ (exists l, e = zlen e - 35 :: l) /\ pushes ht sp e.
Proof.
  intros Bt (B & L & Nr & Ns & Bp & Lp). destruct (halves_bytes _ B) as [B1 B2]. pose proof (be_num_bound _ B1). pose proof (be_num_bound _ B2).
  destruct (encode_sig_parts (sp_sig sp) ht B L) as (R & S & D1 & D2 & L1 & L2 & T & E); [unfold r_of in *; lia|unfold s_of in *; lia|].
  exists (sig_script R S ht ++ 33 :: sp_pub sp). assert (U : u8 (zlen (sp_pub sp)) = 33) by (unfold zlen; rewrite Lp; reflexivity).
  pose proof (loose_zlen R L1). pose proof (loose_zlen S L2). assert (ZP : zlen (sp_pub sp) = 33) by (unfold zlen; lia).
  assert (EE : encode_script (sp_sig sp) (sp_pub sp) ht = Ok (sig_script R S ht ++ 33 :: sp_pub sp)) by (unfold encode_script; rewrite E; cbn [bind]; rewrite U; reflexivity).
  split; [exact EE|]. split.
  { destruct (input_script_reads_as (sp_sig sp) (sp_pub sp) ht B L Nr Ns Lp) as (sc & S' & E' & D' & K & _). assert (sc = sig_script R S ht ++ 33 :: sp_pub sp) by congruence. subst sc.
    unfold read_back. rewrite <- (lost_same _ S' D') by (unfold s_of in *; lia). exact K. }
  rewrite zlen_app, zlen_cons, sig_script_len, ZP. split; [lia|]. split.
  - exists (tl (sig_script R S ht) ++ 33 :: sp_pub sp). unfold sig_script. cbn [app tl]. f_equal. lia.
  - exists R, S. split; [exact D1|]. split; [exact D2|reflexivity].
Qed.
Section Items.
(* checkScriptType, the hash type and the version of the package. *)
Variable check : list Z -> list Z -> res (bytes * bytes * Z).
Variables ht ver : Z.
Definition ok_item (t : item) : Prop :=
  zlen (s_txid (it_in t)) = 32 /\ check (u_lock (it_u t)) (u_redeem (it_u t)) = Ok (it_lock t, it_redeem t, it_ty t) /\
  (it_ty t = TypeP2PKH \/ it_ty t = TypeP2WPKH \/ it_ty t = TypeBech32) /\ (it_ty t = TypeP2WPKH -> zlen (it_redeem t) = 22) /\
  (exists h a, it_th t = {| th_hash := h; th_required := 0; th_normal := Some {| n_addr := a; n_sigtype := ht; n_sp := no_sigpub |}; th_multi := [] |}) /\
  zlen (sp_sig (it_sp t)) = 64 /\ zlen (sp_pub (it_sp t)) = 33 /\
  encode_script (sp_sig (it_sp t)) (sp_pub (it_sp t)) ht = Ok (it_e t) /\ decode_script (it_e t) = read_back ht (it_sp t) /\
  42 <= zlen (it_e t) <= 108 /\ (exists l, it_e t = zlen (it_e t) - 35 :: l) /\ pushes ht (it_sp t) (it_e t).
(** The input after insertion, as written, and as read back. *)
Definition ins_in (t : item) : txin := filled (in_of (it_in t)) (it_ty t) (if it_ty t =? TypeP2WPKH then it_redeem t else []) (it_e t) [].
Definition wire_it (t : item) : bytes := consensus_in (with_script (it_in t) (it_script t)).
Definition pre_in (t : item) : txin := filled (in_of (it_in t)) (it_ty t) (if it_ty t =? TypeP2WPKH then 22 :: it_redeem t else []) (if it_ty t =? TypeP2PKH then it_e t else []) [].
Definition dec_in (t : item) : txin := filled (in_of (it_in t)) (it_ty t) (if it_ty t =? TypeP2WPKH then 22 :: it_redeem t else []) (it_e t) [].
Lemma in_bytes_it sw t : ok_item t -> in_bytes sw (ins_in t) = Ok (wire_it t).
Proof.
  intros (Lx & _ & Ty & L22 & _ & _ & _ & _ & _ & Le & _). unfold in_bytes, ins_in, filled, wire_it, consensus_in, with_script, it_script. cbn [in_type in_txid in_vout in_pub in_sig in_seq in_multi in_of s_txid s_vout s_script s_seq]. rewrite Lx, !zlen_le_bytes.
  change (negb (32 =? 32)) with false. change (negb (Z.of_nat 4 =? 4)) with false. cbv iota.
  destruct Ty as [T|[T|T]]; rewrite T in *.
  - change (TypeP2PKH =? TypeEmpty) with false. change (TypeP2PKH =? TypeP2PKH) with true. cbn [bind]. rewrite compact_small by lia. rewrite u8_small by lia. reflexivity.
  - specialize (L22 eq_refl). change (TypeP2WPKH =? TypeEmpty) with false. change (TypeP2WPKH =? TypeP2PKH) with false. change (TypeP2WPKH =? TypeP2WPKH) with true. cbn [bind].
    rewrite compact_small by (rewrite zlen_cons; lia). rewrite zlen_cons, L22. reflexivity.
  - change (TypeBech32 =? TypeEmpty) with false. change (TypeBech32 =? TypeP2PKH) with false. change (TypeBech32 =? TypeP2WPKH) with false. change (TypeBech32 =? TypeBech32) with true. cbn [bind].
    reflexivity.
Qed.
Lemma decode_in_it w t rest : ok_item t -> (w = true \/ it_segwit t = false) -> decode_in w (wire_it t ++ rest) = Ok (pre_in t, rest).
Proof.
  intros (Lx & _ & Ty & L22 & _ & _ & _ & _ & _ & Le & _) Hw. unfold decode_in, wire_it, consensus_in, with_script, it_script, pre_in, filled. cbn [in_type in_txid in_vout in_pub in_sig in_seq in_multi in_of s_txid s_vout s_script s_seq]. rewrite <- !app_assoc.
  rewrite need_app by exact Lx. rewrite need_app by apply zlen_le_bytes. unfold it_segwit in Hw.
  destruct Ty as [T|[T|T]]; rewrite T in *.
  - change (TypeP2PKH =? TypeP2PKH) with true. change (TypeP2PKH =? TypeP2WPKH) with false. cbv iota. rewrite compact_small by lia. cbn [app need1].
    replace (zlen (it_e t) =? 0) with false by lia. replace (zlen (it_e t) =? 23) with false by lia. replace (zlen (it_e t) =? 35) with false by lia. replace (zlen (it_e t) <=? 108) with true by lia.
    rewrite need_app by reflexivity. rewrite must_app by apply zlen_le_bytes. reflexivity.
  - specialize (L22 eq_refl). destruct Hw as [-> |Hw]; [|discriminate]. change (TypeP2WPKH =? TypeP2PKH) with false. change (TypeP2WPKH =? TypeP2WPKH) with true. cbv iota. rewrite compact_small by (rewrite zlen_cons; lia). rewrite zlen_cons, L22. change (1 + 22) with 23. cbn [app need1].
    change (23 =? 0) with false. change (23 =? 23) with true. cbn [negb]. change (22 :: it_redeem t ++ le_bytes 4 (s_seq (it_in t)) ++ rest) with ((22 :: it_redeem t) ++ le_bytes 4 (s_seq (it_in t)) ++ rest). rewrite need_app by (rewrite zlen_cons; lia). rewrite must_app by apply zlen_le_bytes. reflexivity.
  - destruct Hw as [-> |Hw]; [|discriminate]. change (TypeBech32 =? TypeP2PKH) with false. change (TypeBech32 =? TypeP2WPKH) with false. cbv iota. change (compact_size (zlen (@nil Z))) with [0]. cbn [app need1]. change (0 =? 0) with true. cbv iota. rewrite must_app by apply zlen_le_bytes. reflexivity.
Qed.
Lemma wit_bytes_it t : ok_item t -> in_segwit_bytes (ins_in t) = Ok (it_wit t).
Proof.
  intros (_ & _ & Ty & _). unfold in_segwit_bytes, ins_in, filled, it_wit. cbn [in_type in_sig]. destruct Ty as [T|[T|T]]; rewrite T; reflexivity.
Qed.
Lemma decode_wit_it sw t rest : ok_item t -> decode_wit sw (pre_in t) (it_wit t ++ rest) = Ok (dec_in t, rest).
Proof.
  intros (Lx & _ & Ty & L22 & _ & _ & _ & _ & _ & Le & (l & El) & _). unfold decode_wit, it_wit, pre_in, dec_in, with_sig, filled. cbn [in_type in_txid in_vout in_pub in_sig in_seq in_multi].
  assert (N : forall s, need1 (it_e t ++ rest) (fun sigLen _ => need (sigLen + 35) (it_e t ++ rest) (fun s' rest => Ok (s s', rest))) = Ok (s (it_e t) : txin, rest)).
  { intros s. rewrite El at 1. cbn [app need1]. rewrite need_app by lia. reflexivity. }
  destruct Ty as [T|[T|T]]; rewrite T.
  - reflexivity.
  - change (TypeP2WPKH =? TypeP2PKH) with false. change ((TypeP2WPKH =? TypeP2WPKH) || (TypeP2WPKH =? TypeBech32)) with true. cbn [app need1]. cbv iota. change (negb (2 =? 2)) with false. cbv iota.
    rewrite (N (fun s => {| in_type := TypeP2WPKH; in_txid := in_txid (in_of (it_in t)); in_vout := in_vout (in_of (it_in t)); in_pub := if TypeP2WPKH =? TypeP2WPKH then 22 :: it_redeem t else []; in_sig := s; in_seq := in_seq (in_of (it_in t)); in_multi := [] |})). reflexivity.
  - change (TypeBech32 =? TypeP2PKH) with false. change ((TypeBech32 =? TypeP2WPKH) || (TypeBech32 =? TypeBech32)) with true. cbn [app need1]. cbv iota. change (negb (2 =? 2)) with false. cbv iota.
    rewrite (N (fun s => {| in_type := TypeBech32; in_txid := in_txid (in_of (it_in t)); in_vout := in_vout (in_of (it_in t)); in_pub := if TypeBech32 =? TypeP2WPKH then 22 :: it_redeem t else []; in_sig := s; in_seq := in_seq (in_of (it_in t)); in_multi := [] |})). reflexivity.
Qed.
Lemma decode_wits_it sw its rest : Forall ok_item its -> decode_wits sw (map pre_in its) (concat (map it_wit its) ++ rest) = Ok (map dec_in its, rest).
Proof.
  induction 1 as [|t its O F IH]; [reflexivity|]. cbn [map concat decode_wits]. rewrite <- app_assoc, decode_wit_it by exact O. cbn [bind]. rewrite IH. reflexivity.
Qed.
Lemma readn_it w its rest : Forall ok_item its -> (w = true \/ Forall (fun t => it_segwit t = false) its) ->
  readn (length its) (decode_in w) (concat (map wire_it its) ++ rest) = Ok (map pre_in its, rest).
Proof.
  induction 1 as [|t its O F IH]; intros Hw; [reflexivity|]. cbn [map concat length readn]. rewrite <- app_assoc, decode_in_it.
  - cbn [bind]. rewrite IH; [reflexivity|]. destruct Hw as [Hw|Hw]; [auto|]. apply Forall_cons_iff in Hw as [_ Hw]. auto.
  - exact O.
  - destruct Hw as [Hw|Hw]; [auto|]. apply Forall_cons_iff in Hw as [Hw _]. auto.
Qed.
Lemma pre_dec its : Forall ok_item its -> Forall (fun t => it_segwit t = false) its -> map pre_in its = map dec_in its.
Proof.
  intros _ F. apply map_ext_in. intros t Ht. rewrite Forall_forall in F. specialize (F t Ht). unfold it_segwit in F. unfold pre_in, dec_in. destruct (it_ty t =? TypeP2PKH); [reflexivity|discriminate].
Qed.
Definition segwit_of_items (its : list item) : bool := existsb it_segwit its.
Lemma existsb_false its : segwit_of_items its = false -> Forall (fun t => it_segwit t = false) its.
Proof. intros E. apply Forall_forall. intros t Ht. destruct (it_segwit t) eqn:S; [|reflexivity]. assert (segwit_of_items its = true) by (apply existsb_exists; eauto). congruence. Qed.
Lemma is_segwit_items sw its : Forall ok_item its -> is_segwit_v check (map it_u its) sw = Ok (segwit_of_items its).
Proof.
  induction 1 as [|t its O F IH]; [reflexivity|]. cbn [map is_segwit_v]. destruct O as (_ & C & Ty & _). rewrite C. cbn [bind]. unfold segwit_of_items. cbn [existsb]. fold (segwit_of_items its). unfold it_segwit at 1, segwit_type.
  destruct Ty as [T|[T|T]]; rewrite T; cbn; exact IH || reflexivity.
Qed.
Lemma insert_items sha sg sw its : Forall ok_item its -> (sw = true \/ segwit_of_items its = false) ->
  insert_loop_v check sha sg sw (map in_of (map it_in its)) (map it_u its) (sign_all (map it_th its) (map it_sp its)) = Ok (Some (map ins_in its)).
Proof.
  unfold sign_all. induction 1 as [|t its O F IH]; intros Hw; [reflexivity|]. cbn [map combine insert_loop_v fst snd hd_error tl].
  assert (Hw' : sw = true \/ segwit_of_items its = false) by (destruct Hw as [Hw|Hw]; [auto|right; unfold segwit_of_items in *; cbn [existsb] in Hw; apply orb_false_iff in Hw; apply Hw]).
  assert (E : insert_one check sha sg sw (in_of (it_in t)) (it_u t) (Some (put_sp (it_th t) (it_sp t))) = Ok (Filled (ins_in t))).
  { destruct O as (_ & C & Ty & _ & (h & a & Et) & Ls & Lp & E & _). unfold insert_one. rewrite C. cbv zeta. 
    assert (Q : th_script (put_sp (it_th t) (it_sp t)) (it_redeem t) sw = Ok (it_e t)).
    { rewrite Et. unfold put_sp, th_script. cbn [th_normal th_required th_hash th_multi n_sp n_sigtype]. change (0 =? 0) with true. cbv iota. rewrite Ls, Lp. exact E. }
    rewrite Q. unfold ins_in. unfold segwit_of_items in Hw. cbn [existsb] in Hw. unfold it_segwit in Hw at 1.
    destruct Ty as [T|[T|T]]; rewrite T in *.
    - reflexivity.
    - destruct Hw as [-> |Hw]; [reflexivity|discriminate].
    - destruct Hw as [-> |Hw]; [reflexivity|discriminate]. }
  rewrite E. cbn [bind]. rewrite IH by exact Hw'. reflexivity.
Qed.
Lemma map_in_of_dec its : map set_empty (map dec_in its) = map in_of (map it_in its).
Proof. rewrite !map_map. apply map_ext. reflexivity. Qed.
Lemma tx_bytes_items sw its outs lt : Forall ok_item its -> 1 <= zlen its <= 252 -> 1 <= zlen outs <= 252 -> Forall (fun s => 1 <= zlen (s_lock s) <= 252) outs ->
  tx_bytes sw {| tx_version := le_bytes 4 ver; tx_vins := map ins_in its; tx_vouts := map out_of outs; tx_locktime := le_bytes 4 lt; tx_witness := segwit_of_items its |} =
  Ok (signed_bytes (segwit_of_items its) ver (map (fun t => with_script (it_in t) (it_script t)) its) outs (map it_wit its) lt).
Proof.
  intros F Ni No Fo. unfold tx_bytes. cbn [tx_version tx_vins tx_vouts tx_locktime tx_witness]. rewrite !zlen_map, !zlen_le_bytes.
  replace (zlen its =? 0) with false by lia. replace (zlen outs =? 0) with false by lia. change (negb (Z.of_nat 4 =? 4)) with false. cbv iota.
  assert (M1 : mapr (in_bytes sw) (map ins_in its) = Ok (map wire_it its)).
  { clear - F. induction F as [|t its O F IH]; [reflexivity|]. cbn [map mapr]. rewrite in_bytes_it by exact O. cbn [bind]. rewrite IH. reflexivity. }
  assert (M2 : mapr out_bytes (map out_of outs) = Ok (map consensus_out outs)).
  { clear - Fo. induction Fo as [|o outs O F IH]; [reflexivity|]. cbn [map mapr]. unfold out_bytes at 1. cbn [out_of out_amount out_lock]. rewrite zlen_le_bytes. change (negb (Z.of_nat 8 =? 8)) with false. replace (zlen (s_lock o) =? 0) with false by lia. cbn [bind]. rewrite IH. cbn [bind].
    unfold consensus_out at 2. rewrite compact_small by lia. rewrite u8_small by lia. reflexivity. }
  assert (M3 : mapr in_segwit_bytes (map ins_in its) = Ok (map it_wit its)).
  { clear - F. induction F as [|t its O F IH]; [reflexivity|]. cbn [map mapr]. rewrite wit_bytes_it by exact O. cbn [bind]. rewrite IH. reflexivity. }
  rewrite M1, M2. cbn [bind]. rewrite M3.
  unfold signed_bytes. rewrite zlen_map, !compact_small by lia. rewrite !u8_small by lia. rewrite map_map. 
  change (map (fun x => consensus_in (with_script (it_in x) (it_script x))) its) with (map wire_it its).
  destruct (segwit_of_items its); cbn [bind concat app]; reflexivity.
Qed.
Lemma decode_items sw its outs lt : 0 <= ver < 2 ^ 32 -> Forall ok_item its -> 1 <= zlen its <= 252 -> 1 <= zlen outs <= 252 -> Forall (fun s => 1 <= zlen (s_lock s) <= 252) outs ->
  decode_v ver (signed_bytes (segwit_of_items its) ver (map (fun t => with_script (it_in t) (it_script t)) its) outs (map it_wit its) lt) sw =
  Ok {| tx_version := le_bytes 4 ver; tx_vins := map dec_in its; tx_vouts := map out_of outs; tx_locktime := le_bytes 4 lt; tx_witness := segwit_of_items its |}.
Proof.
  intros Hv F Ni No Fo. unfold signed_bytes. rewrite zlen_map, !compact_small by lia. rewrite map_map. change (map (fun x => consensus_in (with_script (it_in x) (it_script x))) its) with (map wire_it its).
  assert (RO : forall rest, readn (Z.to_nat (zlen outs)) decode_out (concat (map consensus_out outs) ++ rest) = Ok (map out_of outs, rest)).
  { intros rest. unfold zlen. rewrite Nat2Z.id. clear - Fo. revert rest. induction Fo as [|o outs O F IH]; intros rest; [reflexivity|]. cbn [map concat length readn]. rewrite <- app_assoc.
    assert (Q : forall r, decode_out (consensus_out o ++ r) = Ok (out_of o, r)).
    { intros r. unfold decode_out, consensus_out. rewrite <- !app_assoc. rewrite need_app by apply zlen_le_bytes. rewrite compact_small by lia. cbn [app need1]. replace (zlen (s_lock o) =? 0) with false by lia. rewrite need_app by reflexivity. reflexivity. }
    rewrite Q. cbn [bind]. rewrite IH. reflexivity. }
  unfold decode_v. rewrite need_app by apply zlen_le_bytes. rewrite le_num_small by exact Hv. rewrite Z.eqb_refl. cbn [negb]. cbv iota.
  destruct (segwit_of_items its) eqn:SG.
  - cbn [app]. replace (zlen _ <? 2) with false by (rewrite !zlen_cons; symmetry; apply Z.ltb_ge; match goal with |- context [zlen ?x] => pose proof (zlen_nonneg x) end; lia).
    change (negb (1 =? 1)) with false. cbn [bind need1]. replace (zlen its =? 0) with false by lia. unfold zlen at 1. rewrite Nat2Z.id.
    rewrite readn_it by auto. cbn [bind need1]. replace (zlen outs =? 0) with false by lia. rewrite RO. cbn [bind]. rewrite decode_wits_it by exact F. cbn [bind].
    rewrite <- (app_nil_r (le_bytes 4 lt)) at 1. rewrite need_app by apply zlen_le_bytes. reflexivity.
  - cbn [app]. replace (zlen _ <? 2) with false by (rewrite !zlen_cons, !zlen_app, zlen_cons; symmetry; apply Z.ltb_ge; match goal with |- context [zlen ?x + (1 + zlen ?y)] => pose proof (zlen_nonneg x); pose proof (zlen_nonneg y) end; lia).
    pose proof (existsb_false its SG) as FS. assert (N0 : exists p, zlen its = Z.pos p) by (exists (Z.to_pos (zlen its)); lia). destruct N0 as [p Np]. rewrite Np. cbn [bind need1]. change (Z.pos p =? 0) with false. cbv iota. rewrite <- Np. unfold zlen at 1. rewrite Nat2Z.id.
    rewrite readn_it by auto. cbn [bind need1]. replace (zlen outs =? 0) with false by lia. rewrite RO. cbn [bind]. rewrite pre_dec by assumption.
    rewrite <- (app_nil_r (le_bytes 4 lt)) at 1. rewrite need_app by apply zlen_le_bytes. reflexivity.
Qed.
Lemma fill_items decompress ecdsa its : (forall k, decompress k <> []) -> Forall ok_item its ->
  match fill_all (map dec_in its) (map it_th its) with Panic => Panic | Err => Ok false | Ok ths => check_all decompress ecdsa ths end = Ok (read_valid ht decompress ecdsa (map it_th its) (map it_sp its)).
Proof.
  intros HD F. assert (G : (fill_all (map dec_in its) (map it_th its) = Err /\ read_all ht (map it_sp its) = None) \/
    exists ths sps, fill_all (map dec_in its) (map it_th its) = Ok ths /\ read_all ht (map it_sp its) = Some sps /\ check_all decompress ecdsa ths = Ok (all_valid decompress ecdsa (map it_th its) sps)).
  2: { unfold read_valid. destruct G as [[-> ->]|(ths & sps & -> & -> & Q)]; [reflexivity|exact Q]. }
  induction F as [|t its O F IH]; [right; exists [], []; cbn [map fill_all read_all check_all]; split; [reflexivity|split; reflexivity]|]. cbn [map fill_all read_all].
  destruct O as (_ & _ & Ty & _ & (h & a & Et) & _ & _ & _ & D & _).
  assert (E : fill_one (dec_in t) (it_th t) = '(sig, pub, t') <- read_back ht (it_sp t) ;; Ok (set_normal (it_th t) {| n_addr := a; n_sigtype := ht; n_sp := no_sigpub |} {| sp_sig := sig; sp_pub := pub |} t')).
  { unfold fill_one, dec_in, filled. cbn [in_type in_sig in_multi].
    replace ((it_ty t =? TypeP2PKH) || (it_ty t =? TypeP2WPKH) || (it_ty t =? TypeBech32)) with true by (destruct Ty as [T|[T|T]]; rewrite T; reflexivity).
    rewrite D. destruct (read_back ht (it_sp t)) as [[[sig pub] t']| |]; cbn [bind]; [|reflexivity|reflexivity]. rewrite Et. reflexivity. }
  rewrite E. destruct (read_back ht (it_sp t)) as [[[sig pub] t']| |] eqn:RB; cbn [bind].
  - destruct IH as [[-> ->]|(ths & sps & -> & -> & Q)]; cbn [bind]; [left; split; reflexivity|]. right. eexists _, _. split; [reflexivity|]. split; [reflexivity|].
    cbn [check_all]. unfold check_hash, set_normal, all_valid. rewrite Et. cbn [th_hash th_required th_normal n_sp combine forallb fst snd sp_pub sp_sig]. change (0 =? 0) with true. cbv iota.
    pose proof (HD pub) as N. destruct (decompress pub) as [|d0 dk]; [congruence|]. rewrite slice_from_cons. cbn [bind tl]. destruct (ecdsa dk _ _); [exact Q|reflexivity].
  - left. split; reflexivity.
  - exfalso. clear - RB. unfold read_back, key_part in RB. destruct (overwritten _ _ _) as [|x [|y l]]; [discriminate|discriminate|]. destruct (y =? 33); discriminate.
Qed.
End Items.
Lemma items_of H ap sw ins outs lt : Forall (fun s => zlen (s_txid s) = 32) ins -> forall us hs k, pointwise (hash_for H ap sw ins outs lt) k us hs -> Forall (fun h => th_required h = 0) hs ->
  forall sps, length sps = length hs -> Forall good_sp sps -> (k + length us = length ins)%nat ->
  exists its, map it_in its = skipn k ins /\ map it_u its = us /\ map it_th its = hs /\ map it_sp its = sps /\ Forall (ok_item check_script 1) its.
Proof.
  intros F us hs k P. induction P as [k|k u th us hs Hu P IH]; intros R sps L G N.
  - destruct sps; [|discriminate L]. exists []. cbn [map]. rewrite skipn_all2 by (cbn in N; lia). repeat split; constructor.
  - apply Forall_cons_iff in R as [R0 R]. destruct sps as [|sp sps]; [discriminate L|]. apply Forall_cons_iff in G as [G0 G]. cbn [length] in *.
    destruct (IH R sps ltac:(lia) G ltac:(lia)) as (its & E1 & E2 & E3 & E4 & OK). clear IH.
    destruct (pushes_of 1 sp ltac:(cbv; intuition congruence) G0) as (e & Q1 & Q2 & Q3 & Q4 & Q5). destruct G0 as (B & Ls & _ & _ & _ & Lp).
    destruct Hu as (S1 & lock & redeem & i & El & Er & En & C).
    assert (W : exists ty, check_script (u_lock u) (u_redeem u) = Ok (lock, redeem, ty) /\ (ty = TypeP2PKH \/ ty = TypeP2WPKH \/ ty = TypeBech32) /\ (ty = TypeP2WPKH -> zlen redeem = 22) /\
       exists h a, th = {| th_hash := h; th_required := 0; th_normal := Some {| n_addr := a; n_sigtype := 1; n_sp := no_sigpub |}; th_multi := [] |}).
    { destruct C as [(h & a & Lh & El' & Er' & Ea & Et)|[(s & h & a & Lss & Lh & El' & Er' & A & Ea & Et)|[(h & a & Lh & El' & Er' & A & Ea & Et)|(s & m & ks & Lss & El' & Z1 & Z2 & (Em & _) & C)]]].
      - exists TypeP2PKH. split; [apply check_script_iff; split; auto; split; auto; left; eauto 10|]. split; [auto|]. split; [discriminate|]. eexists _, _. exact Et.
      - exists TypeP2WPKH. split; [apply check_script_iff; split; auto; split; auto; right; left; eauto 10|]. split; [auto|]. split; [intros _; rewrite Er'; apply wpkh_len; exact Lh|]. eexists _, _. exact Et.
      - exists TypeBech32. split; [apply check_script_iff; split; auto; split; auto; right; right; left; eauto 10|]. split; [auto|]. split; [discriminate|]. eexists _, _. exact Et.
      - exfalso. destruct C as [[_ Et]|(_ & _ & Et)]; rewrite Et in R0; cbn in R0; lia. }
    destruct W as (ty & W1 & W2 & W3 & W4).
    exists ({| it_in := i; it_u := u; it_th := th; it_sp := sp; it_ty := ty; it_lock := lock; it_redeem := redeem; it_e := e |} :: its). cbn [map it_in it_u it_th it_sp].
    split; [|split; [congruence|split; [congruence|split; [congruence|]]]].
    + rewrite E1. clear - En. revert ins En. induction k as [|k IH]; intros [|j ins] En; try discriminate; cbn [nth_error] in En.
      * injection En as ->. reflexivity.
      * cbn [skipn]. destruct ins; [destruct k; discriminate|]. exact (IH _ En).
    + constructor; [|exact OK]. unfold ok_item. cbn [it_in it_u it_th it_sp it_ty it_lock it_redeem it_e].
      split; [rewrite Forall_forall in F; apply F; eapply nth_error_In; exact En|]. split; [exact W1|]. split; [exact W2|]. split; [exact W3|]. split; [exact W4|].
      split; [unfold zlen; lia|]. split; [unfold zlen; lia|]. split; [exact Q1|]. split; [exact Q2|]. split; [exact Q3|]. split; [exact Q4|exact Q5].
Qed.
Lemma item_unlocks t : ok_item check_script 1 t -> unlocks (it_u t) (it_sp t) (it_script t) (it_wit t) (it_segwit t).
Proof.
  intros (_ & C & Ty & _ & _ & _ & _ & _ & _ & _ & _ & P). apply check_script_iff in C as (El & Er & C). exists (it_e t), (it_lock t), (it_redeem t). split; [exact P|]. split; [exact El|]. split; [exact Er|].
  unfold it_script, it_wit, it_segwit. destruct C as [(-> & _ & (h & L & E))|[(-> & (s & Ls & E) & (h & L & E2))|[(-> & _ & (h & L & E))|(T & _)]]].
  - left. exists h. repeat split; assumption.
  - right. left. exists s, h. repeat split; assumption.
  - right. right. exists h. repeat split; assumption.
  - rewrite T in Ty. destruct Ty as [T'|[T'|T']]; discriminate.
Qed.
(** Everything about inserting and checking, for a created transaction. *)
Lemma signed_shape H sha ap vins vouts lt r hexs us sw hs sps : hash_ok H -> prefixes_ok ap ->
  Forall vin_typed vins -> Forall vout_typed vouts -> Forall (fun v => zlen (v_addr v) <= 400) vouts -> zlen vins <= 252 -> zlen vouts <= 252 ->
  create_empty H vins vouts lt r ap = Ok hexs -> Forall (fun u => forall b, hex_decode (u_redeem u) = Ok b -> zlen b <= 252) us ->
  create_hashes H hexs us sw ap = Ok hs -> Forall (fun h => th_required h = 0) hs -> length sps = length hs -> Forall good_sp sps ->
  exists its outs, Forall2 (spends lt r) vins (map it_in its) /\ Forall2 (pays H ap) vouts outs /\ map it_u its = us /\ map it_th its = hs /\ map it_sp its = sps /\ Forall (ok_item check_script 1) its /\
    1 <= zlen its <= 252 /\ 1 <= zlen outs <= 252 /\ Forall (fun s => 1 <= zlen (s_lock s) <= 252) outs /\ Forall in_range (map it_in its) /\ Forall (fun s => 0 <= s_amount s < 2 ^ 64) outs /\
    is_bytes (wire_spec_tx 2 (map it_in its) outs lt) /\
    hashes_for_sig H (tx_of 2 (map it_in its) outs lt) us sw ap = Ok hs /\
    insert_signatures sha hexs (sign_all hs sps) us sw =
      if segwit_of_items its && negb sw then Err
      else Ok (hex_encode (signed_bytes (segwit_of_items its) 2 (map (fun t => with_script (it_in t) (it_script t)) its) outs (map it_wit its) lt)).
Proof.
  intros HH HP TI TO L Ni No E Fr C R0 Ls G.
  destruct (create_shape H ap vins vouts lt r hexs HH HP TI TO L E) as (ins & outs & Fi & Fo & _ & D & S1 & S2 & P1 & P2 & N1 & N2 & BB).
  assert (Mi : zlen ins <= 252) by (rewrite (Forall2_len _ _ _ Fi); assumption). assert (Mo : zlen outs <= 252) by (rewrite (Forall2_len _ _ _ Fo); assumption).
  rewrite trunc_small in D, BB by lia. assert (S0 : Forall (fun s => zlen (s_txid s) = 32) ins) by (eapply Forall_impl; [|exact S1]; intros s [Q _]; exact Q).
  assert (DT : decode_tx (wire_spec_tx 2 ins outs lt) sw = Ok (tx_of 2 ins outs lt)).
  { rewrite <- (app_nil_r (wire_spec_tx _ _ _ _)). rewrite decode_wire_spec by (try assumption; try (apply weaken_locks; assumption); lia). reflexivity. }
  unfold create_hashes in C. rewrite D in C. cbn [bind] in C. rewrite DT in C. cbn [bind] in C. pose proof C as C0.
  unfold hashes_for_sig in C. cbn [tx_of tx_vins tx_vouts] in C. rewrite !zlen_map in C. 
  change {| tx_version := le_bytes 4 2; tx_vins := map in_of ins; tx_vouts := map out_of outs; tx_locktime := le_bytes 4 lt; tx_witness := false |} with (tx_of 2 ins outs lt) in C.
  destruct (zlen ins =? zlen us) eqn:EQ; [|rewrite orb_true_r in C; discriminate]. destruct (_ || _) in C; [discriminate|]. destruct (_ =? 0) in C; [discriminate|].
  apply loop_iff in C; try assumption; try lia. apply Z.eqb_eq in EQ.
  destruct (items_of H ap sw ins outs lt S0 us hs 0 C R0 sps Ls G) as (its & E1 & E2 & E3 & E4 & OK); [unfold zlen in EQ; lia|]. cbn [skipn] in E1.
  assert (Lt : zlen its = zlen ins) by (rewrite <- E1; symmetry; apply zlen_map). subst ins us hs sps.
  exists its, outs. repeat (split; [assumption || reflexivity || lia|]).
  unfold insert_signatures. rewrite D. cbn [bind]. rewrite DT. cbn [bind]. rewrite zlen_map in EQ |- *. replace (zlen its =? 0) with false by lia.
  assert (LT : zlen (sign_all (map it_th its) (map it_sp its)) = zlen its) by (unfold sign_all; rewrite zlen_map; unfold zlen; rewrite combine_length, !map_length; lia).
  rewrite LT. replace (zlen its =? 0) with false by lia. cbn [tx_of tx_vins tx_vouts tx_version tx_locktime]. rewrite !zlen_map. replace (zlen its =? 0) with false by lia. replace (zlen outs =? 0) with false by lia. rewrite Z.eqb_refl. cbn [negb].
  unfold is_segwit, insert_loop. rewrite (is_segwit_items check_script 1) by exact OK. destruct (segwit_of_items its && negb sw) eqn:SW; [reflexivity|].
  rewrite (insert_items check_script 1); [|exact OK|destruct sw; [auto|right; destruct (segwit_of_items its); [discriminate|reflexivity]]]. cbn [bind].
  rewrite (tx_bytes_items check_script 1) by (try assumption; lia). reflexivity.
Qed.
Lemma is_bytes_concat l : Forall is_bytes l -> is_bytes (concat l).
Proof. induction 1; [constructor|]. cbn [concat]. apply is_bytes_app. auto. Qed.
Lemma concat_is_bytes l : is_bytes (concat l) -> Forall is_bytes l.
Proof. induction l as [|a l IH]; [constructor|]. cbn [concat]. rewrite is_bytes_app. intros [A B]. constructor; auto. Qed.
Lemma compact_bytes n : 0 <= n <= 252 -> is_bytes (compact_size n).
Proof. intros B. rewrite compact_small by lia. constructor; [unfold is_byte; lia|constructor]. Qed.
Lemma item_bytes check ht t : is_byte ht -> (forall lk rd l r ty, check lk rd = Ok (l, r, ty) -> is_bytes r) -> ok_item check ht t -> is_bytes (sp_pub (it_sp t)) -> is_bytes (it_script t) /\ zlen (it_script t) <= 252 /\ is_bytes (it_wit t).
Proof.
  intros Bt CB O Bp. destruct O as (_ & K & Ty & L22 & _ & _ & _ & _ & _ & Le & _ & (R & S & D1 & D2 & E)). pose proof (CB _ _ _ _ _ K) as Br.
  assert (Be : is_bytes (it_e t)).
  { rewrite E in Le |- *. rewrite zlen_app, sig_script_len in Le. unfold sig_script. cbn [app]. rewrite !is_bytes_cons, !is_bytes_app, !is_bytes_cons, !is_bytes_app, !is_bytes_cons.
    destruct D1 as [B1 _]. destruct D2 as [B2 _]. rewrite zlen_cons in Le. pose proof (zlen_nonneg R). pose proof (zlen_nonneg S). unfold is_byte in Bt |- *. pose proof (zlen_nonneg (sp_pub (it_sp t))).
    repeat match goal with |- _ /\ _ => split end; try assumption; try lia; try constructor. }
  unfold it_script, it_wit. destruct Ty as [T|[T|T]]; rewrite T in *.
  - change (TypeP2PKH =? TypeP2PKH) with true. cbv iota. split; [exact Be|]. split; [lia|]. constructor; [unfold is_byte; lia|constructor].
  - change (TypeP2WPKH =? TypeP2PKH) with false. change (TypeP2WPKH =? TypeP2WPKH) with true. cbv iota. rewrite !is_bytes_cons, zlen_cons, (L22 eq_refl). unfold is_byte. repeat split; try assumption; lia.
  - change (TypeBech32 =? TypeP2PKH) with false. change (TypeBech32 =? TypeP2WPKH) with false. cbv iota. rewrite !is_bytes_cons. change (zlen (@nil Z)) with 0. unfold is_byte. repeat split; try assumption; try lia. constructor.
Qed.
Lemma signed_is_bytes check ht ver its outs lt : is_byte ht -> (forall lk rd l r ty, check lk rd = Ok (l, r, ty) -> is_bytes r) -> Forall (ok_item check ht) its -> 1 <= zlen its <= 252 -> 1 <= zlen outs <= 252 -> Forall (fun s => 1 <= zlen (s_lock s) <= 252) outs ->
  is_bytes (wire_spec_tx ver (map it_in its) outs lt) -> Forall good_sp (map it_sp its) ->
  is_bytes (signed_bytes (segwit_of_items its) ver (map (fun t => with_script (it_in t) (it_script t)) its) outs (map it_wit its) lt).
Proof.
  intros Bt CB F Ni No Fo BB G. unfold wire_spec_tx in BB. apply is_bytes_app in BB as [B1 BB]. apply is_bytes_cons in BB as [_ BB]. apply is_bytes_app in BB as [B2 BB]. apply is_bytes_cons in BB as [_ BB]. apply is_bytes_app in BB as [B3 B4].
  unfold signed_bytes. rewrite !zlen_map. rewrite !is_bytes_app. apply concat_is_bytes in B2. apply concat_is_bytes in B3.
  split; [apply le_bytes_is_bytes|]. split; [destruct (segwit_of_items its); repeat constructor; unfold is_byte; lia|]. split; [apply compact_bytes; lia|].
  assert (I : forall t, In t its -> is_bytes (it_script t) /\ zlen (it_script t) <= 252 /\ is_bytes (it_wit t)).
  { intros t It. rewrite Forall_forall in F, G. apply (item_bytes check ht); [exact Bt|exact CB|apply F; exact It|]. apply (G (it_sp t)). apply in_map. exact It. }
  split; [|split; [apply compact_bytes; lia|split; [|split; [|apply le_bytes_is_bytes]]]].
  - apply is_bytes_concat. rewrite map_map. rewrite Forall_forall in *. intros x Hx. apply in_map_iff in Hx as (t & <- & It). destruct (I t It) as (Bs & Ls & _).
    assert (B : is_bytes (wire_spec_in (it_in t))) by (apply B2; rewrite map_map; apply in_map_iff; exists t; auto). unfold wire_spec_in in B. apply is_bytes_app in B as [B _].
    unfold consensus_in, with_script. cbn [s_txid s_vout s_script s_seq]. rewrite !is_bytes_app. pose proof (zlen_nonneg (it_script t)).
    repeat split; try assumption; try apply le_bytes_is_bytes. apply compact_bytes. lia.
  - apply is_bytes_concat. rewrite Forall_forall in *. intros x Hx. apply in_map_iff in Hx as (o & <- & Io).
    assert (B : is_bytes (wire_spec_out o)) by (apply B3; apply in_map; exact Io). unfold wire_spec_out in B. apply is_bytes_app in B as [_ B]. apply is_bytes_cons in B as [_ B]. pose proof (Fo o Io).
    unfold consensus_out. rewrite !is_bytes_app. repeat split; try assumption; try apply le_bytes_is_bytes. apply compact_bytes. lia.
  - destruct (segwit_of_items its); [|constructor]. apply is_bytes_concat. rewrite Forall_forall. intros x Hx. apply in_map_iff in Hx as (t & <- & It). apply (I t It).
Qed.
(** ** C71: the signed transaction *)
(** Filling in one good signature and key per hash and inserting them gives the serialisation of the same transaction
    with each input's script and witness; it is refused exactly when there is a segwit input and segwit is off. *)
Theorem inserted_is_signed_transaction : forall H sha ap vins vouts lt r hexs us segwitOn hs sps, hash_ok H -> prefixes_ok ap ->
  Forall vin_typed vins -> Forall vout_typed vouts -> Forall (fun v => zlen (v_addr v) <= 400) vouts -> zlen vins <= 252 -> zlen vouts <= 252 ->
  create_empty H vins vouts lt r ap = Ok hexs -> Forall (fun u => forall b, hex_decode (u_redeem u) = Ok b -> zlen b <= 252) us ->
  create_hashes H hexs us segwitOn ap = Ok hs -> Forall (fun h => th_required h = 0) hs -> length sps = length hs -> Forall good_sp sps ->
  exists ins outs scripts wits flags, Forall2 (spends lt r) vins ins /\ Forall2 (pays H ap) vouts outs /\
    length scripts = length ins /\ length wits = length ins /\ length flags = length ins /\
    (forall k u sp, nth_error us k = Some u -> nth_error sps k = Some sp -> exists s w f, nth_error scripts k = Some s /\ nth_error wits k = Some w /\ nth_error flags k = Some f /\ unlocks u sp s w f) /\
    let segwit := existsb (fun f => f) flags in
    insert_signatures sha hexs (sign_all hs sps) us segwitOn =
      if segwit && negb segwitOn then Err
      else Ok (hex_encode (signed_bytes segwit 2 (map (fun p => with_script (fst p) (snd p)) (combine ins scripts)) outs wits lt)).
Proof.
  intros H sha ap vins vouts lt r hexs us sw hs sps HH HP TI TO L Ni No E Fr C R0 Ls G.
  destruct (signed_shape H sha ap vins vouts lt r hexs us sw hs sps HH HP TI TO L Ni No E Fr C R0 Ls G) as (its & outs & Fi & Fo & E2 & E3 & E4 & OK & Mi & Mo & P1 & _ & _ & _ & _ & I).
  exists (map it_in its), outs, (map it_script its), (map it_wit its), (map it_segwit its). rewrite !map_length. repeat (split; [assumption || reflexivity|]). split.
  - intros k u sp Eu Es. subst us sps. rewrite nth_error_map in Eu, Es. rewrite !nth_error_map. destruct (nth_error its k) as [t|] eqn:Et; [|discriminate]. cbn [option_map] in *.
    exists (it_script t), (it_wit t), (it_segwit t). repeat (split; [reflexivity|]). assert (u = it_u t) by congruence. assert (sp = it_sp t) by congruence. subst. apply item_unlocks. rewrite Forall_forall in OK. apply OK. eapply nth_error_In. exact Et.
  - cbv zeta. rewrite I. assert (S : existsb (fun f => f) (map it_segwit its) = segwit_of_items its) by (clear; induction its as [|t its IH]; [reflexivity|]; cbn [map existsb]; rewrite IH; reflexivity). rewrite S.
    assert (M : map (fun p => with_script (fst p) (snd p)) (combine (map it_in its) (map it_script its)) = map (fun t => with_script (it_in t) (it_script t)) its) by (clear; induction its as [|t its IH]; [reflexivity|]; cbn [map combine fst snd]; rewrite IH; reflexivity). rewrite M. reflexivity.
Qed.
(** ** C72: checking the signed transaction *)
(** The check of the inserted transaction is exactly: every signature can be read back and is valid for the hash of its
    input under the public key that comes with it. The key is compared with nothing: neither the locking script nor the
    address is consulted. *)
Theorem verify_checks_only_supplied_keys : forall H sha decompress ecdsa ap vins vouts lt r hexs us segwitOn hs sps signed, hash_ok H -> prefixes_ok ap ->
  (forall k, decompress k <> []) ->
  Forall vin_typed vins -> Forall vout_typed vouts -> Forall (fun v => zlen (v_addr v) <= 400) vouts -> zlen vins <= 252 -> zlen vouts <= 252 ->
  create_empty H vins vouts lt r ap = Ok hexs -> Forall (fun u => forall b, hex_decode (u_redeem u) = Ok b -> zlen b <= 252) us ->
  create_hashes H hexs us segwitOn ap = Ok hs -> Forall (fun h => th_required h = 0) hs -> length sps = length hs -> Forall good_sp sps ->
  insert_signatures sha hexs (sign_all hs sps) us segwitOn = Ok signed ->
  verify_raw H decompress ecdsa signed us segwitOn ap = Ok (read_valid 1 decompress ecdsa hs sps).
Proof.
  intros H sha decompress ecdsa ap vins vouts lt r hexs us sw hs sps signed HH HP HD TI TO L Ni No E Fr C R0 Ls G I.
  destruct (signed_shape H sha ap vins vouts lt r hexs us sw hs sps HH HP TI TO L Ni No E Fr C R0 Ls G) as (its & outs & Fi & Fo & E2 & E3 & E4 & OK & Mi & Mo & P1 & RI & RO & BB & HS & I').
  rewrite I' in I. destruct (segwit_of_items its && negb sw) eqn:SW; [discriminate|]. apply (f_equal (fun x => match x with Ok v => v | _ => [] end)) in I. cbv beta iota in I. subst signed.
  assert (Bb : is_bytes (signed_bytes (segwit_of_items its) 2 (map (fun t => with_script (it_in t) (it_script t)) its) outs (map it_wit its) lt)).
  { apply (signed_is_bytes check_script 1); try assumption; [cbv; intuition congruence| |rewrite E4; exact G]. intros lk rd l0 r0 ty K. apply check_script_iff in K as (_ & Er & _). apply (proj1 (hex_decode_bytes _ _ Er)). }
  unfold verify_raw. rewrite hex_decode_encode by exact Bb. cbn [bind]. unfold decode_tx. rewrite (decode_items check_script 1) by (try assumption; try lia; cbv; intuition congruence). cbn [bind tx_vins].
  rewrite <- E2 at 1. rewrite !zlen_map, Z.eqb_refl. cbn [negb]. unfold clone_empty. cbn [tx_version tx_vins tx_vouts tx_locktime]. rewrite map_in_of_dec.
  change {| tx_version := le_bytes 4 2; tx_vins := map in_of (map it_in its); tx_vouts := map out_of outs; tx_locktime := le_bytes 4 lt; tx_witness := false |} with (tx_of 2 (map it_in its) outs lt).
  rewrite HS. cbn [bind]. rewrite <- E3 at 1. rewrite (fill_items check_script 1) by assumption. rewrite E3, E4. reflexivity.
Qed.
(** For a signature with r < 2^247 or s >= 2^231 this is plain validity; a transaction with a signature that is not read
    back, valid or not, is rejected. *)
Lemma read_back_readable t sp : good_sp sp -> readable (sp_sig sp) -> read_back t sp = Ok (sp_sig sp, sp_pub sp, t).
Proof.
  intros (B & L & Nr & Ns & Bp & Lp) Rd. destruct (halves_bytes _ B) as [B1 B2]. pose proof (be_num_bound _ B2). unfold read_back.
  destruct (input_script_reads_as (sp_sig sp) (sp_pub sp) t B L Nr Ns Lp) as (_ & S' & _ & D' & _). rewrite <- (lost_same _ S' D') by (unfold s_of in *; lia).
  rewrite (proj2 (lost_readable _ S' D') Rd), overwritten_0 by (apply (split64 _ L)). reflexivity.
Qed.
Theorem readable_checked_as_given : forall t decompress ecdsa hs sps, Forall good_sp sps -> Forall (fun sp => readable (sp_sig sp)) sps ->
  read_valid t decompress ecdsa hs sps = all_valid decompress ecdsa hs sps.
Proof.
  intros t decompress ecdsa hs sps G R. unfold read_valid. replace (read_all t sps) with (Some sps); [reflexivity|]. symmetry.
  induction G as [|sp sps G0 G IH]; [reflexivity|]. apply Forall_cons_iff in R as [R0 R]. cbn [read_all]. rewrite read_back_readable by assumption. rewrite (IH R). destruct sp; reflexivity.
Qed.
Theorem unreadable_rejected : forall t decompress ecdsa hs sps sp, In sp sps -> read_back t sp = Err -> read_valid t decompress ecdsa hs sps = false.
Proof.
  intros t decompress ecdsa hs sps sp Hin E. unfold read_valid. replace (read_all t sps) with (@None (list sigpub)); [reflexivity|]. symmetry.
  induction sps as [|x sps IH]; [destruct Hin|]. cbn [read_all]. destruct Hin as [-> | Hin]; [rewrite E; reflexivity|]. rewrite (IH Hin). destruct (read_back t x) as [[[a b] c]| |]; reflexivity.
Qed.
(** ** Examples *)
(** Three inputs, one of each kind, the signatures of three keys that no locking script mentions. *)
Definition ex_vus : list unlock :=
  [{| u_lock := hex_encode (p2pkh_script (repeat 7 20)); u_redeem := []; u_amount := 0; u_sigtype := 1 |};
   {| u_lock := hex_encode (p2sh_script (repeat 8 20)); u_redeem := hex_encode (witness_v0_script (repeat 3 20)); u_amount := 5; u_sigtype := 1 |};
   {| u_lock := hex_encode (witness_v0_script (repeat 9 20)); u_redeem := []; u_amount := 6; u_sigtype := 1 |}].
Definition ex_sp (k : Z) : sigpub := {| sp_sig := repeat k 64; sp_pub := 2 :: repeat k 32 |}.
Definition ex_sps : list sigpub := [ex_sp 1; ex_sp 200; ex_sp 3].
(** A key decompresses to itself; a signature is valid when it starts with the first byte of the key. *)
Definition ex_ecdsa (pk h sig : bytes) : bool := hd 0 pk =? hd 1 sig.
Example signed_example : exists hexs hs signed, Forall (fun u => forall b, hex_decode (u_redeem u) = Ok b -> zlen b <= 252) ex_vus /\
  create_empty toy_hash ex_vins ex_vouts 7 false btc_main = Ok hexs /\ create_hashes toy_hash hexs ex_vus true btc_main = Ok hs /\
  Forall (fun h => th_required h = 0) hs /\ length ex_sps = length hs /\ Forall good_sp ex_sps /\
  insert_signatures toy_hash hexs (sign_all hs ex_sps) ex_vus true = Ok signed /\
  verify_raw toy_hash (fun k => 4 :: tl k) ex_ecdsa signed ex_vus true btc_main = Ok true /\
  verify_raw toy_hash (fun k => 4 :: tl k) (fun pk h s => ex_ecdsa pk h s && (hd 0 pk <? 100)) signed ex_vus true btc_main = Ok false.
Proof.
  eexists _, _, _. split; [repeat constructor; intros b E; vm_compute in E; injection E as <-; vm_compute; discriminate|].
  split; [vm_compute; reflexivity|]. split; [vm_compute; reflexivity|]. split; [repeat constructor|]. split; [reflexivity|].
  split; [repeat constructor; vm_compute; congruence|]. split; [vm_compute; reflexivity|]. split; vm_compute; reflexivity.
Qed.
Print Assumptions inserted_is_signed_transaction.
(** A signature with r = 2^255 + 1 and s = 5 is not read back: a transaction signed with it is rejected whatever the
    signature check says. *)
Example unreadable_example : read_back 1 {| sp_sig := ex_hard; sp_pub := ex_pub |} = Err /\ good_sp {| sp_sig := ex_hard; sp_pub := ex_pub |} /\ Forall (fun sp => readable (sp_sig sp)) ex_sps.
Proof.
  split; [vm_compute; reflexivity|]. split; [unfold good_sp; cbn [sp_sig sp_pub]; split; [repeat (constructor; [unfold is_byte; lia|]); constructor|]; split; [reflexivity|]; split; [vm_compute; discriminate|]; split; [vm_compute; discriminate|]; split; [repeat (constructor; [unfold is_byte; lia|]); constructor|reflexivity]|].
  repeat (constructor; [right; vm_compute; discriminate|]). constructor.
Qed.
Print Assumptions readable_checked_as_given.
Print Assumptions unreadable_rejected.
Print Assumptions verify_checks_only_supplied_keys.
