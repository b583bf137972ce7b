(** C122, C123: inserting signatures into a transaction and checking the result, with multi-signature inputs among the others. *)
From Coq Require Import String ZArith List Bool Lia ZifyBool ZifyNat.
From Verif Require Import Go GoFacts GoFacts2 Rd Base58Model Base58Spec Base58CheckModel Base58CheckSpec Base58CheckProofs Base58CheckProps
  Bech32Model Bech32Spec Bech32Text BtcModel BtcSpec BtcProofs BtcTxProofs BtcTxProps BtcSigProps SigModel SigDerProps BtcVerModel BtcVerProps BtcMultiProps LikeMultiProps Toy.
Import ListNotations.
Open Scope Z_scope.
Ltac Zify.zify_post_hook ::= idtac.

(** ** Specification *)
(** What the caller fills into one hash: a signature with its key, or for a multi-signature input one optional signature
    with key per listed key. *)
Inductive given := One (sp : sigpub) | Many (l : list (option sigpub)).
Definition somes {A} (l : list (option A)) : list A := flat_map (fun o => match o with Some x => [x] | None => [] end) l.
Definition fill_entries (ms : list multi_tx) (l : list (option sigpub)) : list multi_tx :=
  map (fun p => {| m_pub := m_pub (fst p); m_sigtype := m_sigtype (fst p); m_sp := match snd p with Some sp => sp | None => no_sigpub end |}) (combine ms l).
Definition put_given (th : txhash) (g : given) : txhash :=
  match g with
  | One sp => put_sp th sp
  | Many l => {| th_hash := th_hash th; th_required := th_required th; th_normal := th_normal th; th_multi := fill_entries (th_multi th) l |}
  end.
(** The right kind of data for the hash, at least as many signatures as required, and all of them well formed. *)
Definition given_ok (th : txhash) (g : given) : Prop :=
  match g with
  | One sp => th_required th = 0 /\ good_sp sp
  | Many l => 1 <= th_required th <= zlen (somes l) /\ length l = length (th_multi th) /\ Forall good_sp (somes l)
  end.
Definition sigs_of (g : given) : list sigpub := match g with One sp => [sp] | Many l => somes l end.
(** A redeem script, if it looks like a multi-signature script, is one: OP_m, n pushes of 33-byte keys, OP_n,
    OP_CHECKMULTISIG; and it has at most 252 bytes. *)
Definition standard (u : unlock) : Prop := forall b, hex_decode (u_redeem u) = Ok b -> zlen b <= 252 /\
  (last b 0 = 0xAE -> exists m keys, 1 <= m <= zlen keys /\ zlen keys <= 16 /\ Forall (fun k => zlen k = 33) keys /\ b = multisig_script m keys).
(** Input script and witness of a multi-signature input, [used] being the signatures that go into it. *)
Definition unlocks_many (sha : bytes -> bytes) (segwitOn : bool) (u : unlock) (used : list sigpub) (script witness : bytes) (segwit : bool) : Prop :=
  exists redeem es, hex_decode (u_redeem u) = Ok redeem /\
  Forall2 (fun sp e => exists R S, der_int (r_of (sp_sig sp)) R /\ der_int (s_of (sp_sig sp)) S /\ e = sig_script R S 1) used es /\
  segwit = segwitOn /\
  if segwitOn then script = 0x22 :: 0x00 :: 0x20 :: sha redeem /\ witness = 4 :: 0 :: concat es ++ zlen redeem :: redeem
  else script = 0 :: concat es ++ (if zlen redeem <? 0x4C then [zlen redeem] else [0x4C; zlen redeem]) ++ redeem.
Definition unlocks_given (sha : bytes -> bytes) (segwitOn : bool) (u : unlock) (th : txhash) (g : given) (script witness : bytes) (segwit : bool) : Prop :=
  match g with
  | One sp => unlocks u sp script witness segwit
  | Many l => unlocks_many sha segwitOn u (firstn (Z.to_nat (th_required th)) (somes l)) script witness segwit
  end.
(** What the check amounts to: for a multi-signature input, every one of the first m signatures given is valid under a
    key of the redeem script that is not before it. *)
Definition valid_given (decompress : bytes -> bytes) (ecdsa : bytes -> bytes -> bytes -> bool) (th : txhash) (g : given) : bool :=
  let h := match hex_decode (th_hash th) with Ok h => h | _ => [] end in
  match g with
  | One sp => ecdsa (tl (decompress (sp_pub sp))) h (sp_sig sp)
  | Many l =>
      let keys := map (fun e => match hex_decode (m_pub e) with Ok k => k | _ => [] end) (th_multi th) in
      forallb (fun i => existsb (fun k => ecdsa (tl (decompress k)) h (sp_sig (nth i (somes l) no_sigpub))) (skipn i keys)) (seq 0 (Z.to_nat (th_required th)))
  end.
(** The input script of a legacy multi-signature input has more than 108 bytes: three keys are enough, or signatures
    without leading zero bytes. *)
Definition script_long (th : txhash) (g : given) : Prop :=
  match g with One _ => True | Many l => 3 <= zlen (th_multi th) \/ Forall (fun sp => 2 ^ 240 <= r_of (sp_sig sp) /\ 2 ^ 240 <= s_of (sp_sig sp)) (somes l) end.

(** ** Lemmas: one multi-signature script *)
Definition is_sig (sp : sigpub) (e : bytes) : Prop := exists R S, der_int (r_of (sp_sig sp)) R /\ der_int (s_of (sp_sig sp)) S /\ e = sig_script R S 1.
Definition enc1 (sp : sigpub) : bytes := match encode_sig (sp_sig sp) 1 with Ok e => e | _ => [] end.
Lemma enc1_ok sp : good_sp sp -> encode_sig (sp_sig sp) 1 = Ok (enc1 sp) /\ is_sig sp (enc1 sp) /\ is_bytes (enc1 sp) /\ 10 <= zlen (enc1 sp) <= 74 /\ (exists x, enc1 sp = zlen (enc1 sp) - 1 :: 48 :: x) /\
  (2 ^ 240 <= r_of (sp_sig sp) /\ 2 ^ 240 <= s_of (sp_sig sp) -> 70 <= zlen (enc1 sp)).
Proof.
  intros (B & L & Nr & Ns & Bp & Lp). destruct (halves_bytes _ B) as [B1 B2]. pose proof (be_num_bound _ B1). pose proof (be_num_bound _ B2).
  assert (Pr : 0 < r_of (sp_sig sp)) by (unfold r_of in *; lia). assert (Ps : 0 < s_of (sp_sig sp)) by (unfold s_of in *; lia).
  destruct (encode_sig_parts (sp_sig sp) 1 B L Pr Ps) as (R & S & D1 & D2 & L1 & L2 & T & E).
  unfold enc1. rewrite E. split; [reflexivity|]. split; [exists R, S; auto|]. pose proof (loose_zlen R L1). pose proof (loose_zlen S L2).
  assert (R1 : 1 <= zlen R) by (destruct D1 as (_ & N & _); destruct R; [congruence|unfold zlen; cbn [length]; lia]). assert (S1 : 1 <= zlen S) by (destruct D2 as (_ & N & _); destruct S; [congruence|unfold zlen; cbn [length]; lia]).
  rewrite sig_script_len. split; [|split; [lia|split]].
  - unfold sig_script. cbn [app]. rewrite !is_bytes_cons, !is_bytes_app, !is_bytes_cons, !is_bytes_app, !is_bytes_cons. destruct D1 as [Q1 _]. destruct D2 as [Q2 _]. unfold is_byte. repeat match goal with |- _ /\ _ => split end; try assumption; try lia; try constructor.
  - eexists. unfold sig_script. cbn [app]. f_equal. lia.
  - intros [V1 V2]. assert (G : forall v X, der_int v X -> 0 < v -> 2 ^ 240 <= v -> 31 <= zlen X).
    { intros v X D P V. rewrite (der_len v X D P). assert (240 <= Z.log2 v) by (apply Z.log2_le_pow2; lia). assert (30 <= (Z.log2 v + 1) / 8) by (apply Z.div_le_lower_bound; lia). lia. }
    pose proof (G _ _ D1 Pr V1). pose proof (G _ _ D2 Ps V2). lia.
Qed.
Lemma enc1_read sp tail : good_sp sp -> readable (sp_sig sp) -> decode_sig (enc1 sp) tail = Ok (sp_sig sp, 1, tail).
Proof.
  intros (B & L & Nr & Ns & _) Rd. destruct (signature_script_round_trip (sp_sig sp) 1 tail B L Nr Ns Rd) as (e & E & D). unfold enc1. rewrite E. exact D.
Qed.
Lemma count_ok l : forall ms, length ms = length l -> Forall good_sp (somes l) -> count_signed (fill_entries ms l) = Ok (zlen (somes l)).
Proof.
  unfold fill_entries. induction l as [|o l IH]; intros [|m ms] L G; try discriminate L; [reflexivity|]. cbn [combine map fst snd count_signed somes flat_map]. fold (somes l).
  unfold no_sp. cbn [m_sp]. destruct o as [sp|].
  - cbn [somes flat_map app] in G. fold (somes l) in G. apply Forall_cons_iff in G as [(_ & Ls & _ & _ & _ & Lp) G]. replace (zlen (sp_sig sp)) with 64 by (unfold zlen; lia). replace (zlen (sp_pub sp)) with 33 by (unfold zlen; lia).
    change (_ && _) with false. change (negb (33 =? 33) || negb (64 =? 64)) with false. cbv iota. rewrite IH by (cbn in L; lia || exact G). cbn [bind app]. f_equal. unfold zlen. cbn [length]. lia.
  - cbn [app]. cbn [sp_sig sp_pub no_sigpub]. change (_ && _) with true. cbv iota. apply IH; [cbn in L; lia|exact G].
Qed.
Lemma sig_scripts_ok l : forall ms n, length ms = length l -> Forall (fun m => m_sigtype m = 1) ms -> Forall good_sp (somes l) -> sig_scripts (S n) (fill_entries ms l) = Ok (concat (map enc1 (firstn (S n) (somes l)))).
Proof.
  unfold fill_entries. induction l as [|o l IH]; intros [|m ms] n L M G; try discriminate L; [reflexivity|]. apply Forall_cons_iff in M as [M0 M]. cbn [combine map fst snd sig_scripts somes flat_map]. fold (somes l). cbn [m_sp m_sigtype]. destruct o as [sp|].
  - cbn [somes flat_map app] in G |- *. fold (somes l) in G. apply Forall_cons_iff in G as [G0 G]. pose proof G0 as (_ & Ls & _). replace (zlen (sp_sig sp) =? 0) with false by (unfold zlen; lia). rewrite M0. destruct (enc1_ok sp G0) as (E & _). rewrite E. cbn [bind firstn map concat].
    destruct n as [|n]; [cbn [firstn map concat]; rewrite app_nil_r; reflexivity|]. rewrite IH by (cbn in L; lia || assumption). cbn [bind]. reflexivity.
  - cbn [app sp_sig no_sigpub]. change (zlen (@nil Z) =? 0) with true. cbv iota. apply IH; [cbn in L; lia|exact M|exact G].
Qed.
Lemma wit_sigs_ok sps : forall fuel c b rest, Forall good_sp sps -> (length sps <= fuel)%nat -> b <> 48 -> decode_wit_sigs fuel (concat (map enc1 sps) ++ c :: b :: rest) = Ok (concat (map enc1 sps), c :: b :: rest).
Proof.
  induction sps as [|sp sps IH]; intros fuel c b rest G L N.
  - cbn [map concat app]. destruct fuel; cbn [decode_wit_sigs]; replace (b =? 48) with false by lia; reflexivity.
  - apply Forall_cons_iff in G as [G0 G]. destruct fuel as [|fuel]; [cbn in L; lia|]. cbn [map concat]. destruct (enc1_ok sp G0) as (_ & _ & _ & _ & (x & Ex) & _). 
    assert (Lx : zlen (48 :: x) = zlen (enc1 sp) - 1) by (apply (f_equal zlen) in Ex; rewrite zlen_cons in Ex; lia). rewrite Ex. set (n := zlen (enc1 sp) - 1) in *. rewrite <- app_assoc. cbn [app decode_wit_sigs].
    change (negb (48 =? 48)) with false. cbv iota. change (48 :: x ++ concat (map enc1 sps) ++ c :: b :: rest) with ((48 :: x) ++ (concat (map enc1 sps) ++ c :: b :: rest)). rewrite need_app by exact Lx.
    rewrite IH by (assumption || (cbn in L; lia)). cbn [bind app]. reflexivity.
Qed.
Lemma multi_sigs_ok sps : forall fuel c b rest, Forall good_sp sps -> Forall (fun sp => readable (sp_sig sp)) sps -> (length sps <= fuel)%nat -> b <> 48 ->
  multi_sigs fuel (concat (map enc1 sps) ++ c :: b :: rest) = Ok (map (fun sp => (sp_sig sp, 1)) sps, c :: b :: rest).
Proof.
  induction sps as [|sp sps IH]; intros fuel c b rest G Rd L N.
  - cbn [map concat app]. destruct fuel; cbn [multi_sigs]; replace (b =? 48) with false by lia; reflexivity.
  - apply Forall_cons_iff in G as [G0 G]. apply Forall_cons_iff in Rd as [R0 Rd]. destruct fuel as [|fuel]; [cbn in L; lia|]. cbn [map concat]. destruct (enc1_ok sp G0) as (_ & _ & _ & _ & (x & Ex) & _). pose proof (enc1_read sp (concat (map enc1 sps) ++ c :: b :: rest) G0 R0) as D.
    assert (Lx : zlen (enc1 sp) = zlen (enc1 sp) - 1 + 1) by lia. set (n := zlen (enc1 sp) - 1) in *. clearbody n. set (e := enc1 sp) in *. clearbody e. rewrite <- app_assoc. rewrite Ex at 1. cbn [app multi_sigs].
    change (negb (48 =? 48)) with false. cbv iota. change (n :: 48 :: x ++ concat (map enc1 sps) ++ c :: b :: rest) with ((n :: 48 :: x) ++ (concat (map enc1 sps) ++ c :: b :: rest)). rewrite <- Ex. rewrite need_app by exact Lx.
    rewrite D. cbn [bind]. rewrite IH by (assumption || (cbn in L; lia)). cbn [bind map]. reflexivity.
Qed.
Lemma multi_pubs_ok ks : forall pre x y limit, Forall (fun k : bytes => zlen k = 33) ks -> zlen pre + 34 * zlen ks <= limit ->
  multi_pubs (length ks) limit (zlen pre) (pre ++ concat (map (fun k => 33 :: k) ks)) (pre ++ concat (map (fun k => 33 :: k) ks) ++ [x; y]) = Ok ks.
Proof.
  induction ks as [|k ks IH]; intros pre x y limit F L; [reflexivity|]. apply Forall_cons_iff in F as [Fk F]. cbn [length multi_pubs map concat]. rewrite zlen_cons in L. pose proof (zlen_nonneg ks).
  replace (limit <? zlen pre + 1) with false by lia. replace (limit <? zlen pre + 1 + 33) with false by lia. cbn [app]. rewrite idx_mid by reflexivity. cbn [bind]. change (negb (33 =? 33)) with false. cbv iota.
  assert (S1 : slice (pre ++ 33 :: (k ++ concat (map (fun k => 33 :: k) ks)) ++ [x; y]) (zlen pre + 1) (zlen pre + 1 + 33) = Ok k).
  { replace (pre ++ 33 :: (k ++ concat (map (fun k => 33 :: k) ks)) ++ [x; y]) with ((pre ++ [33]) ++ k ++ (concat (map (fun k => 33 :: k) ks) ++ [x; y])) by (rewrite <- !app_assoc; reflexivity).
    apply slice_mid; rewrite zlen_app; change (zlen [33]) with 1; lia. }
  rewrite S1. cbn [bind]. specialize (IH (pre ++ 33 :: k) x y limit F). rewrite zlen_app, zlen_cons, Fk in IH. 
  replace (zlen pre + 1 + 33) with (zlen pre + (1 + 33)) by lia. rewrite <- !app_assoc in IH. cbn [app] in IH. rewrite <- !app_assoc. rewrite IH by lia. reflexivity.
Qed.
Lemma zip_len n : forall sigs keys, length (zip_sp n sigs keys) = n.
Proof. induction n as [|n IH]; intros; cbn [zip_sp length]; [reflexivity|]. rewrite IH. reflexivity. Qed.
Lemma zip_nth n : forall sigs keys i, (i < n)%nat -> nth_error (zip_sp n sigs keys) i = Some ({| sp_sig := fst (nth i sigs ([], 0)); sp_pub := nth i keys [] |}, snd (nth i sigs ([], 0))).
Proof.
  induction n as [|n IH]; intros sigs keys i L; [lia|]. cbn [zip_sp]. destruct i as [|i].
  - cbn [nth_error]. destruct sigs as [|[s t] sigs]; destruct keys; reflexivity.
  - cbn [nth_error]. rewrite IH by lia. destruct sigs as [|[s t] sigs]; destruct keys as [|k keys]; cbn [tl nth]; try reflexivity; destruct i; reflexivity.
Qed.
Lemma set_multi_ok sps : forall l, length l = length sps -> exists r, set_multi l sps = Ok r /\ map m_sp r = map fst sps.
Proof.
  induction sps as [|[sp t] sps IH]; intros [|m l] L; try discriminate L; [exists []; split; reflexivity|]. cbn [set_multi]. destruct (IH l) as (r & E & Q); [cbn in L; lia|]. rewrite E. cbn [bind]. eexists. split; [reflexivity|]. cbn [map m_sp fst]. rewrite Q. reflexivity.
Qed.
Lemma script_eq m keys : Forall (fun k : bytes => zlen k = 33) keys -> multisig_script m keys = (0x50 + m) :: concat (map (fun k => 33 :: k) keys) ++ [0x50 + zlen keys; 0xAE].
Proof. intros F. unfold multisig_script. f_equal. f_equal. f_equal. apply map_ext_in. intros k Hk. rewrite Forall_forall in F. rewrite (F k Hk). reflexivity. Qed.
(** The three forms in which a script of this kind is read. *)
Lemma decode_multi_ok m keys sps pre push : 1 <= m <= zlen keys -> zlen keys <= 7 -> Forall (fun k => zlen k = 33) keys ->
  Forall good_sp sps -> Forall (fun sp => readable (sp_sig sp)) sps -> zlen sps = m ->
  (push = [34 * zlen keys + 3] \/ push = [0x4C; 34 * zlen keys + 3]) ->
  (let body := 0 :: concat (map enc1 sps) ++ push ++ multisig_script m keys in pre = [] \/ (zlen body < 2 ^ 16 /\ pre = 253 :: le_bytes 2 (zlen body))) ->
  decode_multi (pre ++ 0 :: concat (map enc1 sps) ++ push ++ multisig_script m keys) = Ok (zip_sp (length keys) (map (fun sp => (sp_sig sp, 1)) sps) keys).
Proof.
  intros M N F G Rd Lm Hp Hb. unfold bytes in *. cbv zeta in Hb. set (body := concat (map enc1 sps) ++ push ++ multisig_script m keys) in *. pose proof (script_len m keys F) as LS.
  assert (Q : must1 (0 :: body) (fun z rest => if negb (z =? 0) then Err else
    '(sigs, rest) <- multi_sigs (List.length rest) rest ;;
    need1 rest (fun c rest =>
    '(redeemLen, rest) <- (if c =? 0x4C then need1 rest (fun l r => Ok (l, r)) else if c =? 0x4D then need 2 rest (fun l r => Ok (le_num l, r)) else Ok (c, rest)) ;;
    need1 rest (fun q rest =>
    if negb (u8 (q + 1 - 0x51) =? zlen sigs) then Err else
    if negb (zlen rest =? redeemLen - 1) then Err else
    if negb (last (q :: rest) 0 =? 0xAE) then Err else
    if zlen rest <? 2 then Panic else
    let pubkeys := nth (List.length rest - 2) rest 0 + 1 - 0x51 in
    keys <- multi_pubs (Z.to_nat pubkeys) redeemLen 0 (firstn (List.length rest - 2) rest) rest ;;
    Ok (zip_sp (Nat.max (List.length sigs) (Z.to_nat pubkeys)) sigs keys)))) = Ok (zip_sp (length keys) (map (fun sp => (sp_sig sp, 1)) sps) keys)).
  { cbn [must1]. change (negb (0 =? 0)) with false. cbv iota. unfold body at 2.
    assert (Lb : (length sps <= length body)%nat).
    { unfold body. rewrite app_length. assert (length sps <= length (concat (map enc1 sps)))%nat; [|lia]. clear - G. induction G as [|sp sps G0 G IH]; [cbn; lia|]. cbn [map concat length]. rewrite app_length. destruct (enc1_ok sp G0) as (_ & _ & _ & L & _). unfold zlen in L. lia. }
    assert (SP : exists c b rest, push ++ multisig_script m keys = c :: b :: rest /\ b <> 48).
    { rewrite script_eq by exact F. destruct Hp as [-> | ->]; cbn [app]; eexists _, _, _; (split; [reflexivity|]); lia. }
    destruct SP as (c & b & rest & SP & Nb). rewrite SP. rewrite multi_sigs_ok by assumption. cbn [bind]. rewrite <- SP. clear c b rest SP Nb.
    set (K := concat (map (fun k : list Z => 33 :: k) keys)) in *. rewrite (script_eq m keys F). fold K.
    assert (LK : zlen K = 34 * zlen keys) by (unfold K; clear - F; induction F as [|k keys Fk F IH]; [reflexivity|]; cbn [map concat]; rewrite zlen_app, !zlen_cons, IH; lia).
    assert (T : (let redeemLen := 34 * zlen keys + 3 in let q := 80 + m in let rest := K ++ [80 + zlen keys; 174] in
      if negb (u8 (q + 1 - 0x51) =? zlen (map (fun sp => (sp_sig sp, 1)) sps)) then Err else
      if negb (zlen rest =? redeemLen - 1) then Err else
      if negb (last (q :: rest) 0 =? 0xAE) then Err else
      if zlen rest <? 2 then Panic else
      let pubkeys := nth (List.length rest - 2) rest 0 + 1 - 0x51 in
      keys <- multi_pubs (Z.to_nat pubkeys) redeemLen 0 (firstn (List.length rest - 2) rest) rest ;;
      Ok (zip_sp (Nat.max (List.length (map (fun sp => (sp_sig sp, 1)) sps)) (Z.to_nat pubkeys)) (map (fun sp => (sp_sig sp, 1)) sps) keys)) = Ok (zip_sp (length keys) (map (fun sp => (sp_sig sp, 1)) sps) keys)).
    { cbv zeta. rewrite zlen_map, Lm. rewrite u8_small by lia. replace (80 + m + 1 - 81) with m by lia. rewrite Z.eqb_refl. cbn [negb]. cbv iota. rewrite zlen_app. change (zlen [80 + zlen keys; 174]) with 2.
      replace (zlen K + 2 =? 34 * zlen keys + 3 - 1) with true by lia. cbn [negb]. cbv iota.
      assert (LA : last (80 + m :: K ++ [80 + zlen keys; 174]) 0 = 174).
      { change (80 + m :: K ++ [80 + zlen keys; 174]) with ((80 + m :: K) ++ [80 + zlen keys; 174]). replace ((80 + m :: K) ++ [80 + zlen keys; 174]) with (((80 + m :: K) ++ [80 + zlen keys]) ++ [174]) by (rewrite <- app_assoc; reflexivity). apply last_last. }
      rewrite LA. change (negb (174 =? 174)) with false. cbv iota. pose proof (zlen_nonneg K). replace (zlen K + 2 <? 2) with false by lia. rewrite app_length. cbn [length]. replace (length K + 2 - 2)%nat with (length K) by lia.
      rewrite app_nth2 by lia. rewrite Nat.sub_diag. cbn [nth]. replace (80 + zlen keys + 1 - 81) with (zlen keys) by lia. rewrite firstn_app, Nat.sub_diag, firstn_all, firstn_O, app_nil_r.
      replace (Z.to_nat (zlen keys)) with (length keys) by (unfold zlen; lia). pose proof (multi_pubs_ok keys [] (80 + zlen keys) 174 (34 * zlen keys + 3) F) as MP. change (zlen (@nil Z)) with 0 in MP. cbn [app] in MP. fold K in MP. unfold bytes in *. rewrite MP by lia. cbn [bind]. rewrite map_length.
      replace (Nat.max (length sps) (length keys)) with (length keys) by (unfold zlen in *; lia). reflexivity. }
    cbv zeta in T. destruct Hp as [-> | ->]; cbn [app need1].
    - replace (34 * zlen keys + 3 =? 76) with false by lia. replace (34 * zlen keys + 3 =? 77) with false by lia. cbn [bind need1]. exact T.
    - change (76 =? 76) with true. cbv iota. cbn [need1 bind]. exact T. }
  unfold decode_multi. destruct Hb as [-> | [Lb ->]].
  - cbn [app need1]. change (0 =? 0) with true. cbv iota. cbn [bind]. exact Q.
  - cbn [app need1]. change (253 =? 0) with false. change (253 =? 253) with true. cbv iota. rewrite need_app by apply zlen_le_bytes. rewrite le_num_small by (split; [apply zlen_nonneg|exact Lb]).
    unfold bytes in *. assert (LL : zlen (253 :: le_bytes 2 (zlen (0 :: body)) ++ 0 :: body) = zlen (0 :: body) + 3) by (rewrite (zlen_cons 253), zlen_app, zlen_le_bytes; lia).
    match goal with |- context [Z.eqb ?a ?b] => replace (Z.eqb a b) with true by (symmetry; apply Z.eqb_eq; symmetry; exact LL) end. cbn [negb bind]. exact Q.
Qed.
Lemma check_any decompress ecdsa th m : (forall k, decompress k <> []) -> th_required th = Z.of_nat m -> (1 <= m <= length (th_multi th))%nat ->
  let h := match hex_decode (th_hash th) with Ok h => h | _ => [] end in
  exists b, check_hash decompress ecdsa th = Ok b /\ (b = true <-> forall i, (i < m)%nat -> exists j, (i <= j)%nat /\ valid_at decompress ecdsa h (th_multi th) i j).
Proof.
  intros HD Em M h. unfold check_hash. fold h. rewrite Em. replace (Z.of_nat m =? 0) with false by lia. rewrite Nat2Z.id.
  destruct (scan_ok decompress ecdsa h HD (th_multi th) m 0 0 ltac:(lia)) as [c Ec]. rewrite Ec. cbn [bind]. eexists. split; [reflexivity|].
  pose proof (scan_full decompress ecdsa h HD (th_multi th) m 0 ltac:(lia)) as F. rewrite Ec in F. cbn [plus] in F. split.
  - intros E. assert (c = m) by lia. subst c. intros i Hi. apply F; [reflexivity|lia].
  - intros A. assert (Ok c = Ok m) as X by (apply F; intros k Hk; apply A; lia). injection X as ->. lia.
Qed.
(** The check of what is read back. *)
Lemma many_check decompress ecdsa th l m keys : (forall k, decompress k <> []) -> th_required th = m -> 1 <= m <= zlen keys -> m <= zlen (somes l) ->
  Forall is_bytes keys -> th_multi th = map (fun k => {| m_pub := hex_encode k; m_sigtype := 1; m_sp := no_sigpub |}) keys ->
  exists ms, set_multi (th_multi th) (zip_sp (length keys) (map (fun sp => (sp_sig sp, 1)) (firstn (Z.to_nat m) (somes l))) keys) = Ok ms /\
  check_hash decompress ecdsa {| th_hash := th_hash th; th_required := th_required th; th_normal := th_normal th; th_multi := ms |} = Ok (valid_given decompress ecdsa th (Many l)).
Proof.
  intros HD Em M Lm B Et. set (sigs := map (fun sp => (sp_sig sp, 1)) (firstn (Z.to_nat m) (somes l))). set (z := zip_sp (length keys) sigs keys).
  destruct (set_multi_ok z (th_multi th)) as (ms & E & Q); [rewrite Et; unfold z; rewrite map_length, zip_len; reflexivity|]. exists ms. split; [exact E|].
  assert (L : length ms = length keys) by (apply (f_equal (@length sigpub)) in Q; rewrite !map_length in Q; unfold z in Q; rewrite zip_len in Q; exact Q).
  assert (NT : forall i, (i < length keys)%nat -> exists e, nth_error ms i = Some e /\ sp_pub (m_sp e) = nth i keys [] /\ ((i < Z.to_nat m)%nat -> sp_sig (m_sp e) = sp_sig (nth i (somes l) no_sigpub))).
  { intros i Hi. assert (X : nth_error (map m_sp ms) i = nth_error (map fst z) i) by (rewrite Q; reflexivity). rewrite !nth_error_map in X. unfold z in X. rewrite zip_nth in X by exact Hi. cbn [option_map fst] in X.
    destruct (nth_error ms i) as [e|]; [|discriminate]. cbn [option_map] in X. exists e. split; [reflexivity|]. assert (X' : m_sp e = {| sp_sig := fst (nth i sigs ([], 0)); sp_pub := nth i keys [] |}) by congruence. rewrite X'. cbn [sp_sig sp_pub]. split; [reflexivity|].
    intros Hm. unfold sigs. rewrite (nth_indep _ ([], 0) ((fun sp => (sp_sig sp, 1)) no_sigpub)) by (rewrite map_length, firstn_length; unfold zlen in *; lia). rewrite (map_nth (fun sp => (sp_sig sp, 1))). cbn [fst]. f_equal. 
    rewrite <- (firstn_skipn (Z.to_nat m) (somes l)) at 2. rewrite app_nth1 by (rewrite firstn_length; unfold zlen in *; lia). reflexivity. }
  destruct (check_any decompress ecdsa {| th_hash := th_hash th; th_required := th_required th; th_normal := th_normal th; th_multi := ms |} (Z.to_nat m) HD) as (b & Eb & Ib); cbn [th_hash th_required th_multi] in *; [lia|unfold zlen in *; lia|].
  rewrite Eb. f_equal. unfold valid_given. rewrite Em.
  assert (KE : map (fun e => match hex_decode (m_pub e) with Ok k => k | _ => [] end) (th_multi th) = keys).
  { rewrite Et, map_map. cbn [m_pub]. clear - B. induction B as [|k keys Bk B IH]; [reflexivity|]. cbn [map]. rewrite hex_decode_encode by exact Bk. rewrite IH. reflexivity. }
  rewrite KE. apply eq_true_iff_eq. rewrite Ib, forallb_forall. split.
  - intros A i Hi. apply List.in_seq in Hi. destruct (A i ltac:(lia)) as (j & Hj & (ei & ej & E1 & E2 & V)). apply existsb_exists.
    assert (Lj : (j < length keys)%nat) by (rewrite <- L; apply nth_error_Some; congruence). destruct (NT j Lj) as (ej' & E2' & P & _). destruct (NT i ltac:(unfold zlen in *; lia)) as (ei' & E1' & _ & S). assert (ej' = ej) by congruence. assert (ei' = ei) by congruence. subst ej' ei'.
    exists (nth j keys []). split; [|rewrite <- S by lia; rewrite <- P; exact V]. replace (nth j keys []) with (nth (j - i) (skipn i keys) []); [apply nth_In; rewrite skipn_length; lia|].
    rewrite <- (firstn_skipn i keys) at 2. rewrite app_nth2 by (rewrite firstn_length; lia). f_equal. rewrite firstn_length. lia.
  - intros A i Hi. specialize (A i ltac:(apply List.in_seq; lia)). apply existsb_exists in A as (k & Hk & V). apply (In_nth _ _ []) in Hk as (d & Ld & Ed). rewrite skipn_length in Ld. exists (i + d)%nat. split; [lia|].
    assert (Ek : nth (i + d) keys [] = k) by (rewrite <- Ed; rewrite <- (firstn_skipn i keys) at 1; rewrite app_nth2 by (rewrite firstn_length; lia); f_equal; rewrite firstn_length; lia).
    destruct (NT (i + d)%nat ltac:(lia)) as (ej & E2 & P & _). destruct (NT i ltac:(unfold zlen in *; lia)) as (ei & E1 & _ & S). exists ei, ej. split; [exact E1|]. split; [exact E2|]. rewrite P, Ek, S by lia. exact V.
Qed.

(** ** Lemmas: inputs of all kinds *)
Record slot := { sl_in : spec_in; sl_u : unlock; sl_th : txhash; sl_g : given; sl_script : bytes; sl_wit : bytes; sl_seg : bool; sl_ins : txin; sl_pre : txin; sl_dec : txin }.
Definition wire_sl (s : slot) : bytes := consensus_in (with_script (sl_in s) (sl_script s)).
Definition no_multi (i : txin) : txin :=
  {| in_type := in_type i; in_txid := in_txid i; in_vout := in_vout i; in_pub := in_pub i; in_sig := in_sig i; in_seq := in_seq i; in_multi := [] |}.
Section Slots.
Variables (sha decompress : bytes -> bytes) (ecdsa : bytes -> bytes -> bytes -> bool) (sw : bool).
Hypothesis SH : forall d, is_bytes d -> is_bytes (sha d) /\ length (sha d) = 32%nat.
Hypothesis HD : forall k, decompress k <> [].
Definition compat (sg : bool) (s : slot) : Prop := (sl_seg s = true -> sg = true) /\ (sg = true -> sw = true).
Definition ok_ins (sg : bool) (s : slot) : Prop :=
  insert_one check_script sha sg sw (in_of (sl_in s)) (sl_u s) (Some (put_given (sl_th s) (sl_g s))) = Ok (Filled (sl_ins s)) /\
  in_bytes sw (sl_ins s) = Ok (wire_sl s) /\ (sg = true -> in_segwit_bytes (sl_ins s) = Ok (sl_wit s)).
Definition ok_ver (sg : bool) (s : slot) : Prop :=
  (forall rest, decode_in sg (wire_sl s ++ rest) = Ok (sl_pre s, rest)) /\
  (sg = true -> forall rest, decode_wit sw (sl_pre s) (sl_wit s ++ rest) = Ok (sl_dec s, rest)) /\ (sg = false -> sl_pre s = sl_dec s) /\
  no_multi (set_empty (sl_dec s)) = in_of (sl_in s) /\
  match fill_one (sl_dec s) (sl_th s) with Panic => Panic | Err => Ok false | Ok th' => check_hash decompress ecdsa th' end = Ok (valid_given decompress ecdsa (sl_th s) (sl_g s)).
Definition slot_ok (s : slot) : Prop :=
  unlocks_given sha sw (sl_u s) (sl_th s) (sl_g s) (sl_script s) (sl_wit s) (sl_seg s) /\
  (exists l r ty, check_script (u_lock (sl_u s)) (u_redeem (sl_u s)) = Ok (l, r, ty) /\ segwit_type ty sw = sl_seg s) /\
  is_bytes (sl_script s) /\ is_bytes (sl_wit s) /\ zlen (sl_script s) < 2 ^ 16 /\
  forall sg, compat sg s -> ok_ins sg s /\ (Forall (fun sp => readable (sp_sig sp)) (sigs_of (sl_g s)) -> (sw = true \/ script_long (sl_th s) (sl_g s)) -> ok_ver sg s).
(** A single-key input. *)
Lemma one_slot t : ok_item check_script 1 t -> good_sp (it_sp t) -> exists s, sl_in s = it_in t /\ sl_u s = it_u t /\ sl_th s = it_th t /\ sl_g s = One (it_sp t) /\ slot_ok s.
Proof.
  intros O G. exists {| sl_in := it_in t; sl_u := it_u t; sl_th := it_th t; sl_g := One (it_sp t); sl_script := it_script t; sl_wit := it_wit t; sl_seg := it_segwit t; sl_ins := ins_in t; sl_pre := pre_in t; sl_dec := dec_in t |}.
  cbn [sl_in sl_u sl_th sl_g]. repeat (split; [reflexivity|]). unfold slot_ok, compat, ok_ins, ok_ver, wire_sl. cbn [sl_in sl_u sl_th sl_g sl_script sl_wit sl_seg sl_ins sl_pre sl_dec unlocks_given].
  assert (BB : is_bytes (it_script t) /\ zlen (it_script t) <= 252 /\ is_bytes (it_wit t)).
  { apply (item_bytes check_script 1); [cbv; intuition congruence| |exact O|apply G]. intros lk rd l0 r0 ty K. apply check_script_iff in K as (_ & Er & _). apply (proj1 (hex_decode_bytes _ _ Er)). }
  destruct BB as (B1 & B2 & B3). split; [apply item_unlocks; exact O|]. split.
  { destruct O as (_ & C & Ty & _). eexists _, _, _. split; [exact C|]. unfold it_segwit, segwit_type. destruct Ty as [T|[T|T]]; rewrite T; reflexivity. }
  split; [exact B1|]. split; [exact B3|]. split; [lia|]. intros sg [C1 C2].
  assert (W : sg = true \/ it_segwit t = false) by (destruct (it_segwit t); auto). assert (W2 : sw = true \/ it_segwit t = false) by (destruct W as [W|W]; auto).
  split.
  - split; [|split; [apply (in_bytes_it check_script 1); exact O|intros _; apply (wit_bytes_it check_script 1); exact O]].
    pose proof (insert_items check_script 1 sha sg sw [t] (Forall_cons _ O (Forall_nil _))) as I. unfold segwit_of_items in I. cbn [existsb] in I. rewrite orb_false_r in I. specialize (I W2).
    unfold sign_all in I. cbn [map combine fst snd insert_loop_v hd_error tl] in I. cbn [put_given]. destruct (insert_one _ _ _ _ _ _ _) as [[i|]| |]; cbn [bind] in I; try discriminate. cbn [option_map] in I. congruence.
  - intros Rd _. apply Forall_cons_iff in Rd as [Rd _]. split; [intros rest; apply (decode_in_it check_script 1); assumption|]. split; [intros _ rest; apply (decode_wit_it check_script 1); exact O|].
    split; [intros ->; destruct W as [W|W]; [discriminate|]; unfold it_segwit in W; unfold pre_in, dec_in; destruct (it_ty t =? TypeP2PKH); [reflexivity|discriminate]|]. split; [reflexivity|].
    pose proof (fill_items check_script 1 decompress ecdsa [t] HD (Forall_cons _ O (Forall_nil _))) as F. cbn [map fill_all] in F.
    rewrite readable_checked_as_given in F by (constructor; [assumption|constructor]). unfold all_valid in F. cbn [combine forallb fst snd] in F. rewrite andb_true_r in F. unfold valid_given.
    destruct (fill_one (dec_in t) (it_th t)) as [th'| |]; cbn [bind] in F |- *; [|exact F|exact F]. cbn [check_all] in F. destruct (check_hash decompress ecdsa th') as [[|]| |]; cbn [bind] in F; try discriminate; exact F.
Qed.
(** A multi-signature input. *)
Lemma compact16 n : 0 <= n < 2 ^ 16 -> compact_size n = if n <? 253 then [n] else 253 :: le_bytes 2 n.
Proof. intros L. unfold compact_size. destruct (n <? 253); [reflexivity|]. replace (n <? 2 ^ 16) with true by lia. reflexivity. Qed.
Lemma last_two (a : Z) l b c : last (a :: l ++ [b; c]) 0 = c.
Proof. replace (a :: l ++ [b; c]) with ((a :: l ++ [b]) ++ [c]) by (cbn [app]; rewrite <- app_assoc; reflexivity). apply last_last. Qed.
Lemma concat_len sps : Forall good_sp sps -> 10 * zlen sps <= zlen (concat (map enc1 sps)) <= 74 * zlen sps.
Proof. induction 1 as [|sp sps G0 G IH]; [reflexivity || (cbn; lia)|]. cbn [map concat]. rewrite zlen_app, zlen_cons. destruct (enc1_ok sp G0) as (_ & _ & _ & L & _). lia. Qed.
Lemma many_slot i u th l lock m keys hash : zlen (s_txid i) = 32 -> check_script (u_lock u) (u_redeem u) = Ok (lock, multisig_script m keys, TypeMultiSig) ->
  1 <= m <= zlen keys -> zlen keys <= 7 -> Forall (fun k => zlen k = 33) keys -> Forall is_bytes keys ->
  th = {| th_hash := hash; th_required := m; th_normal := None; th_multi := map (fun k => {| m_pub := hex_encode k; m_sigtype := 1; m_sp := no_sigpub |}) keys |} ->
  m <= zlen (somes l) -> length l = length keys -> Forall good_sp (somes l) ->
  exists s, sl_in s = i /\ sl_u s = u /\ sl_th s = th /\ sl_g s = Many l /\ slot_ok s.
Proof.
  intros Lx C M N7 F33 Bk Et Lm Ll G. set (redeem := multisig_script m keys) in *. set (used := firstn (Z.to_nat m) (somes l)).
  assert (LR : zlen redeem = 34 * zlen keys + 3) by (apply script_len; exact F33).
  assert (BR : is_bytes redeem) by (apply multisig_script_bytes; [lia|lia|eapply Forall_impl; [|exact F33]; intros k Hk; cbv beta in *; lia|exact Bk]).
  assert (Gu : Forall good_sp used) by (unfold used; clear - G; revert G; generalize (somes l) (Z.to_nat m); intros x n; revert n; induction x as [|a x IH]; intros [|n] G; cbn [firstn]; try constructor; apply Forall_cons_iff in G as [G0 G]; auto).
  assert (Lu : zlen used = m) by (unfold used, zlen in *; rewrite firstn_length; lia). pose proof (concat_len used Gu) as CL. rewrite Lu in CL.
  destruct (SH redeem BR) as [BS LS].
  set (push := if sw then [zlen redeem] else if zlen redeem <? 0x4C then [zlen redeem] else [0x4C; zlen redeem]).
  set (body := 0 :: concat (map enc1 used) ++ push ++ redeem).
  assert (LP : 1 <= zlen push <= 2) by (unfold push; destruct sw; [|destruct (_ <? 76)]; unfold zlen; cbn [length]; lia).
  assert (LB : zlen body = 1 + zlen (concat (map enc1 used)) + zlen push + zlen redeem) by (unfold body; rewrite zlen_cons, !zlen_app; lia).
  assert (B16 : 0 <= zlen body < 2 ^ 16) by lia.
  assert (Bb : is_bytes body).
  { unfold body. rewrite is_bytes_cons, !is_bytes_app. split; [unfold is_byte; lia|]. split; [|split; [|exact BR]].
    - apply is_bytes_concat. rewrite Forall_forall in *. intros x Hx. apply in_map_iff in Hx as (sp & <- & Hs). apply enc1_ok. apply Gu. exact Hs.
    - unfold push. destruct sw; [|destruct (_ <? 76)]; repeat constructor; unfold is_byte; lia. }
  set (multi_field := if sw then body else compact_size (zlen body) ++ body).
  assert (TS : th_script (put_given th (Many l)) redeem sw = Ok multi_field).
  { unfold th_script. rewrite Et. cbn [put_given th_required th_multi]. replace (m =? 0) with false by lia. rewrite count_ok by (try exact G; rewrite map_length; symmetry; exact Ll). cbn [bind].
    assert (LC : zlen (somes l) <= zlen keys). { unfold zlen. rewrite <- Ll. clear. assert (length (somes l) <= length l)%nat; [|lia]. induction l as [|[x|] l IH]; cbn [somes flat_map app length] in *; unfold somes in *; lia. }
    rewrite u8_small by (pose proof (zlen_nonneg (somes l)); lia). replace (zlen (somes l) <? m) with false by lia. replace (zlen redeem =? 0) with false by lia.
    assert (PR : push_redeem redeem sw = Ok (push ++ redeem)).
    { unfold push_redeem, push. rewrite u8_small by lia. destruct sw; [reflexivity|]. destruct (zlen redeem <? 76); [reflexivity|]. replace (zlen redeem <=? 255) with true by lia. reflexivity. }
    rewrite PR. cbn [bind]. replace (Z.to_nat m) with (S (Z.to_nat m - 1)) by lia. rewrite sig_scripts_ok; [|rewrite map_length; symmetry; exact Ll|apply Forall_forall; intros e He; apply in_map_iff in He as (k & <- & _); reflexivity|exact G].
    cbn [bind]. cbv zeta. replace (S (Z.to_nat m - 1)) with (Z.to_nat m) by lia. fold used. fold body. unfold multi_field. destruct sw; [reflexivity|]. rewrite compact16 by exact B16. destruct (zlen body <? 253) eqn:X; [rewrite u8_small by lia; reflexivity|reflexivity]. }
  set (script := if sw then 34 :: 0 :: 32 :: sha redeem else body).
  set (wit := if sw then 4 :: body else [0]).
  set (pub := if sw then [35; 34; 0; 32] ++ sha redeem else []).
  set (pre := filled (in_of i) TypeMultiSig pub [] (if sw then [] else if zlen body <? 253 then body else 253 :: le_bytes 2 (zlen body) ++ body)).
  set (dec := filled (in_of i) TypeMultiSig pub [] (if sw then body else if zlen body <? 253 then body else 253 :: le_bytes 2 (zlen body) ++ body)).
  exists {| sl_in := i; sl_u := u; sl_th := th; sl_g := Many l; sl_script := script; sl_wit := wit; sl_seg := sw; sl_ins := filled (in_of i) TypeMultiSig pub [] multi_field; sl_pre := pre; sl_dec := dec |}.
  cbn [sl_in sl_u sl_th sl_g]. repeat (split; [reflexivity|]). unfold slot_ok, compat, ok_ins, ok_ver, wire_sl. cbn [sl_in sl_u sl_th sl_g sl_script sl_wit sl_seg sl_ins sl_pre sl_dec unlocks_given].
  assert (ZS : zlen (sha redeem) = 32) by (unfold zlen; lia).
  assert (LSc : zlen (34 :: 0 :: 32 :: sha redeem) = 35) by (unfold zlen in *; cbn [length]; lia).
  split; [|split; [|split; [|split; [|split]]]].
  - pose proof (proj1 (check_script_iff _ _ _ _ _) C) as (_ & Er & _). exists redeem, (map enc1 used). split; [exact Er|]. replace (th_required th) with m by (rewrite Et; reflexivity). fold used. split.
    + clear - Gu. induction Gu as [|sp x G0 G IH]; constructor; [|exact IH]. apply (enc1_ok sp G0).
    + split; [reflexivity|]. unfold script, wit, body, push. destruct sw; [split; reflexivity|]. rewrite ?app_nil_r. reflexivity.
  - eexists _, _, _. split; [exact C|]. unfold segwit_type. cbn. reflexivity.
  - unfold script. destruct sw; [|exact Bb]. rewrite !is_bytes_cons. unfold is_byte. repeat split; try lia. exact BS.
  - unfold wit. destruct sw; rewrite ?is_bytes_cons; unfold is_byte; repeat split; try lia; try exact Bb. constructor.
  - unfold script. destruct sw; lia.
  - intros sg [C1 C2]. assert (sg = sw) by (destruct sg, sw; intuition congruence). subst sg. clear C1 C2. split.
    + split; [|split].
      * unfold insert_one. rewrite C. cbv zeta. change (TypeMultiSig =? TypeP2PKH) with false. change (TypeMultiSig =? TypeP2WPKH) with false. change (TypeMultiSig =? TypeBech32) with false. cbv iota. fold redeem. rewrite TS. cbn [bind]. unfold pub. reflexivity.
      * unfold in_bytes, filled, consensus_in, with_script. cbn [in_type in_txid in_vout in_pub in_sig in_seq in_multi in_of s_txid s_vout s_script s_seq]. rewrite Lx, !zlen_le_bytes.
        change (negb (32 =? 32)) with false. change (negb (Z.of_nat 4 =? 4)) with false. change (TypeMultiSig =? TypeEmpty) with false. change (TypeMultiSig =? TypeP2PKH) with false. change (TypeMultiSig =? TypeP2WPKH) with false. change (TypeMultiSig =? TypeBech32) with false. change (TypeMultiSig =? TypeMultiSig) with true. cbv iota. cbn [bind].
        unfold pub, script, multi_field. destruct sw; [rewrite compact_small by lia; rewrite LSc; reflexivity|]. rewrite <- !app_assoc. reflexivity.
      * intros W. unfold in_segwit_bytes, filled, multi_field, wit. cbn [in_type in_multi]. rewrite W. reflexivity.
    + cbn [sigs_of]. intros Rd SL.
      assert (LL : sw = true \/ 108 < zlen body).
      { destruct sw; [auto|right]. destruct SL as [SL|SL]; [discriminate|]. cbn [script_long] in SL. rewrite Et in SL. cbn [th_multi] in SL. rewrite zlen_map in SL. destruct SL as [SL|SL]; [lia|].
        assert (Q : 70 * zlen used <= zlen (concat (map enc1 used))).
        { assert (SU : Forall (fun sp => 2 ^ 240 <= r_of (sp_sig sp) /\ 2 ^ 240 <= s_of (sp_sig sp)) used) by (unfold used; clear - SL; revert SL; generalize (somes l) (Z.to_nat m); intros x n; revert n; induction x as [|a x IH]; intros [|n] G; cbn [firstn]; try constructor; apply Forall_cons_iff in G as [G0 G]; auto).
          clear - Gu SU. induction Gu as [|sp x G0 G IH]; [cbn; lia|]. apply Forall_cons_iff in SU as [S0 SU]. specialize (IH SU). cbn [map concat]. rewrite zlen_app, zlen_cons. destruct (enc1_ok sp G0) as (_ & _ & _ & _ & _ & Q). specialize (Q S0). lia. }
        rewrite Lu in Q. lia. }
      assert (Ru : Forall (fun sp => readable (sp_sig sp)) used) by (unfold used; clear - Rd; revert Rd; generalize (somes l) (Z.to_nat m); intros x n; revert n; induction x as [|a x IH]; intros [|n] G; cbn [firstn]; try constructor; apply Forall_cons_iff in G as [G0 G]; auto).
      split; [|split; [|split; [|split]]].
      * intros rest. unfold decode_in, consensus_in, with_script, pre, filled. cbn [in_type in_txid in_vout in_pub in_sig in_seq in_multi in_of s_txid s_vout s_script s_seq]. rewrite <- !app_assoc.
        rewrite need_app by exact Lx. rewrite need_app by apply zlen_le_bytes. unfold script, pub. destruct sw.
        -- rewrite LSc. change (compact_size 35) with [35]. cbn [app need1]. change (35 =? 0) with false. change (35 =? 23) with false. change (35 =? 35) with true. cbn [negb]. cbv iota.
           change (34 :: 0 :: 32 :: sha redeem ++ le_bytes 4 (s_seq i) ++ rest) with ((34 :: 0 :: 32 :: sha redeem) ++ le_bytes 4 (s_seq i) ++ rest). rewrite need_app by exact LSc. rewrite must_app by apply zlen_le_bytes. reflexivity.
        -- destruct LL as [LL|LL]; [discriminate|]. rewrite compact16 by exact B16. destruct (zlen body <? 253) eqn:X.
           ++ cbn [app need1]. replace (zlen body =? 0) with false by lia. replace (zlen body =? 23) with false by lia. replace (zlen body =? 35) with false by lia. replace (zlen body <=? 108) with false by lia. replace (zlen body =? 253) with false by lia. replace (253 <? zlen body) with false by lia.
              rewrite need_app by reflexivity. rewrite must_app by apply zlen_le_bytes. reflexivity.
           ++ cbn [app need1]. change (253 =? 0) with false. change (253 =? 23) with false. change (253 =? 35) with false. change (253 <=? 108) with false. change (253 =? 253) with true. cbv iota.
              assert (F2 : firstn 2 (le_bytes 2 (zlen body) ++ body ++ le_bytes 4 (s_seq i) ++ rest) = le_bytes 2 (zlen body)) by (rewrite firstn_app, le_bytes_length, Nat.sub_diag, firstn_O, app_nil_r; apply firstn_all2; rewrite le_bytes_length; lia).
              rewrite F2. rewrite le_num_small by (split; [apply zlen_nonneg|apply B16]). rewrite !zlen_app, !zlen_le_bytes. pose proof (zlen_nonneg rest). replace (_ <? 2) with false by lia. replace (_ <? zlen body) with false by lia.
              rewrite app_assoc. rewrite must_app by (rewrite zlen_app, zlen_le_bytes; lia). rewrite must_app by apply zlen_le_bytes. reflexivity.
      * intros W rest. unfold wit, pre, dec, decode_wit, with_multi, filled. cbn [in_type in_txid in_vout in_pub in_sig in_seq in_multi]. rewrite W in *. cbn [app need1].
        change (TypeMultiSig =? TypeP2PKH) with false. change (TypeMultiSig =? TypeP2WPKH) with false. change (TypeMultiSig =? TypeBech32) with false. change (TypeMultiSig =? TypeMultiSig) with true. cbn [orb negb]. cbv iota. change (negb (4 =? 4)) with false. cbv iota.
        unfold body, push. rewrite W. cbn [app must1]. change (negb (0 =? 0)) with false. cbv iota.
        assert (SP : exists c b t, zlen redeem :: redeem ++ rest = c :: b :: t /\ b <> 48) by (unfold redeem; rewrite script_eq by exact F33; cbn [app]; eexists _, _, _; split; [reflexivity|lia]).
        destruct SP as (c & b & t & SP & Nb). rewrite <- !app_assoc. cbn [app]. rewrite SP. rewrite wit_sigs_ok; [|exact Gu| |exact Nb]. 2: { rewrite app_length. pose proof (concat_len used Gu). unfold zlen in *. lia. }
        cbn [bind]. rewrite <- SP. cbn [app need1]. replace (zlen redeem =? 0) with false by lia. rewrite need_app by reflexivity.
        assert (LA : last redeem 0 = 174) by apply last_two.
        rewrite LA. change (negb (174 =? 174)) with false. cbv iota. reflexivity.
      * intros W. unfold pre, dec. rewrite W. reflexivity.
      * reflexivity.
      * unfold fill_one, dec, filled. cbn [in_type in_multi]. change (TypeMultiSig =? TypeP2PKH) with false. change (TypeMultiSig =? TypeP2WPKH) with false. change (TypeMultiSig =? TypeBech32) with false. change (TypeMultiSig =? TypeMultiSig) with true. cbn [orb]. cbv iota.
        assert (DM : decode_multi (if sw then body else if zlen body <? 253 then body else 253 :: le_bytes 2 (zlen body) ++ body) = Ok (zip_sp (length keys) (map (fun sp => (sp_sig sp, 1)) used) keys)).
        { assert (HP : push = [34 * zlen keys + 3] \/ push = [76; 34 * zlen keys + 3]) by (unfold push; rewrite LR; case sw; [left; reflexivity|]; case (34 * zlen keys + 3 <? 76); [left|right]; reflexivity).
          pose proof (decode_multi_ok m keys used [] push M N7 F33 Gu Ru Lu HP) as D0. cbv zeta in D0. specialize (D0 (or_introl eq_refl)). cbn [app] in D0. fold redeem in D0. fold body in D0.
          pose proof (decode_multi_ok m keys used (253 :: le_bytes 2 (zlen body)) push M N7 F33 Gu Ru Lu HP) as D1. cbv zeta in D1. fold redeem in D1. fold body in D1. specialize (D1 (or_intror (conj (proj2 B16) eq_refl))). cbn [app] in D1.
          destruct sw; [exact D0|]. destruct (zlen body <? 253); [exact D0|exact D1]. }
        rewrite DM. cbn [bind]. destruct (many_check decompress ecdsa th l m keys HD ltac:(rewrite Et; reflexivity) M Lm Bk ltac:(rewrite Et; reflexivity)) as (ms & E1 & E2). fold used in E1. rewrite E1. cbn [bind]. exact E2.
Qed.
Lemma slots_of H ap ins outs lt : Forall (fun s => zlen (s_txid s) = 32) ins -> forall us hs k, pointwise (hash_for H ap sw ins outs lt) k us hs ->
  forall gs, Forall2 given_ok hs gs -> Forall standard us -> (k + length us = length ins)%nat ->
  exists ss, map sl_in ss = skipn k ins /\ map sl_u ss = us /\ map sl_th ss = hs /\ map sl_g ss = gs /\ Forall slot_ok ss.
Proof.
  intros F us hs k P. induction P as [k|k u th us hs Hu P IH]; intros gs G St N.
  - inversion G; subst. exists []. cbn [map]. rewrite skipn_all2 by (cbn in N; lia). repeat split; constructor.
  - inversion G as [|? g ? gs' G0 G' E1 E2]; subst. apply Forall_cons_iff in St as [S0 St]. cbn [length] in N.
    destruct (IH gs' G' St ltac:(lia)) as (ss & E1 & E2 & E3 & E4 & OK). clear IH.
    assert (W : exists s, nth_error ins k = Some (sl_in s) /\ sl_u s = u /\ sl_th s = th /\ sl_g s = g /\ slot_ok s).
    { destruct Hu as (S1 & lock & redeem & i & El & Er & En & C). assert (Lx : zlen (s_txid i) = 32) by (rewrite Forall_forall in F; apply F; eapply nth_error_In; exact En).
      destruct g as [sp|l]; cbn [given_ok] in G0.
      - destruct G0 as [R0 G0]. destruct (pushes_of 1 sp ltac:(cbv; intuition congruence) G0) as (e & Q1 & Q2 & Q3 & Q4 & Q5). pose proof G0 as (B & Ls & _ & _ & _ & Lp).
        assert (W : exists ty, check_script (u_lock u) (u_redeem u) = Ok (lock, redeem, ty) /\ (ty = TypeP2PKH \/ ty = TypeP2WPKH \/ ty = TypeBech32) /\ (ty = TypeP2WPKH -> zlen redeem = 22) /\
          exists h a, th = {| th_hash := h; th_required := 0; th_normal := Some {| n_addr := a; n_sigtype := 1; n_sp := no_sigpub |}; th_multi := [] |}).
        { destruct C as [(h & a & Lh & El' & Er' & Ea & Et)|[(s & h & a & Lss & Lh & El' & Er' & A & Ea & Et)|[(h & a & Lh & El' & Er' & A & Ea & Et)|(s & m & ks & Lss & El' & Z1 & Z2 & (Em & _) & C)]]].
          - exists TypeP2PKH. split; [apply check_script_iff; split; auto; split; auto; left; eauto 10|]. split; [auto|]. split; [discriminate|]. eexists _, _. exact Et.
          - exists TypeP2WPKH. split; [apply check_script_iff; split; auto; split; auto; right; left; eauto 10|]. split; [auto|]. split; [intros _; rewrite Er'; apply wpkh_len; exact Lh|]. eexists _, _. exact Et.
          - exists TypeBech32. split; [apply check_script_iff; split; auto; split; auto; right; right; left; eauto 10|]. split; [auto|]. split; [discriminate|]. eexists _, _. exact Et.
          - exfalso. destruct C as [[_ Et]|(_ & _ & Et)]; rewrite Et in R0; cbn in R0; lia. }
        destruct W as (ty & W1 & W2 & W3 & W4).
        destruct (one_slot {| it_in := i; it_u := u; it_th := th; it_sp := sp; it_ty := ty; it_lock := lock; it_redeem := redeem; it_e := e |}) as (s & A1 & A2 & A3 & A4 & A5).
        + unfold ok_item. cbn [it_in it_u it_th it_sp it_ty it_lock it_redeem it_e]. split; [exact Lx|]. split; [exact W1|]. split; [exact W2|]. split; [exact W3|]. split; [exact W4|].
          split; [unfold zlen; lia|]. split; [unfold zlen; lia|]. split; [exact Q1|]. split; [exact Q2|]. split; [exact Q3|]. split; [exact Q4|exact Q5].
        + exact G0.
        + cbn [it_in it_u it_th it_sp] in *. exists s. rewrite A1. repeat (split; [assumption|]). exact A5.
      - destruct G0 as (M0 & Ll & G0).
        destruct C as [(h & a & _ & _ & _ & _ & Et)|[(s & h & a & _ & _ & _ & _ & _ & _ & Et)|[(h & a & _ & _ & _ & _ & _ & Et)|(s & m & ks & Lss & El' & Z1 & Z2 & MF & C)]]];
          try (exfalso; rewrite Et in M0; cbn in M0; lia).
        destruct (S0 redeem Er) as [L252 SD]. destruct (SD Z2) as (m' & ks' & M1 & N16 & F33 & ER). pose proof (proj1 (hex_decode_bytes _ _ Er)) as BR.
        assert (UQ : m = m' /\ ks = ks').
        { assert (MF' : multisig_form m' ks' redeem).
          { unfold multisig_form. pose proof (zlen_nonneg ks'). unfold bytes in *. rewrite !Z.mod_small by lia. repeat (split; [assumption || lia|]). exists [174]. rewrite ER. apply script_eq. exact F33. }
          apply multi_details_iff in MF; [|exact BR]. apply multi_details_iff in MF'; [|exact BR]. split; congruence. }
        destruct UQ as [<- <-]. assert (ET : exists hash, th = {| th_hash := hash; th_required := m; th_normal := None; th_multi := map (fun k => {| m_pub := hex_encode k; m_sigtype := 1; m_sp := no_sigpub |}) ks |}).
        { destruct C as [[_ Et]|(_ & _ & Et)]; eexists; exact Et. }
        destruct ET as [hash Et]. rewrite Et in M0, Ll. cbn [th_required th_multi] in M0, Ll. rewrite map_length in Ll.
        assert (CS : check_script (u_lock u) (u_redeem u) = Ok (lock, multisig_script m ks, TypeMultiSig)) by (rewrite <- ER; apply check_script_iff; split; auto; split; auto; right; right; right; eauto 10).
        assert (Bk : Forall is_bytes ks).
        { rewrite ER in BR. rewrite script_eq in BR by exact F33. apply is_bytes_cons in BR as [_ BR]. apply is_bytes_app in BR as [BR _]. apply concat_is_bytes in BR. clear - BR. induction ks as [|k ks IH]; [constructor|]. cbn [map] in BR. apply Forall_cons_iff in BR as [B0 BR]. apply is_bytes_cons in B0 as [_ B0]. constructor; auto. }
        assert (N7 : zlen ks <= 7) by (rewrite ER, script_len in L252 by exact F33; unfold bytes in *; lia).
        destruct (many_slot i u th l lock m ks hash) as (sl & A1 & A2 & A3 & A4 & A5); try assumption; [lia|].
        exists sl. rewrite A1. repeat (split; [assumption|]). exact A5. }
    destruct W as (s & En & A2 & A3 & A4 & A5). exists (s :: ss). cbn [map].
    split; [|split; [congruence|split; [congruence|split; [congruence|constructor; assumption]]]].
    rewrite E1. clear - En. revert ins En. induction k as [|k IH]; intros [|j ins] En; try discriminate; cbn [nth_error] in En.
    + injection En as ->. reflexivity.
    + cbn [skipn]. destruct ins; [destruct k; discriminate|]. exact (IH _ En).
Qed.
Definition segwit_of_slots (ss : list slot) : bool := existsb sl_seg ss.
Lemma is_segwit_slots ss : Forall slot_ok ss -> is_segwit_v check_script (map sl_u ss) sw = Ok (segwit_of_slots ss).
Proof.
  induction 1 as [|s ss O F IH]; [reflexivity|]. cbn [map is_segwit_v]. destruct O as (_ & (l & r & ty & C & T) & _). rewrite C. cbn [bind]. unfold segwit_of_slots. cbn [existsb]. fold (segwit_of_slots ss). rewrite T. destruct (sl_seg s); [reflexivity|exact IH].
Qed.
Lemma all_compat ss : segwit_of_slots ss && negb sw = false -> Forall (compat (segwit_of_slots ss)) ss.
Proof.
  intros E. apply Forall_forall. intros s Hs. split; [intros Q; apply existsb_exists; eauto|]. intros Q. rewrite Q in E. destruct sw; [reflexivity|discriminate].
Qed.
Lemma insert_slots sg ss : Forall slot_ok ss -> Forall (compat sg) ss ->
  insert_loop_v check_script sha sg sw (map in_of (map sl_in ss)) (map sl_u ss) (map (fun p => put_given (fst p) (snd p)) (combine (map sl_th ss) (map sl_g ss))) = Ok (Some (map sl_ins ss)).
Proof.
  induction 1 as [|s ss O F IH]; intros C; [reflexivity|]. apply Forall_cons_iff in C as [C0 C]. destruct O as (_ & _ & _ & _ & _ & O). destruct (O sg C0) as [(I & _) _].
  cbn [map combine insert_loop_v fst snd hd_error tl]. rewrite I. cbn [bind]. rewrite IH by exact C. reflexivity.
Qed.
Lemma tx_bytes_slots sg ss outs lt : Forall slot_ok ss -> Forall (compat sg) ss -> 1 <= zlen ss <= 252 -> 1 <= zlen outs <= 252 -> Forall (fun s => 1 <= zlen (s_lock s) <= 252) outs ->
  tx_bytes sw {| tx_version := le_bytes 4 2; tx_vins := map sl_ins ss; tx_vouts := map out_of outs; tx_locktime := le_bytes 4 lt; tx_witness := sg |} =
  Ok (signed_bytes sg 2 (map (fun s => with_script (sl_in s) (sl_script s)) ss) outs (map sl_wit ss) lt).
Proof.
  intros F C Ni No Fo. unfold tx_bytes. cbn [tx_version tx_vins tx_vouts tx_locktime tx_witness]. rewrite !zlen_map, !zlen_le_bytes.
  replace (zlen ss =? 0) with false by lia. replace (zlen outs =? 0) with false by lia. change (negb (Z.of_nat 4 =? 4)) with false. cbv iota.
  assert (M1 : mapr (in_bytes sw) (map sl_ins ss) = Ok (map wire_sl ss)).
  { clear - F C. induction F as [|t ss O F IH]; [reflexivity|]. apply Forall_cons_iff in C as [C0 C]. destruct O as (_ & _ & _ & _ & _ & O). destruct (O sg C0) as [(_ & I & _) _]. cbn [map mapr]. rewrite I. cbn [bind]. rewrite IH by exact C. reflexivity. }
  assert (M2 : mapr out_bytes (map out_of outs) = Ok (map consensus_out outs)).
  { clear - Fo. induction Fo as [|o outs O F IH]; [reflexivity|]. cbn [map mapr]. unfold out_bytes at 1. cbn [out_of out_amount out_lock]. rewrite zlen_le_bytes. change (negb (Z.of_nat 8 =? 8)) with false. replace (zlen (s_lock o) =? 0) with false by lia. cbn [bind]. rewrite IH. cbn [bind].
    unfold consensus_out at 2. rewrite compact_small by lia. rewrite u8_small by lia. reflexivity. }
  assert (M3 : sg = true -> mapr in_segwit_bytes (map sl_ins ss) = Ok (map sl_wit ss)).
  { intros W. clear - F C W. induction F as [|t ss O F IH]; [reflexivity|]. apply Forall_cons_iff in C as [C0 C]. destruct O as (_ & _ & _ & _ & _ & O). destruct (O sg C0) as [(_ & _ & I) _]. cbn [map mapr]. rewrite (I W). cbn [bind]. rewrite IH by exact C. reflexivity. }
  rewrite M1, M2. cbn [bind]. unfold signed_bytes. rewrite zlen_map, !compact_small by lia. rewrite !u8_small by lia. rewrite map_map.
  change (map (fun x => consensus_in (with_script (sl_in x) (sl_script x))) ss) with (map wire_sl ss).
  destruct sg; [rewrite M3 by reflexivity|]; cbn [bind concat app]; reflexivity.
Qed.
Lemma slots_bytes sg ss outs lt : Forall slot_ok ss -> 1 <= zlen ss <= 252 -> 1 <= zlen outs <= 252 -> Forall (fun s => 1 <= zlen (s_lock s) <= 252) outs ->
  is_bytes (wire_spec_tx 2 (map sl_in ss) outs lt) -> is_bytes (signed_bytes sg 2 (map (fun s => with_script (sl_in s) (sl_script s)) ss) outs (map sl_wit ss) lt).
Proof.
  intros F Ni No Fo BB. unfold wire_spec_tx in BB. apply is_bytes_app in BB as [B1 BB]. apply is_bytes_cons in BB as [_ BB]. apply is_bytes_app in BB as [B2 BB]. apply is_bytes_cons in BB as [_ BB]. apply is_bytes_app in BB as [B3 B4].
  unfold signed_bytes. rewrite !zlen_map. rewrite !is_bytes_app. apply concat_is_bytes in B2. apply concat_is_bytes in B3.
  split; [apply le_bytes_is_bytes|]. split; [destruct sg; repeat constructor; unfold is_byte; lia|]. split; [apply compact_bytes; lia|].
  split; [|split; [apply compact_bytes; lia|split; [|split; [|apply le_bytes_is_bytes]]]].
  - apply is_bytes_concat. rewrite map_map. rewrite Forall_forall in *. intros x Hx. apply in_map_iff in Hx as (t & <- & It). destruct (F t It) as (_ & _ & Bs & _ & Ls & _).
    assert (B : is_bytes (wire_spec_in (sl_in t))) by (apply B2; rewrite map_map; apply in_map_iff; exists t; auto). unfold wire_spec_in in B. apply is_bytes_app in B as [B _].
    unfold consensus_in, with_script. cbn [s_txid s_vout s_script s_seq]. rewrite !is_bytes_app. pose proof (zlen_nonneg (sl_script t)).
    repeat split; try assumption; try apply le_bytes_is_bytes. rewrite compact16 by lia. destruct (_ <? 253) eqn:X; [constructor; [unfold is_byte; lia|constructor]|]. apply is_bytes_cons. split; [unfold is_byte; lia|apply le_bytes_is_bytes].
  - apply is_bytes_concat. rewrite Forall_forall in *. intros x Hx. apply in_map_iff in Hx as (o & <- & Io).
    assert (B : is_bytes (wire_spec_out o)) by (apply B3; apply in_map; exact Io). unfold wire_spec_out in B. apply is_bytes_app in B as [_ B]. apply is_bytes_cons in B as [_ B]. pose proof (Fo o Io).
    unfold consensus_out. rewrite !is_bytes_app. repeat split; try assumption; try apply le_bytes_is_bytes. apply compact_bytes. lia.
  - destruct sg; [|constructor]. apply is_bytes_concat. rewrite Forall_forall in *. intros x Hx. apply in_map_iff in Hx as (t & <- & It). apply (F t It).
Qed.
Lemma decode_slots sg ss outs lt : Forall (ok_ver sg) ss -> 1 <= zlen ss <= 252 -> 1 <= zlen outs <= 252 -> Forall (fun s => 1 <= zlen (s_lock s) <= 252) outs ->
  decode_tx (signed_bytes sg 2 (map (fun s => with_script (sl_in s) (sl_script s)) ss) outs (map sl_wit ss) lt) sw =
  Ok {| tx_version := le_bytes 4 2; tx_vins := map sl_dec ss; tx_vouts := map out_of outs; tx_locktime := le_bytes 4 lt; tx_witness := sg |}.
Proof.
  intros F Ni No Fo. unfold signed_bytes. rewrite zlen_map, !compact_small by lia. rewrite map_map. change (map (fun x => consensus_in (with_script (sl_in x) (sl_script x))) ss) with (map wire_sl ss).
  assert (RO : forall rest, readn (Z.to_nat (zlen outs)) decode_out (concat (map consensus_out outs) ++ rest) = Ok (map out_of outs, rest)).
  { intros rest. unfold zlen. rewrite Nat2Z.id. clear - Fo. revert rest. induction Fo as [|o outs O F IH]; intros rest; [reflexivity|]. cbn [map concat length readn]. rewrite <- app_assoc.
    assert (Q : forall r, decode_out (consensus_out o ++ r) = Ok (out_of o, r)).
    { intros r. unfold decode_out, consensus_out. rewrite <- !app_assoc. rewrite need_app by apply zlen_le_bytes. rewrite compact_small by lia. cbn [app need1]. replace (zlen (s_lock o) =? 0) with false by lia. rewrite need_app by reflexivity. reflexivity. }
    rewrite Q. cbn [bind]. rewrite IH. reflexivity. }
  assert (RI : forall rest, readn (Z.to_nat (zlen ss)) (decode_in sg) (concat (map wire_sl ss) ++ rest) = Ok (map sl_pre ss, rest)).
  { intros rest. unfold zlen. rewrite Nat2Z.id. clear - F. revert rest. induction F as [|s ss O F IH]; intros rest; [reflexivity|]. cbn [map concat length readn]. rewrite <- app_assoc. destruct O as (D & _). rewrite D. cbn [bind]. rewrite IH. reflexivity. }
  unfold decode_tx, decode_v. rewrite need_app by apply zlen_le_bytes. rewrite le_num_small by (cbv; intuition congruence). rewrite Z.eqb_refl. cbn [negb]. cbv iota.
  destruct sg eqn:SG.
  - assert (RW : forall rest, decode_wits sw (map sl_pre ss) (concat (map sl_wit ss) ++ rest) = Ok (map sl_dec ss, rest)).
    { clear - F. induction F as [|s ss O F IH]; intros rest; [reflexivity|]. cbn [map concat decode_wits]. rewrite <- app_assoc. destruct O as (_ & D & _). rewrite (D eq_refl). cbn [bind]. rewrite IH. reflexivity. }
    cbn [app]. replace (zlen _ <? 2) with false by (rewrite !zlen_cons; symmetry; apply Z.ltb_ge; match goal with |- context [zlen ?x] => pose proof (zlen_nonneg x) end; lia).
    change (negb (1 =? 1)) with false. cbn [bind need1]. replace (zlen ss =? 0) with false by lia.
    rewrite RI. cbn [bind need1]. replace (zlen outs =? 0) with false by lia. rewrite RO. cbn [bind]. rewrite RW. cbn [bind].
    rewrite <- (app_nil_r (le_bytes 4 lt)) at 1. rewrite need_app by apply zlen_le_bytes. reflexivity.
  - assert (PD : map sl_pre ss = map sl_dec ss) by (clear - F; induction F as [|s ss O F IH]; [reflexivity|]; cbn [map]; rewrite IH; destruct O as (_ & _ & D & _); rewrite (D eq_refl); reflexivity).
    cbn [app]. replace (zlen _ <? 2) with false by (rewrite !zlen_cons, !zlen_app, zlen_cons; symmetry; apply Z.ltb_ge; match goal with |- context [zlen ?x + (1 + zlen ?y)] => pose proof (zlen_nonneg x); pose proof (zlen_nonneg y) end; lia).
    assert (N0 : exists p, zlen ss = Z.pos p) by (exists (Z.to_pos (zlen ss)); lia). destruct N0 as [p Np]. rewrite Np. cbn [bind need1]. change (Z.pos p =? 0) with false. cbv iota. rewrite <- Np.
    rewrite RI. cbn [bind need1]. replace (zlen outs =? 0) with false by lia. rewrite RO. cbn [bind]. rewrite PD.
    rewrite <- (app_nil_r (le_bytes 4 lt)) at 1. rewrite need_app by apply zlen_le_bytes. reflexivity.
Qed.
Lemma fill_slots sg ss : Forall (ok_ver sg) ss ->
  match fill_all (map sl_dec ss) (map sl_th ss) with Panic => Panic | Err => Ok false | Ok ths => check_all decompress ecdsa ths end =
  Ok (forallb (fun p => valid_given decompress ecdsa (fst p) (snd p)) (combine (map sl_th ss) (map sl_g ss))).
Proof.
  induction 1 as [|s ss O F IH]; [reflexivity|]. cbn [map fill_all combine forallb fst snd]. destruct O as (_ & _ & _ & _ & V).
  destruct (fill_one (sl_dec s) (sl_th s)) as [th'| |]; cbn [bind]; [| |discriminate V].
  - destruct (fill_all (map sl_dec ss) (map sl_th ss)) as [ths| |]; cbn [bind]; [| |discriminate IH].
    + cbn [check_all]. rewrite V. cbn [bind]. destruct (valid_given decompress ecdsa (sl_th s) (sl_g s)); [exact IH|reflexivity].
    + injection IH as <-. rewrite andb_false_r. reflexivity.
  - injection V as <-. reflexivity.
Qed.
End Slots.
(** The hashes do not depend on what stands in the multi-signature field of an input. *)
Lemma in_bytes_no_multi sw i : in_type i = TypeEmpty -> in_bytes sw i = in_bytes sw (no_multi i).
Proof. intros T. unfold in_bytes, no_multi. cbn [in_type in_txid in_vout in_pub in_sig in_seq in_multi]. rewrite T. reflexivity. Qed.
Lemma mapr_no_multi sw l : Forall (fun i => in_type i = TypeEmpty) l -> mapr (in_bytes sw) l = mapr (in_bytes sw) (map no_multi l).
Proof. induction 1 as [|i l T F IH]; [reflexivity|]. cbn [map mapr]. rewrite IH, (in_bytes_no_multi sw i T). reflexivity. Qed.
Lemma upd_map {A} (f g : A -> A) l n : (forall x, f (g x) = g (f x)) -> map f (upd l n g) = upd (map f l) n g.
Proof. intros C. revert n. induction l as [|x l IH]; intros [|n]; cbn [upd map]; try reflexivity; rewrite ?C, ?IH; reflexivity. Qed.
Lemma upd_forall {A} (P : A -> Prop) g l n : (forall x, P x -> P (g x)) -> Forall P l -> Forall P (upd l n g).
Proof. intros C F. revert n. induction F as [|x l Px F IH]; intros [|n]; cbn [upd]; constructor; auto. Qed.
Lemma tx_bytes_no_multi sw t : Forall (fun i => in_type i = TypeEmpty) (tx_vins t) -> tx_witness t = false -> tx_bytes sw t = tx_bytes sw (set_vins (map no_multi (tx_vins t)) t).
Proof. intros F W. unfold tx_bytes, set_vins. cbn [tx_version tx_vins tx_vouts tx_locktime tx_witness]. rewrite W, zlen_map, (mapr_no_multi sw _ F). reflexivity. Qed.
Lemma segwit_no_multi H t r i a : segwit_bytes H t r i a = segwit_bytes H (set_vins (map no_multi (tx_vins t)) t) r (no_multi i) a.
Proof. unfold segwit_bytes, prevouts, sequences, outputs, set_vins, no_multi. cbn [tx_version tx_vins tx_vouts tx_locktime in_txid in_vout in_seq]. rewrite !map_map. reflexivity. Qed.
Lemma for_sig_no_multi H t lk rd ty st n a sw : Forall (fun i => in_type i = TypeEmpty) (tx_vins t) -> tx_witness t = false ->
  bytes_for_sig H t lk rd ty st n a sw = bytes_for_sig H (set_vins (map no_multi (tx_vins t)) t) lk rd ty st n a sw.
Proof.
  intros F W. unfold bytes_for_sig. cbn [set_vins tx_vins]. rewrite nth_error_map. destruct (nth_error (tx_vins t) n) as [i|]; [|reflexivity]. cbn [option_map].
  assert (Q : forall p, tx_bytes sw (set_vins (upd (tx_vins t) n (set_pub p)) t) = tx_bytes sw (set_vins (upd (map no_multi (tx_vins t)) n (set_pub p)) (set_vins (map no_multi (tx_vins t)) t))).
  { intros p. rewrite tx_bytes_no_multi; [|cbn [set_vins tx_vins]; apply upd_forall; [intros x Hx; exact Hx|exact F]|exact W]. cbn [set_vins tx_vins tx_version tx_vouts tx_locktime tx_witness]. rewrite upd_map by reflexivity. reflexivity. }
  rewrite !Q. rewrite !(segwit_no_multi H t). reflexivity.
Qed.
Definition same_but_multi (t t' : tx) : Prop :=
  tx_version t = tx_version t' /\ tx_vouts t = tx_vouts t' /\ tx_locktime t = tx_locktime t' /\ tx_witness t = false /\ tx_witness t' = false /\ map (fun i => no_multi (set_empty i)) (tx_vins t) = map (fun i => no_multi (set_empty i)) (tx_vins t').
Lemma loop_no_multi H sw ap us : forall t t' n, same_but_multi t t' -> hashes_loop H t sw ap n us = hashes_loop H t' sw ap n us.
Proof.
  induction us as [|u us IH]; intros t t' n S; [reflexivity|]. cbn [hashes_loop]. cbv zeta.
  assert (S' : same_but_multi (set_vins (map set_empty (tx_vins t)) t) (set_vins (map set_empty (tx_vins t')) t')).
  { destruct S as (A & B & C & D & E & F). unfold same_but_multi, set_vins. cbn [tx_version tx_vins tx_vouts tx_locktime tx_witness]. repeat (split; [assumption|]). rewrite !map_map. exact F. }
  rewrite (IH _ _ (Datatypes.S n) S'). destruct (check_script (u_lock u) (u_redeem u)) as [[[lock redeem] ty]| |]; cbn [bind]; [|reflexivity|reflexivity].
  assert (Q : bytes_for_sig H (set_vins (map set_empty (tx_vins t)) t) lock redeem ty (u_sigtype u) n (u_amount u) sw = bytes_for_sig H (set_vins (map set_empty (tx_vins t')) t') lock redeem ty (u_sigtype u) n (u_amount u) sw).
  { destruct S as (A & B & C & D & E & F). assert (FE : forall l, Forall (fun i => in_type i = TypeEmpty) (map set_empty l)) by (intros l; apply Forall_forall; intros x Hx; apply in_map_iff in Hx as (y & <- & _); reflexivity).
    rewrite for_sig_no_multi by (cbn [set_vins tx_vins tx_witness]; auto). rewrite (for_sig_no_multi H (set_vins (map set_empty (tx_vins t')) t')) by (cbn [set_vins tx_vins tx_witness]; auto).
    unfold set_vins. cbn [tx_version tx_vins tx_vouts tx_locktime tx_witness]. rewrite !map_map, F, A, B, C, D, E. reflexivity. }
  rewrite Q. reflexivity.
Qed.
(** Everything about inserting and checking, for a created transaction. *)
Lemma many_shape H sha decompress ecdsa ap vins vouts lt r hexs us sw hs gs : hash_ok H -> (forall d, is_bytes d -> is_bytes (sha d) /\ length (sha d) = 32%nat) -> (forall k, decompress k <> []) -> prefixes_ok ap ->
  Forall vin_typed vins -> Forall vout_typed vouts -> Forall (fun v => zlen (v_addr v) <= 400) vouts -> zlen vins <= 252 -> zlen vouts <= 252 ->
  create_empty H vins vouts lt r ap = Ok hexs -> Forall standard us -> create_hashes H hexs us sw ap = Ok hs -> Forall2 given_ok hs gs ->
  exists ss outs, Forall2 (spends lt r) vins (map sl_in ss) /\ Forall2 (pays H ap) vouts outs /\ map sl_u ss = us /\ map sl_th ss = hs /\ map sl_g ss = gs /\ Forall (slot_ok sha decompress ecdsa sw) ss /\
    1 <= zlen ss <= 252 /\ 1 <= zlen outs <= 252 /\ Forall (fun s => 1 <= zlen (s_lock s) <= 252) outs /\
    is_bytes (wire_spec_tx 2 (map sl_in ss) outs lt) /\
    hashes_for_sig H (tx_of 2 (map sl_in ss) outs lt) us sw ap = Ok hs /\
    insert_signatures sha hexs (map (fun p => put_given (fst p) (snd p)) (combine hs gs)) us sw =
      if segwit_of_slots ss && negb sw then Err
      else Ok (hex_encode (signed_bytes (segwit_of_slots ss) 2 (map (fun s => with_script (sl_in s) (sl_script s)) ss) outs (map sl_wit ss) lt)).
Proof.
  intros HH SH HD HP TI TO L Ni No E Fr C G.
  destruct (create_shape H ap vins vouts lt r hexs HH HP TI TO L E) as (ins & outs & Fi & Fo & _ & D & S1 & S2 & P1 & P2 & N1 & N2 & BB).
  assert (Mi : zlen ins <= 252) by (rewrite (Forall2_len _ _ _ Fi); assumption). assert (Mo : zlen outs <= 252) by (rewrite (Forall2_len _ _ _ Fo); assumption).
  rewrite trunc_small in D, BB by lia. assert (S0 : Forall (fun s => zlen (s_txid s) = 32) ins) by (eapply Forall_impl; [|exact S1]; intros s [Q _]; exact Q).
  assert (DT : decode_tx (wire_spec_tx 2 ins outs lt) sw = Ok (tx_of 2 ins outs lt)).
  { rewrite <- (app_nil_r (wire_spec_tx _ _ _ _)). rewrite decode_wire_spec by (try assumption; try (apply weaken_locks; assumption); lia). reflexivity. }
  unfold create_hashes in C. rewrite D in C. cbn [bind] in C. rewrite DT in C. cbn [bind] in C. pose proof C as C0.
  unfold hashes_for_sig in C. cbn [tx_of tx_vins tx_vouts] in C. rewrite !zlen_map in C.
  change {| tx_version := le_bytes 4 2; tx_vins := map in_of ins; tx_vouts := map out_of outs; tx_locktime := le_bytes 4 lt; tx_witness := false |} with (tx_of 2 ins outs lt) in C.
  destruct (zlen ins =? zlen us) eqn:EQ; [|rewrite orb_true_r in C; discriminate]. destruct (_ || _) in C; [discriminate|]. destruct (_ =? 0) in C; [discriminate|].
  assert (Fr' : Forall (fun u => forall r, hex_decode (u_redeem u) = Ok r -> zlen r <= 252) us) by (eapply Forall_impl; [|exact Fr]; intros u Su b Eb; apply (Su b Eb)).
  apply loop_iff in C; try assumption; try lia. apply Z.eqb_eq in EQ.
  destruct (slots_of sha decompress ecdsa sw SH HD H ap ins outs lt S0 us hs 0 C gs G Fr) as (ss & E1 & E2 & E3 & E4 & OK); [unfold zlen in EQ; lia|]. cbn [skipn] in E1.
  assert (Lt : zlen ss = zlen ins) by (rewrite <- E1; symmetry; apply zlen_map). subst ins us hs gs.
  exists ss, outs. repeat (split; [assumption || reflexivity || lia|]).
  unfold insert_signatures. rewrite D. cbn [bind]. rewrite DT. cbn [bind]. rewrite zlen_map in EQ |- *. replace (zlen ss =? 0) with false by lia.
  assert (LT : zlen (map (fun p => put_given (fst p) (snd p)) (combine (map sl_th ss) (map sl_g ss))) = zlen ss) by (rewrite zlen_map; unfold zlen; rewrite combine_length, !map_length; lia).
  rewrite LT. replace (zlen ss =? 0) with false by lia. cbn [tx_of tx_vins tx_vouts tx_version tx_locktime]. rewrite !zlen_map. replace (zlen ss =? 0) with false by lia. replace (zlen outs =? 0) with false by lia. rewrite Z.eqb_refl. cbn [negb].
  unfold is_segwit, insert_loop. rewrite (is_segwit_slots sha decompress ecdsa sw) by exact OK. destruct (segwit_of_slots ss && negb sw) eqn:SW; [reflexivity|]. pose proof (all_compat sw ss SW) as AC.
  rewrite (insert_slots sha decompress ecdsa sw) by assumption. cbn [bind].
  rewrite (tx_bytes_slots sha decompress ecdsa sw) by (try assumption; lia). reflexivity.
Qed.
(** ** C122: the signed transaction *)
(** Filling in the signatures and inserting them gives the serialisation of the same transaction with each input's script
    and witness; it is refused exactly when there is a segwit input and segwit is off. *)
Theorem many_inserted_is_signed_transaction : forall H sha ap vins vouts lt r hexs us segwitOn hs gs, hash_ok H -> (forall d, is_bytes d -> is_bytes (sha d) /\ length (sha d) = 32%nat) -> prefixes_ok ap ->
  Forall vin_typed vins -> Forall vout_typed vouts -> Forall (fun v => zlen (v_addr v) <= 400) vouts -> zlen vins <= 252 -> zlen vouts <= 252 ->
  create_empty H vins vouts lt r ap = Ok hexs -> Forall standard us -> create_hashes H hexs us segwitOn ap = Ok hs -> Forall2 given_ok hs gs ->
  exists ins outs scripts wits flags, Forall2 (spends lt r) vins ins /\ Forall2 (pays H ap) vouts outs /\
    length scripts = length ins /\ length wits = length ins /\ length flags = length ins /\
    (forall k u th g, nth_error us k = Some u -> nth_error hs k = Some th -> nth_error gs k = Some g ->
       exists s w f, nth_error scripts k = Some s /\ nth_error wits k = Some w /\ nth_error flags k = Some f /\ unlocks_given sha segwitOn u th g s w f) /\
    let segwit := existsb (fun f => f) flags in
    insert_signatures sha hexs (map (fun p => put_given (fst p) (snd p)) (combine hs gs)) us segwitOn =
      if segwit && negb segwitOn then Err
      else Ok (hex_encode (signed_bytes segwit 2 (map (fun p => with_script (fst p) (snd p)) (combine ins scripts)) outs wits lt)).
Proof.
  intros H sha ap vins vouts lt r hexs us sw hs gs HH SH HP TI TO L Ni No E Fr C G.
  destruct (many_shape H sha (fun _ => [0]) (fun _ _ _ => true) ap vins vouts lt r hexs us sw hs gs HH SH ltac:(discriminate) HP TI TO L Ni No E Fr C G) as (ss & outs & Fi & Fo & E2 & E3 & E4 & OK & Mi & Mo & P1 & _ & _ & I).
  exists (map sl_in ss), outs, (map sl_script ss), (map sl_wit ss), (map sl_seg ss). rewrite !map_length. repeat (split; [assumption || reflexivity|]). split.
  - intros k u th g Eu Eh Eg. subst us hs gs. rewrite nth_error_map in Eu, Eh, Eg. rewrite !nth_error_map. destruct (nth_error ss k) as [s|] eqn:Es; [|discriminate]. cbn [option_map] in *.
    exists (sl_script s), (sl_wit s), (sl_seg s). repeat (split; [reflexivity|]). assert (u = sl_u s) by congruence. assert (th = sl_th s) by congruence. assert (g = sl_g s) by congruence. subst. rewrite Forall_forall in OK. apply (OK s). eapply nth_error_In. exact Es.
  - cbv zeta. rewrite I. assert (S : existsb (fun f => f) (map sl_seg ss) = segwit_of_slots ss) by (clear; induction ss as [|t ss IH]; [reflexivity|]; cbn [map existsb]; rewrite IH; reflexivity). rewrite S.
    assert (M : map (fun p => with_script (fst p) (snd p)) (combine (map sl_in ss) (map sl_script ss)) = map (fun t => with_script (sl_in t) (sl_script t)) ss) by (clear; induction ss as [|t ss IH]; [reflexivity|]; cbn [map combine fst snd]; rewrite IH; reflexivity). rewrite M. reflexivity.
Qed.
(** The witness of a multi-signature input says four items; it is a consensus witness exactly with two signatures. *)
Theorem many_witness_iff : forall sps es redeem, Forall2 (fun sp e => exists R S, der_int (r_of (sp_sig sp)) R /\ der_int (s_of (sp_sig sp)) S /\ e = sig_script R S 1) sps es ->
  Forall good_sp sps -> zlen sps <= 16 -> zlen redeem <= 252 ->
  4 :: 0 :: concat es ++ zlen redeem :: redeem = witness_stack ([] :: map (@tl Z) es ++ [redeem]) <-> length sps = 2%nat.
Proof.
  intros sps es redeem F G L16 LR. assert (Le : zlen es = zlen sps) by (apply (Forall2_len _ _ _ F)).
  assert (C : concat (map (fun x : bytes => compact_size (zlen x) ++ x) (map (@tl Z) es)) = concat es).
  { clear - F G. induction F as [|sp e sps es (R & S & D1 & D2 & ->) F IH]; [reflexivity|]. apply Forall_cons_iff in G as [G0 G]. cbn [map concat]. rewrite (IH G). f_equal.
    destruct (enc1_ok sp G0) as (_ & (R' & S' & D1' & D2' & E') & _ & Lz & _). rewrite (minimal_der_unique _ _ _ D1 D1'), (minimal_der_unique _ _ _ D2 D2'), <- E'. rewrite E' in Lz |- *. rewrite sig_script_len in Lz.
    assert (Q : zlen (tl (sig_script R' S' 1)) = zlen R' + zlen S' + 7) by (pose proof (sig_script_len R' S' 1) as Q; unfold sig_script in Q |- *; cbn [app tl] in *; rewrite zlen_cons in Q; lia).
    rewrite Q, compact_small by lia. reflexivity. }
  unfold witness_stack. unfold bytes in *. rewrite zlen_cons, zlen_app, zlen_map, Le. change (zlen [redeem]) with 1. cbn [map concat]. rewrite map_app, concat_app. unfold bytes in C |- *. rewrite C. cbn [map concat]. rewrite app_nil_r. change (compact_size (zlen (@nil Z)) ++ []) with [0]. pose proof (zlen_nonneg sps).
  rewrite (compact_small (1 + (zlen sps + 1))) by lia. rewrite (compact_small (zlen redeem)) by lia. cbn [app]. split.
  - intros E. assert (4 = 1 + (zlen sps + 1)) by (injection E as E1 _; exact E1). unfold zlen in *. lia.
  - intros E. replace (1 + (zlen sps + 1)) with 4 by (unfold zlen; lia). rewrite ?app_nil_r. reflexivity.
Qed.
(** ** C123: checking the signed transaction *)
Theorem many_verified_iff_valid : forall H sha decompress ecdsa ap vins vouts lt r hexs us segwitOn hs gs signed, hash_ok H -> (forall d, is_bytes d -> is_bytes (sha d) /\ length (sha d) = 32%nat) -> prefixes_ok ap ->
  (forall k, decompress k <> []) ->
  Forall vin_typed vins -> Forall vout_typed vouts -> Forall (fun v => zlen (v_addr v) <= 400) vouts -> zlen vins <= 252 -> zlen vouts <= 252 ->
  create_empty H vins vouts lt r ap = Ok hexs -> Forall standard us -> create_hashes H hexs us segwitOn ap = Ok hs -> Forall2 given_ok hs gs ->
  Forall (fun g => Forall (fun sp => readable (sp_sig sp)) (sigs_of g)) gs -> (segwitOn = true \/ Forall2 script_long hs gs) ->
  insert_signatures sha hexs (map (fun p => put_given (fst p) (snd p)) (combine hs gs)) us segwitOn = Ok signed ->
  verify_raw H decompress ecdsa signed us segwitOn ap = Ok (forallb (fun p => valid_given decompress ecdsa (fst p) (snd p)) (combine hs gs)).
Proof.
  intros H sha decompress ecdsa ap vins vouts lt r hexs us sw hs gs signed HH SH HP HD TI TO L Ni No E Fr C G Rd SL I.
  destruct (many_shape H sha decompress ecdsa ap vins vouts lt r hexs us sw hs gs HH SH HD HP TI TO L Ni No E Fr C G) as (ss & outs & Fi & Fo & E2 & E3 & E4 & OK & Mi & Mo & P1 & BB & HS & I').
  rewrite I' in I. destruct (segwit_of_slots ss && negb sw) eqn:SW; [discriminate|]. apply (f_equal (fun x => match x with Ok v => v | _ => [] end)) in I. cbv beta iota in I. subst signed. pose proof (all_compat sw ss SW) as AC.
  assert (V : Forall (ok_ver decompress ecdsa sw (segwit_of_slots ss)) ss).
  { clear - OK AC Rd SL E3 E4. subst hs gs. revert AC Rd SL. generalize (segwit_of_slots ss) as sg. intros sg. induction OK as [|s ss' O OK IH]; intros AC Rd SL; [constructor|]. apply Forall_cons_iff in AC as [A0 AC]. cbn [map] in *. apply Forall_cons_iff in Rd as [R0 Rd].
    destruct O as (_ & _ & _ & _ & _ & O). destruct (O sg A0) as [_ V]. constructor.
    - apply V; [exact R0|]. destruct SL as [SL|SL]; [auto|right]. inversion SL; assumption.
    - apply IH; try assumption. destruct SL as [SL|SL]; [auto|right]. inversion SL; assumption. }
  unfold verify_raw. rewrite hex_decode_encode by (eapply slots_bytes; eassumption || lia). cbn [bind]. rewrite (decode_slots decompress ecdsa sw) by (try assumption; lia). cbn [bind tx_vins].
  rewrite <- E2 at 1. rewrite !zlen_map, Z.eqb_refl. cbn [negb].
  assert (SB : same_but_multi (clone_empty {| tx_version := le_bytes 4 2; tx_vins := map sl_dec ss; tx_vouts := map out_of outs; tx_locktime := le_bytes 4 lt; tx_witness := segwit_of_slots ss |}) (tx_of 2 (map sl_in ss) outs lt)).
  { unfold same_but_multi, clone_empty, tx_of. cbn [tx_version tx_vins tx_vouts tx_locktime tx_witness]. repeat (split; [reflexivity|]). rewrite !map_map. assert (Q : Forall (fun s => no_multi (set_empty (sl_dec s)) = in_of (sl_in s)) ss) by (eapply Forall_impl; [|exact V]; intros s (_ & _ & _ & O & _); exact O). clear - Q. induction Q as [|s ss O Q IH]; [reflexivity|]. cbn [map]. rewrite IH. f_equal.
    change (no_multi (set_empty (set_empty (sl_dec s)))) with (no_multi (set_empty (sl_dec s))). rewrite O. reflexivity. }
  assert (HE : hashes_for_sig H (clone_empty {| tx_version := le_bytes 4 2; tx_vins := map sl_dec ss; tx_vouts := map out_of outs; tx_locktime := le_bytes 4 lt; tx_witness := segwit_of_slots ss |}) us sw ap = Ok hs).
  { rewrite <- HS. unfold hashes_for_sig. rewrite (loop_no_multi H sw ap us _ _ 0 SB). cbn [clone_empty tx_of tx_vins tx_vouts]. rewrite !zlen_map. reflexivity. }
  rewrite HE. cbn [bind]. rewrite <- E3 at 1. rewrite (fill_slots decompress ecdsa sw (segwit_of_slots ss)) by exact V. rewrite E3, E4. reflexivity.
Qed.
(** ** Examples *)
(** Two inputs, a pay-to-public-key-hash one and a two-of-three one; the first and third holder sign. *)
Definition ex_many_us : list unlock := [{| u_lock := hex_encode (p2pkh_script (repeat 7 20)); u_redeem := []; u_amount := 0; u_sigtype := 1 |}; hd {| u_lock := []; u_redeem := []; u_amount := 0; u_sigtype := 0 |} ex_mus].
Definition ex_many (k : Z) : list given := [One (ex_sp 9); Many [Some {| sp_sig := repeat 1 64; sp_pub := 2 :: repeat 1 32 |}; None; Some {| sp_sig := repeat k 64; sp_pub := 2 :: repeat 3 32 |}]].
Lemma ex_standard : Forall standard ex_many_us.
Proof.
  constructor; [intros b E; vm_compute in E; injection E as <-; split; [vm_compute; discriminate|intros Q; discriminate Q]|]. constructor; [|constructor].
  intros b E. vm_compute in E. injection E as <-. split; [vm_compute; discriminate|]. intros _. exists 2, (ex_keys 3). split; [vm_compute; split; discriminate|]. split; [vm_compute; discriminate|]. split; [repeat constructor|vm_compute; reflexivity].
Qed.
Example many_example : exists hexs hs signed, create_empty toy_hash [ex_vin 1; ex_vin 2] ex_vouts 7 false btc_main = Ok hexs /\ create_hashes toy_hash hexs ex_many_us false btc_main = Ok hs /\
  Forall standard ex_many_us /\ Forall2 given_ok hs (ex_many 3) /\ Forall2 script_long hs (ex_many 3) /\ Forall (fun g => Forall (fun sp => readable (sp_sig sp)) (sigs_of g)) (ex_many 3) /\
  insert_signatures toy_hash hexs (map (fun p => put_given (fst p) (snd p)) (combine hs (ex_many 3))) ex_many_us false = Ok signed /\
  verify_raw toy_hash (fun k => 4 :: tl k) ex_ecdsa signed ex_many_us false btc_main = Ok true.
Proof.
  eexists _, _, _. split; [vm_compute; reflexivity|]. split; [vm_compute; reflexivity|]. split; [exact ex_standard|]. split.
  { constructor; [split; [reflexivity|repeat constructor; vm_compute; congruence]|]. constructor; [|constructor]. split; [vm_compute; split; discriminate|]. split; [reflexivity|]. repeat constructor; vm_compute; congruence. }
  split; [constructor; [exact I|constructor; [left; vm_compute; discriminate|constructor]]|]. split; [unfold ex_many; apply Forall_cons; [|apply Forall_cons; [|apply Forall_nil]]; cbn [sigs_of somes flat_map app]; repeat (apply Forall_cons; [right; vm_compute; discriminate|]); apply Forall_nil|].
  split; [vm_compute; reflexivity|]. vm_compute. reflexivity.
Qed.
Print Assumptions many_inserted_is_signed_transaction.
Print Assumptions many_witness_iff.
Print Assumptions many_verified_iff_valid.
