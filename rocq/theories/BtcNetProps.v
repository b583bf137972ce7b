(** C148: which addresses of which networks the network profiles of the Bitcoin packages pay. *)
From Coq Require Import String ZArith List Bool Lia ZifyBool ZifyNat.
From Verif Require Import Go GoFacts GoFacts2 Rd Base58Model Base58Spec Base58Proofs Base58Props Base58CheckModel Base58CheckSpec Base58CheckProofs Base58CheckProps
  Digits58 AddressCheckProps Bech32Model Bech32Spec Bech32Proofs Bech32Text Bech32Props Bech32mProofs BtcModel BtcSpec BtcProofs BtcTxProofs BtcTxProps SigDerProps FamModel FamProofs Toy.
Import ListNotations.
Open Scope Z_scope.
Ltac Zify.zify_post_hook ::= idtac.

(** ** Specification: the published constants *)
Inductive network := Bitcoin | BitcoinTest | BitcoinCash | BitcoinCashTest | Litecoin | LitecoinTest.
(** Version byte of key hash addresses. *)
Definition key_version (n : network) : Z :=
  match n with Bitcoin | BitcoinCash => 0 | Litecoin => 48 | BitcoinTest | BitcoinCashTest | LitecoinTest => 111 end.
(** Version bytes of script hash addresses: Litecoin has the version of Bitcoin and one of its own. *)
Definition script_versions (n : network) : list Z :=
  match n with Bitcoin | BitcoinCash => [5] | BitcoinTest | BitcoinCashTest => [196] | Litecoin => [5; 50] | LitecoinTest => [196; 58] end.
(** Human-readable part of segwit addresses. *)
Definition hrp (n : network) : list Z :=
  str match n with Bitcoin | BitcoinCash => "bc" | BitcoinTest | BitcoinCashTest => "tb" | Litecoin => "ltc" | LitecoinTest => "tltc" end.
Definition networks : list network := [Bitcoin; BitcoinTest; BitcoinCash; BitcoinCashTest; Litecoin; LitecoinTest].
(** The text of a base58check address. *)
Definition address_of (H : bytes -> bytes) (version : bytes) (h : bytes) (address : list Z) : Prop :=
  is_bytes h /\ length h = 20%nat /\ is_base58_of bitcoin_rs (checked H (version ++ h)) address.
Inductive paid := ToKey | ToScript | Refused.
Definition verdict (n : network) (version : Z) : paid :=
  if version =? key_version n then ToKey else if existsb (Z.eqb version) (script_versions n) then ToScript else Refused.
Definition output (amount : Z) (h : bytes) (p : paid) : res txout :=
  match p with
  | ToKey => Ok {| out_amount := le_bytes 8 amount; out_lock := p2pkh_script h |}
  | ToScript => Ok {| out_amount := le_bytes 8 amount; out_lock := p2sh_script h |}
  | Refused => Err
  end.

(** The profile variables of the packages. *)
Definition profile (n : network) : addr_prefix :=
  match n with Bitcoin => btc_main | BitcoinTest => btc_test | BitcoinCash => bch_main | BitcoinCashTest => bch_test | Litecoin => ltc_main | LitecoinTest => ltc_test end.

(** ** Lemmas *)
Lemma in_networks n : In n networks.
Proof. destruct n; cbn; tauto. Qed.
Lemma profile_ok n : prefixes_ok (profile n).
Proof. destruct n; repeat split; repeat constructor; cbv; congruence. Qed.
Definition all_versions : list Z := [0; 5; 111; 196; 48; 50; 58].
Lemma published_in m v : v = key_version m \/ In v (script_versions m) -> In v all_versions.
Proof. destruct m; cbn; intuition lia. Qed.
Definition never_hrp (n : network) (v : Z) : bool := match hrp n with [] => false | c :: _ => first_not c [v] end.
Lemma never_hrp_all : forallb (fun n => forallb (never_hrp n) all_versions) networks = true.
Proof. vm_compute. reflexivity. Qed.
Lemma not_begins H n v h address : hash_ok H -> In v all_versions -> address_of H [v] h address -> ~ begins (p_bech32 (profile n)) address.
Proof.
  intros HH I (Bh & L & N). pose proof never_hrp_all as A. rewrite forallb_forall in A. specialize (A n (in_networks n)). rewrite forallb_forall in A. specialize (A v I).
  assert (Bv : is_bytes [v]) by (constructor; [|constructor]; cbn in I; unfold is_byte; intuition lia).
  assert (E : p_bech32 (profile n) = hrp n) by (destruct n; reflexivity). rewrite E. unfold never_hrp in A. destruct (hrp n) as [|c q]; [discriminate|].
  apply (first_not_ok H c [v] h address HH); [discriminate|exact Bv|exact Bh|exact L|exact A|exact N].
Qed.
Lemma decoded H v h address : hash_ok H -> is_byte v -> address_of H [v] h address -> decode_check bitcoin_al H address = Ok ([v], h).
Proof.
  intros HH Bv (Bh & L & N). assert (Bp : is_bytes [v]) by (constructor; [exact Bv|constructor]). apply address_text in N; try assumption.
  destruct (decode_check_encode_check H bitcoin_rs bitcoin_al [v] h HH bitcoin_alphabet_ok bitcoin_al_eq Bp Bh L) as (s & E1 & E2). assert (s = address) by congruence. subst s. exact E2.
Qed.
Lemma version_byte v : In v all_versions -> is_byte v.
Proof. cbn. unfold is_byte. intuition lia. Qed.
Definition choice (ap : addr_prefix) (third : bool) (v : Z) : paid :=
  if beq [v] (p_p2pkh ap) then ToKey else if beq [v] (p_p2wpkh ap) || (third && beq [v] (p_p2sh ap)) then ToScript else Refused.
Lemma choices : forallb (fun n => forallb (fun v => match choice (profile n) true v, verdict n v with ToKey, ToKey | ToScript, ToScript | Refused, Refused => true | _, _ => false end) all_versions) networks = true.
Proof. vm_compute. reflexivity. Qed.
Lemma choice_verdict n v : In v all_versions -> choice (profile n) true v = verdict n v.
Proof.
  intros I. pose proof choices as A. rewrite forallb_forall in A. specialize (A n (in_networks n)). rewrite forallb_forall in A. specialize (A v I). destruct (choice _ _ _), (verdict n v); congruence.
Qed.

(** ** Theorems *)
(** C148. btcTransaction: for every key hash or script hash address of any of the networks [m], the profile of network
    [n] pays it exactly if the version byte is one of its own, and then to the script of that kind. *)
Theorem network_pays : forall H m n v h address amount, hash_ok H -> v = key_version m \/ In v (script_versions m) -> address_of H [v] h address ->
  new_out H (profile n) {| v_addr := address; v_amount := amount |} = output amount h (verdict n v).
Proof.
  intros H m n v h address amount HH P A. apply published_in in P. pose proof (not_begins H n v h address HH P A) as NB. pose proof (decoded H v h address HH (version_byte v P) A) as D.
  unfold new_out. cbn [v_addr v_amount]. destruct (is_prefix (p_bech32 (profile n)) address) eqn:Q; [apply is_prefix_begins in Q; contradiction|]. rewrite D. cbn [bind].
  destruct A as (_ & L & _). assert (Lz : zlen h = 20) by (unfold zlen; lia). rewrite Lz. change (negb (20 =? 20)) with false. cbv iota.
  rewrite <- (choice_verdict n v P). unfold choice. cbn [andb]. destruct (beq [v] _); [reflexivity|]. destruct (_ || _); reflexivity.
Qed.
(** C148. bitcoincashTransaction and bitcoinsvTransaction, which have the same six profiles: the same. *)
Theorem fork_network_pays : forall H m n v h address amount, hash_ok H -> v = key_version m \/ In v (script_versions m) -> address_of H [v] h address ->
  fork_outs H (profile n) [{| v_addr := address; v_amount := amount |}] = (o <- output amount h (verdict n v) ;; Ok [o]).
Proof.
  intros H m n v h address amount HH P A. apply published_in in P. pose proof (decoded H v h address HH (version_byte v P) A) as D.
  unfold fork_outs. change (zlen [{| v_addr := address; v_amount := amount |}] =? 0) with false. cbv iota. cbn [mapr v_addr v_amount]. unfold base58_script. rewrite D. cbn [bind].
  destruct A as (_ & L & _). assert (Lz : zlen h = 20) by (unfold zlen; lia). rewrite Lz. change (negb (20 =? 20)) with false. cbv iota zeta.
  rewrite <- (choice_verdict n v P). unfold choice. destruct (beq [v] _); [reflexivity|]. destruct (_ || _); reflexivity.
Qed.
(** C148. cxcTransaction (and, for Bitcoin's two networks, omniTransaction) has no second script version: Litecoin
    addresses of the newer kind are refused, all others are as above. *)
Theorem cxc_network_pays : forall H m n v h address amount, hash_ok H -> v = key_version m \/ In v (script_versions m) -> address_of H [v] h address ->
  plain_outs H (profile n) [{| v_addr := address; v_amount := amount |}] =
    (o <- output amount h (if (v =? 50) || (v =? 58) then Refused else verdict n v) ;; Ok [o]).
Proof.
  intros H m n v h address amount HH P A. apply published_in in P. pose proof (not_begins H n v h address HH P A) as NB. pose proof (decoded H v h address HH (version_byte v P) A) as D.
  unfold plain_outs. change (zlen [{| v_addr := address; v_amount := amount |}] =? 0) with false. cbv iota. cbn [mapr]. unfold both_outs. cbn [v_addr v_amount].
  destruct (is_prefix (p_bech32 (profile n)) address) eqn:Q; [apply is_prefix_begins in Q; contradiction|]. cbn [bind]. unfold base58_script. rewrite D. cbn [bind].
  destruct A as (_ & L & _). assert (Lz : zlen h = 20) by (unfold zlen; lia). rewrite Lz. change (negb (20 =? 20)) with false. cbv iota zeta.
  assert (V : choice (profile n) false v = if (v =? 50) || (v =? 58) then Refused else verdict n v).
  { cbn [all_versions In] in P. destruct P as [<-|[<-|[<-|[<-|[<-|[<-|[<-|[]]]]]]]]; destruct n; reflexivity. }
  rewrite <- V. unfold choice. cbn [andb]. rewrite !orb_false_r. destruct (beq [v] _); [cbn [bind concat app output]; rewrite !app_nil_r; reflexivity|]. destruct (beq [v] (p_p2wpkh _)); [cbn [bind concat app output]; rewrite !app_nil_r; reflexivity|reflexivity].
Qed.
(** C148. So an address of a network that has another version byte never gets into a transaction. *)
Theorem foreign_address_stops_creation : forall H m n v h vins vouts lt r a, hash_ok H -> v = key_version m \/ In v (script_versions m) -> verdict n v = Refused ->
  In a vouts -> address_of H [v] h (v_addr a) -> forall hexs, create_empty H vins vouts lt r (profile n) <> Ok hexs.
Proof.
  intros H m n v h vins vouts lt r a HH P V I A hexs E. unfold create_empty in E. apply bind_ok in E as (t & E & _). unfold new_empty_tx in E. apply bind_ok in E as (ins & _ & E). apply bind_ok in E as (outs & E & _).
  unfold new_outs in E. destruct (zlen vouts =? 0); [discriminate|].
  assert (N : new_out H (profile n) a = Err) by (destruct a as [ad am]; cbn [v_addr] in A; rewrite (network_pays H m n v h ad am HH P A), V; reflexivity).
  clear - E N I. revert outs E. induction vouts as [|x l IH]; intros outs E; [destruct I|]. cbn [mapr] in E. destruct I as [->|I].
  - rewrite N in E. discriminate.
  - apply bind_ok in E as (y & _ & E). apply bind_ok in E as (ys & E & _). exact (IH I ys E).
Qed.
(** C148. Segwit addresses: the human-readable part is only compared as the beginning of the text. Any part that begins
    with the network's is paid as if it were the network's own: Bitcoin's "bcrt" (regression tests) on Bitcoin. *)
Theorem longer_hrp_paid : forall H n p h w address amount, lower_prefix p -> begins (hrp n) p -> is_bytes h -> length h = 20%nat \/ length h = 32%nat -> 0 <= w < 32 ->
  bech32_encode p bech32_alphabet h (Some [w]) = Ok address ->
  new_out H (profile n) {| v_addr := address; v_amount := amount |} = Ok {| out_amount := le_bytes 8 amount; out_lock := witness_v0_script h |}.
Proof.
  intros H n p h w address amount LP [q Bp] Bh L Hw E.
  assert (D : bech32_decode address = Ok h).
  { assert (A : exists s, bech32_encode p bech32_alphabet h (Some [w]) = Ok s /\ address_decode_bech32 s = Ok h).
    { destruct L as [L|L]; [apply bech32_roundtrip_20; eauto|apply bech32_roundtrip_32; assumption]. }
    destruct A as (s & E1 & E2). assert (s = address) by congruence. subst s. unfold address_decode_bech32 in E2. apply bind_ok in E2 as (x & E2 & E3). destruct (_ && _) in E3; [discriminate|]. injection E3 as ->. exact E2. }
  unfold new_out. cbn [v_addr v_amount].
  assert (P : is_prefix (p_bech32 (profile n)) address = true).
  { apply is_prefix_begins. rewrite encode_eq in E; [|apply LP|exact Bh|repeat constructor; apply Hw]. cbv zeta in E. replace (p_bech32 (profile n)) with (hrp n) by (destruct n; reflexivity). rewrite Bp in E. rewrite <- app_assoc in E. eexists. symmetry. injection E as E. exact E. }
  rewrite P, D. cbn [bind]. unfold witness_v0_script. rewrite u8_small; [reflexivity|]. unfold zlen. lia.
Qed.
(** A base58 text of at least 40 characters that does not begin with the zero digit is no address of these networks. *)
Lemma long_text_refused H n a o amount : hash_ok H -> is_bytes a -> 40 <= zlen a -> hd 0 a <> 49 -> ~ begins (p_bech32 (profile n)) a ->
  new_out H (profile n) {| v_addr := a; v_amount := amount |} <> Ok o.
Proof.
  intros HH Ba La Ha NB E. apply new_out_iff in E as [_ E]; [|exact HH|apply profile_ok|exact Ba]. cbn [v_addr] in E. destruct E as [[B _]|[_ (p & h & Bh & L & N & D)]]; [contradiction|].
  assert (Pl : is_bytes p /\ zlen p <= 1).
  { destruct (profile_ok n) as (Q1 & Q2 & Q3). destruct D as [[-> _]|(_ & [-> | ->] & _)]; (split; [assumption|]); destruct n; vm_compute; congruence. }
  destruct Pl as [Bp Lp].
  assert (Lc : zlen (checked H (p ++ h)) <= 25). { unfold checked. rewrite !zlen_app. unfold zlen in *. rewrite firstn_length. lia. }
  assert (Bc : is_bytes (checked H (p ++ h))) by (apply checked_bytes; [exact HH|apply is_bytes_app; auto]).
  destruct N as (k & rest & ds & E1 & R & Dd & Hd & V & ->).
  assert (K : k = 0%nat). { destruct k; [reflexivity|]. exfalso. apply Ha. reflexivity. }
  subst k. cbn [repeat app] in *. subst rest. unfold zlen in La. rewrite map_length in La. fold (zlen ds) in La.
  pose proof (bval_hd_lower ds Dd Hd) as Lo. assert (Nd : ds <> []) by (intros ->; change (zlen (@nil Z)) with 0 in La; lia). specialize (Lo Nd).
  assert (Eq : bval 58 ds = be_num (checked H (p ++ h))) by (rewrite !positional_bval, bval_256 in V; exact V).
  pose proof (be_num_bound _ Bc) as Up. assert (58 ^ 39 <= 58 ^ (zlen ds - 1)) by (apply Z.pow_le_mono_r; lia). assert (256 ^ zlen (checked H (p ++ h)) <= 256 ^ 25) by (apply Z.pow_le_mono_r; lia).
  assert (256 ^ 25 < 58 ^ 39) by (vm_compute; reflexivity). lia.
Qed.
Lemma begins_sep hr : Forall (fun c => 97 <= c <= 122) hr -> forall p x, begins hr (p ++ 49 :: x) -> begins hr p.
Proof.
  induction 1 as [|c hr Hc F IH]; intros p x [r E]; [exists p; reflexivity|]. destruct p as [|d p]; cbn [app] in E; injection E as E1 E2; [lia|]. subst d.
  destruct (IH p x) as [r' ->]; [exists r; exact E2|]. exists r'. reflexivity.
Qed.
Lemma hrp_lower n : Forall (fun c => 97 <= c <= 122) (hrp n).
Proof. destruct n; repeat constructor; cbv; congruence. Qed.
(** C148. A segwit address whose human-readable part does not begin with the network's is never paid. *)
Theorem foreign_hrp_refused : forall H n p h w address amount o, hash_ok H -> lower_prefix p -> ~ begins (hrp n) p -> is_bytes h -> length h = 20%nat \/ length h = 32%nat -> 0 <= w < 32 ->
  bech32_encode p bech32_alphabet h (Some [w]) = Ok address -> new_out H (profile n) {| v_addr := address; v_amount := amount |} <> Ok o.
Proof.
  intros H n p h w address amount o HH [Np LP] NB Bh L Hw E. assert (Dw : Forall d5 [w]) by (repeat constructor; apply Hw). rewrite encode_eq in E; [|exact LP|exact Bh|exact Dw]. cbv zeta in E.
  destruct (extend_spec h Bh) as (X1 & X2 & _). remember ([w] ++ extend_payload h) as ext eqn:Ee in E. remember (calc_checksum p ext) as cs eqn:Ecs in E.
  assert (De : Forall d5 ext) by (subst ext; apply Forall_app; auto). assert (Le : length ext = S (groups5 (length h))) by (subst ext; cbn [app length]; rewrite X1; reflexivity).
  assert (Dc : Forall d5 cs) by (subst cs; rewrite calc_checksum_digits; apply digits6_range).
  assert (Lc : length cs = 6%nat) by (subst cs; rewrite calc_checksum_digits; reflexivity).
 injection E as E. clear Ecs Ee. subst address. destruct p as [|c p]; [contradiction|]. pose proof (Forall_inv LP) as Hc. cbn beta in Hc.
  apply long_text_refused; [exact HH| | | |].
  - apply is_bytes_app. split; [eapply Forall_impl; [|exact LP]; cbn beta; unfold is_byte; lia|]. constructor; [unfold is_byte; lia|].
    apply Forall_forall. intros y Hy. apply in_map_iff in Hy as (d & <- & Hd). assert (D5 : Forall d5 (ext ++ cs)) by (apply Forall_app; auto). rewrite Forall_forall in D5. apply D5 in Hd.
    pose proof (bsym_facts2 d Hd) as (_ & _ & R & _). unfold is_byte. lia.
  - unfold zlen. cbn [app length]. rewrite app_length. cbn [app length]. rewrite map_length, app_length, Le, Lc. destruct L as [-> | ->]; vm_compute groups5; lia.
  - cbn [app hd]. lia.
  - intros B. apply NB. replace (p_bech32 (profile n)) with (hrp n) in B by (destruct n; reflexivity). exact (begins_sep (hrp n) (hrp_lower n) (c :: p) _ B).
Qed.

(** C148. Horizen: key hash and script hash addresses of its main network are paid to, those of its test network
    (0x2098, 0x2092) and of Bitcoin are refused. *)
Definition horizen_verdict (version : bytes) : paid := if beq version [32; 137] then ToKey else if beq version [32; 150] then ToScript else Refused.
Theorem horizen_pays : forall H version h address amount tail, hash_ok H -> In version [[32; 137]; [32; 150]; [32; 152]; [32; 146]; [0]; [5]] -> address_of H version h address ->
  both_outs H zen_main tail {| v_addr := address; v_amount := amount |} =
    (o <- output amount h (horizen_verdict version) ;; Ok [{| out_amount := out_amount o; out_lock := out_lock o ++ tail |}]).
Proof.
  intros H version h address amount tail HH I (Bh & L & N).
  assert (A : forallb (fun p => first_not 98 p && forallb (fun x => (0 <=? x) && (x <=? 255)) p) [[32; 137]; [32; 150]; [32; 152]; [32; 146]; [0]; [5]] = true) by (vm_compute; reflexivity).
  rewrite forallb_forall in A. specialize (A version I). apply andb_prop in A as [A1 A2].
  assert (Bp : is_bytes version) by (apply Forall_forall; intros x Hx; rewrite forallb_forall in A2; specialize (A2 x Hx); unfold is_byte; lia).
  assert (Np : version <> []) by (intros ->; cbn [In] in I; repeat (destruct I as [I|I]; [discriminate|]); destruct I).
  pose proof (first_not_ok H 98 version h address HH Np Bp Bh L A1 N [99]) as NB. apply address_text in N; try assumption.
  destruct (decode_check_encode_check H bitcoin_rs bitcoin_al version h HH bitcoin_alphabet_ok bitcoin_al_eq Bp Bh L) as (s & E1 & E2). assert (s = address) by congruence. subst s.
  unfold both_outs. cbn [v_addr v_amount]. destruct (is_prefix (p_bech32 zen_main) address) eqn:Q; [apply is_prefix_begins in Q; contradiction|]. cbn [bind]. unfold base58_script. rewrite E2. cbn [bind].
  assert (Lz : zlen h = 20) by (unfold zlen; lia). rewrite Lz. change (negb (20 =? 20)) with false. cbv iota zeta. cbn [andb]. rewrite orb_false_r.
  unfold horizen_verdict. change (p_p2pkh zen_main) with [32; 137]. change (p_p2wpkh zen_main) with [32; 150]. destruct (beq version [32; 137]); [reflexivity|]. destruct (beq version [32; 150]); reflexivity.
Qed.
(** C148. The Zcash profiles have an empty human-readable part: their own addresses (and all others in base58) are
    refused by btcTransaction. *)
Theorem zcash_pays_no_base58 : forall H ap v o, In ap [zec_main; zec_test] -> new_out H ap v = Ok o -> exists h, bech32_decode (v_addr v) = Ok h /\ out_lock o = [0; zlen h mod 256] ++ h.
Proof.
  intros H ap v o I E. unfold new_out in E. replace (is_prefix (p_bech32 ap) (v_addr v)) with true in E by (destruct I as [<-|[<-|[]]]; reflexivity).
  apply bind_ok in E as (h & D & E). injection E as <-. exists h. split; [exact D|reflexivity].
Qed.
(** C148. The packages that read base58 first pay Zcash's own addresses: versions of two bytes. *)
Definition zcash_verdict (test : bool) (version : bytes) : paid :=
  if beq version (if test then [29; 37] else [28; 184]) then ToKey else if beq version (if test then [28; 186] else [28; 189]) then ToScript else Refused.
Theorem fork_zcash_pays : forall H test version h address amount, hash_ok H -> is_bytes version -> version <> [] -> address_of H version h address ->
  fork_outs H (if test : bool then zec_test else zec_main) [{| v_addr := address; v_amount := amount |}] = (o <- output amount h (zcash_verdict test version) ;; Ok [o]).
Proof.
  intros H test version h address amount HH Bp Np (Bh & L & N). apply address_text in N; try assumption.
  destruct (decode_check_encode_check H bitcoin_rs bitcoin_al version h HH bitcoin_alphabet_ok bitcoin_al_eq Bp Bh L) as (s & E1 & E2). assert (s = address) by congruence. subst s.
  unfold fork_outs. change (zlen [{| v_addr := address; v_amount := amount |}] =? 0) with false. cbv iota. cbn [mapr v_addr v_amount]. unfold base58_script. rewrite E2. cbn [bind].
  assert (Lz : zlen h = 20) by (unfold zlen; lia). rewrite Lz. change (negb (20 =? 20)) with false. cbv iota zeta.
  assert (P : beq version [] = false) by (apply beq_neq; exact Np).
  unfold zcash_verdict. destruct test; cbn [p_p2pkh p_p2wpkh p_p2sh zec_main zec_test andb]; rewrite P, orb_false_r; clear P.
  - destruct (beq version [29; 37]); [reflexivity|]. destruct (beq version [28; 186]); reflexivity.
  - destruct (beq version [28; 184]); [reflexivity|]. destruct (beq version [28; 189]); reflexivity.
Qed.

(** ** The hypotheses can be met *)
(** A Bitcoin script hash address is paid on Litecoin, a Bitcoin key hash address is not, and test addresses are shared. *)
Example ex_shared : verdict Litecoin 5 = ToScript /\ verdict Litecoin 0 = Refused /\ verdict Bitcoin 48 = Refused /\ verdict Bitcoin 50 = Refused /\ verdict LitecoinTest 111 = ToKey /\ verdict Bitcoin 111 = Refused.
Proof. repeat split. Qed.
Example ex_network_address : hash_ok toy_hash /\ address_of toy_hash [5] (repeat 9 20) (ex_addr [5] 9) /\
  new_out toy_hash (profile Litecoin) {| v_addr := ex_addr [5] 9; v_amount := 7 |} = Ok {| out_amount := le_bytes 8 7; out_lock := [169; 20] ++ repeat 9 20 ++ [135] |}.
Proof.
  split; [exact toy_hash_ok|]. split; [|vm_compute; reflexivity]. assert (B : is_bytes (repeat 9 20)) by (apply Forall_forall; intros x Hx; apply repeat_spec in Hx; subst; unfold is_byte; lia).
  split; [exact B|]. split; [reflexivity|]. apply address_text; [exact toy_hash_ok|repeat constructor; lia|exact B|reflexivity|]. vm_compute. reflexivity.
Qed.
Example ex_regtest : exists address, bech32_encode (str "bcrt") bech32_alphabet (repeat 3 20) (Some [0]) = Ok address /\ lower_prefix (str "bcrt") /\ begins (hrp Bitcoin) (str "bcrt") /\ ~ begins (hrp Litecoin) (str "bcrt").
Proof.
  eexists. split; [vm_compute; reflexivity|]. split; [split; [discriminate|repeat constructor; cbv; congruence]|]. split; [exists (str "rt"); reflexivity|]. intros [r E]. discriminate.
Qed.
Print Assumptions network_pays.
Print Assumptions fork_network_pays.
Print Assumptions cxc_network_pays.
Print Assumptions foreign_address_stops_creation.
Print Assumptions longer_hrp_paid.
Print Assumptions foreign_hrp_refused.
Print Assumptions horizen_pays.
Print Assumptions zcash_pays_no_base58.
Print Assumptions fork_zcash_pays.
