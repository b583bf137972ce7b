(** AddressCheck: final theorems (C69). *)
From Coq Require Import String ZArith List Bool Lia ZifyBool ZifyNat.
From Verif Require Import Go GoFacts GoFacts2 Base58Model Base58Spec Base58Proofs Base58Props Base58CheckModel Base58CheckSpec Base58CheckProofs
  Bech32Model Bech32Spec Bech32Proofs Bech32Text Bech32Props Bech32mModel CashAddrModel CashAddrProps AddressModel AddressSpec AddressProofs AddressProfiles
  AddressKeyProofs Digits58 AddressProps AddressCheckModel AddressCheckSpec Toy.
Import ListNotations.
Open Scope Z_scope.
Ltac Zify.zify_post_hook ::= idtac.

(** ** Which profile a leading text selects *)
Fixpoint select (cs : list (list Z * addr_type)) (lead : list Z) : option addr_type :=
  match cs with
  | [] => None
  | (pat, T) :: r => match lead_test pat lead 0 with Ok true => Some T | Ok false => select r lead | _ => None end
  end.
Lemma idx_app_l {A} (l r : list A) i x : idx l i = Ok x -> idx (l ++ r) i = Ok x.
Proof. intros E. apply idx_ok in E as (a & b & -> & L). rewrite <- app_assoc. cbn [app]. apply idx_mid. lia. Qed.
Lemma lead_test_app pat lead r : forall i b, lead_test pat lead i = Ok b -> lead_test pat (lead ++ r) i = Ok b.
Proof.
  induction pat as [|c pat IH]; intros i b; cbn [lead_test]; [auto|].
  destruct (idx lead i) as [x| |] eqn:E; cbn [bind]; try discriminate. rewrite (idx_app_l lead r i x E). cbn [bind].
  destruct (x =? c); [apply IH|auto].
Qed.
Lemma select_app H cs lead r T : select cs lead = Some T ->
  check_cases H cs (lead ++ r) = match address_decode H (lead ++ r) T with Ok _ => Ok true | Err => Ok false | Panic => Panic end.
Proof.
  induction cs as [|[pat T'] cs IH]; cbn [select check_cases]; [discriminate|].
  destruct (lead_test pat lead 0) as [[]| |] eqn:E; try discriminate; intros K; rewrite (lead_test_app _ _ r _ _ E); cbn [bind].
  - injection K as ->. reflexivity.
  - apply IH, K.
Qed.
Definition addr_eqb (T U : addr_type) : bool :=
  beq (encode_type T) (encode_type U) && beq (alphabet_of T) (alphabet_of U) && beq (checksum_type T) (checksum_type U) &&
  beq (hash_type T) (hash_type U) && (hash_len T =? hash_len U) && beq (prefix_of T) (prefix_of U) && beq (suffix_of T) (suffix_of U).
Lemma addr_eqb_eq T U : addr_eqb T U = true -> T = U.
Proof.
  unfold addr_eqb. rewrite !andb_true_iff. intros ((((((A & B) & C) & D) & E) & F) & G). apply beq_eq in A, B, C, D, F, G. apply Z.eqb_eq in E.
  destruct T, U; cbn in *. subst. reflexivity.
Qed.
Definition selects cs lead T := match select cs lead with Some U => addr_eqb U T | None => false end.
Lemma selects_eq cs lead T : selects cs lead T = true -> select cs lead = Some T.
Proof. unfold selects. destruct (select cs lead); [|discriminate]. intros E. apply addr_eqb_eq in E. congruence. Qed.
Definition zrange (a b : Z) : list Z := map (fun i => a + Z.of_nat i) (seq 0 (Z.to_nat (b - a + 1))).
Lemma in_zrange a b x : a <= x <= b -> In x (zrange a b).
Proof. intros Hx. apply in_map_iff. exists (Z.to_nat (x - a)). split; [lia|]. apply in_seq. lia. Qed.

(** Every possible lead of a base58 profile's addresses selects that profile. *)
Definition body_len (T : addr_type) : Z := hash_len T + zlen (suffix_of T) + 4.
Definition lead_lo (T : addr_type) := be_num (prefix_of T) * 256 ^ body_len T.
Definition lead_hi (T : addr_type) := (be_num (prefix_of T) + 1) * 256 ^ body_len T - 1.
Definition leads_ok (cs : list (list Z * addr_type)) (T : addr_type) : bool :=
  if hd 1 (prefix_of T) =? 0 then selects cs [symbol (alphabet_of T) 0] T else
  let lo := lead_lo T in let hi := lead_hi T in
  existsb (fun k => if (58 ^ (Z.of_nat k - 1) <=? lo) && (hi <? 58 ^ Z.of_nat k) then
      forallb (fun q => selects cs (map (symbol (alphabet_of T)) (digits58 3 q)) T)
        (zrange (lo / 58 ^ Z.of_nat (k - 3)) (hi / 58 ^ Z.of_nat (k - 3))) else false) (seq 30 15).
Lemma framed_value T f h : hash_ok f -> is_bytes (framed T h) -> is_bytes h -> is_bytes (suffix_of T) -> zlen h = hash_len T ->
  lead_lo T <= be_num (checked f (framed T h)) <= lead_hi T.
Proof.
  intros Hf Fb Hh Hs L. unfold checked.
  assert (Hc : is_bytes (firstn 4 (f (framed T h)))) by (apply firstn_bytes, Hf, Fb).
  assert (Lc : zlen (firstn 4 (f (framed T h))) = 4) by (destruct (Hf _ Fb) as [_ Q]; unfold zlen; rewrite firstn_length; unfold zlen in Q; lia).
  set (c := firstn 4 (f (framed T h))) in *. unfold framed. rewrite <- !app_assoc. rewrite be_num_app.
  set (x := h ++ suffix_of T ++ c). assert (Hx : is_bytes x) by (unfold x; apply is_bytes_app; split; [exact Hh|]; apply is_bytes_app; auto).
  assert (Lx : zlen x = body_len T) by (unfold x, body_len; rewrite !zlen_app; lia).
  pose proof (be_num_bound x Hx) as B. rewrite Lx in *. unfold lead_lo, lead_hi. set (P := 256 ^ body_len T) in *. nia.
Qed.
Lemma base58_lead0 rs b s : is_base58_of rs b s -> hd 1 b = 0 -> exists r, s = [symbol rs 0] ++ r.
Proof.
  intros (n & rest & ds & -> & Hr & _ & _ & _ & ->) Hh. destruct n as [|n]; [cbn in Hh; contradiction|].
  exists (repeat (symbol rs 0) n ++ map (symbol rs) ds). reflexivity.
Qed.
Lemma leads_select H T f h s cs : hashes_ok H -> base58_profile H T f -> prefix_of T <> [] -> is_bytes h -> zlen h = hash_len T ->
  is_base58_of (alphabet_of T) (checked f (framed T h)) s -> leads_ok cs T = true ->
  exists lead r, s = lead ++ r /\ select cs lead = Some T.
Proof.
  intros HH HT Np Hh L N C. pose proof HT as (_ & A & R & Hp & Hs). pose proof (rule_hash_ok H HH _ _ R) as Hf.
  pose proof (framed_bytes H T f HT h Hh) as Fb.
  assert (Hd : hd 1 (checked f (framed T h)) = hd 1 (prefix_of T)).
  { unfold checked, framed. destruct (prefix_of T); [contradiction|reflexivity]. }
  unfold leads_ok in C. destruct (hd 1 (prefix_of T) =? 0) eqn:Z0.
  - apply selects_eq in C. destruct (base58_lead0 _ _ _ N) as (r & ->); [lia|]. eauto.
  - apply existsb_exists in C as (k & Kk & C). apply in_seq in Kk.
    destruct (_ && _) eqn:C2 in C; [|discriminate]. rename C into F. apply andb_prop in C2 as [Clo Chi].
    pose proof (framed_value T f h Hf Fb Hh Hs L) as B.
    destruct (base58_lead (alphabet_of T) _ s k 3 (lead_lo T) (lead_hi T) N) as (q & r & Q & ->); try lia.
    + apply checked_bytes; assumption.
    + rewrite forallb_forall in F. specialize (F q (in_zrange _ _ _ Q)). apply selects_eq in F. eauto.
Qed.

(** ** Completeness: addresses of the listed profiles are accepted *)
Definition check_pair_ok (cs : list (list Z * addr_type)) (T : addr_type) : bool :=
  if addr_eqb T NAS_SmartContractAddress then true else
  if beq (encode_type T) (str "base58") then base58_profileb T && negb (beq (prefix_of T) []) && leads_ok cs T else
  if beq (encode_type T) (str "bech32") then beq (alphabet_of T) bech32_alphabet && beq (prefix_of T) [0] && (hash_len T =? 20) &&
   negb (beq (checksum_type T) []) && forallb (fun c => (97 <=? c) && (c <=? 122)) (checksum_type T) && selects cs (checksum_type T) T else
  if addr_eqb T BCH_mainnetAddressCash then selects cs (str "bitcoincash:") T else
  if addr_eqb T ETH_mainnetPublicAddress then selects cs [] T else
  if addr_eqb T ICX_walletAddress then selects cs (str "hx") T else false.
Lemma check_table_ok : forallb (fun e => forallb (fun p => check_pair_ok (snd e) (snd p)) (snd e)) check_table = true.
Proof. vm_cast_no_check (eq_refl true). Qed.
Lemma lookup_in sym cs : In (sym, cs) check_table -> lookup_symbol check_table sym = Some cs.
Proof.
  intros Hin.
  unfold check_table in *. cbn [In] in Hin. repeat (destruct Hin as [E|Hin]; [injection E as <- <-; reflexivity|]). contradiction.
Qed.
Lemma table_complete : forall H sym cs pat T h s,
  hashes_ok H -> In (sym, cs) check_table -> In (pat, T) cs -> T <> NAS_SmartContractAddress ->
  is_bytes h -> zlen h = hash_len T -> address_encode H h T = Ok s -> address_check H s sym = Ok true.
Proof.
  intros H sym cs pat T h s HH Hin Hp NT Hh L E. unfold address_check. rewrite (lookup_in _ _ Hin).
  pose proof check_table_ok as C. rewrite forallb_forall in C. specialize (C _ Hin). cbv beta in C. cbn [snd] in C.
  rewrite forallb_forall in C. specialize (C _ Hp). cbv beta in C. cbn [snd] in C. unfold check_pair_ok in C.
  assert (G : (exists lead r, s = lead ++ r /\ select cs lead = Some T) -> (exists v, address_decode H s T = Ok v) -> check_cases H cs s = Ok true).
  { intros (lead & r & -> & S) (v & D). rewrite (select_app H cs lead r T S), D. reflexivity. }
  destruct (addr_eqb T NAS_SmartContractAddress) eqn:C0; [|clear C0; destruct (beq (encode_type T) (str "base58")) eqn:C0;
    [|clear C0; destruct (beq (encode_type T) (str "bech32")) eqn:C1; [|clear C1; destruct (addr_eqb T BCH_mainnetAddressCash) eqn:C1;
    [|clear C1; destruct (addr_eqb T ETH_mainnetPublicAddress) eqn:C1; [|clear C1; destruct (addr_eqb T ICX_walletAddress) eqn:C1; [|discriminate]]]]]].
  - apply addr_eqb_eq in C0. contradiction.
  - rewrite !andb_true_iff in C. destruct C as ((C1 & C2) & C3). apply negb_true_iff, beq_neq in C2.
    destruct (base58_profileb_ok H T C1) as (f & HT). destruct (address_decode_encode H T f h HH HT Hh L) as (s' & E' & D & N).
    rewrite E in E'. injection E' as <-. apply G; [|eauto]. apply (leads_select H T f h s cs); assumption.
  - rewrite !andb_true_iff in C. destruct C as (((((C2 & C3) & C4) & C5) & C6) & C7).
    apply beq_eq in C1, C2, C3. apply negb_true_iff, beq_neq in C5. apply selects_eq in C7.
    assert (Hlp : lower_prefix (checksum_type T)).
    { split; [exact C5|]. apply Forall_forall. intros c Hc. rewrite forallb_forall in C6. specialize (C6 c Hc). cbv beta in C6. lia. }
    destruct (bech32_roundtrip_20 (checksum_type T) h (Some [0]) Hlp Hh) as (s' & E' & D); [unfold zlen in L; lia|right; exists 0; split; [lia|reflexivity]|].
    assert (Es : address_encode H h T = Ok s') by (unfold address_encode; rewrite C1, C2, C3; exact E').
    rewrite E in Es. injection Es as <-. apply G.
    + unfold bech32_encode in E'. apply bind_ok in E' as (t & _ & Q). injection Q as <-. eauto.
    + exists h. unfold address_decode. rewrite C1. exact D.
  - rename C into C2. apply addr_eqb_eq in C1. subst T. apply selects_eq in C2. 
    change (hash_len BCH_mainnetAddressCash) with 21 in L. destruct h as [|v h]; [change (zlen (@nil Z)) with 0 in L; lia|]. rewrite zlen_cons in L.
    destruct (cash_roundtrip (str "bitcoincash") v h) as (s' & E' & D); [|exact Hh|].
    { split; [discriminate|]. apply Forall_forall. intros c Hc. cbn in Hc. repeat destruct Hc as [<-|Hc]; try lia. }
    assert (Es : address_encode H (v :: h) BCH_mainnetAddressCash = Ok s').
    { unfold address_encode. rewrite zlen_cons, L. exact E'. }
    rewrite E in Es. injection Es as <-. apply G.
    + unfold cash_encode in E'. apply bind_ok in E' as (ext & _ & E'). apply bind_ok in E' as (t & _ & Q). injection Q as <-.
      exists (str "bitcoincash:"), t. split; [reflexivity|exact C2].
    + exists ((8 * v) mod 256 :: h). unfold address_decode. change (ret <- cash_decode s ;; (if zlen ret =? 21 then Ok ret else Err) = Ok ((8 * v) mod 256 :: h)).
      rewrite D. cbn [bind]. rewrite zlen_cons, L. reflexivity.
  - rename C into C2. apply addr_eqb_eq in C1. subst T. apply selects_eq in C2. 
    change (hash_len ETH_mainnetPublicAddress) with 32 in L.
    rewrite <- (firstn_skipn 12 h) in E, Hh. apply is_bytes_app in Hh as [_ Hh].
    destruct (eth_encode_roundtrip H (firstn 12 h) (skipn 12 h) Hh) as (E' & D & _); [rewrite firstn_length; unfold zlen in L; lia|rewrite skipn_length; unfold zlen in L; lia|].
    rewrite E in E'. injection E' as ->. apply G; [exists [], (hex_encode (skipn 12 h)); auto|eauto].
  - rename C into C2. apply addr_eqb_eq in C1. subst T. apply selects_eq in C2. 
    change (hash_len ICX_walletAddress) with 20 in L.
    destruct (icx_roundtrip H h Hh) as (E' & D); [unfold zlen in L; lia|]. rewrite E in E'. injection E' as ->.
    apply G; [exists (str "hx"), (hex_encode h); auto|eauto].
Qed.

(** ** Soundness: acceptance means that a profile of the symbol decodes the text *)
Lemma lead_test_true pat : forall s i, 0 <= i -> lead_test pat s i = Ok true -> exists r, skipn (Z.to_nat i) s = pat ++ r.
Proof.
  induction pat as [|c pat IH]; intros s i Hi; cbn [lead_test]; [intros _; eexists; reflexivity|].
  destruct (idx s i) as [x| |] eqn:E; cbn [bind]; try discriminate. destruct (x =? c) eqn:Ex; [|discriminate]. intros K.
  apply IH in K as (r & K); [|lia]. exists r. apply idx_ok in E as (a & b & -> & L).
  assert (x = c) by lia. subst x. replace (Z.to_nat i) with (length a) by (unfold zlen in L; lia).
  replace (Z.to_nat (i + 1)) with (length (a ++ [c])) in K by (rewrite app_length; cbn [length]; unfold zlen in L; lia).
  rewrite skipn_app, skipn_all, Nat.sub_diag. cbn [app skipn]. f_equal.
  replace (a ++ c :: b) with ((a ++ [c]) ++ b) in K by (rewrite <- app_assoc; reflexivity).
  rewrite skipn_app, skipn_all, Nat.sub_diag in K. exact K.
Qed.
Lemma table_sound : forall H s sym cs, In (sym, cs) check_table -> address_check H s sym = Ok true ->
  exists pat T r v, In (pat, T) cs /\ s = pat ++ r /\ address_decode H s T = Ok v.
Proof.
  intros H s sym cs Hin. unfold address_check. rewrite (lookup_in _ _ Hin). clear Hin.
  induction cs as [|[pat T] cs IH]; cbn [check_cases]; [discriminate|].
  destruct (lead_test pat s 0) as [[]| |] eqn:E; cbn [bind]; try discriminate.
  - destruct (address_decode H s T) as [v| |] eqn:D; try discriminate. intros _.
    apply lead_test_true in E as (r & E); [|lia]. exists pat, T, r, v. split; [left; reflexivity|]. split; [exact E|exact D].
  - intros K. destruct (IH K) as (p & U & r & v & I & Q). exists p, U, r, v. split; [right; exact I|exact Q].
Qed.

(** ** The same, for the specification's list of profiles *)
Definition same_profiles : bool :=
  forallb (fun e => match lookup_symbol check_table (fst e) with
    | Some cs => forallb (fun T => existsb (fun p => addr_eqb (snd p) T) cs) (snd e) && forallb (fun p => existsb (addr_eqb (snd p)) (snd e)) cs
    | None => false end) coin_profiles.
Lemma same_profiles_ok : same_profiles = true.
Proof. vm_cast_no_check (eq_refl true). Qed.
Lemma lookup_in_table {A} (tbl : list (list Z * A)) sym cs : lookup_symbol tbl sym = Some cs -> In (sym, cs) tbl.
Proof.
  induction tbl as [|[a b] tbl IH]; cbn [lookup_symbol]; [discriminate|]. destruct (beq a sym) eqn:E; [|right; apply IH; assumption].
  apply beq_eq in E. intros Q. injection Q as ->. subst. left. reflexivity.
Qed.
Lemma profiles_table sym Ts : In (sym, Ts) coin_profiles -> exists cs, In (sym, cs) check_table /\
  (forall T, In T Ts -> exists pat, In (pat, T) cs) /\ (forall pat T, In (pat, T) cs -> In T Ts).
Proof.
  intros Hin. pose proof same_profiles_ok as C. unfold same_profiles in C. rewrite forallb_forall in C. specialize (C _ Hin). cbv beta in C. cbn [fst snd] in C.
  destruct (lookup_symbol check_table sym) as [cs|] eqn:L; [|discriminate]. exists cs. split; [apply lookup_in_table, L|]. apply andb_prop in C as [C1 C2]. rewrite forallb_forall in C1, C2. split.
  - intros T HT. specialize (C1 T HT). apply existsb_exists in C1 as ([pat U] & I & E). cbn [snd] in E. apply addr_eqb_eq in E. subst U. exists pat. exact I.
  - intros pat T HT. specialize (C2 _ HT). cbn [snd] in C2. apply existsb_exists in C2 as (U & I & E). apply addr_eqb_eq in E. subst U. exact I.
Qed.
Theorem address_check_complete : forall H sym Ts T h s,
  hashes_ok H -> In (sym, Ts) coin_profiles -> In T Ts -> T <> NAS_SmartContractAddress ->
  is_bytes h -> zlen h = hash_len T -> address_encode H h T = Ok s -> address_check H s sym = Ok true.
Proof.
  intros H sym Ts T h s HH Hin HT NT Hh L E. destruct (profiles_table _ _ Hin) as (cs & I & A & _). destruct (A T HT) as (pat & P).
  exact (table_complete H sym cs pat T h s HH I P NT Hh L E).
Qed.
Theorem address_check_sound : forall H s sym Ts, In (sym, Ts) coin_profiles -> address_check H s sym = Ok true ->
  exists T v, In T Ts /\ address_decode H s T = Ok v.
Proof.
  intros H s sym Ts Hin E. destruct (profiles_table _ _ Hin) as (cs & I & _ & B). destruct (table_sound H s sym cs I E) as (pat & T & r & v & J & _ & D). exists T, v. split; [exact (B _ _ J)|exact D].
Qed.

(** ** Symbols outside the table are not checked at all *)
Definition checked_symbols : list (list Z) :=
  map str ["BTC"; "ZEC"; "LTC"; "BCH"; "XTZ"; "HC"; "ETH"; "QTUM"; "DCRD"; "NAS"; "TRX"; "ICX"; "VSYS"]%string.
Theorem address_check_other_symbols : forall H s sym, ~ In sym checked_symbols -> address_check H s sym = Ok true.
Proof.
  intros H s sym N. unfold address_check. replace (lookup_symbol check_table sym) with (@None (list (list Z * addr_type))); [reflexivity|].
  symmetry. assert (G : forall tbl : list (list Z * list (list Z * addr_type)), ~ In sym (map fst tbl) -> lookup_symbol tbl sym = None).
  { induction tbl as [|[a b] tbl IH]; cbn [map fst In lookup_symbol]; [reflexivity|]. intros K.
    replace (beq a sym) with false; [apply IH; tauto|]. symmetry. apply beq_neq. tauto. }
  apply G. exact N.
Qed.

(** ** The empty text makes every checked symbol panic *)
Theorem address_check_empty_panics : forall H sym, In sym checked_symbols -> address_check H [] sym = Panic.
Proof. intros H sym Hs. cbn [checked_symbols map In] in Hs. repeat (destruct Hs as [<-|Hs]; [reflexivity|]). contradiction. Qed.

(** ** Contract addresses of NAS whose second character is '1' are rejected *)
Theorem nas_contract_rejected : forall H b h s, hashes_ok H -> is_bytes (b :: h) -> length h = 19%nat -> b < 231 ->
  address_encode H (b :: h) NAS_SmartContractAddress = Ok s -> 
  address_decode H s NAS_SmartContractAddress = Ok (b :: h) /\ address_check H s (str "NAS") = Ok false.
Proof.
  intros H b h s HH Hh Lh Hb E.
  destruct (base58_profileb_ok H NAS_SmartContractAddress) as (f & HT); [vm_compute; reflexivity|].
  destruct (base58_profileb_ok H NAS_AccountAddress) as (f' & HT'); [vm_compute; reflexivity|].
  assert (L : zlen (b :: h) = hash_len NAS_SmartContractAddress) by (rewrite zlen_cons; unfold zlen; rewrite Lh; reflexivity).
  destruct (address_decode_encode H _ f (b :: h) HH HT Hh L) as (s' & E' & D & N). rewrite E in E'. injection E' as <-.
  split; [exact D|]. pose proof HT as (_ & A & R & Hp & Hs). pose proof (rule_hash_ok H HH _ _ R) as Hf.
  fold (framed NAS_SmartContractAddress (b :: h)) in N. pose proof (framed_bytes H _ f HT _ Hh) as Fb.
  assert (Hc : is_bytes (checked f (framed NAS_SmartContractAddress (b :: h)))) by (apply checked_bytes; assumption).
  assert (Ef : f' = f). { destruct HT as (_ & _ & R1 & _), HT' as (_ & _ & R2 & _). clear - R1 R2.
    change (checksum_type NAS_AccountAddress) with (str "sha3_256") in R2. change (checksum_type NAS_SmartContractAddress) with (str "sha3_256") in R1.
    inversion R1; inversion R2; congruence. }
  subst f'.
  assert (Hv : be_num (prefix_of NAS_SmartContractAddress) * 256 ^ 24 <= be_num (checked f (framed NAS_SmartContractAddress (b :: h))) <= (be_num (prefix_of NAS_SmartContractAddress) * 256 + 231) * 256 ^ 23 - 1).
  { unfold checked. set (c := firstn 4 (f (framed NAS_SmartContractAddress (b :: h)))).
    assert (Hcb : is_bytes c) by (apply firstn_bytes, Hf, Fb).
    assert (Lc : zlen c = 4) by (unfold c; destruct (Hf _ Fb) as [_ Q]; unfold zlen in *; rewrite firstn_length; lia).
    unfold framed. change (suffix_of NAS_SmartContractAddress) with (@nil Z). rewrite app_nil_r. rewrite <- app_assoc, be_num_app.
    change ((b :: h) ++ c) with (b :: (h ++ c)). rewrite be_num_cons, zlen_cons.
    assert (Hx : is_bytes (h ++ c)) by (apply is_bytes_cons in Hh; apply is_bytes_app; tauto).
    assert (Lx : zlen (h ++ c) = 23) by (rewrite zlen_app, Lc; unfold zlen; lia).
    pose proof (be_num_bound _ Hx) as B. rewrite Lx in *. apply is_bytes_cons in Hh as [Hb0 _]. unfold is_byte in Hb0.
    change (be_num (prefix_of NAS_SmartContractAddress)) with 6488. change (1 + 23) with 24. change (256 ^ 24) with (256 * 256 ^ 23).
    set (P := 256 ^ 23) in *. assert (0 < P) by reflexivity. nia. }
  assert (Elo : be_num (prefix_of NAS_SmartContractAddress) * 256 ^ 24 = 40725836059188784795766601777771339707672082123682655919669248) by (vm_compute; reflexivity).
  assert (Ehi : (be_num (prefix_of NAS_SmartContractAddress) * 256 + 231) * 256 ^ 23 - 1 = 40731500162707825120987094228383687250414736983478246513311743) by (vm_compute; reflexivity).
  rewrite Elo, Ehi in Hv. clear Elo Ehi.
  destruct (base58_lead (alphabet_of NAS_SmartContractAddress) _ s 35 2 40725836059188784795766601777771339707672082123682655919669248 40731500162707825120987094228383687250414736983478246513311743 N Hc) as (q & r & Q & Es); [discriminate|lia|lia| | |exact Hv|].
  { vm_compute. discriminate. } { vm_compute. reflexivity. }
  change (Z.of_nat (35 - 2)) with 33 in Q.
  replace (40725836059188784795766601777771339707672082123682655919669248 / 58 ^ 33) with 2610 in Q by (vm_compute; reflexivity).
  replace (40731500162707825120987094228383687250414736983478246513311743 / 58 ^ 33) with 2610 in Q by (vm_compute; reflexivity).
  assert (Eq : q = 2610) by lia.
  subst q. change (map (symbol (alphabet_of NAS_SmartContractAddress)) (digits58 2 2610)) with (str "n1") in Es.
  unfold address_check. assert (Hl : lookup_symbol check_table (str "NAS") = Some [(str "n1", NAS_AccountAddress); (str "n2", NAS_SmartContractAddress)]) by reflexivity.
  rewrite Hl. rewrite Es at 1. rewrite (select_app H _ (str "n1") r NAS_AccountAddress) by reflexivity. rewrite <- Es.
  assert (Sb : is_bytes s) by (apply (numeral_bytes H _ f HT _ s Hc N)).
  pose proof (address_decode_total H HH _ f HT' s Sb) as K.
  destruct (new_alphabet_accepts _ A) as (al & Hal).
  assert (U : forall d, is_bytes d -> is_base58_of (alphabet_of NAS_AccountAddress) (checked f d) s -> d = framed NAS_SmartContractAddress (b :: h)).
  { intros d Hd N'. apply (checked_inj f Hf); try assumption.
    apply (numeral_decode H _ f HT al) in N; [|assumption|assumption].
    apply (numeral_decode H _ f HT' al) in N'; [|assumption|apply checked_bytes; assumption]. congruence. }
  destruct (address_decode H s NAS_AccountAddress) as [v| |] eqn:EA; [|reflexivity|].
  - exfalso. destruct K as (Hv' & _ & N' & _). apply U in N'; [|apply (framed_bytes H _ f HT'), Hv'].
    unfold framed in N'. change (prefix_of NAS_AccountAddress) with [25; 87] in N'. change (prefix_of NAS_SmartContractAddress) with [25; 88] in N'. cbn [app] in N'. congruence.
  - exfalso. destruct K as (d & Hd & N' & S). apply U in N'; [|exact Hd]. subst d. unfold recover_short, framed in S.
    change (prefix_of NAS_AccountAddress) with [25; 87] in S. change (prefix_of NAS_SmartContractAddress) with [25; 88] in S. cbn [app] in S.
    destruct S as [(x & q & S)|[[(q & S) _]|[(q & S) _]]]; congruence.
Qed.
Example nas_contract_example :
  exists s, address_encode toy_hashes (repeat 5 20) NAS_SmartContractAddress = Ok s /\ address_check toy_hashes s (str "NAS") = Ok false.
Proof. eexists. split; [vm_compute; reflexivity|]. vm_compute. reflexivity. Qed.

(** ** A short text makes AddressCheck panic for BTC: the real double SHA-256 of the empty string starts with
    5d f6 e0 e2, so "3QJmnh" is a correct Base58Check text of the empty body. *)
Theorem address_check_btc_short_panic : forall H, hashes_ok H ->
  firstn 4 (H DoubleSha256 []) = [93; 246; 224; 226] -> address_check H (str "3QJmnh") (str "BTC") = Panic.
Proof.
  intros H HH E. change (address_check H (str "3QJmnh") (str "BTC")) with
    (match address_decode H (str "3QJmnh") BTC_mainnetAddressP2SH with Ok _ => Ok true | Err => Ok false | Panic => Panic end).
  assert (HT : base58_profile H BTC_mainnetAddressP2SH (H DoubleSha256)).
  { split; [reflexivity|]. split; [apply alphabet_ok_dec; vm_compute; reflexivity|]. split; [exact (rule_sha2 H)|].
    split; apply forallb_bytes; reflexivity. }
  replace (address_decode H (str "3QJmnh") BTC_mainnetAddressP2SH) with (@Panic bytes); [reflexivity|]. symmetry.
  apply (address_decode_panics_iff H _ _ _ HH HT); [apply forallb_bytes; reflexivity|].
  exists []. split; [constructor|]. split.
  - unfold checked. cbn [app]. rewrite E. exists O, [93; 246; 224; 226], [2; 23; 17; 44; 45; 40]. split; [reflexivity|]. split; [discriminate|].
    split; [repeat constructor; lia|]. split; [discriminate|]. split; reflexivity.
  - left. exists 5, []. reflexivity.
Qed.
Example short_panic_hypotheses_met : exists H, hashes_ok H /\ firstn 4 (H DoubleSha256 []) = [93; 246; 224; 226].
Proof.
  exists (fun a d => match a, d with DoubleSha256, [] => [93; 246; 224; 226] ++ repeat 0 28 | _, _ => toy_hashes a d end). split; [|reflexivity].
  intros a d Hd. destruct a; try apply (toy_hashes_ok _ d Hd). destruct d; [|apply (toy_hashes_ok DoubleSha256 _ Hd)].
  split; [apply forallb_bytes; reflexivity|reflexivity].
Qed.
Example address_check_example :
  exists s, address_encode toy_hashes (repeat 9 20) LTC_mainnetAddressP2SH = Ok s /\ address_check toy_hashes s (str "LTC") = Ok true /\
    address_check toy_hashes s (str "QTUM") = Ok false /\ address_check toy_hashes s (str "DOGE") = Ok true.
Proof. eexists. split; [vm_compute; reflexivity|]. split; [|split]; vm_compute; reflexivity. Qed.

Print Assumptions address_check_complete.
Print Assumptions address_check_sound.
Print Assumptions nas_contract_rejected.
Print Assumptions address_check_btc_short_panic.
