(** C36, C37, C73: multi-signature scripts, their address and the counting of signatures. *)
From Coq Require Import String ZArith List Bool Lia ZifyBool ZifyNat.
From Verif Require Import Go GoFacts GoFacts2 Rd Base58Model Base58Spec Base58Proofs Base58Props Base58CheckModel Base58CheckSpec Base58CheckProofs Base58CheckProps
  Bech32Model Bech32Spec BtcModel BtcSpec BtcProofs BtcTxProofs BtcTxProps BtcSigProps SigModel SigDerProps BtcVerModel BtcVerProps Toy.
Import ListNotations.
Open Scope Z_scope.
Ltac Zify.zify_post_hook ::= idtac.

(** ** Specification *)
(** OP_m, a push of every key, OP_n, OP_CHECKMULTISIG. *)
Definition multisig_script (m : Z) (keys : list bytes) : bytes :=
  (0x50 + m) :: concat (map (fun k => zlen k :: k) keys) ++ [0x50 + zlen keys; 0xAE].
(** Lengths of the two hashes used. *)
Definition script_hashes_ok (sha h160 : bytes -> bytes) : Prop :=
  forall d, is_bytes d -> is_bytes (sha d) /\ is_bytes (h160 d) /\ length (h160 d) = 20%nat.
Definition script_hash (sha h160 : bytes -> bytes) (segwitOn : bool) (script : bytes) : bytes :=
  if segwitOn then h160 ([0x00; 0x20] ++ sha script) else h160 script.

(** ** Lemmas *)
Lemma multi_keys_ok (keys : list bytes) body : multi_keys keys = Ok body <-> Forall (fun k => zlen k = 33 \/ zlen k = 65) keys /\ body = concat (map (fun k => zlen k :: k) keys).
Proof.
  revert body. induction keys as [|k keys IH]; intros body; cbn [multi_keys map concat].
  - split; [intros [= <-]; split; [constructor|reflexivity]|intros [_ ->]; reflexivity].
  - destruct (zlen k =? 33) eqn:A; [|destruct (zlen k =? 65) eqn:B]; cbn [negb andb].
    + rewrite u8_small by lia. split.
      * intros E. apply bind_ok in E as (t & Et & E). injection E as <-. apply IH in Et as [F ->]. split; [constructor; [lia|exact F]|reflexivity].
      * intros [F ->]. apply Forall_cons_iff in F as [_ F]. rewrite (proj2 (IH _) (conj F eq_refl)). reflexivity.
    + rewrite u8_small by lia. split.
      * intros E. apply bind_ok in E as (t & Et & E). injection E as <-. apply IH in Et as [F ->]. split; [constructor; [lia|exact F]|reflexivity].
      * intros [F ->]. apply Forall_cons_iff in F as [_ F]. rewrite (proj2 (IH _) (conj F eq_refl)). reflexivity.
    + split; [discriminate|]. intros [F _]. apply Forall_cons_iff in F as [F _]. lia.
Qed.
Lemma multisig_script_bytes m (keys : list bytes) : 1 <= m <= 16 -> zlen keys <= 16 -> Forall (fun k => zlen k = 33 \/ zlen k = 65) keys -> Forall is_bytes keys -> is_bytes (multisig_script m keys).
Proof.
  intros M N F B. unfold multisig_script. pose proof (zlen_nonneg keys). rewrite is_bytes_cons, is_bytes_app, !is_bytes_cons. unfold is_byte. split; [lia|]. split. 2: { split; [lia|]; split; [lia|constructor]. }
  apply is_bytes_concat. rewrite Forall_forall in *. intros x Hx. apply in_map_iff in Hx as (k & <- & Hk). apply is_bytes_cons. pose proof (F k Hk). split; [unfold is_byte; lia|apply B; exact Hk].
Qed.
Lemma script_len m (keys : list bytes) : Forall (fun k => zlen k = 33) keys -> zlen (multisig_script m keys) = 34 * zlen keys + 3.
Proof.
  intros F. unfold multisig_script. rewrite zlen_cons, zlen_app. change (zlen [80 + zlen keys; 174]) with 2.
  assert (G : zlen (concat (map (fun k => zlen k :: k) keys)) = 34 * zlen keys); [|lia].
  induction F as [|k keys Fk F IH]; [reflexivity|]. cbn [map concat]. rewrite zlen_app, !zlen_cons, IH. lia.
Qed.
Lemma keys_prefix (keys : list bytes) : forall ks b t x y, Forall (fun k => zlen k = 33 \/ zlen k = 65) keys -> Forall (fun k : bytes => zlen k = 33) ks -> x <> 33 -> y <> 33 ->
  concat (map (fun k => zlen k :: k) keys) ++ [x; y] = concat (map (fun k => 33 :: k) ks) ++ b :: t ->
  zlen ks <= zlen keys /\ (b = 65 \/ b = 33 \/ ks = keys).
Proof.
  induction keys as [|k keys IH]; intros ks b t x y F G Nx Ny E; cbn [map concat app] in E.
  - destruct ks as [|k' ks]; cbn [map concat app] in E; [split; [lia|auto]|]. injection E as E _. congruence.
  - apply Forall_cons_iff in F as [Fk F]. destruct ks as [|k' ks]; cbn [map concat app] in E.
    + split; [rewrite zlen_cons; change (zlen (@nil bytes)) with 0; pose proof (zlen_nonneg keys); lia|]. injection E as E _. lia.
    + apply Forall_cons_iff in G as [Gk G]. injection E as Ek E. assert (L : zlen k = 33) by lia. rewrite <- !app_assoc in E.
      assert (K : k = k') by (apply (f_equal (firstn 33)) in E; rewrite !firstn_app in E; unfold zlen in *; replace (33 - length k)%nat with 0%nat in E by lia; replace (33 - length k')%nat with 0%nat in E by lia; rewrite !firstn_O, !app_nil_r, !firstn_all2 in E by lia; exact E).
      subst k'. apply app_inv_head in E. destruct (IH ks b t x y F G Nx Ny E) as [L1 D]. rewrite !zlen_cons. split; [lia|]. destruct D as [D|[D|D]]; [auto|auto|right; right; congruence].
Qed.

Lemma detail_keys_no_panic fuel : forall rest, multi_detail_keys fuel rest <> Panic.
Proof.
  induction fuel as [|f IH]; intros [|b r]; cbn [multi_detail_keys need1]; try discriminate; destruct (negb _); try discriminate.
  unfold need. destruct (_ <? _); [discriminate|]. specialize (IH (skipn (Z.to_nat 33) r)). destruct (multi_detail_keys f _) as [[? ?]| |]; cbn [bind]; [discriminate|discriminate|congruence].
Qed.
Lemma multi_details_no_panic r : multi_details r <> Panic.
Proof.
  unfold multi_details. destruct r as [|b r]; cbn [need1]; [discriminate|]. cbv zeta. destruct (_ || _); [discriminate|].
  pose proof (detail_keys_no_panic (length r) r). destruct (multi_detail_keys _ r) as [[ks [|c t]]| |]; cbn [bind need1]; try congruence; try discriminate. cbv zeta. destruct (_ || _); discriminate.
Qed.

(** ** C36 *)
(** Exactly which threshold and keys are accepted, and what is returned. *)
Theorem create_multisig_iff : forall H sha h160 ap required keys segwitOn address text,
  hash_ok H -> prefixes_ok ap -> script_hashes_ok sha h160 -> Forall is_bytes keys -> 0 <= required < 256 ->
  create_multisig H sha h160 required keys segwitOn ap = Ok (address, text) <->
  1 <= required <= zlen keys /\ zlen keys <= 16 /\ Forall (fun k => zlen k = 33 \/ zlen k = 65) keys /\ zlen (multisig_script required keys) <= 520 /\
  hex_decode text = Ok (multisig_script required keys) /\ text = hex_encode (multisig_script required keys) /\
  is_base58_of bitcoin_rs (checked H (p_p2pkh ap ++ script_hash sha h160 segwitOn (multisig_script required keys))) address.
Proof.
  intros H sha h160 ap required keys sw address text HH HP HS B R. unfold create_multisig. pose proof (zlen_nonneg keys).
  destruct (required <? 1) eqn:C1; [split; [discriminate|lia]|].
  destruct (16 <? zlen keys) eqn:C3. { destruct (_ <? required); split; try discriminate; lia. }
  rewrite !(u8_small (zlen keys)) by lia. destruct (zlen keys <? required) eqn:C2; [split; [discriminate|lia]|].
  rewrite !u8_small by lia. replace (81 + required - 1) with (80 + required) by lia. replace (81 + zlen keys - 1) with (80 + zlen keys) by lia.
  assert (A : forall address, Forall (fun k => zlen k = 33 \/ zlen k = 65) keys -> is_base58_of bitcoin_rs (checked H (p_p2pkh ap ++ script_hash sha h160 sw (multisig_script required keys))) address <->
     encode_check bitcoin_al H (p_p2pkh ap) (script_hash sha h160 sw (multisig_script required keys)) = Ok address).
  { intros a F. assert (Bs : is_bytes (multisig_script required keys)) by (apply multisig_script_bytes; try assumption; lia). destruct (HS _ Bs) as (S1 & S2 & S3).
    assert (Bx : is_bytes ([0; 32] ++ sha (multisig_script required keys))) by (apply is_bytes_app; split; [repeat constructor; unfold is_byte; lia|exact S1]). destruct (HS _ Bx) as (_ & S4 & S5).
    apply address_text; [exact HH|apply HP| |]; unfold script_hash; destruct sw; assumption. }
  split.
  - intros E. apply bind_ok in E as (body & Eb & E). apply multi_keys_ok in Eb as [F ->]. fold (multisig_script required keys) in E. destruct (520 <? _) eqn:C4; [discriminate|]. fold (script_hash sha h160 sw (multisig_script required keys)) in E.
    apply bind_ok in E as (a & Ea & E). apply (f_equal (fun x => match x with Ok v => v | _ => ([], []) end)) in E. cbv beta iota in E. assert (a = address) by (apply (f_equal fst) in E; exact E). apply (f_equal snd) in E. cbn [snd] in E. subst.
    repeat (split; [assumption || lia|]). split; [apply hex_decode_encode; apply multisig_script_bytes; try assumption; lia|]. split; [reflexivity|]. apply A; assumption.
  - intros (_ & _ & F & L & _ & -> & N). rewrite (proj2 (multi_keys_ok keys _) (conj F eq_refl)). cbn [bind]. fold (multisig_script required keys). replace (520 <? zlen (multisig_script required keys)) with false by lia.
    fold (script_hash sha h160 sw (multisig_script required keys)). apply A in N; [|exact F]. rewrite N. reflexivity.
Qed.
(** With 33-byte keys the size limit means at most 15 keys. *)
Theorem at_most_15_keys : forall H sha h160 ap required keys segwitOn, hash_ok H -> prefixes_ok ap -> script_hashes_ok sha h160 -> Forall is_bytes keys -> 0 <= required < 256 ->
  Forall (fun k => zlen k = 33) keys ->
  ((exists r, create_multisig H sha h160 required keys segwitOn ap = Ok r) <-> 1 <= required <= zlen keys /\ zlen keys <= 15).
Proof.
  intros H sha h160 ap required keys sw HH HP HS B R F. assert (F2 : Forall (fun k => zlen k = 33 \/ zlen k = 65) keys) by (eapply Forall_impl; [|exact F]; intros; cbv beta in *; lia). split.
  - intros [[a t] E]. apply create_multisig_iff in E; try assumption. destruct E as (E1 & E2 & E3 & E4 & _). rewrite script_len in E4 by exact F. lia.
  - intros [M N]. assert (Bs : is_bytes (multisig_script required keys)) by (apply multisig_script_bytes; try assumption; lia).
    assert (X : exists a, is_base58_of bitcoin_rs (checked H (p_p2pkh ap ++ script_hash sha h160 sw (multisig_script required keys))) a).
    { destruct (base58_decode_encode bitcoin_rs bitcoin_al (checked H (p_p2pkh ap ++ script_hash sha h160 sw (multisig_script required keys))) bitcoin_alphabet_ok bitcoin_al_eq) as (s' & E & _).
      - apply checked_bytes; [exact HH|]. apply is_bytes_app. split; [apply HP|]. unfold script_hash. destruct sw; apply HS; [|exact Bs]. apply is_bytes_app. split; [repeat constructor; unfold is_byte; lia|apply HS; exact Bs].
      - exists s'. eapply base58_numeral; [exact bitcoin_alphabet_ok|exact bitcoin_al_eq| |exact E]. apply checked_bytes; [exact HH|]. apply is_bytes_app. split; [apply HP|]. unfold script_hash. destruct sw; apply HS; [|exact Bs]. apply is_bytes_app. split; [repeat constructor; unfold is_byte; lia|apply HS; exact Bs]. }
    destruct X as [a Na]. exists (a, hex_encode (multisig_script required keys)). apply create_multisig_iff; try assumption. rewrite script_len by exact F.
    repeat (split; [assumption || lia|]). split; [apply hex_decode_encode; exact Bs|]. split; [reflexivity|exact Na].
Qed.
(** Reading the script back: exact keys when all have 33 bytes, an error when a key of 65 bytes is among them. *)
Theorem multisig_script_read_back : forall H sha h160 ap required keys segwitOn address text,
  hash_ok H -> prefixes_ok ap -> script_hashes_ok sha h160 -> Forall is_bytes keys -> 0 <= required < 256 ->
  create_multisig H sha h160 required keys segwitOn ap = Ok (address, text) ->
  (script <- hex_decode text ;; multi_details script) = if forallb (fun k => zlen k =? 33) keys then Ok (required, keys) else Err.
Proof.
  intros H sha h160 ap required keys sw address text HH HP HS B R E. apply create_multisig_iff in E; try assumption. destruct E as (M & N & F & L & D & _ & _). rewrite D. cbn [bind].
  assert (Bs : is_bytes (multisig_script required keys)) by (apply multisig_script_bytes; try assumption; lia). pose proof (zlen_nonneg keys).
  destruct (forallb (fun k => zlen k =? 33) keys) eqn:A.
  - apply multi_details_iff; [exact Bs|]. assert (F3 : Forall (fun k => zlen k = 33) keys) by (rewrite forallb_forall in A; apply Forall_forall; intros k Hk; specialize (A k Hk); lia).
    unfold multisig_form. rewrite !Z.mod_small by lia. repeat (split; [assumption || lia|]). exists [174]. unfold multisig_script. f_equal. f_equal. f_equal. apply map_ext_in. intros k Hk. rewrite Forall_forall in F3. rewrite (F3 k Hk). reflexivity.
  - destruct (multi_details (multisig_script required keys)) as [[m ks]| |] eqn:E; [exfalso|reflexivity|exfalso].
    + apply multi_details_iff in E; [|exact Bs]. destruct E as (M' & M2 & M3 & F' & t & E). unfold multisig_script in E. apply (f_equal (@tl Z)) in E. cbn [tl] in E.
      apply keys_prefix in E; try assumption; try lia. destruct E as [L1 D']. pose proof (zlen_nonneg ks). rewrite !Z.mod_small in D' by lia. destruct D' as [D'|[D'|D']]; [lia|lia|]. subst ks.
      assert (X : forallb (fun k => zlen k =? 33) keys = true); [|congruence]. apply forallb_forall. intros k Hk. rewrite Forall_forall in F'. rewrite (F' k Hk). reflexivity.
    + eapply multi_details_no_panic. exact E.
Qed.

(** ** C73: the address of a multi-signature script *)
(** The address carries the key-hash prefix, so paying to it makes a pay-to-public-key-hash output of the script's hash. *)
Theorem multisig_address_pays_key_hash : forall H sha h160 ap required keys segwitOn address text amount,
  hash_ok H -> In ap base58_coins -> prefixes_ok ap -> script_hashes_ok sha h160 -> Forall is_bytes keys -> 0 <= required < 256 ->
  create_multisig H sha h160 required keys segwitOn ap = Ok (address, text) ->
  new_out H ap {| v_addr := address; v_amount := amount |} =
    Ok {| out_amount := le_bytes 8 amount; out_lock := p2pkh_script (script_hash sha h160 segwitOn (multisig_script required keys)) |} /\
  forall h, out_lock {| out_amount := le_bytes 8 amount; out_lock := p2pkh_script (script_hash sha h160 segwitOn (multisig_script required keys)) |} <> p2sh_script h.
Proof.
  intros H sha h160 ap required keys sw address text amount HH Hin HP HS B R E. apply create_multisig_iff in E; try assumption. destruct E as (M & N & F & L & D & _ & A).
  assert (Bs : is_bytes (multisig_script required keys)) by (apply multisig_script_bytes; try assumption; lia). destruct (HS _ Bs) as (S1 & S2 & S3).
  assert (Bx : is_bytes ([0; 32] ++ sha (multisig_script required keys))) by (apply is_bytes_app; split; [repeat constructor; unfold is_byte; lia|exact S1]). destruct (HS _ Bx) as (_ & S4 & S5).
  split; [|intros h; cbn [out_lock]; discriminate].
  apply (base58_address_paid H ap (p_p2pkh ap)); try assumption; try reflexivity; try (unfold script_hash; destruct sw; assumption).
  clear - Hin. cbn [In base58_coins] in Hin. unfold base58_coins in Hin. intros X. cbn [In] in Hin. repeat (destruct Hin as [<-|Hin]; [discriminate X|]). contradiction.
Qed.

(** ** C37: counting signatures *)
Section Count.
Variables (decompress : bytes -> bytes) (ecdsa : bytes -> bytes -> bytes -> bool) (h : bytes).
Hypothesis HD : forall k, decompress k <> [].
Definition valid_at (ms : list multi_tx) (i j : nat) : Prop :=
  exists mi mj, nth_error ms i = Some mi /\ nth_error ms j = Some mj /\ ecdsa (tl (decompress (sp_pub (m_sp mj)))) h (sp_sig (m_sp mi)) = true.
Lemma scan_keys_eq sig l : scan_keys decompress ecdsa h sig l = Ok (existsb (fun m => ecdsa (tl (decompress (sp_pub (m_sp m)))) h sig) l).
Proof.
  induction l as [|m l IH]; [reflexivity|]. cbn [scan_keys existsb]. pose proof (HD (sp_pub (m_sp m))) as D. destruct (decompress (sp_pub (m_sp m))) as [|d0 dk]; [congruence|]. rewrite slice_from_cons. cbn [bind tl].
  destruct (ecdsa dk h sig); [reflexivity|exact IH].
Qed.
Lemma scan_bound ms : forall n i count c, scan_sigs decompress ecdsa h ms n i count = Ok c -> (c <= count + n)%nat.
Proof.
  induction n as [|n IH]; intros i count c E; cbn [scan_sigs] in E; [injection E as <-; lia|]. destruct (length ms <=? count)%nat; [apply IH in E; lia|].
  destruct (nth_error ms i); [|discriminate]. rewrite scan_keys_eq in E. cbn [bind] in E. destruct (existsb _ _); apply IH in E; lia.
Qed.
Lemma scan_ok ms : forall n i count, (i + n <= length ms)%nat -> exists c, scan_sigs decompress ecdsa h ms n i count = Ok c.
Proof.
  induction n as [|n IH]; intros i count L; cbn [scan_sigs]; [eauto|]. destruct (length ms <=? count)%nat; [apply IH; lia|].
  destruct (nth_error ms i) eqn:E; [|apply nth_error_None in E; lia]. rewrite scan_keys_eq. cbn [bind]. apply IH. lia.
Qed.
Lemma scan_full ms : forall n i, (i + n <= length ms)%nat ->
  scan_sigs decompress ecdsa h ms n i i = Ok (i + n)%nat <-> forall k, (i <= k < i + n)%nat -> exists j, (k <= j)%nat /\ valid_at ms k j.
Proof.
  induction n as [|n IH]; intros i L.
  - cbn [scan_sigs]. rewrite Nat.add_0_r. split; [intros _ k Hk; lia|reflexivity].
  - cbn [scan_sigs]. replace (length ms <=? i)%nat with false by lia. destruct (nth_error ms i) as [mi|] eqn:Ei; [|apply nth_error_None in Ei; lia]. rewrite scan_keys_eq. cbn [bind].
    assert (X : existsb (fun m => ecdsa (tl (decompress (sp_pub (m_sp m)))) h (sp_sig (m_sp mi))) (skipn i ms) = true <-> exists j, (i <= j)%nat /\ valid_at ms i j).
    { rewrite existsb_exists. split.
      - intros (m & Hm & V). apply In_nth_error in Hm as (d & Hd). exists (i + d)%nat. split; [lia|]. exists mi, m. split; [exact Ei|]. split; [|exact V]. rewrite <- Hd. clear. revert ms. induction i as [|i IH]; intros ms; [reflexivity|]. destruct ms; [destruct d; reflexivity|]. cbn [skipn plus nth_error]. apply IH.
      - intros (j & Hj & (mi' & mj & E1 & E2 & V)). assert (mi' = mi) by congruence. subst mi'. exists mj. split; [|exact V]. apply nth_error_In with (n := (j - i)%nat). rewrite <- E2. clear - Hj. revert ms j Hj. induction i as [|i IH]; intros ms j Hj; [rewrite Nat.sub_0_r; reflexivity|]. destruct j; [lia|]. destruct ms; [destruct (S j - S i)%nat; reflexivity|]. cbn [skipn nth_error Nat.sub]. apply IH. lia. }
    destruct (existsb _ (skipn i ms)).
    + replace (i + S n)%nat with (S i + n)%nat by lia. rewrite IH by lia. split.
      * intros A k Hk. destruct (Nat.eq_dec k i) as [-> |Ne]; [apply X; reflexivity|apply A; lia].
      * intros A k Hk. apply A. lia.
    + split.
      * intros E. apply scan_bound in E. lia.
      * intros A. exfalso. assert (false = true) by (apply X; apply A; lia). discriminate.
Qed.
End Count.
(** The check of a multi-signature input accepts exactly when every one of the first [m] signatures is valid under some
    key at the same or a later position. Which keys the different signatures use is not compared. *)
Theorem multisig_check_iff : forall decompress ecdsa th h m, (forall k, decompress k <> []) -> hex_decode (th_hash th) = Ok h ->
  th_required th = Z.of_nat m -> (1 <= m <= length (th_multi th))%nat ->
  exists b, check_hash decompress ecdsa th = Ok b /\
  (b = true <-> forall i, (i < m)%nat -> exists j, (i <= j)%nat /\ valid_at decompress ecdsa h (th_multi th) i j).
Proof.
  intros decompress ecdsa th h m HD Eh Em M. unfold check_hash. rewrite Eh, Em. replace (Z.of_nat m =? 0) with false by lia. rewrite Nat2Z.id.
  destruct (scan_ok decompress ecdsa h HD (th_multi th) m 0 0 ltac:(lia)) as [c Ec]. rewrite Ec. cbn [bind]. eexists. split; [reflexivity|].
  pose proof (scan_full decompress ecdsa h HD (th_multi th) m 0 ltac:(lia)) as F. rewrite Ec in F. cbn [plus] in F. split.
  - intros E. assert (c = m) by lia. subst c. intros i Hi. apply F; [reflexivity|lia].
  - intros A. assert (Ok c = Ok m) as X by (apply F; intros k Hk; apply A; lia). injection X as ->. lia.
Qed.
(** One signature of the last key, given as many times as signatures are required, is accepted. *)
Theorem repeated_signature_accepted : forall decompress ecdsa th h m sig, (forall k, decompress k <> []) -> hex_decode (th_hash th) = Ok h ->
  th_required th = Z.of_nat m -> (1 <= m <= length (th_multi th))%nat ->
  (forall i e, (i < m)%nat -> nth_error (th_multi th) i = Some e -> sp_sig (m_sp e) = sig) ->
  (forall e, nth_error (th_multi th) (length (th_multi th) - 1) = Some e -> ecdsa (tl (decompress (sp_pub (m_sp e)))) h sig = true) ->
  check_hash decompress ecdsa th = Ok true.
Proof.
  intros decompress ecdsa th h m sig HD Eh Em M S V. destruct (multisig_check_iff decompress ecdsa th h m HD Eh Em M) as (b & E & I). rewrite E. f_equal. apply I.
  intros i Hi. exists (length (th_multi th) - 1)%nat. split; [lia|]. 
  destruct (nth_error (th_multi th) i) as [ei|] eqn:Ei; [|apply nth_error_None in Ei; lia].
  destruct (nth_error (th_multi th) (length (th_multi th) - 1)) as [ej|] eqn:Ej; [|apply nth_error_None in Ej; lia].
  exists ei, ej. split; [exact Ei|]. split; [exact Ej|]. rewrite (S i ei Hi Ei). apply V. reflexivity.
Qed.

(** ** Examples *)
Definition toy160 (d : bytes) : bytes := firstn 20 (toy_hash d).
Lemma toy_script_hashes : script_hashes_ok toy_hash toy160.
Proof.
  intros d _. unfold toy160, toy_hash. split; [apply be_bytes_is_bytes|]. split; [apply firstn_bytes, be_bytes_is_bytes|]. rewrite firstn_length, be_bytes_length. reflexivity.
Qed.
Example create_example : exists a t, create_multisig toy_hash toy_hash toy160 2 (ex_keys 3) false btc_main = Ok (a, t) /\ Forall is_bytes (ex_keys 3) /\
  create_multisig toy_hash toy_hash toy160 2 (ex_keys 16) false btc_main = Err /\
  (exists r, create_multisig toy_hash toy_hash toy160 2 [4 :: repeat 5 64; 3 :: repeat 6 32] true btc_main = Ok r).
Proof.
  eexists _, _. split; [vm_compute; reflexivity|]. split; [repeat constructor; vm_compute; congruence|]. split; [vm_compute; reflexivity|]. eexists. vm_compute. reflexivity.
Qed.
(** Two of three required; the third key's signature, twice, through the whole API. *)
Definition ex_mus : list unlock := [{| u_lock := hex_encode (p2sh_script (repeat 8 20)); u_redeem := hex_encode (BtcSigProps.ex_script 2 3); u_amount := 5; u_sigtype := 1 |}].
Definition fill (sps : list sigpub) (th : txhash) : txhash :=
  {| th_hash := th_hash th; th_required := th_required th; th_normal := th_normal th;
     th_multi := map (fun p => {| m_pub := m_pub (fst p); m_sigtype := m_sigtype (fst p); m_sp := snd p |}) (combine (th_multi th) sps) |}.
Definition ex_rep : list sigpub := [{| sp_sig := repeat 3 64; sp_pub := 2 :: repeat 1 32 |}; {| sp_sig := repeat 3 64; sp_pub := 2 :: repeat 2 32 |}; no_sigpub].
Example repeated_example : exists hexs hs signed, create_empty toy_hash [ex_vin 1] ex_vouts 7 false btc_main = Ok hexs /\
  create_hashes toy_hash hexs ex_mus false btc_main = Ok hs /\ map th_required hs = [2] /\ map (fun t => map m_pub (th_multi t)) hs = [map hex_encode (ex_keys 3)] /\
  insert_signatures toy_hash hexs (map (fill ex_rep) hs) ex_mus false = Ok signed /\
  verify_raw toy_hash (fun k => 4 :: tl k) ex_ecdsa signed ex_mus false btc_main = Ok true /\
  (forall h, ex_ecdsa (repeat 1 32) h (repeat 3 64) = false) /\ (forall h, ex_ecdsa (repeat 2 32) h (repeat 3 64) = false).
Proof.
  eexists _, _, _. split; [vm_compute; reflexivity|]. split; [vm_compute; reflexivity|]. split; [reflexivity|]. split; [vm_compute; reflexivity|]. split; [vm_compute; reflexivity|]. split; [vm_compute; reflexivity|].
  split; reflexivity.
Qed.
Print Assumptions create_multisig_iff.
Print Assumptions at_most_15_keys.
Print Assumptions multisig_script_read_back.
Print Assumptions multisig_address_pays_key_hash.
Print Assumptions multisig_check_iff.
Print Assumptions repeated_signature_accepted.
