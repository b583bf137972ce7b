(** C45, C46, C78: MOAC transactions. *)
From Coq Require Import ZArith List Bool Lia ZifyBool ZifyNat.
From Verif Require Import Go GoFacts GoFacts2 Codes Rd Base58CheckProofs Bech32mModel MoacModel.
Import ListNotations.
Open Scope Z_scope.
Ltac Zify.zify_post_hook ::= idtac.

(** ** Specification: recursive length prefix encoding *)
(** The shortest big-endian bytes of a number; zero has none. *)
Definition minimal (v : Z) (b : bytes) : Prop := is_bytes b /\ be_num b = v /\ hd 1 b <> 0.
(** The header of a string or list of [n] bytes; [tag] is 0x80 for strings and 0xC0 for lists. *)
Definition header (tag n : Z) (h : bytes) : Prop :=
  n < 56 /\ h = [tag + n] \/ 56 <= n /\ exists l, minimal n l /\ h = (tag + 55 + zlen l) :: l.
(** The encoding of a byte string, of a number, of a list given by the concatenation of its encoded items. *)
Definition rlp_string (s e : bytes) : Prop :=
  (exists b, s = [b] /\ b < 128 /\ e = [b]) \/ ~ (exists b, s = [b] /\ b < 128) /\ exists h, header 0x80 (zlen s) h /\ e = h ++ s.
Definition rlp_number (v : Z) (e : bytes) : Prop := exists s, minimal v s /\ rlp_string s e.
Definition rlp_list (items : list bytes) (e : bytes) : Prop := exists h, header 0xC0 (zlen (concat items)) h /\ e = h ++ concat items.

(** ** Lemmas *)
Lemma strip_minimal b : is_bytes b -> minimal (be_num b) (strip0 b).
Proof.
  intros B. split; [rewrite (strip0_lead0 b) in B; apply is_bytes_app in B; tauto|]. split; [apply be_num_strip0|]. pose proof (strip0_head b). destruct (strip0 b); [cbn; lia|assumption].
Qed.
Lemma minimal_strip v b : minimal v b -> strip0 b = b.
Proof. intros (B & _ & N). destruct b as [|x b]; [reflexivity|]. apply strip0_nz. exact N. Qed.
Lemma minimal_unique v a b : minimal v a -> minimal v b -> a = b.
Proof. intros A B. apply stripped_unique; [apply A|apply B|eapply minimal_strip; exact A|eapply minimal_strip; exact B|]. destruct A as (_ & -> & _), B as (_ & -> & _). reflexivity. Qed.
Lemma big_minimal v : minimal (Z.abs v) (big_bytes v).
Proof.
  split; [apply big_bytes_bytes|]. split; [apply big_bytes_num|]. pose proof (strip0_head (big_bytes v)) as S. rewrite big_bytes_strip in S. destruct (big_bytes v); [cbn; lia|exact S].
Qed.
Lemma minimal_len v b n : minimal v b -> 0 <= n -> v < 256 ^ n -> zlen b <= n.
Proof.
  intros (B & E & N) Hn Hv. destruct b as [|x b]; [change (zlen (@nil Z)) with 0; lia|]. apply is_bytes_cons in B as [Hx B]. cbn [hd] in N. rewrite be_num_cons in E. pose proof (be_num_bound b B). unfold is_byte in Hx. rewrite zlen_cons. pose proof (zlen_nonneg b).
  assert (256 ^ zlen b < 256 ^ n) by nia. apply Z.pow_lt_mono_r_iff in H1; lia.
Qed.
Lemma minimal_low v b n : minimal v b -> 0 <= n -> 256 ^ n <= v -> n < zlen b.
Proof.
  intros (B & E & N) Hn Hv. pose proof (be_num_bound b B). assert (256 ^ n < 256 ^ zlen b) by lia. apply Z.pow_lt_mono_r_iff in H0; [lia|lia|apply zlen_nonneg].
Qed.
Lemma be_bytes_minimal n v : 256 ^ Z.of_nat n <= v < 256 ^ Z.of_nat (S n) -> minimal v (be_bytes (S n) v).
Proof.
  intros B. assert (P : 0 < 256 ^ Z.of_nat n) by (apply Z.pow_pos_nonneg; lia). assert (M : minimal v (strip0 (be_bytes (S n) v))).
  { rewrite <- (be_num_of_small (S n) v) at 1 by lia. apply strip_minimal. apply be_bytes_is_bytes. }
  assert (L : Z.of_nat n < zlen (strip0 (be_bytes (S n) v))) by (apply (minimal_low v); [exact M|lia|lia]).
  pose proof (strip0_lead0 (be_bytes (S n) v)) as E. assert (LL := f_equal zlen E). rewrite zlen_app, zlen_be_bytes in LL. assert (Q : lead0 (be_bytes (S n) v) = O) by (assert (ZZ : forall k, zlen (zeros k) = Z.of_nat k) by (intros; unfold zlen, zeros; rewrite repeat_length; reflexivity); rewrite ZZ in LL; lia). rewrite Q in E. cbn [zeros repeat app] in E. rewrite E. exact M.
Qed.
Lemma putint_minimal i : 1 <= i < 2 ^ 64 -> minimal i (putint i).
Proof.
  intros B. unfold putint.
  repeat match goal with |- context [if ?c then _ else _] => destruct c eqn:? end; apply be_bytes_minimal; match goal with |- 256 ^ Z.of_nat ?a <= _ < 256 ^ Z.of_nat ?b => change (256 ^ Z.of_nat a) with (2 ^ (8 * Z.of_nat a)); change (256 ^ Z.of_nat b) with (2 ^ (8 * Z.of_nat b)) end; cbn [Z.of_nat Pos.of_succ_nat Pos.succ Z.mul Pos.mul Pos.add]; lia.
Qed.
(** ** C45: the encoding *)
Theorem list_header_canonical : forall n, 0 <= n < 2 ^ 64 -> header 0xC0 n (head_bytes n).
Proof.
  intros n B. unfold head_bytes, header, u8. change (2 ^ 8) with 256. destruct (n <? 56) eqn:E.
  - left. split; [lia|]. rewrite (Z.mod_small n) by lia. rewrite Z.mod_small by lia. reflexivity.
  - right. split; [lia|]. exists (putint n). pose proof (putint_minimal n ltac:(lia)) as M. split; [exact M|]. assert (zlen (putint n) <= 8) by (apply (minimal_len n); [exact M|lia|change (256 ^ 8) with (2 ^ 64); lia]). pose proof (zlen_nonneg (putint n)). cbv zeta. rewrite Z.mod_small by lia. reflexivity.
Qed.
Lemma short_string s : zlen s < 56 -> ~ (exists b, s = [b] /\ b < 128) -> rlp_string s ((0x80 + zlen s) :: s).
Proof. intros L N. right. split; [exact N|]. exists [0x80 + zlen s]. split; [left; auto|reflexivity]. Qed.
Lemma length_eq n : 0 <= n < 128 -> length_bytes n = [0x80 + n].
Proof. intros B. unfold length_bytes, u8. rewrite Z.mod_small by (change (2 ^ 8) with 256; lia). f_equal. lia. Qed.
Lemma minimal_zero v : minimal 0 v -> v = [].
Proof. intros M. apply (minimal_unique 0); [exact M|]. split; [constructor|]. split; [reflexivity|cbn; lia]. Qed.
Lemma not_one v s : minimal v s -> v = 0 \/ 128 <= v -> ~ (exists b, s = [b] /\ b < 128).
Proof. intros (B & E & N) V (b & -> & Hb). change (be_num [b]) with (0 * 256 + b) in E. cbn [hd] in N. lia. Qed.
Theorem uint64_canonical : forall v, 0 <= v < 2 ^ 64 -> rlp_number v (uint64_bytes v).
Proof.
  intros v B. unfold uint64_bytes. destruct (v =? 0) eqn:E0; [|destruct (v <? 128) eqn:E1].
  - replace v with 0 by lia. exists []. split; [split; [constructor|split; [reflexivity|cbn; lia]]|]. apply short_string; [reflexivity|]. intros (b & Q & _). discriminate.
  - exists [v]. split; [split; [constructor; [unfold is_byte; lia|constructor]|split; [reflexivity|cbn; lia]]|]. left. exists v. split; [reflexivity|]. split; [lia|reflexivity].
  - cbv zeta. exists (strip0 (be_bytes 8 v)). assert (M : minimal v (strip0 (be_bytes 8 v))) by (rewrite <- (be_num_of_small 8 v) at 1 by exact B; apply strip_minimal; apply be_bytes_is_bytes). split; [exact M|].
    assert (zlen (strip0 (be_bytes 8 v)) <= 8) by (apply (minimal_len v); [exact M|lia|exact (proj2 B)]). pose proof (zlen_nonneg (strip0 (be_bytes 8 v))). rewrite length_eq by lia. cbn [app]. apply short_string; [lia|]. apply (not_one v); [exact M|lia].
Qed.
(** A big integer of up to 55 bytes is encoded canonically exactly when it is 0 or at least 128; its sign is lost. *)
Theorem bigint_canonical_iff : forall v, Z.abs v < 256 ^ 55 -> rlp_number (Z.abs v) (bigint_bytes v) <-> (v = 0 \/ 128 <= Z.abs v).
Proof.
  intros v B. unfold bigint_bytes. cbv zeta. pose proof (big_minimal v) as M. assert (L : zlen (big_bytes v) <= 55) by (apply (minimal_len (Z.abs v)); [exact M|lia|exact B]). pose proof (zlen_nonneg (big_bytes v)). rewrite length_eq by lia. cbn [app]. split.
  - intros (s & Ms & R). assert (s = big_bytes v) by (eapply minimal_unique; eassumption). subst s. destruct R as [(b & E & Hb & E2)|(N & _)]; [rewrite E in E2; discriminate|].
    destruct (Z_lt_ge_dec (Z.abs v) 128) as [Q|Q]; [|right; lia]. left. destruct (Z.eq_dec v 0) as [|V]; [assumption|]. exfalso. apply N. exists (Z.abs v). split; [|lia]. eapply minimal_unique; [exact M|]. split; [constructor; [unfold is_byte; lia|constructor]|]. split; [reflexivity|cbn [hd]; lia].
  - intros V. exists (big_bytes v). split; [exact M|]. apply short_string; [lia|]. apply (not_one (Z.abs v)); [exact M|lia].
Qed.
Theorem small_bigint_has_length_byte : forall v, 1 <= Z.abs v < 128 -> bigint_bytes v = [0x81; Z.abs v].
Proof.
  intros v B. unfold bigint_bytes. cbv zeta. assert (E : big_bytes v = [Z.abs v]). { eapply minimal_unique; [apply big_minimal|]. split; [constructor; [unfold is_byte; lia|constructor]|]. split; [reflexivity|cbn [hd]; lia]. }
  rewrite E. reflexivity.
Qed.
Theorem bigint_sign_lost : forall v, bigint_bytes (- v) = bigint_bytes v.
Proof. intros v. unfold bigint_bytes. assert (E : big_bytes (- v) = big_bytes v) by (unfold big_bytes; rewrite Z.abs_opp; reflexivity). rewrite E. reflexivity. Qed.

(** ** What is created *)
Definition address (to : list Z) (a : bytes) : Prop := exists t, to = 48 :: 120 :: t /\ hex_decode t = Ok a /\ zlen a = 20.
(** A number behind a length byte, whatever its size. *)
Definition prefixed (v : Z) (e : bytes) : Prop := exists s, minimal v s /\ e = (0x80 + zlen s) :: s.
(** The fields of a transaction: nonce, no system contract, price, limit, recipient, amount, no payload, global, not via, chain or V, R, S. *)
Definition fields (n p l : bytes) (a am v r s : bytes) : list bytes := [n; [0x80]; p; l; 0x94 :: a; am; [0x80]; [0x80]; [0x80]; v; r; s].
Definition parts (nonce price limit amount : Z) (n p l am : bytes) : Prop :=
  rlp_number nonce n /\ prefixed (Z.abs price) p /\ prefixed (Z.abs limit) l /\ prefixed (Z.abs amount) am.
(** Numbers that the code can write. *)
Definition fits (v : Z) : Prop := Z.abs v < 256 ^ 127.

Lemma bigint_prefixed v : fits v -> prefixed (Z.abs v) (bigint_bytes v).
Proof.
  intros B. exists (big_bytes v). pose proof (big_minimal v) as M. split; [exact M|]. unfold bigint_bytes. cbv zeta. assert (zlen (big_bytes v) <= 127) by (apply (minimal_len (Z.abs v)); [exact M|lia|exact B]). pose proof (zlen_nonneg (big_bytes v)). rewrite length_eq by lia. reflexivity.
Qed.
Lemma prefixed_unique v a b : prefixed v a -> prefixed v b -> a = b.
Proof. intros (x & X & ->) (y & Y & ->). rewrite (minimal_unique _ _ _ X Y). reflexivity. Qed.
Lemma header_unique t n a b : header t n a -> header t n b -> a = b.
Proof. intros [[L ->]|[L (x & X & ->)]] [[L' ->]|[L' (y & Y & ->)]]; try lia; [reflexivity|]. rewrite (minimal_unique _ _ _ X Y). reflexivity. Qed.
Lemma number_unique v a b : rlp_number v a -> rlp_number v b -> a = b.
Proof.
  intros (x & X & Hx) (y & Y & Hy). rewrite (minimal_unique _ _ _ Y X) in Hy. destruct Hx as [(c & -> & Hc & ->)|(N & h & Hh & ->)], Hy as [(d & Q & Hd & ->)|(N' & h' & Hh' & ->)]; [injection Q as <-; reflexivity|destruct N'; eauto|destruct N; eauto|]. rewrite (header_unique _ _ _ _ Hh Hh'). reflexivity.
Qed.
Lemma address_iff to e : address_bytes to = Ok e <-> exists a, address to a /\ e = 0x94 :: a.
Proof.
  unfold address_bytes, address. split.
  - intros E. apply bind_ok in E as (p & Ep & E). destruct (beq p [48; 120]) eqn:Q; [|discriminate]. apply beq_eq in Q. subst p. cbn [negb] in E. apply bind_ok in E as (r & Er & E). apply bind_ok in E as (h & Eh & E). destruct (zlen h =? 20) eqn:L; [|discriminate]. injection E as <-. exists h. split; [|reflexivity].
    destruct to as [|x [|y t]]; [discriminate Ep..|]. exists t. assert (S : slice (x :: y :: t) 0 2 = Ok [x; y]) by (change (x :: y :: t) with ([x; y] ++ t); apply slice_pre; reflexivity). rewrite S in Ep. injection Ep as -> ->. split; [reflexivity|].
    change (48 :: 120 :: t) with ([48; 120] ++ t) in Er. rewrite slice_from_post in Er by reflexivity. injection Er as <-. split; [exact Eh|lia].
  - intros (a & (t & -> & E & L) & ->). change (48 :: 120 :: t) with ([48; 120] ++ t). rewrite slice_pre by reflexivity. cbn [bind]. change (beq [48; 120] [48; 120]) with true. cbn [negb]. rewrite slice_from_post by reflexivity. cbn [bind]. rewrite E. cbn [bind]. rewrite L. reflexivity.
Qed.
(** The unsigned transaction is the RLP list of the fields, and the hash is the hash of it. *)
Theorem moac_created_iff : forall K to nonce amount gasLimit gasPrice testnet raw h,
  0 <= nonce < 2 ^ 64 -> fits amount -> fits gasLimit -> fits gasPrice ->
  create K to nonce amount gasLimit gasPrice testnet = Ok (raw, h) <->
  exists a n p l am w, address to a /\ parts nonce gasPrice gasLimit amount n p l am /\ rlp_list (fields n p l a am [chain_id testnet] [0x80] [0x80]) w /\ raw = hex_encode w /\ h = hex_encode (K w).
Proof.
  intros K to nonce amount gasLimit gasPrice testnet raw h N A L P.
  assert (HD : forall a n p l am, zlen a = 20 -> parts nonce gasPrice gasLimit amount n p l am -> 0 <= zlen (concat (fields n p l a am [chain_id testnet] [128] [128])) < 2 ^ 64).
  { intros a n p l am La (Pn & (sp & Mp & ->) & (sl & Ml & ->) & (sa & Ma & ->)). rewrite (number_unique _ _ _ Pn (uint64_canonical nonce N)). unfold fields. cbn [concat]. rewrite !app_nil_r, !zlen_app, !zlen_cons, ?zlen_app. change (zlen (@nil Z)) with 0.
    pose proof (minimal_len _ _ 127 Mp ltac:(lia) P). pose proof (minimal_len _ _ 127 Ml ltac:(lia) L). pose proof (minimal_len _ _ 127 Ma ltac:(lia) A). pose proof (zlen_nonneg sp). pose proof (zlen_nonneg sl). pose proof (zlen_nonneg sa).
    assert (zlen (uint64_bytes nonce) <= 9). { unfold uint64_bytes. destruct (nonce =? 0); [unfold zlen; cbn [length]; lia|]. destruct (nonce <? 128); [unfold zlen; cbn [length]; lia|]. cbv zeta. rewrite zlen_app. change (zlen (length_bytes ?x)) with 1. assert (zlen (strip0 (be_bytes 8 nonce)) <= zlen (be_bytes 8 nonce)) by (rewrite (strip0_lead0 (be_bytes 8 nonce)) at 2; rewrite zlen_app; pose proof (zlen_nonneg (zeros (lead0 (be_bytes 8 nonce)))); lia). rewrite zlen_be_bytes in H5. lia. }
    pose proof (zlen_nonneg (uint64_bytes nonce)). lia. }
  assert (BB : forall a, body_bytes {| m_nonce := uint64_bytes nonce; m_system := uint64_bytes 0; m_price := bigint_bytes gasPrice; m_limit := bigint_bytes gasLimit; m_to := 0x94 :: a; m_amount := bigint_bytes amount; m_payload := length_bytes 0; m_sharding := uint64_bytes 0; m_via := uint64_bytes 0; m_chain := [chain_id testnet]; m_r := length_bytes 0; m_s := length_bytes 0 |}
     = concat (fields (uint64_bytes nonce) (bigint_bytes gasPrice) (bigint_bytes gasLimit) a (bigint_bytes amount) [chain_id testnet] [128] [128])).
  { intros a. unfold body_bytes, fields. cbn [m_nonce m_system m_price m_limit m_to m_amount m_payload m_sharding m_via m_chain m_r m_s concat]. rewrite app_nil_r. reflexivity. }
  assert (PP : parts nonce gasPrice gasLimit amount (uint64_bytes nonce) (bigint_bytes gasPrice) (bigint_bytes gasLimit) (bigint_bytes amount)) by (split; [apply uint64_canonical; exact N|]; split; [apply bigint_prefixed; exact P|]; split; apply bigint_prefixed; assumption).
  unfold create, new_tx. split.
  - intros E. apply bind_ok in E as (t & Et & E). apply bind_ok in Et as (e & Ee & Et). apply address_iff in Ee as (a & Aa & ->).
    exists a, (uint64_bytes nonce), (bigint_bytes gasPrice), (bigint_bytes gasLimit), (bigint_bytes amount), (tx_bytes t). split; [exact Aa|]. split; [exact PP|].
    assert (Q : raw = hex_encode (tx_bytes t) /\ h = hex_encode (K (tx_bytes t))) by (cbv zeta in E; split; [apply (f_equal (fun x => match x with Ok v => fst v | _ => [] end)) in E|apply (f_equal (fun x => match x with Ok v => snd v | _ => [] end)) in E]; symmetry; exact E).
    split; [|exact Q]. apply (f_equal (fun x => match x with Ok v => v | _ => t end)) in Et. cbv beta iota in Et. subst t. unfold tx_bytes. rewrite BB. eexists. split; [|reflexivity]. apply list_header_canonical. apply HD; [destruct Aa as (? & _ & _ & La); exact La|exact PP].
  - intros (a & n & p & l & am & w & Aa & (Qn & Qp & Ql & Qa) & (hd & Hh & ->) & -> & ->). assert (E : address_bytes to = Ok (148 :: a)) by (apply address_iff; eauto). rewrite E. cbn [bind]. unfold tx_bytes. rewrite BB.
    destruct PP as (Pn & Pp & Pl & Pa). pose proof (HD a n p l am ltac:(destruct Aa as (? & _ & _ & La); exact La) ltac:(repeat split; assumption)) as Bd. rewrite <- (number_unique _ _ _ Qn Pn), <- (prefixed_unique _ _ _ Qp Pp), <- (prefixed_unique _ _ _ Ql Pl), <- (prefixed_unique _ _ _ Qa Pa).
    rewrite (header_unique _ _ _ _ Hh (list_header_canonical _ Bd)). reflexivity.
Qed.
(** ** Reading it again *)
Lemma item_ok {A} s rest (k : bytes -> bytes -> res A) : zlen s < 128 -> item ((0x80 + zlen s) :: s ++ rest) k = k ((0x80 + zlen s) :: s) rest.
Proof.
  intros L. unfold item. pose proof (zlen_nonneg s). replace (128 + zlen s <? 128) with false by lia. change (128 + zlen s :: s ++ rest) with (((128 + zlen s) :: s) ++ rest). rewrite need_app; [reflexivity|]. rewrite zlen_cons. lia.
Qed.
Lemma item_80 {A} rest (k : bytes -> bytes -> res A) : item (0x80 :: rest) k = k [0x80] rest.
Proof. apply (item_ok [] rest). reflexivity. Qed.
Lemma nonce_cases nonce n : 0 <= nonce < 2 ^ 64 -> rlp_number nonce n -> (exists b, n = [b] /\ 0 <= b < 128) \/ exists s, n = (0x80 + zlen s) :: s /\ zlen s <= 8 /\ (s = [] <-> nonce = 0).
Proof.
  intros N (s & M & R). assert (L : zlen s <= 8) by (apply (minimal_len nonce); [exact M|lia|change (256 ^ 8) with (2 ^ 64); lia]). destruct R as [(b & -> & Hb & ->)|(Q & h & [[L1 ->]|[L1 _]] & ->)]; [|right; exists s; split; [reflexivity|]; split; [exact L|]|lia].
  - left. exists b. destruct M as (B & _). inversion B; subst. unfold is_byte in *. auto with zarith.
  - split; [intros ->; destruct M as (_ & <- & _); reflexivity|intros ->; apply minimal_zero; exact M].
Qed.
Lemma fields_decode n p l a am c nonce sp sl sa : 0 <= nonce < 2 ^ 64 -> rlp_number nonce n -> p = (0x80 + zlen sp) :: sp -> l = (0x80 + zlen sl) :: sl -> am = (0x80 + zlen sa) :: sa -> zlen sp < 128 -> zlen sl < 128 -> zlen sa < 128 -> zlen a = 20 ->
  decode_empty (concat (fields n p l a am [c] [0x80] [0x80])) = Ok {| m_nonce := n; m_system := [0x80]; m_price := p; m_limit := l; m_to := 0x94 :: a; m_amount := am; m_payload := [0x80]; m_sharding := [0x80]; m_via := [0x80]; m_chain := [c]; m_r := []; m_s := [] |}.
Proof.
  intros N Rn -> -> -> Lp Ll La Ta. unfold fields. cbn [concat]. rewrite app_nil_r. cbn [app].
  set (rest := 128 :: 128 + zlen sp :: sp ++ 128 + zlen sl :: sl ++ 148 :: a ++ 128 + zlen sa :: sa ++ [128; 128; 128; c; 128; 128]).
  assert (D : decode_empty (n ++ rest) = (fun nonce r =>
      item r (fun sys r => item r (fun price r => item r (fun limit r => item r (fun to r => item r (fun amount r =>
      item r (fun payload r => item r (fun sharding r => item r (fun via r =>
      need 1 r (fun chain r =>
      match r with
      | [x; y] => if (x =? 0x80) && (y =? 0x80) then
          Ok {| m_nonce := nonce; m_system := sys; m_price := price; m_limit := limit; m_to := to; m_amount := amount; m_payload := payload;
                m_sharding := sharding; m_via := via; m_chain := chain; m_r := []; m_s := [] |} else Err
      | _ => Err
      end)))))))))) n rest).
  { destruct (nonce_cases nonce n N Rn) as [(b & -> & Hb)|(s & -> & Ls & _)].
    - cbn [app decode_empty]. replace (b <=? 128) with true by lia. change (b :: rest) with ([b] ++ rest). rewrite need_app by reflexivity. reflexivity.
    - cbn [app decode_empty]. destruct (128 + zlen s <=? 128) eqn:E.
      + assert (s = []) by (destruct s; [reflexivity|rewrite zlen_cons in E; pose proof (zlen_nonneg s); lia]). subst s. cbn [app]. change (128 + zlen [] :: rest) with ([128] ++ rest). rewrite need_app by reflexivity. reflexivity.
      + change (128 + zlen s :: s ++ rest) with ((128 + zlen s :: s) ++ rest). rewrite need_app by (rewrite zlen_cons; lia). reflexivity. }
  rewrite D. subst rest. cbv beta. rewrite item_80, !item_ok by assumption. change (148 :: a ++ ?r) with (148 :: (a ++ r)). replace 148 with (128 + zlen a) by lia. rewrite !item_ok by (assumption || lia). rewrite !item_80. change [c; 128; 128] with ([c] ++ [128; 128]). rewrite need_app by reflexivity. reflexivity.
Qed.
Lemma fields_not_decode k n p l a am c nonce sp sl sa : 0 <= nonce < 2 ^ 64 -> rlp_number nonce n -> p = (0x80 + zlen sp) :: sp -> l = (0x80 + zlen sl) :: sl -> am = (0x80 + zlen sa) :: sa -> zlen sp < 128 -> zlen sl < 128 -> zlen sa < 128 -> zlen a = 20 -> k <= 128 ->
  decode_empty (k :: concat (fields n p l a am [c] [0x80] [0x80])) = Err.
Proof.
  intros N Rn -> -> -> Lp Ll La Ta Hk. unfold fields. cbn [concat]. rewrite app_nil_r. cbn [app decode_empty]. replace (k <=? 128) with true by lia.
  set (rest := 128 :: 128 + zlen sp :: sp ++ 128 + zlen sl :: sl ++ 148 :: a ++ 128 + zlen sa :: sa ++ [128; 128; 128; c; 128; 128]).
  change (k :: n ++ rest) with ([k] ++ (n ++ rest)). rewrite need_app by reflexivity.
  destruct (nonce_cases nonce n N Rn) as [(b & -> & Hb)|(s & -> & Ls & _)].
  - cbn [app item]. replace (b <? 128) with true by lia. reflexivity.
  - cbn [app]. rewrite item_ok by lia. subst rest. rewrite item_80, !item_ok by assumption. replace 148 with (128 + zlen a) by lia. rewrite !item_ok by (assumption || lia). rewrite !item_80. change [128; c; 128; 128] with ([128] ++ [c; 128; 128]). rewrite need_app by reflexivity. reflexivity.
Qed.
(** ** C46, C78: verification *)
Definition v_value (v : Z) (testnet : bool) : Z := v + 35 + 2 * chain_id testnet.
Definition hash_ok32 (K : bytes -> bytes) : Prop := forall d, is_bytes d -> is_bytes (K d).
Lemma sig65 (sig : bytes) : zlen sig = 65 -> exists (r s : bytes) v, sig = r ++ s ++ [v] /\ zlen r = 32 /\ zlen s = 32.
Proof.
  intros L. assert (LN : length sig = 65%nat) by (unfold zlen in L; lia). exists (firstn 32 sig), (firstn 32 (skipn 32 sig)), (nth 0 (skipn 64 sig) 0). 
  assert (L1 : length (firstn 32 sig) = 32%nat) by (rewrite firstn_length; lia). assert (L2 : length (firstn 32 (skipn 32 sig)) = 32%nat) by (rewrite firstn_length, skipn_length; lia). split; [|split; unfold zlen; lia].
  do 65 (destruct sig as [|? sig]; [discriminate LN|]). destruct sig; [reflexivity|cbn in LN; lia].
Qed.
Lemma parts_sizes nonce price limit amount n p l am (a : bytes) c : 0 <= nonce < 2 ^ 64 -> parts nonce price limit amount n p l am -> exists sp sl sa : bytes, p = (0x80 + zlen sp) :: sp /\ l = (0x80 + zlen sl) :: sl /\ am = (0x80 + zlen sa) :: sa /\ is_bytes sp /\ is_bytes sl /\ is_bytes sa /\
  zlen sp + zlen sl + zlen sa + zlen a + 11 <= zlen (concat (fields n p l a am [c] [0x80] [0x80])) - zlen n.
Proof.
  intros N (_ & (sp & Mp & ->) & (sl & Ml & ->) & (sa & Ma & ->)). exists sp, sl, sa. split; [reflexivity|]. split; [reflexivity|]. split; [reflexivity|]. split; [apply Mp|]. split; [apply Ml|]. split; [apply Ma|].
  unfold fields. cbn [concat]. rewrite !app_nil_r, !zlen_app, !zlen_cons, ?zlen_app. change (zlen (@nil Z)) with 0. lia.
Qed.
Lemma nonce_bytes nonce n : 0 <= nonce < 2 ^ 64 -> rlp_number nonce n -> is_bytes n /\ 1 <= zlen n.
Proof.
  intros N R. rewrite (number_unique _ _ _ R (uint64_canonical nonce N)). unfold uint64_bytes. destruct (nonce =? 0) eqn:E0; [split; [bts|reflexivity]|]. destruct (nonce <? 128) eqn:E1; [split; [constructor; [unfold is_byte; lia|constructor]|reflexivity]|]. cbv zeta.
  assert (B : is_bytes (strip0 (be_bytes 8 nonce))) by (apply (strip_minimal (be_bytes 8 nonce)); apply be_bytes_is_bytes). split; [|rewrite zlen_app; change (zlen (length_bytes ?x)) with 1; pose proof (zlen_nonneg (strip0 (be_bytes 8 nonce))); lia].
  apply is_bytes_app. split; [|exact B]. unfold length_bytes. constructor; [|constructor]. unfold is_byte, u8. apply Z.mod_pos_bound. lia.
Qed.
Lemma unsigned_bytes nonce price limit amount n p l am a tn w : 0 <= nonce < 2 ^ 64 -> fits price -> fits limit -> fits amount -> parts nonce price limit amount n p l am -> is_bytes a -> zlen a = 20 -> rlp_list (fields n p l a am [chain_id tn] [0x80] [0x80]) w -> is_bytes w.
Proof.
  intros N P L A PP Ba La (h & Hh & ->). pose proof PP as (Rn & Pp & Pl & Pa). destruct (nonce_bytes nonce n N Rn) as [Bn _].
  assert (PB : forall v e, fits v -> prefixed (Z.abs v) e -> is_bytes e). { intros v e F (s & M & ->). assert (zlen s <= 127) by (apply (minimal_len (Z.abs v)); [exact M|lia|exact F]). pose proof (zlen_nonneg s). apply is_bytes_cons. split; [unfold is_byte; lia|apply M]. }
  apply PB in Pp; [|exact P]. apply PB in Pl; [|exact L]. apply PB in Pa; [|exact A].
  apply is_bytes_app. split.
  - destruct Hh as [[Q ->]|[Q (x & M & ->)]]; [pose proof (zlen_nonneg (concat (fields n p l a am [chain_id tn] [128] [128]))); constructor; [unfold is_byte; lia|constructor]|]. destruct M as (Bx & Ex & Nx). apply is_bytes_cons. split; [|exact Bx]. 
    assert (zlen x <= 2); [|pose proof (zlen_nonneg x); unfold is_byte; lia]. apply (minimal_len (be_num x)); [repeat split; assumption|lia|]. rewrite Ex. change (256 ^ 2) with 65536.
    destruct PP as (_ & (sp & Mp & ->) & (sl & Ml & ->) & (sa & Ma & ->)). unfold fields. cbn [concat]. rewrite !app_nil_r, !zlen_app, !zlen_cons, ?zlen_app. change (zlen (@nil Z)) with 0. pose proof (minimal_len _ _ 127 Mp ltac:(lia) P). pose proof (minimal_len _ _ 127 Ml ltac:(lia) L). pose proof (minimal_len _ _ 127 Ma ltac:(lia) A).
    destruct (nonce_cases nonce n N Rn) as [(b & -> & _)|(s & -> & Ls & _)]; rewrite ?zlen_cons; change (zlen (@nil Z)) with 0; lia.
  - unfold fields. cbn [concat]. assert (is_byte (chain_id tn)) by (destruct tn; unfold is_byte, chain_id; lia). bts.
Qed.
(** What a signed transaction is: V, R and S in place of the chain and the two empty strings. *)
Definition signed (n p l a am sig : bytes) (tn : bool) (w : bytes) : Prop :=
  exists v r s, rlp_number (v_value (nth 64 sig 0) tn) v /\ prefixed (be_num (firstn 32 sig)) r /\ prefixed (be_num (firstn 32 (skipn 32 sig))) s /\ rlp_list (fields n p l a am v r s) w.
Lemma sig_parts sig : is_bytes sig -> zlen sig = 65 -> slice sig 0 32 = Ok (firstn 32 sig) /\ slice sig 32 64 = Ok (firstn 32 (skipn 32 sig)) /\ slice sig 0 64 = Ok (firstn 64 sig) /\ idx sig 64 = Ok (nth 64 sig 0) /\ is_bytes (firstn 32 sig) /\ is_bytes (firstn 32 (skipn 32 sig)).
Proof.
  intros B L. destruct (sig65 sig L) as (r & s & v & E & Lr & Ls). assert (F : firstn 32 sig = r) by (rewrite E; apply (f_equal Z.to_nat) in Lr; unfold zlen in Lr; rewrite Nat2Z.id in Lr; change (Z.to_nat 32) with 32%nat in Lr; rewrite <- Lr; rewrite firstn_app, Nat.sub_diag, firstn_all; cbn [firstn]; apply app_nil_r).
  assert (G : skipn 32 sig = s ++ [v]) by (apply (app_inv_head (firstn 32 sig)); rewrite firstn_skipn, F; exact E). assert (G2 : firstn 32 (skipn 32 sig) = s) by (rewrite G; assert (LS : length s = 32%nat) by (unfold zlen in Ls; lia); rewrite <- LS; rewrite firstn_app, Nat.sub_diag, firstn_all; cbn [firstn]; apply app_nil_r).
  assert (F64 : firstn 64 sig = r ++ s) by (rewrite E, app_assoc; assert (LS : length (r ++ s) = 64%nat) by (rewrite app_length; unfold zlen in *; lia); rewrite <- LS at 1; rewrite firstn_app, Nat.sub_diag, firstn_all; cbn [firstn]; apply app_nil_r).
  assert (NV : nth 64 sig 0 = v) by (rewrite E, app_assoc; rewrite app_nth2 by (rewrite app_length; unfold zlen in *; lia); rewrite app_length; replace (64 - (length r + length s))%nat with 0%nat by (unfold zlen in *; lia); reflexivity).
  rewrite F64, NV, F, G2. split; [rewrite E; apply slice_pre; lia|]. split; [rewrite E; apply slice_mid; lia|]. split; [rewrite E, app_assoc; apply slice_pre; rewrite zlen_app; lia|]. split; [rewrite E, app_assoc; apply (idx_mid (r ++ s) v []); rewrite zlen_app; lia|].
  rewrite E in B. apply is_bytes_app in B as [Br B]. apply is_bytes_app in B as [Bs _]. auto.
Qed.
Lemma strip_prefixed b : is_bytes b -> zlen b = 32 -> prefixed (be_num b) (length_bytes (zlen (strip0 b)) ++ strip0 b).
Proof.
  intros B L. exists (strip0 b). split; [apply strip_minimal; exact B|]. pose proof (zlen_nonneg (strip0 b)). assert (Q : zlen b = zlen (zeros (lead0 b)) + zlen (strip0 b)) by (rewrite (strip0_lead0 b) at 1; apply zlen_app). pose proof (zlen_nonneg (zeros (lead0 b))). rewrite length_eq by lia. reflexivity.
Qed.
Section Verify.
Variables (K : bytes -> bytes) (recover : bytes -> bytes -> option bytes) (compress : bytes -> bytes) (verify : bytes -> bytes -> bytes -> bool).
(** The signature belongs to the named key. *)
Definition by_key (w sig : bytes) (publicKey : list Z) : Prop :=
  exists key, recover sig (K w) = Some key /\ to_lower (hex_encode (compress key)) = to_lower publicKey /\ verify key (K w) (firstn 64 sig) = true.
Variables (nonce price limit amount : Z) (n p l am a w : bytes) (tn : bool).
Hypothesis (N : 0 <= nonce < 2 ^ 64) (P : fits price) (L : fits limit) (A : fits amount).
Hypothesis (PP : parts nonce price limit amount n p l am) (Ba : is_bytes a) (La : zlen a = 20).
Hypothesis (Hw : rlp_list (fields n p l a am [chain_id tn] [0x80] [0x80]) w).
Variables (signature publicKey : list Z) (sig : bytes) (tn' : bool).
Hypothesis (Es : hex_decode signature = Ok sig) (Ls : zlen sig = 65) (Hv : nth 64 sig 0 = 0 \/ nth 64 sig 0 = 1).
Let run := verify_and_combine K recover compress verify (hex_encode w) signature publicKey tn'.
Lemma run_eq (k : res (bool * list Z)) : (by_key w sig publicKey -> run = k) -> (~ by_key w sig publicKey -> run = Ok (false, [])) ->
  (run = k /\ by_key w sig publicKey) \/ (run = Ok (false, []) /\ ~ by_key w sig publicKey).
Proof.
  intros H1 H2. assert (D : by_key w sig publicKey \/ ~ by_key w sig publicKey).
  { unfold by_key. destruct (recover sig (K w)) as [key|] eqn:R; [|right; intros (key & Q & _); discriminate]. destruct (beq (to_lower (hex_encode (compress key))) (to_lower publicKey)) eqn:Q; [apply beq_eq in Q|apply beq_neq in Q; right; intros (k' & E & F & _); injection E as <-; contradiction].
    destruct (verify key (K w) (firstn 64 sig)) eqn:V; [left; exists key; auto|right; intros (k' & E & _ & F); injection E as <-; congruence]. }
  destruct D; [left|right]; auto.
Qed.
Lemma run_start : run = match recover sig (K w) with
  | None => Ok (false, [])
  | Some pub =>
      if negb (beq (to_lower (hex_encode (compress pub))) (to_lower publicKey)) then Ok (false, []) else
      if negb (verify pub (K w) (firstn 64 sig)) then Ok (false, []) else
      ok <- (if zlen w <? 57 then h <- idx (head_bytes (u64 (zlen w - 1))) 0 ;; t <- idx w 0 ;; Ok (h =? t) else Ok true) ;;
      if negb ok then Ok (false, []) else
      r <- slice_from w 1 ;;
      match decode_empty r with Panic => Panic | Err => Ok (false, []) | Ok t => t <- add_sig t sig tn' ;; Ok (true, 48 :: 120 :: hex_encode (tx_bytes t)) end
  end.
Proof.
  unfold run, verify_and_combine. rewrite hex_decode_encode by (exact (unsigned_bytes _ _ _ _ _ _ _ _ _ _ _ N P L A PP Ba La Hw)). rewrite Es, Ls. change (negb (65 =? 65)) with false. cbv iota.
  destruct (sig_parts sig) as (_ & _ & S & I & _); [apply hex_decode_bytes in Es; tauto|exact Ls|]. rewrite I. cbn [bind]. replace (negb (nth 64 sig 0 =? 1) && negb (nth 64 sig 0 =? 0)) with false by lia. rewrite S. reflexivity.
Qed.
Lemma run_key k : (forall pub, recover sig (K w) = Some pub -> beq (to_lower (hex_encode (compress pub))) (to_lower publicKey) = true -> verify pub (K w) (firstn 64 sig) = true -> run = k) -> (run = k /\ by_key w sig publicKey) \/ (run = Ok (false, []) /\ ~ by_key w sig publicKey).
Proof.
  intros H. apply run_eq.
  - intros (key & R & Q & V). apply (H key R); [apply beq_eq; exact Q|exact V].
  - intros NB. rewrite run_start. destruct (recover sig (K w)) as [key|] eqn:R; [|reflexivity]. destruct (beq _ _) eqn:Q; [|reflexivity]. destruct (verify key (K w) (firstn 64 sig)) eqn:V; [|reflexivity]. destruct NB. exists key. split; [exact R|]. split; [apply beq_eq; exact Q|exact V].
Qed.
(** Short transactions: accepted exactly when the signature is by the key; the result is the signed transaction. *)
Lemma short_run : zlen w <= 56 -> exists w', signed n p l a am sig tn' w' /\ ((run = Ok (true, 48 :: 120 :: hex_encode w') /\ by_key w sig publicKey) \/ (run = Ok (false, []) /\ ~ by_key w sig publicKey)).
Proof.
  intros Sw. pose proof Hw as (h & Hh & Ew). destruct (parts_sizes nonce price limit amount n p l am a (chain_id tn) N PP) as (sp & sl & sa & Ep & El & Ea & Bsp & Bsl & Bsa & Sz).
  set (C := concat (fields n p l a am [chain_id tn] [128] [128])) in *. assert (LC : zlen w = zlen h + zlen C) by (rewrite Ew, zlen_app; reflexivity).
  assert (HC : zlen C < 56 /\ h = [192 + zlen C]). { destruct Hh as [[Q ->]|[Q (x & M & ->)]]; [auto|]. rewrite zlen_cons in LC. pose proof (zlen_nonneg x). lia. } destruct HC as [HC ->].
  destruct (nonce_bytes nonce n N (proj1 PP)) as [_ Ln]. pose proof (zlen_nonneg sp). pose proof (zlen_nonneg sl). pose proof (zlen_nonneg sa). pose proof (zlen_nonneg C).
  destruct (sig_parts sig) as (S1 & S2 & _ & I & B1 & B2); [apply hex_decode_bytes in Es; tauto|exact Ls|].
  set (v := uint64_bytes (v_value (nth 64 sig 0) tn')). set (r := length_bytes (zlen (strip0 (firstn 32 sig))) ++ strip0 (firstn 32 sig)). set (s := length_bytes (zlen (strip0 (firstn 32 (skipn 32 sig)))) ++ strip0 (firstn 32 (skipn 32 sig))).
  assert (L1 : zlen (firstn 32 sig) = 32) by (unfold zlen in *; rewrite firstn_length; lia). assert (L2 : zlen (firstn 32 (skipn 32 sig)) = 32) by (unfold zlen in *; rewrite firstn_length, skipn_length; lia).
  pose proof (strip_prefixed _ B1 L1) as PR. pose proof (strip_prefixed _ B2 L2) as PS. fold r in PR. fold s in PS.
  assert (VV : 0 <= v_value (nth 64 sig 0) tn' < 256) by (unfold v_value, chain_id; destruct tn'; lia).
  assert (LF : zlen (concat (fields n p l a am v r s)) < 2 ^ 64). { subst C. unfold fields in *. cbn [concat] in *. rewrite !app_nil_r in *. rewrite !zlen_app, !zlen_cons, ?zlen_app in *. change (zlen (@nil Z)) with 0 in *.
    assert (zlen v <= 3). { subst v. unfold uint64_bytes. replace (v_value (nth 64 sig 0) tn' =? 0) with false by (unfold v_value, chain_id; destruct tn'; lia). replace (v_value (nth 64 sig 0) tn' <? 128) with false by (unfold v_value, chain_id; destruct tn'; lia). cbv zeta. rewrite zlen_app. change (zlen (length_bytes ?x)) with 1. assert (zlen (strip0 (be_bytes 8 (v_value (nth 64 sig 0) tn'))) <= 1); [|lia]. apply (minimal_len (be_num (be_bytes 8 (v_value (nth 64 sig 0) tn')))); [apply strip_minimal; apply be_bytes_is_bytes|lia|]. rewrite be_num_of_small; [lia|]. change (256 ^ Z.of_nat 8) with (2 ^ 64). lia. }
    assert (PL : forall b e, is_bytes b -> zlen b = 32 -> prefixed (be_num b) e -> zlen e <= 33). { intros b e Bb Lb (x & M & ->). rewrite zlen_cons. pose proof (be_num_bound b Bb) as BB. rewrite Lb in BB. pose proof (minimal_len _ _ 32 M ltac:(lia) ltac:(lia)). lia. }
    pose proof (PL _ _ B1 L1 PR). pose proof (PL _ _ B2 L2 PS). lia. }
  pose proof (list_header_canonical _ (conj (zlen_nonneg (concat (fields n p l a am v r s))) LF)) as HF.
  exists (head_bytes (zlen (concat (fields n p l a am v r s))) ++ concat (fields n p l a am v r s)). split.
  { exists v, r, s. split; [apply uint64_canonical; lia|]. split; [exact PR|]. split; [exact PS|]. eexists. split; [exact HF|reflexivity]. }
  apply run_key. intros pub R Q V. rewrite run_start, R, Q, V. cbn [negb]. change (zlen [192 + zlen C]) with 1 in LC. replace (zlen w <? 57) with true by lia. replace (zlen w - 1) with (zlen C) by lia.
  unfold u64. rewrite Z.mod_small by lia. unfold head_bytes at 1. replace (zlen C <? 56) with true by lia. unfold u8. rewrite (Z.mod_small (zlen C)) by (change (2 ^ 8) with 256; lia). rewrite Z.mod_small by (change (2 ^ 8) with 256; lia). change (idx [192 + zlen C] 0) with (@Ok Z (192 + zlen C)). cbn [bind].
  rewrite Ew. change (idx ([192 + zlen C] ++ C) 0) with (@Ok Z (192 + zlen C)). cbn [bind]. rewrite Z.eqb_refl. cbn [negb]. rewrite slice_from_post by reflexivity. cbn [bind]. subst C. rewrite (fields_decode n p l a am (chain_id tn) nonce sp sl sa N (proj1 PP) Ep El Ea ltac:(lia) ltac:(lia) ltac:(lia) La).
  unfold add_sig. rewrite S1. cbn [bind]. rewrite S2. cbn [bind]. rewrite I. cbn [bind]. cbv zeta. cbn [bind m_nonce m_system m_price m_limit m_to m_amount m_payload m_sharding m_via]. fold r s.
  assert (EV : u8 (nth 64 sig 0 + 35 + u8 (chain_id tn' * 2)) = v_value (nth 64 sig 0) tn') by (unfold u8, v_value, chain_id in *; change (2 ^ 8) with 256; destruct tn'; [change (101 * 2 mod 256) with 202|change (99 * 2 mod 256) with 198]; rewrite Z.mod_small by lia; lia). rewrite EV. fold v.
  assert (EB : body_bytes {| m_nonce := n; m_system := [128]; m_price := p; m_limit := l; m_to := 148 :: a; m_amount := am; m_payload := [128]; m_sharding := [128]; m_via := [128]; m_chain := v; m_r := r; m_s := s |} = concat (fields n p l a am v r s)) by (unfold body_bytes, fields; cbn [m_nonce m_system m_price m_limit m_to m_amount m_payload m_sharding m_via m_chain m_r m_s concat]; rewrite app_nil_r; reflexivity).
  unfold tx_bytes. rewrite EB. reflexivity.
Qed.
(** Longer ones are refused whoever signed them. *)
Lemma long_run : 56 < zlen w <= 130 -> run = Ok (false, []).
Proof.
  intros Sw. pose proof Hw as (h & Hh & Ew). destruct (parts_sizes nonce price limit amount n p l am a (chain_id tn) N PP) as (sp & sl & sa & Ep & El & Ea & Bsp & Bsl & Bsa & Sz).
  set (C := concat (fields n p l a am [chain_id tn] [128] [128])) in *. assert (LC : zlen w = zlen h + zlen C) by (rewrite Ew, zlen_app; reflexivity).
  destruct Hh as [[Q ->]|[Q (x & M & ->)]]; [change (zlen [192 + zlen C]) with 1 in LC; lia|]. rewrite zlen_cons in LC. pose proof (zlen_nonneg x).
  assert (EX : x = [zlen C]) by (eapply minimal_unique; [exact M|]; split; [constructor; [unfold is_byte; lia|constructor]|split; [reflexivity|cbn [hd]; lia]]). subst x. change (zlen [zlen C]) with 1 in *.
  rewrite run_start. destruct (recover sig (K w)) as [pub|]; [|reflexivity]. destruct (negb _); [reflexivity|]. destruct (negb _); [reflexivity|]. replace (zlen w <? 57) with false by lia. cbn [bind negb]. rewrite Ew. cbn [app]. rewrite slice_from_cons. cbn [bind].
  destruct (nonce_bytes nonce n N (proj1 PP)) as [_ Ln]. pose proof (zlen_nonneg sp). pose proof (zlen_nonneg sl). pose proof (zlen_nonneg sa). assert (K1 : zlen C <= 128) by lia. subst C. rewrite (fields_not_decode _ n p l a am (chain_id tn) nonce sp sl sa N (proj1 PP) Ep El Ea ltac:(lia) ltac:(lia) ltac:(lia) La K1). reflexivity.
Qed.
End Verify.
Lemma created_parts K to nonce amount gasLimit gasPrice tn raw h : 0 <= nonce < 2 ^ 64 -> fits amount -> fits gasLimit -> fits gasPrice -> create K to nonce amount gasLimit gasPrice tn = Ok (raw, h) ->
  exists a n p l am w, address to a /\ is_bytes a /\ zlen a = 20 /\ parts nonce gasPrice gasLimit amount n p l am /\ rlp_list (fields n p l a am [chain_id tn] [0x80] [0x80]) w /\ raw = hex_encode w /\ is_bytes w.
Proof.
  intros N A L P E. apply (moac_created_iff K to nonce amount gasLimit gasPrice tn raw h N A L P) in E as (a & n & p & l & am & w & Ad & PP & Hw & -> & ->). pose proof Ad as (t & _ & Et & La). apply hex_decode_bytes in Et as [Ba _].
  exists a, n, p, l, am, w. split; [exact Ad|]. split; [exact Ba|]. split; [exact La|]. split; [exact PP|]. split; [exact Hw|]. split; [reflexivity|]. exact (unsigned_bytes _ _ _ _ _ _ _ _ _ _ _ N P L A PP Ba La Hw).
Qed.
(** The shape of an acceptable signature text: 65 bytes in hex, the last one 0 or 1. *)
Definition recoverable (signature : list Z) (sig : bytes) : Prop := hex_decode signature = Ok sig /\ zlen sig = 65 /\ (nth 64 sig 0 = 0 \/ nth 64 sig 0 = 1).
Lemma bad_signature K recover compress verify raw w signature publicKey tn : hex_decode raw = Ok w -> (forall sig, ~ recoverable signature sig) -> verify_and_combine K recover compress verify raw signature publicKey tn = Ok (false, []).
Proof.
  intros Er H. unfold verify_and_combine. rewrite Er. destruct (hex_decode signature) as [sig| |] eqn:Es; [|reflexivity..]. destruct (zlen sig =? 65) eqn:Ls; [|reflexivity]. cbn [negb]. apply Z.eqb_eq in Ls. pose proof Es as Bs. apply hex_decode_bytes in Bs as [Bs _]. destruct (sig_parts sig Bs Ls) as (_ & _ & _ & I & _). rewrite I. cbn [bind].
  destruct (Z.eq_dec (nth 64 sig 0) 0) as [Q|Q]; [destruct (H sig); split; auto|]. destruct (Z.eq_dec (nth 64 sig 0) 1) as [Q'|Q']; [destruct (H sig); split; auto|]. replace (negb (nth 64 sig 0 =? 1) && negb (nth 64 sig 0 =? 0)) with true by lia. reflexivity.
Qed.
Lemma recoverable_dec signature : (exists sig, recoverable signature sig) \/ (forall sig, ~ recoverable signature sig).
Proof.
  destruct (hex_decode signature) as [sig| |] eqn:E; [|right; intros sig (Q & _); congruence..]. destruct (Z.eq_dec (zlen sig) 65) as [L|L]; [|right; intros s (Q & R & _); congruence].
  destruct (Z.eq_dec (nth 64 sig 0) 0); [left; exists sig; split; auto|]. destruct (Z.eq_dec (nth 64 sig 0) 1); [left; exists sig; split; auto|]. right. intros s (Q & _ & R). assert (s = sig) by congruence. subst s. tauto.
Qed.
(** C46: an unsigned transaction of at most 56 bytes is accepted exactly when the signature is by the named key, and what comes out is that transaction with V, R and S. *)
Theorem moac_short_verified_iff : forall K recover compress verify to nonce amount gasLimit gasPrice tn raw h,
  0 <= nonce < 2 ^ 64 -> fits amount -> fits gasLimit -> fits gasPrice ->
  create K to nonce amount gasLimit gasPrice tn = Ok (raw, h) -> zlen raw <= 2 * 56 ->
  exists a n p l am w, address to a /\ parts nonce gasPrice gasLimit amount n p l am /\ raw = hex_encode w /\
  forall signature publicKey tn',
  (forall out, verify_and_combine K recover compress verify raw signature publicKey tn' = Ok (true, out) <->
     exists sig w', recoverable signature sig /\ by_key K recover compress verify w sig publicKey /\ signed n p l a am sig tn' w' /\ out = 48 :: 120 :: hex_encode w') /\
  ((exists out, verify_and_combine K recover compress verify raw signature publicKey tn' = Ok (true, out)) \/ verify_and_combine K recover compress verify raw signature publicKey tn' = Ok (false, [])).
Proof.
  intros K recover compress verify to nonce amount gasLimit gasPrice tn raw h N A L P E Sr. destruct (created_parts _ _ _ _ _ _ _ _ _ N A L P E) as (a & n & p & l & am & w & Ad & Ba & La & PP & Hw & -> & Bw).
  rewrite zlen_hex_encode in Sr. exists a, n, p, l, am, w. split; [exact Ad|]. split; [exact PP|]. split; [reflexivity|]. intros signature publicKey tn'. destruct (recoverable_dec signature) as [(sig & Es & Ls & Hv)|NR].
  - destruct (short_run K recover compress verify nonce gasPrice gasLimit amount n p l am a w tn N P L A PP Ba La Hw signature publicKey sig tn' Es Ls Hv ltac:(lia)) as (w' & S & [(Q & BK)|(Q & BK)]); rewrite Q.
    + split; [|left; eauto]. intros out. split.
      * intros F. apply (f_equal (fun x => match x with Ok v => snd v | _ => [] end)) in F. cbv beta iota in F. cbn [snd] in F. subst out. exists sig, w'. split; [split; auto|]. auto.
      * intros (sig' & w2 & (Es' & _) & _ & S' & ->). assert (sig' = sig) by congruence. subst sig'. destruct S as (v & r & s & V & R & S & (h1 & H1 & ->)), S' as (v' & r' & s' & V' & R' & S' & (h2 & H2 & ->)). rewrite (number_unique _ _ _ V' V), (prefixed_unique _ _ _ R' R), (prefixed_unique _ _ _ S' S) in *. rewrite (header_unique _ _ _ _ H2 H1). reflexivity.
    + split; [|right; reflexivity]. intros out. split; [discriminate|]. intros (sig' & w2 & (Es' & _) & BK' & _). assert (sig' = sig) by congruence. subst sig'. contradiction.
  - rewrite (bad_signature _ _ _ _ _ w _ _ _ ltac:(apply hex_decode_encode; exact Bw) NR). split; [|right; reflexivity]. intros out. split; [discriminate|]. intros (sig & _ & R & _). destruct (NR sig R).
Qed.
(** C46: one of 57 to 130 bytes is refused, whoever signed it. *)
Theorem moac_long_refused : forall K recover compress verify to nonce amount gasLimit gasPrice tn raw h signature publicKey tn',
  0 <= nonce < 2 ^ 64 -> fits amount -> fits gasLimit -> fits gasPrice ->
  create K to nonce amount gasLimit gasPrice tn = Ok (raw, h) -> 2 * 56 < zlen raw <= 2 * 130 ->
  verify_and_combine K recover compress verify raw signature publicKey tn' = Ok (false, []).
Proof.
  intros K recover compress verify to nonce amount gasLimit gasPrice tn raw h signature publicKey tn' N A L P E Sr. destruct (created_parts _ _ _ _ _ _ _ _ _ N A L P E) as (a & n & p & l & am & w & Ad & Ba & La & PP & Hw & -> & Bw).
  rewrite zlen_hex_encode in Sr. destruct (recoverable_dec signature) as [(sig & Es & Ls & Hv)|NR]; [|apply (bad_signature _ _ _ _ _ w); [apply hex_decode_encode; exact Bw|exact NR]].
  apply (long_run K recover compress verify nonce gasPrice gasLimit amount n p l am a w tn N P L A PP Ba La Hw signature publicKey sig tn' Es Ls Hv). lia.
Qed.
(** C78: longer ones can be misread. With a nonce of eight bytes that ends in 0x81 and three numbers of 32 bytes, the transaction that comes out
    has another nonce and a system contract, though the signature is for the one that went in. *)
Theorem moac_longer_misread : forall K recover compress verify to nonce amount gasLimit gasPrice tn raw h x w signature sig publicKey tn',
  0 <= nonce < 2 ^ 64 -> 2 ^ 248 <= amount < 2 ^ 256 -> 2 ^ 248 <= gasLimit < 2 ^ 256 -> 2 ^ 248 <= gasPrice < 2 ^ 256 ->
  minimal nonce (x ++ [0x81]) -> zlen x = 7 ->
  create K to nonce amount gasLimit gasPrice tn = Ok (raw, h) -> hex_decode raw = Ok w ->
  recoverable signature sig -> by_key K recover compress verify w sig publicKey ->
  exists a p l am v r s w', address to a /\ prefixed gasPrice p /\ prefixed gasLimit l /\ prefixed amount am /\
  rlp_number (v_value (nth 64 sig 0) tn') v /\ prefixed (be_num (firstn 32 sig)) r /\ prefixed (be_num (firstn 32 (skipn 32 sig))) s /\
  rlp_list [0x88 :: 0x88 :: x; [0x81; 0x80]; p; l; 0x94 :: a; am; [0x80]; [0x80]; [0x80]; v; r; s] w' /\
  verify_and_combine K recover compress verify raw signature publicKey tn' = Ok (true, 48 :: 120 :: hex_encode w').
Proof.
  intros K recover compress verify to nonce amount gasLimit gasPrice tn raw h x w signature sig publicKey tn' N A L P Mn Lx E Er (Es & Ls & Hv) BK.
  assert (FT : forall z, 2 ^ 248 <= z < 2 ^ 256 -> fits z). { intros z Z. unfold fits. rewrite Z.abs_eq by (pose proof (Z.pow_pos_nonneg 2 248); lia). eapply Z.lt_le_trans; [apply Z|]. change (2 ^ 256) with (256 ^ 32). apply Z.pow_le_mono_r; lia. }
  assert (AB : forall z, 2 ^ 248 <= z < 2 ^ 256 -> Z.abs z = z) by (intros z Z; apply Z.abs_eq; pose proof (Z.pow_pos_nonneg 2 248); lia).
  destruct (created_parts _ _ _ _ _ _ _ _ _ N (FT _ A) (FT _ L) (FT _ P) E) as (a & n & p & l & am & w0 & Ad & Ba & La & PP & Hw & -> & Bw). rewrite hex_decode_encode in Er by exact Bw. assert (w0 = w) by congruence. subst w0. clear Er.
  pose proof PP as (Rn & (sp & Mp & ->) & (sl & Ml & ->) & (sa & Ma & ->)). rewrite !AB in * by assumption.
  assert (LL : forall z s, 2 ^ 248 <= z < 2 ^ 256 -> minimal z s -> zlen s = 32). { intros z s Z M. pose proof (minimal_len _ _ 32 M ltac:(lia) (proj2 Z)) as U. destruct (Z_lt_ge_dec (zlen s) 32) as [Q|Q]; [|lia]. exfalso. destruct M as (Bs & Es' & _). pose proof (be_num_bound s Bs) as BB. assert (256 ^ zlen s <= 256 ^ 31) by (apply Z.pow_le_mono_r; lia). change (256 ^ 31) with (2 ^ 248) in *. lia. }
  pose proof (LL _ _ P Mp) as Lp. pose proof (LL _ _ L Ml) as Lm. pose proof (LL _ _ A Ma) as Lam.
  assert (En : n = 0x88 :: x ++ [0x81]). { eapply number_unique; [exact Rn|]. exists (x ++ [0x81]). split; [exact Mn|]. right. split; [intros (b & Q & _); apply (f_equal zlen) in Q; rewrite zlen_app, Lx in Q; discriminate|]. exists [0x88]. split; [|reflexivity]. left. rewrite zlen_app, Lx. split; reflexivity. }
  destruct (sig_parts sig) as (S1 & S2 & _ & I & B1 & B2); [apply hex_decode_bytes in Es; tauto|exact Ls|].
  exists a, (128 + zlen sp :: sp), (128 + zlen sl :: sl), (128 + zlen sa :: sa), (uint64_bytes (v_value (nth 64 sig 0) tn')), (length_bytes (zlen (strip0 (firstn 32 sig))) ++ strip0 (firstn 32 sig)), (length_bytes (zlen (strip0 (firstn 32 (skipn 32 sig)))) ++ strip0 (firstn 32 (skipn 32 sig))).
  set (v := uint64_bytes (v_value (nth 64 sig 0) tn')). set (r := length_bytes (zlen (strip0 (firstn 32 sig))) ++ strip0 (firstn 32 sig)). set (s := length_bytes (zlen (strip0 (firstn 32 (skipn 32 sig)))) ++ strip0 (firstn 32 (skipn 32 sig))).
  assert (L1 : zlen (firstn 32 sig) = 32) by (unfold zlen in *; rewrite firstn_length; lia). assert (L2 : zlen (firstn 32 (skipn 32 sig)) = 32) by (unfold zlen in *; rewrite firstn_length, skipn_length; lia).
  pose proof (strip_prefixed _ B1 L1) as PR. pose proof (strip_prefixed _ B2 L2) as PS. fold r in PR. fold s in PS.
  assert (VV : 0 <= v_value (nth 64 sig 0) tn' < 256) by (unfold v_value, chain_id; destruct tn'; lia).
  set (F := [0x88 :: 0x88 :: x; [0x81; 0x80]; 128 + zlen sp :: sp; 128 + zlen sl :: sl; 0x94 :: a; 128 + zlen sa :: sa; [0x80]; [0x80]; [0x80]; v; r; s]).
  assert (LF : 0 <= zlen (concat F) < 2 ^ 64). { split; [apply zlen_nonneg|]. unfold F. cbn [concat]. rewrite !app_nil_r, !zlen_app, !zlen_cons, ?zlen_app. change (zlen (@nil Z)) with 0.
    assert (PL : forall b e, is_bytes b -> zlen b = 32 -> prefixed (be_num b) e -> zlen e <= 33). { intros b e Bb Lb (y & M & ->). rewrite zlen_cons. pose proof (be_num_bound b Bb) as BB. rewrite Lb in BB. pose proof (minimal_len _ _ 32 M ltac:(lia) ltac:(lia)). lia. }
    pose proof (PL _ _ B1 L1 PR). pose proof (PL _ _ B2 L2 PS). assert (zlen v <= 9); [|lia].
    destruct (nonce_cases (v_value (nth 64 sig 0) tn') v) as [(b & -> & _)|(q & -> & Lq & _)]; [lia|apply uint64_canonical; lia|unfold zlen; cbn [length]; lia|rewrite zlen_cons; lia]. }
  exists (head_bytes (zlen (concat F)) ++ concat F). split; [exact Ad|]. split; [exists sp; auto|]. split; [exists sl; auto|]. split; [exists sa; auto|]. split; [apply uint64_canonical; lia|]. split; [exact PR|]. split; [exact PS|]. split; [eexists; split; [apply list_header_canonical; exact LF|reflexivity]|].
  destruct BK as (key & R & Q & V). rewrite (run_start K recover compress verify nonce gasPrice gasLimit amount n _ _ _ a w tn N (FT _ P) (FT _ L) (FT _ A) PP Ba La Hw signature publicKey sig tn' Es Ls Hv). rewrite R. assert (Q' : beq (to_lower (hex_encode (compress key))) (to_lower publicKey) = true) by (apply beq_eq; exact Q). rewrite Q', V. cbn [negb].
  destruct Hw as (hd & Hh & Ew). subst n. set (C := concat (fields (136 :: x ++ [129]) (128 + zlen sp :: sp) (128 + zlen sl :: sl) a (128 + zlen sa :: sa) [chain_id tn] [128] [128])) in *.
  assert (LC : zlen C = 136) by (unfold C, fields; cbn [concat]; rewrite !app_nil_r, !zlen_app, !zlen_cons, ?zlen_app, ?zlen_cons; change (zlen (@nil Z)) with 0; lia).
  assert (Eh : hd = [0xF8; 136]). { eapply header_unique; [exact Hh|]. rewrite LC. right. split; [lia|]. exists [136]. split; [split; [constructor; [unfold is_byte; lia|constructor]|split; [reflexivity|cbn [List.hd]; lia]]|reflexivity]. }
  subst hd. assert (Lw : zlen w = 138) by (rewrite Ew, zlen_app, LC; reflexivity). rewrite Lw. change (138 <? 57) with false. cbn [bind negb]. rewrite Ew. cbn [app]. rewrite slice_from_cons. cbn [bind].
  assert (D : decode_empty (136 :: C) = Ok {| m_nonce := 136 :: 136 :: x; m_system := [129; 128]; m_price := 128 + zlen sp :: sp; m_limit := 128 + zlen sl :: sl; m_to := 148 :: a; m_amount := 128 + zlen sa :: sa; m_payload := [128]; m_sharding := [128]; m_via := [128]; m_chain := [chain_id tn]; m_r := []; m_s := [] |}).
  { unfold decode_empty. change (136 <=? 128) with false. cbv iota. replace (136 :: C) with ((136 :: 136 :: x) ++ 129 :: 128 :: 128 + zlen sp :: sp ++ 128 + zlen sl :: sl ++ 148 :: a ++ 128 + zlen sa :: sa ++ [128; 128; 128; chain_id tn; 128; 128]) by (unfold C, fields; cbn [concat]; rewrite !app_nil_r; cbn [app]; rewrite <- !app_assoc; reflexivity).
    rewrite need_app by (rewrite !zlen_cons; lia). pose proof (fun A k => @item_ok A [128] (128 + zlen sp :: sp ++ 128 + zlen sl :: sl ++ 148 :: a ++ 128 + zlen sa :: sa ++ [128; 128; 128; chain_id tn; 128; 128]) k ltac:(reflexivity)) as I1. cbn [app] in I1. change (128 + zlen [128]) with 129 in I1. rewrite I1. rewrite !item_ok by lia. replace 148 with (128 + zlen a) by lia. rewrite !item_ok by lia. rewrite !item_80. change [chain_id tn; 128; 128] with ([chain_id tn] ++ [128; 128]). rewrite need_app by reflexivity. reflexivity. }
  rewrite D. unfold add_sig. rewrite S1. cbn [bind]. rewrite S2. cbn [bind]. rewrite I. cbn [bind]. cbv zeta. cbn [bind m_nonce m_system m_price m_limit m_to m_amount m_payload m_sharding m_via]. fold r s.
  assert (EV : u8 (nth 64 sig 0 + 35 + u8 (chain_id tn' * 2)) = v_value (nth 64 sig 0) tn') by (unfold u8, v_value, chain_id in *; change (2 ^ 8) with 256; destruct tn'; [change (101 * 2 mod 256) with 202|change (99 * 2 mod 256) with 198]; rewrite Z.mod_small by lia; lia). rewrite EV. fold v.
  match goal with |- context [tx_bytes ?t] => assert (EB : body_bytes t = concat F) by (unfold body_bytes, F; cbn [m_nonce m_system m_price m_limit m_to m_amount m_payload m_sharding m_via m_chain m_r m_s concat]; rewrite app_nil_r; reflexivity) end.
  unfold tx_bytes. rewrite EB. reflexivity.
Qed.
Lemma need_np {A} n r (k : bytes -> bytes -> res A) : (forall a b, k a b <> Panic) -> need n r k <> Panic.
Proof. intros H. unfold need. repeat match goal with |- context [if ?b then _ else _] => destruct b end; try discriminate; try apply H. Qed.
Lemma item_np {A} r (k : bytes -> bytes -> res A) : (forall a b, k a b <> Panic) -> item r k <> Panic.
Proof. intros H. unfold item. destruct r as [|b r]; [discriminate|]. destruct (b <? 128); [discriminate|]. apply need_np; exact H. Qed.
Lemma decode_empty_np b : decode_empty b <> Panic.
Proof.
  unfold decode_empty. destruct b as [|c b]; [discriminate|]. destruct (c <=? 128); apply need_np; intros; repeat (apply item_np; intros); apply need_np; intros; repeat match goal with |- context [match ?l with _ => _ end] => destruct l end; discriminate.
Qed.
(** C78: the only texts that make verification panic are empty ones for which the recovered key is the named one. *)
Theorem moac_verify_panics_iff : forall K recover compress verify emptyTrans signature publicKey tn,
  verify_and_combine K recover compress verify emptyTrans signature publicKey tn = Panic <->
  emptyTrans = [] /\ exists sig, recoverable signature sig /\ by_key K recover compress verify [] sig publicKey.
Proof.
  intros K recover compress verify emptyTrans signature publicKey tn. split.
  - intros E. destruct (hex_decode emptyTrans) as [w| |] eqn:Ew; [|unfold verify_and_combine in E; rewrite Ew in E; discriminate..]. destruct (recoverable_dec signature) as [(sig & Es & Ls & Hv)|NR]; [|rewrite (bad_signature _ _ _ _ _ w _ _ _ Ew NR) in E; discriminate].
    unfold verify_and_combine in E. rewrite Ew, Es, Ls in E. change (negb (65 =? 65)) with false in E. cbv iota in E. pose proof Es as Bs. apply hex_decode_bytes in Bs as [Bs _]. destruct (sig_parts sig Bs Ls) as (S1 & S2 & S3 & I & _). rewrite I in E. cbn [bind] in E. replace (negb (nth 64 sig 0 =? 1) && negb (nth 64 sig 0 =? 0)) with false in E by lia.
    destruct (recover sig (K w)) as [key|] eqn:R; [|discriminate]. destruct (beq (to_lower (hex_encode (compress key))) (to_lower publicKey)) eqn:Q; [|discriminate]. cbn [negb] in E. rewrite S3 in E. cbn [bind] in E. destruct (verify key (K w) (firstn 64 sig)) eqn:V; [|discriminate]. cbn [negb] in E.
    destruct w as [|b w].
    + apply hex_decode_bytes in Ew as [_ Lw]. destruct emptyTrans; [|discriminate Lw]. split; [reflexivity|]. exists sig. split; [split; auto|]. exists key. split; [exact R|]. split; [apply beq_eq; exact Q|exact V].
    + exfalso. assert (H0 : exists y, idx (head_bytes (u64 (zlen (b :: w) - 1))) 0 = Ok y) by (unfold head_bytes; destruct (u64 (zlen (b :: w) - 1) <? 56); eexists; reflexivity). destruct H0 as (y & H0). rewrite H0 in E. cbn [bind] in E. change (idx (b :: w) 0) with (@Ok Z b) in E. cbn [bind] in E.
      assert (H1 : forall o : bool, (if negb o then Ok (false, []) else r <- slice_from (b :: w) 1 ;; match decode_empty r with Ok t => t0 <- add_sig t sig tn ;; Ok (true, 48 :: 120 :: hex_encode (tx_bytes t0)) | Err => Ok (false, []) | Panic => Panic end) <> Panic).
      { intros o. destruct o; [|discriminate]. cbn [negb]. rewrite slice_from_cons. cbn [bind]. pose proof (decode_empty_np w). destruct (decode_empty w) as [t| |]; [|discriminate|contradiction]. unfold add_sig. rewrite S1. cbn [bind]. rewrite S2. cbn [bind]. rewrite I. cbn [bind]. discriminate. }
      destruct (zlen (b :: w) <? 57); cbn [bind] in E; [exact (H1 (y =? b) E)|exact (H1 true E)].
  - intros (-> & sig & (Es & Ls & Hv) & key & R & Q & V). unfold verify_and_combine. change (hex_decode []) with (@Ok bytes []). rewrite Es, Ls. change (negb (65 =? 65)) with false. cbv iota. pose proof Es as Bs. apply hex_decode_bytes in Bs as [Bs _]. destruct (sig_parts sig Bs Ls) as (S1 & S2 & S3 & I & _). rewrite I. cbn [bind]. replace (negb (nth 64 sig 0 =? 1) && negb (nth 64 sig 0 =? 0)) with false by lia.
    rewrite R. assert (Q' : beq (to_lower (hex_encode (compress key))) (to_lower publicKey) = true) by (apply beq_eq; exact Q). rewrite Q'. cbn [negb]. rewrite S3. cbn [bind]. rewrite V. reflexivity.
Qed.

(** ** Examples *)
(** The address 0x1111…, nonce 5, 10^18 at 20 gwei and 21000 gas: 47 bytes after the header. *)
Definition ex_to : list Z := 48 :: 120 :: repeat 49 40.
Example created_example : exists raw h, create (fun b => b) ex_to 5 (10 ^ 18) 21000 (20 * 10 ^ 9) false = Ok (raw, h) /\ zlen raw = 96.
Proof. do 2 eexists. split; [vm_compute; reflexivity|reflexivity]. Qed.
Example fits_example : fits (10 ^ 18) /\ fits 21000 /\ fits (20 * 10 ^ 9).
Proof. repeat split; reflexivity. Qed.
(** With recovery and verification that accept, the transaction is accepted and is signed for the network named then. *)
Example combined_example : exists raw h out, create (fun b => b) ex_to 5 (10 ^ 18) 21000 (20 * 10 ^ 9) false = Ok (raw, h) /\
  verify_and_combine (fun b => b) (fun _ _ => Some [2; 3]) (fun k => k) (fun _ _ _ => true) raw (repeat 49 128 ++ [48; 49]) [48; 50; 48; 51] true = Ok (true, out).
Proof. do 3 eexists. split; [vm_compute; reflexivity|vm_compute; reflexivity]. Qed.
(** A nonce of eight bytes makes it too long. *)
Example refused_example : exists raw h, create (fun b => b) ex_to (2 ^ 63) (10 ^ 20) 21000 (20 * 10 ^ 9) false = Ok (raw, h) /\ zlen raw = 116.
Proof. do 2 eexists. split; [vm_compute; reflexivity|reflexivity]. Qed.
Example misread_example : minimal (2 ^ 63 + 0x81) ([128; 0; 0; 0; 0; 0; 0] ++ [0x81]) /\ exists raw h, create (fun b => b) ex_to (2 ^ 63 + 0x81) (2 ^ 248) (2 ^ 248) (2 ^ 248) false = Ok (raw, h).
Proof. split; [split; [repeat constructor; unfold is_byte; lia|split; [reflexivity|cbn [hd app]; lia]]|]. do 2 eexists. vm_compute. reflexivity. Qed.
Example panic_example : verify_and_combine (fun b => b) (fun _ _ => Some [2; 3]) (fun k => k) (fun _ _ _ => true) [] (repeat 49 128 ++ [48; 49]) [48; 50; 48; 51] true = Panic.
Proof. reflexivity. Qed.

Print Assumptions list_header_canonical.
Print Assumptions uint64_canonical.
Print Assumptions bigint_canonical_iff.
Print Assumptions small_bigint_has_length_byte.
Print Assumptions bigint_sign_lost.
Print Assumptions moac_created_iff.
Print Assumptions moac_short_verified_iff.
Print Assumptions moac_long_refused.
Print Assumptions moac_longer_misread.
Print Assumptions moac_verify_panics_iff.
