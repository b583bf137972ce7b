(** C20, C21: text forms of extended keys and multi-signature shares. *)
From Coq Require Import String ZArith List Bool Lia ZifyBool ZifyNat.
From Verif Require Import Go GoFacts GoFacts2 Base58Model Base58Spec Base58Proofs Base58Props Digits58 Base58CheckModel Base58CheckSpec Base58CheckProofs OwkModel OwkSpec OwkDeriveProofs OwkText OwkToy.
Import ListNotations.
Open Scope Z_scope.
Ltac Zify.zify_post_hook ::= idtac.

(** ** Specification *)
(** Field sizes of an extended key. *)
Definition key_wf (k : xkey) : Prop :=
  0 <= depth k < 256 /\ is_bytes (parent_fp k) /\ length (parent_fp k) = 4%nat /\ 0 <= serializes k < 2 ^ 32 /\
  is_bytes (chain_code k) /\ length (chain_code k) = 32%nat /\ is_bytes (key k) /\ 0 <= curve_type k < 2 ^ 32.
(** The serialised fields; a zero byte marks private keys and the keys of the 25519 curves. *)
Definition marked (C : crypto) (k : xkey) : bool :=
  is_private k || match kind C (curve_type k) with X25519 | ED25519 | CURVE25519_SHA256 => true | _ => false end.
Definition payload (C : crypto) (k : xkey) : bytes :=
  be_bytes 4 (curve_type k) ++ [depth k] ++ parent_fp k ++ be_bytes 4 (serializes k) ++ chain_code k ++
  (if marked C k then [0] else []) ++ key k.
(** Number of key bytes the text forms are made for. *)
Definition full_key (C : crypto) (k : xkey) : Prop :=
  length (key k) = (if marked C k then 32 else if is_bls (kind C (curve_type k)) then 48 else 33)%nat.
Definition prefix_of (C : crypto) (k : xkey) : bytes :=
  if is_private k then [0x07; 0xa8; 0x10; 0x0c; 0x28] else
  if is_bls (kind C (curve_type k)) then [0x3e; 0x00; 0xfa; 0xea; 0x69] else [0x07; 0xa8; 0x10; 0x31; 0xa2].

(** ** Lemmas *)
Lemma zero_marked_eq C k : zero_marked (kind C (curve_type k)) (is_private k) = marked C k.
Proof. unfold zero_marked, marked. destruct (kind C (curve_type k)), (is_private k); reflexivity. Qed.
Lemma payload_bytes C k : key_wf k -> is_bytes (payload C k).
Proof.
  intros (D & F & _ & _ & Cc & _ & K & _). unfold payload. apply is_bytes_app. split; [apply be_bytes_is_bytes|].
  apply is_bytes_app. split; [constructor; [exact D|constructor]|]. apply is_bytes_app. split; [exact F|].
  apply is_bytes_app. split; [apply be_bytes_is_bytes|]. apply is_bytes_app. split; [exact Cc|]. apply is_bytes_app. split; [|exact K].
  destruct (marked C k); [constructor; [unfold is_byte; lia|constructor]|constructor].
Qed.
Lemma payload_len C k : key_wf k -> zlen (payload C k) = 45 + (if marked C k then 1 else 0) + zlen (key k).
Proof.
  intros (_ & _ & F & _ & _ & Cc & _). unfold payload. rewrite !zlen_app, !zlen_be_bytes. unfold zlen. rewrite F, Cc. destruct (marked C k); cbn [length]; lia.
Qed.
Lemma prefix_bytes C k : is_bytes (prefix_of C k) /\ length (prefix_of C k) = 5%nat /\ hd 1 (prefix_of C k) <> 0.
Proof. unfold prefix_of. destruct (is_private k); [|destruct (is_bls _)]; (split; [apply is_byteb_all; reflexivity|split; [reflexivity|discriminate]]). Qed.
Lemma ow_parse_payload C k : key_wf k -> ow_parse C (is_private k) (payload C k) = Ok k.
Proof.
  intros (D & F & LF & S & Cc & LC & K & Ct). unfold ow_parse, payload. set (m := if marked C k then [0] else []).
  rewrite (slice_pre (be_bytes 4 (curve_type k))) by (rewrite zlen_be_bytes; reflexivity). cbn [bind].
  cbn [app]. rewrite idx_mid by (rewrite zlen_be_bytes; reflexivity). cbn [bind].
  assert (ZF : zlen (parent_fp k) = 4) by (unfold zlen; lia). assert (ZC : zlen (chain_code k) = 32) by (unfold zlen; lia).
  set (a := be_bytes 4 (curve_type k)). set (ser := be_bytes 4 (serializes k)).
  assert (Za : zlen a = 4) by apply zlen_be_bytes. assert (Zs : zlen ser = 4) by apply zlen_be_bytes.
  assert (Na : be_num a = curve_type k) by (unfold a; rewrite be_num_be_bytes; apply Z.mod_small; exact Ct).
  assert (Ns : be_num ser = serializes k) by (unfold ser; rewrite be_num_be_bytes; apply Z.mod_small; exact S).
  clearbody a ser.
  replace (a ++ depth k :: parent_fp k ++ ser ++ chain_code k ++ m ++ key k) with ((a ++ [depth k]) ++ parent_fp k ++ ser ++ chain_code k ++ m ++ key k) by (rewrite <- app_assoc; reflexivity).
  assert (Zb : zlen (a ++ [depth k]) = 5) by (rewrite zlen_app, Za; reflexivity).
  generalize dependent (a ++ [depth k]). intros b Zb.
  rewrite slice_mid by lia. cbn [bind].
  rewrite (app_assoc b). rewrite slice_mid by (rewrite zlen_app; lia). cbn [bind].
  rewrite (app_assoc (b ++ parent_fp k)). rewrite slice_mid by (rewrite !zlen_app; lia). cbn [bind].
  rewrite Na, Ns, zero_marked_eq. rewrite (app_assoc ((b ++ parent_fp k) ++ ser)).
  assert (Ze : zlen (((b ++ parent_fp k) ++ ser) ++ chain_code k) = 45) by (rewrite !zlen_app; lia).
  generalize dependent (((b ++ parent_fp k) ++ ser) ++ chain_code k). intros e Ze.
  unfold m. destruct (marked C k).
  - change ([0] ++ key k) with (0 :: key k). rewrite idx_mid by lia. cbn [bind Z.eqb negb].
    replace (e ++ 0 :: key k) with ((e ++ [0]) ++ key k) by (rewrite <- app_assoc; reflexivity).
    rewrite slice_from_post by (rewrite zlen_app, Ze; reflexivity). cbn [bind]. destruct k; reflexivity.
  - change ([] ++ key k) with (key k). rewrite slice_from_post by lia. cbn [bind]. destruct k; reflexivity.
Qed.
Lemma app_split (u v x y : bytes) : u ++ v = x ++ y -> zlen u = zlen x -> u = x /\ v = y.
Proof.
  revert x. induction u as [|e u IH]; intros [|f x] Q L.
  - auto.
  - rewrite zlen_cons in L. pose proof (zlen_nonneg x). change (zlen (@nil Z)) with 0 in L. lia.
  - rewrite zlen_cons in L. pose proof (zlen_nonneg u). change (zlen (@nil Z)) with 0 in L. lia.
  - cbn [app] in Q. injection Q as <- Q. rewrite !zlen_cons in L. destruct (IH x Q ltac:(lia)) as [-> ->]. auto.
Qed.
(** Any byte string of at least 45 bytes splits into the fields. *)
Lemma split_fields (d : bytes) : 45 <= zlen d -> exists ct dep fp ser cc r, d = ct ++ [dep] ++ fp ++ ser ++ cc ++ r /\
  length ct = 4%nat /\ length fp = 4%nat /\ length ser = 4%nat /\ length cc = 32%nat.
Proof.
  intros H. unfold zlen in H.
  exists (firstn 4 d), (nth 4 d 0), (firstn 4 (skipn 5 d)), (firstn 4 (skipn 9 d)), (firstn 32 (skipn 13 d)), (skipn 45 d).
  assert (SK : forall n (l : bytes), (n < length l)%nat -> skipn n l = nth n l 0 :: skipn (S n) l).
  { induction n as [|n IH]; intros [|x l] L; cbn [length] in L; try lia; [reflexivity|]. cbn [skipn nth]. apply IH. lia. }
  assert (SS : forall a b (l : bytes), skipn (a + b) l = skipn b (skipn a l)).
  { induction a as [|a IH]; intros b l; [reflexivity|]. destruct l as [|x l]; [rewrite !skipn_nil; reflexivity|]. apply IH. }
  split.
  - rewrite <- (firstn_skipn 4 d) at 1. f_equal. rewrite (SK 4%nat d) by lia. cbn [app]. f_equal.
    rewrite <- (firstn_skipn 4 (skipn 5 d)) at 1. f_equal. rewrite <- (SS 5 4)%nat. change (5 + 4)%nat with 9%nat.
    rewrite <- (firstn_skipn 4 (skipn 9 d)) at 1. f_equal. rewrite <- (SS 9 4)%nat. change (9 + 4)%nat with 13%nat.
    rewrite <- (firstn_skipn 32 (skipn 13 d)) at 1. f_equal. rewrite <- (SS 13 32)%nat. reflexivity.
  - rewrite !firstn_length, !skipn_length. lia.
Qed.
Lemma ow_parse_inv C private d k : is_bytes d -> 45 <= zlen d -> ow_parse C private d = Ok k ->
  key_wf k /\ is_private k = private /\ d = payload C k.
Proof.
  intros Hb Hl E. destruct (split_fields d Hl) as (ct & dep & fp & ser & cc & r & -> & Lct & Lfp & Lser & Lcc).
  apply is_bytes_app in Hb as [Bct Hb]. apply is_bytes_app in Hb as [Bdep Hb]. inversion Bdep; subst. 
  apply is_bytes_app in Hb as [Bfp Hb]. apply is_bytes_app in Hb as [Bser Hb]. apply is_bytes_app in Hb as [Bcc Br].
  set (K0 := mkKey dep fp (be_num ser) cc (if zero_marked (kind C (be_num ct)) private then tl r else r) private (be_num ct)).
  assert (Q4 : forall x, length x = 4%nat -> is_bytes x -> 0 <= be_num x < 2 ^ 32 /\ be_bytes 4 (be_num x) = x).
  { intros x L B. pose proof (be_num_bound x B) as Q. unfold zlen in Q. rewrite L in Q. split; [exact Q|]. rewrite <- L. apply be_bytes_be_num, B. }
  destruct (Q4 ct Lct Bct) as [R1 E1]. destruct (Q4 ser Lser Bser) as [R2 E2].
  assert (W : key_wf K0).
  { unfold key_wf, K0. cbn [depth parent_fp serializes chain_code key curve_type]. repeat split; try assumption; try lia; try (apply H1).
    destruct (zero_marked _ _); [|exact Br]. destruct r; [constructor|]. inversion Br; subst; assumption. }
  assert (ZM : zero_marked (kind C (be_num ct)) private = marked C K0) by (rewrite <- zero_marked_eq; reflexivity).
  assert (P : (zero_marked (kind C (be_num ct)) private = true -> exists r', r = 0 :: r') ->
     ct ++ [dep] ++ fp ++ ser ++ cc ++ r = payload C K0).
  { intros Q. unfold payload. rewrite <- ZM. unfold K0. cbn [curve_type depth parent_fp serializes chain_code key]. rewrite E1, E2.
    do 5 f_equal. destruct (zero_marked _ _); [destruct (Q eq_refl) as (r' & ->); reflexivity|reflexivity]. }
  destruct (zero_marked (kind C (be_num ct)) private) eqn:Z.
  - (* marked: the byte after the fields must be 0 *)
    assert (R0 : exists r', r = 0 :: r').
    { unfold ow_parse in E. rewrite (slice_pre ct) in E by (unfold zlen; lia). cbn [bind] in E.
      apply bind_ok in E as (x1 & _ & E). apply bind_ok in E as (x2 & _ & E). apply bind_ok in E as (x3 & _ & E). apply bind_ok in E as (x4 & _ & E).
      rewrite Z in E. apply bind_ok in E as (z & I & E). destruct (z =? 0) eqn:Z0; cbn [negb] in E; [|discriminate]. apply Z.eqb_eq in Z0. subst z.
      apply idx_ok in I as (u & v & Q & Lu).
      replace (ct ++ [dep] ++ fp ++ ser ++ cc ++ r) with ((ct ++ [dep] ++ fp ++ ser ++ cc) ++ r) in Q by (rewrite <- !app_assoc; reflexivity).
      apply app_split in Q as [_ Q]; [exists v; exact Q|]. rewrite !zlen_app. unfold zlen in *. cbn [length]. lia. }
    specialize (P (fun _ => R0)). rewrite P in E |- *. pose proof (ow_parse_payload C K0 W) as Q. cbn [is_private K0] in Q. rewrite Q in E. injection E as <-.
    split; [exact W|]. split; reflexivity.
  - specialize (P ltac:(discriminate)). rewrite P in E |- *. pose proof (ow_parse_payload C K0 W) as Q. cbn [is_private K0] in Q. rewrite Q in E. injection E as <-.
    split; [exact W|]. split; reflexivity.
Qed.
Lemma ow_parse_total C private d : 46 <= zlen d -> ow_parse C private d <> Panic.
Proof.
  intros H. unfold ow_parse.
  destruct (slice_total d 0 4 ltac:(lia) ltac:(lia)) as [x ->]. cbn [bind]. destruct (idx_total d 4 ltac:(lia)) as [x1 ->]. cbn [bind].
  destruct (slice_total d 5 9 ltac:(lia) ltac:(lia)) as [x2 ->]. cbn [bind]. destruct (slice_total d 9 13 ltac:(lia) ltac:(lia)) as [x3 ->]. cbn [bind].
  destruct (slice_total d 13 45 ltac:(lia) ltac:(lia)) as [x4 ->]. cbn [bind]. destruct (zero_marked _ _).
  - destruct (idx_total d 45 ltac:(lia)) as [z ->]. cbn [bind]. destruct (negb _); [discriminate|].
    unfold slice_from. destruct (slice_total d 46 (zlen d) ltac:(lia) ltac:(lia)) as [x5 ->]. discriminate.
  - unfold slice_from. destruct (slice_total d 45 (zlen d) ltac:(lia) ltac:(lia)) as [x5 ->]. discriminate.
Qed.

(** The checked decoder, for a text with known leading characters. *)
Section Check.
Variable C : crypto.
Hypothesis K : hashes_ok C.
Let H := dsha256 C.
Let HH : hash_ok H := hk_dsha C K.
Lemma check_decode_of p data s : is_bytes (p ++ data) -> base58_encode ow_al (checked H (p ++ data)) = Ok s -> ow_check_decode C s p = Ok data.
Proof.
  intros B E. unfold ow_check_decode. rewrite ow_al_eq. cbn [bind].
  destruct (enc_checked H HH ow_alphabet_runes ow_alphabet_ok ow_al ow_al_eq (p ++ data) B) as (s' & E' & D & _).
  rewrite E in E'. injection E' as <-. rewrite D. cbn [bind]. unfold checked at 1. rewrite <- app_assoc.
  pose proof (prefix_loop_ok p [] (data ++ firstn 4 (H (p ++ data)))) as PL. cbn [app] in PL. change (zlen (@nil Z)) with 0 in PL. rewrite PL. cbn [bind].
  fold H. rewrite check_split_checked by assumption. cbn [bind].
  rewrite checked_len by assumption. unfold checked. rewrite <- app_assoc. apply slice_mid; [reflexivity|]. rewrite zlen_app. lia.
Qed.
Lemma check_encode_eq data fx : is_bytes (fx ++ data) -> ow_check_encode C data fx = base58_encode ow_al (checked H (fx ++ data)).
Proof.
  intros B. unfold ow_check_encode. rewrite cks_slice with (H := dsha256 C) by assumption. cbn [bind]. rewrite ow_al_eq. cbn [bind].
  unfold checked. rewrite <- app_assoc. reflexivity.
Qed.
(** Outcome for a text that starts with the characters of [V]: when no byte string of fewer than [N] bytes with
    prefix [p] (or any proper initial part of it) has such a text. *)
Lemma check_decode_cases p V N s : is_bytes s -> is_bytes p -> length p = 5%nat -> hd 1 p <> 0 -> 0 <= V < 58 ^ 5 -> (10 <= N)%nat ->
  forallb (fun n => lead_none (be_num p) 5 n 5 V) (seq 5 (N - 5)) = true ->
  forallb (fun n => match base58_encode ow_al (firstn n p) with Ok t => negb (starts_with (map ow_sym (digits58 5 V)) t) | _ => false end) (seq 0 5) = true ->
  starts_with (map ow_sym (digits58 5 V)) s = true ->
  ow_check_decode C s p = Err \/
  exists data, ow_check_decode C s p = Ok data /\ is_bytes data /\ Z.of_nat N <= zlen data + 9 /\ base58_encode ow_al (checked H (p ++ data)) = Ok s.
Proof.
  intros Hs Hp Lp Hd HV HN SW1 SW2 ST. unfold ow_check_decode. rewrite ow_al_eq. cbn [bind].
  pose proof (new_alphabet_al _ _ ow_alphabet_ok ow_al_eq) as As.
  destruct (decode_cases ow_alphabet_runes ow_alphabet_ok ow_al As s Hs) as [[_ (d & Ed)]|[_ Ed]]; rewrite Ed; cbn [bind]; [|left; reflexivity].
  destruct (encode_decode ow_alphabet_runes ow_alphabet_ok ow_al As s d Hs Ed) as [Bd Es].
  (* the prefix loop *)
  assert (PL : forall q a r, p = a ++ q -> d = a ++ r -> prefix_loop q d (zlen a) = Err \/ (exists r', r = q ++ r' /\ prefix_loop q d (zlen a) = Ok tt) \/
     (exists q1 q2, q = q1 ++ q2 /\ q2 <> [] /\ r = q1)).
  { induction q as [|x q IH]; intros a r Ep Er; cbn [prefix_loop].
    - right. left. exists r. auto.
    - destruct r as [|y r].
      + right. right. exists [], (x :: q). repeat split; discriminate.
      + assert (I : idx d (zlen a) = Ok y) by (rewrite Er; apply idx_mid; reflexivity). rewrite I. clear I. cbn [bind]. destruct (x =? y) eqn:Q; [|left; reflexivity].
        apply Z.eqb_eq in Q. subst y. replace (zlen a + 1) with (zlen (a ++ [x])) by (rewrite zlen_app; reflexivity).
        destruct (IH (a ++ [x]) r) as [A|[(r' & -> & A)|(q1 & q2 & -> & N2 & ->)]]; try (rewrite <- app_assoc; assumption).
        * left. exact A.
        * right. left. exists r'. split; [reflexivity|exact A].
        * right. right. exists (x :: q1), q2. split; [reflexivity|]. split; [exact N2|reflexivity]. }
  destruct (PL p [] d eq_refl eq_refl) as [A|[(r & -> & A)|(q1 & q2 & Ep & N2 & ->)]]; clear PL.
  - change (zlen (@nil Z)) with 0 in A. rewrite A. left. reflexivity.
  - change (zlen (@nil Z)) with 0 in A. rewrite A. cbn [bind].
    assert (HL : (N <= length (p ++ r))%nat).
    { destruct (Nat.le_gt_cases N (length (p ++ r))) as [|G]; [assumption|exfalso].
      rewrite forallb_forall in SW1. assert (I : In (length (p ++ r)) (seq 5 (N - 5))) by (apply in_seq; rewrite app_length in *; lia).
      specialize (SW1 _ I). rewrite (lead_none_text p r (be_num p) 5 (length (p ++ r)) 5 V s) in ST; try assumption; try reflexivity; [discriminate|].
      intros ->. discriminate. }
    destruct (check_split_cases H HH (p ++ r) Bd) as [[L4 _]|[[_ (b & Bb & Eb & E)]|[_ [_ E]]]].
    + unfold zlen in L4. lia.
    + fold H. rewrite E. cbn [bind]. right.
      assert (exists data, b = p ++ data) as (data & ->).
      { exists (skipn 5 b). assert (Lb : zlen (p ++ r) = zlen b + 4) by (rewrite Eb; apply checked_len; assumption).
        rewrite <- (firstn_skipn 5 b) at 1. f_equal. unfold checked in Eb. rewrite <- (firstn_skipn 5 b), <- app_assoc in Eb.
        apply app_split in Eb as [Q _]; [symmetry; exact Q|]. unfold zlen in *. rewrite firstn_length. lia. }
      exists data. rewrite Eb in *. apply is_bytes_app in Bb as [_ Bdata].
      assert (Hb2 : is_bytes (p ++ data)) by (apply is_bytes_app; split; assumption).
      pose proof (checked_len H HH (p ++ data) Hb2) as L. split.
      * rewrite L. unfold checked. rewrite <- app_assoc. apply slice_mid; [reflexivity|]. rewrite zlen_app. lia.
      * split; [exact Bdata|]. split; [|exact Es]. rewrite zlen_app in L. unfold zlen in *. lia.
    + fold H. rewrite E. left. reflexivity.
  - exfalso. rewrite forallb_forall in SW2. assert (Lq : (length q1 < 5)%nat).
    { rewrite Ep, app_length in Lp. destruct q2; [contradiction|]. cbn [length] in Lp. lia. }
    specialize (SW2 (length q1) ltac:(apply in_seq; lia)). rewrite Ep in SW2. rewrite firstn_app, Nat.sub_diag, firstn_all in SW2.
    cbn [firstn] in SW2. rewrite app_nil_r, Es, ST in SW2. discriminate.
Qed.
End Check.

(** ** Leading characters *)
Definition v_prv : Z := 531255867.
Definition v_pub : Z := 531256022.
Lemma str_prv : map ow_sym (digits58 5 v_prv) = str "owprv".
Proof. vm_compute. reflexivity. Qed.
Lemma str_pub : map ow_sym (digits58 5 v_pub) = str "owpub".
Proof. vm_compute. reflexivity. Qed.
Lemma prv_short : forallb (fun n => lead_none (be_num owprv_prefix) 5 n 5 v_prv) (seq 5 (87 - 5)) = true.
Proof. vm_compute. reflexivity. Qed.
Lemma pub_short : forallb (fun n => lead_none (be_num owpub_prefix) 5 n 5 v_pub) (seq 5 (87 - 5)) = true.
Proof. vm_compute. reflexivity. Qed.
Lemma bls_short : forallb (fun n => lead_none (be_num owpub_prefix_bls) 5 n 5 v_pub) (seq 5 (102 - 5)) = true.
Proof. vm_compute. reflexivity. Qed.
Definition tiny (p : bytes) (V : Z) : bool :=
  forallb (fun n => match base58_encode ow_al (firstn n p) with Ok t => negb (starts_with (map ow_sym (digits58 5 V)) t) | _ => false end) (seq 0 5).
Lemma prv_tiny : tiny owprv_prefix v_prv = true.
Proof. vm_compute. reflexivity. Qed.
Lemma pub_tiny : tiny owpub_prefix v_pub = true.
Proof. vm_compute. reflexivity. Qed.
Lemma bls_tiny : tiny owpub_prefix_bls v_pub = true.
Proof. vm_compute. reflexivity. Qed.
Lemma prv_lead : lead_all (be_num owprv_prefix) 5 87 5 v_prv = true.
Proof. vm_compute. reflexivity. Qed.
Lemma pub_lead : lead_all (be_num owpub_prefix) 5 87 5 v_pub = true.
Proof. vm_compute. reflexivity. Qed.
Lemma bls_lead : lead_all (be_num owpub_prefix_bls) 5 102 5 v_pub = true.
Proof. vm_compute. reflexivity. Qed.
Lemma prefixes_bytes : is_bytes owprv_prefix /\ is_bytes owpub_prefix /\ is_bytes owpub_prefix_bls.
Proof. repeat split; apply is_byteb_all; reflexivity. Qed.
Lemma starts_pub_prv s : starts_with (str "owpub") s = true -> starts_with (str "owprv") s = true -> False.
Proof.
  unfold starts_with. change (length (str "owpub")) with 5%nat. change (length (str "owprv")) with 5%nat. intros A B.
  apply beq_eq in A. apply beq_eq in B. rewrite A in B. discriminate.
Qed.
Lemma encode_is C k : hashes_ok C -> key_wf k -> exists s, ow_encode C k = Ok s /\ base58_encode ow_al (checked (dsha256 C) (prefix_of C k ++ payload C k)) = Ok s.
Proof.
  intros K W. destruct (prefix_bytes C k) as (PB & _). pose proof (payload_bytes C k W) as QB.
  assert (B : is_bytes (prefix_of C k ++ payload C k)) by (apply is_bytes_app; split; assumption).
  destruct (enc_checked (dsha256 C) (hk_dsha C K) ow_alphabet_runes ow_alphabet_ok ow_al ow_al_eq _ B) as (s & E & _).
  exists s. split; [|exact E]. unfold ow_encode. rewrite zero_marked_eq. cbv zeta. fold (payload C k).
  unfold prefix_of in *. destruct (is_private k).
  - change [7; 168; 16; 12; 40] with owprv_prefix in *. rewrite check_encode_eq by assumption. exact E.
  - destruct (is_bls _); [change [62; 0; 250; 234; 105] with owpub_prefix_bls in *|change [7; 168; 16; 49; 162] with owpub_prefix in *]; rewrite check_encode_eq by assumption; exact E.
Qed.
Lemma other_prefix C p data s : hashes_ok C -> is_bytes (p ++ data) -> length p = 5%nat -> hd 0 p <> 7 -> base58_encode ow_al (checked (dsha256 C) (p ++ data)) = Ok s ->
  ow_check_decode C s owpub_prefix = Err.
Proof.
  intros K B L Hd E. unfold ow_check_decode. rewrite ow_al_eq. cbn [bind].
  destruct (enc_checked (dsha256 C) (hk_dsha C K) ow_alphabet_runes ow_alphabet_ok ow_al ow_al_eq _ B) as (s' & E' & D & _).
  rewrite E in E'. injection E' as <-. rewrite D. cbn [bind]. unfold checked. destruct p as [|x p]; [discriminate|]. cbn [hd] in Hd.
  cbn [app]. unfold owpub_prefix. cbn [prefix_loop]. change (x :: (p ++ data) ++ firstn 4 (dsha256 C (x :: p ++ data))) with ([] ++ x :: (p ++ data) ++ firstn 4 (dsha256 C (x :: p ++ data))).
  rewrite idx_mid by reflexivity. cbn [bind]. replace (7 =? x) with false by lia. reflexivity.
Qed.
Lemma lead_n C k p n V s : hashes_ok C -> key_wf k -> is_bytes p -> length p = 5%nat -> hd 1 p <> 0 -> lead_all (be_num p) 5 n 5 V = true ->
  zlen (payload C k) + 9 = Z.of_nat n -> base58_encode ow_al (checked (dsha256 C) (p ++ payload C k)) = Ok s ->
  starts_with (map ow_sym (digits58 5 V)) s = true.
Proof.
  intros K W Hp Lp Hd LA Ln E. pose proof (payload_bytes C k W) as QB.
  assert (B : is_bytes (p ++ payload C k)) by (apply is_bytes_app; split; assumption).
  pose proof (checked_len _ (hk_dsha C K) _ B) as L. pose proof (checked_bytes _ (hk_dsha C K) _ B) as CB.
  unfold checked in *. rewrite <- app_assoc in *.
  eapply (lead_all_text p) ; try eassumption; try reflexivity.
  - intros ->. discriminate.
  - rewrite (zlen_app p (payload C k)) in L. unfold zlen in *. lia.
Qed.

(** ** C20: extended keys *)
(** Writing an extended key and reading the text back restores every field. *)
Theorem ow_text_round_trip : forall C k, hashes_ok C -> key_wf k -> full_key C k ->
  exists s, ow_encode C k = Ok s /\ ow_decode C s = Ok k.
Proof.
  intros C k K W FK. destruct (encode_is C k K W) as (s & E & E'). exists s. split; [exact E|].
  pose proof (payload_len C k W) as PL. unfold full_key in FK. pose proof (payload_bytes C k W) as QB. destruct prefixes_bytes as (B1 & B2 & B3).
  pose proof (ow_parse_payload C k W) as PP. unfold ow_decode, prefix_of in *. destruct (is_private k) eqn:Pr.
  - assert (M : marked C k = true) by (unfold marked; rewrite Pr; reflexivity). rewrite M in *. unfold zlen in PL at 2. rewrite FK in PL.
    pose proof (lead_n C k owprv_prefix 87 v_prv s K W B1 eq_refl ltac:(discriminate) prv_lead ltac:(lia) E') as ST. rewrite str_prv in ST.
    destruct (starts_with (str "owpub") s) eqn:SP; [destruct (starts_pub_prv s SP ST)|]. rewrite ST.
    rewrite (check_decode_of C K owprv_prefix (payload C k) s) by (first [exact E'|apply is_bytes_app; split; assumption]). cbn [bind]. exact PP.
  - destruct (is_bls (kind C (curve_type k))) eqn:Bl.
    + assert (M : marked C k = false) by (unfold marked; rewrite Pr; destruct (kind C (curve_type k)); try discriminate; reflexivity).
      rewrite M in *. unfold zlen in PL at 2. rewrite FK in PL.
      pose proof (lead_n C k owpub_prefix_bls 102 v_pub s K W B3 eq_refl ltac:(discriminate) bls_lead ltac:(lia) E') as ST. rewrite str_pub in ST. rewrite ST.
      assert (B : is_bytes (owpub_prefix_bls ++ payload C k)) by (apply is_bytes_app; split; assumption).
      rewrite (other_prefix C owpub_prefix_bls (payload C k) s K B eq_refl ltac:(discriminate) E').
      rewrite (check_decode_of C K owpub_prefix_bls (payload C k) s B E'). cbn [bind]. exact PP.
    + pose proof (lead_n C k owpub_prefix 87 v_pub s K W B2 eq_refl ltac:(discriminate) pub_lead) as ST.
      unfold zlen in PL at 2. destruct (marked C k); rewrite FK in PL; specialize (ST ltac:(lia) E'); rewrite str_pub in ST; rewrite ST;
        (rewrite (check_decode_of C K owpub_prefix (payload C k) s) by (first [exact E'|apply is_bytes_app; split; assumption])); cbn [bind]; exact PP.
Qed.
(** Every accepted text is the checked base58 text of the fields of the key it yields. *)
Definition written (C : crypto) (p : bytes) (k : xkey) (s : list Z) : Prop :=
  is_base58_of ow_alphabet_runes (checked (dsha256 C) (p ++ payload C k)) s.
Lemma decode_shape C s k : hashes_ok C -> is_bytes s -> ow_decode C s = Ok k ->
  key_wf k /\ exists p, (if is_private k then p = owprv_prefix else p = owpub_prefix \/ p = owpub_prefix_bls) /\
    (if is_private k then starts_with (str "owprv") s = true else starts_with (str "owpub") s = true) /\
    base58_encode ow_al (checked (dsha256 C) (p ++ payload C k)) = Ok s /\ (if hd 0 p =? 7 then 78 else 93) <= zlen (payload C k).
Proof.
  intros K Hs E. destruct prefixes_bytes as (B1 & B2 & B3). unfold ow_decode in E. destruct (starts_with (str "owpub") s) eqn:SP.
  - pose proof SP as ST. rewrite <- str_pub in ST.
    apply bind_ok in E as (d & Ed & E).
    assert (exists p, (p = owpub_prefix \/ p = owpub_prefix_bls) /\ is_bytes d /\ (if hd 0 p =? 7 then 78 else 93) <= zlen d /\ base58_encode ow_al (checked (dsha256 C) (p ++ d)) = Ok s) as (p & Pp & Bd & Ld & Es).
    { destruct (check_decode_cases C K owpub_prefix v_pub 87 s Hs B2 eq_refl ltac:(discriminate) ltac:(unfold v_pub; lia) ltac:(lia) pub_short pub_tiny ST) as [Q|(d' & Q & Bd & Ld & Es)]; rewrite Q in Ed.
      - destruct (check_decode_cases C K owpub_prefix_bls v_pub 102 s Hs B3 eq_refl ltac:(discriminate) ltac:(unfold v_pub; lia) ltac:(lia) bls_short bls_tiny ST) as [Q'|(d' & Q' & Bd & Ld & Es)]; rewrite Q' in Ed; [discriminate|].
        assert (d' = d) by (clear - Ed; congruence); clear Ed; subst d'.
        exists owpub_prefix_bls. split; [auto|]. split; [exact Bd|]. split; [|exact Es]. cbn [hd owpub_prefix owpub_prefix_bls Z.eqb Pos.eqb]. lia.
      - assert (d' = d) by (clear - Ed; congruence); clear Ed; subst d'.
        exists owpub_prefix. split; [auto|]. split; [exact Bd|]. split; [|exact Es]. cbn [hd owpub_prefix owpub_prefix_bls Z.eqb Pos.eqb]. lia. }
    assert (Ld2 : 78 <= zlen d) by (destruct (hd 0 p =? 7); lia).
    destruct (ow_parse_inv C false d k Bd ltac:(lia) E) as (W & Pr & ->). split; [exact W|]. exists p. rewrite Pr.
    split; [exact Pp|]. split; [reflexivity|]. split; [exact Es|exact Ld].
  - destruct (starts_with (str "owprv") s) eqn:ST; [|discriminate]. apply bind_ok in E as (d & Ed & E). pose proof ST as ST'. rewrite <- str_prv in ST'.
    destruct (check_decode_cases C K owprv_prefix v_prv 87 s Hs B1 eq_refl ltac:(discriminate) ltac:(unfold v_prv; lia) ltac:(lia) prv_short prv_tiny ST') as [Q|(d' & Q & Bd & Ld & Es)]; rewrite Q in Ed; [discriminate|].
    assert (d' = d) by (clear - Ed; congruence); clear Ed; subst d'.
    destruct (ow_parse_inv C true d k Bd ltac:(lia) E) as (W & Pr & ->). split; [exact W|]. exists owprv_prefix. rewrite Pr.
    split; [reflexivity|]. split; [reflexivity|]. split; [exact Es|]. cbn [hd owprv_prefix Z.eqb Pos.eqb]. lia.
Qed.
Theorem ow_text_sound : forall C s k, hashes_ok C -> is_bytes s -> ow_decode C s = Ok k ->
  key_wf k /\ (32 <= length (key k))%nat /\
  exists p, written C p k s /\
    (if is_private k then p = [0x07; 0xa8; 0x10; 0x0c; 0x28] else p = [0x07; 0xa8; 0x10; 0x31; 0xa2] \/ p = [0x3e; 0x00; 0xfa; 0xea; 0x69]) /\
    (p = prefix_of C k -> ow_encode C k = Ok s).
Proof.
  intros C s k K Hs E. destruct (decode_shape C s k K Hs E) as (W & p & Pp & _ & Es & L). split; [exact W|]. split; [rewrite (payload_len C k W) in L; unfold zlen in L; destruct (hd 0 p =? 7), (marked C k); lia|].
  exists p. pose proof (payload_bytes C k W) as QB. destruct prefixes_bytes as (B1 & B2 & B3).
  assert (B : is_bytes (p ++ payload C k)) by (apply is_bytes_app; split; [destruct (is_private k); [subst p; exact B1|destruct Pp as [-> | ->]; assumption]|exact QB]).
  split; [apply base58_text; [apply checked_bytes; [apply hk_dsha, K|exact B]|exact Es]|]. split; [exact Pp|].
  intros ->. destruct (encode_is C k K W) as (s' & E1 & E2). rewrite Es in E2. injection E2 as <-. exact E1.
Qed.
(** Reading a text never panics. *)
Theorem ow_text_no_panic : forall C s, hashes_ok C -> is_bytes s -> ow_decode C s <> Panic.
Proof.
  intros C s K Hs. destruct prefixes_bytes as (B1 & B2 & B3). unfold ow_decode. destruct (starts_with (str "owpub") s) eqn:SP.
  - pose proof SP as ST. rewrite <- str_pub in ST.
    destruct (check_decode_cases C K owpub_prefix v_pub 87 s Hs B2 eq_refl ltac:(discriminate) ltac:(unfold v_pub; lia) ltac:(lia) pub_short pub_tiny ST) as [Q|(d' & Q & Bd & Ld & Es)]; rewrite Q.
    + destruct (check_decode_cases C K owpub_prefix_bls v_pub 102 s Hs B3 eq_refl ltac:(discriminate) ltac:(unfold v_pub; lia) ltac:(lia) bls_short bls_tiny ST) as [Q'|(d' & Q' & Bd & Ld & Es)]; rewrite Q'; cbn [bind]; [discriminate|].
      apply ow_parse_total. lia.
    + cbn [bind]. apply ow_parse_total. lia.
  - destruct (starts_with (str "owprv") s) eqn:ST; [|discriminate]. rewrite <- str_prv in ST.
    destruct (check_decode_cases C K owprv_prefix v_prv 87 s Hs B1 eq_refl ltac:(discriminate) ltac:(unfold v_prv; lia) ltac:(lia) prv_short prv_tiny ST) as [Q|(d' & Q & Bd & Ld & Es)]; rewrite Q; cbn [bind]; [discriminate|].
    apply ow_parse_total. lia.
Qed.
(** A key with fewer bytes than [full_key] asks for (such as the short private keys of C24) is written as a text
    that is refused when read back. *)
Theorem ow_text_short_key_rejected : forall C k, hashes_ok C -> key_wf k ->
  (length (key k) < if marked C k then 32 else if is_bls (kind C (curve_type k)) then 48 else 33)%nat ->
  exists s, ow_encode C k = Ok s /\ ow_decode C s = Err.
Proof.
  intros C k K W Sh. destruct (encode_is C k K W) as (s & E & E'). exists s. split; [exact E|].
  pose proof (payload_len C k W) as PL. pose proof (payload_bytes C k W) as QB. destruct prefixes_bytes as (B1 & B2 & B3).
  destruct (prefix_bytes C k) as (PB & LP & _).
  assert (B : is_bytes (prefix_of C k ++ payload C k)) by (apply is_bytes_app; split; assumption).
  destruct (enc_checked (dsha256 C) (hk_dsha C K) ow_alphabet_runes ow_alphabet_ok ow_al ow_al_eq _ B) as (s' & E2 & D2 & As).
  rewrite E' in E2. injection E2 as <-.
  assert (Hs : is_bytes s) by (eapply Forall_impl; [|exact As]; cbv beta; unfold is_byte; lia).
  destruct (ow_decode C s) as [k'| |] eqn:D; [exfalso|reflexivity|destruct (ow_text_no_panic C s K Hs D)].
  destruct (decode_shape C s k' K Hs D) as (W' & p & Pp & _ & Es & L).
  assert (Bp : is_bytes p /\ length p = 5%nat) by (destruct (is_private k'); [subst p|destruct Pp as [-> | ->]]; split; try assumption; reflexivity).
  assert (B' : is_bytes (p ++ payload C k')) by (apply is_bytes_app; split; [tauto|apply payload_bytes, W']).
  assert (Q : p ++ payload C k' = prefix_of C k ++ payload C k).
  { apply (checked_inj (dsha256 C) (hk_dsha C K)); [assumption|assumption|].
    destruct (enc_checked (dsha256 C) (hk_dsha C K) ow_alphabet_runes ow_alphabet_ok ow_al ow_al_eq _ B') as (s' & E3 & D3 & _).
    rewrite Es in E3. injection E3 as <-. rewrite D2 in D3.
    match type of D3 with Ok ?x = Ok ?y => assert (y = x) by (clear - D3; congruence); assumption end. }
  apply app_split in Q as [Qp Qd]; [|unfold zlen; lia]. rewrite Qd, PL in L. rewrite Qp in L.
  unfold prefix_of in L. unfold marked in *. destruct (is_private k); cbn [hd Z.eqb Pos.eqb orb] in *; [unfold zlen in L; lia|].
  destruct (kind C (curve_type k)); cbn [is_bls hd Z.eqb Pos.eqb] in *; unfold zlen in L; lia.
Qed.

(** ** C21: multi-signature shares *)
(** Fields of a share whose text can be read. *)
Definition share_wf (m : share) : Prop :=
  is_bytes (sh_pubkey m) /\ is_bytes (sh_chain m) /\ length (sh_chain m) = 32%nat /\ 0 <= sh_curve m < 2 ^ 32.
(** A 32 byte public key is written with a zero byte in front of it. *)
Definition share_pub (m : share) : bytes := if (length (sh_pubkey m) =? 32)%nat then 0 :: sh_pubkey m else sh_pubkey m.
Definition share_body (m : share) : bytes := share_pub m ++ sh_chain m ++ be_bytes 4 (sh_curve m).
Definition v_chain : Z := 1787007117771.
Lemma str_chain : map ow_sym (digits58 7 v_chain) = str "owchain".
Proof. vm_compute. reflexivity. Qed.
Lemma chain_lead : lead_all (be_num chain_prefix) 7 76 7 v_chain = true.
Proof. vm_compute. reflexivity. Qed.
Lemma chain_prefix_bytes : is_bytes chain_prefix.
Proof. apply is_byteb_all. reflexivity. Qed.
Lemma share_body_bytes m : share_wf m -> is_bytes (share_body m).
Proof.
  intros (P & Cc & _ & _). unfold share_body, share_pub. apply is_bytes_app. split.
  - destruct (_ =? _)%nat; [constructor; [unfold is_byte; lia|exact P]|exact P].
  - apply is_bytes_app. split; [exact Cc|apply be_bytes_is_bytes].
Qed.
Lemma chain_encode_is m : share_wf m -> exists s, chain_encode m = Ok s /\ base58_encode ow_al (chain_prefix ++ share_body m) = Ok s /\
  base58_decode ow_al s = Ok (chain_prefix ++ share_body m) /\ is_ascii s.
Proof.
  intros W. assert (B : is_bytes (chain_prefix ++ share_body m)) by (apply is_bytes_app; split; [exact chain_prefix_bytes|exact (share_body_bytes m W)]).
  destruct (decode_encode ow_alphabet_runes ow_alphabet_ok ow_al (new_alphabet_al _ _ ow_alphabet_ok ow_al_eq) _ B) as (s & E & D & A).
  exists s. split; [|auto]. unfold chain_encode. rewrite ow_al_eq. cbn [bind]. rewrite <- E. unfold share_body, share_pub. do 2 f_equal.
  replace (zlen (sh_pubkey m) =? 32) with (length (sh_pubkey m) =? 32)%nat by (unfold zlen; lia). destruct (_ =? _)%nat; reflexivity.
Qed.
(** The public key a text yields: the 33 bytes, without the first one when it is zero. *)
Definition read_pub (p : bytes) : bytes := match p with 0 :: r => r | _ => p end.
Lemma chain_decode_body s p cc ct : starts_with (str "owchain") s = true -> base58_decode ow_al s = Ok (chain_prefix ++ p ++ cc ++ ct) ->
  length p = 33%nat -> length cc = 32%nat -> length ct = 4%nat -> chain_decode s = Ok (mkShare (read_pub p) cc (be_num ct)).
Proof.
  intros ST D Lp Lc Lt. unfold chain_decode. rewrite ST, ow_al_eq. cbn [negb bind]. rewrite D. cbn [bind].
  assert (ZL : zlen (chain_prefix ++ p ++ cc ++ ct) = 76) by (rewrite !zlen_app; unfold zlen; rewrite Lp, Lc, Lt; reflexivity).
  rewrite ZL. cbn [Z.eqb Pos.eqb negb]. rewrite slice_pre by reflexivity. cbn [bind]. rewrite beq_refl. cbn [negb].
  rewrite slice_mid by (unfold zlen; rewrite ?Lp; reflexivity). cbn [bind].
  assert (P0 : exists x r, p = x :: r /\ length r = 32%nat) by (destruct p as [|x r]; [discriminate|]; exists x, r; split; [reflexivity|injection Lp as Lp; exact Lp]).
  destruct P0 as (x & r & -> & Lr). change (idx (x :: r) 0) with (Ok x). cbn [bind].
  rewrite (app_assoc chain_prefix). rewrite slice_mid by (unfold zlen; rewrite ?app_length, ?Lp, ?Lc; reflexivity).
  rewrite (app_assoc (chain_prefix ++ x :: r)). rewrite slice_from_post by (unfold zlen; rewrite !app_length, ?Lp, ?Lc; reflexivity). cbn [bind read_pub].
  destruct (x =? 0) eqn:X.
  - apply Z.eqb_eq in X. subst x. rewrite slice_from_cons. reflexivity.
  - apply Z.eqb_neq in X. cbn [bind]. destruct x; [contradiction|reflexivity|reflexivity].
Qed.
(** Writing a share and reading it back restores it, exactly when its public key has 32 bytes, or 33 bytes of which
    the first is not zero. *)
Theorem chain_text_round_trip : forall m, share_wf m ->
  exists s, chain_encode m = Ok s /\
    (chain_decode s = Ok m <-> length (sh_pubkey m) = 32%nat \/ (length (sh_pubkey m) = 33%nat /\ hd 0 (sh_pubkey m) <> 0)) /\
    (length (sh_pubkey m) <> 32%nat -> length (sh_pubkey m) <> 33%nat -> chain_decode s = Err) /\
    (forall r, sh_pubkey m = 0 :: r -> length r = 32%nat -> chain_decode s = Ok (mkShare r (sh_chain m) (sh_curve m))).
Proof.
  intros m W. destruct (chain_encode_is m W) as (s & E & E' & D & _). exists s. split; [exact E|].
  pose proof (share_body_bytes m W) as BB. destruct W as (Bp & Bc & Lc & Rc).
  assert (F : length (share_pub m) = 33%nat -> chain_decode s = Ok (mkShare (read_pub (share_pub m)) (sh_chain m) (sh_curve m))).
  { intros L. assert (ST : starts_with (str "owchain") s = true).
    { rewrite <- str_chain. eapply (lead_all_text chain_prefix (share_body m)); try exact chain_lead; try reflexivity; try exact E'.
      - apply is_bytes_app; split; [exact chain_prefix_bytes|exact BB].
      - discriminate.
      - discriminate.
      - unfold share_body. rewrite !app_length, L, Lc, be_bytes_length. reflexivity. }
    rewrite (chain_decode_body s (share_pub m) (sh_chain m) (be_bytes 4 (sh_curve m)) ST D L Lc (be_bytes_length 4 _)).
    rewrite be_num_be_bytes. rewrite Z.mod_small by exact Rc. reflexivity. }
  assert (G : length (share_pub m) <> 33%nat -> chain_decode s = Err).
  { intros L. unfold chain_decode. destruct (starts_with _ s); [|reflexivity]. cbn [negb]. rewrite ow_al_eq. cbn [bind]. rewrite D. cbn [bind].
    replace (zlen (chain_prefix ++ share_body m) =? 76) with false; [reflexivity|]. symmetry. apply Z.eqb_neq. unfold share_body, zlen.
    rewrite !app_length, Lc, be_bytes_length. change (length chain_prefix) with 7%nat. lia. }
  unfold share_pub in F, G. destruct m as [pk cc ct]. cbn [sh_pubkey sh_chain sh_curve] in *. destruct (Nat.eqb_spec (length pk) 32) as [L|L].
  - specialize (F ltac:(cbn [length]; lia)). cbn [read_pub] in F. split; [split; auto|]. split; [contradiction|].
    intros r -> Lr. cbn [length] in L. lia.
  - split; [split|].
    + intros Q. right. destruct (Nat.eq_dec (length pk) 33) as [L3|L3]; [|rewrite (G L3) in Q; discriminate]. split; [exact L3|].
      rewrite (F L3) in Q. destruct pk as [|x r]; [discriminate|]. cbn [hd]. intros ->. cbn [read_pub] in Q.
      assert (Qr : r = 0 :: r) by congruence. apply (f_equal (@length Z)) in Qr. cbn [length] in Qr. lia.
    + intros [Q|[L3 Hd]]; [contradiction|]. rewrite (F L3). destruct pk as [|x r]; [discriminate|]. cbn [hd] in Hd. destruct x; [contradiction|reflexivity|reflexivity].
    + split; [intros _ L3; exact (G L3)|]. intros r -> Lr. rewrite F by (cbn [length]; lia). reflexivity.
Qed.
(** Every accepted text is the one written for the share it yields; reading never panics. *)
Theorem chain_text_sound : forall s m, is_bytes s -> chain_decode s = Ok m ->
  share_wf m /\ (length (sh_pubkey m) = 32%nat \/ (length (sh_pubkey m) = 33%nat /\ hd 0 (sh_pubkey m) <> 0)) /\ chain_encode m = Ok s.
Proof.
  intros s m Hs E. pose proof E as E0. unfold chain_decode in E. destruct (starts_with (str "owchain") s) eqn:ST; [|discriminate]. cbn [negb] in E. rewrite ow_al_eq in E. cbn [bind] in E.
  pose proof (new_alphabet_al _ _ ow_alphabet_ok ow_al_eq) as As.
  apply bind_ok in E as (d & D & E). destruct (encode_decode ow_alphabet_runes ow_alphabet_ok ow_al As s d Hs D) as [Bd Es].
  destruct (zlen d =? 76) eqn:L; [|discriminate]. apply Z.eqb_eq in L. cbn [negb] in E. apply bind_ok in E as (p & Sp & E).
  destruct (beq p chain_prefix) eqn:BP; [|discriminate]. apply beq_eq in BP. subst p. apply slice_ok in Sp as (_ & _ & a & r & -> & La & _).
  assert (a = []) by (destruct a; [reflexivity|rewrite zlen_cons in La; pose proof (zlen_nonneg a); lia]). subst a. cbn [app] in *. clear E La.
  rewrite zlen_app in L. change (zlen chain_prefix) with 7 in L. assert (Lr : length r = 69%nat) by (unfold zlen in L; lia).
  assert (exists p cc ct, r = p ++ cc ++ ct /\ length p = 33%nat /\ length cc = 32%nat /\ length ct = 4%nat) as (p & cc & ct & -> & Lp & Lc & Lt).
  { exists (firstn 33 r), (firstn 32 (skipn 33 r)), (skipn 32 (skipn 33 r)). rewrite !firstn_skipn, !firstn_length, !skipn_length. repeat split; lia. }
  rewrite (chain_decode_body s p cc ct ST D Lp Lc Lt) in E0. injection E0 as <-.
  apply is_bytes_app in Bd as [_ Bd]. apply is_bytes_app in Bd as [Bp Bd]. apply is_bytes_app in Bd as [Bc Bt].
  assert (Rt : 0 <= be_num ct < 2 ^ 32) by (pose proof (be_num_bound ct Bt) as Q; unfold zlen in Q; rewrite Lt in Q; exact Q).
  assert (Et : be_bytes 4 (be_num ct) = ct) by (rewrite <- Lt; apply be_bytes_be_num, Bt).
  destruct p as [|x p']; [discriminate|]. cbn [length] in Lp.
  assert (R : share_pub (mkShare (read_pub (x :: p')) cc (be_num ct)) = x :: p' /\ is_bytes (read_pub (x :: p')) /\
     (length (read_pub (x :: p')) = 32%nat \/ (length (read_pub (x :: p')) = 33%nat /\ hd 0 (read_pub (x :: p')) <> 0))).
  { unfold share_pub. cbn [sh_pubkey]. inversion Bp; subst. destruct (Z.eq_dec x 0) as [-> | X].
    - cbn [read_pub]. replace (length p') with 32%nat by lia. repeat split; auto.
    - replace (read_pub (x :: p')) with (x :: p') by (destruct x; [contradiction|reflexivity|reflexivity]). cbn [length hd].
      replace (S (length p') =? 32)%nat with false by lia. repeat split; auto. }
  destruct R as (R1 & R2 & R3).
  assert (W : share_wf (mkShare (read_pub (x :: p')) cc (be_num ct))) by (unfold share_wf; cbn [sh_pubkey sh_chain sh_curve]; auto).
  split; [exact W|]. split; [exact R3|].
  destruct (chain_encode_is _ W) as (s' & E1 & E2 & _). rewrite E1. f_equal.
  unfold share_body in E2. rewrite R1 in E2. cbn [sh_chain sh_curve] in E2. rewrite Et, Es in E2. congruence.
Qed.
Theorem chain_text_no_panic : forall s, is_bytes s -> chain_decode s <> Panic.
Proof.
  intros s Hs. unfold chain_decode. destruct (negb (starts_with _ s)); [discriminate|]. rewrite ow_al_eq. cbn [bind].
  destruct (decode_cases ow_alphabet_runes ow_alphabet_ok ow_al (new_alphabet_al _ _ ow_alphabet_ok ow_al_eq) s Hs) as [[_ (d & ->)]|[_ ->]]; cbn [bind]; [|discriminate].
  destruct (zlen d =? 76) eqn:L; [|discriminate]. apply Z.eqb_eq in L. cbn [negb].
  destruct (slice_total d 0 7 ltac:(lia) ltac:(lia)) as [p ->]. cbn [bind]. destruct (negb _); [discriminate|].
  destruct (slice d 7 40) as [q| |] eqn:Q; [|destruct (slice_not_err _ _ _ Q)|destruct (slice_total d 7 40 ltac:(lia) ltac:(lia)) as [y Y]; rewrite Y in Q; discriminate].
  apply slice_ok in Q as (_ & _ & a & c & _ & _ & Lq). cbn [bind]. destruct (idx_total q 0 ltac:(lia)) as [b ->]. cbn [bind].
  destruct (slice_total d 40 72 ltac:(lia) ltac:(lia)) as [x ->]. unfold slice_from. destruct (slice_total d 72 (zlen d) ltac:(lia) ltac:(lia)) as [y ->].
  destruct (b =? 0); [destruct (slice_total q 1 (zlen q) ltac:(lia) ltac:(lia)) as [z ->]|]; cbn [bind]; discriminate.
Qed.
(** The share of an extended public key read from its text. *)
Theorem share_of_public_key : forall C k, hashes_ok C -> key_wf k -> full_key C k -> is_private k = false ->
  is_bls (kind C (curve_type k)) = false -> (length (key k) = 33%nat -> hd 0 (key k) <> 0) ->
  exists s t, ow_encode C k = Ok s /\ multisig_share_data C s = Ok t /\ chain_decode t = Ok (mkShare (key k) (chain_code k) (curve_type k)).
Proof.
  intros C k K W FK Pr Bl Hd. destruct (ow_text_round_trip C k K W FK) as (s & E & D). exists s.
  assert (SW : share_wf (mkShare (key k) (chain_code k) (curve_type k))).
  { destruct W as (_ & _ & _ & _ & Bc & Lc & Bk & Ct). unfold share_wf. cbn [sh_pubkey sh_chain sh_curve]. auto. }
  destruct (chain_text_round_trip _ SW) as (t & Et & R & _). exists t. split; [exact E|].
  unfold multisig_share_data. rewrite D. cbn [bind]. cbv zeta. unfold get_public. rewrite Pr. cbn [negb]. split; [exact Et|].
  apply R. cbn [sh_pubkey]. unfold full_key in FK. rewrite Bl in FK. destruct (marked C k); [left; exact FK|right; split; [exact FK|apply Hd, FK]].
Qed.

(** ** Examples *)
Definition ex_prv : xkey := mkKey 3 [1; 2; 3; 4] 0x80000007 (repeat 9 32) (repeat 0x5a 32) true 1.
Definition ex_ed : xkey := mkKey 0 [0; 0; 0; 0] 5 (repeat 9 32) (0 :: repeat 0x5a 31) false 2.
Definition ex_bls : xkey := mkKey 255 [255; 2; 3; 4] 5 (repeat 9 32) (repeat 0xff 48) false 3.
Definition ex_pub : xkey := mkKey 255 [255; 2; 3; 4] 5 (repeat 9 32) (2 :: repeat 0xff 32) false 1.
Definition ex_short : xkey := mkKey 3 [1; 2; 3; 4] 0x80000007 (repeat 9 32) (repeat 0x5a 31) true 1.
Ltac wf := unfold key_wf; cbn [depth parent_fp serializes chain_code key curve_type]; repeat split; try lia; apply is_byteb_all; reflexivity.
Example ex_wf : key_wf ex_prv /\ key_wf ex_ed /\ key_wf ex_bls /\ key_wf ex_pub /\ key_wf ex_short.
Proof. split; [unfold ex_prv; wf|]. split; [unfold ex_ed; wf|]. split; [unfold ex_bls; wf|]. split; [unfold ex_pub; wf|]. unfold ex_short; wf. Qed.
Example ex_full : full_key toyC ex_prv /\ full_key toyC ex_ed /\ full_key toyC ex_bls /\ full_key toyC ex_pub /\ ~ full_key toyC ex_short.
Proof. repeat split; try reflexivity. discriminate. Qed.
Example ex_round : exists s, ow_encode toyC ex_prv = Ok s /\ ow_decode toyC s = Ok ex_prv.
Proof. apply ow_text_round_trip; [exact toyC_hashes|apply ex_wf|apply ex_full]. Qed.
Example ex_share_wf : share_wf (mkShare (2 :: repeat 7 32) (repeat 8 32) 0xECC00001) /\ share_wf (mkShare (repeat 7 48) (repeat 8 32) 0xECC00001).
Proof. unfold share_wf; cbn [sh_pubkey sh_chain sh_curve]. repeat split; try lia; apply is_byteb_all; reflexivity. Qed.
Example ex_share : exists s, chain_encode (mkShare (repeat 7 32) (repeat 8 32) 3) = Ok s /\ chain_decode s = Ok (mkShare (repeat 7 32) (repeat 8 32) 3).
Proof.
  destruct (chain_text_round_trip (mkShare (repeat 7 32) (repeat 8 32) 3)) as (s & E & D & _).
  - unfold share_wf; cbn [sh_pubkey sh_chain sh_curve]. repeat split; try lia; apply is_byteb_all; reflexivity.
  - exists s. split; [exact E|]. apply D. left. reflexivity.
Qed.

Print Assumptions ow_text_round_trip.
Print Assumptions ow_text_sound.
Print Assumptions ow_text_short_key_rejected.
Print Assumptions ow_text_no_panic.
Print Assumptions chain_text_round_trip.
Print Assumptions chain_text_sound.
Print Assumptions chain_text_no_panic.
Print Assumptions share_of_public_key.
