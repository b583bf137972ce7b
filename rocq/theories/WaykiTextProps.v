(** C141: VerifyAndCombineRawTransaction of waykichainTransaction on every text, key and signature. *)
From Coq Require Import String ZArith List Bool Lia ZifyBool ZifyNat.
From Verif Require Import Go GoFacts GoFacts2 Base58Model SigModel SigDerProps RippleModel WaykiModel WaykiProps.
Import ListNotations.
Open Scope Z_scope.
Ltac Zify.zify_post_hook ::= idtac.

(** ** Specification *)
(** The bytes of a text that is taken for a transaction: one of the four types, version 1, then anything. *)
Definition wicc_text (raw : list Z) (t : Z) (rest : bytes) : Prop := hex_decode raw = Ok (t :: 1 :: rest) /\ In t [2; 3; 4; 11].
(** The signature verifies for the hash of these bytes with version and type exchanged. *)
Definition wicc_valid (H decompress : bytes -> bytes) (verify : bytes -> bytes -> bytes -> bool) (t : Z) (rest pub sig : bytes) : Prop :=
  exists c point, decompress pub = c :: point /\ verify point (H (1 :: t :: rest)) sig = true.

(** ** Lemmas *)
Lemma types_iff t : negb (t =? t_common) && negb (t =? t_regacct) && negb (t =? t_contract) && negb (t =? t_ucoin) = false <-> In t [2; 3; 4; 11].
Proof. unfold t_common, t_regacct, t_contract, t_ucoin. cbn [In]. lia. Qed.
Lemma hash_cases H raw :
  (exists t rest, wicc_text raw t rest /\ WaykiModel.hash_from_empty H raw = Ok (H (1 :: t :: rest))) \/
  ((hex_decode raw = Ok [] \/ exists t, hex_decode raw = Ok [t] /\ In t [2; 3; 4; 11]) /\ WaykiModel.hash_from_empty H raw = Panic) \/
  ((forall t rest, ~ wicc_text raw t rest) /\ hex_decode raw <> Ok [] /\ (forall t, hex_decode raw = Ok [t] -> ~ In t [2; 3; 4; 11]) /\ WaykiModel.hash_from_empty H raw = Err).
Proof.
  unfold WaykiModel.hash_from_empty, wicc_text. pose proof (hex_decode_not_panic raw) as N. destruct (hex_decode raw) as [b| |] eqn:E; [|right; right; repeat split; try discriminate; intros ? ? [Q _]; discriminate|contradiction]. cbn [bind].
  destruct b as [|t b]; [right; left; split; [left; reflexivity|reflexivity]|]. change (idx (t :: b) 0) with (Ok t). cbn [bind].
  destruct (negb (t =? t_common) && negb (t =? t_regacct) && negb (t =? t_contract) && negb (t =? t_ucoin)) eqn:T.
  - assert (NT : ~ In t [2; 3; 4; 11]) by (intros I; apply types_iff in I; congruence). right; right. repeat split; [|discriminate|]; [intros t' rest [Q I]|intros t' Q]; injection Q as <-; tauto.
  - apply types_iff in T. destruct b as [|v b]; [right; left; split; [right; exists t; auto|reflexivity]|]. change (idx (t :: v :: b) 1) with (Ok v). cbn [bind]. destruct (v =? 1) eqn:V; cbn [negb].
    + apply Z.eqb_eq in V. subst v. left. exists t, b. split; [auto|]. change (t :: 1 :: b) with ([t; 1] ++ b). rewrite slice_from_post by reflexivity. reflexivity.
    + right; right. repeat split; try discriminate. intros t' rest [Q _]. injection Q as <- Q2 <-. lia.
Qed.
Lemma signature_zero sig : is_bytes sig -> zlen sig = 64 -> r_of sig = 0 \/ s_of sig = 0 -> signature_bytes sig = Panic.
Proof.
  intros B L Z. assert (L' : length sig = 64%nat) by (unfold zlen in L; lia). destruct (halves_bytes sig B) as [B1 B2]. destruct (split64 sig L') as (L1 & L2 & Q1 & Q2).
  unfold signature_bytes. rewrite Q1. cbn [bind]. rewrite Q2. cbn [bind]. destruct (Z.eq_dec (r_of sig) 0) as [Zr|Nr].
  - rewrite der_trim_zero by assumption. reflexivity.
  - destruct Z as [Zr|Zs]; [contradiction|]. pose proof (be_num_bound _ B1). destruct (der_trim_ok _ B1 ltac:(unfold r_of in *; lia) L1) as (R & -> & _). cbn [bind]. rewrite der_trim_zero by assumption. reflexivity.
Qed.
Lemma signature_unique sig f f' : wicc_signature sig f -> wicc_signature sig f' -> f' = f.
Proof. intros (R & S & D1 & D2 & ->) (R' & S' & D1' & D2' & ->). rewrite (minimal_der_unique _ _ _ D1 D1'), (minimal_der_unique _ _ _ D2 D2'). reflexivity. Qed.
Lemma idx_not_err {A} (l : list A) i : idx l i <> Err.
Proof. unfold idx. destruct (i <? 0); [discriminate|]. destruct (nth_error _ _); discriminate. Qed.
Lemma der_strip_not_err f : forall l, der_strip f l <> Err.
Proof.
  induction f as [|f IH]; intros l; [discriminate|]. cbn [der_strip]. pose proof (idx_not_err l 0). destruct (idx l 0) as [x| |]; [|contradiction|discriminate]. cbn [bind]. destruct (x =? 0); [|discriminate].
  pose proof (idx_not_err l 1). destruct (idx l 1) as [y| |]; [|contradiction|discriminate]. cbn [bind]. destruct (negb _); [|discriminate]. unfold slice_from. pose proof (slice_not_err l 1 (zlen l)). destruct (slice l 1 (zlen l)); [|contradiction|discriminate]. apply IH.
Qed.
Lemma der_trim_not_err l : der_trim l <> Err.
Proof. unfold der_trim. pose proof (idx_not_err l 0). destruct (idx l 0); [|contradiction|discriminate]. cbn [bind]. destruct (_ =? _); [discriminate|apply der_strip_not_err]. Qed.
Lemma signature_not_err sig : signature_bytes sig <> Err.
Proof.
  unfold signature_bytes, slice_from. pose proof (slice_not_err sig 0 32). destruct (slice sig 0 32) as [r| |]; [|contradiction|discriminate]. cbn [bind]. pose proof (slice_not_err sig 32 (zlen sig)). destruct (slice sig 32 (zlen sig)) as [s| |]; [|contradiction|discriminate]. cbn [bind].
  pose proof (der_trim_not_err r). destruct (der_trim r); [|contradiction|discriminate]. cbn [bind]. pose proof (der_trim_not_err s). destruct (der_trim s); [|contradiction|discriminate]. discriminate.
Qed.
Lemma signature_short sig : zlen sig <= 32 -> signature_bytes sig = Panic.
Proof.
  intros L. pose proof (signature_not_err sig) as N. unfold signature_bytes in *. destruct (Z.eq_dec (zlen sig) 32) as [E|NE].
  - unfold slice_from in *. rewrite E in *. pose proof (slice_not_err sig 0 32). destruct (slice sig 0 32) as [r| |]; [|contradiction|reflexivity]. cbn [bind] in *. assert (E2 : slice sig 32 32 = Ok []) by (unfold slice; rewrite E; reflexivity). rewrite E2 in *. cbn [bind] in *.
    pose proof (der_trim_not_err r). destruct (der_trim r); [|contradiction|]; reflexivity.
  - unfold slice. pose proof (zlen_nonneg sig). replace ((0 <=? 0) && (0 <=? 32) && (32 <=? zlen sig)) with false by lia. reflexivity.
Qed.

(** ** C141 *)
(** A text is combined exactly when it begins with a type and the version and the signature verifies; whatever follows the two bytes
    is not looked at. The result is the text itself followed by the signature. *)
Theorem wicc_combine_iff : forall H decompress verify raw pub sig s, is_bytes sig -> zlen sig = 64 ->
  (verify_and_combine H decompress verify raw pub sig = Ok (true, s) <->
   exists t rest f, wicc_text raw t rest /\ wicc_valid H decompress verify t rest pub sig /\ r_of sig <> 0 /\ s_of sig <> 0 /\ wicc_signature sig f /\ s = raw ++ hex_encode f).
Proof.
  intros H dc vf raw pub sig s B L. unfold verify_and_combine, wicc_valid. destruct (hash_cases H raw) as [(t & rest & T & ->)|[[C ->]|(N & _ & _ & ->)]].
  - split.
    + intros E. destruct (dc pub) as [|c point] eqn:D; [discriminate|]. rewrite slice_from_cons in E. cbn [bind] in E. destruct (vf point _ sig) eqn:V; cbn [negb] in E; [|discriminate].
      destruct (Z.eq_dec (r_of sig) 0) as [Zr|Nr]; [rewrite signature_zero in E by auto; discriminate|]. destruct (Z.eq_dec (s_of sig) 0) as [Zs|Ns]; [rewrite signature_zero in E by auto; discriminate|].
      destruct (signature_ok sig B L Nr Ns) as (f & Ef & W). rewrite Ef in E. cbn [bind] in E. injection E as <-. exists t, rest, f. split; [exact T|]. split; [exists c, point; auto|]. auto.
    + intros (t' & rest' & f & [T1 T2] & (c & point & D & V) & Nr & Ns & W & ->). destruct T as [T0 _]. rewrite T0 in T1. injection T1 as <- <-. rewrite D, slice_from_cons. cbn [bind]. rewrite V. cbn [negb].
      destruct (signature_ok sig B L Nr Ns) as (f' & -> & W'). cbn [bind]. rewrite (signature_unique _ _ _ W W'). reflexivity.
  - split; [discriminate|]. intros (t & rest & f & [T _] & _). destruct C as [C|(x & C & _)]; rewrite T in C; discriminate.
  - split; [discriminate|]. intros (t & rest & f & T & _). exfalso. exact (N _ _ T).
Qed.
(** It crashes on the empty text, on a text of one byte that is a type, on a key that does not decompress and, after the signature has
    verified, on a signature with a zero number. *)
Theorem wicc_combine_panics_iff : forall H decompress verify raw pub sig, is_bytes sig -> zlen sig = 64 ->
  (verify_and_combine H decompress verify raw pub sig = Panic <->
   hex_decode raw = Ok [] \/ (exists t, hex_decode raw = Ok [t] /\ In t [2; 3; 4; 11]) \/
   exists t rest, wicc_text raw t rest /\ (decompress pub = [] \/ wicc_valid H decompress verify t rest pub sig /\ (r_of sig = 0 \/ s_of sig = 0))).
Proof.
  intros H dc vf raw pub sig B L. unfold verify_and_combine, wicc_valid. destruct (hash_cases H raw) as [(t & rest & T & ->)|[[C ->]|(N & N1 & N2 & ->)]].
  - assert (E0 : forall t' rest', wicc_text raw t' rest' -> t' = t /\ rest' = rest) by (intros t' rest' [Q _]; destruct T as [T0 _]; rewrite T0 in Q; injection Q as <- <-; auto).
    split.
    + intros E. right; right. exists t, rest. split; [exact T|]. destruct (dc pub) as [|c point] eqn:D; [left; reflexivity|right]. rewrite slice_from_cons in E. cbn [bind] in E. destruct (vf point _ sig) eqn:V; cbn [negb] in E; [|discriminate].
      split; [exists c, point; auto|]. destruct (Z.eq_dec (r_of sig) 0) as [Zr|Nr]; [auto|]. destruct (Z.eq_dec (s_of sig) 0) as [Zs|Ns]; [auto|]. destruct (signature_ok sig B L Nr Ns) as (f & Ef & W). rewrite Ef in E. discriminate.
    + intros [C|[(x & C & _)|(t' & rest' & T' & C)]]; [destruct T as [T0 _]; rewrite T0 in C; discriminate..|]. destruct (E0 _ _ T') as [-> ->]. destruct C as [->|((c & point & D & V) & Z)]; [reflexivity|]. rewrite D, slice_from_cons. cbn [bind]. rewrite V. cbn [negb]. rewrite signature_zero by assumption. reflexivity.
  - split; [intros _; tauto|reflexivity].
  - split; [discriminate|]. intros [C|[(x & C & I)|(t & rest & T & _)]]; exfalso; [exact (N1 C)|exact (N2 _ C I)|exact (N _ _ T)].
Qed.
(** In all other cases the answer is false, without a text. *)
Theorem wicc_combine_outcomes : forall H decompress verify raw pub sig,
  (exists s, verify_and_combine H decompress verify raw pub sig = Ok (true, s)) \/ verify_and_combine H decompress verify raw pub sig = Ok (false, []) \/ verify_and_combine H decompress verify raw pub sig = Panic.
Proof.
  intros H dc vf raw pub sig. unfold verify_and_combine. destruct (WaykiModel.hash_from_empty H raw) as [h| |]; [|auto..]. destruct (dc pub) as [|c point]; [auto|]. rewrite slice_from_cons. cbn [bind]. destruct (vf point h sig); cbn [negb]; [|auto].
  pose proof (signature_not_err sig). destruct (signature_bytes sig) as [f| |]; [left; eexists; reflexivity|contradiction|auto].
Qed.
(** A signature of at most 32 bytes that verifies crashes it. *)
Theorem wicc_short_signature_panics : forall H decompress verify raw pub sig t rest, wicc_text raw t rest -> zlen sig <= 32 ->
  wicc_valid H decompress verify t rest pub sig -> verify_and_combine H decompress verify raw pub sig = Panic.
Proof.
  intros H dc vf raw pub sig t rest T L (c & point & D & V). unfold verify_and_combine. destruct (hash_cases H raw) as [(t' & rest' & T' & ->)|[[_ ->]|(N & _)]]; [|reflexivity|exfalso; exact (N _ _ T)].
  assert (E : t' :: 1 :: rest' = t :: 1 :: rest) by (destruct T, T'; congruence). injection E as -> ->. rewrite D, slice_from_cons. cbn [bind]. rewrite V. cbn [negb]. rewrite signature_short by exact L. reflexivity.
Qed.

(** ** Examples *)
Definition ex_sig : bytes := repeat 0 31 ++ [5] ++ repeat 0 31 ++ [200].
(** Two bytes are a transaction. *)
Example ex_two_bytes : verify_and_combine (fun b => b) (fun b => 4 :: b) (fun _ _ _ => true) (str "0301") [7] ex_sig =
  Ok (true, str "0301" ++ hex_encode [9; 0x30; 7; 2; 1; 5; 2; 2; 0; 200]).
Proof. reflexivity. Qed.
Example ex_signature : is_bytes ex_sig /\ zlen ex_sig = 64 /\ r_of ex_sig = 5 /\ s_of ex_sig = 200.
Proof. split; [repeat (apply Forall_cons; [unfold is_byte; lia|]); apply Forall_nil|]. repeat split. Qed.
Example ex_crash : verify_and_combine (fun b => b) (fun b => 4 :: b) (fun _ _ _ => true) (str "0b") [7] ex_sig = Panic /\
  verify_and_combine (fun b => b) (fun b => 4 :: b) (fun _ _ _ => true) (str "05") [7] ex_sig = Ok (false, []).
Proof. split; reflexivity. Qed.
Print Assumptions wicc_combine_iff.
Print Assumptions wicc_combine_panics_iff.
Print Assumptions wicc_combine_outcomes.
Print Assumptions wicc_short_signature_panics.
