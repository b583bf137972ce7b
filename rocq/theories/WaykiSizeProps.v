(** C141: VerifyAndCombineRawTransaction of waykichainTransaction with signatures of every size. *)
From Coq Require Import String ZArith List Bool Lia ZifyBool ZifyNat.
From Verif Require Import Go GoFacts GoFacts2 Base58Model SigModel SigDerProps SigSizeProps RippleModel WaykiModel WaykiProps WaykiTextProps.
Import ListNotations.
Open Scope Z_scope.
Ltac Zify.zify_post_hook ::= idtac.

(** ** Specification *)
(** The signature behind the text: what remains of the two parts of the signature; every length is written into one byte. *)
Definition wicc_any_signature (sig f : bytes) : Prop :=
  exists R S, trimmed (firstn 32 sig) R /\ trimmed (skipn 32 sig) S /\
    let body := [2; zlen R mod 256] ++ R ++ [2; zlen S mod 256] ++ S in f = [(zlen body + 2) mod 256; 0x30; zlen body mod 256] ++ body.

(** ** Lemmas *)
Lemma signature_panics sig : is_bytes sig -> signature_bytes sig = Panic <-> unusable sig.
Proof.
  intros B. destruct (Z_le_gt_dec (zlen sig) 32) as [L|L]; [rewrite signature_short by exact L; split; [left; exact L|reflexivity]|].
  destruct (halves_bytes sig B) as [B1 B2]. destruct (parts sig ltac:(lia)) as (Q1 & Q2 & L1). unfold signature_bytes. rewrite Q1, Q2. cbn [bind].
  pose proof (trim_panics _ B1) as T1. pose proof (trim_panics _ B2) as T2. pose proof (der_trim_not_err (firstn 32 sig)) as N1. pose proof (der_trim_not_err (skipn 32 sig)) as N2.
  assert (U1 : (exists n, (n <= 32)%nat /\ firstn 32 sig = repeat 0 n) <-> firstn 32 sig = repeat 0 32).
  { split; [|eauto]. intros (n & Ln & E). pose proof (f_equal (@length Z) E) as Q. rewrite repeat_length, L1 in Q. subst n. exact E. }
  assert (U2 : (exists n, (n <= 32)%nat /\ skipn 32 sig = repeat 0 n) <-> zlen sig <= 64 /\ skipn 32 sig = repeat 0 (length sig - 32)).
  { split.
    - intros (n & Ln & E). pose proof (f_equal (@length Z) E) as Q. rewrite repeat_length, skipn_length in Q. rewrite Q. split; [unfold zlen; lia|exact E].
    - intros [Lt E]. exists (length sig - 32)%nat. split; [unfold zlen in Lt; lia|exact E]. }
  rewrite U1 in T1. rewrite U2 in T2. unfold unusable.
  destruct (der_trim (firstn 32 sig)) as [R| |]; cbn [bind]; [|contradiction|tauto].
  destruct (der_trim (skipn 32 sig)) as [S| |]; cbn [bind]; [|contradiction|tauto].
  split; [discriminate|]. intros [C|[C|C]]; [lia|apply T1 in C; discriminate|apply T2 in C; discriminate].
Qed.

(** ** C141, every signature *)
(** Exactly when it crashes, for a signature of any size. *)
Theorem wicc_any_signature_panics_iff : forall H decompress verify raw pub sig, is_bytes sig ->
  (verify_and_combine H decompress verify raw pub sig = Panic <->
   hex_decode raw = Ok [] \/ (exists t, hex_decode raw = Ok [t] /\ In t [2; 3; 4; 11]) \/
   exists t rest, wicc_text raw t rest /\ (decompress pub = [] \/ wicc_valid H decompress verify t rest pub sig /\ unusable sig)).
Proof.
  intros H dc vf raw pub sig B. pose proof (signature_panics sig B) as SP. unfold verify_and_combine, wicc_valid. destruct (hash_cases H raw) as [(t & rest & T & ->)|[[C ->]|(N & N1 & N2 & ->)]].
  - assert (E0 : forall t' rest', wicc_text raw t' rest' -> t' = t /\ rest' = rest) by (intros t' rest' [Q _]; destruct T as [T0 _]; rewrite T0 in Q; injection Q as <- <-; auto).
    split.
    + intros E. right; right. exists t, rest. split; [exact T|]. destruct (dc pub) as [|c point] eqn:D; [left; reflexivity|right]. rewrite slice_from_cons in E. cbn [bind] in E. destruct (vf point _ sig) eqn:V; cbn [negb] in E; [|discriminate].
      split; [exists c, point; auto|]. apply SP. destruct (signature_bytes sig); [discriminate|discriminate|reflexivity].
    + intros [C|[(x & C & _)|(t' & rest' & T' & C)]]; [destruct T as [T0 _]; rewrite T0 in C; discriminate..|]. destruct (E0 _ _ T') as [-> ->]. destruct C as [->|((c & point & D & V) & Z)]; [reflexivity|]. rewrite D, slice_from_cons. cbn [bind]. rewrite V. cbn [negb]. apply SP in Z. rewrite Z. reflexivity.
  - split; [intros _; tauto|reflexivity].
  - split; [discriminate|]. intros [C|[(x & C & I)|(t & rest & T & _)]]; exfalso; [exact (N1 C)|exact (N2 _ C I)|exact (N _ _ T)].
Qed.
(** Otherwise it returns true exactly when the text is a transaction and the signature verifies, whatever its size. *)
Theorem wicc_any_signature_accepted_iff : forall H decompress verify raw pub sig, is_bytes sig ->
  ((exists s, verify_and_combine H decompress verify raw pub sig = Ok (true, s)) <->
   exists t rest, wicc_text raw t rest /\ wicc_valid H decompress verify t rest pub sig /\ ~ unusable sig).
Proof.
  intros H dc vf raw pub sig B. pose proof (signature_panics sig B) as SP. unfold verify_and_combine, wicc_valid. destruct (hash_cases H raw) as [(t & rest & T & ->)|[[C ->]|(N & _ & _ & ->)]].
  - split.
    + intros (s & E). exists t, rest. split; [exact T|]. destruct (dc pub) as [|c point] eqn:D; [discriminate|]. rewrite slice_from_cons in E. cbn [bind] in E. destruct (vf point _ sig) eqn:V; cbn [negb] in E; [|discriminate].
      split; [exists c, point; auto|]. intros P. apply SP in P. rewrite P in E. discriminate.
    + intros (t' & rest' & [T1 _] & (c & point & D & V) & U). destruct T as [T0 _]. rewrite T0 in T1. injection T1 as <- <-. rewrite D, slice_from_cons. cbn [bind]. rewrite V. cbn [negb].
      pose proof (signature_not_err sig). destruct (signature_bytes sig) as [f| |]; [|contradiction|exfalso; apply U, SP; reflexivity]. cbn [bind]. eauto.
  - split; [intros (? & E); discriminate|]. intros (t & rest & [T _] & _). destruct C as [C|(x & C & _)]; rewrite T in C; discriminate.
  - split; [intros (? & E); discriminate|]. intros (t & rest & T & _). exfalso. exact (N _ _ T).
Qed.
(** And exactly what it returns. *)
Lemma signature_is sig f : is_bytes sig -> signature_bytes sig = Ok f <-> wicc_any_signature sig f.
Proof.
  intros B. destruct (halves_bytes sig B) as [B1 B2]. unfold wicc_any_signature. destruct (usable_trimmed sig B) as [(U & N)|(_ & L & R & S & T1 & T2)].
  - apply signature_panics in U; [|exact B]. rewrite U. split; [discriminate|]. intros (R & S & T1 & T2 & _). destruct (N _ _ T1 T2).
  - pose proof T1 as Q1. pose proof T2 as Q2. apply trim_is in Q1, Q2; [|assumption..]. unfold signature_bytes. destruct (parts sig ltac:(lia)) as (-> & -> & _). cbn [bind]. rewrite Q1. cbn [bind]. rewrite Q2. cbn [bind].
    assert (E : forall R S : bytes, (let rs := u8 (zlen ((2 :: u8 (zlen R) :: R) ++ 2 :: u8 (zlen S) :: S)) :: (2 :: u8 (zlen R) :: R) ++ 2 :: u8 (zlen S) :: S in u8 (zlen (48 :: rs)) :: 48 :: rs) =
      let body := [2; zlen R mod 256] ++ R ++ [2; zlen S mod 256] ++ S in [(zlen body + 2) mod 256; 0x30; zlen body mod 256] ++ body).
    { intros R' S'. cbv zeta. unfold u8. cbn [app]. f_equal. rewrite !zlen_cons, !zlen_app, !zlen_cons. f_equal. lia. }
    cbv zeta in E. cbv zeta. rewrite E. clear E. split.
    + intros E. exists R, S. split; [exact T1|]. split; [exact T2|]. congruence.
    + intros (R' & S' & T1' & T2' & ->). rewrite (trimmed_one _ _ _ B1 T1' T1), (trimmed_one _ _ _ B2 T2' T2). reflexivity.
Qed.
Theorem wicc_any_signature_combined_iff : forall H decompress verify raw pub sig s, is_bytes sig ->
  (verify_and_combine H decompress verify raw pub sig = Ok (true, s) <->
   exists t rest f, wicc_text raw t rest /\ wicc_valid H decompress verify t rest pub sig /\ wicc_any_signature sig f /\ s = raw ++ hex_encode f).
Proof.
  intros H dc vf raw pub sig s B. unfold verify_and_combine, wicc_valid. destruct (hash_cases H raw) as [(t & rest & T & ->)|[[C ->]|(N & _ & _ & ->)]].
  - split.
    + intros E. destruct (dc pub) as [|c point] eqn:D; [discriminate|]. rewrite slice_from_cons in E. cbn [bind] in E. destruct (vf point _ sig) eqn:V; cbn [negb] in E; [|discriminate].
      destruct (signature_bytes sig) as [f| |] eqn:F; cbn [bind] in E; [|discriminate..]. exists t, rest, f. split; [exact T|]. split; [exists c, point; auto|]. split; [apply signature_is; assumption|congruence].
    + intros (t' & rest' & f & [T1 _] & (c & point & D & V) & F & ->). destruct T as [T0 _]. rewrite T0 in T1. injection T1 as <- <-. rewrite D, slice_from_cons. cbn [bind]. rewrite V. cbn [negb].
      apply signature_is in F; [|exact B]. rewrite F. reflexivity.
  - split; [discriminate|]. intros (t & rest & f & [T _] & _). destruct C as [C|(x & C & _)]; rewrite T in C; discriminate.
  - split; [discriminate|]. intros (t & rest & f & T & _). exfalso. exact (N _ _ T).
Qed.
(** Up to 65 bytes the second part is put into minimal DER form. *)
Lemma signature_some sig : is_bytes sig -> 32 < zlen sig <= 65 -> r_of sig <> 0 -> s_of sig <> 0 -> exists f, signature_bytes sig = Ok f /\ wicc_signature sig f.
Proof.
  intros B L Nr Ns. destruct (halves_bytes sig B) as [B1 B2]. pose proof (be_num_bound _ B1). pose proof (be_num_bound _ B2). destruct (parts sig ltac:(lia)) as (Q1 & Q2 & L1).
  assert (L2 : (length (skipn 32 sig) <= 33)%nat) by (rewrite skipn_length; unfold zlen in L; lia).
  destruct (trim_some _ B1 ltac:(unfold r_of in *; lia) ltac:(lia)) as (R & E1 & D1 & M1). destruct (trim_some _ B2 ltac:(unfold s_of in *; lia) L2) as (S & E2 & D2 & M2).
  unfold signature_bytes. rewrite Q1. cbn [bind]. rewrite Q2. cbn [bind]. rewrite E1. cbn [bind]. rewrite E2. cbn [bind].
  eexists. split; [reflexivity|]. exists R, S. split; [exact D1|]. split; [exact D2|]. assert (ZR : zlen R <= 34) by (unfold zlen; lia). assert (ZS : zlen S <= 34) by (unfold zlen; lia). pose proof (zlen_nonneg R). pose proof (zlen_nonneg S).
  cbv zeta. cbn [app]. rewrite !zlen_cons, zlen_app, !zlen_cons. rewrite !SigDerProps.u8_small by lia. f_equal; [lia|]. f_equal. f_equal. lia.
Qed.
Theorem wicc_other_sizes_combined : forall H decompress verify raw pub sig t rest, is_bytes sig -> 32 < zlen sig <= 65 -> wicc_text raw t rest -> wicc_valid H decompress verify t rest pub sig ->
  r_of sig <> 0 -> s_of sig <> 0 -> exists f, wicc_signature sig f /\ verify_and_combine H decompress verify raw pub sig = Ok (true, raw ++ hex_encode f).
Proof.
  intros H dc vf raw pub sig t rest B L T (c & point & D & V) Nr Ns. destruct (signature_some sig B L Nr Ns) as (f & Ef & W). exists f. split; [exact W|].
  unfold verify_and_combine. destruct (hash_cases H raw) as [(t' & rest' & T' & ->)|[[C ->]|(N & _)]]; [|destruct T as [T _], C as [C|(x & C & _)]; rewrite T in C; discriminate|exfalso; exact (N _ _ T)].
  assert (E : t' :: 1 :: rest' = t :: 1 :: rest) by (destruct T, T'; congruence). injection E as -> ->. rewrite D, slice_from_cons. cbn [bind]. rewrite V. cbn [negb]. rewrite Ef. reflexivity.
Qed.

(** A signature of 40 bytes is combined; with 65 bytes a second part of zeros gets through, with 64 it crashes. *)
Example ex_sizes :
  verify_and_combine (fun b => b) (fun b => 4 :: b) (fun _ _ _ => true) (str "0301") [7] (repeat 1 40) = Ok (true, str "0301" ++ hex_encode ([46; 48; 44; 2; 32] ++ repeat 1 32 ++ [2; 8] ++ repeat 1 8)) /\
  verify_and_combine (fun b => b) (fun b => 4 :: b) (fun _ _ _ => true) (str "0301") [7] (repeat 1 32 ++ repeat 0 32) = Panic /\
  verify_and_combine (fun b => b) (fun b => 4 :: b) (fun _ _ _ => true) (str "0301") [7] (repeat 1 32 ++ repeat 0 33) = Ok (true, str "0301" ++ hex_encode ([39; 48; 37; 2; 32] ++ repeat 1 32 ++ [2; 1; 0])).
Proof. repeat split; reflexivity. Qed.
Example ex_unusable : unusable (repeat 1 32 ++ repeat 0 32) /\ ~ unusable (repeat 1 40).
Proof. split; [right; right; split; [discriminate|reflexivity]|]. intros [C|[C|[_ C]]]; [apply C; reflexivity|discriminate|discriminate]. Qed.
Print Assumptions wicc_any_signature_panics_iff.
Print Assumptions wicc_any_signature_accepted_iff.
Print Assumptions wicc_any_signature_combined_iff.
Print Assumptions wicc_other_sizes_combined.
