(** The exported parts of addressEncoder: CalcChecksum, VerifyChecksum, EncodeData and DecodeData (addressEncoder.go:23-127 are wrappers of
    the functions modelled in AddressModel.v) with prefix, suffix, alphabet and checksum rule of the caller's choice. *)
From Coq Require Import String ZArith List Bool Lia ZifyBool ZifyNat.
From Verif Require Import Go GoFacts GoFacts2 Base58Model Base58Spec Base58Proofs Base58Props Base58CheckModel Base58CheckSpec Base58CheckProofs
  AddressModel AddressSpec AddressProofs AddressProfiles AddressProps Toy.
Import ListNotations.
Open Scope Z_scope.
Ltac Zify.zify_post_hook ::= idtac.

(** ** Checksums *)
(** CalcChecksum gives the first four bytes of the named hash and VerifyChecksum tells whether the last four bytes are the checksum of the rest. *)
Theorem data_checksum : forall H name f d, hashes_ok H -> checksum_rule H name f -> is_bytes d ->
  calc_checksum_of H d name = Ok (firstn 4 (f d)) /\
  exists ok, verify_checksum_of H d name = Ok ok /\ (ok = true <-> exists b, is_bytes b /\ d = b ++ firstn 4 (f b)).
Proof.
  intros H name f d HH R B. split; [apply calc_rule; assumption|]. pose proof (rule_hash_ok H HH _ _ R) as Hf. unfold verify_checksum_of. destruct (zlen d <? 4) eqn:L.
  - exists false. split; [reflexivity|]. split; [discriminate|]. intros (b & Bb & ->). exfalso. change (b ++ firstn 4 (f b)) with (checked f b) in L. rewrite checked_len in L by assumption. pose proof (zlen_nonneg b). lia.
  - destruct (split4 d) as (b & t & -> & Lt & Lb); [lia|]. apply is_bytes_app in B as [Bb Bt]. rewrite <- Lb. rewrite slice_pre by reflexivity. cbn [bind]. rewrite (calc_rule H HH name f) by assumption. cbn [bind].
    rewrite checksum_loop_eq; [|apply cks_len; assumption|exact Lt]. exists (beq (firstn 4 (f b)) t). split; [reflexivity|]. split.
    + intros E. apply beq_eq in E. subst t. eauto.
    + intros (b' & Bb' & E). assert (Lf : zlen (firstn 4 (f b')) = 4) by (apply cks_len; assumption). assert (b = b' /\ t = firstn 4 (f b')) as [-> ->].
      { assert (LE : length b = length b') by (apply (f_equal zlen) in E; rewrite !zlen_app in E; unfold zlen in *; lia). remember (firstn 4 (f b')) as u eqn:Eu. clear - E LE. revert b' LE E. induction b as [|x b IH]; intros [|y b'] LE E; try discriminate LE; [split; [reflexivity|exact E]|].
        rewrite <- !app_comm_cons in E. cbn [length] in LE. injection E as Ex Eb. destruct (IH b') as [-> ->]; [lia|exact Eb|]. subst. split; reflexivity. }
      apply beq_refl.
Qed.
(** A name that is none of the six rules: no checksum, and verifying anything of at least four bytes crashes. *)
Theorem data_unknown_rule : forall H name d, (~ exists f, checksum_rule H name f) -> 
  calc_checksum_of H d name = Ok [] /\ (verify_checksum_of H d name = Panic <-> 4 <= zlen d) /\ (verify_checksum_of H d name = Ok false <-> zlen d < 4).
Proof.
  intros H name d N. assert (C : forall d, calc_checksum_of H d name = Ok []).
  { intros x. unfold calc_checksum_of. repeat match goal with |- context [beq name ?s] => let E := fresh in destruct (beq name s) eqn:E; [apply beq_eq in E; exfalso; apply N; rewrite E; eexists; constructor|] end. reflexivity. }
  split; [apply C|]. unfold verify_checksum_of. destruct (zlen d <? 4) eqn:L; [split; split; intros; try discriminate; try lia; reflexivity|].
  assert (P : exists b, slice d 0 (zlen d - 4) = Ok b) by (apply slice_total; lia). destruct P as (b & ->). cbn [bind]. rewrite C. cbn [bind checksum_loop]. change (idx (@nil Z) 0) with (@Panic Z). cbn [bind]. split; split; intros; try discriminate; try lia; reflexivity.
Qed.
(** ** DecodeData *)
(** It succeeds exactly on the Base58 text of prefix, data, suffix and checksum. *)
Definition profile_for (alpha chk prefix suffix : list Z) (n : Z) : addr_type :=
  {| encode_type := str "base58"; alphabet_of := alpha; checksum_type := chk; hash_type := []; hash_len := n; prefix_of := prefix; suffix_of := suffix |}.
Lemma profile_for_ok H alpha chk f prefix suffix n : alphabet_ok alpha -> checksum_rule H chk f -> is_bytes prefix -> is_bytes suffix -> base58_profile H (profile_for alpha chk prefix suffix n) f.
Proof. intros A R P S. split; [reflexivity|]. split; [exact A|]. split; [exact R|]. split; assumption. Qed.
Theorem data_decode_iff : forall H alpha chk f prefix suffix s d, hashes_ok H -> alphabet_ok alpha -> checksum_rule H chk f -> is_bytes prefix -> is_bytes suffix -> is_bytes s ->
  (decode_data H s (str "base58") alpha chk prefix suffix = Ok d <->
   is_bytes d /\ is_base58_of alpha (checked f (prefix ++ d ++ suffix)) s).
Proof.
  intros H alpha chk f prefix suffix s d HH A R P S B. set (T := profile_for alpha chk prefix suffix (zlen d)).
  assert (HT : base58_profile H T f) by (apply profile_for_ok; assumption).
  pose proof (base58_dec_shape H T f HT s) as E. cbn [T profile_for alphabet_of checksum_type prefix_of suffix_of hash_len] in E. split.
  - intros D. rewrite D in E. cbn [bind] in E. replace (zlen d =? zlen d) with true in E by lia. pose proof (address_decode_total H HH T f HT s B) as K. fold T in E. rewrite E in K. destruct K as (Bd & _ & N & _). split; [exact Bd|exact N].
  - intros (Bd & N). destruct (address_round H HH T f HT d Bd eq_refl) as (s' & _ & D & N'). rewrite (base58_of_unique _ _ _ _ N N') in *. fold T in E. rewrite D in E.
    destruct (decode_data H s' (str "base58") alpha chk prefix suffix) as [x| |]; try discriminate E. cbn [bind] in E. destruct (zlen x =? zlen d); [congruence|discriminate E].
Qed.
(** It crashes exactly on a correct text that is too short for prefix and suffix. *)
Theorem data_decode_crash_iff : forall H alpha chk f prefix suffix s, hashes_ok H -> alphabet_ok alpha -> checksum_rule H chk f -> is_bytes prefix -> is_bytes suffix -> is_bytes s ->
  (decode_data H s (str "base58") alpha chk prefix suffix = Panic <->
   exists d, is_bytes d /\ is_base58_of alpha (checked f d) s /\
     ((exists x q, prefix = d ++ x :: q) \/ ((exists r, d = prefix ++ r) /\ zlen d < zlen suffix) \/
      ((exists r, d = prefix ++ r) /\ (exists q, d = q ++ suffix) /\ zlen d < zlen prefix + zlen suffix))).
Proof.
  intros H alpha chk f prefix suffix s HH A R P S B. set (T := profile_for alpha chk prefix suffix 0). assert (HT : base58_profile H T f) by (apply profile_for_ok; assumption).
  eapply iff_trans; [|exact (address_decode_panics_iff H T f s HH HT B)]. pose proof (base58_dec_shape H T f HT s) as E. cbn [T profile_for alphabet_of checksum_type prefix_of suffix_of hash_len] in E. fold T in E. rewrite E.
  destruct (decode_data H s (str "base58") alpha chk prefix suffix) as [x| |]; cbn [bind]; [|split; congruence|split; congruence]. split; [discriminate|]. destruct (zlen x =? 0); discriminate.
Qed.
(** Every text made by CatData, CalcChecksum and EncodeData is read back. *)
Theorem data_round_trip : forall H alpha chk f prefix suffix d, hashes_ok H -> alphabet_ok alpha -> checksum_rule H chk f -> is_bytes prefix -> is_bytes suffix -> is_bytes d ->
  exists c s, calc_checksum_of H (cat_data (cat_data prefix d) suffix) chk = Ok c /\ encode_data (cat_data (cat_data (cat_data prefix d) suffix) c) (str "base58") alpha = Ok s /\
    decode_data H s (str "base58") alpha chk prefix suffix = Ok d.
Proof.
  intros H alpha chk f prefix suffix d HH A R P S B. unfold cat_data. assert (Bf : is_bytes ((prefix ++ d) ++ suffix)) by (rewrite !is_bytes_app; tauto).
  exists (firstn 4 (f ((prefix ++ d) ++ suffix))). set (T := profile_for alpha chk prefix suffix (zlen d)). assert (HT : base58_profile H T f) by (apply profile_for_ok; assumption).
  destruct (address_round H HH T f HT d B eq_refl) as (s & E & D & N). exists s. split; [apply calc_rule; assumption|]. split.
  - rewrite (base58_enc_shape H T f HT d eq_refl) in E. cbn [T profile_for alphabet_of checksum_type prefix_of suffix_of] in E. rewrite (calc_rule H HH chk f) in E by assumption. exact E.
  - rewrite (base58_dec_shape H T f HT s) in D. cbn [T profile_for alphabet_of checksum_type prefix_of suffix_of hash_len] in D. destruct (decode_data H s (str "base58") alpha chk prefix suffix) as [x| |]; try discriminate D. cbn [bind] in D. destruct (zlen x =? zlen d); [congruence|discriminate D].
Qed.
(** With any other encoding name there is no text, and decoding anything gives no data and no error. *)
Theorem data_other_encoding : forall H enc alpha chk prefix suffix s, enc <> str "base58" -> encode_data s enc alpha = Ok [] /\ decode_data H s enc alpha chk prefix suffix = Ok [].
Proof. intros H enc alpha chk prefix suffix s N. unfold encode_data, decode_data. destruct (beq enc (str "base58")) eqn:E; [apply beq_eq in E; contradiction|]. split; reflexivity. Qed.

(** ** Concrete cases *)
Example data_example : exists c s, alphabet_ok btc_alphabet_str /\ calc_checksum_of toy_hashes (cat_data (cat_data [1; 2] [3; 4; 5]) [6]) (str "sha3_256") = Ok c /\
  encode_data (cat_data (cat_data (cat_data [1; 2] [3; 4; 5]) [6]) c) (str "base58") btc_alphabet_str = Ok s /\ decode_data toy_hashes s (str "base58") btc_alphabet_str (str "sha3_256") [1; 2] [6] = Ok [3; 4; 5].
Proof.
  assert (A : alphabet_ok btc_alphabet_str) by (apply alphabet_ok_dec; vm_compute; reflexivity).
  destruct (data_round_trip toy_hashes btc_alphabet_str (str "sha3_256") _ [1; 2] [6] [3; 4; 5] toy_hashes_ok A (rule_sha3 toy_hashes)) as (c & s & E); [apply forallb_bytes; reflexivity|apply forallb_bytes; reflexivity|apply forallb_bytes; reflexivity|].
  exists c, s. split; [exact A|exact E].
Qed.
Example data_unknown_rule_example : ~ exists f, checksum_rule toy_hashes (str "sha256") f.
Proof. intros (f & R). inversion R. Qed.
Print Assumptions data_checksum.
Print Assumptions data_unknown_rule.
Print Assumptions data_decode_iff.
Print Assumptions data_decode_crash_iff.
Print Assumptions data_round_trip.
Print Assumptions data_other_encoding.
