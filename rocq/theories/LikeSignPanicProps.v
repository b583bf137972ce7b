(** C157: exactly when btcLikeTxDriver crashes while it makes the hashes to sign or signs a transaction. *)
From Coq Require Import String ZArith List Bool Lia ZifyBool ZifyNat.
From Verif Require Import Go GoFacts GoFacts2 Rd Base58CheckModel BtcModel BtcSpec BtcProofs BtcTxProofs BtcSigProps BtcVerProps SigModel SigDerProps FamPanicProps
  LikeModel LikeProofs LikeProps LikeSigProofs LikeSigProps LikeInsProps LikeVerProps LikeAutoProps LikeWitModel LikeWitProps LikePanicProps LikeCheckPanicProps Toy.
Import ListNotations.
Open Scope Z_scope.
Ltac Zify.zify_post_hook ::= idtac.

(** ** Specification *)
(** Making the hashes ends the program: the text is hex and decoding its bytes does, or there is one request per input and the first request that cannot be hashed is a trap. *)
Definition hashing_crash (txHex : list Z) (us : list lunlock) : Prop :=
  exists b, hex_decode txHex = Ok b /\
  (like_decode b = Panic \/ exists t, like_decode b = Ok t /\ length us = length (l_vins t) /\ meets (hashable (has_outputs t)) like_hash_trap us).

(** ** Lemmas *)
Lemma hashes_cases H sha t us : decoded_ok t -> like_hashes H sha t us = Panic <-> length us = length (l_vins t) /\ meets (hashable (has_outputs t)) like_hash_trap us.
Proof.
  intros D. unfold like_hashes. split.
  - intros E. destruct ((zlen (l_vins t) =? 0) || negb (zlen (l_vins t) =? zlen us)) eqn:C; [discriminate|]. assert (L : length us = length (l_vins t)) by (unfold zlen in C; lia). split; [exact L|]. apply hash_loop_cases in E; [exact E|exact D|lia].
  - intros [L M]. assert (us <> []) by (intros ->; destruct M as ([|? ?] & x & q & E & _); discriminate). assert (length us <> 0%nat) by (destruct us; [contradiction|discriminate]).
    replace ((zlen (l_vins t) =? 0) || negb (zlen (l_vins t) =? zlen us)) with false by (unfold zlen; lia). apply hash_loop_cases; [exact D|lia|exact M].
Qed.
Lemma sign_all_fine sign : (forall k h, sign k h <> Panic) -> forall hs us, like_sign_all sign hs us <> Panic.
Proof.
  intros F. induction hs as [|h hs IH]; intros [|u us]; cbn [like_sign_all]; try discriminate. destruct (negb _); [discriminate|]. destruct (negb _); [discriminate|]. intros E. apply bind_panics in E as [E|(sp & _ & E)]; [exact (F _ _ E)|]. apply bind_panics in E as [E|(? & _ & E)]; [exact (IH _ E)|discriminate].
Qed.
Lemma sign_all_from sign : forall hs us sps, like_sign_all sign hs us = Ok sps -> Forall (fun sp => exists k h, sign k h = Ok sp) sps.
Proof.
  induction hs as [|h hs IH]; intros [|u us] sps E; cbn [like_sign_all] in E; try discriminate; [injection E as <-; constructor|]. destruct (negb _); [discriminate|]. destruct (negb _); [discriminate|]. apply bind_ok in E as (sp & E1 & E). apply bind_ok in E as (r & E2 & E). injection E as <-. constructor; [eauto|exact (IH _ _ E2)].
Qed.
(** After the hash has been made the lock of the request has a kind. *)
Definition kinded (u : lunlock) : Prop := exists lock ty, hex_decode (lu_lock u) = Ok lock /\ like_script_type lock = Ok ty.
Lemma hash_kinded H sha t n u h u' : like_hash H sha t n u = Ok (h, u') -> kinded u'.
Proof.
  unfold like_hash, kinded. intros E. apply bind_ok in E as (lock & El & E). destruct (_ && _); [discriminate|]. apply bind_ok in E as (ty & Et & E). exists lock, ty. split; [|exact Et]. destruct (nth_error _ n) as [i|]; [|discriminate].
  destruct ty as [[]|]; [| | |discriminate]; apply bind_ok in E as (b & _ & E); injection E as _ <-; exact El.
Qed.
Lemma hash_loop_kinded H sha t : forall us n hs us', like_hash_loop H sha t n us = Ok (hs, us') -> Forall kinded us'.
Proof.
  induction us as [|u us IH]; intros n hs us' E; cbn [like_hash_loop] in E; [injection E as <- <-; constructor|]. apply bind_ok in E as ([h u1] & E1 & E). apply bind_ok in E as ([hs1 us1] & E2 & E). injection E as <- <-. constructor; [exact (hash_kinded _ _ _ _ _ _ _ E1)|exact (IH _ _ _ E2)].
Qed.
Lemma sign_one_fine n i u sp ws : kinded u -> zlen (sp_sig sp) = 64 -> sound_sp sp -> like_sign_one n i u sp ws <> Panic.
Proof.
  intros (lock & ty & El & Et) L K. unfold like_sign_one. rewrite El. cbn [bind]. rewrite Et. cbn [bind]. destruct (der_zero_unique sp K L) as (R & S & _ & _ & _ & _ & EE).
  assert (X : encode_script (sp_sig sp) (sp_pub sp) 1 <> Panic) by (unfold encode_script; rewrite EE; discriminate). pose proof (hex_decode_not_panic (lu_redeem u)).
  destruct ty as [[]|]; try discriminate; intros P; apply bind_panics in P as [P|(? & _ & P)]; try discriminate; contradiction.
Qed.
Lemma sign_one_sized n i u sp ws i' ws' : zlen (sp_sig sp) = 64 -> Forall wit_sized ws -> like_sign_one n i u sp ws = Ok (i', ws') -> Forall wit_sized ws'.
Proof.
  intros L F E. unfold like_sign_one in E. apply bind_ok in E as (lock & _ & E). apply bind_ok in E as (ty & _ & E).
  assert (A : Forall wit_sized (if zlen ws =? 0 then repeat no_sigpub n ++ [sp] else ws)).
  { destruct (zlen ws =? 0); [|exact F]. apply Forall_app. split; [|constructor; [right; lia|constructor]]. apply Forall_forall. intros x I. apply repeat_spec in I. subst x. left. reflexivity. }
  assert (B : Forall wit_sized (if zlen ws =? 0 then ws else ws ++ [no_sigpub])) by (destruct (zlen ws =? 0); [exact F|]; apply Forall_app; split; [exact F|]; constructor; [left; reflexivity|constructor]).
  destruct ty as [[]|]; try (apply bind_ok in E as (? & _ & E)); injection E as _ <-; first [exact A | exact B].
Qed.
Definition sound_sign (sp : sigpub) : Prop := zlen (sp_sig sp) = 64 /\ sound_sp sp.
Lemma sign_loop_fine : forall ins us sps n ws, Forall kinded us -> Forall sound_sign sps -> Forall wit_sized ws ->
  like_sign_loop n ins us sps ws <> Panic /\ forall ins' ws', like_sign_loop n ins us sps ws = Ok (ins', ws') -> Forall wit_sized ws'.
Proof.
  induction ins as [|i ins IH]; intros us sps n ws Fu Fs Fw.
  { cbn [like_sign_loop]. split; [discriminate|]. intros ins' ws' E. injection E as _ <-. exact Fw. }
  destruct us as [|u us]. { cbn [like_sign_loop]. split; [discriminate|]. intros ins' ws' E. injection E as _ <-. exact Fw. }
  destruct sps as [|sp sps]. { cbn [like_sign_loop]. split; [discriminate|]. intros ins' ws' E. injection E as _ <-. exact Fw. }
  cbn [like_sign_loop]. apply Forall_cons_iff in Fu as [Ku Fu]. apply Forall_cons_iff in Fs as [[Ls Ks] Fs]. pose proof (sign_one_fine n i u sp ws Ku Ls Ks) as NP. destruct (like_sign_one n i u sp ws) as [[i1 ws1]| |] eqn:E1; cbn [bind]; [|split; discriminate|contradiction].
  destruct (IH us sps (S n) ws1 Fu Fs (sign_one_sized _ _ _ _ _ _ _ Ls Fw E1)) as [A B]. split.
  - intros P. apply bind_panics in P as [P|([? ?] & _ & P)]; [contradiction|discriminate].
  - intros ins' ws' E. apply bind_ok in E as ([ins2 ws2] & E2 & E). injection E as _ <-. exact (B _ _ E2).
Qed.

(** ** C157 *)
(** Making the hashes, for a transaction with or without signatures. *)
Theorem like_hashing_crashes_exactly : forall H sha txHex us, like_create_hashes H sha txHex us = Panic <-> hashing_crash txHex us.
Proof.
  intros H sha txHex us. unfold like_create_hashes, hashing_crash. rewrite bind_panics. split.
  - intros [E|(b & Eb & E)]; [exfalso; exact (hex_decode_not_panic _ E)|]. exists b. split; [exact Eb|]. apply bind_panics in E as [E|(t & Et & E)]; [left; exact E|]. right. exists t. split; [exact Et|]. apply bind_panics in E as [E|([? ?] & _ & E)]; [|discriminate].
    apply hashes_cases in E; [exact E|]. exact (like_decoded b t (proj1 (hex_decode_bytes _ _ Eb)) Et).
  - intros (b & Eb & D). right. exists b. split; [exact Eb|]. apply bind_panics. destruct D as [D|(t & Et & L & M)]; [left; exact D|]. right. exists t. split; [exact Et|]. apply bind_panics. left. apply hashes_cases; [exact (like_decoded b t (proj1 (hex_decode_bytes _ _ Eb)) Et)|auto].
Qed.
(** Signing in one call crashes exactly where making the hashes does, if the signature library does not crash and gives signatures without zero integers. *)
Theorem like_signing_crashes_exactly : forall H sha sign txHex us, sign_ok sign -> (forall k h, sign k h <> Panic) -> like_sign_raw H sha sign txHex us = Panic <-> hashing_crash txHex us.
Proof.
  intros H sha sign txHex us KS SF. rewrite <- (like_hashing_crashes_exactly H sha). unfold like_sign_raw, like_create_hashes. destruct (hex_decode txHex) as [b| |] eqn:Eb; cbn [bind]; [|split; first [discriminate | reflexivity]..]. destruct (like_decode b) as [t| |] eqn:Et; cbn [bind]; [|split; first [discriminate | reflexivity]..].
  pose proof (like_decoded b t (proj1 (hex_decode_bytes _ _ Eb)) Et) as (_ & _ & Fw). destruct (like_hashes H sha t us) as [[hs us1]| |] eqn:Eh; cbn [bind]; [|split; first [discriminate | reflexivity]..]. split; [|discriminate]. intros P. exfalso.
  unfold like_hashes in Eh. destruct (_ || _); [discriminate|]. apply hash_loop_kinded in Eh. apply bind_panics in P as [P|(sps & Es & P)]; [exact (sign_all_fine sign SF _ _ P)|]. apply sign_all_from in Es.
  assert (Fs : Forall sound_sign sps). { eapply Forall_impl; [|exact Es]. intros sp (k & h & E). destruct (KS _ _ _ E) as (L & _ & Q). split; [exact L|intros _; exact Q]. }
  destruct (sign_loop_fine (l_vins t) us1 sps 0%nat (l_wit t) Eh Fs Fw) as [A B]. apply bind_panics in P as [P|([ins ws] & E & P)]; [contradiction|]. apply bind_panics in P as [P|(? & _ & P)]; [|discriminate]. revert P. apply like_bytes_sized. exact (B _ _ E).
Qed.
(** Signing given hashes never crashes. *)
Theorem like_hash_signing_never_crashes : forall sign hs us, (forall k h, sign k h <> Panic) -> like_sign_hashes sign hs us <> Panic.
Proof.
  intros sign hs us SF P. unfold like_sign_hashes in P. apply bind_panics in P as [P|(l & _ & P)]; [|exact (sign_all_fine sign SF _ _ P)]. revert P. apply mapr_fine. intros x _. apply hex_decode_not_panic.
Qed.

(** ** Concrete cases *)
Definition ex_cut : lunlock := ex_like_u ([0x76; 0xA9; 0x14] ++ repeat 3 20) [] 0.
(** The second of three requests has a cut lock. *)
Example cut_lock_example : hashing_crash (hex_encode (consensus_tx 2 ex_like_ins [ex_like_out] 3)) [ex_native 6; ex_cut; ex_native 7] /\
  like_create_hashes toy_hash toy_hash (hex_encode (consensus_tx 2 ex_like_ins [ex_like_out] 3)) [ex_native 6; ex_cut; ex_native 7] = Panic /\
  like_sign_raw toy_hash toy_hash ex_sign (hex_encode (consensus_tx 2 ex_like_ins [ex_like_out] 3)) [ex_native 6; ex_cut; ex_native 7] = Panic.
Proof.
  assert (P : like_create_hashes toy_hash toy_hash (hex_encode (consensus_tx 2 ex_like_ins [ex_like_out] 3)) [ex_native 6; ex_cut; ex_native 7] = Panic) by (vm_compute; reflexivity).
  split; [exact (proj1 (like_hashing_crashes_exactly _ _ _ _) P)|]. split; [exact P|vm_compute; reflexivity].
Qed.
(** An unreadable lock before the cut one is refused. *)
Example cut_after_bad_example : like_create_hashes toy_hash toy_hash (hex_encode (consensus_tx 2 ex_like_ins [ex_like_out] 3)) [ex_like_u [1] [] 0; ex_cut; ex_native 7] = Err.
Proof. vm_compute. reflexivity. Qed.
Example sign_assumptions_example : sign_ok ex_sign /\ forall k h, ex_sign k h <> Panic.
Proof. split; [exact ex_sign_ok|discriminate]. Qed.
Print Assumptions like_hashing_crashes_exactly.
Print Assumptions like_signing_crashes_exactly.
Print Assumptions like_hash_signing_never_crashes.
