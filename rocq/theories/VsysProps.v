(** C44, C77: VSYS payments. *)
From Coq Require Import ZArith List Bool Lia ZifyBool ZifyNat.
From Verif Require Import Go GoFacts GoFacts2 Codes Rd Reader Base58Model Base58Spec Base58Props Base58CheckSpec Base58CheckModel Base58CheckProofs Base58CheckProps Toy VsysModel.
Import ListNotations.
Open Scope Z_scope.
Ltac Zify.zify_post_hook ::= idtac.

(** ** Specification *)
(** Base58Check text of a payload. *)
Definition text_of (H : bytes -> bytes) (payload : bytes) (s : list Z) : Prop := is_bytes payload /\ base58_encode btc_alphabet (checked H payload) = Ok s.
Definition typed (ts : txs) : Prop :=
  is_byte (v_type ts) /\ is_bytes (v_to ts) /\ 0 <= v_amount ts < 2 ^ 64 /\ 0 <= v_fee ts < 2 ^ 64 /\ 0 <= v_scale ts < 2 ^ 16.
(** Nanoseconds, cut to microseconds. *)
Definition stamp (now : Z) : Z := now - now mod 1000.
(** The payment message of the chain: type, time, amount, fee, fee scale, 26 byte address, counted attachment. *)
Definition payment : reader (Z * Z * Z * Z * Z * bytes * bytes) :=
  t <~ rbyte ;; n <~ rbe 8 ;; a <~ rbe 8 ;; f <~ rbe 8 ;; s <~ rbe 2 ;; d <~ rtake 26 ;; l <~ rbe 2 ;; m <~ rtake l ;; rret (t, n, a, f, s, d, m).

Lemma address_iff H s r : hash_ok H -> is_bytes s -> decode_check_all btc_alphabet H s = Ok r <-> exists p, text_of H p s /\ r = checked H p.
Proof.
  intros HH Hs. unfold decode_check_all, text_of. split.
  - intros E. apply bind_ok in E as (d & Ed & E). apply bind_ok in E as (p & Ep & E). injection E as <-. destruct (base58_encode_decode _ _ _ _ btc_alphabet_ok btc_alphabet_new Hs Ed) as [Bd Ee]. apply check_split_inv in Ep as [Bp ->]; [|exact HH|exact Bd]. exists p. auto.
  - intros (p & (Bp & E) & ->). destruct (enc_checked H HH _ btc_alphabet_ok _ btc_alphabet_new p Bp) as (s' & E' & D & _). rewrite E in E'. injection E' as <-. rewrite D. cbn [bind]. rewrite check_split_checked by assumption. reflexivity.
Qed.
Lemma text_inj H p q s : hash_ok H -> is_bytes s -> text_of H p s -> text_of H q s -> p = q.
Proof.
  intros HH Hs P Q. assert (A : decode_check_all btc_alphabet H s = Ok (checked H p)) by (apply address_iff; eauto). assert (B : decode_check_all btc_alphabet H s = Ok (checked H q)) by (apply address_iff; eauto).
  rewrite A in B. injection B as E. destruct P, Q. eapply checked_inj; eassumption.
Qed.
Definition head_bytes (now : Z) (ts : txs) : bytes := v_type ts :: be_bytes 8 (stamp now) ++ be_bytes 8 (v_amount ts) ++ be_bytes 8 (v_fee ts) ++ be_bytes 2 (v_scale ts).
Lemma eta ts : v_attachment ts = [] -> {| v_type := v_type ts; v_to := v_to ts; v_amount := v_amount ts; v_fee := v_fee ts; v_scale := v_scale ts; v_attachment := [] |} = ts.
Proof. destruct ts as [x1 x2 x3 x4 x5 x6]. cbn [v_attachment]. intros ->. reflexivity. Qed.
Definition end_bytes (ts : txs) : bytes := match v_attachment ts with [] => [0; 0] | _ => [] end.
Lemma stamp_eq now : 0 <= now < 2 ^ 63 -> u64 (now / 1000 * 1000) = stamp now /\ 0 <= stamp now < 2 ^ 64.
Proof. intros B. unfold u64, stamp. assert (Q : now / 1000 * 1000 = now - now mod 1000) by (Z.div_mod_to_equations; lia). rewrite Q. assert (0 <= now - now mod 1000 <= now) by (Z.div_mod_to_equations; lia). rewrite Z.mod_small by lia. lia. Qed.
(** ** What is created *)
Theorem vsys_payment_created_iff : forall H now ts raw, hash_ok H -> typed ts -> 0 <= now < 2 ^ 63 ->
  create btc_alphabet H now ts = Ok raw <-> exists p, text_of H p (v_to ts) /\ raw = hex_encode (head_bytes now ts ++ checked H p ++ end_bytes ts).
Proof.
  intros H now ts raw HH (Tt & Bt & _) N. destruct (stamp_eq now N) as [S _]. unfold create. rewrite S. split.
  - intros E. apply bind_ok in E as (r & Er & E). apply address_iff in Er as (p & P & ->); [|assumption..]. exists p. split; [exact P|]. apply (f_equal (fun x => match x with Ok v => v | _ => [] end)) in E. cbv beta iota in E. rewrite <- E. f_equal. unfold head_bytes, end_bytes. destruct (v_attachment ts); rewrite ?app_nil_r, ?app_assoc; reflexivity.
  - intros (p & P & ->). assert (E : decode_check_all btc_alphabet H (v_to ts) = Ok (checked H p)) by (apply address_iff; eauto). rewrite E. cbn [bind]. do 2 f_equal. unfold head_bytes, end_bytes. destruct (v_attachment ts); rewrite ?app_nil_r, ?app_assoc; reflexivity.
Qed.
Lemma decode_all_bytes H s : is_bytes s -> decode_check_all btc_alphabet H s = Panic -> hash_ok H -> exists r, base58_decode btc_alphabet s = Ok r /\ zlen r < 4.
Proof.
  intros Hs E HH. unfold decode_check_all in E. destruct (base58_decode btc_alphabet s) as [r| |] eqn:D; [|discriminate|destruct (base58_decode_never_panics _ _ s btc_alphabet_ok btc_alphabet_new Hs) as [Q _]; contradiction].
  cbn [bind] in E. destruct (base58_encode_decode _ _ _ _ btc_alphabet_ok btc_alphabet_new Hs D) as [Br _]. exists r. split; [reflexivity|]. destruct (check_split_cases H HH r Br) as [[L _]|[[_ (d & _ & _ & C)]|[_ [_ C]]]]; [exact L|rewrite C in E; discriminate..].
Qed.
(** Creation crashes exactly on addresses of fewer than four bytes. *)
Theorem create_panics_iff : forall H now ts, hash_ok H -> typed ts -> create btc_alphabet H now ts = Panic <-> exists r, base58_decode btc_alphabet (v_to ts) = Ok r /\ zlen r < 4.
Proof.
  intros H now ts HH (_ & Bt & _). unfold create. split.
  - intros E. destruct (decode_check_all btc_alphabet H (v_to ts)) as [r| |] eqn:D; [discriminate E..|]. eapply decode_all_bytes; eassumption.
  - intros (r & D & L). unfold decode_check_all. rewrite D. cbn [bind]. destruct (base58_encode_decode _ _ _ _ btc_alphabet_ok btc_alphabet_new Bt D) as [Br _]. destruct (check_split_cases H HH r Br) as [[_ C]|[[L' _]|[L' _]]]; [rewrite C; reflexivity|lia..].
Qed.
Lemma decode_head now ts rest : typed ts -> 0 <= stamp now < 2 ^ 64 -> tx_decode btc_alphabet (head_bytes now ts ++ rest) =
  need 26 rest (fun to tx => s <- base58_encode btc_alphabet to ;; need 2 tx (fun att tx => a0 <- idx att 0 ;; a1 <- idx att 1 ;;
    if (a0 =? 0) && (a1 =? 0) then (if negb (zlen tx =? 0) then Err else Ok ({| v_type := v_type ts; v_to := s; v_amount := v_amount ts; v_fee := v_fee ts; v_scale := v_scale ts; v_attachment := [] |}, stamp now)) else Err)).
Proof.
  intros (Tt & _ & Ta & Tf & Ts) S. unfold head_bytes. cbn [app]. rewrite <- !app_assoc. unfold tx_decode. cbn [need1]. rewrite !need_app by (rewrite zlen_be_bytes; reflexivity).
  rewrite !be_num_of_small; [reflexivity|change (256 ^ Z.of_nat 2) with (2 ^ 16)|change (256 ^ Z.of_nat 8) with (2 ^ 64)..]; assumption.
Qed.
(** ** C44: round trip *)
Theorem payment_decodes_back : forall H now ts raw b p, hash_ok H -> typed ts -> 0 <= now < 2 ^ 63 -> v_attachment ts = [] -> text_of H p (v_to ts) -> zlen p = 22 ->
  create btc_alphabet H now ts = Ok raw -> hex_decode raw = Ok b -> tx_decode btc_alphabet b = Ok (ts, stamp now) /\
    rwhole payment b = Some (v_type ts, stamp now, v_amount ts, v_fee ts, v_scale ts, checked H p, []).
Proof.
  intros H now ts raw b p HH T N A P L E D. destruct (stamp_eq now N) as [_ S]. apply vsys_payment_created_iff in E as (q & Q & ->); [|assumption..]. pose proof T as (Tt & Bt & Ta & Tf & Ts). assert (q = p) by (eapply text_inj; eassumption). subst q. destruct P as [Bp Ep].
  assert (BB : is_bytes (head_bytes now ts ++ checked H p ++ end_bytes ts)) by (unfold head_bytes, end_bytes; rewrite A; pose proof (checked_bytes H HH p Bp); bts).
  rewrite hex_decode_encode in D by exact BB. apply (f_equal (fun x => match x with Ok v => v | _ => [] end)) in D. cbv beta iota in D. subst b. unfold end_bytes. rewrite A. split.
  - rewrite decode_head by assumption. rewrite need_app by (rewrite checked_len by assumption; lia). rewrite Ep. cbn [bind]. change [0; 0] with ([0; 0] ++ @nil Z). rewrite need_app by reflexivity. change (idx [0; 0] 0) with (@Ok Z 0). change (idx [0; 0] 1) with (@Ok Z 0). cbn [bind]. change (zlen (@nil Z)) with 0. cbv iota. rewrite eta by exact A. reflexivity.
  - apply reads_whole. unfold head_bytes. change (v_type ts :: ?r) with ([v_type ts] ++ r). rewrite <- !app_assoc. unfold payment.
    eapply reads_bind; [apply reads_byte|]. eapply reads_bind; [apply (reads_be 8); [lia|exact S]|]. eapply reads_bind; [apply (reads_be 8); [lia|exact Ta]|]. eapply reads_bind; [apply (reads_be 8); [lia|exact Tf]|]. eapply reads_bind; [apply (reads_be 2); [lia|exact Ts]|]. eapply reads_bind; [apply reads_take; rewrite checked_len by assumption; lia|].
    change [0; 0] with ([0; 0] ++ @nil Z). eapply reads_bind; [apply (reads_be 2 0); lia|]. apply (reads_last (rtake 0) (fun m => (v_type ts, stamp now, v_amount ts, v_fee ts, v_scale ts, checked H p, m))). apply reads_take. reflexivity.
Qed.
(** Nothing is written of a non-empty attachment, and the result does not decode. *)
Theorem attachment_lost : forall H now ts raw b p, hash_ok H -> typed ts -> 0 <= now < 2 ^ 63 -> v_attachment ts <> [] -> text_of H p (v_to ts) -> zlen p = 22 ->
  create btc_alphabet H now ts = Ok raw -> hex_decode raw = Ok b -> tx_decode btc_alphabet b = Err /\
  forall ts', v_attachment ts' <> [] -> v_type ts' = v_type ts -> v_to ts' = v_to ts -> v_amount ts' = v_amount ts -> v_fee ts' = v_fee ts -> v_scale ts' = v_scale ts -> create btc_alphabet H now ts' = Ok raw.
Proof.
  intros H now ts raw b p HH T N A P L E D. destruct (stamp_eq now N) as [_ S]. pose proof E as E0. apply vsys_payment_created_iff in E as (q & Q & ->); [|assumption..]. pose proof T as (Tt & Bt & Ta & Tf & Ts). assert (q = p) by (eapply text_inj; eassumption). subst q. destruct P as [Bp Ep].
  assert (EB : end_bytes ts = []) by (unfold end_bytes; destruct (v_attachment ts); [contradiction|reflexivity]). rewrite EB, app_nil_r in *.
  assert (BB : is_bytes (head_bytes now ts ++ checked H p)) by (unfold head_bytes; pose proof (checked_bytes H HH p Bp); bts).
  rewrite hex_decode_encode in D by exact BB. apply (f_equal (fun x => match x with Ok v => v | _ => [] end)) in D. cbv beta iota in D. subst b. split.
  - rewrite decode_head by assumption. rewrite <- (app_nil_r (checked H p)). rewrite need_app by (rewrite checked_len by assumption; lia). rewrite Ep. reflexivity.
  - intros ts' A' E1 E2 E3 E4 E5. apply vsys_payment_created_iff; [exact HH|unfold typed; rewrite E1, E2, E3, E4, E5; exact T|exact N|]. exists p. rewrite E2. split; [split; assumption|]. f_equal. unfold head_bytes, end_bytes. rewrite E1, E3, E4, E5. destruct (v_attachment ts'); [contradiction|]. rewrite app_nil_r. reflexivity.
Qed.
(** Whatever the address and attachment: the decoder gives back the address asked for only in the case of the first theorem. *)
Theorem decodes_back_only_if : forall H now ts raw b ts' n, hash_ok H -> typed ts -> 0 <= now < 2 ^ 63 ->
  create btc_alphabet H now ts = Ok raw -> hex_decode raw = Ok b -> tx_decode btc_alphabet b = Ok (ts', n) -> v_to ts' = v_to ts -> v_attachment ts = [] /\ ts' = ts /\ n = stamp now.
Proof.
  intros H now ts raw b ts' n HH T N E D X EQ. destruct (stamp_eq now N) as [_ S]. pose proof T as (Tt & Bt & Ta & Tf & Ts). apply vsys_payment_created_iff in E as (p & [Bp Ep] & ->); [|assumption..].
  assert (BB : is_bytes (head_bytes now ts ++ checked H p ++ end_bytes ts)) by (unfold head_bytes, end_bytes; pose proof (checked_bytes H HH p Bp); destruct (v_attachment ts); bts).
  rewrite hex_decode_encode in D by exact BB. apply (f_equal (fun x => match x with Ok v => v | _ => [] end)) in D. cbv beta iota in D. subst b. rewrite decode_head in X by assumption.
  apply need_inv in X as (to & r & Er & Lt & X); [|lia]. apply bind_ok in X as (s & Es & X). apply need_inv in X as (att & r2 & -> & La & X); [|lia]. apply bind_ok in X as (a0 & E0 & X). apply bind_ok in X as (a1 & E1 & X).
  destruct ((a0 =? 0) && (a1 =? 0)) eqn:Z0; [|discriminate]. destruct (zlen r2 =? 0) eqn:L2; [|discriminate]. assert (r2 = []) by (destruct r2; [reflexivity|rewrite zlen_cons in L2; pose proof (zlen_nonneg r2); lia]). subst r2. rewrite app_nil_r in Er.
  injection X as <- <-. cbn [v_to] in EQ. subst s. assert (Bo : is_bytes to /\ is_bytes att) by (unfold end_bytes in *; pose proof (checked_bytes H HH p Bp); assert (B2 : is_bytes (to ++ att)) by (rewrite <- Er; destruct (v_attachment ts); bts); apply is_bytes_app in B2; exact B2).
  destruct (base58_decode_encode _ _ to btc_alphabet_ok btc_alphabet_new (proj1 Bo)) as (s1 & F1 & G1). destruct (base58_decode_encode _ _ (checked H p) btc_alphabet_ok btc_alphabet_new (checked_bytes H HH p Bp)) as (s2 & F2 & G2).
  assert (TO : to = checked H p) by congruence. subst to. apply app_inv_head in Er. destruct (v_attachment ts) eqn:A; [|unfold end_bytes in Er; rewrite A in Er; subst att; change (zlen (@nil Z)) with 0 in La; lia].
  split; [reflexivity|]. split; [|reflexivity]. apply eta. exact A.
Qed.
(** Every accepted message is of the chain's format, with an empty attachment. *)
Theorem decoder_accepts_only_payments : forall b ts n, is_bytes b -> tx_decode btc_alphabet b = Ok (ts, n) ->
  exists d, rwhole payment b = Some (v_type ts, n, v_amount ts, v_fee ts, v_scale ts, d, []) /\ base58_encode btc_alphabet d = Ok (v_to ts) /\ v_attachment ts = [].
Proof.
  intros b ts n B X. unfold tx_decode in X. apply need1_inv in X as (t & r & -> & X). apply need_inv in X as (x1 & r1 & -> & L1 & X); [|lia]. apply need_inv in X as (x2 & r2 & -> & L2 & X); [|lia]. apply need_inv in X as (x3 & r3 & -> & L3 & X); [|lia]. apply need_inv in X as (x4 & r4 & -> & L4 & X); [|lia].
  apply need_inv in X as (to & r & -> & Lt & X); [|lia]. apply bind_ok in X as (s & Es & X). apply need_inv in X as (att & r5 & -> & La & X); [|lia]. apply bind_ok in X as (a0 & E0 & X). apply bind_ok in X as (a1 & E1 & X).
  destruct ((a0 =? 0) && (a1 =? 0)) eqn:Z0; [|discriminate]. destruct (zlen r5 =? 0) eqn:L5; [|discriminate]. assert (r5 = []) by (destruct r5; [reflexivity|rewrite zlen_cons in L5; pose proof (zlen_nonneg r5); lia]). subst r5. injection X as <- <-. cbn [v_type v_amount v_fee v_scale v_to v_attachment].
  assert (att = [0; 0]). { destruct att as [|x [|y [|z att]]]; try (unfold zlen in La; cbn [length] in La; lia). cbn in E0, E1. injection E0 as ->. injection E1 as ->. f_equal; [lia|f_equal; lia]. } subst att.
  exists to. split; [|auto]. apply reads_whole. change (t :: ?r) with ([t] ++ r). unfold payment.
  assert (RB : forall n x, zlen x = n -> reads (rbe n) x (be_num x)) by (intros n x Lx; apply (reads_last (rtake n) be_num); apply reads_take; exact Lx).
  eapply reads_bind; [apply reads_byte|]. eapply reads_bind; [apply RB; exact L1|]. eapply reads_bind; [apply RB; exact L2|]. eapply reads_bind; [apply RB; exact L3|]. eapply reads_bind; [apply RB; exact L4|]. eapply reads_bind; [apply reads_take; exact Lt|]. eapply reads_bind; [apply RB; reflexivity|].
  apply (reads_last (rtake 0) (fun m => (t, be_num x1, be_num x2, be_num x3, be_num x4, to, m))). apply reads_take. reflexivity.
Qed.
(** C44. Exactly the accepted bytes, each read as one transaction; no bytes make the decoder panic. *)
Theorem vsys_decode_iff : forall b ts n, is_bytes b ->
  (tx_decode btc_alphabet b = Ok (ts, n) <->
   exists to, b = v_type ts :: be_bytes 8 n ++ be_bytes 8 (v_amount ts) ++ be_bytes 8 (v_fee ts) ++ be_bytes 2 (v_scale ts) ++ to ++ [0; 0] /\
     zlen to = 26 /\ base58_encode btc_alphabet to = Ok (v_to ts) /\ v_attachment ts = [] /\
     0 <= n < 2 ^ 64 /\ 0 <= v_amount ts < 2 ^ 64 /\ 0 <= v_fee ts < 2 ^ 64 /\ 0 <= v_scale ts < 2 ^ 16).
Proof.
  intros b ts n B. split.
  - intros X. unfold tx_decode in X. apply need1_inv in X as (t & r & -> & X). apply need_inv in X as (x1 & r1 & -> & L1 & X); [|lia]. apply need_inv in X as (x2 & r2 & -> & L2 & X); [|lia]. apply need_inv in X as (x3 & r3 & -> & L3 & X); [|lia]. apply need_inv in X as (x4 & r4 & -> & L4 & X); [|lia].
    apply need_inv in X as (to & r & -> & Lt & X); [|lia]. apply bind_ok in X as (s & Es & X). apply need_inv in X as (att & r5 & -> & La & X); [|lia]. apply bind_ok in X as (a0 & E0 & X). apply bind_ok in X as (a1 & E1 & X).
    destruct ((a0 =? 0) && (a1 =? 0)) eqn:Z0; [|discriminate]. destruct (zlen r5 =? 0) eqn:L5; [|discriminate]. assert (r5 = []) by (destruct r5; [reflexivity|rewrite zlen_cons in L5; pose proof (zlen_nonneg r5); lia]). subst r5. injection X as <- <-. cbn [v_type v_amount v_fee v_scale v_to v_attachment].
    assert (att = [0; 0]). { destruct att as [|x [|y [|z att]]]; try (unfold zlen in La; cbn [length] in La; lia). cbn in E0, E1. injection E0 as ->. injection E1 as ->. f_equal; [lia|f_equal; lia]. } subst att.
    apply is_bytes_cons in B as [_ B]. apply is_bytes_app in B as [B1 B]. apply is_bytes_app in B as [B2 B]. apply is_bytes_app in B as [B3 B]. apply is_bytes_app in B as [B4 _].
    assert (Q : forall k x, is_bytes x -> zlen x = Z.of_nat k -> be_bytes k (be_num x) = x /\ 0 <= be_num x < 256 ^ Z.of_nat k) by (intros k x Bx Lx; split; [replace k with (length x) by (unfold zlen in Lx; lia); apply be_bytes_be_num; exact Bx|rewrite <- Lx; apply be_num_bound; exact Bx]).
    destruct (Q 8%nat x1 B1 L1) as [-> R1]. destruct (Q 8%nat x2 B2 L2) as [-> R2]. destruct (Q 8%nat x3 B3 L3) as [-> R3]. destruct (Q 2%nat x4 B4 L4) as [-> R4].
    exists to. split; [reflexivity|]. split; [exact Lt|]. split; [exact Es|]. split; [reflexivity|]. change (2 ^ 64) with (256 ^ Z.of_nat 8). change (2 ^ 16) with (256 ^ Z.of_nat 2). repeat split; assumption || apply R1 || apply R2 || apply R3 || apply R4.
  - intros (to & -> & Lt & Es & A & R1 & R2 & R3 & R4). unfold tx_decode. cbn [need1]. rewrite !need_app by (rewrite zlen_be_bytes; reflexivity). rewrite need_app by exact Lt. rewrite Es. cbn [bind]. change [0; 0] with ([0; 0] ++ @nil Z). rewrite need_app by reflexivity. change (idx [0; 0] 0) with (@Ok Z 0). change (idx [0; 0] 1) with (@Ok Z 0). cbn [bind]. change (zlen (@nil Z)) with 0. cbn [Z.eqb andb negb].
    rewrite !be_num_of_small; [|change (256 ^ Z.of_nat 2) with (2 ^ 16)|change (256 ^ Z.of_nat 8) with (2 ^ 64)..]; try assumption. rewrite eta by exact A. reflexivity.
Qed.
Theorem vsys_decode_never_panics : forall b, is_bytes b -> tx_decode btc_alphabet b <> Panic.
Proof.
  intros b B X. unfold tx_decode in X. destruct b as [|t b]; [discriminate|]. cbn [need1] in X. apply is_bytes_cons in B as [_ B].
  assert (P : forall A k r (f : bytes -> bytes -> res A), need k r f = Panic -> 0 <= k -> is_bytes r -> exists a c, r = a ++ c /\ zlen a = k /\ is_bytes a /\ is_bytes c /\ f a c = Panic).
  { intros A k r f E K Br. unfold need in E. destruct (zlen r <? k) eqn:L; [discriminate|]. exists (firstn (Z.to_nat k) r), (skipn (Z.to_nat k) r). rewrite <- (firstn_skipn (Z.to_nat k) r) in Br. apply is_bytes_app in Br as [Ba Bc]. split; [symmetry; apply firstn_skipn|]. split; [unfold zlen in *; rewrite firstn_length; lia|auto]. }
  do 4 (let B2 := fresh in apply P in X as (? & ? & -> & _ & _ & B2 & X); [|lia|exact B]; clear B; rename B2 into B). apply P in X as (to & r & -> & _ & Bt & B' & X); [|lia|exact B].
  destruct (base58_decode_encode _ _ to btc_alphabet_ok btc_alphabet_new Bt) as (k & Ek & _). rewrite Ek in X. cbn [bind] in X. apply P in X as (att & q & -> & La & _ & _ & X); [|lia|exact B'].
  destruct att as [|u [|v [|z att]]]; try (unfold zlen in La; cbn [length] in La; lia). change (idx [u; v] 0) with (@Ok Z u) in X. change (idx [u; v] 1) with (@Ok Z v) in X. cbn [bind] in X. destruct (_ && _); [destruct (negb _)|]; discriminate.
Qed.
(** ** C77: what is signed, and what is sent *)
Theorem verified_iff_text_signed : forall verify b pub sig, is_bytes b -> verify_tx verify (hex_encode b) pub sig = verify pub b sig.
Proof. intros verify b pub sig B. unfold verify_tx. rewrite hex_decode_encode by exact B. reflexivity. Qed.
Theorem sent_is_signed : forall H now ts raw p pub sig, hash_ok H -> typed ts -> 0 <= now < 2 ^ 63 -> v_attachment ts = [] -> text_of H p (v_to ts) -> zlen p = 22 -> is_bytes pub -> is_bytes sig ->
  create btc_alphabet H now ts = Ok raw -> exists j, json_body btc_alphabet raw pub sig = Ok j /\
    j_timestamp j = stamp now /\ j_amount j = v_amount ts /\ j_fee j = v_fee ts /\ j_scale j = v_scale ts /\ j_recipient j = v_to ts /\ j_attachment j = [] /\
    base58_decode btc_alphabet (j_key j) = Ok pub /\ base58_decode btc_alphabet (j_signature j) = Ok sig.
Proof.
  intros H now ts raw p pub sig HH T N A P L Bp Bs E. pose proof E as E0. apply vsys_payment_created_iff in E as (q & Q & R); [|assumption..].
  assert (BB : is_bytes (head_bytes now ts ++ checked H q ++ end_bytes ts)) by (destruct Q as [Bq _]; destruct T as (Tt & _); unfold head_bytes, end_bytes; rewrite A; pose proof (checked_bytes H HH q Bq); bts).
  assert (D : hex_decode raw = Ok (head_bytes now ts ++ checked H q ++ end_bytes ts)) by (rewrite R; apply hex_decode_encode; exact BB).
  destruct (payment_decodes_back H now ts raw _ p HH T N A P L E0 D) as [X _].
  destruct (base58_decode_encode _ _ pub btc_alphabet_ok btc_alphabet_new Bp) as (k & Ek & Dk). destruct (base58_decode_encode _ _ sig btc_alphabet_ok btc_alphabet_new Bs) as (s & Es & Ds).
  unfold json_body. rewrite D. cbn [bind]. rewrite X. cbn [bind]. rewrite Ek. cbn [bind]. rewrite Es. cbn [bind]. eexists. split; [reflexivity|]. cbn [j_timestamp j_amount j_fee j_scale j_recipient j_key j_attachment j_signature]. repeat (split; [first [reflexivity|exact A|exact Dk]|]). exact Ds.
Qed.

(** ** Examples *)
Definition ex_payload : bytes := 5 :: 77 :: repeat 9 20.
Definition ex_to : list Z := match base58_encode btc_alphabet (checked toy_hash ex_payload) with Ok s => s | _ => [] end.
Definition ex_ts (att : list Z) : txs := {| v_type := 2; v_to := ex_to; v_amount := 1000000000; v_fee := 10000000; v_scale := 100; v_attachment := att |}.
Example ex_to_text : text_of toy_hash ex_payload ex_to /\ zlen ex_payload = 22.
Proof. split; [|reflexivity]. split; [unfold ex_payload; cbn [repeat]; bts|]. vm_compute. reflexivity. Qed.
Example ex_ts_typed att : typed (ex_ts att).
Proof.
  unfold typed, ex_ts. cbn [v_type v_to v_amount v_fee v_scale v_attachment]. split; [apply byte_lit; reflexivity|]. split; [|lia].
  assert (B : forallb (fun c => (0 <=? c) && (c <? 256)) ex_to = true) by (vm_compute; reflexivity). apply Forall_forall. intros c Hc. rewrite forallb_forall in B. specialize (B c Hc). unfold is_byte. lia.
Qed.
Example ex_created : exists raw, create btc_alphabet toy_hash 1600000000123456789 (ex_ts []) = Ok raw /\ exists raw', create btc_alphabet toy_hash 1600000000123456789 (ex_ts [7]) = Ok raw'.
Proof.
  eexists. split; [apply vsys_payment_created_iff; [exact toy_hash_ok|apply ex_ts_typed|lia|]; exists ex_payload; split; [exact (proj1 ex_to_text)|reflexivity]|].
  eexists. apply vsys_payment_created_iff; [exact toy_hash_ok|apply ex_ts_typed|lia|]. exists ex_payload. split; [exact (proj1 ex_to_text)|reflexivity].
Qed.
Example ex_short : create btc_alphabet toy_hash 0 {| v_type := 2; v_to := [50]; v_amount := 1; v_fee := 1; v_scale := 100; v_attachment := [] |} = Panic.
Proof. vm_compute. reflexivity. Qed.
Print Assumptions vsys_payment_created_iff.
Print Assumptions create_panics_iff.
Print Assumptions payment_decodes_back.
Print Assumptions attachment_lost.
Print Assumptions decodes_back_only_if.
Print Assumptions decoder_accepts_only_payments.
Print Assumptions verified_iff_text_signed.
Print Assumptions sent_is_signed.
Print Assumptions vsys_decode_iff.
Print Assumptions vsys_decode_never_panics.
