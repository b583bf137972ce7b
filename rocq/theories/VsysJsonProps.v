(** C131: the JSON text of a V Systems payment. *)
From Coq Require Import String ZArith List Bool Lia ZifyBool ZifyNat.
From Verif Require Import Go GoFacts GoFacts2 Codes Rd Reader Base58Model Base58Spec Base58CheckModel Base58CheckSpec Base58CheckProofs Base58Props Base58CheckProps Toy GoJson Json GoUnjson GoUnjsonFacts JsonGrammar JsonGrammarProps VsysModel VsysProps VsysJsonModel FilenetJsonProps.
Import ListNotations.
Open Scope Z_scope.
Ltac Zify.zify_post_hook ::= idtac.

(** ** Specification *)
(** A value that is a payment with these members. *)
Definition payment_val (time amount fee scale : Z) (recipient pub sig : list Z) (v : jval) : Prop :=
  exists a f s n, number amount a /\ number fee f /\ number scale s /\ number time n /\
    v = VObj [(str "amount", a); (str "attachment", VStr []); (str "fee", f); (str "feeScale", s); (str "recipient", VStr recipient); (str "senderPublicKey", VStr pub); (str "signature", VStr sig); (str "timestamp", n)].

(** ** Proofs *)
Lemma encoded_ascii b s : is_bytes b -> base58_encode btc_alphabet b = Ok s -> is_base58_of btc_alphabet_str b s /\ Forall (fun c => 0 <= c < 128) s.
Proof.
  intros B E. destruct (base58_encode_positional _ _ _ btc_alphabet_ok btc_alphabet_new B) as (s' & E' & P). assert (s' = s) by congruence. subst s'. split; [exact P|]. eapply base58_text_ascii. exact P.
Qed.
Ltac obj := apply gr_object; repeat match goal with |- Forall2 _ [] [] => constructor | |- Forall2 _ (_ :: _) (_ :: _) => constructor; [split; [reflexivity|split; [reflexivity|cbn [snd]; first [apply gr_number|apply gr_asc; assumption|idtac]]]|] end.
Lemma payment_tail b ts n : is_bytes b -> tx_decode btc_alphabet b = Ok (ts, n) -> 0 <= n < 2 ^ 64 /\ 0 <= v_amount ts < 2 ^ 64 /\ 0 <= v_fee ts < 2 ^ 64 /\ 0 <= v_scale ts < 2 ^ 16 /\ Forall (fun c => 0 <= c < 128) (v_to ts) /\ v_attachment ts = [].
Proof.
  intros B E. unfold tx_decode in E. apply need1_inv in E as (t & r & -> & E). apply is_bytes_cons in B as [_ B].
  apply need_inv in E as (x1 & r1 & -> & L1 & E); [|lia]. apply is_bytes_app in B as [B1 B]. apply need_inv in E as (x2 & r2 & -> & L2 & E); [|lia]. apply is_bytes_app in B as [B2 B]. apply need_inv in E as (x3 & r3 & -> & L3 & E); [|lia]. apply is_bytes_app in B as [B3 B]. apply need_inv in E as (x4 & r4 & -> & L4 & E); [|lia]. apply is_bytes_app in B as [B4 B].
  apply need_inv in E as (to & r5 & -> & L5 & E); [|lia]. apply is_bytes_app in B as [B5 B]. apply bind_ok in E as (s & Es & E). apply need_inv in E as (att & r6 & -> & L6 & E); [|lia]. apply bind_ok in E as (a0 & E0 & E). apply bind_ok in E as (a1 & E1 & E). destruct ((a0 =? 0) && (a1 =? 0)); [|discriminate]. destruct (negb (zlen r6 =? 0)); [discriminate|].
  assert (X : ts = {| v_type := t; v_to := s; v_amount := be_num x2; v_fee := be_num x3; v_scale := be_num x4; v_attachment := [] |} /\ n = be_num x1) . { apply (f_equal (fun x => match x with Ok v => v | _ => (ts, n) end)) in E. cbv beta iota in E. pose proof (f_equal fst E) as X1. pose proof (f_equal snd E) as X2. cbn [fst snd] in X1, X2. split; symmetry; assumption. } destruct X as [-> ->]. cbn [v_amount v_fee v_scale v_to v_attachment].
  pose proof (be_num_bound _ B1) as Q1. pose proof (be_num_bound _ B2) as Q2. pose proof (be_num_bound _ B3) as Q3. pose proof (be_num_bound _ B4) as Q4. rewrite L1 in Q1. rewrite L2 in Q2. rewrite L3 in Q3. rewrite L4 in Q4.
  split; [exact Q1|]. split; [exact Q2|]. split; [exact Q3|]. split; [exact Q4|]. split; [|reflexivity]. exact (proj2 (encoded_ascii to s B5 Es)).
Qed.

(** C131: a text exists exactly when the bytes are a payment, and then it is that payment, with the Base58 texts of the key and the signature. *)
Theorem vsys_text_iff : forall raw pub sig, is_bytes pub -> is_bytes sig ->
  (forall b ts n, hex_decode raw = Ok b -> tx_decode btc_alphabet b = Ok (ts, n) ->
    exists text v k s, json_text btc_alphabet raw pub sig = Ok text /\ is_json text v /\ payment_val n (v_amount ts) (v_fee ts) (v_scale ts) (v_to ts) k s v /\
      is_base58_of btc_alphabet_str pub k /\ is_base58_of btc_alphabet_str sig s) /\
  (forall text, json_text btc_alphabet raw pub sig = Ok text -> exists b ts n, hex_decode raw = Ok b /\ tx_decode btc_alphabet b = Ok (ts, n)).
Proof.
  intros raw pub sig Bp Bs. unfold json_text, json_body. split.
  - intros b ts n Eh Et. rewrite Eh. cbn [bind]. rewrite Et. cbn [bind]. apply hex_decode_bytes in Eh as [Bb _]. destruct (payment_tail b ts n Bb Et) as (Rn & Ra & Rf & Rs & At & Aa).
    destruct (base58_encode_positional _ _ _ btc_alphabet_ok btc_alphabet_new Bp) as (k & Ek & Pk). destruct (base58_encode_positional _ _ _ btc_alphabet_ok btc_alphabet_new Bs) as (s & Es & Ps). rewrite Ek. cbn [bind]. rewrite Es. cbn [bind].
    pose proof (base58_text_ascii _ _ Pk) as Ak. pose proof (base58_text_ascii _ _ Ps) as As. rewrite Aa.
    pose proof (Forall_nil (fun c => 0 <= c < 128)) as A0.
    exists (body_json {| j_timestamp := n; j_amount := v_amount ts; j_fee := v_fee ts; j_scale := v_scale ts; j_recipient := v_to ts; j_key := k; j_attachment := []; j_signature := s |}), (VObj [(str "amount", VNum (format_int (v_amount ts))); (str "attachment", VStr []); (str "fee", VNum (format_int (v_fee ts))); (str "feeScale", VNum (format_int (v_scale ts))); (str "recipient", VStr (v_to ts)); (str "senderPublicKey", VStr k); (str "signature", VStr s); (str "timestamp", VNum (format_int n))]), k, s. split; [reflexivity|]. split; [apply unjson_iff_json, gr_text; unfold body_json; cbn [j_timestamp j_amount j_fee j_scale j_recipient j_key j_attachment j_signature]; obj|].
    split; [|split; assumption]. eexists _, _, _, _. split; [apply number_format; lia|]. split; [apply number_format; lia|]. split; [apply number_format; lia|]. split; [apply number_format; lia|]. reflexivity.
  - intros text E. apply bind_ok in E as (j & E & _). apply bind_ok in E as (b & Eb & E). apply bind_ok in E as ([ts n] & Et & _). eauto.
Qed.
(** C131: create, sign, send: what is signed verifies, and the text carries exactly what was asked for. *)
Theorem vsys_text_flow : forall H now ts p raw sign public verify key sig pub,
  hash_ok H -> typed ts -> 0 <= now < 2 ^ 63 -> v_attachment ts = [] -> text_of H p (v_to ts) -> zlen p = 22 ->
  (forall d s, sign key d = Some s -> is_bytes s /\ verify (public key) d s = true) -> is_bytes (public key) ->
  create btc_alphabet H now ts = Ok raw -> sign_tx sign public raw key = Ok (sig, pub) ->
  verify_tx verify raw pub sig = true /\
  exists text v k s, json_text btc_alphabet raw pub sig = Ok text /\ is_json text v /\ payment_val (stamp now) (v_amount ts) (v_fee ts) (v_scale ts) (v_to ts) k s v /\
    is_base58_of btc_alphabet_str pub k /\ is_base58_of btc_alphabet_str sig s.
Proof.
  intros H now ts p raw sign public verify key sig pub HH T N A P L SV Bp E G. unfold sign_tx in G. apply bind_ok in G as (b & Eb & G). destruct (sign key b) as [s|] eqn:Es; [|discriminate]. assert (s = sig) by congruence. assert (pub = public key) by congruence. subst s pub. destruct (SV _ _ Es) as [Bs V].
  split; [unfold verify_tx; rewrite Eb; exact V|]. destruct (payment_decodes_back H now ts raw b p HH T N A P L E Eb) as [D _]. exact (proj1 (vsys_text_iff raw (public key) sig Bp Bs) b ts (stamp now) Eb D).
Qed.
(** C131: a payment with an attachment is signed without it and can then not be sent. *)
Theorem vsys_attachment_unsendable : forall H now ts p raw pub sig, hash_ok H -> typed ts -> 0 <= now < 2 ^ 63 -> v_attachment ts <> [] -> text_of H p (v_to ts) -> zlen p = 22 ->
  create btc_alphabet H now ts = Ok raw -> json_text btc_alphabet raw pub sig = Err.
Proof.
  intros H now ts p raw pub sig HH T N A P L E. pose proof E as E0. apply vsys_payment_created_iff in E as (q & Q & R); [|assumption..].
  assert (BB : is_bytes (head_bytes now ts ++ checked H q ++ end_bytes ts)) by (destruct Q as [Bq _]; destruct T as (Tt & _); unfold head_bytes, end_bytes; pose proof (checked_bytes H HH q Bq); destruct (v_attachment ts); bts).
  assert (D : hex_decode raw = Ok (head_bytes now ts ++ checked H q ++ end_bytes ts)) by (rewrite R; apply hex_decode_encode; exact BB).
  unfold json_text, json_body. rewrite D. cbn [bind]. destruct (attachment_lost H now ts raw _ p HH T N A P L E0 D) as [X _]. rewrite X. reflexivity.
Qed.

(** ** Example *)
Example vsys_flow_example : exists raw sig pub text v k s, create btc_alphabet toy_hash 1600000000123456789 (ex_ts []) = Ok raw /\ sign_tx (fun _ _ => Some (repeat 5 64)) (fun k => k) raw (repeat 7 32) = Ok (sig, pub) /\
  json_text btc_alphabet raw pub sig = Ok text /\ is_json text v /\ payment_val 1600000000123456000 1000000000 10000000 100 ex_to k s v.
Proof.
  destruct ex_created as (raw & E & _). assert (Bs : is_bytes (repeat 5 64)) by (cbn [repeat]; bts). assert (Bk : is_bytes (repeat 7 32)) by (cbn [repeat]; bts).
  assert (G : sign_tx (fun _ _ => Some (repeat 5 64)) (fun k => k) raw (repeat 7 32) = Ok (repeat 5 64, repeat 7 32)).
  { pose proof E as E0. apply vsys_payment_created_iff in E0 as (q & Q & R); [|exact toy_hash_ok|apply ex_ts_typed|clear; lia]. unfold sign_tx. rewrite R, hex_decode_encode; [reflexivity|]. destruct Q as [Bq _]. pose proof (checked_bytes toy_hash toy_hash_ok q Bq). destruct (ex_ts_typed []) as (Tt & _). unfold head_bytes, end_bytes. cbn [ex_ts v_attachment]. bts. }
  destruct (vsys_text_flow toy_hash 1600000000123456789 (ex_ts []) ex_payload raw (fun _ _ => Some (repeat 5 64)) (fun k => k) (fun _ _ _ => true) (repeat 7 32) (repeat 5 64) (repeat 7 32)) as (_ & text & v & k & s & J & U & V & _).
  - exact toy_hash_ok.
  - apply ex_ts_typed.
  - clear; lia.
  - reflexivity.
  - exact (proj1 ex_to_text).
  - reflexivity.
  - intros d x X. assert (x = repeat 5 64) by congruence. subst x. split; [exact Bs|reflexivity].
  - exact Bk.
  - exact E.
  - exact G.
  - exists raw, (repeat 5 64), (repeat 7 32), text, v, k, s. split; [exact E|]. split; [exact G|]. split; [exact J|]. split; [exact U|]. change (stamp 1600000000123456789) with 1600000000123456000 in V. cbn [ex_ts v_amount v_fee v_scale v_to] in V. exact V.
Qed.
Print Assumptions vsys_text_iff.
Print Assumptions vsys_text_flow.
Print Assumptions vsys_attachment_unsendable.
