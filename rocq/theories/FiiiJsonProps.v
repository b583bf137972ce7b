(** C129: the JSON texts of fiiiTransaction. *)
From Coq Require Import String ZArith List Bool Lia ZifyBool ZifyNat.
From Verif Require Import Go GoFacts GoFacts2 Codes Rd Reader Base58Model Base58Spec Base58CheckModel Base58CheckSpec Base58CheckProofs Base58Props Base58CheckProps GoJson Json GoUnjson GoUnjsonFacts SignerModel FiiiModel FiiiProps FiiiJsonModel.
Import ListNotations.
Open Scope Z_scope.
Ltac Zify.zify_post_hook ::= idtac.

(** ** Specification *)
(** Go's int and int64. *)
Definition int64 (n : Z) : Prop := - 2 ^ 63 <= n < 2 ^ 63.
Definition input_typed (i : input) : Prop := valid_text (i_hash i) /\ int64 (i_index i) /\ int64 (i_size i) /\ valid_text (i_unlock i).
Definition output_typed (o : output) : Prop := int64 (o_index o) /\ int64 (o_amount o) /\ int64 (o_size o) /\ valid_text (o_lock o).
Definition tx_typed (t : txmsg) : Prop :=
  int64 (t_version t) /\ valid_text (t_hash t) /\ int64 (t_timestamp t) /\ int64 (t_lock t) /\ int64 (t_expired t) /\ int64 (t_incount t) /\ int64 (t_outcount t) /\
  Forall input_typed (t_inputs t) /\ Forall output_typed (t_outputs t) /\ int64 (t_size t).

(** ** Reading back *)
Definition slice_val {A} (f : A -> jval) (l : list A) : jval := match l with [] => VNull | _ => VArr (map f l) end.
Definition input_val (i : input) : jval := VObj [(str "OutputTransactionHash", VStr (i_hash i)); (str "OutputIndex", VNum (format_int (i_index i))); (str "Size", VNum (format_int (i_size i))); (str "UnlockScript", VStr (i_unlock i))].
Definition output_val (o : output) : jval := VObj [(str "Index", VNum (format_int (o_index o))); (str "Amount", VNum (format_int (o_amount o))); (str "Size", VNum (format_int (o_size o))); (str "LockScript", VStr (o_lock o))].
Definition tx_val (t : txmsg) : jval := VObj [(str "Version", VNum (format_int (t_version t))); (str "Hash", VStr (t_hash t)); (str "Timestamp", VNum (format_int (t_timestamp t))); (str "Locktime", VNum (format_int (t_lock t))); (str "ExpiredTime", VNum (format_int (t_expired t))); (str "InputCount", VNum (format_int (t_incount t))); (str "OutputCount", VNum (format_int (t_outcount t))); (str "Inputs", slice_val input_val (t_inputs t)); (str "Outputs", slice_val output_val (t_outputs t)); (str "Size", VNum (format_int (t_size t)))].
Lemma gr_valid s : valid_text s -> gr (go_string s) (VStr s).
Proof. intros V. rewrite <- (clean_valid s V) at 2. apply gr_string, valid_bytes, V. Qed.
Lemma slice_read A (f : A -> list Z) (g : A -> jval) l : Forall (fun x => gr (f x) (g x)) l -> gr (slice_text (no_items l) f l) (slice_val g l).
Proof.
  intros F. unfold slice_text, slice_val, no_items. destruct l as [|x l]; [exact gr_null|]. apply gr_array. clear - F. induction F; cbn [map]; constructor; assumption.
Qed.
Ltac obj := apply gr_object; repeat match goal with |- Forall2 _ [] [] => constructor | |- Forall2 _ (_ :: _) (_ :: _) => constructor; [split; [reflexivity|split; [reflexivity|cbn [snd]; first [apply gr_number|apply gr_valid; assumption|idtac]]]|] end.
Lemma input_read i : input_typed i -> gr (input_json i) (input_val i).
Proof. intros (A & B & C & D). unfold input_json, input_val. obj. Qed.
Lemma output_read o : output_typed o -> gr (output_json o) (output_val o).
Proof. intros (A & B & C & D). unfold output_json, output_val. obj. Qed.
Lemma tx_read t : tx_typed t -> gr (tx_json t) (tx_val t).
Proof.
  intros (A & B & C & D & E & F & G & I & O & S). unfold tx_json, tx_text, tx_val. obj.
  - apply slice_read. eapply Forall_impl; [|exact I]. intros i. apply input_read.
  - apply slice_read. eapply Forall_impl; [|exact O]. intros o. apply output_read.
Qed.
Lemma find_i_hash : find_field input (str "OutputTransactionHash") input_fields = Some set_i_hash.
Proof. unfold input_fields. find_it. Qed.
Lemma find_i_index : find_field input (str "OutputIndex") input_fields = Some set_i_index.
Proof. unfold input_fields. find_it. Qed.
Lemma find_i_size : find_field input (str "Size") input_fields = Some set_i_size.
Proof. unfold input_fields. find_it. Qed.
Lemma find_i_unlock : find_field input (str "UnlockScript") input_fields = Some set_i_unlock.
Proof. unfold input_fields. find_it. Qed.
Lemma find_o_index : find_field output (str "Index") output_fields = Some set_o_index.
Proof. unfold output_fields. find_it. Qed.
Lemma find_o_amount : find_field output (str "Amount") output_fields = Some set_o_amount.
Proof. unfold output_fields. find_it. Qed.
Lemma find_o_size : find_field output (str "Size") output_fields = Some set_o_size.
Proof. unfold output_fields. find_it. Qed.
Lemma find_o_lock : find_field output (str "LockScript") output_fields = Some set_o_lock.
Proof. unfold output_fields. find_it. Qed.
Lemma find_t_version : find_field reading (str "Version") tx_fields = Some (lift set_t_version).
Proof. unfold tx_fields. find_it. Qed.
Lemma find_t_hash : find_field reading (str "Hash") tx_fields = Some (lift set_t_hash).
Proof. unfold tx_fields. find_it. Qed.
Lemma find_t_timestamp : find_field reading (str "Timestamp") tx_fields = Some (lift set_t_timestamp).
Proof. unfold tx_fields. find_it. Qed.
Lemma find_t_lock : find_field reading (str "Locktime") tx_fields = Some (lift set_t_lock).
Proof. unfold tx_fields. find_it. Qed.
Lemma find_t_expired : find_field reading (str "ExpiredTime") tx_fields = Some (lift set_t_expired).
Proof. unfold tx_fields. find_it. Qed.
Lemma find_t_incount : find_field reading (str "InputCount") tx_fields = Some (lift set_t_incount).
Proof. unfold tx_fields. find_it. Qed.
Lemma find_t_outcount : find_field reading (str "OutputCount") tx_fields = Some (lift set_t_outcount).
Proof. unfold tx_fields. find_it. Qed.
Lemma find_t_inputs : find_field reading (str "Inputs") tx_fields = Some set_r_inputs.
Proof. unfold tx_fields. find_it. Qed.
Lemma find_t_outputs : find_field reading (str "Outputs") tx_fields = Some set_r_outputs.
Proof. unfold tx_fields. find_it. Qed.
Lemma find_t_size : find_field reading (str "Size") tx_fields = Some (lift set_t_size).
Proof. unfold tx_fields. find_it. Qed.
Opaque input_fields output_fields tx_fields str.
Lemma int_read n old : int64 n -> to_int 64 (VNum (format_int n)) old = Some n.
Proof. intros H. cbn [to_int]. apply parse_int_format. exact H. Qed.
Lemma input_back x : input_typed x -> to_struct input input_fields (input_val x) zero_input = Some x.
Proof.
  intros (A & B & C & D). unfold input_val. cbn [to_struct].
  cbn [assign]. rewrite find_i_hash. unfold set_i_hash at 1. rewrite ?int_read by assumption. cbn [to_string option_map i_hash i_index i_size i_unlock].
  cbn [assign]. rewrite find_i_index. unfold set_i_index at 1. rewrite ?int_read by assumption. cbn [to_string option_map i_hash i_index i_size i_unlock].
  cbn [assign]. rewrite find_i_size. unfold set_i_size at 1. rewrite ?int_read by assumption. cbn [to_string option_map i_hash i_index i_size i_unlock].
  cbn [assign]. rewrite find_i_unlock. unfold set_i_unlock at 1. rewrite ?int_read by assumption. cbn [to_string option_map i_hash i_index i_size i_unlock].
  destruct x; reflexivity.
Qed.
Lemma output_back x : output_typed x -> to_struct output output_fields (output_val x) zero_output = Some x.
Proof.
  intros (A & B & C & D). unfold output_val. cbn [to_struct].
  cbn [assign]. rewrite find_o_index. unfold set_o_index at 1. rewrite ?int_read by assumption. cbn [to_string option_map o_index o_amount o_size o_lock].
  cbn [assign]. rewrite find_o_amount. unfold set_o_amount at 1. rewrite ?int_read by assumption. cbn [to_string option_map o_index o_amount o_size o_lock].
  cbn [assign]. rewrite find_o_size. unfold set_o_size at 1. rewrite ?int_read by assumption. cbn [to_string option_map o_index o_amount o_size o_lock].
  cbn [assign]. rewrite find_o_lock. unfold set_o_lock at 1. rewrite ?int_read by assumption. cbn [to_string option_map o_index o_amount o_size o_lock].
  destruct x; reflexivity.
Qed.
Lemma slice_back A fs zero (g : A -> jval) l : Forall (fun x => to_struct A fs (g x) zero = Some x) l -> to_slice A fs zero (slice_val g l) nil_slice = Some {| items := l; beyond := []; is_nil := no_items l |}.
Proof.
  intros F. unfold slice_val. destruct l as [|x0 l0] eqn:E; [reflexivity|]. assert (N : no_items l = false) by (subst l; reflexivity). rewrite <- E in *. rewrite N.
  assert (K : to_elems A fs zero (map g l) [] = Some l). { clear - F. induction F as [|x l' H F IH]; cbn [map to_elems hd tl]; [reflexivity|]. rewrite H, IH. reflexivity. }
  unfold to_slice, nil_slice. cbn [items beyond app]. rewrite K. destruct (map g l) eqn:M; [subst l; discriminate|]. cbn [option_map]. rewrite skipn_nil. reflexivity.
Qed.
Definition bare (t : txmsg) : txmsg := {| t_version := t_version t; t_hash := t_hash t; t_timestamp := t_timestamp t; t_lock := t_lock t; t_expired := t_expired t; t_incount := t_incount t; t_outcount := t_outcount t; t_inputs := []; t_outputs := []; t_size := t_size t |}.
Definition reading_of (t : txmsg) : reading := {| r_tx := bare t; r_inputs := {| items := t_inputs t; beyond := []; is_nil := no_items (t_inputs t) |}; r_outputs := {| items := t_outputs t; beyond := []; is_nil := no_items (t_outputs t) |} |}.
Lemma read_tx_of t : read_tx (reading_of t) = t.
Proof. destruct t; reflexivity. Qed.
Lemma tx_back x : tx_typed x -> to_struct reading tx_fields (tx_val x) zero_reading = Some (reading_of x).
Proof.
  intros (A & B & C & D & E & F & G & I & O & S). unfold tx_val. cbn [to_struct].
  cbn [assign]. rewrite find_t_version. unfold lift at 1, set_t_version at 1. rewrite int_read by assumption. cbn [option_map r_tx r_inputs r_outputs zero_reading t_version t_hash t_timestamp t_lock t_expired t_incount t_outcount t_inputs t_outputs t_size].
  cbn [assign]. rewrite find_t_hash. unfold lift at 1, set_t_hash at 1. cbn [to_string]. cbn [option_map r_tx r_inputs r_outputs zero_reading t_version t_hash t_timestamp t_lock t_expired t_incount t_outcount t_inputs t_outputs t_size].
  cbn [assign]. rewrite find_t_timestamp. unfold lift at 1, set_t_timestamp at 1. rewrite int_read by assumption. cbn [option_map r_tx r_inputs r_outputs zero_reading t_version t_hash t_timestamp t_lock t_expired t_incount t_outcount t_inputs t_outputs t_size].
  cbn [assign]. rewrite find_t_lock. unfold lift at 1, set_t_lock at 1. rewrite int_read by assumption. cbn [option_map r_tx r_inputs r_outputs zero_reading t_version t_hash t_timestamp t_lock t_expired t_incount t_outcount t_inputs t_outputs t_size].
  cbn [assign]. rewrite find_t_expired. unfold lift at 1, set_t_expired at 1. rewrite int_read by assumption. cbn [option_map r_tx r_inputs r_outputs zero_reading t_version t_hash t_timestamp t_lock t_expired t_incount t_outcount t_inputs t_outputs t_size].
  cbn [assign]. rewrite find_t_incount. unfold lift at 1, set_t_incount at 1. rewrite int_read by assumption. cbn [option_map r_tx r_inputs r_outputs zero_reading t_version t_hash t_timestamp t_lock t_expired t_incount t_outcount t_inputs t_outputs t_size].
  cbn [assign]. rewrite find_t_outcount. unfold lift at 1, set_t_outcount at 1. rewrite int_read by assumption. cbn [option_map r_tx r_inputs r_outputs zero_reading t_version t_hash t_timestamp t_lock t_expired t_incount t_outcount t_inputs t_outputs t_size].
  cbn [assign]. rewrite find_t_inputs. unfold set_r_inputs at 1. cbn [r_inputs zero_reading]. rewrite slice_back by (eapply Forall_impl; [|exact I]; intros y; apply input_back). cbn [option_map r_tx r_inputs r_outputs zero_reading t_version t_hash t_timestamp t_lock t_expired t_incount t_outcount t_inputs t_outputs t_size].
  cbn [assign]. rewrite find_t_outputs. unfold set_r_outputs at 1. cbn [r_outputs zero_reading]. rewrite slice_back by (eapply Forall_impl; [|exact O]; intros y; apply output_back). cbn [option_map r_tx r_inputs r_outputs zero_reading t_version t_hash t_timestamp t_lock t_expired t_incount t_outcount t_inputs t_outputs t_size].
  cbn [assign]. rewrite find_t_size. unfold lift at 1, set_t_size at 1. rewrite int_read by assumption. cbn [option_map r_tx r_inputs r_outputs zero_reading t_version t_hash t_timestamp t_lock t_expired t_incount t_outcount t_inputs t_outputs t_size].
  destruct x; reflexivity.
Qed.
Lemma read_json_back t : tx_typed t -> read_json (tx_json t) = Ok (reading_of t).
Proof. intros T. unfold read_json. rewrite (gr_text _ _ (tx_read t T)), (tx_back t T). reflexivity. Qed.
Transparent str.

(** ** Theorems *)
(** The text of a transaction is read back as the transaction. *)
Theorem fiii_json_round_trip : forall t, tx_typed t -> from_json (tx_json t) = Ok t.
Proof. intros t T. unfold from_json. rewrite (read_json_back t T). cbn [bind]. rewrite read_tx_of. reflexivity. Qed.

Definition args_ok (now : Z) (inputs : list vin) (outputs : list vout) (version lock expired : Z) : Prop :=
  int64 now /\ int64 version /\ int64 lock /\ int64 expired /\ zlen inputs < 2 ^ 32 /\ zlen outputs < 2 ^ 32 /\
  Forall (fun v => int64 (v_vout v)) inputs /\ Forall (fun w => int64 (w_amount w)) outputs /\
  Forall (fun w => is_bytes (w_address w) /\ is_bytes (w_prefix w)) outputs.
Lemma upper_ascii s : Forall (fun c => 0 <= c < 128) s -> Forall (fun c => 0 <= c < 128) (to_upper s).
Proof. intros F. unfold to_upper. induction F as [|c s H F IH]; cbn [map]; constructor; [|exact IH]. destruct ((97 <=? c) && (c <=? 122)) eqn:E; lia. Qed.
Lemma hex_upper_ascii b : is_bytes b -> Forall (fun c => 0 <= c < 128) (to_upper (hex_encode b)).
Proof. intros B. apply upper_ascii, hex_text_ascii, B. Qed.
Lemma zlen_upper b : zlen (to_upper (hex_encode b)) = 2 * zlen b.
Proof. unfold to_upper, zlen. rewrite map_length. fold (zlen (hex_encode b)). apply zlen_hex_encode. Qed.
Ltac lit := match goal with |- Forall _ ?l => let x := eval vm_compute in l in change l with x end; repeat constructor; lia.
Lemma lock_ascii h : is_bytes h -> Forall (fun c => 0 <= c < 128) (lock_text h).
Proof. intros B. unfold lock_text. apply Forall_app. split; [lit|]. apply Forall_app. split; [apply hex_upper_ascii, B|lit]. Qed.
Lemma unlock_ascii s : is_bytes (s_signature s) -> is_bytes (s_pubkey s) -> Forall (fun c => 0 <= c < 128) (unlock_text s).
Proof. intros A B. unfold unlock_text. apply Forall_app. split; [apply hex_upper_ascii, A|]. apply Forall_app. split; [lit|]. apply Forall_app. split; [lit|apply hex_upper_ascii, B]. Qed.
Lemma zlen_lock h : zlen (lock_text h) = 2 * zlen h + 45.
Proof. unfold lock_text. rewrite !zlen_app, zlen_upper. change (zlen (ascii "OP_DUP OP_HASH160 ")) with 18. change (zlen (ascii " OP_EQUALVERIFY OP_CHECKSIG")) with 27. lia. Qed.
Lemma zlen_unlock s : zlen (unlock_text s) = 2 * zlen (s_signature s) + 2 * zlen (s_pubkey s) + 30.
Proof. unfold unlock_text. rewrite !zlen_app, !zlen_upper. change (zlen (ascii "[ALL] ")) with 6. change (zlen (ascii "302A300506032B6570032100")) with 24. lia. Qed.
Lemma created_shape al H2 rs now inputs outputs version lock expired tx msgs : hash_ok H2 -> alphabet_ok rs -> new_alphabet rs = Ok al ->
  args_ok now inputs outputs version lock expired -> create al H2 now inputs outputs version lock expired = Ok (tx, msgs) ->
  tx_typed tx /\ (exists ids, Forall2 names inputs ids) /\ t_inputs tx = map mk_input inputs /\ Forall (fun o => zlen (o_lock o) = 85) (t_outputs tx) /\ zlen (t_outputs tx) = zlen outputs /\
  msgs = map (fun v => v_txid v ++ hex_encode (be_bytes 4 (v_vout v mod 2 ^ 32))) inputs.
Proof.
  intros HH Hrs Hal (A1 & A2 & A3 & A4 & A5 & A6 & A7 & A8 & A9) C.
  apply (proj1 (fiii_created_iff _ _ _ _ _ _ _ _ _ _ _ HH Hrs Hal A9)) in C as (N1 & N2 & I & (hs & P & ->) & M).
  assert (K : forall k, 0 <= k -> k + zlen outputs < 2 ^ 33 -> Forall output_typed (map (fun p => mk_output (fst p) (fst (snd p)) (snd (snd p))) (numbered k (combine outputs hs))) /\
     Forall (fun o => zlen (o_lock o) = 85) (map (fun p => mk_output (fst p) (fst (snd p)) (snd (snd p))) (numbered k (combine outputs hs))) /\
     zlen (map (fun p => mk_output (fst p) (fst (snd p)) (snd (snd p))) (numbered k (combine outputs hs))) = zlen outputs).
  { clear - P A8. induction P as [|w h ws hs (Bh & L & _ & Pos) P IH]; intros k K0 K1; cbn [combine numbered map fst snd]; [split; [constructor|split; [constructor|reflexivity]]|].
    rewrite !zlen_cons in *. apply Forall_cons_iff in A8 as [A8 A8']. pose proof (zlen_nonneg ws) as Z0. destruct (IH A8' (k + 1) ltac:(lia) ltac:(lia)) as (I1 & I2 & I3).
    assert (Lk : zlen (lock_text h) = 85) by (rewrite zlen_lock; unfold zlen; rewrite L; reflexivity).
    split; [|split; [constructor; [exact Lk|exact I2]|lia]].
    constructor; [|exact I1]. unfold output_typed, mk_output. cbn [o_index o_amount o_size o_lock]. rewrite Lk. split; [unfold int64; lia|]. split; [exact A8|]. split; [unfold int64; lia|]. apply ascii_valid, lock_ascii, Bh. }
  destruct (K 0 ltac:(lia) ltac:(lia)) as (K1 & K2 & K3). clear K. cbn [t_inputs t_outputs].
  split; [|split; [exact I|split; [reflexivity|split; [exact K2|split; [exact K3|exact M]]]]].
  unfold tx_typed. cbn [t_version t_hash t_timestamp t_lock t_expired t_incount t_outcount t_inputs t_outputs t_size]. pose proof (zlen_nonneg inputs). pose proof (zlen_nonneg outputs).
  split; [exact A2|]. split; [apply ascii_valid; constructor|]. split; [exact A1|]. split; [exact A3|]. split; [exact A4|]. split; [unfold int64; lia|]. split; [unfold int64; lia|].
  split; [|split; [exact K1|unfold int64; lia]].
  destruct I as [ids I]. clear - I A7. induction I as [|v id vs ids [L D] I IH]; cbn [map]; [constructor|]. apply Forall_cons_iff in A7 as [A7 A7']. constructor; [|exact (IH A7')].
  unfold input_typed, mk_input. cbn [i_hash i_index i_size i_unlock]. split; [apply ascii_valid; eapply hex_decode_ascii; exact D|]. split; [exact A7|]. split; [unfold int64; lia|apply ascii_valid; constructor].
Qed.
Lemma zlen_flat_map_le A (f : A -> bytes) c l : Forall (fun x => zlen (f x) <= c) l -> zlen (flat_map f l) <= c * zlen l.
Proof. intros F. induction F as [|x l H F IH]; cbn [flat_map]; [change (zlen (@nil Z)) with 0; change (zlen (@nil A)) with 0; lia|]. rewrite zlen_app, zlen_cons. lia. Qed.
Lemma combined_typed H verify tx sps out n m : (forall b, is_bytes (H b)) -> Forall (fun s => is_bytes (s_signature s) /\ is_bytes (s_pubkey s)) sps ->
  tx_typed tx -> Forall (fun i => zlen (i_hash i) = 64) (t_inputs tx) -> Forall (fun o => zlen (o_lock o) = 85) (t_outputs tx) -> zlen (t_inputs tx) = n -> n < 2 ^ 32 -> zlen (t_outputs tx) = m -> m < 2 ^ 32 ->
  verify_combine H verify tx sps = Ok out -> tx_typed out.
Proof.
  intros HB SB (T1 & T2 & T3 & T4 & T5 & T6 & T7 & T8 & T9 & T10) Hh Lo Ln Bn Lm Bm E. apply fiii_combined_iff in E as (N & F & body & Eb & Eo).
  assert (U : Forall input_typed (map unlocked (combine (t_inputs tx) sps)) /\ Forall (fun i => zlen (input_bytes i) <= 32 + 8 + 222) (map unlocked (combine (t_inputs tx) sps)) /\ zlen (map unlocked (combine (t_inputs tx) sps)) = zlen (t_inputs tx)).
  { clear - SB F Hh T8. induction F as [|i s is sps (id & D & V & L1 & L2) F IH]; cbn [combine map]; [split; [constructor|split; [constructor|reflexivity]]|].
    apply Forall_cons_iff in SB as [[SB1 SB2] SB]. apply Forall_cons_iff in Hh as [Hh Hh']. apply Forall_cons_iff in T8 as [(X1 & X2 & X3 & X4) T8]. destruct (IH SB T8 Hh') as (I1 & I2 & I3). clear IH.
    assert (LU : zlen (unlock_text s) = 222) by (rewrite zlen_unlock; unfold zlen; rewrite L1, L2; reflexivity).
    split; [constructor; [|exact I1]|split; [constructor; [|exact I2]|rewrite !zlen_cons; lia]]; unfold unlocked; cbn [fst snd].
    - unfold input_typed. cbn [i_hash i_index i_size i_unlock]. rewrite LU. split; [exact X1|]. split; [exact X2|]. split; [unfold int64; lia|]. apply ascii_valid, unlock_ascii; assumption.
    - unfold input_bytes. cbn [i_hash i_index i_size i_unlock]. rewrite D, !zlen_app, !zlen_be_bytes, LU. apply hex_decode_bytes in D as [_ D]. unfold zlen in Hh |- *. lia. }
  destruct U as (U1 & U2 & U3).
  assert (BL : zlen body < 2 ^ 60).
  { rewrite Eb, Eo. unfold tx_bytes. cbn [t_version t_hash t_timestamp t_lock t_expired t_incount t_outcount t_inputs t_outputs t_size]. rewrite !zlen_app, !zlen_be_bytes.
    pose proof (zlen_flat_map_le _ input_bytes 262 _ U2) as Y1. assert (Y2 : Forall (fun o => zlen (output_bytes o) <= 101) (t_outputs tx)) by (eapply Forall_impl; [|exact Lo]; intros o Ho; cbv beta in Ho; unfold output_bytes; rewrite !zlen_app, !zlen_be_bytes, Ho; lia).
    pose proof (zlen_flat_map_le _ output_bytes 101 _ Y2) as Y3. rewrite U3 in Y1. rewrite Ln in Y1. rewrite Lm in Y3. lia. }
  rewrite Eo. unfold tx_typed. cbn [t_version t_hash t_timestamp t_lock t_expired t_incount t_outcount t_inputs t_outputs t_size].
  split; [exact T1|]. split; [apply ascii_valid, hex_upper_ascii, HB|]. split; [exact T3|]. split; [exact T4|]. split; [exact T5|]. split; [exact T6|]. split; [exact T7|]. split; [exact U1|]. split; [exact T9|]. pose proof (zlen_nonneg body). unfold int64. lia.
Qed.
(** The text handed out carries the whole transaction: combining it with any signatures gives what the transaction itself gives, and the
    text returned is again the text of that result. *)
Theorem fiii_created_text_combines : forall al H2 H rs verify now inputs outputs version lock expired text msgs,
  hash_ok H2 -> (forall b, is_bytes (H b)) -> alphabet_ok rs -> new_alphabet rs = Ok al -> args_ok now inputs outputs version lock expired ->
  create_text al H2 now inputs outputs version lock expired = Ok (text, msgs) ->
  exists tx, create al H2 now inputs outputs version lock expired = Ok (tx, msgs) /\ from_json text = Ok tx /\
    forall sps, Forall (fun s => is_bytes (s_signature s) /\ is_bytes (s_pubkey s)) sps ->
      (forall result, combine_text H verify text sps = Ok result <-> exists out, verify_combine H verify tx sps = Ok out /\ result = tx_json out) /\
      (forall out, verify_combine H verify tx sps = Ok out -> from_json (tx_json out) = Ok out).
Proof.
  intros al H2 H rs verify now inputs outputs version lock expired text msgs HH HB Hrs Hal A C. unfold create_text in C. destruct (create al H2 now inputs outputs version lock expired) as [[tx ms]| |] eqn:E; cbn [bind fst snd] in C; try discriminate.
  assert (tx_json tx = text /\ ms = msgs) as [<- ->] by (split; congruence). clear C. exists tx. split; [reflexivity|]. pose proof (created_shape _ _ _ _ _ _ _ _ _ _ _ HH Hrs Hal A E) as (T & (ids & I) & Ei & Lo & Zo & _).
  split; [apply fiii_json_round_trip, T|]. intros sps SB. split.
  - intros result. unfold combine_text. rewrite read_json_back by exact T. cbn [bind]. rewrite read_tx_of. destruct (verify_combine H verify tx sps) as [out| |] eqn:V; cbn [bind].
    + assert (Q0 : tx_text (is_nil (r_inputs (reading_of tx))) (is_nil (r_outputs (reading_of tx))) out = tx_json out).
      { unfold reading_of, tx_json. cbn [r_inputs r_outputs is_nil]. apply fiii_combined_iff in V as (_ & V & body & _ & ->). cbn [t_inputs t_outputs]. f_equal. inversion V; reflexivity. }
      rewrite Q0. split; [intros Q; exists out; split; [reflexivity|congruence]|]. intros (o & Q & ->). congruence.
    + split; [discriminate|]. intros (o & Q & _). discriminate.
    + split; [discriminate|]. intros (o & Q & _). discriminate.
  - intros out V. apply fiii_json_round_trip. destruct A as (_ & _ & _ & _ & A5 & A6 & _).
    refine (combined_typed H verify tx sps out (zlen (t_inputs tx)) (zlen (t_outputs tx)) HB SB T _ Lo eq_refl _ eq_refl _ V).
    + rewrite Ei. clear - I. induction I as [|v id vs ids [L D] I IH]; cbn [map]; constructor; [exact L|exact IH].
    + rewrite Ei. unfold zlen in *. rewrite map_length. exact A5.
    + rewrite Zo. exact A6.
Qed.
Lemma hex_app s : forall l b, hex_decode s = Ok l -> is_bytes b -> hex_decode (s ++ hex_encode b) = Ok (l ++ b).
Proof.
  induction s as [|a|a c s IH] using pair_ind; intros l b; cbn [hex_decode app].
  - intros E B. assert (l = []) by congruence. subst l. apply hex_decode_encode, B.
  - discriminate.
  - destruct (hex_val a); [|discriminate]. destruct (hex_val c); [|discriminate]. destruct (hex_decode s) as [t| |] eqn:Es; cbn [bind]; try discriminate. intros E B. rewrite (IH t b eq_refl B). cbn [bind]. assert (l = (z * 16 + z0) :: t) as -> by congruence. reflexivity.
Qed.
(** Create, sign every message, combine. *)
Theorem fiii_text_flow : forall al H2 H rs sign verify pub now inputs outputs version lock expired text msgs (keyed : list (bytes * bytes)),
  hash_ok H2 -> (forall b, is_bytes (H b)) -> alphabet_ok rs -> new_alphabet rs = Ok al -> args_ok now inputs outputs version lock expired ->
  (forall k m s, sign k m = Some s -> verify (pub k) m s = true /\ length s = 64%nat /\ is_bytes s /\ length (pub k) = 32%nat /\ is_bytes (pub k)) ->
  create_text al H2 now inputs outputs version lock expired = Ok (text, msgs) ->
  Forall2 (fun m p => sign_message sign m (fst p) = Ok (snd p)) msgs keyed ->
  exists tx out, create al H2 now inputs outputs version lock expired = Ok (tx, msgs) /\
    combine_text H verify text (map (fun p => {| s_signature := snd p; s_pubkey := pub (fst p) |}) keyed) = Ok (tx_json out) /\ from_json (tx_json out) = Ok out /\
    t_outputs out = t_outputs tx /\ t_inputs out = map unlocked (combine (t_inputs tx) (map (fun p => {| s_signature := snd p; s_pubkey := pub (fst p) |}) keyed)).
Proof.
  intros al H2 H rs sign verify pub now inputs outputs version lock expired text msgs keyed HH HB Hrs Hal A Scheme C S.
  destruct (fiii_created_text_combines al H2 H rs verify now inputs outputs version lock expired text msgs HH HB Hrs Hal A C) as (tx & Ec & _ & K). exists tx.
  pose proof (created_shape _ _ _ _ _ _ _ _ _ _ _ HH Hrs Hal A Ec) as (T & (ids & I) & Ei & _ & _ & Em).
  set (sps := map (fun p : bytes * bytes => {| s_signature := snd p; s_pubkey := pub (fst p) |}) keyed).
  assert (G : Forall2 (good verify) (t_inputs tx) sps /\ Forall (fun s => is_bytes (s_signature s) /\ is_bytes (s_pubkey s)) sps).
  { rewrite Ei. unfold sps. rewrite Em in S. clear - I S Scheme. set (g := fun v : vin => v_txid v ++ hex_encode (be_bytes 4 (v_vout v mod 2 ^ 32))) in *. assert (Eg : forall v, g v = v_txid v ++ hex_encode (be_bytes 4 (v_vout v mod 2 ^ 32))) by reflexivity. clearbody g. revert keyed S. induction I as [|v id vs ids [L D] I IH]; cbn [map]; intros keyed S; inversion S as [|? p ? ps Sg S']; subst; cbn [map]; [split; constructor|].
    destruct (IH _ S') as [I1 I2]. rewrite Eg in Sg. unfold sign_message in Sg. assert (B4 : is_bytes (be_bytes 4 (v_vout v mod 2 ^ 32))) by apply be_bytes_is_bytes. rewrite (hex_app _ _ _ D B4) in Sg. destruct (_ =? 0); [discriminate|]. destruct (negb _); [discriminate|]. cbn [bind] in Sg.
    destruct (sign (fst p) (id ++ be_bytes 4 (v_vout v mod 2 ^ 32))) as [s|] eqn:E; [|discriminate]. assert (s = snd p) by congruence. subst s. destruct (Scheme _ _ _ E) as (V & L1 & B1 & L2 & B2).
    split; constructor; try assumption.
    - exists id. cbn [i_hash i_index mk_input s_signature s_pubkey]. unfold fiii_message. auto.
    - cbn [s_signature s_pubkey]. auto. }
  destruct G as [G SB]. destruct (K sps SB) as [K1 K2].
  assert (Ex : exists out, verify_combine H verify tx sps = Ok out).
  { assert (L : length sps = length (t_inputs tx)) by (clear - G; induction G; cbn [length]; lia). unfold verify_combine.
    assert (N : t_inputs tx <> []) by (apply (proj1 (fiii_created_iff _ _ _ _ _ _ _ _ _ _ _ HH Hrs Hal (proj2 (proj2 (proj2 (proj2 (proj2 (proj2 (proj2 (proj2 A)))))))))) in Ec as (N1 & _); rewrite Ei; destruct inputs; [contradiction|discriminate]).
    replace (zlen sps =? 0) with false by (destruct (t_inputs tx); [contradiction|]; unfold zlen; rewrite L; cbn [length]; lia). cbn [orb].
    replace (zlen sps =? zlen (t_inputs tx)) with true by (unfold zlen; lia). cbn [negb]. rewrite (proj2 (unlock_iff verify (t_inputs tx) sps _ L) (conj G eq_refl)). cbn [bind]. eauto. }
  destruct Ex as [out Ex]. exists out. split; [exact Ec|]. split; [apply K1; eauto|]. split; [apply K2, Ex|].
  apply fiii_combined_iff in Ex as (_ & _ & body & _ & ->). split; reflexivity.
Qed.

(** ** The hypotheses are met *)
Example ex_typed : tx_typed (ex_tx [mk_output 0 {| w_prefix := [5]; w_address := []; w_amount := 9 |} (zeros 20)]).
Proof.
  unfold tx_typed, ex_tx. cbn [t_version t_hash t_timestamp t_lock t_expired t_incount t_outcount t_inputs t_outputs t_size].
  split; [unfold int64; lia|]. split; [|split; [unfold int64; lia|split; [unfold int64; lia|split; [unfold int64; lia|split; [unfold int64; lia|split; [change (int64 1); unfold int64; lia|split; [|split; [|unfold int64; lia]]]]]]]].
  - apply ascii_valid. constructor.
  - constructor; [|constructor]. unfold input_typed, ex_in. cbn [i_hash i_index i_size i_unlock]. unfold int64. split; [apply ascii_valid, hex_text_ascii, is_bytes_zeros|]. split; [lia|]. split; [lia|]. apply ascii_valid. constructor.
  - constructor; [|constructor]. unfold output_typed, mk_output. cbn [o_index o_amount o_size o_lock w_amount]. rewrite zlen_lock. change (zlen (zeros 20)) with 20. unfold int64. split; [lia|]. split; [lia|]. split; [lia|]. apply ascii_valid, lock_ascii, is_bytes_zeros.
Qed.
Lemma args_one txid vout a : 0 <= vout < 100 -> is_bytes a -> args_ok 5 [{| v_txid := txid; v_vout := vout |}] [{| w_prefix := [5]; w_address := a; w_amount := 1 |}] 1 0 0.
Proof.
  intros V B. assert (S : forall n, 0 <= n < 100 -> int64 n) by (unfold int64; intros; lia). unfold args_ok. split; [apply S; lia|]. split; [apply S; lia|]. split; [apply S; lia|]. split; [apply S; lia|]. split; [rewrite zlen_cons; change (zlen (@nil vin)) with 0; lia|]. split; [rewrite zlen_cons; change (zlen (@nil FiiiModel.vout)) with 0; lia|].
  split; [constructor; [apply S; exact V|constructor]|]. split; [constructor; [apply S; cbn [w_amount]; lia|constructor]|]. constructor; [|constructor]. split; [exact B|]. repeat constructor; unfold is_byte; lia.
Qed.
(** Creation succeeds, and its text is combined with a signature. *)
Definition ex_in1 : vin := {| v_txid := hex_encode (zeros 32); v_vout := 7 |}.
Definition ex_scheme (k m : bytes) : option bytes := Some (zeros 64).
Definition ex_addr : list Z := match encode_check btc_alphabet Toy.toy_hash [5] (zeros 20) with Ok a => a | _ => [] end.
Example ex_addr_bytes : is_bytes ex_addr.
Proof. apply Forall_forall. intros c I. assert (F : forallb (fun c => (0 <=? c) && (c <? 256)) ex_addr = true) by (vm_compute; reflexivity). rewrite forallb_forall in F. specialize (F c I). unfold is_byte. lia. Qed.
Example ex_flow : exists a text msgs out, create_text btc_alphabet Toy.toy_hash 5 [ex_in1] [{| w_prefix := [5]; w_address := a; w_amount := 1 |}] 1 0 0 = Ok (text, msgs) /\
  combine_text (fun _ => zeros 32) (fun _ _ s => beq s (zeros 64)) text [{| s_signature := zeros 64; s_pubkey := zeros 32 |}] = Ok out.
Proof.
  destruct (decode_check_prefix_encode_check Toy.toy_hash btc_alphabet_str btc_alphabet [5] (zeros 20) Toy.toy_hash_ok btc_alphabet_ok btc_alphabet_new ltac:(bts; lia) (is_bytes_zeros 20) eq_refl) as (a & E1 & E2).
  assert (Ba : is_bytes a) by (replace a with ex_addr by (unfold ex_addr; rewrite E1; reflexivity); apply ex_addr_bytes).
  exists a. assert (C : exists tx, create btc_alphabet Toy.toy_hash 5 [ex_in1] [{| w_prefix := [5]; w_address := a; w_amount := 1 |}] 1 0 0 = Ok (tx, [gen_message ex_in1])).
  { unfold create, mapr, new_input, new_outputs, new_output, ex_in1. cbn [v_txid w_address w_prefix w_amount]. rewrite E2. rewrite hex_decode_encode by apply is_bytes_zeros. rewrite zlen_hex_encode. cbn [bind]. eexists. reflexivity. }
  destruct C as [tx C]. exists (tx_json tx), [gen_message ex_in1].
  assert (A : args_ok 5 [ex_in1] [{| w_prefix := [5]; w_address := a; w_amount := 1 |}] 1 0 0) by (apply args_one; [lia|exact Ba]).
  assert (CT : create_text btc_alphabet Toy.toy_hash 5 [ex_in1] [{| w_prefix := [5]; w_address := a; w_amount := 1 |}] 1 0 0 = Ok (tx_json tx, [gen_message ex_in1])) by (unfold create_text; rewrite C; reflexivity).
  destruct (fiii_text_flow btc_alphabet Toy.toy_hash (fun _ => zeros 32) btc_alphabet_str ex_scheme (fun _ _ s => beq s (zeros 64)) (fun _ => zeros 32) 5 [ex_in1] [{| w_prefix := [5]; w_address := a; w_amount := 1 |}] 1 0 0 (tx_json tx) [gen_message ex_in1] [(zeros 32, zeros 64)]) as (tx' & out & _ & V & _).
  - apply Toy.toy_hash_ok.
  - intros b. apply is_bytes_zeros.
  - apply btc_alphabet_ok.
  - apply btc_alphabet_new.
  - exact A.
  - intros k m s E. assert (s = zeros 64) as -> by (unfold ex_scheme in E; congruence). split; [reflexivity|]. split; [reflexivity|]. split; [apply is_bytes_zeros|]. split; [reflexivity|apply is_bytes_zeros].
  - exact CT.
  - constructor; [|constructor]. cbn [fst snd]. vm_compute. reflexivity.
  - exists (tx_json out). split; [exact CT|exact V].
Qed.
Print Assumptions fiii_json_round_trip.
Print Assumptions fiii_created_text_combines.
Print Assumptions fiii_text_flow.
