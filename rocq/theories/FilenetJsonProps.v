(** C130: the JSON text of a Filenet transfer. *)
From Coq Require Import String ZArith List Bool Lia ZifyBool ZifyNat Permutation Sorted.
From Verif Require Import Go GoFacts GoFacts2 Codes Rd Base58Model Base58Spec Base58Props AddressProofs GoJson Json GoUnjson GoUnjsonFacts JsonGrammar JsonGrammarProps FilenetModel FilenetProps FilenetJsonModel.
Import ListNotations.
Open Scope Z_scope.
Ltac Zify.zify_post_hook ::= idtac.

(** ** Specification *)
(** A number in a JSON text that stands for [n]. *)
Definition number (n : Z) (v : jval) : Prop := exists lit, v = VNum lit /\ parse_int 65 lit = Some n.
(** A value that is an output: address and amount. *)
Definition detail_val (d : list Z * Z) (v : jval) : Prop := exists n, v = VObj [(str "to", VStr (fst d)); (str "value", n)] /\ number (snd d) n.
(** A value that is a transfer with these members. *)
Definition transfer_val (txid from : list Z) (count total time : Z) (details : list (list Z * Z)) (sign : list Z) (v : jval) : Prop :=
  exists c t n ds, number count c /\ number total t /\ number time n /\ Forall2 detail_val details ds /\
    v = VObj [(str "txid", VStr txid); (str "from", VStr from); (str "tocount", c); (str "value", t); (str "timestamp", n); (str "transferdetails", VArr ds); (str "sign", VStr sign)].

(** ** Proofs *)
Lemma gr_asc s : Forall (fun c => 0 <= c < 128) s -> gr (go_string s) (VStr s).
Proof. intros F. pose proof (ascii_valid s F) as V. rewrite <- (clean_valid s V) at 2. apply gr_string, valid_bytes, V. Qed.
Lemma number_format n : - 2 ^ 64 <= n < 2 ^ 64 -> number n (VNum (format_int n)).
Proof. intros B. eexists. split; [reflexivity|]. apply parse_int_format. change (65 - 1) with 64. exact B. Qed.
Lemma base58_text_ascii b s : is_base58_of btc_alphabet_str b s -> Forall (fun c => 0 <= c < 128) s.
Proof.
  assert (S : forall d, 0 <= symbol btc_alphabet_str d < 128).
  { intros d. unfold symbol. destruct (Nat.lt_ge_cases (Z.to_nat d) (length btc_alphabet_str)) as [L|L]; [|rewrite nth_overflow by exact L; lia]. destruct btc_alphabet_ok as (_ & _ & A). unfold is_ascii in A. rewrite Forall_forall in A. apply A. apply nth_In. exact L. }
  intros (n & r & ds & _ & _ & _ & _ & _ & ->). apply Forall_app. split; [apply Forall_forall; intros x Hx; apply repeat_spec in Hx; subst; apply S|]. apply Forall_forall. intros x Hx. apply in_map_iff in Hx as (d & <- & _). apply S.
Qed.
Ltac obj := apply gr_object; repeat match goal with |- Forall2 _ [] [] => constructor | |- Forall2 _ (_ :: _) (_ :: _) => constructor; [split; [reflexivity|split; [reflexivity|cbn [snd]; first [apply gr_number|apply gr_asc; assumption|idtac]]]|] end.
Definition dval (d : list Z * Z) : jval := VObj [(str "to", VStr (fst d)); (str "value", VNum (format_int (snd d)))].
Definition tval (t : transfer) : jval := VObj [(str "txid", VStr (t_txid t)); (str "from", VStr (t_from t)); (str "tocount", VNum (format_int (t_count t))); (str "value", VNum (format_int (t_value t))); (str "timestamp", VNum (format_int (t_timestamp t))); (str "transferdetails", VArr (map dval (t_details t))); (str "sign", VStr (t_sign t))].
Definition asc (s : list Z) : Prop := Forall (fun c => 0 <= c < 128) s.
Lemma transfer_reads t : asc (t_txid t) -> asc (t_from t) -> asc (t_sign t) -> Forall (fun d => asc (fst d)) (t_details t) -> unjson (transfer_json t) = Some (tval t).
Proof.
  unfold asc. intros A B C D. apply gr_text. unfold transfer_json, tval. obj. apply gr_array. induction D as [|d ds Hd D IH]; cbn [map]; constructor; [|exact IH]. unfold detail_json, dval. obj.
Qed.
Lemma dvals l : Forall (fun d => - 2 ^ 64 <= snd d < 2 ^ 64) l -> Forall2 detail_val l (map dval l).
Proof. intros F. induction F as [|d l Hd F IH]; cbn [map]; constructor; [|exact IH]. eexists. split; [reflexivity|]. apply number_format. exact Hd. Qed.
Lemma decoded_text H max_len raw signature t : (forall d, is_bytes d -> is_bytes (H d)) -> decode_raw btc_alphabet H max_len raw signature = Ok t ->
  exists v, is_json (transfer_json t) v /\ transfer_val (t_txid t) (t_from t) (t_count t) (t_value t) (t_timestamp t) (t_details t) (t_sign t) v.
Proof.
  intros HB D. apply filenet_read_iff in D as (f & tot & ts & tos & Bf & Lf & Rt & Rs & En & _ & Lt & Ew & Ls & (s & Es) & Et & Sf & Ec & Ev & Em & Fd & Eg).
  apply hex_decode_bytes in Ew as [Bw _]. exists (tval t). split.
  - apply unjson_iff_json, transfer_reads; unfold asc.
    + rewrite Et. apply hex_text_ascii. apply HB. exact Bw.
    + destruct Sf as (_ & _ & Sf). eapply base58_text_ascii. exact Sf.
    + rewrite Eg. eapply hex_decode_ascii. exact Es.
    + clear - Fd. induction Fd as [|d x ds xs Hd Fd IH]; constructor; [|exact IH]. destruct Hd as ((_ & _ & S) & _). eapply base58_text_ascii. exact S.
  - unfold transfer_val, tval. exists (VNum (format_int (t_count t))), (VNum (format_int (t_value t))), (VNum (format_int (t_timestamp t))), (map dval (t_details t)).
    split; [apply number_format; rewrite Ec; pose proof (zlen_nonneg tos); lia|]. split; [apply number_format; rewrite Ev; lia|]. split; [apply number_format; rewrite Em; unfold s64; repeat match goal with |- context [if ?b then _ else _] => destruct b eqn:? end; try (pose proof (Z.mod_pos_bound ts (2 ^ 64) ltac:(lia))); lia|].
    split; [|reflexivity]. apply dvals. clear - Fd En. revert En. induction Fd as [|d x ds xs Hd Fd IH]; intros En; constructor; inversion En as [|? ? (He1 & He2 & He3) En']; subst; [|apply IH; assumption]. destruct Hd as (_ & ->). lia.
Qed.

(** C130: a text is returned exactly for a decoded transfer whose signature verifies, and the text is that transfer, member by member. *)
Theorem filenet_text_iff : forall H max_len decompress verify raw signature pubkey, (forall d, is_bytes d -> is_bytes (H d)) ->
  (forall t, verify_and_combine btc_alphabet H max_len decompress verify raw signature pubkey = Ok (Some t) ->
    exists text v, combine_text btc_alphabet H max_len decompress verify raw signature pubkey = Ok (Some text) /\ is_json text v /\
      transfer_val (t_txid t) (t_from t) (t_count t) (t_value t) (t_timestamp t) (t_details t) (t_sign t) v) /\
  (forall text, combine_text btc_alphabet H max_len decompress verify raw signature pubkey = Ok (Some text) ->
    exists t, verify_and_combine btc_alphabet H max_len decompress verify raw signature pubkey = Ok (Some t)).
Proof.
  intros H max_len decompress verify raw signature pubkey HB. unfold combine_text. split.
  - intros t E. rewrite E. cbn [bind]. apply filenet_verified_iff in E as [D _]; [|exact HB]. destruct (decoded_text H max_len raw signature t HB D) as (v & U & V). eauto.
  - intros text E. apply bind_ok in E as ([t|] & E & X); [|discriminate]. exists t. exact E.
Qed.

(** C130: create, sign and combine: the text carries the hash that was signed, the sender, the sorted outputs, their number and total, the time and the signature. *)
Theorem filenet_text_flow : forall H sort sign decompress verify max_len now from outs raw h key signature pubkey p x k,
  (forall d, is_bytes d -> is_bytes (H d) /\ zlen (H d) = 32) -> sorts sort -> is_bytes from -> typed outs -> 0 <= now < 2 ^ 63 -> zlen outs <= max_len -> zlen outs < 2 ^ 64 ->
  (forall kk d s, sign kk d = Some s -> is_bytes s /\ zlen s = 64) ->
  create btc_alphabet H sort now from outs = Ok (raw, h) -> (exists f, standard from f) -> Forall (fun o => exists a, standard (o_address o) a) outs ->
  sign_hash sign h key = Ok signature -> hex_decode pubkey = Ok p -> decompress p = x :: k -> (forall d s, sign key d = Some s -> verify k d s = true) ->
  exists text v, combine_text btc_alphabet H max_len decompress verify raw signature pubkey = Ok (Some text) /\ is_json text v /\
    transfer_val h from (zlen outs) (sum (map o_amount outs) mod 2 ^ 64) now (map (fun o => (o_address o, o_amount o)) (sort less outs)) signature v.
Proof.
  intros H sort sign decompress verify max_len now from outs raw h key signature pubkey p x k HH So Bf To Rn Lm L64 SL E Sf So' Sg Ep Ed SV.
  assert (HB : forall d, is_bytes d -> is_bytes (H d)) by (intros d Bd; apply HH; exact Bd).
  pose proof E as E0. apply filenet_created_iff in E as (f & tos & Ne & Nf & F2 & Er & Eh); [|assumption..]. set (w := wire f (zlen outs) (sum (map o_amount outs) mod 2 ^ 64) now tos) in *.
  assert (Bw : is_bytes w).
  { unfold w, wire. apply names_bytes in Nf as [Bff _]. apply is_bytes_app; split; [exact Bff|]. do 3 (apply is_bytes_app; split; [apply le_bytes_is_bytes|]).
    clear - F2. induction F2 as [|o t l ts Ho F2 IH]; cbn [map concat]; [constructor|]. apply is_bytes_app. split; [|exact IH]. apply is_bytes_app. split; [|apply le_bytes_is_bytes]. destruct Ho as (Ho & _). apply names_bytes in Ho. tauto. }
  destruct (HH w Bw) as [Bh Lh]. assert (Dh : hex_decode h = Ok (H w)) by (rewrite Eh; apply hex_decode_encode; exact Bh).
  unfold sign_hash in Sg. destruct (zlen h =? 0); [discriminate|]. destruct (negb (zlen key =? 32)); [discriminate|]. rewrite Dh in Sg. cbn [bind] in Sg. destruct (negb (zlen (H w) =? 32)); [discriminate|]. destruct (sign key (H w)) as [s|] eqn:Es; [|discriminate].
  assert (Esig : signature = hex_encode s) by congruence. destruct (SL _ _ _ Es) as [Bs Ls]. assert (Ds : hex_decode signature = Ok s) by (rewrite Esig; apply hex_decode_encode; exact Bs).
  assert (Lsig : zlen signature = 128) by (rewrite Esig; rewrite zlen_hex_encode; lia).
  destruct (filenet_round_trip H sort max_len now from outs raw h signature s So Bf To Rn Lm L64 E0 Lsig Ds) as (t & Dt & T1 & T2 & T3 & T4 & T5 & T6 & T7).
  destruct (filenet_outputs_sorted H sort max_len now from outs raw h signature t So Bf To Rn Lm L64 E0 Sf So' Dt) as (T8 & _ & _).
  assert (VC : verify_and_combine btc_alphabet H max_len decompress verify raw signature pubkey = Ok (Some t)).
  { apply filenet_verified_iff; [exact HB|]. split; [exact Dt|]. exists w, s, p, x, k. split; [rewrite Er; apply hex_decode_encode; exact Bw|]. split; [exact Ds|]. split; [exact Ep|]. split; [exact Ed|]. apply SV. exact Es. }
  destruct (proj1 (filenet_text_iff H max_len decompress verify raw signature pubkey HB) t VC) as (text & v & C & U & V). exists text, v. split; [exact C|]. split; [exact U|].
  assert (DD : t_details t = map (fun o => (o_address o, o_amount o)) (sort less outs)).
  { assert (SS : Forall (fun o => exists a, standard (o_address o) a) (sort less outs)) by (eapply Permutation_Forall; [exact (proj1 (So less less_weak outs))|exact So']). clear - T7 SS. revert SS. induction T7 as [|o d l ds [(a & Na & Sa) Ea] T7 IH]; intros SS; [reflexivity|]. inversion SS as [|? ? (a' & Sa') SS']; subst. cbn [map]. f_equal; [|apply IH; exact SS'].
    destruct d as [d1 d2]. cbn [fst snd] in *. subst d2. f_equal. assert (a' = a) by (eapply names_unique; [apply standard_names; exact Sa'|exact Na]). subst a'. destruct Sa as (_ & _ & Sa), Sa' as (_ & _ & Sa'). eapply base58_of_unique; eassumption. }
  rewrite DD, T1, T3, T4, T5, T6, T8 in V. exact V.
Qed.

(** ** Example: two outputs given out of order, their total wraps *)
Definition ex_hash (d : bytes) : bytes := repeat (zlen d mod 256) 32.
Lemma ex_hash_ok d : is_bytes d -> is_bytes (ex_hash d) /\ zlen (ex_hash d) = 32.
Proof. intros _. split; [|reflexivity]. apply Forall_forall. intros c Hc. apply repeat_spec in Hc. subst c. unfold is_byte. pose proof (Z.mod_pos_bound (zlen d) 256). lia. Qed.
Example filenet_flow_example : exists raw h signature text v, create btc_alphabet ex_hash isort 1569831542 (ex_addr 3) ex_outs = Ok (raw, h) /\
  sign_hash (fun _ d => Some (d ++ d)) h (repeat 7 32) = Ok signature /\
  combine_text btc_alphabet ex_hash 1000 (fun p => p) (fun _ d s => beq s (d ++ d)) raw signature (hex_encode [2; 3]) = Ok (Some text) /\ is_json text v /\
  transfer_val h (ex_addr 3) 2 5 1569831542 [(ex_addr 1, 2 ^ 63); (ex_addr 2, 2 ^ 63 + 5)] signature v.
Proof.
  assert (B1 : is_byte 1 /\ is_byte 2 /\ is_byte 3) by (unfold is_byte; lia). destruct B1 as (B1 & B2 & B3).
  destruct filenet_example_typed as (T & B & F & Sf & S5). assert (IS : isort less ex_outs = [{| o_address := ex_addr 1; o_amount := 2 ^ 63 |}; {| o_address := ex_addr 2; o_amount := 2 ^ 63 + 5 |}]) by (vm_compute; reflexivity).
  assert (ST : forall n, is_byte n -> names (ex_addr n) (repeat n 20)) by (intros n Bn; apply standard_names, ex_standard; exact Bn).
  set (w := wire (repeat 3 20) (zlen ex_outs) (sum (map o_amount ex_outs) mod 2 ^ 64) 1569831542 [(repeat 1 20, 2 ^ 63); (repeat 2 20, 2 ^ 63 + 5)]).
  assert (C : create btc_alphabet ex_hash isort 1569831542 (ex_addr 3) ex_outs = Ok (hex_encode w, hex_encode (ex_hash w))).
  { apply filenet_created_iff; [exact isort_sorts|exact B|exact T|clear; lia|]. eexists _, _. split; [discriminate|]. split; [apply ST; exact B3|]. split; [|split; reflexivity]. rewrite IS. constructor; [|constructor; [|constructor]]; (split; [apply ST; assumption|split; [reflexivity|discriminate]]). }
  assert (Bw : is_bytes w) by (apply bytes_dec; vm_compute; reflexivity). destruct (ex_hash_ok w Bw) as [Bh Lh].
  assert (G : sign_hash (fun _ d => Some (d ++ d)) (hex_encode (ex_hash w)) (repeat 7 32) = Ok (hex_encode (ex_hash w ++ ex_hash w))).
  { unfold sign_hash. rewrite zlen_hex_encode, Lh. change (2 * 32 =? 0) with false. change (negb (zlen (repeat 7 32) =? 32)) with false. cbv iota. rewrite hex_decode_encode by exact Bh. cbn [bind]. rewrite Lh. reflexivity. }
  destruct (filenet_text_flow ex_hash isort (fun _ d => if zlen d =? 32 then if forallb is_byteb d then Some (d ++ d) else None else None) (fun p => p) (fun _ d s => beq s (d ++ d)) 1000 1569831542 (ex_addr 3) ex_outs (hex_encode w) (hex_encode (ex_hash w)) (repeat 7 32) (hex_encode (ex_hash w ++ ex_hash w)) (hex_encode [2; 3]) [2; 3] 2 [3]) as (text & v & E1 & E2 & E3).
  - exact ex_hash_ok.
  - exact isort_sorts.
  - exact B.
  - exact T.
  - clear; lia.
  - vm_compute. discriminate.
  - reflexivity.
  - intros kk d s. destruct (zlen d =? 32) eqn:L; [|discriminate]. destruct (forallb is_byteb d) eqn:Fb; [|discriminate]. intros X. assert (s = d ++ d) by congruence. subst s. split; [apply is_bytes_app; split; apply bytes_dec; exact Fb|]. rewrite zlen_app. clear - L. lia.
  - exact C.
  - exact Sf.
  - exact F.
  - revert G. unfold sign_hash. rewrite zlen_hex_encode, Lh. change (2 * 32 =? 0) with false. change (negb (zlen (repeat 7 32) =? 32)) with false. cbv iota. rewrite hex_decode_encode by exact Bh. cbn [bind]. rewrite Lh. intros _. change (negb (32 =? 32)) with false. change (32 =? 32) with true. cbv iota. replace (forallb is_byteb (ex_hash w)) with true; [reflexivity|]. symmetry. apply forallb_forall. intros c Hc. unfold is_bytes in Bh. rewrite Forall_forall in Bh. specialize (Bh c Hc). unfold is_byte in Bh. unfold is_byteb. clear - Bh. lia.
  - reflexivity.
  - reflexivity.
  - intros d s. destruct (zlen d =? 32) eqn:L; [|discriminate]. destruct (forallb is_byteb d); [|discriminate]. intros X. assert (s = d ++ d) by congruence. subst s. apply beq_eq. reflexivity.
  - exists (hex_encode w), (hex_encode (ex_hash w)), (hex_encode (ex_hash w ++ ex_hash w)), text, v. split; [exact C|]. split; [exact G|]. split; [exact E1|]. split; [exact E2|]. rewrite IS, S5 in E3. cbn [map o_address o_amount] in E3. change (zlen ex_outs) with 2 in E3. exact E3.
Qed.
Print Assumptions filenet_text_iff.
Print Assumptions filenet_text_flow.
