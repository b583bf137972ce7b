(** C47, C79: Filenet transfers. *)
From Coq Require Import ZArith List Bool Lia ZifyBool ZifyNat Permutation Sorted.
From Verif Require Import Go GoFacts GoFacts2 Codes Rd Base58Model Base58Spec Base58Props AddressProofs FilenetModel.
Import ListNotations.
Open Scope Z_scope.
Ltac Zify.zify_post_hook ::= idtac.

(** ** Specification *)
(** An address is the Base58 text of the hex text of 20 bytes; the standard one uses lower-case digits. *)
Definition names (s : list Z) (a : bytes) : Prop := exists hx, is_bytes hx /\ is_base58_of btc_alphabet_str hx s /\ hex_decode hx = Ok a /\ zlen a = 20.
Definition standard (s : list Z) (a : bytes) : Prop := is_bytes a /\ zlen a = 20 /\ is_base58_of btc_alphabet_str (hex_encode a) s.
(** The bytes of a transfer: sender, number of outputs, total, time, outputs. *)
Definition wire (from : bytes) (count total ts : Z) (tos : list (bytes * Z)) : bytes :=
  from ++ le_bytes 8 count ++ le_bytes 8 total ++ le_bytes 8 ts ++ concat (map (fun t => fst t ++ le_bytes 8 (snd t)) tos).
Definition sum (l : list Z) : Z := fold_right Z.add 0 l.
(** Lexicographic order of texts. *)
Fixpoint text_le (a b : list Z) : Prop :=
  match a, b with
  | [], _ => True
  | _ :: _, [] => False
  | x :: a', y :: b' => x < y \/ (x = y /\ text_le a' b')
  end.
(** What Go promises about sort.Sort: for a strict weak order, a permutation in which no element is less than an earlier one. *)
Definition strict_weak (lt : vout -> vout -> bool) : Prop :=
  (forall a, lt a a = false) /\ (forall a b c, lt a b = true -> lt b c = true -> lt a c = true) /\ (forall a b c, lt b a = false -> lt c b = false -> lt c a = false).
Definition sorts (sort : (vout -> vout -> bool) -> list vout -> list vout) : Prop :=
  forall lt, strict_weak lt -> forall l, Permutation l (sort lt l) /\ StronglySorted (fun a b => lt b a = false) (sort lt l).
Definition typed (outs : list vout) : Prop := Forall (fun o => is_bytes (o_address o) /\ 0 <= o_amount o < 2 ^ 64) outs.

(** ** Addresses *)
Lemma hex_digit_byte v : 0 <= v < 16 -> is_byte (hex_digit v).
Proof. intros B. unfold hex_digit, is_byte. destruct (v <? 10) eqn:E; lia. Qed.
Lemma hex_text_bytes l : is_bytes l -> is_bytes (hex_encode l).
Proof.
  induction 1 as [|b l B _ IH]; [constructor|]. unfold hex_encode in *. cbn [flat_map app]. unfold is_byte in B. constructor; [apply hex_digit_byte; Z.div_mod_to_equations; lia|]. constructor; [apply hex_digit_byte; Z.div_mod_to_equations; lia|exact IH].
Qed.
Lemma numeral_dec b s : is_bytes b -> is_base58_of btc_alphabet_str b s -> base58_decode btc_alphabet s = Ok b /\ base58_encode btc_alphabet b = Ok s.
Proof.
  intros B N. destruct (base58_encode_positional _ _ b btc_alphabet_ok btc_alphabet_new B) as (s' & E & P). rewrite (base58_of_unique _ _ _ _ N P). destruct (base58_decode_encode _ _ b btc_alphabet_ok btc_alphabet_new B) as (s2 & E2 & D). rewrite E in E2. injection E2 as <-. auto.
Qed.
Lemma dec_numeral s b : is_bytes s -> base58_decode btc_alphabet s = Ok b -> is_bytes b /\ is_base58_of btc_alphabet_str b s.
Proof.
  intros Bs D. destruct (base58_encode_decode _ _ _ _ btc_alphabet_ok btc_alphabet_new Bs D) as [B E]. split; [exact B|]. destruct (base58_encode_positional _ _ b btc_alphabet_ok btc_alphabet_new B) as (s' & E' & P). rewrite E in E'. injection E' as <-. exact P.
Qed.
Lemma decode_address_iff s a : is_bytes s -> decode_address btc_alphabet s = Ok a <-> names s a.
Proof.
  intros Bs. unfold decode_address, names. split.
  - intros E. apply bind_ok in E as (hx & D & E). apply bind_ok in E as (x & Ex & E). destruct (zlen x =? 20) eqn:L; [|discriminate]. injection E as <-. exists hx. destruct (dec_numeral _ _ Bs D) as [B P]. repeat (split; try assumption). lia.
  - intros (hx & B & P & Ex & L). rewrite (proj1 (numeral_dec _ _ B P)). cbn [bind]. rewrite Ex. cbn [bind]. rewrite L. reflexivity.
Qed.
Lemma decode_address_np s : is_bytes s -> decode_address btc_alphabet s <> Panic.
Proof.
  intros Bs. unfold decode_address. destruct (base58_decode_never_panics _ _ s btc_alphabet_ok btc_alphabet_new Bs) as [Q _]. destruct (base58_decode btc_alphabet s) as [hx| |]; [|discriminate|contradiction]. cbn [bind].
  pose proof (hex_decode_not_panic hx). destruct (hex_decode hx) as [x| |]; [|discriminate|contradiction]. cbn [bind]. destruct (negb _); discriminate.
Qed.
Lemma names_bytes s a : names s a -> is_bytes a /\ zlen a = 20 /\ s <> [].
Proof.
  intros (hx & B & P & Ex & L). split; [apply hex_decode_bytes in Ex; tauto|]. split; [exact L|]. intros ->. destruct (numeral_dec _ _ B P) as [D _]. change (base58_decode btc_alphabet []) with (@Ok bytes []) in D. injection D as <-. injection Ex as <-. discriminate L.
Qed.
Lemma names_unique s a b : names s a -> names s b -> a = b.
Proof. intros (x & B & P & E & _) (y & B' & P' & E' & _). apply numeral_dec in P as [D _]; [|exact B]. apply numeral_dec in P' as [D' _]; [|exact B']. congruence. Qed.
Lemma standard_names s a : standard s a -> names s a.
Proof. intros (B & L & P). exists (hex_encode a). split; [apply hex_text_bytes; exact B|]. split; [exact P|]. split; [apply hex_decode_encode; exact B|exact L]. Qed.
Lemma standard_text s t a : standard s a -> standard t a -> s = t.
Proof. intros (_ & _ & P) (_ & _ & Q). eapply base58_of_unique; eassumption. Qed.
Lemma encode_address_iff a s : is_bytes a -> encode_address btc_alphabet a = Ok s <-> standard s a.
Proof.
  intros B. unfold encode_address, standard. split.
  - destruct (zlen a =? 20) eqn:L; [|discriminate]. cbn [negb]. intros E. split; [exact B|]. split; [lia|]. destruct (base58_encode_positional _ _ (hex_encode a) btc_alphabet_ok btc_alphabet_new (hex_text_bytes _ B)) as (s' & E' & P). rewrite E in E'. injection E' as <-. exact P.
  - intros (_ & L & P). rewrite L. cbn [Z.eqb negb]. apply numeral_dec in P as [_ E]; [exact E|apply hex_text_bytes; exact B].
Qed.
Lemma encode_address_ok a : is_bytes a -> zlen a = 20 -> exists s, encode_address btc_alphabet a = Ok s /\ standard s a.
Proof.
  intros B L. destruct (base58_encode_positional _ _ (hex_encode a) btc_alphabet_ok btc_alphabet_new (hex_text_bytes _ B)) as (s & E & P). exists s. split; [unfold encode_address; rewrite L; exact E|]. split; auto.
Qed.
(** ** The order *)
Lemma ltb_irrefl a : text_ltb a a = false.
Proof. induction a as [|x a IH]; [reflexivity|]. cbn [text_ltb]. rewrite IH. lia. Qed.
Lemma ltb_le a : forall b, text_ltb b a = false <-> text_le a b.
Proof.
  induction a as [|x a IH]; intros [|y b]; cbn [text_ltb text_le]; try tauto; [split; [discriminate|tauto]|].
  rewrite <- (IH b). destruct (text_ltb b a); lia.
Qed.
Lemma le_trans a : forall b c, text_le a b -> text_le b c -> text_le a c.
Proof.
  induction a as [|x a IH]; intros [|y b] [|z c]; cbn [text_le]; try tauto. intros [P|[P P']] [Q|[Q Q']]; [left; lia..|]. right. split; [lia|]. eapply IH; eassumption.
Qed.
Lemma ltb_trans a : forall b c, text_ltb a b = true -> text_ltb b c = true -> text_ltb a c = true.
Proof.
  induction a as [|x a IH]; intros [|y b] [|z c]; cbn [text_ltb]; try discriminate; try reflexivity. intros P Q. specialize (IH b c). destruct (text_ltb a b), (text_ltb b c), (text_ltb a c); lia.
Qed.
Lemma less_weak : strict_weak less.
Proof.
  split; [intros a; apply ltb_irrefl|]. split; [intros a b c; apply ltb_trans|]. intros a b c P Q. unfold less in *. apply ltb_le in P. apply ltb_le in Q. apply ltb_le. eapply le_trans; eassumption.
Qed.
(** ** What is created *)
Lemma sum_perm l m : Permutation l m -> sum l = sum m.
Proof. induction 1; unfold sum in *; cbn [fold_right] in *; lia. Qed.
Definition output (o : vout) (t : bytes * Z) : Prop := names (o_address o) (fst t) /\ snd t = o_amount o /\ o_amount o <> 0.
Lemma new_outs_iff outs : typed outs -> forall total tot' l, new_outs btc_alphabet outs total = Ok (tot', l) <->
  exists tos, Forall2 output outs tos /\ l = map (fun t => (fst t, le_bytes 8 (snd t))) tos /\ tot' = fold_left (fun a o => u64 (a + o_amount o)) outs total.
Proof.
  induction 1 as [|o outs (Ba & Bo) _ IH]; intros total tot' l; cbn [new_outs].
  - split; [intros E; injection E as <- <-; exists []; repeat split; constructor|]. intros (tos & F & -> & ->). inversion F; subst. reflexivity.
  - assert (Q : match o_address o with [] => Err | _ :: _ => if o_amount o =? 0 then Err else a <- decode_address btc_alphabet (o_address o) ;; '(total0, t) <- new_outs btc_alphabet outs (u64 (total + o_amount o)) ;; Ok (total0, (a, le_bytes 8 (o_amount o)) :: t) end
        = if (zlen (o_address o) =? 0) || (o_amount o =? 0) then Err else a <- decode_address btc_alphabet (o_address o) ;; '(total0, t) <- new_outs btc_alphabet outs (u64 (total + o_amount o)) ;; Ok (total0, (a, le_bytes 8 (o_amount o)) :: t)).
    { destruct (o_address o) as [|x y]; [reflexivity|]. rewrite zlen_cons. pose proof (zlen_nonneg y). replace (1 + zlen y =? 0) with false by lia. reflexivity. }
    rewrite Q. clear Q. split.
    + destruct ((zlen (o_address o) =? 0) || (o_amount o =? 0)) eqn:Z0; [discriminate|]. intros E. apply bind_ok in E as (a & Ea & E). apply bind_ok in E as ([t2 l2] & E2 & E). apply decode_address_iff in Ea; [|exact Ba]. apply IH in E2 as (tos & F & -> & ->). exists ((a, o_amount o) :: tos).
      apply (f_equal (fun x => match x with Ok v => v | _ => (0, []) end)) in E. cbv beta iota in E. split; [constructor; [|exact F]; split; [exact Ea|]; split; [reflexivity|lia]|]. split; [apply (f_equal snd) in E; symmetry; exact E|apply (f_equal fst) in E; symmetry; exact E].
    + intros (tos & F & -> & ->). inversion F as [|? t ? tos' (N & S & NZ) F']; subst. pose proof (names_bytes _ _ N) as (_ & _ & NE). replace ((zlen (o_address o) =? 0) || (o_amount o =? 0)) with false by (destruct (o_address o); [contradiction|rewrite zlen_cons; pose proof (zlen_nonneg l); lia]).
      apply decode_address_iff in N; [|exact Ba]. rewrite N. cbn [bind]. assert (E : new_outs btc_alphabet outs (u64 (total + o_amount o)) = Ok (fold_left (fun a o0 => u64 (a + o_amount o0)) outs (u64 (total + o_amount o)), map (fun t0 => (fst t0, le_bytes 8 (snd t0))) tos')) by (apply IH; exists tos'; auto). rewrite E. cbn [bind fold_left map]. rewrite S. reflexivity.
Qed.
Lemma fold_total outs : forall a, 0 <= a < 2 ^ 64 -> fold_left (fun a o => u64 (a + o_amount o)) outs a = (a + sum (map o_amount outs)) mod 2 ^ 64.
Proof.
  induction outs as [|o outs IH]; intros a B; cbn [fold_left map]; unfold sum in *; cbn [fold_right]; [rewrite Z.add_0_r, Z.mod_small by exact B; reflexivity|].
  rewrite IH by (apply Z.mod_pos_bound; lia). unfold u64. rewrite Z.add_mod_idemp_l by lia. f_equal. lia.
Qed.
Lemma wire_flat (tos : list (bytes * Z)) : flat_map (fun p : bytes * bytes => fst p ++ snd p) (map (fun t => (fst t, le_bytes 8 (snd t))) tos) = concat (map (fun t => fst t ++ le_bytes 8 (snd t)) tos).
Proof. induction tos as [|t tos IH]; [reflexivity|]. cbn [map flat_map concat fst snd]. rewrite IH. reflexivity. Qed.
Lemma typed_perm l m : Permutation l m -> typed l -> typed m.
Proof. intros P T. unfold typed in *. rewrite Forall_forall in *. intros x Hx. apply T. eapply Permutation_in; [symmetry; exact P|exact Hx]. Qed.
(** The transfer has the outputs in the order of their addresses, their number, their total modulo 2^64 and the time. *)
Theorem filenet_created_iff : forall H sort now from outs raw h, sorts sort -> is_bytes from -> typed outs -> 0 <= now < 2 ^ 63 ->
  create btc_alphabet H sort now from outs = Ok (raw, h) <->
  exists f tos, outs <> [] /\ names from f /\ Forall2 output (sort less outs) tos /\
    raw = hex_encode (wire f (zlen outs) (sum (map o_amount outs) mod 2 ^ 64) now tos) /\
    h = hex_encode (H (wire f (zlen outs) (sum (map o_amount outs) mod 2 ^ 64) now tos)).
Proof.
  intros H sort now from outs raw h S Bf T N. destruct (S less less_weak outs) as [P _]. pose proof (typed_perm _ _ P T) as T'. unfold create, new_tx. rewrite (sum_perm _ _ (Permutation_map o_amount P)).
  assert (U : u64 now = now) by (unfold u64; apply Z.mod_small; lia). rewrite U. split.
  - intros E. apply bind_ok in E as (b & Eb & E). destruct from as [|x y]; [discriminate|]. apply bind_ok in Eb as (f & Ef & Eb). apply decode_address_iff in Ef; [|exact Bf]. destruct outs as [|o os]; [discriminate|]. apply bind_ok in Eb as ([tot l] & El & Eb). apply new_outs_iff in El as (tos & F & -> & ->); [|exact T'].
    rewrite fold_total in Eb by lia. rewrite wire_flat in Eb. rewrite Z.add_0_l in Eb. apply (f_equal (fun x => match x with Ok v => v | _ => [] end)) in Eb. cbv beta iota in Eb. exists f, tos. split; [discriminate|]. split; [exact Ef|]. split; [exact F|]. unfold wire. rewrite Eb. split; [apply (f_equal (fun x => match x with Ok v => fst v | _ => [] end)) in E|apply (f_equal (fun x => match x with Ok v => snd v | _ => [] end)) in E]; symmetry; exact E.
  - intros (f & tos & NE & Nf & F & -> & ->). pose proof (names_bytes _ _ Nf) as (_ & _ & NF). destruct from as [|x y]; [contradiction|]. apply decode_address_iff in Nf; [|exact Bf]. rewrite Nf. cbn [bind]. destruct outs as [|o os]; [contradiction|].
    assert (E : new_outs btc_alphabet (sort less (o :: os)) 0 = Ok (fold_left (fun a o0 => u64 (a + o_amount o0)) (sort less (o :: os)) 0, map (fun t => (fst t, le_bytes 8 (snd t))) tos)) by (apply new_outs_iff; [exact T'|]; exists tos; auto). rewrite E. cbn [bind]. rewrite fold_total by lia. rewrite wire_flat, Z.add_0_l. reflexivity.
Qed.
(** ** What is read *)
Definition entry (t : bytes * Z) : Prop := is_bytes (fst t) /\ zlen (fst t) = 20 /\ 0 <= snd t < 2 ^ 64.
Definition shown (d : list Z * Z) (t : bytes * Z) : Prop := standard (fst d) (fst t) /\ snd d = snd t.
Lemma detail_ok d t rest : entry t -> shown d t -> detail btc_alphabet ((fst t ++ le_bytes 8 (snd t)) ++ rest) = Ok (d, rest).
Proof.
  intros (B & L & V) (S & E). unfold detail. rewrite need_app by (rewrite zlen_app, zlen_le_bytes; lia). rewrite slice_pre by lia. cbn [bind]. apply encode_address_iff in S; [|exact B]. rewrite S. cbn [bind]. rewrite <- (app_nil_r (le_bytes 8 (snd t))). rewrite slice_mid by (rewrite ?zlen_le_bytes; lia). cbn [bind]. rewrite le_num_of_small by exact V. destruct d; cbn [fst snd] in *. subst. reflexivity.
Qed.
Lemma details_ok ds : forall tos rest, Forall entry tos -> Forall2 shown ds tos -> readn (length tos) (detail btc_alphabet) (concat (map (fun t => fst t ++ le_bytes 8 (snd t)) tos) ++ rest) = Ok (ds, rest).
Proof.
  induction ds as [|d ds IH]; intros tos rest E F; inversion F as [|? t ? tos' S F']; subst; [reflexivity|]. inversion E; subst. cbn [length readn map concat]. rewrite <- app_assoc, (detail_ok d t) by assumption. cbn [bind]. rewrite IH by assumption. reflexivity.
Qed.
Lemma detail_inv rest d r : is_bytes rest -> detail btc_alphabet rest = Ok (d, r) -> exists t, entry t /\ shown d t /\ rest = (fst t ++ le_bytes 8 (snd t)) ++ r /\ is_bytes r.
Proof.
  intros B E. unfold detail in E. apply need_inv in E as (x & y & -> & L & E); [|lia]. apply bind_ok in E as (a & Ea & E). apply bind_ok in E as (s & Es & E). apply bind_ok in E as (v & Ev & E). apply is_bytes_app in B as [Bx By].
  assert (X : x = firstn 20 x ++ skipn 20 x) by (symmetry; apply firstn_skipn). assert (L1 : zlen (firstn 20 x) = 20) by (unfold zlen in *; rewrite firstn_length; lia). assert (L2 : zlen (skipn 20 x) = 8) by (unfold zlen in *; rewrite skipn_length; lia).
  rewrite X in Ea, Ev. rewrite slice_pre in Ea by lia. injection Ea as <-. rewrite <- (app_nil_r (skipn 20 x)) in Ev. rewrite slice_mid in Ev by lia. injection Ev as <-. rewrite X in Bx. apply is_bytes_app in Bx as [B1 B2]. apply encode_address_iff in Es; [|exact B1].
  exists (firstn 20 x, le_num (skipn 20 x)). injection E as <- <-. cbn [fst snd]. split; [split; [exact B1|]; split; [exact L1|]; pose proof (le_num_bound _ B2) as Q; rewrite L2 in Q; exact Q|]. split; [split; [exact Es|reflexivity]|]. split; [|exact By]. f_equal. rewrite X at 1. f_equal. rewrite <- (le_bytes_le_num (skipn 20 x)) at 1 by exact B2. f_equal. unfold zlen in L2. lia.
Qed.
Lemma details_inv n : forall rest ds r, is_bytes rest -> readn n (detail btc_alphabet) rest = Ok (ds, r) -> exists tos, Forall entry tos /\ Forall2 shown ds tos /\ rest = concat (map (fun t => fst t ++ le_bytes 8 (snd t)) tos) ++ r /\ length tos = n.
Proof.
  induction n as [|n IH]; intros rest ds r B E; cbn [readn] in E; [injection E as <- <-; exists []; repeat split; constructor|].
  apply bind_ok in E as ([d r1] & E1 & E). apply bind_ok in E as ([ds' r2] & E2 & E). injection E as <- <-. apply detail_inv in E1 as (t & Et & S & -> & B1); [|exact B]. apply IH in E2 as (tos & F & G & -> & L); [|exact B1]. exists (t :: tos). split; [constructor; assumption|]. split; [constructor; assumption|]. split; [cbn [map concat]; rewrite <- !app_assoc; reflexivity|cbn [length]; lia].
Qed.
(** A text is read exactly when it is the hex of the bytes of a transfer; the total is whatever is written there. *)
Theorem filenet_read_iff : forall H max_len raw signature t, 
  decode_raw btc_alphabet H max_len raw signature = Ok t <->
  exists f total ts tos, is_bytes f /\ zlen f = 20 /\ 0 <= total < 2 ^ 64 /\ 0 <= ts < 2 ^ 64 /\ Forall entry tos /\ zlen tos <= max_len /\ zlen tos < 2 ^ 64 /\
    hex_decode raw = Ok (wire f (zlen tos) total ts tos) /\ zlen signature = 128 /\ (exists s, hex_decode signature = Ok s) /\
    t_txid t = hex_encode (H (wire f (zlen tos) total ts tos)) /\ standard (t_from t) f /\ t_count t = zlen tos /\ t_value t = total /\ t_timestamp t = s64 ts /\ Forall2 shown (t_details t) tos /\ t_sign t = signature.
Proof.
  intros H max_len raw signature t. unfold decode_raw. split.
  - intros E. apply bind_ok in E as (w & Ew & E). destruct (zlen w =? 0); [discriminate|]. pose proof Ew as Bw. apply hex_decode_bytes in Bw as [Bw _].
    apply need_inv in E as (f & r1 & Hw & Lf & E); [|lia]. subst w. apply is_bytes_app in Bw as [Bf B1]. apply bind_ok in E as (from & Ef & E). apply encode_address_iff in Ef; [|exact Bf].
    apply need_inv in E as (c & r2 & -> & Lc & E); [|lia]. apply is_bytes_app in B1 as [Bc B2]. apply need_inv in E as (v & r3 & -> & Lv & E); [|lia]. apply is_bytes_app in B2 as [Bv B3]. apply need_inv in E as (ts & r4 & -> & Lt & E); [|lia]. apply is_bytes_app in B3 as [Bt B4].
    destruct (max_len <? le_num c) eqn:M; [discriminate|]. apply bind_ok in E as ([ds r5] & Ed & E). destruct (zlen r5 =? 0) eqn:L5; [|discriminate]. destruct (zlen signature =? 128) eqn:LS; [|discriminate]. cbn [negb] in E. apply bind_ok in E as (s & Es & E). 
    apply details_inv in Ed as (tos & F & G & -> & Ln); [|exact B4]. assert (r5 = []) by (destruct r5; [reflexivity|rewrite zlen_cons in L5; pose proof (zlen_nonneg r5); lia]). subst r5. rewrite app_nil_r in *.
    assert (BD : forall b, is_bytes b -> zlen b = 8 -> 0 <= le_num b < 2 ^ 64 /\ le_bytes 8 (le_num b) = b). { intros b Bb Lb. pose proof (le_num_bound _ Bb) as Q. rewrite Lb in Q. split; [exact Q|]. rewrite <- (le_bytes_le_num b) at 2 by exact Bb. f_equal. unfold zlen in Lb. lia. }
    destruct (BD c Bc Lc) as [Rc Ec]. destruct (BD v Bv Lv) as [Rv Ev]. destruct (BD ts Bt Lt) as [Rt Et]. assert (Lt' : zlen tos = le_num c) by (unfold zlen; lia).
    match type of Ew with _ = Ok ?x => assert (W : x = wire f (zlen tos) (le_num v) (le_num ts) tos) by (unfold wire; rewrite Lt', Ec, Ev, Et; reflexivity) end. rewrite W in Ew, E.
    apply (f_equal (fun x => match x with Ok v => v | _ => t end)) in E. cbv beta iota in E. subst t. cbn [t_txid t_from t_count t_value t_timestamp t_details t_sign].
    exists f, (le_num v), (le_num ts), tos. repeat (split; [try assumption; try lia|]); try reflexivity; eauto; lia.
  - intros (f & total & ts & tos & Bf & Lf & Rv & Rt & F & M & C & Ew & LS & (s & Es) & T1 & T2 & T3 & T4 & T5 & T6 & T7). rewrite Ew. cbn [bind]. unfold wire at 1 2. rewrite zlen_app at 1. match goal with |- context [zlen f + zlen ?x =? 0] => pose proof (zlen_nonneg x); replace (zlen f + zlen x =? 0) with false by lia end. rewrite need_app by exact Lf. apply encode_address_iff in T2; [|exact Bf]. rewrite T2. cbn [bind]. rewrite !need_app by (rewrite zlen_le_bytes; reflexivity).
    pose proof (zlen_nonneg tos). rewrite !le_num_of_small by (assumption || (split; assumption)). replace (max_len <? zlen tos) with false by lia. match goal with |- context [readn ?n ?d ?l] => assert (D : readn n d l = Ok (t_details t, [])) end. { unfold zlen. rewrite Nat2Z.id. rewrite <- (app_nil_r (concat _)). apply details_ok; assumption. }
    rewrite D. cbn [bind]. change (negb (zlen (@nil Z) =? 0)) with false. cbv iota. rewrite LS. change (negb (128 =? 128)) with false. cbv iota. rewrite Es. cbn [bind]. rewrite <- T1, <- T3, <- T4, <- T5, <- T7. destruct t. reflexivity.
Qed.

Lemma forall2_len {A B} (R : A -> B -> Prop) l m : Forall2 R l m -> length l = length m.
Proof. induction 1; cbn [length]; congruence. Qed.
(** A created transfer is read back: same hash, sender, number, total modulo 2^64 and time, and the outputs in order. *)
Theorem filenet_round_trip : forall H sort max_len now from outs raw h signature s, sorts sort -> is_bytes from -> typed outs -> 0 <= now < 2 ^ 63 -> zlen outs <= max_len -> zlen outs < 2 ^ 64 ->
  create btc_alphabet H sort now from outs = Ok (raw, h) -> zlen signature = 128 -> hex_decode signature = Ok s ->
  exists t, decode_raw btc_alphabet H max_len raw signature = Ok t /\ t_txid t = h /\ (exists f, names from f /\ standard (t_from t) f) /\
    t_count t = zlen outs /\ t_value t = sum (map o_amount outs) mod 2 ^ 64 /\ t_timestamp t = now /\ t_sign t = signature /\
    Forall2 (fun o d => (exists a, names (o_address o) a /\ standard (fst d) a) /\ snd d = o_amount o) (sort less outs) (t_details t).
Proof.
  intros H sort max_len now from outs raw h signature s S Bf T N M C E LS Es. destruct (S less less_weak outs) as [P _]. pose proof (typed_perm _ _ P T) as T'. apply filenet_created_iff in E as (f & tos & NE & Nf & F & -> & ->); [|assumption..].
  pose proof (names_bytes _ _ Nf) as (Bff & Lf & _). destruct (encode_address_ok f Bff Lf) as (fs & _ & Sf).
  assert (LT : zlen tos = zlen outs) by (apply Permutation_length in P; apply forall2_len in F; unfold zlen; lia).
  assert (D : Forall entry tos /\ exists ds, Forall2 shown ds tos /\ Forall2 (fun o d => (exists a, names (o_address o) a /\ standard (fst d) a) /\ snd d = o_amount o) (sort less outs) ds).
  { clear - F T'. induction F as [|o t os tos (No & Vo & _) F IH]; [split; [constructor|exists []; split; constructor]|]. inversion T' as [|? ? (_ & Ro) T'']; subst. destruct (IH T'') as (En & ds & D1 & D2). pose proof (names_bytes _ _ No) as (Bo & Lo & _). destruct (encode_address_ok _ Bo Lo) as (so & _ & So). split; [constructor; [split; [exact Bo|split; [exact Lo|lia]]|exact En]|]. exists ((so, o_amount o) :: ds). split; constructor; try assumption; [split; [exact So|symmetry; exact Vo]|]. split; [exists (fst t); auto|reflexivity]. }
  destruct D as (En & ds & D1 & D2). set (tot := sum (map o_amount outs) mod 2 ^ 64) in *. assert (Bt : 0 <= tot < 2 ^ 64) by (apply Z.mod_pos_bound; lia).
  set (w := wire f (zlen outs) tot now tos). assert (Bw : is_bytes w). { unfold w, wire. bts. clear - En. induction En as [|t tos (B & _) _ IH]; [constructor|]. cbn [map concat]. apply is_bytes_app. split; [|exact IH]. apply is_bytes_app. split; [exact B|apply le_bytes_is_bytes]. }
  exists {| t_txid := hex_encode (H w); t_from := fs; t_count := zlen outs; t_value := tot; t_timestamp := now; t_details := ds; t_sign := signature |}. cbn [t_txid t_from t_count t_value t_timestamp t_details t_sign]. split; [|split; [reflexivity|]; split; [exists f; auto|]; repeat (split; [reflexivity|]); exact D2].
  apply filenet_read_iff. exists f, tot, now, tos. cbn [t_txid t_from t_count t_value t_timestamp t_details t_sign]. rewrite LT. fold w. rewrite hex_decode_encode by exact Bw. assert (S64 : now = s64 now) by (unfold s64; rewrite Z.mod_small by lia; lia). repeat (split; [try assumption; try lia; try reflexivity; eauto|]). reflexivity.
Qed.
(** With standard addresses, the outputs read are the outputs given, in the order of their addresses. *)
Theorem filenet_outputs_sorted : forall H sort max_len now from outs raw h signature t, sorts sort -> is_bytes from -> typed outs -> 0 <= now < 2 ^ 63 -> zlen outs <= max_len -> zlen outs < 2 ^ 64 ->
  create btc_alphabet H sort now from outs = Ok (raw, h) -> (exists f, standard from f) -> Forall (fun o => exists a, standard (o_address o) a) outs ->
  decode_raw btc_alphabet H max_len raw signature = Ok t ->
  t_from t = from /\ Permutation (map (fun o => (o_address o, o_amount o)) outs) (t_details t) /\ StronglySorted text_le (map fst (t_details t)).
Proof.
  intros H sort max_len now from outs raw h signature t S Bf T N M C E (f & Sf) Fs D. pose proof D as D'. apply filenet_read_iff in D' as (_ & _ & _ & _ & _ & _ & _ & _ & _ & _ & _ & _ & LS & (s & Es) & _).
  destruct (S less less_weak outs) as [P SS]. destruct (filenet_round_trip H sort max_len now from outs raw h signature s S Bf T N M C E LS Es) as (t' & D2 & _ & (f' & Nf & Sf') & _ & _ & _ & _ & F). rewrite D in D2. injection D2 as <-.
  assert (f' = f) by (eapply names_unique; [exact Nf|apply standard_names; exact Sf]). subst f'. split; [eapply standard_text; eassumption|].
  assert (Q : t_details t = map (fun o => (o_address o, o_amount o)) (sort less outs)).
  { assert (Fs' : Forall (fun o => exists a, standard (o_address o) a) (sort less outs)) by (rewrite Forall_forall in *; intros x Hx; apply Fs; eapply Permutation_in; [symmetry; exact P|exact Hx]).
    clear - F Fs'. induction F as [|o d os ds ((a & Na & Sa) & V) F IH]; [reflexivity|]. inversion Fs' as [|? ? (b & Sb) Fs'']; subst. cbn [map]. rewrite (IH Fs''). f_equal. destruct d as [x y]. cbn [fst snd] in *. subst y. f_equal. assert (a = b) by (eapply names_unique; [exact Na|apply standard_names; exact Sb]). subst b. eapply standard_text; eassumption. }
  rewrite Q. split; [apply Permutation_map; exact P|]. rewrite map_map. cbn [fst]. clear - SS. induction SS as [|o os SS IH F]; [constructor|]. cbn [map]. constructor; [exact IH|]. clear - F. induction F as [|x l L F IH]; [constructor|]. cbn [map]. constructor; [|exact IH]. apply ltb_le. exact L.
Qed.
(** ** Verification *)
(** C79: the signature is checked against the hash of the transfer and the key given; nothing ties the key to the sender. *)
Theorem filenet_verified_iff : forall H max_len decompress verify raw signature pubkey t, (forall d, is_bytes d -> is_bytes (H d)) ->
  verify_and_combine btc_alphabet H max_len decompress verify raw signature pubkey = Ok (Some t) <->
  decode_raw btc_alphabet H max_len raw signature = Ok t /\
  exists w s p x key, hex_decode raw = Ok w /\ hex_decode signature = Ok s /\ hex_decode pubkey = Ok p /\ decompress p = x :: key /\ verify key (H w) s = true.
Proof.
  intros H max_len decompress verify raw signature pubkey t HB. unfold verify_and_combine. 
  assert (X : forall t', decode_raw btc_alphabet H max_len raw signature = Ok t' -> exists w s, hex_decode raw = Ok w /\ hex_decode signature = Ok s /\ hex_decode (t_txid t') = Ok (H w)).
  { intros t' D. apply filenet_read_iff in D as (f & tot & ts & tos & _ & _ & _ & _ & _ & _ & _ & Ew & _ & (s & Es) & -> & _). exists (wire f (zlen tos) tot ts tos), s. split; [exact Ew|]. split; [exact Es|]. apply hex_decode_encode. apply HB. apply hex_decode_bytes in Ew. tauto. }
  split.
  - destruct (decode_raw btc_alphabet H max_len raw signature) as [t'| |] eqn:D; [|discriminate..]. destruct (X t' eq_refl) as (w & s & Ew & Es & Et). rewrite Et, Es. destruct (hex_decode pubkey) as [p| |] eqn:Ep; [|discriminate..]. cbv zeta. intros E. apply bind_ok in E as (k & Ek & E). destruct (decompress p) as [|x key] eqn:Dp; [discriminate Ek|]. rewrite slice_from_cons in Ek. injection Ek as <-.
    destruct (verify key (H w) s) eqn:V; [|discriminate]. injection E as <-. split; [reflexivity|]. exists w, s, p, x, key. auto.
  - intros (D & w & s & p & x & key & Ew & Es & Ep & Dp & V). rewrite D. destruct (X t D) as (w' & s' & Ew' & Es' & Et). rewrite Et, Es, Ep. cbv zeta. rewrite Dp, slice_from_cons. cbn [bind]. assert (w' = w) by congruence. subst w'. rewrite V. reflexivity.
Qed.
Lemma detail_np rest : is_bytes rest -> detail btc_alphabet rest <> Panic.
Proof.
  intros B. unfold detail, need. destruct (zlen rest <? 28) eqn:L; [discriminate|]. change (Z.to_nat 28) with 28%nat. assert (L28 : zlen (firstn 28 rest) = 28) by (unfold zlen in *; rewrite firstn_length; lia). set (d := firstn 28 rest) in *. assert (Bd : is_bytes d). { rewrite <- (firstn_skipn 28 rest) in B. apply is_bytes_app in B. tauto. }
  assert (X : d = firstn 20 d ++ skipn 20 d) by (symmetry; apply firstn_skipn). assert (L1 : zlen (firstn 20 d) = 20) by (unfold zlen in *; rewrite firstn_length; lia). assert (L2 : zlen (skipn 20 d) = 8) by (unfold zlen in *; rewrite skipn_length; lia).
  rewrite X. rewrite slice_pre by lia. cbn [bind]. rewrite X in Bd. apply is_bytes_app in Bd as [B1 _]. destruct (encode_address_ok _ B1 L1) as (s & E & _). rewrite E. cbn [bind]. rewrite slice_post by lia. discriminate.
Qed.
Lemma details_np n : forall rest, is_bytes rest -> readn n (detail btc_alphabet) rest <> Panic.
Proof.
  induction n as [|n IH]; intros rest B; cbn [readn]; [discriminate|]. pose proof (detail_np rest B) as NP. destruct (detail btc_alphabet rest) as [[d r]| |] eqn:E; [|discriminate|contradiction]. cbn [bind]. apply detail_inv in E as (_ & _ & _ & _ & Br); [|exact B]. specialize (IH r Br). destruct (readn n (detail btc_alphabet) r) as [[? ?]| |]; [discriminate|discriminate|contradiction].
Qed.
(** C79: reading crashes exactly when the number of outputs that is written is larger than a slice can be, before anything else is checked. *)
Theorem filenet_read_panics_iff : forall H max_len raw signature,
  decode_raw btc_alphabet H max_len raw signature = Panic <->
  exists f c r, hex_decode raw = Ok (f ++ le_bytes 8 c ++ r) /\ zlen f = 20 /\ 0 <= c < 2 ^ 64 /\ 16 <= zlen r /\ max_len < c.
Proof.
  intros H max_len raw signature. split.
  - intros E. unfold decode_raw in E. pose proof (hex_decode_not_panic raw). destruct (hex_decode raw) as [w| |] eqn:Ew; [|discriminate|contradiction]. cbn [bind] in E. destruct (zlen w =? 0); [discriminate|]. apply hex_decode_bytes in Ew as [Bw _].
    assert (NI : forall A n r (k : bytes -> bytes -> res A), 0 <= n -> need n r k = Panic -> exists a b, r = a ++ b /\ zlen a = n /\ k a b = Panic). { intros A n r k Hn. unfold need. destruct (zlen r <? n) eqn:L; [discriminate|]. intros Q. exists (firstn (Z.to_nat n) r), (skipn (Z.to_nat n) r). split; [symmetry; apply firstn_skipn|]. split; [unfold zlen in *; rewrite firstn_length; lia|exact Q]. }
    apply NI in E as (f & r1 & -> & Lf & E); [|lia]. apply is_bytes_app in Bw as [Bf B1]. destruct (encode_address_ok f Bf Lf) as (fs & Ef & _). rewrite Ef in E. cbn [bind] in E.
    apply NI in E as (c & r2 & -> & Lc & E); [|lia]. apply is_bytes_app in B1 as [Bc B2]. apply NI in E as (v & r3 & -> & Lv & E); [|lia]. apply is_bytes_app in B2 as [Bv B3]. apply NI in E as (ts & r4 & -> & Lt & E); [|lia]. apply is_bytes_app in B3 as [Bt B4].
    pose proof (le_num_bound _ Bc) as Q. rewrite Lc in Q. destruct (max_len <? le_num c) eqn:M.
    + exists f, (le_num c), (v ++ ts ++ r4). split; [|split; [exact Lf|]; split; [exact Q|]; split; [rewrite !zlen_app; pose proof (zlen_nonneg r4); lia|lia]]. do 3 f_equal. rewrite <- (le_bytes_le_num c) at 1 by exact Bc. f_equal. unfold zlen in Lc. lia.
    + exfalso. pose proof (details_np (Z.to_nat (le_num c)) r4 B4) as NP. destruct (readn _ _ r4) as [[ds r5]| |]; [|discriminate|contradiction]. cbn [bind] in E. destruct (negb (zlen r5 =? 0)); [discriminate|]. destruct (negb (zlen signature =? 128)); [discriminate|]. pose proof (hex_decode_not_panic signature). destruct (hex_decode signature); [discriminate|discriminate|contradiction].
  - intros (f & c & r & Ew & Lf & Rc & Lr & M). unfold decode_raw. rewrite Ew. cbn [bind]. apply hex_decode_bytes in Ew as [Bw _]. apply is_bytes_app in Bw as [Bf _]. rewrite !zlen_app, zlen_le_bytes. replace (zlen f + (Z.of_nat 8 + zlen r) =? 0) with false by lia. rewrite need_app by exact Lf. destruct (encode_address_ok f Bf Lf) as (fs & Ef & _). rewrite Ef. cbn [bind]. rewrite need_app by (rewrite zlen_le_bytes; reflexivity).
    unfold need at 1. replace (zlen r <? 8) with false by lia. unfold need at 1. assert (zlen (skipn (Z.to_nat 8) r) = zlen r - 8) by (unfold zlen in *; rewrite skipn_length; lia). replace (zlen (skipn (Z.to_nat 8) r) <? 8) with false by lia. rewrite le_num_of_small by exact Rc. replace (max_len <? c) with true by lia. reflexivity.
Qed.

(** ** Examples *)
(** Insertion sort keeps the promise of sort.Sort. *)
Fixpoint insert (lt : vout -> vout -> bool) (x : vout) (l : list vout) : list vout := match l with [] => [x] | y :: r => if lt y x then y :: insert lt x r else x :: l end.
Definition isort (lt : vout -> vout -> bool) (l : list vout) : list vout := fold_right (insert lt) [] l.
Lemma insert_perm lt x l : Permutation (x :: l) (insert lt x l).
Proof. induction l as [|y l IH]; [reflexivity|]. cbn [insert]. destruct (lt y x); [|reflexivity]. etransitivity; [apply perm_swap|]. constructor. exact IH. Qed.
Lemma insert_sorted lt x l : strict_weak lt -> StronglySorted (fun a b => lt b a = false) l -> StronglySorted (fun a b => lt b a = false) (insert lt x l).
Proof.
  intros (I & T & W) S. induction S as [|y l S IH F]; [repeat constructor|]. cbn [insert]. destruct (lt y x) eqn:E.
  - constructor; [exact IH|]. rewrite Forall_forall in *. intros z Hz. apply (Permutation_in z (Permutation_sym (insert_perm lt x l))) in Hz as [<-|Hz]; [|apply F; exact Hz]. destruct (lt x y) eqn:Q; [|reflexivity]. rewrite <- (I x). symmetry. eapply T; eassumption.
  - constructor; [constructor; assumption|]. constructor; [exact E|]. rewrite Forall_forall in *. intros z Hz. eapply W; [exact E|apply F; exact Hz].
Qed.
Example isort_sorts : sorts isort.
Proof.
  intros lt W l. induction l as [|x l [P S]]; [split; constructor|]. cbn [isort fold_right]. split; [|apply insert_sorted; assumption]. etransitivity; [|apply insert_perm]. constructor. exact P.
Qed.
Definition ex_addr (n : Z) : list Z := match encode_address btc_alphabet (repeat n 20) with Ok s => s | _ => [] end.
(** Two outputs given out of order; the total wraps. *)
Definition ex_outs : list vout := [{| o_address := ex_addr 2; o_amount := 2 ^ 63 + 5 |}; {| o_address := ex_addr 1; o_amount := 2 ^ 63 |}].
Lemma ex_standard n : is_byte n -> standard (ex_addr n) (repeat n 20).
Proof.
  intros B. assert (BB : is_bytes (repeat n 20)) by (repeat constructor; apply B). unfold ex_addr. destruct (encode_address_ok (repeat n 20) BB eq_refl) as (s & E & S). rewrite E. exact S.
Qed.
Lemma bytes_dec l : forallb is_byteb l = true -> is_bytes l.
Proof. intros E. rewrite forallb_forall in E. apply Forall_forall. intros x Hx. specialize (E x Hx). unfold is_byteb in E. unfold is_byte. lia. Qed.
Example filenet_example_typed : typed ex_outs /\ is_bytes (ex_addr 3) /\ Forall (fun o => exists a, standard (o_address o) a) ex_outs /\ (exists f, standard (ex_addr 3) f) /\ sum (map o_amount ex_outs) mod 2 ^ 64 = 5.
Proof.
  split; [constructor; [split; [apply bytes_dec; vm_compute; reflexivity|cbn [o_amount]; lia]|constructor; [split; [apply bytes_dec; vm_compute; reflexivity|cbn [o_amount]; lia]|constructor]]|]. split; [apply bytes_dec; vm_compute; reflexivity|].
  split; [constructor; [eexists; apply ex_standard; unfold is_byte; lia|constructor; [eexists; apply ex_standard; unfold is_byte; lia|constructor]]|]. split; [eexists; apply ex_standard; unfold is_byte; lia|reflexivity].
Qed.
Example filenet_created_example : exists raw h, create btc_alphabet (fun d => d) isort 1569831542 (ex_addr 3) ex_outs = Ok (raw, h).
Proof.
  destruct filenet_example_typed as (T & B & F & _). assert (N : exists tos, Forall2 output (isort less ex_outs) tos).
  { destruct (isort_sorts less less_weak ex_outs) as [P _]. assert (F' : Forall (fun o => (exists a, standard (o_address o) a) /\ o_amount o <> 0) (isort less ex_outs)) by (rewrite Forall_forall in *; intros x Hx; apply (Permutation_in x (Permutation_sym P)) in Hx; split; [apply F; exact Hx|destruct Hx as [<-|[<-|[]]]; cbn [o_amount]; lia]).
    clear - F'. induction F' as [|o l ((a & S) & NZ) _ (tos & IH)]; [exists []; constructor|]. exists ((a, o_amount o) :: tos). constructor; [|exact IH]. split; [apply standard_names; exact S|]. split; [reflexivity|exact NZ]. }
  destruct N as (tos & N). do 2 eexists. apply filenet_created_iff; [exact isort_sorts|exact B|exact T|lia|]. exists (repeat 3 20), tos. split; [discriminate|]. split; [apply standard_names, ex_standard; unfold is_byte; lia|]. split; [exact N|]. split; reflexivity.
Qed.
(** An address with upper-case digits names the same bytes but is not standard. *)
Example filenet_other_text : exists s, names s (repeat 171 20) /\ ~ standard s (repeat 171 20).
Proof.
  assert (B : is_bytes (concat (repeat [65; 66] 20))) by (apply bytes_dec; reflexivity). destruct (base58_encode_positional _ _ _ btc_alphabet_ok btc_alphabet_new B) as (s & E & P). exists s. split; [exists (concat (repeat [65; 66] 20)); repeat split; assumption|]. intros (B2 & _ & Q). apply numeral_dec in P as [D _]; [|exact B]. apply numeral_dec in Q as [D' _]; [|apply hex_text_bytes; exact B2]. rewrite D in D'. discriminate D'.
Qed.
(** A count of 2^63 in 44 bytes. *)
Example filenet_panic_example : decode_raw btc_alphabet (fun d => d) (2 ^ 45) (hex_encode (repeat 1 20 ++ le_bytes 8 (2 ^ 63) ++ zeros 16)) [] = Panic.
Proof. apply filenet_read_panics_iff. exists (repeat 1 20), (2 ^ 63), (zeros 16). split; [apply hex_decode_encode; apply bytes_dec; reflexivity|]. repeat split; try lia; reflexivity. Qed.

Print Assumptions filenet_created_iff.
Print Assumptions filenet_read_iff.
Print Assumptions filenet_round_trip.
Print Assumptions filenet_outputs_sorted.
Print Assumptions filenet_verified_iff.
Print Assumptions filenet_read_panics_iff.
