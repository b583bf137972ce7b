(** C42, C43, C76: WaykiChain transactions. *)
From Coq Require Import ZArith List Bool Lia ZifyBool ZifyNat.
From Verif Require Import Go GoFacts GoFacts2 Codes Reader Base58Model Base58Spec Base58Props Base58CheckSpec Base58CheckModel Base58CheckProofs Base58CheckProps SigModel SigDerProps Toy RippleModel WaykiModel.
Import ListNotations.
Open Scope Z_scope.
Ltac Zify.zify_post_hook ::= idtac.

(** ** Specification *)
(** The variable-length integers of the chain: seven bits per byte, high digits first, one added at every continuation. *)
Fixpoint varint_from (acc : Z) (l : bytes) : option (Z * bytes) :=
  match l with
  | [] => None
  | b :: r => if b <? 128 then Some (acc * 128 + b, r) else varint_from (acc * 128 + (b - 128) + 1) r
  end.
Definition varint : reader Z := varint_from 0.
(** A register ID on the wire: a counted pair of integers. *)
Definition reg_id_wire : reader (Z * Z) :=
  b <~ rcounted ;; match rwhole (h <~ varint ;; i <~ varint ;; rret (h, i)) b with Some p => rret p | None => rfail end.
Inductive wicc :=
| Common (height : Z) (from : Z * Z) (dest : bytes) (fee amount : Z)
| Register (height : Z) (pub : bytes) (fee : Z)
| Contract (height : Z) (from app : Z * Z) (fee amount : Z) (code : bytes)
| Ucoin (height : Z) (from : Z * Z) (symbol : bytes) (fee : Z) (dest coin : bytes) (amount : Z).
(** The wire format of the four transactions, after type and version. *)
Definition wicc_body (t : Z) : reader wicc :=
  if t =? 3 then h <~ varint ;; i <~ reg_id_wire ;; d <~ rcounted ;; f <~ varint ;; a <~ varint ;; _ <~ rexact [0] ;; rret (Common h i d f a)
  else if t =? 2 then h <~ varint ;; p <~ rcounted ;; _ <~ rexact [0] ;; f <~ varint ;; rret (Register h p f)
  else if t =? 4 then h <~ varint ;; i <~ reg_id_wire ;; p <~ reg_id_wire ;; f <~ varint ;; a <~ varint ;; c <~ rcounted ;; rret (Contract h i p f a c)
  else if t =? 11 then h <~ varint ;; i <~ reg_id_wire ;; s <~ rcounted ;; f <~ varint ;; _ <~ rexact [1] ;; d <~ rcounted ;; c <~ rcounted ;; a <~ varint ;; _ <~ rexact [0] ;; rret (Ucoin h i s f d c a)
  else rfail.
Definition wicc_tx : reader wicc := t <~ rbyte ;; _ <~ rexact [1] ;; wicc_body t.
(** Decimal text and register IDs "height-index". *)
Definition decimal (s : list Z) (v : Z) : Prop :=
  exists ds, ds <> [] /\ Forall (fun d => 0 <= d <= 9) ds /\ s = map (Z.add 48) ds /\ v = fold_left (fun a d => a * 10 + d) ds 0.
Definition reg_id (s : list Z) (p : Z * Z) : Prop := exists x y, decimal x (fst p) /\ decimal y (snd p) /\ s = x ++ 45 :: y.
Definition max64 := 2 ^ 63 - 1.
Definition clamp (p : Z * Z) : Z * Z := (Z.min (fst p) max64, Z.min (snd p) max64).
(** The same with white space around it. *)
Definition space (c : Z) : Prop := In c [9; 10; 12; 13; 32].
Definition padded_reg_id (a s b : list Z) (p : Z * Z) : Prop := Forall space a /\ Forall space b /\ exists t, reg_id t p /\ s = a ++ t ++ b.
(** What a signed 64-bit amount turns into. *)
Definition wire_value (v : Z) : Z := if v <? 0 then v mod 128 else v.
Definition int64 (v : Z) : Prop := - 2 ^ 63 <= v < 2 ^ 63.
Definition wicc_address (H : bytes -> bytes) (hash : bytes) (address : list Z) : Prop :=
  is_bytes hash /\ zlen hash = 20 /\ (encode_check btc_alphabet H [0x49] hash = Ok address \/ encode_check btc_alphabet H [0x87] hash = Ok address).

(** ** Lemmas *)
Lemma low7 n : Z.land (u8 n) 0x7f = n mod 128.
Proof. unfold u8. change 0x7f with (Z.ones 7). rewrite Z.land_ones by lia. change (2 ^ 8) with 256. change (2 ^ 7) with 128. Z.div_mod_to_equations; lia. Qed.
Lemma low7_or x h : 0 <= x < 128 -> h = 0 \/ h = 128 -> Z.lor x h = x + h.
Proof.
  intros B [-> | ->]; [rewrite Z.lor_0_r; lia|].
  assert (F : forallb (fun n => Z.lor (Z.of_nat n) 128 =? Z.of_nat n + 128) (seq 0 128) = true) by (vm_compute; reflexivity).
  rewrite forallb_forall in F. specialize (F (Z.to_nat x) ltac:(apply in_seq; lia)). rewrite Z2Nat.id in F by lia. lia.
Qed.
Lemma write_ok k : forall f h n, (1 <= k <= f)%nat -> 0 <= n < 128 ^ Z.of_nat k -> h = 0 \/ h = 128 ->
  exists w, write_loop f h n = Ok w /\ sizeof_loop f n = Ok (zlen w) /\ is_bytes w /\ 1 <= zlen w <= Z.of_nat k /\
    (h = 128 -> forall rest, varint_from 0 (rev w ++ rest) = varint_from (n + 1) rest) /\
    (h = 0 -> forall rest, varint_from 0 (rev w ++ rest) = Some (n, rest)).
Proof.
  induction k as [|k IH]; intros f h n Kf B Hh; [lia|]. destruct f as [|f]; [lia|]. cbn [write_loop sizeof_loop]. cbv zeta. rewrite low7.
  assert (M : 0 <= n mod 128 < 128) by (apply Z.mod_pos_bound; lia). rewrite low7_or by assumption. destruct (n <=? 127) eqn:E.
  - rewrite Z.mod_small in * by lia. exists [n + h]. split; [reflexivity|]. split; [reflexivity|]. split; [constructor; [unfold is_byte; lia|constructor]|]. split; [unfold zlen; cbn [length]; lia|].
    split; intros -> rest; cbn [rev app varint_from].
    + replace (n + 128 <? 128) with false by lia. f_equal. lia.
    + replace (n + 0 <? 128) with true by lia. f_equal. f_equal. lia.
  - rewrite Z.shiftr_div_pow2 by lia. change (2 ^ 7) with 128. rewrite Nat2Z.inj_succ, Z.pow_succ_r in B by lia. assert (1 <= k)%nat by (destruct k; [change (128 ^ Z.of_nat 0) with 1 in B|]; lia).
    destruct (IH f 128 (n / 128 - 1)) as (w & Ew & Es & Bw & Lw & R & _); [lia|split; [Z.div_mod_to_equations; lia|apply Z.lt_sub_lt_add_r; assert (n / 128 < 128 ^ Z.of_nat k) by (apply Z.div_lt_upper_bound; lia); lia]|right; reflexivity|].
    rewrite Ew, Es. cbn [bind]. exists ((n mod 128 + h) :: w). split; [reflexivity|]. split; [rewrite zlen_cons; f_equal; lia|]. split; [constructor; [unfold is_byte; lia|exact Bw]|]. split; [rewrite zlen_cons; lia|].
    specialize (R eq_refl). cbn [rev]. split; intros -> rest; rewrite <- app_assoc, R; cbn [app varint_from].
    + replace (n mod 128 + 128 <? 128) with false by lia. f_equal. Z.div_mod_to_equations; lia.
    + replace (n mod 128 + 0 <? 128) with true by lia. f_equal. f_equal. Z.div_mod_to_equations; lia.
Qed.
(** ** C42: variable-length integers *)
Lemma uvarint_of_loops v w : sizeof_loop 64 v = Ok (zlen w) -> write_loop 64 0 v = Ok w -> uvarint v = Ok (rev w).
Proof.
  intros Es Ew. unfold uvarint. rewrite Es, Ew. cbn [bind]. cbv zeta. pose proof (zlen_nonneg w). replace ((zlen w * 8 + 6) / 7 <? zlen w) with false by (Z.div_mod_to_equations; lia).
  rewrite slice_pre by reflexivity. reflexivity.
Qed.
Lemma uvarint_ok v : 0 <= v < 2 ^ 63 -> exists b, uvarint v = Ok b /\ is_bytes b /\ 1 <= zlen b <= 9 /\ reads varint b v.
Proof.
  intros B. destruct (write_ok 9 64 0 v) as (w & Ew & Es & Bw & Lw & _ & R); [lia|exact B|left; reflexivity|].
  exists (rev w). split; [apply uvarint_of_loops; assumption|]. split; [apply Forall_rev; exact Bw|]. split; [unfold zlen in *; rewrite rev_length; lia|]. intros rest. apply R. reflexivity.
Qed.
Theorem uvarint_reads_back : forall v, 0 <= v < 2 ^ 63 -> exists b, uvarint v = Ok b /\ reads varint b v.
Proof. intros v B. destruct (uvarint_ok v B) as (b & E & _ & _ & R). exists b. auto. Qed.
(** No encoding is the beginning of another. *)
Theorem uvarint_prefix_free : forall v w a b x y, 0 <= v < 2 ^ 63 -> 0 <= w < 2 ^ 63 -> uvarint v = Ok a -> uvarint w = Ok b -> a ++ x = b ++ y -> v = w /\ x = y.
Proof.
  intros v w a b x y V W Ea Eb E. destruct (uvarint_reads_back v V) as (a' & Ea' & Ra). destruct (uvarint_reads_back w W) as (b' & Eb' & Rb). assert (a' = a) by congruence. assert (b' = b) by congruence. subst a' b'.
  specialize (Ra x). rewrite E, Rb in Ra. injection Ra as -> ->. auto.
Qed.
(** A negative value becomes one byte, its low seven bits. *)
Theorem uvarint_negative : forall v, v < 0 -> uvarint v = Ok [v mod 128].
Proof.
  intros v B. apply (uvarint_of_loops v [v mod 128]); cbn [sizeof_loop write_loop]; cbv zeta; replace (v <=? 127) with true by lia; [reflexivity|].
  rewrite low7, Z.lor_0_r. reflexivity.
Qed.
Lemma uvarint_wire v : int64 v -> exists b, uvarint v = Ok b /\ is_bytes b /\ 1 <= zlen b <= 9 /\ reads varint b (wire_value v).
Proof.
  intros B. unfold wire_value, int64 in *. destruct (v <? 0) eqn:E; [|apply uvarint_ok; lia]. exists [v mod 128]. assert (M : 0 <= v mod 128 < 128) by (apply Z.mod_pos_bound; lia). split; [apply uvarint_negative; lia|].
  split; [constructor; [unfold is_byte; lia|constructor]|]. split; [unfold zlen; cbn [length]; lia|]. intros rest. cbn [varint varint_from app]. unfold varint. cbn [varint_from]. replace (v mod 128 <? 128) with true by lia. f_equal.
Qed.

(** Register IDs. *)
Lemma digit_char d : 0 <= d <= 9 -> is_digit (48 + d) = true.
Proof. unfold is_digit. lia. Qed.
Lemma skip_digits ds rest : Forall (fun d => 0 <= d <= 9) ds -> skip is_digit (map (Z.add 48) ds ++ rest) = skip is_digit rest.
Proof. induction 1 as [|d ds Hd F IH]; [reflexivity|]. cbn [map app skip]. rewrite digit_char by exact Hd. exact IH. Qed.
Lemma digits1_decimal s v rest : decimal s v -> digits1 (s ++ rest) = Some (skip is_digit rest).
Proof.
  intros (ds & N & F & -> & _). destruct ds as [|d ds]; [contradiction|]. inversion F as [|? ? Hd F']; subst. cbn [map app digits1]. rewrite digit_char by exact Hd. rewrite skip_digits by exact F'. reflexivity.
Qed.
Lemma decimal_head s v : decimal s v -> exists c r, s = c :: r /\ 48 <= c <= 57.
Proof. intros (ds & N & F & -> & _). destruct ds as [|d ds]; [contradiction|]. inversion F; subst. exists (48 + d), (map (Z.add 48) ds). split; [reflexivity|lia]. Qed.
Lemma fold_value ds : forall a, 0 <= a -> Forall (fun d => 0 <= d <= 9) ds -> a <= fold_left (fun a d => a * 10 + d) ds a.
Proof. induction ds as [|d ds IH]; intros a A F; [cbn; lia|]. inversion F; subst. cbn [fold_left]. specialize (IH (a * 10 + d) ltac:(lia) ltac:(assumption)). lia. Qed.
Lemma parse_uint_digits ds : forall n rest, 0 <= n < 2 ^ 64 -> Forall (fun d => 0 <= d <= 9) ds ->
  parse_uint (map (Z.add 48) ds ++ rest) n = let v := fold_left (fun a d => a * 10 + d) ds n in if v <? 2 ^ 64 then parse_uint rest v else Some (2 ^ 64 - 1).
Proof.
  induction ds as [|d ds IH]; intros n rest N F; cbv zeta; [cbn [map app fold_left]; replace (n <? 2 ^ 64) with true by lia; reflexivity|]. inversion F; subst. cbn [map app parse_uint fold_left]. rewrite digit_char by assumption. cbn [negb]. replace (48 + d - 48) with d by lia.
  pose proof (fold_value ds (n * 10 + d) ltac:(lia) ltac:(assumption)).
  destruct (1844674407370955162 <=? n) eqn:E1; [replace (fold_left _ _ _ <? 2 ^ 64) with false by lia; reflexivity|].
  destruct (2 ^ 64 <=? n * 10 + d) eqn:E2; [replace (fold_left _ _ _ <? 2 ^ 64) with false by lia; reflexivity|]. apply IH; [lia|assumption].
Qed.
Lemma space_char c : space c <-> is_space c = true.
Proof. unfold space, is_space. cbn [In]. split; [intros [<-|[<-|[<-|[<-|[<-|[]]]]]]; reflexivity|lia]. Qed.
Lemma parse_int_decimal s v b : decimal s v -> Forall space b -> 0 <= v /\ parse_int (s ++ b) = if (match b with [] => true | _ => false end) || (2 ^ 64 <=? v) then Z.min v max64 else 0.
Proof.
  intros (ds & N & F & -> & ->) Hb. destruct ds as [|d ds]; [contradiction|]. assert (P := fold_value (d :: ds) 0 ltac:(lia) F). split; [exact P|]. inversion F as [|? ? Hd F']; subst.
  unfold parse_int. cbn [map app]. replace (48 + d =? 43) with false by lia. replace (48 + d =? 45) with false by lia. change (48 + d :: map (Z.add 48) ds ++ b) with (map (Z.add 48) (d :: ds) ++ b). rewrite parse_uint_digits by (try assumption; lia). cbv zeta.
  set (v := fold_left _ (d :: ds) 0) in *. cbn [map app]. cbv iota. unfold max64. destruct (v <? 2 ^ 64) eqn:E.
  - destruct b as [|c b]; [cbn [parse_uint orb]; destruct (2 ^ 63 <=? v) eqn:E2; lia|]. inversion Hb as [|? ? Hc _]; subst. cbn [parse_uint]. assert (D : is_digit c = false) by (apply space_char in Hc; unfold is_space, is_digit in *; lia). rewrite D. cbn [negb orb]. replace (2 ^ 64 <=? v) with false by lia. reflexivity.
  - replace (2 ^ 63 <=? 2 ^ 64 - 1) with true by lia. replace (2 ^ 64 <=? v) with true by lia. rewrite orb_true_r. lia.
Qed.
Lemma parse_int_padded c a s : space c -> parse_int ((c :: a) ++ s) = 0.
Proof.
  intros Hc. apply space_char in Hc. assert (D : is_digit c = false) by (unfold is_space, is_digit in *; lia). unfold parse_int. cbn [app]. replace (c =? 43) with false by (unfold is_space in Hc; lia). replace (c =? 45) with false by (unfold is_space in Hc; lia).
  cbn [parse_uint]. rewrite D. reflexivity.
Qed.
Definition dashless (s : list Z) : Prop := Forall (fun c => c <> 45) s.
Lemma split_dashless s rest : dashless s -> split_dash (s ++ 45 :: rest) = s :: split_dash rest.
Proof. induction 1 as [|c s Hc F IH]; [reflexivity|]. cbn [app split_dash]. replace (c =? 45) with false by lia. rewrite IH. reflexivity. Qed.
Lemma split_dashless_end s : dashless s -> split_dash s = [s].
Proof. induction 1 as [|c s Hc F IH]; [reflexivity|]. cbn [split_dash]. replace (c =? 45) with false by lia. rewrite IH. reflexivity. Qed.
Lemma decimal_dashless s v : decimal s v -> dashless s.
Proof. intros (ds & _ & F & -> & _). apply Forall_forall. intros c Hc. apply in_map_iff in Hc as (d & <- & Hd). rewrite Forall_forall in F. specialize (F d Hd). lia. Qed.
Lemma space_dashless s : Forall space s -> dashless s.
Proof. apply Forall_impl. intros c Hc. apply space_char in Hc. unfold is_space in Hc. lia. Qed.
Lemma parse_int_range s : int64 (parse_int s).
Proof.
  unfold parse_int, int64. assert (P : forall l n v, 0 <= n -> parse_uint l n = Some v -> 0 <= v).
  { induction l as [|c l IH]; intros n v N E; cbn [parse_uint] in E; [congruence|]. destruct (negb (is_digit c)) eqn:D; [discriminate|]. destruct (_ <=? n); [injection E as <-; lia|]. destruct (_ <=? _); [injection E as <-; lia|]. apply IH in E; [exact E|unfold is_digit in D; lia]. }
  destruct s as [|c r]; [lia|]. destruct (c =? 43); [|destruct (c =? 45)].
  - destruct r as [|x r]; [lia|]. destruct (parse_uint (x :: r) 0) as [v|] eqn:E; [apply P in E; [|lia]|lia]. destruct (_ <=? v) eqn:Q; lia.
  - destruct r as [|x r]; [lia|]. destruct (parse_uint (x :: r) 0) as [v|] eqn:E; [apply P in E; [|lia]|lia]. destruct (_ <? v) eqn:Q; lia.
  - destruct (parse_uint (c :: r) 0) as [v|] eqn:E; [apply P in E; [|lia]|lia]. destruct (_ <=? v) eqn:Q; lia.
Qed.
(** ** The accepted register IDs, and what becomes of them *)
Theorem reg_id_accepted_iff : forall s, is_reg_id s = true <-> exists a b p, padded_reg_id a s b p.
Proof.
  assert (SK : forall P l, exists h, l = h ++ skip P l /\ Forall (fun c => P c = true) h).
  { intros P. induction l as [|c l (h & E & F)]; [exists []; auto|]. cbn [skip]. destruct (P c) eqn:D; [|exists []; auto]. exists (c :: h). cbn [app]. split; [congruence|constructor; assumption]. }
  assert (DG : forall h, Forall (fun c => is_digit c = true) h -> h <> [] -> exists v, decimal h v).
  { intros h F N. eexists. exists (map (fun c => c - 48) h). split; [destruct h; [contradiction|discriminate]|]. split; [apply Forall_forall; intros d Hd; apply in_map_iff in Hd as (c & <- & Hc); rewrite Forall_forall in F; specialize (F c Hc); unfold is_digit in F; lia|]. split; [|reflexivity].
    rewrite map_map. transitivity (map (fun c : Z => c) h); [symmetry; apply map_id|apply map_ext; intros; lia]. }
  assert (D1 : forall l t, digits1 l = Some t -> exists h v, l = h ++ t /\ decimal h v).
  { intros l t E. destruct l as [|c l]; [discriminate|]. cbn [digits1] in E. destruct (is_digit c) eqn:D; [|discriminate]. injection E as <-. destruct (SK is_digit l) as (h & E & F). destruct (DG (c :: h)) as (v & V); [constructor; assumption|discriminate|]. exists (c :: h), v. split; [cbn [app]; congruence|exact V]. }
  assert (SS : forall a l, Forall space a -> skip is_space (a ++ l) = skip is_space l).
  { intros a l. induction 1 as [|c a Hc F IH]; [reflexivity|]. cbn [app skip]. apply space_char in Hc. rewrite Hc. exact IH. }
  intros s. split.
  - unfold is_reg_id. intros E. destruct (SK is_space s) as (a & Ea & Fa). destruct (digits1 (skip is_space s)) as [[|c r]|] eqn:E1; try discriminate. destruct (c =? 45) eqn:C; [|discriminate]. apply Z.eqb_eq in C. subst c. destruct (digits1 r) as [t|] eqn:E2; [|discriminate].
    destruct (SK is_space t) as (b & Eb & Fb). destruct (skip is_space t); [|discriminate]. rewrite app_nil_r in Eb. subst t. destruct (D1 _ _ E1) as (x & u & Ex & X). destruct (D1 _ _ E2) as (y & v & Ey & Y). exists a, b, (u, v).
    split; [eapply Forall_impl; [|exact Fa]; intros c Hc; apply space_char; exact Hc|]. split; [eapply Forall_impl; [|exact Fb]; intros c Hc; apply space_char; exact Hc|]. exists (x ++ 45 :: y). split; [exists x, y; auto|]. rewrite Ea, Ex, Ey, <- app_assoc. reflexivity.
  - intros (a & b & [u v] & Fa & Fb & t & (x & y & X & Y & ->) & ->). unfold is_reg_id. rewrite SS by exact Fa. cbn [fst snd] in *.
    assert (Q : skip is_space ((x ++ 45 :: y) ++ b) = (x ++ 45 :: y) ++ b) by (destruct (decimal_head _ _ X) as (c & r & -> & B); cbn [app skip]; unfold is_space; replace ((c =? 9) || (c =? 10) || (c =? 12) || (c =? 13) || (c =? 32)) with false by lia; reflexivity).
    rewrite Q, <- app_assoc, (digits1_decimal _ _ _ X). cbn [skip app]. change (is_digit 45) with false. cbv iota. change (45 =? 45) with true. cbv iota. rewrite (digits1_decimal _ _ _ Y).
    assert (S2 : skip is_digit b = b) by (destruct b as [|c b]; [reflexivity|]; inversion Fb as [|? ? Hc _]; subst; apply space_char in Hc; cbn [skip]; replace (is_digit c) with false by (unfold is_space, is_digit in *; lia); reflexivity).
    rewrite S2. specialize (SS b [] Fb). rewrite app_nil_r in SS. rewrite SS. reflexivity.
Qed.
Lemma pair_reads a b u v : is_bytes a -> is_bytes b -> 1 <= zlen a <= 9 -> 1 <= zlen b <= 9 -> reads varint a u -> reads varint b v ->
  is_bytes (counted (a ++ b)) /\ reads reg_id_wire (counted (a ++ b)) (u, v).
Proof.
  intros Ba Bb La Lb Ra Rb. unfold counted. assert (L : 2 <= zlen (a ++ b) <= 18) by (rewrite zlen_app; lia). rewrite SigDerProps.u8_small by lia. split; [apply is_bytes_cons; split; [unfold is_byte; lia|apply is_bytes_app; auto]|].
  intros rest. unfold reg_id_wire. unfold rbind at 1. rewrite reads_counted. rewrite (reads_whole _ (a ++ b) (u, v)); [reflexivity|]. eapply reads_bind; [exact Ra|]. apply (reads_last varint (fun i => (u, i))). exact Rb.
Qed.
(** White space in front of the ID turns the first number into 0; white space behind it the second one, unless it is 2^64 or
    more. Numbers of 2^63 and more become 2^63-1. *)
Theorem padded_reg_id_encoded : forall a s b u v, padded_reg_id a s b (u, v) ->
  exists e, user_id s = Ok e /\ is_bytes e /\ reads reg_id_wire e (match a with [] => Z.min u max64 | _ => 0 end, if (match b with [] => true | _ => false end) || (2 ^ 64 <=? v) then Z.min v max64 else 0).
Proof.
  intros a s b u v (Fa & Fb & t & (x & y & X & Y & ->) & ->). cbn [fst snd] in *. unfold user_id. replace (a ++ (x ++ 45 :: y) ++ b) with ((a ++ x) ++ 45 :: (y ++ b)) by (rewrite <- !app_assoc; reflexivity).
  rewrite split_dashless by (apply Forall_app; split; [apply space_dashless; exact Fa|eapply decimal_dashless; exact X]). rewrite split_dashless_end by (apply Forall_app; split; [eapply decimal_dashless; exact Y|apply space_dashless; exact Fb]). cbn [ids_bytes].
  destruct (parse_int_decimal _ _ _ X (Forall_nil _)) as [U0 EU]. rewrite app_nil_r in EU. cbn [orb] in EU. cbv iota in EU. destruct (parse_int_decimal _ _ _ Y Fb) as [V0 EV]. rewrite EV.
  assert (PU : parse_int (a ++ x) = match a with [] => Z.min u max64 | _ => 0 end) by (destruct a as [|c a]; [exact EU|apply parse_int_padded; inversion Fa; assumption]). rewrite PU.
  unfold max64 in *. destruct (uvarint_ok (match a with [] => Z.min u (2 ^ 63 - 1) | _ => 0 end) ltac:(destruct a; lia)) as (p & -> & Ba & La & Ra).
  match goal with |- context [uvarint ?z] => destruct (uvarint_ok z ltac:(destruct (_ || _); lia)) as (q & -> & Bb & Lb & Rb) end. cbn [bind]. rewrite app_nil_r. eexists. split; [reflexivity|]. apply pair_reads; assumption.
Qed.
Lemma user_id_ok s p : reg_id s p -> exists b, user_id s = Ok b /\ is_bytes b /\ reads reg_id_wire b (clamp p).
Proof.
  intros R. destruct p as [u v]. destruct (padded_reg_id_encoded [] s [] u v) as (e & E & B & Q); [split; [constructor|]; split; [constructor|]; exists s; rewrite app_nil_r; auto|]. exists e. auto.
Qed.
Lemma user_id_bytes s e : user_id s = Ok e -> is_bytes e.
Proof.
  unfold user_id. intros E. apply bind_ok in E as (b & Eb & E). injection E as <-. assert (G : forall ids b, ids_bytes ids = Ok b -> is_bytes b).
  { induction ids as [|i ids IH]; intros c Ec; cbn [ids_bytes] in Ec; [injection Ec as <-; constructor|]. apply bind_ok in Ec as (x & Ex & Ec). apply bind_ok in Ec as (t & Et & Ec). injection Ec as <-. destruct (uvarint_wire (parse_int i) (parse_int_range i)) as (x' & Ex' & Bx & _). rewrite Ex in Ex'. injection Ex' as <-. apply is_bytes_app. split; [exact Bx|eapply IH; exact Et]. }
  apply G in Eb. unfold counted. apply is_bytes_cons. split; [unfold is_byte, u8; apply Z.mod_pos_bound; lia|exact Eb].
Qed.
Lemma dest_ok H a h : hash_ok H -> is_bytes a -> wicc_address H h a -> dest_id btc_alphabet H a = Ok (zlen h :: h).
Proof.
  intros HH Ha (Bh & Lh & K). unfold dest_id, counted.
  assert (G : forall p, p = 0x49 \/ p = 0x87 -> encode_check btc_alphabet H [p] h = Ok a -> program_hash btc_alphabet H [0x49; 0x87] 1 a = Ok h).
  { intros p Dp Ep. destruct (program_hash_complete H _ _ [0x49; 0x87] 1 p h HH btc_alphabet_ok btc_alphabet_new (or_intror eq_refl) ltac:(unfold is_byte; lia) ltac:(destruct Dp; subst; [left|right; left]; reflexivity) Bh ltac:(unfold zlen in Lh; lia)) as (s & Es & Ep').
    rewrite Ep in Es. injection Es as <-. exact Ep'. }
  destruct K as [K|K]; [rewrite (G 0x49 (or_introl eq_refl) K)|rewrite (G 0x87 (or_intror eq_refl) K)]; cbn [bind]; rewrite SigDerProps.u8_small by lia; reflexivity.
Qed.
Lemma dest_inv H a e : hash_ok H -> is_bytes a -> dest_id btc_alphabet H a = Ok e -> exists h, wicc_address H h a /\ e = zlen h :: h.
Proof.
  unfold dest_id. intros HH Ha E. apply bind_ok in E as (h & E & Q). injection Q as <-.
  destruct (program_hash_inv H HH _ btc_alphabet_ok btc_alphabet btc_alphabet_new [0x49; 0x87] 1 a h Ha (or_intror eq_refl) E) as (p & b & I & Bp & Bb & L & Q & K). change (1 =? 0) with false in Q. cbv iota in Q. subst h. exists b. unfold counted. rewrite SigDerProps.u8_small by (unfold zlen; lia).
  split; [|reflexivity]. split; [exact Bb|]. split; [unfold zlen; lia|]. cbn [In] in I. destruct I as [<-|[<-|[]]]; auto.
Qed.
Definition typed (q : request) : Prop :=
  is_bytes (q_from q) /\ is_bytes (q_to q) /\ is_bytes (q_app q) /\ int64 (q_amount q) /\ int64 (q_fee q) /\ int64 (q_height q).
Lemma uvarint_bytes v b : int64 v -> uvarint v = Ok b -> is_bytes b.
Proof. intros B E. destruct (uvarint_wire v B) as (b' & E' & Bb & _). congruence. Qed.
Lemma counted_bytes b : is_bytes b -> is_bytes (counted b).
Proof. intros B. unfold counted. apply is_bytes_cons. split; [unfold is_byte, u8; apply Z.mod_pos_bound; lia|exact B]. Qed.
Lemma body_bytes H t q b : hash_ok H -> typed q -> body_of btc_alphabet H t q = Ok b -> is_bytes b /\ (t = 3 \/ t = 2 \/ t = 4 \/ t = 11).
Proof.
  intros HH (Tf & Tt & Ta & Am & Fe & He). unfold body_of, t_common, t_regacct, t_contract, t_ucoin.
  destruct (t =? 3) eqn:T3; [|destruct (t =? 2) eqn:T2; [|destruct (t =? 4) eqn:T4; [|destruct (t =? 11) eqn:T11; [|discriminate]]]]; intros E; (split; [|lia]).
  - unfold common_body in E. destruct (_ <? _); [discriminate|]. apply bind_ok in E as (h & Eh & E). destruct (negb _); [discriminate|]. apply bind_ok in E as (i & Ei & E). apply bind_ok in E as (d & Ed & E). apply bind_ok in E as (f & Ef & E). apply bind_ok in E as (a & Ea & E). injection E as <-.
    apply uvarint_bytes in Eh; [|exact He]. apply uvarint_bytes in Ef; [|exact Fe]. apply uvarint_bytes in Ea; [|exact Am]. apply user_id_bytes in Ei. apply dest_inv in Ed as (x & (Bx & Lx & _) & ->); [|exact HH|exact Tt].
    rewrite Lx. bts.
  - unfold register_body in E. destruct (_ <? _); [discriminate|]. apply bind_ok in E as (h & Eh & E). apply bind_ok in E as (p & Ep & E). destruct (negb _); [discriminate|]. apply bind_ok in E as (f & Ef & E). injection E as <-.
    apply uvarint_bytes in Eh; [|exact He]. apply uvarint_bytes in Ef; [|exact Fe]. apply hex_decode_bytes in Ep as [Bp _]. bts.
  - unfold contract_body in E. destruct (_ <? _); [discriminate|]. apply bind_ok in E as (h & Eh & E). destruct (negb _); [discriminate|]. apply bind_ok in E as (i & Ei & E). destruct (negb _); [discriminate|]. apply bind_ok in E as (p & Ep & E). apply bind_ok in E as (f & Ef & E). apply bind_ok in E as (a & Ea & E). apply bind_ok in E as (c & Ec & E). injection E as <-.
    apply uvarint_bytes in Eh; [|exact He]. apply uvarint_bytes in Ef; [|exact Fe]. apply uvarint_bytes in Ea; [|exact Am]. apply user_id_bytes in Ei. apply user_id_bytes in Ep. apply hex_decode_bytes in Ec as [Bc _]. apply counted_bytes in Bc.
    rewrite !is_bytes_app. auto 10.
  - unfold ucoin_body in E. destruct (_ <? _); [discriminate|]. apply bind_ok in E as (h & Eh & E). apply bind_ok in E as (i & Ei & E). apply bind_ok in E as (f & Ef & E). apply bind_ok in E as (d & Ed & E). destruct (zlen (q_app q) =? 0); [discriminate|]. apply bind_ok in E as (a & Ea & E). injection E as <-.
    apply uvarint_bytes in Eh; [|exact He]. apply uvarint_bytes in Ef; [|exact Fe]. apply uvarint_bytes in Ea; [|exact Am]. apply user_id_bytes in Ei. apply dest_inv in Ed as (x & (Bx & Lx & _) & ->); [|exact HH|exact Tt].
    rewrite Lx. bts. all: apply Z.mod_pos_bound; lia.
Qed.
Lemma create_inv al H t q raw h : create al H t q = Ok (raw, h) -> exists b, body_of al H t q = Ok b /\ raw = hex_encode (t :: 1 :: b) /\ h = hex_encode (H (1 :: t :: b)).
Proof.
  unfold create. intros E. apply bind_ok in E as (b & Eb & E). change (uvarint 1) with (Ok [1]) in E. cbn [bind app] in E. exists b. split; [exact Eb|].
  split; [apply (f_equal (fun x => match x with Ok v => fst v | _ => [] end)) in E|apply (f_equal (fun x => match x with Ok v => snd v | _ => [] end)) in E]; cbv beta iota in E; cbn [fst snd] in E; symmetry; exact E.
Qed.
Lemma create_ok al H t q b : body_of al H t q = Ok b -> create al H t q = Ok (hex_encode (t :: 1 :: b), hex_encode (H (1 :: t :: b))).
Proof. intros E. unfold create. rewrite E. change (uvarint 1) with (Ok [1]). reflexivity. Qed.

(** ** C43: one hash at creation and at verification *)
Theorem verified_hash_is_created_hash : forall H t q raw h, hash_ok H -> typed q -> create btc_alphabet H t q = Ok (raw, h) -> exists d, hash_from_empty H raw = Ok d /\ hex_encode d = h.
Proof.
  intros H t q raw h HH T E. apply create_inv in E as (b & Eb & -> & ->). destruct (body_bytes H t q b HH T Eb) as [Bb Ht]. exists (H (1 :: t :: b)). split; [|reflexivity].
  unfold hash_from_empty. rewrite hex_decode_encode by (apply is_bytes_cons; split; [unfold is_byte; lia|apply is_bytes_cons; split; [unfold is_byte; lia|exact Bb]]). cbn [bind].
  change (idx (t :: 1 :: b) 0) with (@Ok Z t). cbn [bind]. unfold t_common, t_regacct, t_contract, t_ucoin. replace (negb (t =? 3) && negb (t =? 2) && negb (t =? 4) && negb (t =? 11)) with false by lia.
  change (idx (t :: 1 :: b) 1) with (@Ok Z 1). cbn [bind]. change (negb (1 =? 1)) with false. cbv iota. change (t :: 1 :: b) with ([t; 1] ++ b). rewrite slice_from_post by reflexivity. reflexivity.
Qed.
(** What is hashed is what is sent, with version and type exchanged: the hash determines the transaction up to collisions. *)
Theorem created_hash_covers_everything : forall H t q raw h, hash_ok H -> typed q -> create btc_alphabet H t q = Ok (raw, h) ->
  exists b, hex_decode raw = Ok (t :: 1 :: b) /\ h = hex_encode (H (1 :: t :: b)).
Proof.
  intros H t q raw h HH T E. apply create_inv in E as (b & Eb & -> & ->). destruct (body_bytes H t q b HH T Eb) as [Bb Ht]. exists b. split; [|reflexivity]. apply hex_decode_encode. apply is_bytes_cons; split; [unfold is_byte; lia|apply is_bytes_cons; split; [unfold is_byte; lia|exact Bb]].
Qed.

(** ** What the created bytes say *)
Ltac field R := eapply reads_bind; [exact R|].
Lemma reads_tx t b x : reads (wicc_body t) b x -> reads wicc_tx (t :: 1 :: b) x.
Proof. intros R. change (t :: 1 :: b) with ([t] ++ [1] ++ b). unfold wicc_tx. field (reads_byte t). field (reads_exact [1]). exact R. Qed.
Definition created (H : bytes -> bytes) (t : Z) (q : request) (x : wicc) : Prop := exists raw h w, create btc_alphabet H t q = Ok (raw, h) /\ hex_decode raw = Ok w /\ reads wicc_tx w x.
Lemma created_of_body H t q b x : hash_ok H -> typed q -> body_of btc_alphabet H t q = Ok b -> reads (wicc_body t) b x -> created H t q x.
Proof.
  intros HH T E R. destruct (body_bytes H t q b HH T E) as [Bb Ht]. exists (hex_encode (t :: 1 :: b)), (hex_encode (H (1 :: t :: b))), (t :: 1 :: b). split; [apply create_ok; exact E|]. split; [|apply reads_tx; exact R].
  apply hex_decode_encode. apply is_bytes_cons; split; [unfold is_byte; lia|apply is_bytes_cons; split; [unfold is_byte; lia|exact Bb]].
Qed.
Theorem common_created : forall H q from d, hash_ok H -> typed q -> 0 <= q_height q -> reg_id (q_from q) from -> wicc_address H d (q_to q) ->
  created H 3 q (Common (q_height q) (clamp from) d (wire_value (q_fee q)) (wire_value (q_amount q))).
Proof.
  intros H q from d HH T Hh Rf Ad. pose proof T as (Tf & Tt & Ta & Am & Fe & He). destruct (uvarint_wire _ He) as (h & Eh & _ & _ & Rh). destruct (uvarint_wire _ Fe) as (f & Ef & _ & _ & Rfe). destruct (uvarint_wire _ Am) as (a & Ea & _ & _ & Ra). destruct (user_id_ok _ _ Rf) as (i & Ei & _ & Ri).
  unfold wire_value in Rh at 1. replace (q_height q <? 0) with false in Rh by lia.
  apply (created_of_body H 3 q (h ++ i ++ (zlen d :: d) ++ f ++ a ++ [0])); [assumption|assumption| |].
  - change (body_of btc_alphabet H 3 q) with (common_body btc_alphabet H q). unfold common_body. replace (q_height q <? 0) with false by lia. rewrite Eh. cbn [bind]. assert (P : is_reg_id (q_from q) = true) by (apply reg_id_accepted_iff; exists [], [], from; split; [constructor|]; split; [constructor|]; exists (q_from q); rewrite app_nil_r; auto). rewrite P. cbn [negb]. rewrite Ei. cbn [bind]. rewrite (dest_ok _ _ _ HH Tt Ad). cbn [bind]. rewrite Ef, Ea. reflexivity.
  - change (wicc_body 3) with (h <~ varint ;; i <~ reg_id_wire ;; d <~ rcounted ;; f <~ varint ;; a <~ varint ;; _ <~ rexact [0] ;; rret (Common h i d f a)).
    field Rh. field Ri. field (reads_counted d). field Rfe. field Ra. apply (reads_last (rexact [0]) (fun _ => Common (q_height q) (clamp from) d (wire_value (q_fee q)) (wire_value (q_amount q))) [0] tt). apply reads_exact.
Qed.
Theorem register_created : forall H q key, hash_ok H -> typed q -> 0 <= q_height q -> hex_decode (q_from q) = Ok key -> zlen key = 33 ->
  created H 2 q (Register (q_height q) key (wire_value (q_fee q))).
Proof.
  intros H q key HH T Hh Ek Lk. pose proof T as (Tf & Tt & Ta & Am & Fe & He). destruct (uvarint_wire _ He) as (h & Eh & _ & _ & Rh). destruct (uvarint_wire _ Fe) as (f & Ef & _ & _ & Rfe).
  unfold wire_value in Rh at 1. replace (q_height q <? 0) with false in Rh by lia.
  apply (created_of_body H 2 q (h ++ (zlen key :: key) ++ [0] ++ f)); [assumption|assumption| |].
  - change (body_of btc_alphabet H 2 q) with (register_body q). unfold register_body. replace (q_height q <? 0) with false by lia. rewrite Eh. cbn [bind]. rewrite Ek. cbn [bind]. rewrite Lk. change (negb (33 =? 0x21)) with false. cbv iota. rewrite Ef. reflexivity.
  - change (wicc_body 2) with (h <~ varint ;; p <~ rcounted ;; _ <~ rexact [0] ;; f <~ varint ;; rret (Register h p f)).
    field Rh. field (reads_counted key). field (reads_exact [0]). apply (reads_last varint (fun f => Register (q_height q) key f)). exact Rfe.
Qed.
(** The length of the contract code is written in one byte: a longer code is cut. *)
Theorem contract_created : forall H q from contract code, hash_ok H -> typed q -> 0 <= q_height q -> reg_id (q_from q) from -> reg_id (q_app q) contract -> hex_decode (q_to q) = Ok code ->
  exists raw h w, create btc_alphabet H 4 q = Ok (raw, h) /\ hex_decode raw = Ok w /\
    wicc_tx w = Some (Contract (q_height q) (clamp from) (clamp contract) (wire_value (q_fee q)) (wire_value (q_amount q)) (firstn (Z.to_nat (zlen code mod 256)) code), skipn (Z.to_nat (zlen code mod 256)) code).
Proof.
  intros H q from contract code HH T Hh Rf Rp Ec. pose proof T as (Tf & Tt & Ta & Am & Fe & He). destruct (uvarint_wire _ He) as (h & Eh & _ & _ & Rh). destruct (uvarint_wire _ Fe) as (f & Ef & _ & _ & Rfe). destruct (uvarint_wire _ Am) as (a & Ea & _ & _ & Ra). destruct (user_id_ok _ _ Rf) as (i & Ei & _ & Ri). destruct (user_id_ok _ _ Rp) as (p & Ep & _ & Rpp).
  unfold wire_value in Rh at 1. replace (q_height q <? 0) with false in Rh by lia.
  assert (ID : forall s r, reg_id s r -> is_reg_id s = true) by (intros s r Rs; apply reg_id_accepted_iff; exists [], [], r; split; [constructor|]; split; [constructor|]; exists s; rewrite app_nil_r; auto).
  assert (E : body_of btc_alphabet H 4 q = Ok (h ++ i ++ p ++ f ++ a ++ counted code)).
  { change (body_of btc_alphabet H 4 q) with (contract_body q). unfold contract_body. replace (q_height q <? 0) with false by lia. rewrite Eh. cbn [bind]. rewrite (ID _ _ Rf). cbn [negb]. rewrite Ei. cbn [bind]. rewrite (ID _ _ Rp). cbn [negb]. rewrite Ep. cbn [bind]. rewrite Ef, Ea. cbn [bind]. rewrite Ec. reflexivity. }
  destruct (body_bytes H 4 q _ HH T E) as [Bb _]. eexists _, _, _. split; [apply create_ok; exact E|]. split; [apply hex_decode_encode; apply is_bytes_cons; split; [unfold is_byte; lia|apply is_bytes_cons; split; [unfold is_byte; lia|exact Bb]]|].
  set (n := Z.to_nat (zlen code mod 256)). assert (N : 0 <= zlen code mod 256 <= zlen code) by (pose proof (zlen_nonneg code); split; [apply Z.mod_pos_bound; lia|apply Z.mod_le; lia]).
  assert (R : reads wicc_tx (4 :: 1 :: h ++ i ++ p ++ f ++ a ++ (zlen code mod 256 :: firstn n code)) (Contract (q_height q) (clamp from) (clamp contract) (wire_value (q_fee q)) (wire_value (q_amount q)) (firstn n code))).
  { apply reads_tx. change (wicc_body 4) with (h <~ varint ;; i <~ reg_id_wire ;; p <~ reg_id_wire ;; f <~ varint ;; a <~ varint ;; c <~ rcounted ;; rret (Contract h i p f a c)). field Rh. field Ri. field Rpp. field Rfe. field Ra.
    apply (reads_last rcounted (fun c => Contract (q_height q) (clamp from) (clamp contract) (wire_value (q_fee q)) (wire_value (q_amount q)) c)). replace (zlen code mod 256) with (zlen (firstn n code)) at 1 by (unfold zlen; rewrite firstn_length_le by (subst n; unfold zlen in *; lia); subst n; unfold zlen in *; lia). apply reads_counted. }
  specialize (R (skipn n code)). rewrite <- R. f_equal. cbn [app]. do 2 f_equal. rewrite <- !app_assoc. do 5 f_equal. cbn [app]. unfold counted, u8. f_equal. symmetry. apply firstn_skipn.
Qed.
Theorem ucoin_created : forall H q from d, hash_ok H -> typed q -> 0 <= q_height q -> reg_id (q_from q) from -> wicc_address H d (q_to q) -> 0 < zlen (q_app q) < 256 ->
  created H 11 q (Ucoin (q_height q) (clamp from) [87; 73; 67; 67] (wire_value (q_fee q)) d (q_app q) (wire_value (q_amount q))).
Proof.
  intros H q from d HH T Hh Rf Ad La. pose proof T as (Tf & Tt & Ta & Am & Fe & He). destruct (uvarint_wire _ He) as (h & Eh & _ & _ & Rh). destruct (uvarint_wire _ Fe) as (f & Ef & _ & _ & Rfe). destruct (uvarint_wire _ Am) as (a & Ea & _ & _ & Ra). destruct (user_id_ok _ _ Rf) as (i & Ei & _ & Ri).
  unfold wire_value in Rh at 1. replace (q_height q <? 0) with false in Rh by lia.
  apply (created_of_body H 11 q (h ++ i ++ [4; 87; 73; 67; 67] ++ f ++ [1] ++ (zlen d :: d) ++ (zlen (q_app q) :: q_app q) ++ a ++ [0])); [assumption|assumption| |].
  - change (body_of btc_alphabet H 11 q) with (ucoin_body btc_alphabet H q). unfold ucoin_body. replace (q_height q <? 0) with false by lia. rewrite Eh. cbn [bind]. rewrite Ei. cbn [bind]. rewrite Ef. cbn [bind]. rewrite (dest_ok _ _ _ HH Tt Ad). cbn [bind]. replace (zlen (q_app q) =? 0) with false by lia. rewrite Ea. cbn [bind].
    match goal with |- context [counted (str ?w)] => change (counted (str w)) with [4; 87; 73; 67; 67] end. unfold counted. rewrite SigDerProps.u8_small by lia. reflexivity.
  - change (wicc_body 11) with (h <~ varint ;; i <~ reg_id_wire ;; s <~ rcounted ;; f <~ varint ;; _ <~ rexact [1] ;; d <~ rcounted ;; c <~ rcounted ;; a <~ varint ;; _ <~ rexact [0] ;; rret (Ucoin h i s f d c a)).
    field Rh. field Ri. field (reads_counted [87; 73; 67; 67]). field Rfe. field (reads_exact [1]). field (reads_counted d). field (reads_counted (q_app q)). field Ra.
    apply (reads_last (rexact [0]) (fun _ => Ucoin (q_height q) (clamp from) [87; 73; 67; 67] (wire_value (q_fee q)) d (q_app q) (wire_value (q_amount q))) [0] tt). apply reads_exact.
Qed.
(** Requests that are refused. *)
Theorem request_refused : forall H t q, hash_ok H -> typed q ->
  (q_height q < 0 \/ ~ In t [2; 3; 4; 11] \/
   ((t = 3 \/ t = 4) /\ ~ exists a b p, padded_reg_id a (q_from q) b p) \/
   ((t = 3 \/ t = 11) /\ ~ exists d, wicc_address H d (q_to q)) \/
   (t = 2 /\ ~ exists key, hex_decode (q_from q) = Ok key /\ zlen key = 33) \/
   (t = 4 /\ (~ (exists a b p, padded_reg_id a (q_app q) b p) \/ hex_decode (q_to q) = Err)) \/
   (t = 11 /\ q_app q = [])) -> forall r, create btc_alphabet H t q <> Ok r.
Proof.
  intros H t q HH T C [raw h] E. pose proof T as (Tf & Tt & Ta & Am & Fe & He). apply create_inv in E as (b & E & _ & _). unfold body_of, t_common, t_regacct, t_contract, t_ucoin in E.
  destruct (t =? 3) eqn:T3; [|destruct (t =? 2) eqn:T2; [|destruct (t =? 4) eqn:T4; [|destruct (t =? 11) eqn:T11; [|discriminate]]]].
  - unfold common_body in E. destruct (_ <? _) eqn:Hn; [discriminate|]. apply bind_ok in E as (x & _ & E). destruct (is_reg_id (q_from q)) eqn:R; [|discriminate]. cbn [negb] in E. apply bind_ok in E as (i & _ & E). apply bind_ok in E as (d & Ed & E). apply dest_inv in Ed as (y & Ad & _); [|exact HH|exact Tt]. apply reg_id_accepted_iff in R.
    destruct C as [C|[C|[[_ C]|[[_ C]|[[C _]|[[C _]|[C _]]]]]]]; try lia; [apply C; cbn [In]; lia|apply C; exact R|apply C; exists y; exact Ad].
  - unfold register_body in E. destruct (_ <? _) eqn:Hn; [discriminate|]. apply bind_ok in E as (x & _ & E). apply bind_ok in E as (p & Ep & E). destruct (zlen p =? 33) eqn:L; [|discriminate].
    destruct C as [C|[C|[[C _]|[[C _]|[[_ C]|[[C _]|[C _]]]]]]]; try lia; [apply C; cbn [In]; lia|apply C; exists p; split; [exact Ep|lia]].
  - unfold contract_body in E. destruct (_ <? _) eqn:Hn; [discriminate|]. apply bind_ok in E as (x & _ & E). destruct (is_reg_id (q_from q)) eqn:R; [|discriminate]. cbn [negb] in E. apply bind_ok in E as (i & _ & E). destruct (is_reg_id (q_app q)) eqn:R2; [|discriminate]. cbn [negb] in E. apply bind_ok in E as (p & _ & E). apply bind_ok in E as (f & _ & E). apply bind_ok in E as (a & _ & E). apply bind_ok in E as (c & Ec & E). apply reg_id_accepted_iff in R. apply reg_id_accepted_iff in R2.
    destruct C as [C|[C|[[_ C]|[[C _]|[[C _]|[[_ [C|C]]|[C _]]]]]]]; try lia; [apply C; cbn [In]; lia|apply C; exact R|apply C; exact R2|congruence].
  - unfold ucoin_body in E. destruct (_ <? _) eqn:Hn; [discriminate|]. apply bind_ok in E as (x & _ & E). apply bind_ok in E as (i & _ & E). apply bind_ok in E as (f & _ & E). apply bind_ok in E as (d & Ed & E). apply dest_inv in Ed as (y & Ad & _); [|exact HH|exact Tt]. destruct (zlen (q_app q) =? 0) eqn:L; [discriminate|].
    destruct C as [C|[C|[[C _]|[[_ C]|[[C _]|[[C _]|[_ C]]]]]]]; try lia; [apply C; cbn [In]; lia|apply C; exists y; exact Ad|rewrite C in L; discriminate].
Qed.

(** ** C76: verification and combination *)
Definition wicc_signature (sig f : bytes) : Prop :=
  exists R S, der_int (r_of sig) R /\ der_int (s_of sig) S /\ f = [zlen R + zlen S + 6; 0x30; zlen R + zlen S + 4; 2; zlen R] ++ R ++ [2; zlen S] ++ S.
Lemma signature_ok sig : is_bytes sig -> zlen sig = 64 -> r_of sig <> 0 -> s_of sig <> 0 -> exists f, signature_bytes sig = Ok f /\ wicc_signature sig f.
Proof.
  intros B L Nr Ns. assert (L' : length sig = 64%nat) by (unfold zlen in L; lia).
  destruct (halves_bytes sig B) as [B1 B2]. pose proof (be_num_bound _ B1). pose proof (be_num_bound _ B2). destruct (split64 sig L') as (L1 & L2 & Q1 & Q2).
  destruct (der_trim_ok _ B1 ltac:(unfold r_of in *; lia) L1) as (R & E1 & D1 & M1 & _). destruct (der_trim_ok _ B2 ltac:(unfold s_of in *; lia) L2) as (S & E2 & D2 & M2 & _).
  unfold signature_bytes. rewrite Q1. cbn [bind]. rewrite Q2. cbn [bind]. rewrite E1. cbn [bind]. rewrite E2. cbn [bind].
  eexists. split; [reflexivity|]. exists R, S. split; [exact D1|]. split; [exact D2|]. assert (ZR : zlen R <= 33) by (unfold zlen; lia). assert (ZS : zlen S <= 33) by (unfold zlen; lia). pose proof (zlen_nonneg R). pose proof (zlen_nonneg S).
  cbv zeta. cbn [app]. rewrite !zlen_cons, zlen_app, !zlen_cons. rewrite !SigDerProps.u8_small by lia. f_equal; [lia|]. f_equal. f_equal. lia.
Qed.
(** A created transaction is combined with a signature exactly when the signature verifies for the created hash; the result is
    the unsigned text followed by the signature. *)
Theorem combined_iff_verified : forall H decompress verify t q raw h d pub sig s, hash_ok H -> typed q -> create btc_alphabet H t q = Ok (raw, h) -> is_bytes d -> hex_encode d = h ->
  is_bytes sig -> zlen sig = 64 -> r_of sig <> 0 -> s_of sig <> 0 -> decompress pub <> [] ->
  (verify_and_combine H decompress verify raw pub sig = Ok (true, s) <-> verify (tl (decompress pub)) d sig = true /\ exists f, wicc_signature sig f /\ s = raw ++ hex_encode f) /\
  (verify (tl (decompress pub)) d sig = false -> verify_and_combine H decompress verify raw pub sig = Ok (false, [])).
Proof.
  intros H decompress verify t q raw h d pub sig s HH T E Bd Ed Bs Ls Nr Ns Dp. destruct (verified_hash_is_created_hash H t q raw h HH T E) as (d' & Eh & Ed').
  assert (Bd' : is_bytes d') by (apply create_inv in E as (b & Eb & -> & _); destruct (body_bytes H t q b HH T Eb) as [Bb Ht]; unfold hash_from_empty in Eh; rewrite hex_decode_encode in Eh by (apply is_bytes_cons; split; [unfold is_byte; lia|apply is_bytes_cons; split; [unfold is_byte; lia|exact Bb]]); cbn [bind] in Eh; apply bind_ok in Eh as (x & Ex & Eh); destruct (negb _ && _ && _ && _); [discriminate|]; apply bind_ok in Eh as (y & Ey & Eh); destruct (negb _); [discriminate|]; apply bind_ok in Eh as (r & Er & Eh); injection Eh as <-; apply HH;
    change (t :: 1 :: b) with ([t; 1] ++ b) in Er; rewrite slice_from_post in Er by reflexivity; injection Er as <-; change (idx (t :: 1 :: b) 0) with (@Ok Z t) in Ex; change (idx (t :: 1 :: b) 1) with (@Ok Z 1) in Ey; injection Ex as <-; injection Ey as <-; apply is_bytes_cons; split; [unfold is_byte; lia|apply is_bytes_cons; split; [unfold is_byte; lia|exact Bb]]).
  assert (d' = d) by (apply (hex_encode_inj d' d); [exact Bd'|exact Bd|congruence]). subst d'.
  destruct (signature_ok sig Bs Ls Nr Ns) as (f & Ef & Wf). unfold verify_and_combine. rewrite Eh. destruct (decompress pub) as [|x point]; [contradiction|]. rewrite slice_from_cons. cbn [bind tl]. rewrite Ef. cbn [bind].
  assert (WU : forall f', wicc_signature sig f' -> f' = f).
  { intros f' (R' & S' & D1' & D2' & ->). destruct Wf as (R & S & D1 & D2 & ->). rewrite (minimal_der_unique _ _ _ D1 D1'), (minimal_der_unique _ _ _ D2 D2'). reflexivity. }
  split; [split|].
  - destruct (verify point d sig) eqn:V; cbn [negb]; intros Q; [|discriminate]. apply (f_equal (fun x => match x with Ok v => snd v | _ => [] end)) in Q. cbv beta iota in Q. cbn [snd] in Q. split; [reflexivity|]. exists f. auto.
  - intros (V & f' & W & ->). rewrite (WU _ W), V. reflexivity.
  - intros ->. reflexivity.
Qed.

(** ** Examples *)
Example ex_varint : uvarint 300 = Ok [129; 44] /\ varint [129; 44; 9] = Some (300, [9]) /\ uvarint (-1) = Ok [127] /\ uvarint 127 = Ok [127].
Proof. repeat split. Qed.
Definition ex_dest : bytes := repeat 9 20.
Definition ex_text : list Z := match encode_check btc_alphabet toy_hash [0x49] ex_dest with Ok s => s | _ => [] end.
Definition ex_q : request := {| q_from := [49; 50; 45; 51]; q_to := ex_text; q_app := [85; 83]; q_amount := 1000000; q_fee := 10000; q_height := 350 |}.
Example ex_reg_id : reg_id (q_from ex_q) (12, 3).
Proof. exists [49; 50], [51]. split; [exists [1; 2]|split; [exists [3]|reflexivity]]; (split; [discriminate|]; split; [repeat constructor; lia|]; split; reflexivity). Qed.
Example ex_address : wicc_address toy_hash ex_dest (q_to ex_q).
Proof. split; [unfold ex_dest; cbn [repeat]; bts|]. split; [reflexivity|]. left. vm_compute. reflexivity. Qed.
Example ex_typed : typed ex_q.
Proof.
  unfold typed, ex_q, int64. cbn [q_from q_to q_app q_amount q_fee q_height]. split; [bts|]. split; [|split; [bts|lia]].
  assert (B : forallb (fun c => (0 <=? c) && (c <? 256)) ex_text = true) by (vm_compute; reflexivity). apply Forall_forall. intros c Hc. rewrite forallb_forall in B. specialize (B c Hc). unfold is_byte. lia.
Qed.
Example ex_common : created toy_hash 3 ex_q (Common 350 (12, 3) ex_dest 10000 1000000).
Proof. exact (common_created toy_hash ex_q (12, 3) ex_dest toy_hash_ok ex_typed ltac:(cbn; lia) ex_reg_id ex_address). Qed.
Example ex_ucoin : created toy_hash 11 ex_q (Ucoin 350 (12, 3) [87; 73; 67; 67] 10000 ex_dest [85; 83] 1000000).
Proof. exact (ucoin_created toy_hash ex_q (12, 3) ex_dest toy_hash_ok ex_typed ltac:(cbn; lia) ex_reg_id ex_address ltac:(cbn; lia)). Qed.
(** " 12-3" is accepted and encoded as 0-3. *)
Example ex_padded : is_reg_id [32; 49; 50; 45; 51] = true /\ user_id [32; 49; 50; 45; 51] = Ok [2; 0; 3] /\ user_id [49; 50; 45; 51] = Ok [2; 12; 3].
Proof. repeat split. Qed.
Definition ex_reg : request := {| q_from := hex_encode (2 :: repeat 7 32); q_to := []; q_app := []; q_amount := 0; q_fee := -1; q_height := 5 |}.
Example ex_register : exists raw h, create btc_alphabet toy_hash 2 ex_reg = Ok (raw, h) /\
  exists s, verify_and_combine toy_hash (fun k => 4 :: k ++ k) (fun p m s => (zlen p =? 66) && (zlen m =? 32) && (zlen s =? 64)) raw (2 :: repeat 7 32) (repeat 9 64) = Ok (true, s) /\ zlen s = zlen raw + 2 * 71.
Proof. eexists _, _. split; [vm_compute; reflexivity|]. eexists. split; [vm_compute; reflexivity|]. reflexivity. Qed.
Print Assumptions uvarint_reads_back.
Print Assumptions uvarint_prefix_free.
Print Assumptions uvarint_negative.
Print Assumptions reg_id_accepted_iff.
Print Assumptions padded_reg_id_encoded.
Print Assumptions verified_hash_is_created_hash.
Print Assumptions created_hash_covers_everything.
Print Assumptions common_created.
Print Assumptions register_created.
Print Assumptions contract_created.
Print Assumptions ucoin_created.
Print Assumptions request_refused.
Print Assumptions combined_iff_verified.
