(** C50, C81: Elastos transactions. *)
From Coq Require Import ZArith List Bool Lia ZifyBool ZifyNat.
From Verif Require Import Go GoFacts GoFacts2 Codes Reader Base58Model Base58Spec Base58Props Base58CheckSpec Base58CheckModel Base58CheckProofs AddressProofs Toy Uvarint ElaModel.
Import ListNotations.
Open Scope Z_scope.
Ltac Zify.zify_post_hook ::= idtac.

(** ** Specification *)
(** An address is the Base58 text of 0x21, 20 bytes and their checksum. *)
Definition names (H2 : bytes -> bytes) (s : list Z) (h : bytes) : Prop := is_bytes h /\ zlen h = 20 /\ is_base58_of btc_alphabet_str (checked H2 (0x21 :: h)) s.
(** How the chain reads a transfer: type 2, payload version 0, no attributes, inputs, outputs, lock time. Identifiers are 32 bytes, last byte first. *)
Definition rinput : reader (bytes * Z) := t <~ rtake 32 ;; n <~ rle 2 ;; _ <~ rexact [0xff; 0xff; 0xff; 0xff] ;; rret (rev t, n).
Definition routput : reader (bytes * Z * bytes) := a <~ rtake 32 ;; m <~ rle 8 ;; _ <~ rexact [0; 0; 0; 0] ;; _ <~ rexact [0x21] ;; p <~ rtake 20 ;; rret (rev a, m, p).
Definition rlist {A} (r : reader A) : reader (list A) := n <~ rleb ;; rrepeat (Z.to_nat n) r.
Definition rtx : reader (list (bytes * Z) * list (bytes * Z * bytes)) :=
  _ <~ rexact [2; 0; 0] ;; is <~ rlist rinput ;; os <~ rlist routput ;; _ <~ rexact [0; 0; 0; 0] ;; rret (is, os).
(** A program: a script that pushes 64 bytes, and one that pushes a 33 byte key and checks a signature. *)
Definition rprogram : reader (bytes * bytes) := _ <~ rexact [65; 64] ;; s <~ rtake 64 ;; _ <~ rexact [35; 33] ;; k <~ rtake 33 ;; _ <~ rexact [0xAC] ;; rret (k, s).
(** The same bytes for identifiers of any length. *)
Definition input_wire (id : bytes) (n : Z) : bytes := rev id ++ le_bytes 2 n ++ [0xff; 0xff; 0xff; 0xff].
Definition output_wire (asset : bytes) (amount : Z) (h : bytes) : bytes := rev asset ++ le_bytes 8 amount ++ [0; 0; 0; 0] ++ 0x21 :: h.
Definition is_input (i : vin) (x : bytes * Z) : Prop := hex_decode (i_txid i) = Ok (fst x) /\ snd x = i_vout i.
Definition is_output (H2 : bytes -> bytes) (o : vout) (x : bytes * Z * bytes) : Prop := hex_decode (o_asset o) = Ok (fst (fst x)) /\ snd (fst x) = o_amount o /\ names H2 (o_address o) (snd x).
(** Distinct texts in the order in which they first occur. *)
Fixpoint firsts (l : list (list Z)) : list (list Z) := match l with [] => [] | a :: r => a :: filter (fun b => negb (beq a b)) (firsts r) end.
Definition typed (ins : list vin) (outs : list vout) : Prop :=
  Forall (fun i => 0 <= i_vout i < 2 ^ 16) ins /\ Forall (fun o => 0 <= o_amount o < 2 ^ 64 /\ is_bytes (o_address o)) outs /\ zlen ins < 2 ^ 56 /\ zlen outs < 2 ^ 56.

(** ** Proofs *)
Lemma reverse_hex_iff s b : reverse_hex s = Ok b <-> exists id, hex_decode s = Ok id /\ b = rev id.
Proof.
  unfold reverse_hex. split.
  - destruct (zlen s mod 2 =? 1); [discriminate|]. intros E. apply bind_ok in E as (c & E & R). injection R as <-. eauto.
  - intros (id & E & ->). destruct (hex_decode_bytes s _ E) as [_ L]. replace (zlen s mod 2 =? 1) with false; [rewrite E; reflexivity|]. unfold zlen. rewrite L, Nat2Z.inj_mul. change (Z.of_nat 2) with 2. rewrite Z.mul_comm, Z_mod_mult. reflexivity.
Qed.
Lemma reverse_hex_np s : reverse_hex s <> Panic.
Proof. unfold reverse_hex. destruct (zlen s mod 2 =? 1); [discriminate|]. pose proof (hex_decode_not_panic s). destruct (hex_decode s); [discriminate..|contradiction]. Qed.
Lemma names_iff H2 s p : hash_ok H2 -> is_bytes s -> program_hash btc_alphabet H2 [0x21] 0 s = Ok p <-> exists h, names H2 s h /\ p = 0x21 :: h.
Proof.
  intros HH Bs. split.
  - intros E. destruct (program_hash_inv H2 HH _ btc_alphabet_ok _ btc_alphabet_new [0x21] 0 s p Bs (or_introl eq_refl) E) as (q & h & I & Bq & Bh & L & -> & Q). cbn [In] in I. destruct I as [<-|[]]. change (0 =? 0) with true. cbv iota. exists h. split; [|reflexivity]. split; [exact Bh|]. split; [unfold zlen; lia|].
    rewrite encode_check_eq in Q; [|exact HH|repeat constructor; apply Bq|exact Bh]. cbn [app] in Q. destruct (base58_encode_positional _ _ (checked H2 (0x21 :: h)) btc_alphabet_ok btc_alphabet_new) as (s' & E' & P); [apply checked_bytes; [exact HH|bts]|]. rewrite Q in E'. injection E' as <-. exact P.
  - intros (h & (Bh & L & P) & ->). destruct (program_hash_encode H2 HH _ btc_alphabet_ok _ btc_alphabet_new [0x21] 0 0x21 h) as (s' & Q & R); [left; reflexivity|split; lia|left; reflexivity|exact Bh|unfold zlen in L; lia|].
    rewrite encode_check_eq in Q; [|exact HH|bts|exact Bh]. cbn [app] in Q. destruct (base58_encode_positional _ _ (checked H2 (0x21 :: h)) btc_alphabet_ok btc_alphabet_new) as (s2 & E2 & P2); [apply checked_bytes; [exact HH|bts]|]. rewrite Q in E2. injection E2 as <-. rewrite (base58_of_unique _ _ _ _ P P2). exact R.
Qed.
Lemma names_np H2 s : hash_ok H2 -> is_bytes s -> program_hash btc_alphabet H2 [0x21] 0 s <> Panic.
Proof. intros HH Bs. apply program_hash_total with (rs := btc_alphabet_str); [exact HH|exact btc_alphabet_ok|exact btc_alphabet_new|exact Bs|lia]. Qed.
Lemma each_iff {A X} (f : A -> res bytes) (R : A -> X -> Prop) (w : X -> bytes) (P : A -> Prop) :
  (forall a b, P a -> f a = Ok b <-> exists x, R a x /\ b = w x) ->
  forall l bs, Forall P l -> each f l = Ok bs <-> exists xs, Forall2 R l xs /\ bs = map w xs.
Proof.
  intros F. induction l as [|a l IH]; intros bs Q.
  - cbn [each]. split; [intros E; injection E as <-; exists []; auto|]. intros (xs & F2 & ->). inversion F2. reflexivity.
  - inversion Q; subst. cbn [each]. split.
    + intros E. apply bind_ok in E as (b & Eb & E). apply bind_ok in E as (t & Et & E). injection E as <-. apply F in Eb as (x & Rx & ->); [|assumption]. apply IH in Et as (xs & Rs & ->); [|assumption]. exists (x :: xs). auto.
    + intros (xs & F2 & ->). inversion F2; subst. assert (Ea : f a = Ok (w y)) by (apply F; eauto). rewrite Ea. cbn [bind]. rewrite (proj2 (IH (map w l') H2)) by eauto. reflexivity.
Qed.
Lemma each_np {A} (f : A -> res bytes) (P : A -> Prop) : (forall a, P a -> f a <> Panic) -> forall l, Forall P l -> each f l <> Panic.
Proof.
  intros F. induction 1 as [|a l Pa Q IH]; [discriminate|]. cbn [each]. specialize (F a Pa). destruct (f a); [|discriminate|contradiction]. cbn [bind]. destruct (each f l); [discriminate..|contradiction].
Qed.
Lemma each_len {A} (f : A -> res bytes) l : forall bs, each f l = Ok bs -> zlen bs = zlen l.
Proof.
  induction l as [|a l IH]; intros bs E; cbn [each] in E; [injection E as <-; reflexivity|]. apply bind_ok in E as (b & Eb & E). apply bind_ok in E as (t & Et & E). injection E as <-. rewrite !zlen_cons, (IH t Et). reflexivity.
Qed.
Lemma input_iff i b : input_bytes i = Ok b <-> exists x, is_input i x /\ b = input_wire (fst x) (snd x).
Proof.
  unfold input_bytes, is_input, input_wire. split.
  - intros E. apply bind_ok in E as (t & R & E). apply reverse_hex_iff in R as (id & D & ->). exists (id, i_vout i). cbn [fst snd]. split; [auto|congruence].
  - intros ([id n] & [D N] & ->). cbn [fst snd] in *. subst n. rewrite (proj2 (reverse_hex_iff _ (rev id))) by eauto. reflexivity.
Qed.
Lemma output_iff H2 o b : hash_ok H2 -> is_bytes (o_address o) -> output_bytes btc_alphabet H2 o = Ok b <-> exists x, is_output H2 o x /\ b = output_wire (fst (fst x)) (snd (fst x)) (snd x).
Proof.
  intros HH Bo. unfold output_bytes, is_output, output_wire. split.
  - intros E. apply bind_ok in E as (t & R & E). apply reverse_hex_iff in R as (id & D & ->). apply bind_ok in E as (p & N & E). apply names_iff in N as (h & N & ->); [|assumption..]. exists (id, o_amount o, h). cbn [fst snd]. split; [auto|congruence].
  - intros ([[id m] h] & (D & M & N) & ->). cbn [fst snd] in *. subst m. rewrite (proj2 (reverse_hex_iff _ (rev id))) by eauto. cbn [bind]. rewrite (proj2 (names_iff H2 _ (0x21 :: h) HH Bo)) by eauto. reflexivity.
Qed.
Lemma count_ok {A} (l : list A) : zlen l < 2 ^ 56 -> exists c, uint64_to_uvarint (zlen l) = Ok c /\ is_bytes c /\ reads rleb c (zlen l).
Proof. intros L. pose proof (zlen_nonneg l). destruct (uvarint_written (zlen l)) as [(_ & b & E & B & _ & R)|[? _]]; [lia|eauto|lia]. Qed.
Lemma beq_false_ne a b : beq a b = false -> a <> b.
Proof. intros E ->. rewrite beq_refl in E. discriminate. Qed.
Lemma beq_iff a b : beq a b = true <-> a = b.
Proof. split; [apply beq_eq|intros ->; apply beq_refl]. Qed.
Lemma filter_filter {A} (p q : A -> bool) l : filter p (filter q l) = filter (fun x => q x && p x) l.
Proof. induction l as [|x l IH]; [reflexivity|]. cbn [filter]. destruct (q x) eqn:E; cbn [filter andb]; [destruct (p x); rewrite IH; reflexivity|exact IH]. Qed.
Lemma hashes_firsts ins h : forall acc, hashes ins acc h = acc ++ map (fun a => (a, h)) (filter (fun a => negb (existsb (fun t => beq (fst t) a) acc)) (firsts (map i_address ins))).
Proof.
  induction ins as [|i r IH]; intros acc; [cbn; rewrite app_nil_r; reflexivity|]. cbn [hashes map firsts filter]. rewrite IH, filter_filter. destruct (existsb (fun t => beq (fst t) (i_address i)) acc) eqn:E; cbn [negb].
  - f_equal. f_equal. apply filter_ext_in. intros b _. destruct (beq (i_address i) b) eqn:Q; [|reflexivity]. apply beq_eq in Q. subst b. rewrite E. reflexivity.
  - rewrite <- app_assoc. cbn [app map]. do 3 f_equal. apply filter_ext. intros b. rewrite existsb_app. cbn [existsb fst]. rewrite orb_false_r, negb_orb, andb_comm. reflexivity.
Qed.

(** C81 *)
Theorem ela_created_iff : forall H2 H ins outs raw hs, hash_ok H2 -> typed ins outs ->
  (create btc_alphabet H2 H ins outs = Ok (raw, hs) <->
   ins <> [] /\ outs <> [] /\ exists xs ys ci co b, Forall2 is_input ins xs /\ Forall2 (is_output H2) outs ys /\
     uint64_to_uvarint (zlen ins) = Ok ci /\ uint64_to_uvarint (zlen outs) = Ok co /\
     b = [2; 0; 0] ++ ci ++ concat (map (fun x => input_wire (fst x) (snd x)) xs) ++ co ++ concat (map (fun y => output_wire (fst (fst y)) (snd (fst y)) (snd y)) ys) ++ [0; 0; 0; 0] /\
     raw = hex_encode b /\ hs = map (fun a => (a, hex_encode (H b))) (firsts (map i_address ins))).
Proof.
  intros H2 H ins outs raw hs HH (Ti & To & Li & Lo). unfold create. assert (Z1 : zlen ins =? 0 = true <-> ins = []) by (destruct ins; [split; reflexivity|rewrite zlen_cons; pose proof (zlen_nonneg ins); split; [lia|discriminate]]). assert (Z2 : zlen outs =? 0 = true <-> outs = []) by (destruct outs; [split; reflexivity|rewrite zlen_cons; pose proof (zlen_nonneg outs); split; [lia|discriminate]]).
  assert (FI := each_iff input_bytes is_input (fun x => input_wire (fst x) (snd x)) (fun i => 0 <= i_vout i < 2 ^ 16) (fun a b _ => input_iff a b) ins).
  assert (FO := each_iff (output_bytes btc_alphabet H2) (is_output H2) (fun y => output_wire (fst (fst y)) (snd (fst y)) (snd y)) (fun o => 0 <= o_amount o < 2 ^ 64 /\ is_bytes (o_address o)) (fun a b P => output_iff H2 a b HH (proj2 P)) outs).
  split.
  - destruct ((zlen ins =? 0) || (zlen outs =? 0)) eqn:E0; [discriminate|]. apply orb_false_iff in E0 as [E1 E2]. intros E. split; [intros C; apply Z1 in C; congruence|]. split; [intros C; apply Z2 in C; congruence|].
    apply bind_ok in E as (b & Eb & E). unfold tx_bytes in Eb. apply bind_ok in Eb as (is & Ei & Eb). apply bind_ok in Eb as (os & Eo & Eb). apply bind_ok in Eb as (ci & Eci & Eb). apply bind_ok in Eb as (co & Eco & Eb). rewrite (each_len _ _ _ Ei) in Eci. rewrite (each_len _ _ _ Eo) in Eco. apply (FI is Ti) in Ei as (xs & Fx & ->). apply (FO os To) in Eo as (ys & Fy & ->). exists xs, ys, ci, co, b. do 4 (split; [assumption|]). split; [congruence|]. rewrite hashes_firsts in E. cbn [app existsb negb] in E. split; [congruence|]. assert (Q : hs = map (fun a : list Z => (a, hex_encode (H b))) (filter (fun _ : list Z => true) (firsts (map i_address ins)))) by congruence. rewrite Q. f_equal. clear. induction (firsts (map i_address ins)) as [|a l IH]; [reflexivity|]. cbn [filter]. rewrite IH. reflexivity.
  - intros (N1 & N2 & xs & ys & ci & co & b & Fx & Fy & Eci & Eco & -> & -> & ->). replace (zlen ins =? 0) with false by (symmetry; apply not_true_is_false; tauto). replace (zlen outs =? 0) with false by (symmetry; apply not_true_is_false; tauto). cbn [orb]. unfold tx_bytes.
    rewrite (proj2 (FI _ Ti)) by eauto. cbn [bind]. rewrite (proj2 (FO _ To)) by eauto. cbn [bind]. rewrite !zlen_map. assert (L1 : zlen xs = zlen ins) by (unfold zlen; f_equal; symmetry; clear -Fx; induction Fx; cbn; congruence). assert (L2 : zlen ys = zlen outs) by (unfold zlen; f_equal; symmetry; clear -Fy; induction Fy; cbn; congruence). rewrite L1, L2, Eci, Eco. cbn [bind]. rewrite hashes_firsts. cbn [app existsb negb]. do 4 f_equal. clear. induction (firsts (map i_address ins)) as [|a l IH]; [reflexivity|]. cbn [filter]. f_equal. exact IH.
Qed.
Theorem ela_create_no_panic : forall H2 H ins outs, hash_ok H2 -> typed ins outs -> create btc_alphabet H2 H ins outs <> Panic.
Proof.
  intros H2 H ins outs HH (Ti & To & Li & Lo). unfold create, tx_bytes. destruct (_ || _); [discriminate|].
  pose proof (each_np input_bytes (fun i => 0 <= i_vout i < 2 ^ 16)) as N1. specialize (N1 ltac:(intros a _; unfold input_bytes; pose proof (reverse_hex_np (i_txid a)); destruct (reverse_hex (i_txid a)); [discriminate..|contradiction]) ins Ti).
  pose proof (each_np (output_bytes btc_alphabet H2) (fun o => 0 <= o_amount o < 2 ^ 64 /\ is_bytes (o_address o))) as N2. specialize (N2 ltac:(intros a [_ Ba]; unfold output_bytes; pose proof (reverse_hex_np (o_asset a)); destruct (reverse_hex (o_asset a)); [|discriminate|contradiction]; cbn [bind]; pose proof (names_np H2 _ HH Ba); destruct (program_hash btc_alphabet H2 [33] 0 (o_address a)); [discriminate..|contradiction]) outs To).
  destruct (each input_bytes ins) as [is| |] eqn:Ei; [|discriminate|contradiction]. cbn [bind]. destruct (each (output_bytes btc_alphabet H2) outs) as [os| |] eqn:Eo; [|discriminate|contradiction]. cbn [bind]. rewrite (each_len _ _ _ Ei), (each_len _ _ _ Eo). destruct (count_ok ins Li) as (ci & -> & _). destruct (count_ok outs Lo) as (co & -> & _). discriminate.
Qed.
(** One hash per address. *)
Lemma firsts_in l a : In a (firsts l) <-> In a l.
Proof.
  induction l as [|b l IH]; [reflexivity|]. cbn [firsts In]. rewrite filter_In, IH. split; [tauto|]. intros [?|I]; [auto|]. destruct (beq b a) eqn:Q; [left; apply beq_eq; exact Q|auto].
Qed.
Lemma firsts_nodup l : NoDup (firsts l).
Proof.
  induction l as [|b l IH]; [constructor|]. cbn [firsts]. constructor; [rewrite filter_In; intros [_ C]; rewrite beq_refl in C; discriminate|]. apply NoDup_filter. exact IH.
Qed.
Theorem ela_hashes : forall H2 H ins outs raw hs, hash_ok H2 -> typed ins outs -> create btc_alphabet H2 H ins outs = Ok (raw, hs) ->
  exists b, raw = hex_encode b /\ Forall (fun t => snd t = hex_encode (H b)) hs /\ NoDup (map fst hs) /\ (forall a, In a (map fst hs) <-> exists i, In i ins /\ i_address i = a).
Proof.
  intros H2 H ins outs raw hs HH T E. apply ela_created_iff in E as (_ & _ & xs & ys & ci & co & b & _ & _ & _ & _ & _ & -> & ->); [|assumption..]. exists b. split; [reflexivity|]. split; [apply Forall_forall; intros t I; apply in_map_iff in I as (a & <- & _); reflexivity|]. rewrite map_map. cbn [fst]. rewrite map_id. split; [apply firsts_nodup|]. intros a. rewrite firsts_in, in_map_iff. split; intros (i & P & Q); eauto.
Qed.
(** The created transaction as the chain reads it. *)
Lemma reads_eq {A} (r : reader A) e e' a a' : reads r e a -> e = e' -> a = a' -> reads r e' a'.
Proof. intros R -> ->. exact R. Qed.
Lemma input_read id n : zlen id = 32 -> 0 <= n < 2 ^ 16 -> reads rinput (input_wire id n) (id, n).
Proof.
  intros L N. unfold rinput, input_wire. eapply reads_bind; [apply reads_take; rewrite zlen_rev; exact L|]. eapply reads_bind; [apply (reads_le 2 n); [lia|exact N]|]. eapply reads_eq; [eapply reads_bind; [apply reads_exact|apply reads_ret]|apply app_nil_r|rewrite rev_involutive; reflexivity].
Qed.
Lemma output_read a m h : zlen a = 32 -> 0 <= m < 2 ^ 64 -> zlen h = 20 -> reads routput (output_wire a m h) (a, m, h).
Proof.
  intros L M N. unfold routput, output_wire. eapply reads_bind; [apply reads_take; rewrite zlen_rev; exact L|]. eapply reads_bind; [apply (reads_le 8 m); [lia|exact M]|]. eapply reads_bind; [apply reads_exact|]. change (0x21 :: h) with ([0x21] ++ h). eapply reads_bind; [apply reads_exact|]. eapply reads_eq; [eapply reads_bind; [apply reads_take; exact N|apply reads_ret]|apply app_nil_r|rewrite rev_involutive; reflexivity].
Qed.
Lemma list_read {A} (r : reader A) (w : A -> bytes) c (xs : list A) : reads rleb c (zlen xs) -> Forall (fun x => reads r (w x) x) xs -> reads (rlist r) (c ++ concat (map w xs)) xs.
Proof.
  intros C F. unfold rlist. eapply reads_bind; [exact C|]. unfold zlen. rewrite Nat2Z.id. apply reads_repeat. clear C. induction F; constructor; assumption.
Qed.
Theorem ela_created_read : forall H2 H ins outs raw hs, hash_ok H2 -> typed ins outs -> create btc_alphabet H2 H ins outs = Ok (raw, hs) ->
  Forall (fun i => zlen (i_txid i) = 64) ins -> Forall (fun o => zlen (o_asset o) = 64) outs ->
  exists b xs ys, raw = hex_encode b /\ rwhole rtx b = Some (xs, ys) /\ Forall2 is_input ins xs /\ Forall2 (is_output H2) outs ys /\ Forall (fun t => snd t = hex_encode (H b)) hs.
Proof.
  intros H2 H ins outs raw hs HH T E Si So. pose proof (ela_hashes _ _ _ _ _ _ HH T E) as (b0 & R0 & Q & _). apply ela_created_iff in E as (_ & _ & xs & ys & ci & co & b & Fx & Fy & Eci & Eco & Eb & -> & ->); [|assumption..]. exists b, xs, ys. split; [reflexivity|]. destruct T as (Ti & To & Li & Lo).
  assert (L1 : zlen xs = zlen ins) by (unfold zlen; f_equal; symmetry; clear -Fx; induction Fx; cbn; congruence). assert (L2 : zlen ys = zlen outs) by (unfold zlen; f_equal; symmetry; clear -Fy; induction Fy; cbn; congruence).
  split; [|split; [exact Fx|]; split; [exact Fy|]; apply Forall_forall; intros t I; apply in_map_iff in I as (a & <- & _); reflexivity].
  apply reads_whole. rewrite Eb. unfold rtx. destruct (count_ok ins Li) as (c & E1 & _ & R1). rewrite Eci in E1. assert (c = ci) by congruence. subst c. destruct (count_ok outs Lo) as (c & E2 & _ & R2). rewrite Eco in E2. assert (c = co) by congruence. subst c.
  eapply reads_bind; [apply reads_exact|]. rewrite app_assoc. eapply reads_bind; [apply (list_read rinput (fun x => input_wire (fst x) (snd x))); [rewrite L1; exact R1|]|].
  { clear -Fx Ti Si. induction Fx as [|i x ins xs [D N] F IH]; [constructor|]. inversion Ti; subst. inversion Si; subst. constructor; [|apply IH; assumption]. destruct x as [id n]. cbn [fst snd] in *. subst n. apply input_read; [|assumption]. apply hex_decode_bytes in D as [_ L]. unfold zlen in *. lia. }
  rewrite app_assoc. eapply reads_bind; [apply (list_read routput (fun y => output_wire (fst (fst y)) (snd (fst y)) (snd y))); [rewrite L2; exact R2|]|].
  { clear -Fy To So. induction Fy as [|i x ins xs (D & N & M) F IH]; [constructor|]. inversion To; subst. inversion So; subst. constructor; [|apply IH; assumption]. destruct x as [[id n] h]. cbn [fst snd] in *. subst n. apply output_read; [|tauto|apply M]. apply hex_decode_bytes in D as [_ L]. unfold zlen in *. lia. }
  eapply reads_eq; [eapply reads_bind; [apply reads_exact|apply reads_ret]|apply app_nil_r|reflexivity].
Qed.
(** Identifiers of other lengths are accepted, and then different transactions have the same bytes and so the same hash. *)
Definition mk_in (id : bytes) (n : Z) (a : list Z) : vin := {| i_txid := hex_encode id; i_vout := n; i_address := a |}.
Theorem ela_ids_ambiguous : forall H2 H id id' c d n a outs,
  is_bytes id -> is_bytes id' -> is_byte c -> is_byte d -> 0 <= n < 2 ^ 16 ->
  create btc_alphabet H2 H [mk_in (c :: id) (d + 256 * 255) a; mk_in id' n a] outs = create btc_alphabet H2 H [mk_in id (c + 256 * d) a; mk_in (id' ++ [255]) n a] outs.
Proof.
  intros H2 H id id' c d n a outs Bi Bi' Bc Bd N. unfold is_byte in *.
  assert (RH : forall x, is_bytes x -> reverse_hex (hex_encode x) = Ok (rev x)) by (intros x Bx; apply reverse_hex_iff; exists x; split; [apply hex_decode_encode; exact Bx|reflexivity]).
  assert (B2 : forall x y, 0 <= x < 256 -> 0 <= y < 256 -> le_bytes 2 (x + 256 * y) = [x; y]).
  { intros x y X Y. cbn [le_bytes]. replace ((x + 256 * y) mod 256) with x by (Z.div_mod_to_equations; lia). replace ((x + 256 * y) / 256 mod 256) with y by (Z.div_mod_to_equations; lia). reflexivity. }
  unfold create, tx_bytes. cbn [hashes map]. change (zlen [mk_in (c :: id) (d + 256 * 255) a; mk_in id' n a]) with 2. change (zlen [mk_in id (c + 256 * d) a; mk_in (id' ++ [255]) n a]) with 2.
  unfold each at 1 3. unfold input_bytes, mk_in. cbn [i_txid i_vout i_address]. rewrite !RH by (bts; split; lia). cbn [bind]. rewrite !B2 by lia. cbn [rev]. rewrite rev_app_distr. cbn [rev app].
  change (zlen [(rev id ++ [c]) ++ [d; 255; 255; 255; 255; 255]; rev id' ++ le_bytes 2 n ++ [255; 255; 255; 255]]) with 2. change (zlen [rev id ++ [c; d; 255; 255; 255; 255]; 255 :: rev id' ++ le_bytes 2 n ++ [255; 255; 255; 255]]) with 2. cbn [concat app]. rewrite <- !app_assoc. cbn [app]. reflexivity.
Qed.

(** C50 *)
Theorem ela_combine_iff : forall H decompress verify raw l out, zlen l < 2 ^ 56 ->
  (verify_and_combine H decompress verify raw l = Ok (Some out) <->
   exists tx ps, hex_decode raw = Ok tx /\
     Forall (fun s => zlen (s_pub s) = 33 /\ zlen (s_sig s) = 64 /\ exists c k, decompress (s_pub s) = c :: k /\ verify k (H tx) (s_sig s) = true) l /\
     rwhole (rlist rprogram) ps = Some (map (fun s => (s_pub s, s_sig s)) l) /\ sigpubs_bytes l = Ok ps /\ out = hex_encode (tx ++ ps)).
Proof.
  intros H dc vf raw l out L. unfold verify_and_combine. split.
  - destruct (hex_decode raw) as [tx| |] eqn:D; [|discriminate..]. intros E. apply bind_ok in E as (ok & C & E). destruct ok; [|discriminate]. destruct (sigpubs_bytes l) as [ps| |] eqn:S; [|discriminate..]. exists tx, ps. split; [reflexivity|].
    unfold sigpubs_bytes in S. destruct (count_ok l L) as (c & Ec & _ & R). rewrite Ec in S. cbn [bind] in S. apply bind_ok in S as (t & Et & S). assert (S' : ps = c ++ concat t) by congruence. clear S.
    assert (Z : Forall (fun s => zlen (s_pub s) = 33 /\ zlen (s_sig s) = 64) l /\ t = map (fun x => [65; 64] ++ snd x ++ [35; 33] ++ fst x ++ [0xAC]) (map (fun s => (s_pub s, s_sig s)) l)).
    { clear -Et. revert t Et. induction l as [|s l IH]; intros t Et; cbn [each] in Et; [injection Et as <-; split; [constructor|reflexivity]|]. apply bind_ok in Et as (b & Eb & Et). apply bind_ok in Et as (u & Eu & Et). destruct (IH u Eu) as [F ->]. unfold sigpub_bytes in Eb. destruct (zlen (s_pub s) =? 33) eqn:E1; [|discriminate]. destruct (zlen (s_sig s) =? 64) eqn:E2; [|discriminate]. cbn [negb] in Eb.
      split; [constructor; [lia|exact F]|]. cbn [map fst snd]. injection Et as <-. injection Eb as <-. reflexivity. }
    destruct Z as [Z ->]. split; [|split].
    + clear -C Z. induction Z as [|s l [Z1 Z2] Z IH]; [constructor|]. cbn [check] in C. apply bind_ok in C as (k & K & C). destruct (vf k (H tx) (s_sig s)) eqn:V; [|discriminate]. constructor; [|apply IH; exact C]. split; [exact Z1|]. split; [exact Z2|]. destruct (dc (s_pub s)) as [|c0 k0]; [discriminate|]. rewrite slice_from_cons in K. injection K as <-. eauto.
    + apply reads_whole. rewrite S'. apply list_read; [rewrite zlen_map; exact R|]. clear -Z. induction Z as [|s l [Z1 Z2] Z IH]; [constructor|]. cbn [map]. constructor; [|exact IH]. cbn [fst snd]. unfold rprogram. eapply reads_bind; [apply reads_exact|]. eapply reads_bind; [apply reads_take; exact Z2|]. eapply reads_bind; [apply reads_exact|]. eapply reads_bind; [apply reads_take; exact Z1|]. eapply reads_eq; [eapply reads_bind; [apply reads_exact|apply reads_ret]|apply app_nil_r|reflexivity].
    + split; [reflexivity|congruence].
  - intros (tx & ps & -> & F & _ & S & ->). assert (C : check dc vf (H tx) l = Ok true).
    { clear -F. induction F as [|s l (_ & _ & c & k & D & V) F IH]; [reflexivity|]. cbn [check]. rewrite D, slice_from_cons. cbn [bind]. rewrite V. exact IH. }
    rewrite C. cbn [bind]. rewrite S. reflexivity.
Qed.
(** Without signatures every hex text is accepted, and a zero byte is added. *)
Theorem ela_empty_accepted : forall H decompress verify raw,
  match hex_decode raw with
  | Ok tx => verify_and_combine H decompress verify raw [] = Ok (Some (hex_encode (tx ++ [0])))
  | _ => verify_and_combine H decompress verify raw [] = Ok None
  end.
Proof. intros H dc vf raw. unfold verify_and_combine. pose proof (hex_decode_not_panic raw). destruct (hex_decode raw); [reflexivity..|contradiction]. Qed.
(** Each signature must be valid for the key given with it; the keys have nothing to do with the inputs, and their number neither. *)
Theorem ela_any_signer : forall H2 H decompress verify ins outs raw hs s, hash_ok H2 -> typed ins outs -> create btc_alphabet H2 H ins outs = Ok (raw, hs) ->
  zlen (s_pub s) = 33 -> zlen (s_sig s) = 64 ->
  exists b, raw = hex_encode b /\
    (is_bytes b -> (exists c k, decompress (s_pub s) = c :: k /\ verify k (H b) (s_sig s) = true) -> exists out, verify_and_combine H decompress verify raw [s] = Ok (Some out)).
Proof.
  intros H2 H dc vf ins outs raw hs s HH T E L1 L2. destruct (ela_hashes _ _ _ _ _ _ HH T E) as (b & -> & _). exists b. split; [reflexivity|]. intros B V.
  assert (S : exists ps, sigpubs_bytes [s] = Ok ps) by (unfold sigpubs_bytes; cbn [each]; unfold sigpub_bytes; rewrite L1, L2; eexists; reflexivity). destruct S as (ps & S). unfold verify_and_combine. rewrite hex_decode_encode by exact B. destruct V as (c & k & D & V). cbn [check]. rewrite D, slice_from_cons. cbn [bind]. rewrite V. cbn [bind]. rewrite S. eauto.
Qed.
(** A key that cannot be decompressed to at least one byte stops the program. *)
Theorem ela_combine_panics_iff : forall H decompress verify raw l, zlen l < 2 ^ 56 ->
  (verify_and_combine H decompress verify raw l = Panic <->
   exists tx l1 s l2, hex_decode raw = Ok tx /\ l = l1 ++ s :: l2 /\ decompress (s_pub s) = [] /\
     Forall (fun s => exists c k, decompress (s_pub s) = c :: k /\ verify k (H tx) (s_sig s) = true) l1).
Proof.
  intros H dc vf raw l L. unfold verify_and_combine. pose proof (hex_decode_not_panic raw) as N. destruct (hex_decode raw) as [tx| |]; [|split; [discriminate|intros (tx & _ & _ & _ & Q & _); discriminate]|contradiction].
  assert (NP : sigpubs_bytes l <> Panic). { unfold sigpubs_bytes. destruct (count_ok l L) as (c & -> & _). cbn [bind]. pose proof (each_np sigpub_bytes (fun _ => True)) as Q. specialize (Q ltac:(intros a _; unfold sigpub_bytes; destruct (negb _); [discriminate|]; destruct (negb _); discriminate) l ltac:(apply Forall_forall; auto)). destruct (each sigpub_bytes l); [discriminate..|contradiction]. }
  assert (K : check dc vf (H tx) l = Panic <-> exists l1 s l2, l = l1 ++ s :: l2 /\ dc (s_pub s) = [] /\ Forall (fun s => exists c k, dc (s_pub s) = c :: k /\ vf k (H tx) (s_sig s) = true) l1).
  { clear L NP N. induction l as [|s l IH]; [cbn [check]; split; [discriminate|intros ([|? ?] & s0 & l2 & Q & _); discriminate]|]. cbn [check]. destruct (dc (s_pub s)) as [|c k] eqn:D.
    - split; [intros _; exists [], s, l; auto|intros _; reflexivity].
    - rewrite slice_from_cons. cbn [bind]. destruct (vf k (H tx) (s_sig s)) eqn:V.
      + rewrite IH. split.
        * intros (l1 & s' & l2 & -> & D' & F). exists (s :: l1), s', l2. split; [reflexivity|]. split; [exact D'|]. constructor; [eauto|exact F].
        * intros ([|s1 l1] & s' & l2 & Q & D' & F); cbn [app] in Q; [injection Q as <- _; rewrite D in D'; discriminate|]. injection Q as <- ->. inversion F; subst. eexists _, _, _. split; [reflexivity|]. split; assumption.
      + split; [discriminate|]. intros ([|s1 l1] & s' & l2 & Q & D' & F); cbn [app] in Q; [injection Q as <- _; rewrite D in D'; discriminate|]. injection Q as <- ->. inversion F; subst. match goal with X : exists c k, dc (s_pub s) = _ /\ _ |- _ => destruct X as (c' & k' & D2 & V2); congruence end. }
  split.
  - intros E. destruct (check dc vf (H tx) l) as [[|]| |] eqn:C; cbn [bind] in E; [destruct (sigpubs_bytes l); [discriminate..|contradiction]|discriminate..|]. destruct (proj1 K eq_refl) as (l1 & s & l2 & -> & D & F). exists tx, l1, s, l2. auto.
  - intros (tx' & l1 & s & l2 & Q & E & D & F). assert (tx' = tx) by congruence. subst tx'. rewrite (proj2 K (ex_intro _ l1 (ex_intro _ s (ex_intro _ l2 (conj E (conj D F)))))). reflexivity.
Qed.

(** ** Examples *)
Definition toy_addr (h : bytes) : list Z := match base58_encode btc_alphabet (checked toy_hash (0x21 :: h)) with Ok s => s | _ => [] end.
Lemma toy_addr_ok h : is_bytes h -> zlen h = 20 -> names toy_hash (toy_addr h) h /\ is_bytes (toy_addr h).
Proof.
  intros Hh L. unfold toy_addr. destruct (base58_encode_positional _ _ (checked toy_hash (0x21 :: h)) btc_alphabet_ok btc_alphabet_new) as (s & E & P); [apply checked_bytes; [exact toy_hash_ok|bts]|]. destruct (enc_checked toy_hash toy_hash_ok _ btc_alphabet_ok _ btc_alphabet_new (0x21 :: h)) as (s' & E' & _ & S); [bts|]. rewrite E in *. injection E' as <-. split; [split; [exact Hh|]; split; [exact L|exact P]|apply ascii_bytes; exact S].
Qed.
Lemma rep_bytes b n : is_byte b -> is_bytes (repeat b n).
Proof. intros B. apply Forall_forall. intros x X. apply repeat_spec in X. subst. exact B. Qed.
Definition toy_ins : list vin := [mk_in (repeat 1 32) 7 [65]; mk_in (repeat 2 32) 8 [66]; mk_in (repeat 3 32) 9 [65]].
Definition toy_outs : list vout := [{| o_asset := hex_encode (repeat 4 32); o_amount := 1000; o_address := toy_addr (repeat 5 20) |}].
Example toy_typed : typed toy_ins toy_outs.
Proof. unfold typed, toy_ins, toy_outs. split; [repeat constructor; cbn; lia|]. split; [|split; reflexivity]. constructor; [|constructor]. cbn [o_amount o_address]. split; [lia|]. apply toy_addr_ok; [apply rep_bytes; split; lia|reflexivity]. Qed.
Example toy_created : exists raw hs, create btc_alphabet toy_hash toy_hash toy_ins toy_outs = Ok (raw, hs) /\ map fst hs = [[65]; [66]].
Proof.
  eexists _, _. split.
  - apply ela_created_iff; [exact toy_hash_ok|exact toy_typed|]. split; [discriminate|]. split; [discriminate|]. exists [(repeat 1 32, 7); (repeat 2 32, 8); (repeat 3 32, 9)], [(repeat 4 32, 1000, repeat 5 20)], [3], [1]. eexists. split; [repeat constructor|]. split; [|split; [reflexivity|]; split; [reflexivity|]; split; [reflexivity|]; split; reflexivity].
    constructor; [|constructor]. split; [reflexivity|]. split; [reflexivity|]. apply toy_addr_ok; [apply rep_bytes; split; lia|reflexivity].
  - reflexivity.
Qed.
Example toy_lengths : Forall (fun i => zlen (i_txid i) = 64) toy_ins /\ Forall (fun o => zlen (o_asset o) = 64) toy_outs.
Proof. split; repeat constructor. Qed.
Example toy_signed : exists out, verify_and_combine toy_hash (fun k => k) (fun k m s => true) (hex_encode [1; 2]) [{| s_pub := repeat 2 33; s_sig := repeat 3 64 |}] = Ok (Some out).
Proof. eexists. reflexivity. Qed.

Print Assumptions ela_created_iff.
Print Assumptions ela_create_no_panic.
Print Assumptions ela_hashes.
Print Assumptions ela_created_read.
Print Assumptions ela_ids_ambiguous.
Print Assumptions ela_combine_iff.
Print Assumptions ela_empty_accepted.
Print Assumptions ela_any_signer.
Print Assumptions ela_combine_panics_iff.
