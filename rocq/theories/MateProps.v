(** C56, C95, C96, C97: Mateverse transactions. *)
From Coq Require Import String ZArith List Bool Lia ZifyBool ZifyNat.
From Verif Require Import Go GoFacts Codes Reader Rd CodecModel CodecProps SigModel SigDerProps BtcModel BtcProofs HyperModel HyperProps LiteModel LiteProps MateModel Toy.
Import ListNotations.
Open Scope Z_scope.
Ltac Zify.zify_post_hook ::= idtac.

(** ** Specification *)
(** A transaction as bytes: version 4, a count, inputs (id, index, script, sequence) and everything else. *)
Definition mtx (count : bytes) (ins : list (bytes * Z * Z)) (scripts : list bytes) (tail : bytes) : bytes :=
  [4; 0; 0; 0] ++ count ++ flat_map (fun '((id, v, s), sc) => id ++ le 4 v ++ sc ++ le 4 s) (combine ins scripts) ++ tail.
(** The forms of a count that are read: one byte other than 0 and 253 standing for itself, or 253 and two bytes. *)
Definition counts (c : bytes) (n : nat) : Prop := (c = [Z.of_nat n] /\ (0 < n < 256)%nat /\ n <> 253%nat) \/ (c = 253 :: le 2 (Z.of_nat n) /\ Z.of_nat n < 65536).
(** The form that is written. *)
Definition count_of (n : nat) : bytes := if (n <? 253)%nat then [Z.of_nat n] else 253 :: le 2 (Z.of_nat n).
Definition in_ok (i : bytes * Z * Z) : Prop := let '(id, v, s) := i in is_bytes id /\ length id = 32%nat /\ 0 <= v < 2 ^ 32 /\ 0 <= s < 2 ^ 32.
Definition fresh (i : bytes * Z * Z) : mvin := let '(id, v, s) := i in {| m_txid := hex_encode (rev id); m_vout := v; m_lock := []; m_seq := s; m_hash := []; m_sig := []; m_pub := [] |}.
(** The text shows these inputs, counted by c, and this tail. *)
Definition shows (text : list Z) (c : bytes) (ins : list (bytes * Z * Z)) (tail : bytes) : Prop :=
  counts c (length ins) /\ Forall in_ok ins /\ tail <> [] /\ hex_decode text = Ok (mtx c ins (map (fun _ => [0]) ins) tail).

(** ** Decoding *)
Definition mwin (i : bytes * Z * Z) : bytes := let '(id, v, s) := i in id ++ le 4 v ++ [0] ++ le 4 s.
Lemma mtx_blank c ins tail : mtx c ins (map (fun _ => [0]) ins) tail = [4; 0; 0; 0] ++ c ++ concat (map mwin ins) ++ tail.
Proof. unfold mtx. do 3 f_equal. induction ins as [|[[id v] s] ins IH]; [reflexivity|]. cbn [map combine flat_map concat mwin]. rewrite IH. reflexivity. Qed.
Lemma le_of_num b n : is_bytes b -> zlen b = Z.of_nat n -> le n (le_num b) = b.
Proof. intros B L. unfold le. apply le_num_inj; [apply le_bytes_is_bytes|exact B|pose proof (zlen_le_bytes n (le_num b)); unfold zlen in *; lia|]. apply le_num_of_small. rewrite <- L. apply le_num_bound. exact B. Qed.
Lemma read_min_iff n b l r : is_bytes b -> readn n read_min b = Ok (l, r) <-> exists ws, length ws = n /\ Forall in_ok ws /\ b = concat (map mwin ws) ++ r /\ l = map fresh ws.
Proof.
  apply readn_iff.
  - intros [[id v] s] rest (B & A & V & S0). unfold read_min, mwin. rewrite <- !app_assoc, need_app by (unfold zlen; lia). rewrite need_app by apply zlen_le_bytes. cbn [app need1 Z.eqb negb]. rewrite need_app by apply zlen_le_bytes. unfold fresh. rewrite !le_num_of_small by exact V || exact S0. reflexivity.
  - clear. intros b x r B E. unfold read_min in E. apply need_inv in E as (id & b1 & -> & L1 & E); [|lia]. apply is_bytes_app in B as [B1 B]. apply need_inv in E as (v & b2 & -> & L2 & E); [|lia]. apply is_bytes_app in B as [B2 B]. apply need1_inv in E as (y & b3 & -> & E). apply is_bytes_cons in B as [_ B].
    destruct (Z.eqb_spec y 0) as [->|]; cbn [negb] in E; [|discriminate]. apply need_inv in E as (s & b4 & -> & L3 & E); [|lia]. apply is_bytes_app in B as [B3 B].
    exists (id, le_num v, le_num s). pose proof (le_num_bound v B2) as K2. pose proof (le_num_bound s B3) as K3. rewrite L2 in K2. rewrite L3 in K3. split; [split; [exact B1|]; split; [unfold zlen in L1; lia|]; split; assumption|].
    assert (r = b4) by congruence. subst r. split; [unfold mwin; rewrite !(le_of_num _ 4) by assumption; rewrite <- !app_assoc; reflexivity|]. unfold fresh. congruence.
Qed.
Lemma decode_empty_iff tx ins tail : is_bytes tx -> decode_empty tx = Ok (ins, tail) <-> exists c ws, counts c (length ws) /\ Forall in_ok ws /\ tail <> [] /\ tx = mtx c ws (map (fun _ => [0]) ws) tail /\ ins = map fresh ws.
Proof.
  intros B. split.
  - intros E. unfold decode_empty in E. apply need_inv in E as (v & b1 & -> & L1 & E); [|lia]. apply is_bytes_app in B as [Bv B]. destruct (Z.eqb_spec (le_num v) 4) as [Q|]; cbn [negb] in E; [|discriminate].
    assert (v = [4; 0; 0; 0]) as ->. { rewrite <- (le_of_num v 4 Bv L1), Q. reflexivity. }
    unfold read_count in E. apply need1_inv in E as (b & b2 & -> & E). apply is_bytes_cons in B as [Bb B]. red in Bb. destruct (Z.eqb_spec b 253) as [->|Nb]; cbn [negb] in E.
    + apply need_inv in E as (c & b3 & -> & L2 & E); [|lia]. apply is_bytes_app in B as [Bc B]. apply bind_ok in E as ([l r] & Ei & E). apply (read_min_iff _ _ _ _ B) in Ei as (ws & Lw & Fw & -> & ->). pose proof (le_num_bound c Bc) as K. rewrite L2 in K.
      destruct r as [|t0 r]; [discriminate|]. exists (253 :: c), ws. split; [right; split; [rewrite Lw, Z2Nat.id by lia; rewrite (le_of_num c 2 Bc L2); reflexivity|lia]|]. split; [exact Fw|]. assert (tail = t0 :: r) by congruence. subst tail. split; [discriminate|]. split; [rewrite mtx_blank; cbn [app]; rewrite <- ?app_assoc; reflexivity|]. congruence.
    + destruct (Z.eqb_spec b 0) as [|Zb]; [discriminate|]. apply bind_ok in E as ([l r] & Ei & E). apply (read_min_iff _ _ _ _ B) in Ei as (ws & Lw & Fw & -> & ->). destruct r as [|t0 r]; [discriminate|].
      exists [b], ws. split; [left; split; [rewrite Lw, Z2Nat.id by lia; reflexivity|split; lia]|]. split; [exact Fw|]. assert (tail = t0 :: r) by congruence. subst tail. split; [discriminate|]. split; [rewrite mtx_blank; reflexivity|]. congruence.
  - intros (c & ws & C & F & N & -> & ->). rewrite mtx_blank in *. unfold decode_empty. rewrite need_app by reflexivity. change (negb (le_num [4; 0; 0; 0] =? 4)) with false. cbv iota. apply is_bytes_app in B as [_ B]. apply is_bytes_app in B as [_ B].
    assert (R : readn (length ws) read_min (concat (map mwin ws) ++ tail) = Ok (map fresh ws, tail)) by (apply (read_min_iff _ _ _ _ B); exists ws; split; [reflexivity|]; split; [exact F|]; split; reflexivity).
    destruct C as [(-> & K & K2)|(-> & K)]; unfold read_count; cbn [app need1].
    + replace (Z.of_nat (length ws) =? 253) with false by lia. cbn [negb]. replace (Z.of_nat (length ws) =? 0) with false by lia. rewrite Nat2Z.id, R. cbn [bind]. destruct tail; [contradiction|reflexivity].
    + change (negb (253 =? 253)) with false. cbv iota. rewrite need_app by apply zlen_le_bytes. rewrite le_num_of_small by (change (256 ^ Z.of_nat 2) with 65536; lia). rewrite Nat2Z.id, R. cbn [bind]. destruct tail; [contradiction|reflexivity].
Qed.
Theorem mate_inputs_iff : forall text ins, get_inputs text = Ok ins <-> exists c ws tail, shows text c ws tail /\ ins = map fresh ws.
Proof.
  intros text ins. unfold get_inputs, shows. split.
  - destruct (hex_decode text) as [tx| |] eqn:D; try discriminate. intros E. apply bind_ok in E as ([l tail] & E & Q). apply (decode_empty_iff tx _ _ (proj1 (hex_decode_bytes _ _ D))) in E as (c & ws & C & F & N & -> & ->). exists c, ws, tail. split; [|congruence]. split; [exact C|]. split; [exact F|]. split; [exact N|reflexivity].
  - intros (c & ws & tail & (C & F & N & D) & ->). rewrite D. rewrite (proj2 (decode_empty_iff _ (map fresh ws) tail (proj1 (hex_decode_bytes _ _ D)))); [reflexivity|]. exists c, ws. split; [exact C|]. split; [exact F|]. split; [exact N|]. split; reflexivity.
Qed.
Lemma decode_shows text c ws tail : shows text c ws tail -> exists tx, hex_decode text = Ok tx /\ decode_empty tx = Ok (map fresh ws, tail).
Proof.
  intros (C & F & N & D). eexists. split; [exact D|]. apply (decode_empty_iff _ (map fresh ws) tail (proj1 (hex_decode_bytes _ _ D))). exists c, ws. split; [exact C|]. split; [exact F|]. split; [exact N|]. split; reflexivity.
Qed.
Lemma decode_inv text tx l tail : hex_decode text = Ok tx -> decode_empty tx = Ok (l, tail) -> exists c ws, shows text c ws tail /\ l = map fresh ws.
Proof.
  intros D E. apply (decode_empty_iff tx _ _ (proj1 (hex_decode_bytes _ _ D))) in E as (c & ws & C & F & N & -> & ->). exists c, ws. split; [|reflexivity]. split; [exact C|]. split; [exact F|]. split; [exact N|exact D].
Qed.
(** What is shown is determined by the text. *)
Theorem mate_shows_unique : forall text c ws tail c' ws' tail', shows text c ws tail -> shows text c' ws' tail' -> c = c' /\ ws = ws' /\ tail = tail'.
Proof.
  intros text c ws tail c' ws' tail' S1 S2. destruct (decode_shows _ _ _ _ S1) as (tx & D & E). destruct (decode_shows _ _ _ _ S2) as (tx' & D' & E'). rewrite D in D'. assert (tx' = tx) by congruence. subst tx'. rewrite E in E'.
  assert (tail = tail') by congruence. subst tail'. assert (M : map fresh ws = map fresh ws') by congruence. destruct S1 as (C1 & F1 & _ & H1), S2 as (C2 & F2 & _ & H2).
  assert (ws = ws').
  { clear -M F1 F2. revert ws' M F2. induction F1 as [|[[id v] s] ws (Bi & Li & _) F1 IH]; intros [|[[id' v'] s'] ws'] M F2; try discriminate; [reflexivity|]. pose proof (Forall_inv F2) as (Bi' & Li' & _). apply Forall_inv_tail in F2. cbn [map fresh] in M.
    assert (R : hex_encode (rev id) = hex_encode (rev id')) by congruence. apply hex_encode_inj in R; [|apply is_bytes_rev; assumption..]. apply (f_equal (@rev Z)) in R. rewrite !rev_involutive in R. assert (v = v') by congruence. assert (s = s') by congruence. assert (M' : map fresh ws = map fresh ws') by congruence. rewrite (IH _ M' F2). congruence. }
  subst ws'. split; [|split; reflexivity]. rewrite H1 in H2. rewrite !mtx_blank in H2. assert (Q : [4; 0; 0; 0] ++ c ++ concat (map mwin ws) ++ tail = [4; 0; 0; 0] ++ c' ++ concat (map mwin ws) ++ tail) by congruence. apply app_inv_head, app_inv_tail in Q. exact Q.
Qed.

(** ** Lock scripts *)
(** Standard scripts as the wallet shows them, and their bytes. *)
Definition p2pkh_text (h : bytes) : list Z := str "dup hash160 [ " ++ hex_encode h ++ str " ] equalverify checksig".
Definition attenuated_text (m p h : bytes) : list Z := str "[ " ++ hex_encode m ++ str " ] [ " ++ hex_encode p ++ str " ] checkattenuationverify " ++ p2pkh_text h.
Definition attenuated (m p h : bytes) : bytes := [0x4d] ++ le 2 (zlen m mod 65536) ++ m ++ [zlen p mod 256] ++ p ++ [0xb2] ++ p2pkh h.

(** Characters of hexadecimal text. *)
Definition hx (c : Z) : Prop := 48 <= c <= 57 \/ 97 <= c <= 102.
Lemma replace_out old new h t a o : old = a :: o -> Forall (fun c => c <> a) h -> replace_from old new (h ++ t) 0 = h ++ replace_from old new t 0.
Proof.
  intros E F. induction F as [|c h Nc F IH]; [reflexivity|]. cbn [app replace_from]. assert (prefixb old (c :: h ++ t) = false) as -> by (rewrite E; cbn [prefixb]; replace (a =? c) with false by lia; reflexivity). rewrite IH. reflexivity.
Qed.
(** No occurrence starts in h when the second character of old is neither in h nor at the start of t. *)
Lemma replace_out2 old new h t a b o : old = a :: b :: o -> Forall (fun c => c <> b) h -> match t with x :: _ => x <> b | [] => True end -> replace_from old new (h ++ t) 0 = h ++ replace_from old new t 0.
Proof.
  intros E F T. induction F as [|c h Nc F IH]; [reflexivity|]. cbn [app replace_from].
  assert (prefixb old (c :: h ++ t) = false) as -> by (rewrite E; cbn [prefixb]; destruct h as [|d h]; [destruct t as [|x t]; cbn [app]; [apply andb_false_r|replace (b =? x) with false by lia; apply andb_false_r]|cbn [app]; inversion F; subst; replace (b =? d) with false by lia; apply andb_false_r]). rewrite IH. reflexivity.
Qed.
Lemma replace_skip old new h : forall t, replace_from old new (h ++ t) (length h) = replace_from old new t 0.
Proof. induction h as [|c h IH]; intros t; [reflexivity|]. cbn [app length replace_from]. apply IH. Qed.
Lemma prefixb_app p s : prefixb p (p ++ s) = true. Proof. induction p as [|a p IH]; [reflexivity|]. cbn [app prefixb]. rewrite Z.eqb_refl, IH. reflexivity. Qed.
Lemma replace_hit old new t : old <> [] -> replace_from old new (old ++ t) 0 = new ++ replace_from old new t 0.
Proof.
  intros N. destruct old as [|a o]; [contradiction|]. cbn [app replace_from]. change (a :: o ++ t) with ((a :: o) ++ t). rewrite prefixb_app. f_equal. replace (length (a :: o) - 1)%nat with (length o) by (cbn [length]; lia). apply (replace_skip (a :: o) new o t).
Qed.
Lemma replace_none old new s a o : old = a :: o -> Forall (fun c => c <> a) s -> replace_from old new s 0 = s.
Proof. intros E F. rewrite <- (app_nil_r s) at 1. rewrite (replace_out _ _ _ _ _ _ E F). cbn [replace_from]. apply app_nil_r. Qed.
Lemma hex_hx b : is_bytes b -> Forall hx (hex_encode b).
Proof. intros B. apply Forall_forall. intros x I. exact (hex_chars b x B I). Qed.
Lemma hx_not h a : Forall hx h -> ~ hx a -> Forall (fun c => c <> a) h.
Proof. intros F N. eapply Forall_impl; [|exact F]. intros c Hc Q. subst c. contradiction. Qed.
Ltac nothx := unfold hx; lia.
(** A string of known characters. *)
Ltac chars := repeat (constructor; [lia|]); constructor.

Ltac lits := repeat match goal with |- context [str ?x] => let v := eval vm_compute in (str x) in change (str x) with v end.
Ltac run := cbn [app replace_from prefixb Z.eqb Pos.eqb andb length Nat.sub].
Lemma p2pkh_lock hh : Forall hx hh -> lock_hex (str "dup hash160 [ " ++ hh ++ str " ] equalverify checksig") = str "76a914" ++ hh ++ str "88ac".
Proof.
  intros F. unfold lock_hex, replace_all. lits. run.
  rewrite (replace_out [32] [] hh _ 32 [] eq_refl (hx_not _ 32 F ltac:(nothx))). run.
  rewrite (replace_out2 _ _ hh _ 100 117 _ eq_refl (hx_not _ 117 F ltac:(nothx))) by lia. run.
  rewrite (replace_out _ _ hh _ 93 _ eq_refl (hx_not _ 93 F ltac:(nothx))). run.
  rewrite (replace_out2 _ _ hh _ 99 104 _ eq_refl (hx_not _ 104 F ltac:(nothx))) by lia. run.
  rewrite (replace_out _ _ hh _ 91 _ eq_refl (hx_not _ 91 F ltac:(nothx))). run.
  rewrite split_on_none; [reflexivity|]. intros I. repeat (destruct I as [I|I]; [discriminate|]). apply in_app_or in I as [I|I]; [rewrite Forall_forall in F; specialize (F _ I); revert F; nothx|]. repeat (destruct I as [I|I]; [discriminate|]). exact I.
Qed.
Lemma attenuated_lock mm pp hh : Forall hx mm -> Forall hx pp -> Forall hx hh ->
  lock_hex (str "[ " ++ mm ++ str " ] [ " ++ pp ++ str " ] checkattenuationverify dup hash160 [ " ++ hh ++ str " ] equalverify checksig") =
  str "4d" ++ hex_encode (put_le 2 (u16 (zlen mm / 2))) ++ mm ++ hex_encode [u8 (zlen pp / 2)] ++ pp ++ str "b276a914" ++ hh ++ str "88ac".
Proof.
  intros Fm Fp F. unfold lock_hex, replace_all. lits. run.
  rewrite (replace_out [32] [] mm _ 32 [] eq_refl (hx_not _ 32 Fm ltac:(nothx))). run. rewrite (replace_out [32] [] pp _ 32 [] eq_refl (hx_not _ 32 Fp ltac:(nothx))). run. rewrite (replace_out [32] [] hh _ 32 [] eq_refl (hx_not _ 32 F ltac:(nothx))). run.
  rewrite (replace_out2 _ _ mm _ 100 117 _ eq_refl (hx_not _ 117 Fm ltac:(nothx))) by lia. run. rewrite (replace_out2 _ _ pp _ 100 117 _ eq_refl (hx_not _ 117 Fp ltac:(nothx))) by lia. run. rewrite (replace_out2 _ _ hh _ 100 117 _ eq_refl (hx_not _ 117 F ltac:(nothx))) by lia. run.
  rewrite (replace_out _ _ mm _ 93 _ eq_refl (hx_not _ 93 Fm ltac:(nothx))). run. rewrite (replace_out _ _ pp _ 93 _ eq_refl (hx_not _ 93 Fp ltac:(nothx))). run. rewrite (replace_out _ _ hh _ 93 _ eq_refl (hx_not _ 93 F ltac:(nothx))). run.
  rewrite (replace_out2 _ _ mm _ 99 104 _ eq_refl (hx_not _ 104 Fm ltac:(nothx))) by lia. run. rewrite (replace_out2 _ _ pp _ 99 104 _ eq_refl (hx_not _ 104 Fp ltac:(nothx))) by lia. run. rewrite (replace_out2 _ _ hh _ 99 104 _ eq_refl (hx_not _ 104 F ltac:(nothx))) by lia. run.
  rewrite (replace_out _ _ mm _ 91 _ eq_refl (hx_not _ 91 Fm ltac:(nothx))). run. rewrite (replace_out _ _ pp _ 91 _ eq_refl (hx_not _ 91 Fp ltac:(nothx))). run. rewrite (replace_out _ _ hh _ 91 _ eq_refl (hx_not _ 91 F ltac:(nothx))). run.
  assert (Nh : forall l, Forall hx l -> ~ In 93 l) by (intros l Fl I; rewrite Forall_forall in Fl; specialize (Fl _ I); revert Fl; nothx).
  rewrite split_on_cons by (apply Nh; exact Fm). rewrite split_on_cons by (apply Nh; exact Fp). rewrite split_on_none; [reflexivity|].
  intros I. repeat (destruct I as [I|I]; [discriminate|]). apply in_app_or in I as [I|I]; [exact (Nh _ F I)|]. repeat (destruct I as [I|I]; [discriminate|]). exact I.
Qed.
Theorem mate_lock_scripts : forall m p h, is_bytes m -> is_bytes p -> is_bytes h ->
  hex_decode (lock_hex (p2pkh_text h)) = Ok (p2pkh h) /\ hex_decode (lock_hex (attenuated_text m p h)) = Ok (attenuated m p h).
Proof.
  intros m p h Bm Bp Bh. split.
  - unfold p2pkh_text. rewrite p2pkh_lock by (apply hex_hx; exact Bh). change (str "76a914") with (hex_encode [0x76; 0xa9; 0x14]). change (str "88ac") with (hex_encode [0x88; 0xac]). rewrite <- !hex_encode_app. apply hex_decode_encode. apply is_bytes_app; split; [bts|]. apply is_bytes_app; split; [exact Bh|bts].
  - unfold attenuated_text, p2pkh_text. replace (str " ] checkattenuationverify " ++ str "dup hash160 [ " ++ hex_encode h ++ str " ] equalverify checksig") with (str " ] checkattenuationverify dup hash160 [ " ++ hex_encode h ++ str " ] equalverify checksig") by reflexivity.
    rewrite attenuated_lock by (apply hex_hx; assumption). rewrite !zlen_hex_encode. rewrite !(Z.mul_comm 2), !Z.div_mul by lia.
    change (str "b276a914") with (hex_encode ([0xb2] ++ [0x76; 0xa9; 0x14])). change (str "88ac") with (hex_encode [0x88; 0xac]). change (str "4d") with (hex_encode [0x4d]). rewrite <- !hex_encode_app.
    match goal with |- hex_decode (hex_encode ?x) = Ok ?y => replace x with y; [apply hex_decode_encode|] end.
    + unfold attenuated. apply is_bytes_app; split; [bts|]. apply is_bytes_app; split; [apply le_bytes_is_bytes|]. apply is_bytes_app; split; [exact Bm|]. apply is_bytes_app; split; [constructor; [apply byte_mod|constructor]|]. apply is_bytes_app; split; [exact Bp|]. apply is_bytes_app; split; [bts|].
      apply is_bytes_app; split; [bts|]. apply is_bytes_app; split; [exact Bh|bts].
    + unfold attenuated, p2pkh. rewrite <- !app_assoc. reflexivity.
Qed.
(** Text that is already hexadecimal is kept, so that a second call finds the same scripts. *)
Theorem mate_lock_hex_kept : forall b, is_bytes b -> lock_hex (hex_encode b) = hex_encode b.
Proof.
  intros b B. pose proof (hex_hx b B) as F. unfold lock_hex, replace_all. lits.
  rewrite (replace_none [32] [] _ 32 [] eq_refl (hx_not _ 32 F ltac:(nothx))).
  rewrite <- (app_nil_r (hex_encode b)) at 1. rewrite (replace_out2 _ _ (hex_encode b) [] 100 117 _ eq_refl (hx_not _ 117 F ltac:(nothx)) I). cbn [replace_from]. rewrite app_nil_r.
  rewrite (replace_none _ _ _ 93 _ eq_refl (hx_not _ 93 F ltac:(nothx))).
  rewrite <- (app_nil_r (hex_encode b)) at 1. rewrite (replace_out2 _ _ (hex_encode b) [] 99 104 _ eq_refl (hx_not _ 104 F ltac:(nothx)) I). cbn [replace_from]. rewrite app_nil_r.
  rewrite (replace_none _ _ _ 91 _ eq_refl (hx_not _ 91 F ltac:(nothx))).
  rewrite split_on_none; [reflexivity|]. intros Q. rewrite Forall_forall in F. specialize (F _ Q). revert F. nothx.
Qed.

(** ** Hashes *)
Definition mkey (n : mvin) : bytes * Z * Z := (match hex_decode (m_txid n) with Ok b => rev b | _ => [] end, m_vout n, m_seq n).
(** The count that is written for n inputs. *)
Definition wcount (n : nat) : bytes := if (n <? 253)%nat then [Z.of_nat n] else 253 :: le 2 (Z.of_nat n mod 65536).
Definition slots (n k : nat) (lock : bytes) : list bytes := map (fun j => if Nat.eqb j k then counted lock else [0]) (seq 0 n).
Definition mate_sighash (H : bytes -> bytes) (ins : list (bytes * Z * Z)) (tail : bytes) (k : nat) (lock : bytes) : bytes := H (mtx (wcount (length ins)) ins (slots (length ins) k lock) tail ++ [1; 0; 0; 0]).
Definition ready (n : mvin) : Prop := m_lock n <> [] /\ 50 <= zlen (lock_hex (m_lock n)) /\ exists id, hex_decode (m_txid n) = Ok id /\ length id = 32%nat.
Definition hashed (H : bytes -> bytes) (ins : list (bytes * Z * Z)) (tail : bytes) (k : nat) (n : mvin) : mvin :=
  set_mhash (set_mlock n (lock_hex (m_lock n))) (hex_encode (mate_sighash H ins tail k (hex_prefix (lock_hex (m_lock n))))).
Lemma put_count_eq n : put_count (Z.of_nat n) = wcount n.
Proof. unfold put_count, wcount. destruct (Nat.ltb_spec n 253). - replace (Z.of_nat n <? 253) with true by lia. unfold u8. rewrite Z.mod_small by lia. reflexivity. - replace (Z.of_nat n <? 253) with false by lia. reflexivity. Qed.
Lemma calc_eq before n rest tail : 
  calc_bytes (before ++ n :: rest) (length before) ++ tail ++ put_le 4 1 =
  mtx (wcount (length (before ++ n :: rest))) (map mkey (before ++ n :: rest)) (slots (length (before ++ n :: rest)) (length before) (hex_prefix (m_lock n))) tail ++ [1; 0; 0; 0].
Proof.
  unfold calc_bytes, mtx. rewrite <- !app_assoc. unfold zlen at 1. rewrite put_count_eq. change (put_le 4 4) with [4; 0; 0; 0]. change (put_le 4 1) with [1; 0; 0; 0]. do 2 f_equal. f_equal.
  set (k := length before). assert (G : forall l a, (forall j m, nth_error l j = Some m -> (a + j = k)%nat -> m_lock m = m_lock n) ->
    flat_map (fun '(i, m) => or_nil (reverse_hex (m_txid m)) ++ put_le 4 (m_vout m) ++ (if Nat.eqb i k then u8 (zlen (hex_prefix (m_lock m))) :: hex_prefix (m_lock m) else [0]) ++ put_le 4 (m_seq m)) (combine (seq a (length l)) l) =
    flat_map (fun '((id, v, s), sc) => id ++ le 4 v ++ sc ++ le 4 s) (combine (map mkey l) (map (fun j => if Nat.eqb j k then counted (hex_prefix (m_lock n)) else [0]) (seq a (length l))))).
  { induction l as [|m l IH]; intros a A; [reflexivity|]. cbn [length seq map combine flat_map]. rewrite (IH (S a)) by (intros j x E K; apply (A (S j) x E); lia). f_equal. unfold mkey at 1. rewrite reverse_hex_dec.
    destruct (Nat.eqb_spec a k) as [E|E]; [rewrite (A 0%nat m eq_refl ltac:(lia))|]; destruct (hex_decode (m_txid m)); reflexivity. }
  apply G. intros j m E K. cbn [Nat.add] in K. subst j k. rewrite nth_error_app2, Nat.sub_diag in E by lia. cbn [nth_error] in E. congruence.
Qed.
Lemma sighash_loop_iff H tail rest : forall before out keys, keys = map mkey (before ++ rest) ->
  sighash_loop H tail before rest = (out, true) <-> Forall ready rest /\ out = before ++ map (fun '(k, n) => hashed H keys tail k n) (combine (seq (length before) (length rest)) rest).
Proof.
  induction rest as [|n rest IH]; intros before out keys K; cbn [sighash_loop].
  - cbn [length seq combine map]. rewrite app_nil_r. split; [intros E; split; [constructor|congruence]|intros [_ ->]; reflexivity].
  - destruct (m_lock n) as [|l0 lk] eqn:El; [split; [discriminate|intros [F _]; apply Forall_inv in F as (F & _); contradiction]|]. rewrite <- El. cbv zeta.
    destruct (lock_hex (m_lock n)) as [|x xs] eqn:Eh; [cbn [orb]; split; [discriminate|intros [F _]; apply Forall_inv in F as (_ & F & _); rewrite Eh in F; unfold zlen in F; cbn [length] in F; lia]|]. rewrite <- Eh. cbn [orb].
    destruct (Z.ltb_spec (zlen (lock_hex (m_lock n))) 50) as [Ll|Ll]; [split; [discriminate|intros [F _]; apply Forall_inv in F as (_ & F & _); lia]|]. cbn [m_txid set_mlock].
    assert (R : (exists id, hex_decode (m_txid n) = Ok id /\ length id = 32%nat) <-> match hex_decode (m_txid n) with Ok _ => negb (zlen (m_txid n) =? 64) | _ => true end = false).
    { destruct (hex_decode (m_txid n)) as [id| |] eqn:Ei; [|split; [intros (q & Q & _)|intros Q]; discriminate..]. pose proof (proj2 (hex_decode_bytes _ _ Ei)) as Li. unfold zlen. split; [intros (q & Q & Lq); assert (q = id) by congruence; subst q; lia|intros Q; exists id; split; [reflexivity|lia]]. }
    destruct (match hex_decode (m_txid n) with Ok _ => _ | _ => true end) eqn:Ei; [split; [discriminate|intros [F _]; apply Forall_inv in F as (_ & _ & F); apply R in F; discriminate]|].
    set (n1 := set_mlock n (lock_hex (m_lock n))). rewrite (calc_eq before n1 rest tail).
    assert (KK : map mkey (before ++ n1 :: rest) = keys) by (rewrite K, !map_app; reflexivity). assert (LK : length (before ++ n1 :: rest) = length keys) by (rewrite <- KK, map_length; reflexivity). rewrite KK, LK.
    change (m_lock n1) with (lock_hex (m_lock n)). fold (mate_sighash H keys tail (length before) (hex_prefix (lock_hex (m_lock n)))). set (n2 := set_mhash n1 _). assert (N2 : n2 = hashed H keys tail (length before) n) by reflexivity.
    rewrite (IH (before ++ [n2]) out keys) by (rewrite K, <- app_assoc, !map_app; reflexivity). rewrite app_length. cbn [length]. rewrite Nat.add_1_r, <- app_assoc. cbn [app seq combine map]. rewrite N2. split.
    + intros [F E]. split; [constructor; [|exact F]|exact E]. split; [rewrite El; discriminate|]. split; [exact Ll|]. apply R. reflexivity.
    + intros [F E]. apply Forall_inv_tail in F. split; [exact F|exact E].
Qed.
Theorem mate_hashes_iff : forall H text ins out, get_sig_hash H text ins = (out, true) <->
  exists c ws tail, shows text c ws tail /\ Forall ready ins /\ out = map (fun '(k, n) => hashed H (map mkey ins) tail k n) (combine (seq 0 (length ins)) ins).
Proof.
  intros H text ins out. unfold get_sig_hash. split.
  - destruct (hex_decode text) as [tx| |] eqn:D; try discriminate. destruct (decode_empty tx) as [[l tail]| |] eqn:E; try discriminate. intros L. destruct (decode_inv _ _ _ _ D E) as (c & ws & S0 & _). apply (sighash_loop_iff H tail ins [] out (map mkey ins) eq_refl) in L as [F L]. exists c, ws, tail. split; [exact S0|]. split; assumption.
  - intros (c & ws & tail & S0 & F & E). destruct (decode_shows _ _ _ _ S0) as (tx & D & De). rewrite D, De. apply (sighash_loop_iff H tail ins [] out (map mkey ins) eq_refl). split; assumption.
Qed.

(** ** Verification *)
Section Verify.
Variables (decompress : bytes -> bytes) (verify : bytes -> bytes -> bytes -> bool).
(** The signature stored in the input passes against the hash stored in the input. *)
Definition stored_pass (n : mvin) : Prop := exists p h s x pub, hex_decode (m_pub n) = Ok p /\ length p = 33%nat /\ hex_decode (m_hash n) = Ok h /\ length h = 32%nat /\ hex_decode (m_sig n) = Ok s /\ length s = 64%nat /\
  decompress p = x :: pub /\ verify pub h s = true.
Definition script_of (n : mvin) (sc : bytes) : Prop := (exists id, hex_decode (m_txid n) = Ok id) /\ exists s p, hex_decode (m_sig n) = Ok s /\ hex_decode (m_pub n) = Ok p /\ hypercash_sigpub s p 1 = Ok sc.
Lemma verify_input_iff n : verify_input decompress verify n = Ok true <-> stored_pass n.
Proof.
  unfold verify_input, stored_pass. split.
  - destruct (hex_decode (m_pub n)) as [p| |] eqn:Ep; try discriminate. destruct (hex_decode (m_hash n)) as [h| |] eqn:Eh; try discriminate. destruct (hex_decode (m_sig n)) as [s| |] eqn:Es; try discriminate.
    destruct (Z.eqb_spec (zlen p) 33) as [Lp|]; cbn [negb orb]; [|discriminate]. destruct (Z.eqb_spec (zlen h) 32) as [Lh|]; cbn [negb orb]; [|discriminate]. destruct (Z.eqb_spec (zlen s) 64) as [Ls|]; cbn [negb orb]; [|discriminate].
    destruct (decompress p) as [|x pub] eqn:D; [discriminate|]. rewrite slice1. cbn [bind]. intros E. exists p, h, s, x, pub. unfold zlen in *. split; [reflexivity|]. split; [lia|]. split; [reflexivity|]. split; [lia|]. split; [reflexivity|]. split; [lia|]. split; [exact D|congruence].
  - intros (p & h & s & x & pub & -> & Lp & -> & Lh & -> & Ls & D & V). unfold zlen. rewrite Lp, Lh, Ls. change (negb (Z.of_nat 33 =? 33) || negb (Z.of_nat 32 =? 32) || negb (Z.of_nat 64 =? 64)) with false. cbv iota. rewrite D, slice1. cbn [bind]. congruence.
Qed.
Lemma verify_inputs_iff ins : verify_inputs decompress verify ins = Ok true <-> Forall stored_pass ins.
Proof.
  induction ins as [|n ins IH]; cbn [verify_inputs]; [split; [constructor|reflexivity]|]. split.
  - intros E. apply bind_ok in E as (ok & Ev & E). destruct ok; [|discriminate]. constructor; [apply verify_input_iff; exact Ev|apply IH; exact E].
  - intros F. inversion F; subst. rewrite (proj2 (verify_input_iff n)) by assumption. cbn [bind]. apply IH. assumption.
Qed.
Lemma submit_ins_iff ins b : Forall stored_pass ins -> submit_ins ins = Ok (Some b) <-> exists scripts, Forall2 script_of ins scripts /\ b = flat_map (fun '((id, v, s), sc) => id ++ le 4 v ++ sc ++ le 4 s) (combine (map mkey ins) scripts).
Proof.
  intros F. revert b. induction F as [|n ins Sn F IH]; intros b; cbn [submit_ins].
  - split; [intros E; exists []; split; [constructor|]; cbn [map combine flat_map]; congruence|intros (sc & E & ->); inversion E; reflexivity].
  - destruct Sn as (p & h & s & x & pub & Ep & _ & _ & _ & Es & _). rewrite reverse_hex_dec. rewrite (hex_prefix_ok _ _ Es), (hex_prefix_ok _ _ Ep). split.
    + destruct (hex_decode (m_txid n)) as [id| |] eqn:Ei; try discriminate. intros E. apply bind_ok in E as (sp & Esp & E). apply bind_ok in E as (r & Er & E). destruct r as [t|]; [|discriminate]. apply IH in Er as (scripts & Fs & ->). exists (sp :: scripts). split.
      * constructor; [|exact Fs]. split; [exists id; exact Ei|]. exists s, p. split; [exact Es|]. split; [exact Ep|exact Esp].
      * cbn [map combine flat_map]. unfold mkey at 1. rewrite Ei. match type of E with Ok (Some ?x) = Ok (Some b) => assert (Q : b = x) by congruence end. rewrite Q. rewrite <- !app_assoc. reflexivity.
    + intros (scripts & Fs & ->). inversion Fs as [|? sc ? scs ((id & Ei) & s' & p' & Es' & Ep' & Esp) Fs']; subst. assert (s' = s) by congruence. assert (p' = p) by congruence. subst s' p'. rewrite Ei, Esp. cbn [bind]. rewrite (proj2 (IH (flat_map (fun '((id, v, s), sc) => id ++ le 4 v ++ sc ++ le 4 s) (combine (map mkey ins) scs)))) by (exists scs; split; [exact Fs'|reflexivity]). cbn [bind map combine flat_map]. unfold mkey at 2. rewrite Ei. do 2 f_equal. rewrite <- !app_assoc. reflexivity.
Qed.
(** Exactly when VerifyAndCombineTransaction returns true, and with what. The text contributes only its tail. *)
Theorem mate_verify_iff : forall text ins signed, mate_verify decompress verify text ins = Ok (Some signed) <->
  exists c ws tail scripts, shows text c ws tail /\ Forall stored_pass ins /\ Forall2 script_of ins scripts /\ signed = hex_encode (mtx (wcount (length ins)) (map mkey ins) scripts tail).
Proof.
  intros text ins signed. unfold mate_verify, submit_bytes. split.
  - intros E. apply bind_ok in E as (ok & Ev & E). destruct ok; cbn [negb] in E; [|discriminate]. apply verify_inputs_iff in Ev. apply bind_ok in E as (r & Er & E). destruct r as [b|]; [|discriminate].
    destruct (hex_decode text) as [tx| |] eqn:D; try discriminate. destruct (decode_empty tx) as [[l tail]| |] eqn:De; try discriminate. apply bind_ok in Er as (r & Er & Q). destruct r as [t|]; [|discriminate]. apply (submit_ins_iff ins t Ev) in Er as (scripts & Fs & ->).
    destruct (decode_inv _ _ _ _ D De) as (c & ws & S0 & _). exists c, ws, tail, scripts. split; [exact S0|]. split; [exact Ev|]. split; [exact Fs|]. assert (Es : signed = hex_encode b) by congruence. rewrite Es. f_equal. match type of Q with Ok (Some ?x) = Ok (Some b) => assert (Qb : b = x) by congruence end. rewrite Qb. unfold mtx, zlen. rewrite put_count_eq. reflexivity.
  - intros (c & ws & tail & scripts & S0 & F & Fs & ->). rewrite (proj2 (verify_inputs_iff ins) F). cbn [bind negb]. destruct (decode_shows _ _ _ _ S0) as (tx & D & De). rewrite D, De. rewrite (proj2 (submit_ins_iff ins _ F) (ex_intro _ scripts (conj Fs eq_refl))). cbn [bind]. do 3 f_equal. unfold mtx, zlen. rewrite put_count_eq. reflexivity.
Qed.
(** The text given for verification need not be the text the hashes were computed from. *)
Theorem mate_text_not_checked : forall text c ws tail text' c' ws' tail' ins, shows text c ws tail -> shows text' c' ws' tail' ->
  ((exists s, mate_verify decompress verify text ins = Ok (Some s)) <-> (exists s, mate_verify decompress verify text' ins = Ok (Some s))).
Proof.
  assert (G : forall text c ws tail text' c' ws' tail' ins, shows text c ws tail -> shows text' c' ws' tail' -> (exists s, mate_verify decompress verify text ins = Ok (Some s)) -> (exists s, mate_verify decompress verify text' ins = Ok (Some s))).
  { intros text c ws tail text' c' ws' tail' ins S1 S2 (s & E). apply mate_verify_iff in E as (c0 & ws0 & tail0 & scripts & _ & F & Fs & _). eexists. apply mate_verify_iff. exists c', ws', tail', scripts. split; [exact S2|]. split; [exact F|]. split; [exact Fs|reflexivity]. }
  intros text c ws tail text' c' ws' tail' ins S1 S2. split; eapply G; eassumption.
Qed.
(** The whole flow on one text whose count has the standard form: the inputs are obtained from the text, given lock
    scripts, hashed, given signatures and keys, and verified. *)
Definition sign_with (n : mvin) (sp : list Z * list Z) : mvin := {| m_txid := m_txid n; m_vout := m_vout n; m_lock := m_lock n; m_seq := m_seq n; m_hash := m_hash n; m_sig := fst sp; m_pub := snd sp |}.
Lemma fresh_key i : in_ok i -> mkey (fresh i) = i /\ exists id, hex_decode (m_txid (fresh i)) = Ok id /\ length id = 32%nat.
Proof. destruct i as [[id v] s]. intros (B & L & _). unfold mkey, fresh. cbn [m_txid m_vout m_seq]. rewrite hex_decode_encode by (apply is_bytes_rev; exact B). rewrite rev_involutive. split; [reflexivity|]. exists (rev id). split; [reflexivity|rewrite rev_length; exact L]. Qed.
Theorem mate_flow : forall H text ws tail locks out sps signed, (forall b, is_bytes (H b) /\ length (H b) = 32%nat) -> shows text (wcount (length ws)) ws tail -> length locks = length ws -> length sps = length ws ->
  get_sig_hash H text (map (fun '(n, l) => set_mlock n l) (combine (map fresh ws) locks)) = (out, true) ->
  mate_verify decompress verify text (map (fun '(n, sp) => sign_with n sp) (combine out sps)) = Ok (Some signed) <->
  exists scripts, Forall2 (fun '(k, (lock, (sig, pub))) sc => exists p s x q, hex_decode pub = Ok p /\ length p = 33%nat /\ hex_decode sig = Ok s /\ length s = 64%nat /\ decompress p = x :: q /\
                            verify q (mate_sighash H ws tail k (hex_prefix (lock_hex lock))) s = true /\ hypercash_sigpub s p 1 = Ok sc) (combine (seq 0 (length ws)) (combine locks sps)) scripts /\
    signed = hex_encode (mtx (wcount (length ws)) ws scripts tail).
Proof.
  intros H text ws tail locks out sps signed HH S0 Ll Ls G. apply mate_hashes_iff in G as (c & ws' & tail' & S1 & R & ->). destruct (mate_shows_unique _ _ _ _ _ _ _ S0 S1) as (_ & <- & <-). pose proof S0 as (_ & Fw & _ & _).
  set (ins := map (fun '(n, l) => set_mlock n l) (combine (map fresh ws) locks)) in *. assert (Li : length ins = length ws) by (unfold ins; rewrite map_length, combine_length, map_length; lia).
  assert (Ki : map mkey ins = ws).
  { unfold ins. clear -Fw Ll. revert locks Ll. induction Fw as [|w ws Hw F IH]; intros [|l locks] Ll; try discriminate; [reflexivity|]. cbn [map combine]. rewrite IH by (cbn [length] in Ll; lia). f_equal. exact (proj1 (fresh_key w Hw)). }
  rewrite Ki, Li. set (fin := map (fun '(n, sp) => sign_with n sp) (combine (map (fun '(k, n) => hashed H ws tail k n) (combine (seq 0 (length ws)) ins)) sps)).
  assert (K0 : forall a ss, length ss = length ins -> let f := map (fun '(n, sp) => sign_with n sp) (combine (map (fun '(k, n) => hashed H ws tail k n) (combine (seq a (length ins)) ins)) ss) in map mkey f = map mkey ins /\ length f = length ins).
  { clear. induction ins as [|n ins IH]; intros a [|sp sps] Ls; try discriminate; [split; reflexivity|]. cbn [length seq map combine]. cbv zeta. destruct (IH (S a) sps ltac:(cbn [length] in Ls; lia)) as [Q1 Q2]. cbn [length map]. cbv zeta in Q1, Q2. rewrite Q1, Q2. split; reflexivity. }
  assert (Kf : map mkey fin = ws /\ length fin = length ws) by (destruct (K0 0%nat sps ltac:(lia)) as [Q1 Q2]; cbv zeta in Q1, Q2; rewrite Li in Q1, Q2; split; [unfold fin; rewrite Q1; exact Ki|exact Q2]). clear K0.
  destruct Kf as [Kf Lf]. rewrite mate_verify_iff. rewrite Kf, Lf.
  assert (X : forall scripts, Forall stored_pass fin /\ Forall2 script_of fin scripts <-> Forall2 (fun '(k, (lock, (sig, pub))) sc => exists p s x q, hex_decode pub = Ok p /\ length p = 33%nat /\ hex_decode sig = Ok s /\ length s = 64%nat /\ decompress p = x :: q /\
                            verify q (mate_sighash H ws tail k (hex_prefix (lock_hex lock))) s = true /\ hypercash_sigpub s p 1 = Ok sc) (combine (seq 0 (length ws)) (combine locks sps)) scripts).
  { unfold fin, ins. clear Kf Lf fin Ki Li R S0 S1 ins. intros scripts.
    assert (Y : forall vs ls ss a scs, Forall in_ok vs -> length ls = length vs -> length ss = length vs ->
      let f := map (fun '(n, sp) => sign_with n sp) (combine (map (fun '(k, n) => hashed H ws tail k n) (combine (seq a (length vs)) (map (fun '(n, l) => set_mlock n l) (combine (map fresh vs) ls)))) ss) in
      Forall stored_pass f /\ Forall2 script_of f scs <-> Forall2 (fun '(k, (lock, (sig, pub))) sc => exists p s x q, hex_decode pub = Ok p /\ length p = 33%nat /\ hex_decode sig = Ok s /\ length s = 64%nat /\ decompress p = x :: q /\
                            verify q (mate_sighash H ws tail k (hex_prefix (lock_hex lock))) s = true /\ hypercash_sigpub s p 1 = Ok sc) (combine (seq a (length vs)) (combine ls ss)) scs).
    { clear -HH. induction vs as [|w vs IH]; intros [|l ls] [|[sig pub] ss] a scs Fv L1 L2; try discriminate; cbn [length seq map combine]; cbv zeta.
      - split; [intros [_ F]; inversion F; constructor|intros F; inversion F; split; constructor].
      - cbn [length] in L1, L2. specialize (IH ls ss (S a)). inversion Fv as [|? ? Hw Fv']; subst. destruct (fresh_key w Hw) as (_ & id & Ei & _). destruct (HH (mtx (wcount (length ws)) ws (slots (length ws) a (hex_prefix (lock_hex l))) tail ++ [1; 0; 0; 0])) as [Bh Lh]. fold (mate_sighash H ws tail a (hex_prefix (lock_hex l))) in Bh, Lh. split.
        + intros [F1 F2]. inversion F1 as [|? ? P1 F1']; subst. inversion F2 as [|? sc ? scs' P2 F2']; subst. constructor; [|apply IH; [exact Fv'|lia|lia|split; assumption]].
          destruct P1 as (p & h & s & x & q & E1 & E2 & E3 & E4 & E5 & E6 & E7 & E8). destruct P2 as (_ & s' & p' & E9 & E10 & E11). cbn [m_pub m_hash m_sig sign_with hashed set_mhash set_mlock m_lock fst snd] in *.
          assert (s' = s) by congruence. assert (p' = p) by congruence. subst s' p'. rewrite hex_decode_encode in E3 by exact Bh. exists p, s, x, q. split; [exact E1|]. split; [exact E2|]. split; [exact E5|]. split; [exact E6|]. split; [exact E7|]. split; [congruence|exact E11].
        + intros F. inversion F as [|? sc ? scs' P F']; subst. apply IH in F' as [F1 F2]; [|exact Fv'|lia|lia]. destruct P as (p & s & x & q & E1 & E2 & E5 & E6 & E7 & E8 & E9). split; constructor; try assumption.
          * exists p, (mate_sighash H ws tail a (hex_prefix (lock_hex l))), s, x, q. cbn [m_pub m_hash m_sig sign_with hashed set_mhash set_mlock m_lock fst snd]. rewrite hex_decode_encode by exact Bh. split; [exact E1|]. split; [exact E2|]. split; [reflexivity|]. split; [exact Lh|]. split; [exact E5|]. split; [exact E6|]. split; [exact E7|exact E8].
          * split; [exists id; exact Ei|]. exists s, p. split; [exact E5|]. split; [exact E1|exact E9]. }
    apply Y; assumption. }
  split.
  - intros (c0 & ws0 & tail0 & scripts & S2 & F & Fs & ->). destruct (mate_shows_unique _ _ _ _ _ _ _ S0 S2) as (_ & <- & <-). exists scripts. split; [apply X; split; assumption|reflexivity].
  - intros (scripts & F & ->). apply X in F as [F Fs]. exists (wcount (length ws)), ws, tail, scripts. split; [exact S0|]. split; [exact F|]. split; [exact Fs|reflexivity].
Qed.
End Verify.

(** ** Cases *)
Definition ex_ins : list (bytes * Z * Z) := [(repeat 1 32, 0, 0xffffffff); (repeat 2 32, 5, 0xfffffffe)].
Definition ex_text (c : bytes) (tail : bytes) : list Z := hex_encode (mtx c ex_ins (map (fun _ => [0]) ex_ins) tail).
Lemma rep_bytes x n : is_byte x -> is_bytes (repeat x n). Proof. intros B. apply Forall_forall. intros y I. apply repeat_spec in I. subst y. exact B. Qed.
Lemma ex_in_ok : Forall in_ok ex_ins.
Proof. constructor; [|constructor; [|constructor]]; (split; [apply rep_bytes; red; lia|]; split; [reflexivity|]; split; lia). Qed.
Lemma ex_shows c tail : counts c 2 -> is_bytes tail -> tail <> [] -> shows (ex_text c tail) c ex_ins tail.
Proof.
  intros C B N. split; [exact C|]. split; [exact ex_in_ok|]. split; [exact N|]. apply hex_decode_encode. rewrite mtx_blank. apply is_bytes_app; split; [bts|]. apply is_bytes_app; split; [destruct C as [(-> & _)|(-> & _)]; [bts|constructor; [red; lia|apply le_bytes_is_bytes]]|]. apply is_bytes_app; split; [|exact B].
  unfold ex_ins. cbn [map concat mwin]. repeat (apply is_bytes_app; split); try apply le_bytes_is_bytes; try (apply rep_bytes; red; lia); bts.
Qed.
(** Both forms of the count 2 are read; only the first one is written back. *)
Example ex_counts : counts [2] 2 /\ counts [253; 2; 0] 2 /\ wcount 2 = [2].
Proof. split; [left; split; [reflexivity|split; lia]|]. split; [right; split; [reflexivity|lia]|reflexivity]. Qed.
Example ex_get_inputs : get_inputs (ex_text [253; 2; 0] [9]) = Ok (map fresh ex_ins).
Proof. apply mate_inputs_iff. exists [253; 2; 0], ex_ins, [9]. split; [apply ex_shows; [right; split; [reflexivity|lia]|bts|discriminate]|reflexivity]. Qed.
Lemma ex_lock_len : zlen (lock_hex (p2pkh_text (zeros 20))) = 50. Proof. vm_compute. reflexivity. Qed.
Definition ex_locked : list mvin := map (fun '(n, l) => set_mlock n l) (combine (map fresh ex_ins) [p2pkh_text (zeros 20); p2pkh_text (zeros 20)]).
Lemma ex_ready : Forall ready ex_locked.
Proof.
  unfold ex_locked, ex_ins. cbn [map combine]. constructor; [|constructor; [|constructor]]; (split; [discriminate|]; split; [cbn [m_lock set_mlock]; rewrite ex_lock_len; lia|]).
  - exact (proj2 (fresh_key (repeat 1 32, 0, 0xffffffff) (Forall_inv ex_in_ok))).
  - exact (proj2 (fresh_key (repeat 2 32, 5, 0xfffffffe) (Forall_inv (Forall_inv_tail ex_in_ok)))).
Qed.
Example ex_hashes : exists out, get_sig_hash toy_hash (ex_text [2] [9]) ex_locked = (out, true) /\ length out = 2%nat.
Proof. eexists. split; [apply mate_hashes_iff; exists [2], ex_ins, [9]; split; [apply ex_shows; [left; split; [reflexivity|split; lia]|bts|discriminate]|]; split; [exact ex_ready|reflexivity]|reflexivity]. Qed.
(** Inputs hashed for one text are accepted with another one. *)
Definition ex_signed_in (i : bytes * Z * Z) : mvin := sign_with (set_mhash (fresh i) (hex_encode (zeros 32))) (hex_encode (repeat 1 64), hex_encode (repeat 2 33)).
Example ex_other_text : exists s s', mate_verify (fun p => 4 :: p) (fun _ _ _ => true) (ex_text [2] [9]) (map ex_signed_in ex_ins) = Ok (Some s) /\ mate_verify (fun p => 4 :: p) (fun _ _ _ => true) (ex_text [2] [8; 8]) (map ex_signed_in ex_ins) = Ok (Some s').
Proof.
  assert (Sh : forall tail, is_bytes tail -> tail <> [] -> shows (ex_text [2] tail) [2] ex_ins tail) by (intros; apply ex_shows; [left; split; [reflexivity|split; lia]|assumption|assumption]).
  assert (P : forall i, In i ex_ins -> stored_pass (fun p => 4 :: p) (fun _ _ _ => true) (ex_signed_in i)).
  { intros [[id v] s] _. exists (repeat 2 33), (zeros 32), (repeat 1 64), 4, (repeat 2 33). unfold ex_signed_in, sign_with. cbn [m_pub m_hash m_sig fst snd set_mhash fresh]. rewrite !hex_decode_encode by (first [apply is_bytes_zeros|apply rep_bytes; red; lia]). repeat (split; [reflexivity|]). reflexivity. }
  assert (Q : forall i, In i ex_ins -> exists sc, script_of (ex_signed_in i) sc).
  { intros i I. pose proof ex_in_ok as F. rewrite Forall_forall in F. specialize (F i I). destruct (fresh_key i F) as (_ & id & Ei & _). destruct i as [[id' v] s]. eexists. split; [exists id; exact Ei|]. exists (repeat 1 64), (repeat 2 33). unfold ex_signed_in, sign_with. cbn [m_sig m_pub fst snd]. rewrite !hex_decode_encode by (apply rep_bytes; red; lia). split; [reflexivity|]. split; reflexivity. }
  destruct (Q (repeat 1 32, 0, 0xffffffff) (or_introl eq_refl)) as (sc1 & Q1). destruct (Q (repeat 2 32, 5, 0xfffffffe) (or_intror (or_introl eq_refl))) as (sc2 & Q2).
  assert (G : forall tail, is_bytes tail -> tail <> [] -> exists s, mate_verify (fun p => 4 :: p) (fun _ _ _ => true) (ex_text [2] tail) (map ex_signed_in ex_ins) = Ok (Some s)).
  { intros tail B N. eexists. apply mate_verify_iff. exists [2], ex_ins, tail, [sc1; sc2]. split; [apply Sh; assumption|]. split; [apply Forall_map; apply Forall_forall; exact P|]. split; [|reflexivity]. unfold ex_ins. cbn [map]. constructor; [exact Q1|]. constructor; [exact Q2|constructor]. }
  destruct (G [9]) as (s & Es); [bts|discriminate|]. destruct (G [8; 8]) as (s' & Es'); [bts|discriminate|]. exists s, s'. split; assumption.
Qed.

Print Assumptions mate_inputs_iff.
Print Assumptions mate_shows_unique.
Print Assumptions mate_lock_scripts.
Print Assumptions mate_lock_hex_kept.
Print Assumptions mate_hashes_iff.
Print Assumptions mate_verify_iff.
Print Assumptions mate_text_not_checked.
Print Assumptions mate_flow.
