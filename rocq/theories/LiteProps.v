(** C55, C93, C94: aliencoin, Verge and Vollar transactions. *)
From Coq Require Import String ZArith List Bool Lia ZifyBool ZifyNat.
From Verif Require Import Go GoFacts Codes Reader Rd Base58Model Base58CheckModel Base58Props Base58CheckProps CodecModel CodecProps SigModel BtcModel HyperModel HyperProps LiteModel Toy.
Import ListNotations.
Open Scope Z_scope.
Ltac Zify.zify_post_hook ::= idtac.

(** ** Specification *)
(** A transaction as it is read: for every input the id, index, script and sequence of what it spends; for every output
    the amount and script. *)
Record lite := { y_head : bytes; y_ins : list (bytes * Z * bytes * Z); y_outs : list (Z * bytes); y_trail : bytes }.
Definition rlin : reader (bytes * Z * bytes * Z) := id <~ rtake 32 ;; v <~ rle 4 ;; sc <~ rcounted ;; s <~ rle 4 ;; rret (id, v, sc, s).
Definition rlout (c : coin) : reader (Z * bytes) := a <~ rle 8 ;; _ <~ rexact (zeros (Z.to_nat (c_mid c))) ;; sc <~ rcounted ;; _ <~ rexact (zeros (Z.to_nat (c_tail c))) ;; rret (a, sc).
Definition rlite (c : coin) : reader lite :=
  h <~ rtake (c_head c) ;; n <~ rbyte ;; ins <~ rrepeat (Z.to_nat n) rlin ;; m <~ rbyte ;; outs <~ rrepeat (Z.to_nat m) (rlout c) ;; t <~ rtake (c_trail c) ;;
  rret {| y_head := h; y_ins := ins; y_outs := outs; y_trail := t |}.
Definition tid (i : lvin) : bytes := match hex_decode (w_txid i) with Ok b => rev b | _ => [] end.
Definition tlock (i : lvin) : bytes := match hex_decode (w_lock i) with Ok b => b | _ => [] end.
Definition valid (i : lvin) : Prop := (exists b, hex_decode (w_txid i) = Ok b) /\ (exists l, hex_decode (w_lock i) = Ok l).
(** The layout for given scripts (with their length byte) of the inputs; an output is (amount, script). *)
Definition lay (c : coin) (head : bytes) (ins : list lvin) (scripts : list bytes) (outs : list (Z * bytes)) (trail : bytes) : bytes :=
  head ++ [zlen ins mod 256] ++ flat_map (fun '(i, s) => tid i ++ le 4 (w_vout i) ++ s ++ [0xff; 0xff; 0xff; 0xff]) (combine ins scripts) ++
  [zlen outs mod 256] ++ flat_map (fun o => le 8 (fst o) ++ zeros (Z.to_nat (c_mid c)) ++ (zlen (snd o) mod 256 :: snd o) ++ zeros (Z.to_nat (c_tail c))) outs ++ trail.
Definition blank (ins : list lvin) : list bytes := map (fun _ => [0]) ins.
Definition counted (b : bytes) : bytes := zlen b mod 256 :: b.
(** The lock script of input k, and an empty script for the others. *)
Definition only (k : nat) (ins : list lvin) : list bytes := map (fun '(j, i) => if Nat.eqb j k then counted (tlock i) else [0]) (combine (seq 0 (length ins)) ins).
(** Hash that input k signs: legacy form (aliencoin, Verge), and the form of Vollar. *)
Definition legacy_sighash (H : bytes -> bytes) (c : coin) head ins outs trail (k : nat) : bytes := H (lay c head ins (only k ins) outs trail ++ [1; 0; 0; 0]).
Definition vollar_sighash (H : bytes -> bytes) (ins : list lvin) (outs : list (Z * bytes)) (i : lvin) : bytes :=
  H (H (flat_map (fun i => tid i ++ le 4 (w_vout i)) ins) ++ H (flat_map (fun _ => [0xff; 0xff; 0xff; 0xff]) ins) ++
     H (flat_map (fun o => le 8 (fst o) ++ [0] ++ (zlen (snd o) mod 256 :: snd o) ++ zeros 32) outs) ++ zeros 80 ++ [1; 0; 0; 0] ++
     tid i ++ le 4 (w_vout i) ++ counted (tlock i) ++ [0xff; 0xff; 0xff; 0xff]).
Definition lite_text (c : coin) head ins outs trail : list Z := hex_encode (lay c head ins (blank ins) outs trail) ++ flat_map (fun i => str ":" ++ w_lock i) ins.
Definition coin_ok (c : coin) : Prop := c = aliencoin \/ c = verge \/ c = vollar.

(** ** Proofs: reading *)
Theorem lite_read : forall c head ins scripts outs trail, coin_ok c -> zlen head = c_head c -> zlen trail = c_trail c -> zlen ins <= 255 -> zlen outs <= 255 ->
  Forall (fun i => length (tid i) = 32%nat /\ 0 <= w_vout i < 2 ^ 32) ins -> length scripts = length ins -> Forall (fun s => zlen s <= 255) scripts -> Forall (fun o => 0 <= fst o < 2 ^ 64 /\ zlen (snd o) <= 255) outs ->
  rwhole (rlite c) (lay c head ins (map counted scripts) outs trail) = Some {| y_head := head; y_ins := map (fun '(i, s) => (tid i, w_vout i, s, 0xffffffff)) (combine ins scripts); y_outs := outs; y_trail := trail |}.
Proof.
  intros c head ins scripts outs trail C Lh Lt Ni No V Ls S O. apply reads_whole. unfold rlite, lay. pose proof (zlen_nonneg ins). pose proof (zlen_nonneg outs).
  eapply reads_bind; [apply reads_take; exact Lh|]. rewrite (Z.mod_small (zlen ins)) by lia. rewrite (Z.mod_small (zlen outs)) by lia. eapply reads_bind; [apply reads_byte|].
  assert (R : reads (rrepeat (Z.to_nat (zlen ins)) rlin) (flat_map (fun '(i, s) => tid i ++ le 4 (w_vout i) ++ s ++ [255; 255; 255; 255]) (combine ins (map counted scripts))) (map (fun '(i, s) => (tid i, w_vout i, s, 0xffffffff)) (combine ins scripts))).
  { assert (G : Forall2 (reads rlin) (map (fun '(i, s) => tid i ++ le 4 (w_vout i) ++ s ++ [255; 255; 255; 255]) (combine ins (map counted scripts))) (map (fun '(i, s) => (tid i, w_vout i, s, 0xffffffff)) (combine ins scripts))).
    { clear -V S Ls. revert scripts S Ls. induction V as [|i ins [Vi Wi] V IH]; intros scripts S Ls; [constructor|]. destruct scripts as [|s scripts]; [discriminate|]. inversion S; subst. cbn [map combine]. constructor; [|apply IH; [assumption|cbn [length] in Ls; lia]].
      unfold rlin. eapply reads_bind; [apply reads_take; unfold zlen; lia|]. eapply reads_bind; [apply (reads_le 4); lia|]. eapply reads_bind; [unfold counted; rewrite Z.mod_small by (pose proof (zlen_nonneg s); lia); apply reads_counted|].
      change [255; 255; 255; 255] with (le_bytes 4 0xffffffff). apply (reads_last _ (fun q => (tid i, w_vout i, s, q))). apply (reads_le 4); lia. }
    rewrite flat_map_concat_map. apply reads_repeat in G. match type of G with reads (rrepeat ?n _) _ _ => replace n with (Z.to_nat (zlen ins)) in G by (rewrite map_length, combine_length; unfold zlen; lia) end. exact G. }
  eapply reads_bind; [exact R|]. eapply reads_bind; [apply reads_byte|].
  eapply reads_bind; [|apply (reads_last _ (fun t => {| y_head := head; y_ins := map (fun '(i, s) => (tid i, w_vout i, s, 0xffffffff)) (combine ins scripts); y_outs := outs; y_trail := t |})); apply reads_take; exact Lt].
  rewrite flat_map_concat_map. assert (G : Forall2 (reads (rlout c)) (map (fun o => le 8 (fst o) ++ zeros (Z.to_nat (c_mid c)) ++ (zlen (snd o) mod 256 :: snd o) ++ zeros (Z.to_nat (c_tail c))) outs) outs).
  { clear -O. induction O as [|[a s] outs [A L] O IH]; [constructor|]. cbn [map]. constructor; [|exact IH]. cbn [fst snd] in *. rewrite Z.mod_small by (pose proof (zlen_nonneg s); lia). unfold rlout. eapply reads_bind; [apply (reads_le 8); lia|]. eapply reads_bind; [apply reads_exact|].
    eapply reads_bind; [apply reads_counted|]. apply (reads_last (rexact (zeros (Z.to_nat (c_tail c)))) (fun _ => (a, s)) _ tt). apply reads_exact. }
  apply reads_repeat in G. match type of G with reads (rrepeat ?n _) _ _ => replace n with (Z.to_nat (zlen outs)) in G by (unfold zlen; rewrite Nat2Z.id; reflexivity) end. exact G.
Qed.

(** ** Creation *)
Definition mk_lin (i : lvin) : lin := {| n_txid := tid i; n_vout := put_le 4 (w_vout i); n_sig := None; n_seq := [0xff; 0xff; 0xff; 0xff]; n_lock := counted (tlock i) |}.
Definition mk_lout (c : coin) (o : Z * bytes) : lout := {| q_amount := put_le 8 (fst o); q_mid := zeros (Z.to_nat (c_mid c)); q_script := zlen (snd o) mod 256 :: snd o; q_tail := zeros (Z.to_nat (c_tail c)) |}.
Definition mk_ltx (c : coin) head ins outs trail : ltx := {| l_head := head; l_ins := map mk_lin ins; l_outs := map (mk_lout c) outs; l_trail := trail |}.
Lemma new_lin_iff i t : new_lin i = Ok t <-> valid i /\ t = mk_lin i.
Proof.
  unfold new_lin, valid, mk_lin, tid, tlock. rewrite reverse_hex_dec. destruct (hex_decode (w_txid i)) as [b| |]; [|split; [discriminate|intros [[(x & Q) _] _]; discriminate]..].
  destruct (hex_decode (w_lock i)) as [l| |]; [|split; [discriminate|intros [[_ (x & Q)] _]; discriminate]..]. split; [intros E; split; [split; eexists; reflexivity|]|intros [_ ->]; reflexivity].
  match type of E with Ok ?x = Ok t => assert (Q : t = x) by congruence end. rewrite Q. reflexivity.
Qed.
Lemma map_blank ins : map (fun _ : lvin => [0]) ins = blank ins. Proof. reflexivity. Qed.
Lemma ltx_bytes_blank sp c head ins outs trail : ltx_bytes sp (mk_ltx c head ins outs trail) = Ok (lay c head ins (blank ins) outs trail).
Proof.
  unfold ltx_bytes, mk_ltx. cbn [l_head l_ins l_outs l_trail].
  assert (M : mapr (lin_bytes sp) (map mk_lin ins) = Ok (map (fun i => tid i ++ le 4 (w_vout i) ++ [0] ++ [0xff; 0xff; 0xff; 0xff]) ins)) by (induction ins as [|i ins IH]; [reflexivity|]; cbn [map mapr]; unfold lin_bytes at 1; cbn [n_sig mk_lin bind]; rewrite IH; reflexivity).
  rewrite M. cbn [bind]. unfold lay. rewrite !zlen_map', flat_map_map. f_equal. f_equal. f_equal. f_equal. unfold blank. clear. induction ins as [|i ins IH]; [reflexivity|]. cbn [map concat combine flat_map]. rewrite IH. reflexivity.
Qed.
Lemma legacy_hash_eq H c head ins outs trail k : legacy_hash H (mk_ltx c head ins outs trail) k = hex_encode (legacy_sighash H c head ins outs trail k).
Proof.
  unfold legacy_hash, legacy_sighash, mk_ltx, lay. cbn [l_head l_ins l_outs l_trail]. rewrite !zlen_map', flat_map_map, map_length. do 2 f_equal. rewrite <- !app_assoc. do 3 f_equal. unfold only.
  assert (G : forall a, flat_map (fun '(j, n) => n_txid n ++ n_vout n ++ (if Nat.eqb j k then n_lock n else [0]) ++ n_seq n) (combine (seq a (length ins)) (map mk_lin ins)) =
    flat_map (fun '(i, s) => tid i ++ le 4 (w_vout i) ++ s ++ [255; 255; 255; 255]) (combine ins (map (fun '(j, i) => if Nat.eqb j k then counted (tlock i) else [0]) (combine (seq a (length ins)) ins)))).
  { induction ins as [|i ins IH]; intros a; [reflexivity|]. cbn [length seq map combine flat_map]. rewrite IH. reflexivity. }
  apply G.
Qed.
Definition legacy_list H c head ins outs trail := map (legacy_sighash H c head ins outs trail) (seq 0 (length ins)).
Lemma legacy_hashes_eq H c head ins outs trail : legacy_hashes H (mk_ltx c head ins outs trail) = Ok (map hex_encode (legacy_list H c head ins outs trail)).
Proof. unfold legacy_hashes, legacy_list. cbn [l_ins mk_ltx]. rewrite map_length, map_map. f_equal. apply map_ext. intros k. apply legacy_hash_eq. Qed.
Definition vollar_list H ins outs := map (vollar_sighash H ins outs) ins.
Lemma vollar_hashes_eq H head ins outs trail : ins <> [] -> vollar_hashes H (mk_ltx vollar head ins outs trail) = Ok (map hex_encode (vollar_list H ins outs)).
Proof.
  intros N. unfold vollar_hashes. cbn [l_ins l_outs mk_ltx]. destruct (map mk_lin ins) eqn:E; [destruct ins; [contradiction|discriminate]|]. rewrite <- E. clear E. cbv zeta. unfold vollar_list. rewrite !map_map, !flat_map_map. reflexivity.
Qed.
Section Outputs.
Variables (al : alphabet) (H : bytes -> bytes).
Definition p2sh_script (h : bytes) : bytes := [0xa9; 0x14] ++ h ++ [0x87].
(** Outputs of aliencoin and Verge: any checked address with one of the two prefixes; the first byte of the script is
    0x19 or 0x17, which is its length only when the hash has 20 bytes. *)
Definition pays1 (pk ps : Z) (o : lvout) (r : Z * bytes) : Prop :=
  exists h, length h = 20%nat /\ ((decode_check1 al H (w_address o) = Ok (pk, h) /\ r = (w_amount o, p2pkh h)) \/ (decode_check1 al H (w_address o) = Ok (ps, h) /\ r = (w_amount o, p2sh_script h))).
Definition pays2 (o : lvout) (r : Z * bytes) : Prop :=
  exists h, length h = 20%nat /\ ((decode_check al H (w_address o) = Ok ([0x10; 0x1c], h) /\ r = (w_amount o, p2pkh h)) \/ (decode_check al H (w_address o) = Ok ([0x10; 0x41], h) /\ r = (w_amount o, p2sh_script h))).
Lemma p2pkh_len h : length h = 20%nat -> zlen (p2pkh h) = 25. Proof. intros L. unfold p2pkh. rewrite !zlen_app. unfold zlen at 2. rewrite L. reflexivity. Qed.
Lemma p2sh_len h : length h = 20%nat -> zlen (p2sh_script h) = 23. Proof. intros L. unfold p2sh_script. rewrite !zlen_app. unfold zlen at 2. rewrite L. reflexivity. Qed.
Lemma new_lout_pays pk ps c o r : c_mid c = 0 -> c_tail c = 0 -> pk <> ps -> pays1 pk ps o r -> new_lout pk ps al H o = Ok (mk_lout c r).
Proof.
  intros M T N (h & L & [[D ->]|[D ->]]); unfold new_lout, mk_lout; rewrite D, M, T; cbn [bind fst snd].
  - rewrite Z.eqb_refl, (p2pkh_len h L). reflexivity.
  - replace (ps =? pk) with false by lia. rewrite Z.eqb_refl, (p2sh_len h L). reflexivity.
Qed.
Lemma new_vout_pays o r : pays2 o r -> new_vout al H o = Ok (mk_lout vollar r).
Proof.
  intros (h & L & [[D ->]|[D ->]]); unfold new_vout, mk_lout; rewrite D; cbn [bind fst snd].
  - rewrite beq_refl, (p2pkh_len h L). reflexivity.
  - rewrite beq_refl, (p2sh_len h L). reflexivity.
Qed.
Lemma mapr_outs (f : lvout -> res lout) (P : lvout -> Z * bytes -> Prop) c outs rs : (forall o r, P o r -> f o = Ok (mk_lout c r)) -> Forall2 P outs rs -> mapr f outs = Ok (map (mk_lout c) rs).
Proof. intros F E. induction E as [|o r outs rs Po E IH]; [reflexivity|]. cbn [mapr map]. rewrite (F o r Po). cbn [bind]. rewrite IH. reflexivity. Qed.
Lemma new_ltx_ok f (P : lvout -> Z * bytes -> Prop) c head trail ins outs rs : (forall o r, P o r -> f o = Ok (mk_lout c r)) -> Forall valid ins -> Forall2 P outs rs -> new_ltx f head trail ins outs = Ok (mk_ltx c head ins rs trail).
Proof.
  intros F V E. unfold new_ltx. rewrite (proj2 (mapr_iff new_lin valid mk_lin ins new_lin_iff _) (conj V eq_refl)). cbn [bind]. rewrite (mapr_outs f P c outs rs F E). reflexivity.
Qed.
(** For valid inputs and payable outputs creation gives the text and hashes of the specification. *)
Theorem aliencoin_created : forall ins outs rs lockTime, Forall valid ins -> Forall2 (pays1 0x17 0x30) outs rs ->
  create_aliencoin al H ins outs lockTime = Ok (lite_text aliencoin [1; 0; 0; 0] ins rs (le 4 lockTime), map hex_encode (legacy_list H aliencoin [1; 0; 0; 0] ins rs (le 4 lockTime))).
Proof.
  intros ins outs rs lt V E. unfold create_aliencoin. rewrite (new_ltx_ok _ _ aliencoin _ _ ins outs rs (fun o r => new_lout_pays 0x17 0x30 aliencoin o r eq_refl eq_refl ltac:(lia)) V E). cbn [bind].
  unfold create_text. rewrite legacy_hashes_eq. cbn [bind]. rewrite ltx_bytes_blank. reflexivity.
Qed.
Theorem verge_created : forall now ins outs rs lockTime timeInterval, Forall valid ins -> Forall2 (pays1 0x1e 0x21) outs rs ->
  let head := [1; 0; 0; 0] ++ le 4 ((now + timeInterval) mod 2 ^ 32) in
  create_verge now al H ins outs lockTime timeInterval = Ok (lite_text verge head ins rs (le 4 lockTime), map hex_encode (legacy_list H verge head ins rs (le 4 lockTime))).
Proof.
  intros now ins outs rs lt ti V E head. unfold create_verge.
  assert (Hd : [1; 0; 0; 0] ++ put_le 4 (u32 (u32 now + ti)) = head) by (unfold head, u32; rewrite Z.add_mod_idemp_l by lia; reflexivity). rewrite Hd.
  rewrite (new_ltx_ok _ _ verge _ _ ins outs rs (fun o r => new_lout_pays 0x1e 0x21 verge o r eq_refl eq_refl ltac:(lia)) V E). cbn [bind].
  unfold create_text. rewrite legacy_hashes_eq. cbn [bind]. rewrite ltx_bytes_blank. reflexivity.
Qed.
Theorem vollar_created : forall ins outs rs, ins <> [] -> Forall valid ins -> Forall2 pays2 outs rs ->
  create_vollar al H ins outs = Ok (lite_text vollar [1; 0; 0; 0; 0] ins rs [], map hex_encode (vollar_list H ins rs)).
Proof.
  intros ins outs rs N V E. unfold create_vollar. rewrite (new_ltx_ok _ _ vollar _ _ ins outs rs new_vout_pays V E). cbn [bind].
  unfold create_text. rewrite vollar_hashes_eq by exact N. cbn [bind]. rewrite ltx_bytes_blank. reflexivity.
Qed.
End Outputs.

(** ** Verification *)
(** Any serialised transaction: an input is (id, index, sequence), an output (amount, flag, script, data), all as bytes. *)
Record wide := { z_head : bytes; z_ins : list (bytes * bytes * bytes); z_outs : list (bytes * bytes * bytes * bytes); z_trail : bytes }.
Definition wide_ok (c : coin) (z : wide) : Prop :=
  zlen (z_head z) = c_head c /\ zlen (z_trail z) = c_trail c /\ zlen (z_ins z) <= 255 /\ zlen (z_outs z) <= 255 /\
  Forall (fun '(id, v, s) => zlen id = 32 /\ zlen v = 4 /\ zlen s = 4) (z_ins z) /\
  Forall (fun '(a, m, sc, t) => zlen a = 8 /\ zlen m = c_mid c /\ zlen sc <= 255 /\ zlen t = c_tail c) (z_outs z).
Definition wlay (z : wide) (scripts : list bytes) : bytes :=
  z_head z ++ [zlen (z_ins z)] ++ flat_map (fun '((id, v, s), sc) => id ++ v ++ sc ++ s) (combine (z_ins z) scripts) ++
  [zlen (z_outs z)] ++ flat_map (fun '(a, m, sc, t) => a ++ m ++ (zlen sc :: sc) ++ t) (z_outs z) ++ z_trail z.
Definition wonly (k : nat) (locks : list bytes) : list bytes := map (fun '(j, l) => if Nat.eqb j k then counted l else [0]) (combine (seq 0 (length locks)) locks).
Definition wide_sighash (H : bytes -> bytes) (z : wide) (locks : list bytes) (k : nat) : bytes := H (wlay z (wonly k locks) ++ [1; 0; 0; 0]).
Definition wide_vhash (H : bytes -> bytes) (z : wide) (locks : list bytes) (k : nat) : bytes :=
  let '(id, v, s) := nth k (z_ins z) ([], [], []) in
  H (H (flat_map (fun '(id, v, s) => id ++ v) (z_ins z)) ++ H (flat_map (fun '(id, v, s) => s) (z_ins z)) ++ H (flat_map (fun '(a, m, sc, t) => a ++ m ++ (zlen sc :: sc) ++ t) (z_outs z)) ++
     zeros 80 ++ [1; 0; 0; 0] ++ id ++ v ++ counted (nth k locks []) ++ s).
(** The text: hexadecimal of the transaction with empty scripts, then the lock scripts separated by colons. *)
Definition wide_text (text : list Z) (z : wide) (locks : list (list Z)) : Prop :=
  exists t0, text = t0 ++ flat_map (cons 58) locks /\ Forall (fun l => ~ In 58 l) (t0 :: locks) /\ locks <> [] /\ length locks = length (z_ins z) /\ hex_decode t0 = Ok (wlay z (map (fun _ => [0]) (z_ins z))).
Definition of_win (i : bytes * bytes * bytes) : lin := let '(id, v, s) := i in {| n_txid := id; n_vout := v; n_sig := None; n_seq := s; n_lock := [] |}.
Definition of_wout (o : bytes * bytes * bytes * bytes) : lout := let '(a, m, sc, t) := o in {| q_amount := a; q_mid := m; q_script := zlen sc :: sc; q_tail := t |}.
Definition of_wide (z : wide) : ltx := {| l_head := z_head z; l_ins := map of_win (z_ins z); l_outs := map of_wout (z_outs z); l_trail := z_trail z |}.
Definition win_bytes (i : bytes * bytes * bytes) : bytes := let '(id, v, s) := i in id ++ v ++ [0] ++ s.
Definition wout_bytes (o : bytes * bytes * bytes * bytes) : bytes := let '(a, m, sc, t) := o in a ++ m ++ (zlen sc :: sc) ++ t.
Lemma wlay_blank z : wlay z (map (fun _ => [0]) (z_ins z)) = z_head z ++ (zlen (z_ins z) :: concat (map win_bytes (z_ins z)) ++ (zlen (z_outs z) :: concat (map wout_bytes (z_outs z)) ++ z_trail z)).
Proof.
  unfold wlay. assert (G : forall l, flat_map (fun '((id, v, s), sc) => id ++ v ++ sc ++ s) (combine l (map (fun _ => [0]) l)) = concat (map win_bytes l)).
  { induction l as [|[[id v] s] l IH]; [reflexivity|]. cbn [map combine flat_map concat win_bytes]. rewrite IH. reflexivity. }
  rewrite G, flat_map_concat_map. reflexivity.
Qed.
Lemma split_on_parts c s : forall a ps, split_on c s = a :: ps -> Forall (fun p => ~ In c p) (a :: ps).
Proof.
  induction s as [|x s IH]; intros a ps; cbn [split_on]; [intros E; assert (a = []) by congruence; assert (ps = []) by congruence; subst; constructor; [intros []|constructor]|].
  destruct (Z.eqb_spec x c) as [E|E].
  - intros Q. assert (a = []) by congruence. assert (P : ps = split_on c s) by congruence. subst a. constructor; [intros []|]. destruct (split_on c s) as [|b bs] eqn:S1; [subst ps; constructor|]. subst ps. apply IH. reflexivity.
  - destruct (split_on c s) as [|b bs] eqn:S1; intros Q; [assert (a = [x]) by congruence; assert (ps = []) by congruence; subst; constructor; [intros [?|[]]; congruence|constructor]|].
    assert (a = x :: b) by congruence. assert (ps = bs) by congruence. subst. specialize (IH b bs eq_refl). inversion IH; subst. constructor; [intros [?|I]; [congruence|contradiction]|assumption].
Qed.
Lemma Forall2_length' {A B} (R : A -> B -> Prop) l m : Forall2 R l m -> length l = length m.
Proof. induction 1; cbn [length]; lia. Qed.
Lemma readn_iff {A W} (read : bytes -> res (A * bytes)) (enc : W -> bytes) (mk : W -> A) (P : W -> Prop) :
  (forall w r, P w -> read (enc w ++ r) = Ok (mk w, r)) -> (forall b x r, is_bytes b -> read b = Ok (x, r) -> exists w, P w /\ b = enc w ++ r /\ x = mk w) ->
  forall n b l r, is_bytes b -> readn n read b = Ok (l, r) <-> exists ws, length ws = n /\ Forall P ws /\ b = concat (map enc ws) ++ r /\ l = map mk ws.
Proof.
  intros F G. induction n as [|n IH]; intros b l r B; cbn [readn].
  - split; [intros E; exists []; split; [reflexivity|]; split; [constructor|]; cbn [map concat app]; split; congruence|]. intros (ws & L & _ & E & ->). destruct ws; [|discriminate]. cbn [map concat app] in *. congruence.
  - split.
    + intros E. apply bind_ok in E as ([x r1] & Ex & E). apply bind_ok in E as ([t r2] & Et & E). assert (l = x :: t /\ r2 = r) as [-> ->] by (split; congruence). destruct (G _ _ _ B Ex) as (w & Pw & -> & ->).
      apply is_bytes_app in B as [_ B]. apply (IH _ _ _ B) in Et as (ws & L & Fw & -> & ->). exists (w :: ws). split; [cbn [length]; lia|]. split; [constructor; assumption|]. cbn [map concat]. rewrite <- app_assoc. split; reflexivity.
    + intros (ws & L & Fw & -> & ->). destruct ws as [|w ws]; [discriminate|]. inversion Fw; subst. cbn [map concat] in *. rewrite <- app_assoc in *. rewrite F by assumption. cbn [bind]. apply is_bytes_app in B as [_ B].
      rewrite (proj2 (IH (concat (map enc ws) ++ r) (map mk ws) r B)); [reflexivity|]. exists ws. split; [cbn [length] in L; lia|]. split; [assumption|]. split; reflexivity.
Qed.
Lemma read_in_iff n b l r : is_bytes b -> readn n read_in b = Ok (l, r) <-> exists ws, length ws = n /\ Forall (fun '(id, v, s) => zlen id = 32 /\ zlen v = 4 /\ zlen s = 4) ws /\ b = concat (map win_bytes ws) ++ r /\ l = map of_win ws.
Proof.
  apply readn_iff.
  - intros [[id v] s] rest (A & B & C). unfold read_in, win_bytes. rewrite <- !app_assoc, need_app by exact A. rewrite need_app by exact B. cbn [app need1 Z.eqb negb]. rewrite need_app by exact C. reflexivity.
  - clear. intros b x r B E. unfold read_in in E. apply need_inv in E as (id & b1 & -> & L1 & E); [|lia]. apply need_inv in E as (v & b2 & -> & L2 & E); [|lia]. apply need1_inv in E as (y & b3 & -> & E). destruct (Z.eqb_spec y 0) as [->|]; cbn [negb] in E; [|discriminate].
    apply need_inv in E as (s & b4 & -> & L3 & E); [|lia]. exists (id, v, s). split; [split; [exact L1|]; split; assumption|]. assert (r = b4) by congruence. subst r. split; [unfold win_bytes; rewrite <- !app_assoc; reflexivity|]. unfold of_win. congruence.
Qed.
Lemma coin_nonneg c : coin_ok c -> 0 <= c_head c /\ 0 <= c_mid c /\ 0 <= c_tail c /\ 0 <= c_trail c.
Proof. intros [->|[->| ->]]; cbn [c_head c_mid c_tail c_trail aliencoin verge vollar]; lia. Qed.
Lemma read_out_iff c n b l r : coin_ok c -> is_bytes b -> readn n (read_out c) b = Ok (l, r) <->
  exists ws, length ws = n /\ Forall (fun '(a, m, sc, t) => zlen a = 8 /\ zlen m = c_mid c /\ zlen sc <= 255 /\ zlen t = c_tail c) ws /\ b = concat (map wout_bytes ws) ++ r /\ l = map of_wout ws.
Proof.
  intros C. destruct (coin_nonneg c C) as (_ & Cm & Ct & _). clear C. apply readn_iff.
  - intros [[[a m] sc] t] rest (A & B & D & E). unfold read_out, wout_bytes. rewrite <- !app_assoc, need_app by exact A. rewrite need_app by exact B. cbn [app need1]. rewrite need_app by reflexivity. rewrite need_app by exact E. reflexivity.
  - clear -Cm Ct. intros b x r B E. unfold read_out in E. apply need_inv in E as (a & b1 & -> & L1 & E); [|lia]. apply need_inv in E as (m & b2 & -> & L2 & E); [|lia]. apply need1_inv in E as (y & b3 & -> & E).
    assert (0 <= y < 256) as Y by (apply is_bytes_app in B as [_ B]; apply is_bytes_app in B as [_ B]; apply is_bytes_cons in B as [B _]; exact B).
    apply need_inv in E as (s & b4 & -> & L3 & E); [|lia]. apply need_inv in E as (t & b5 & -> & L4 & E); [|lia]. exists (a, m, s, t). split; [split; [exact L1|]; split; [exact L2|]; split; [lia|exact L4]|].
    assert (r = b5) by congruence. subst r. subst y. split; [unfold wout_bytes; rewrite <- !app_assoc; reflexivity|]. unfold of_wout. congruence.
Qed.
Lemma read_tx_iff c b t : coin_ok c -> is_bytes b -> read_tx c b = Ok t <-> exists z, wide_ok c z /\ b = wlay z (map (fun _ => [0]) (z_ins z)) /\ t = of_wide z.
Proof.
  intros C B. destruct (coin_nonneg c C) as (Ch & _ & _ & Ct). split.
  - intros E. unfold read_tx in E. apply need_inv in E as (h & b1 & -> & L1 & E); [|lia]. apply is_bytes_app in B as [_ B]. apply need1_inv in E as (n & b2 & -> & E). apply is_bytes_cons in B as [Bn B]. red in Bn.
    apply bind_ok in E as ([ins b3] & Ei & E). apply (read_in_iff _ _ _ _ B) in Ei as (ws & Lw & Fw & -> & ->). apply is_bytes_app in B as [_ B]. apply need1_inv in E as (m & b4 & -> & E). apply is_bytes_cons in B as [Bm B]. red in Bm.
    apply bind_ok in E as ([outs b5] & Eo & E). apply (read_out_iff c _ _ _ _ C B) in Eo as (vs & Lv & Fv & -> & ->). apply need_inv in E as (tr & b6 & -> & L2 & E); [|lia]. destruct b6; [|discriminate].
    exists {| z_head := h; z_ins := ws; z_outs := vs; z_trail := tr |}. split; [|split].
    + unfold wide_ok. cbn [z_head z_ins z_outs z_trail]. split; [exact L1|]. split; [exact L2|]. assert (zlen ws = n) by (unfold zlen; rewrite Lw; lia). assert (zlen vs = m) by (unfold zlen; rewrite Lv; lia). unfold bytes in *. split; [lia|]. split; [lia|]. split; assumption.
    + rewrite wlay_blank. cbn [z_head z_ins z_outs z_trail]. rewrite app_nil_r. assert (Q1 : zlen ws = n) by (unfold zlen; rewrite Lw; lia). assert (Q2 : zlen vs = m) by (unfold zlen; rewrite Lv; lia). unfold bytes in *. rewrite Q1, Q2. reflexivity.
    + unfold of_wide. cbn [z_head z_ins z_outs z_trail]. congruence.
  - intros (z & (L1 & L2 & Ni & No & Fi & Fo) & -> & ->). rewrite wlay_blank in *. unfold read_tx. rewrite need_app by exact L1. cbn [need1]. apply is_bytes_app in B as [_ B]. apply is_bytes_cons in B as [_ B].
    match goal with |- context [readn ?n read_in ?b] => assert (readn n read_in b = Ok (map of_win (z_ins z), zlen (z_outs z) :: concat (map wout_bytes (z_outs z)) ++ z_trail z)) as -> end.
    { apply (read_in_iff _ _ _ _ B). exists (z_ins z). split; [unfold zlen; rewrite Nat2Z.id; reflexivity|]. split; [exact Fi|]. split; reflexivity. }
    cbn [bind need1]. apply is_bytes_app in B as [_ B]. apply is_bytes_cons in B as [_ B].
    match goal with |- context [readn ?n (read_out c) ?b] => assert (readn n (read_out c) b = Ok (map of_wout (z_outs z), z_trail z)) as -> end.
    { apply (read_out_iff c _ _ _ _ C B). exists (z_outs z). split; [unfold zlen; rewrite Nat2Z.id; reflexivity|]. split; [exact Fo|]. split; reflexivity. }
    cbn [bind]. pose proof (need_app (c_trail c) (z_trail z) [] (fun t rest => match rest with [] => Ok {| l_head := z_head z; l_ins := map of_win (z_ins z); l_outs := map of_wout (z_outs z); l_trail := t |} | _ => Err end) L2) as Q. rewrite app_nil_r in Q. exact Q.
Qed.
Lemma decode_raw_iff c text t locks : coin_ok c -> decode_raw c text = Ok (t, locks) <-> exists z, wide_ok c z /\ wide_text text z locks /\ t = of_wide z.
Proof.
  intros C. unfold decode_raw. split.
  - destruct (split_on 58 text) as [|t0 ls] eqn:S0; [discriminate|]. pose proof (split_on_parts _ _ _ _ S0) as Np. apply split_on_inv in S0. destruct (Z.leb_spec (zlen (t0 :: ls)) 1) as [|Ln]; [discriminate|]. destruct (hex_decode t0) as [b| |] eqn:Eb; try discriminate.
    intros E. apply bind_ok in E as (x & Ex & E). destruct (Nat.eqb_spec (length (l_ins x)) (length ls)) as [L|]; cbn [negb] in E; [|discriminate]. assert (x = t /\ ls = locks) as [-> ->] by (split; congruence).
    apply (read_tx_iff c b t C (proj1 (hex_decode_bytes _ _ Eb))) in Ex as (z & W & Qb & ->). exists z. split; [exact W|]. split; [|reflexivity]. exists t0. split; [exact S0|]. split; [exact Np|]. split; [intros Q; rewrite Q in Ln; unfold zlen in Ln; cbn [length] in Ln; lia|].
    cbn [l_ins of_wide] in L. rewrite map_length in L. split; [lia|]. congruence.
  - intros (z & W & (t0 & -> & Np & N0 & L & D) & ->). inversion Np; subst. rewrite split_on_join by assumption. replace (zlen (t0 :: locks) <=? 1) with false by (destruct locks; [contradiction|unfold zlen; cbn [length]; lia]).
    rewrite D. rewrite (proj2 (read_tx_iff c _ (of_wide z) C (proj1 (hex_decode_bytes _ _ D))) (ex_intro _ z (conj W (conj eq_refl eq_refl)))). cbn [bind l_ins of_wide]. rewrite map_length, L, Nat.eqb_refl. reflexivity.
Qed.

Lemma hex_prefix_ok s : forall b, hex_decode s = Ok b -> hex_prefix s = b.
Proof.
  induction s as [|x|x y r IH] using pair_ind; intros b; cbn [hex_decode hex_prefix]; [congruence|destruct (hex_val x); discriminate|]. destruct (hex_val x); [|discriminate]. destruct (hex_val y); [|discriminate].
  intros E. apply bind_ok in E as (t & Et & E). rewrite (IH _ Et). congruence.
Qed.
Lemma unhex_encode b : is_bytes b -> unhex (hex_encode b) = b. Proof. intros B. apply hex_prefix_ok. apply hex_decode_encode. exact B. Qed.
Section Verify.
Variables (H decompress : bytes -> bytes) (verify : bytes -> bytes -> bytes -> bool).
Hypothesis HB : forall b, is_bytes (H b).
Definition passes (hash : bytes) (g : lsig) : Prop := exists x pub, decompress (g_pubkey g) = x :: pub /\ verify pub hash (g_signature g) = true.
Lemma slice1 {A} (x : A) l : slice_from (x :: l) 1 = Ok l.
Proof. unfold slice_from. rewrite slice_val; [|split; [lia|rewrite zlen_cons; pose proof (zlen_nonneg l); lia]|lia]. f_equal. rewrite zlen_cons. change (Z.to_nat 1) with 1%nat. cbn [skipn]. replace (1 + zlen l - 1) with (zlen l) by lia. unfold zlen. rewrite Nat2Z.id. apply firstn_all. Qed.
Lemma check_sig_iff hash g r : is_bytes hash -> check_sig decompress verify (hex_encode hash) g = Ok r <-> exists x pub, decompress (g_pubkey g) = x :: pub /\ r = verify pub hash (g_signature g).
Proof.
  intros B. unfold check_sig. rewrite (unhex_encode hash B). destruct (decompress (g_pubkey g)) as [|x pub].
  - split; [discriminate|intros (x & pub & Q & _); discriminate].
  - rewrite slice1. cbn [bind]. split; [intros E; exists x, pub; split; [reflexivity|congruence]|intros (x' & pub' & Q & ->); congruence].
Qed.
Lemma check_all_iff hashes : Forall is_bytes hashes -> forall gs, length gs = length hashes -> check_all decompress verify (map hex_encode hashes) gs = Ok tt <-> Forall2 passes hashes gs.
Proof.
  induction 1 as [|h hs Bh B IH]; intros gs L; destruct gs as [|g gs]; try discriminate; cbn [map check_all].
  - split; [constructor|reflexivity].
  - cbn [length] in L. split.
    + intros E. apply bind_ok in E as (r & Er & E). destruct r; [|discriminate]. apply (check_sig_iff _ _ _ Bh) in Er as (x & pub & D & V). constructor; [exists x, pub; split; congruence|]. apply IH; [lia|exact E].
    + intros E. inversion E as [|? ? ? ? (x & pub & D & V) E']; subst. rewrite (proj2 (check_sig_iff h g true Bh)); [|exists x, pub; split; congruence]. cbn [bind]. apply IH; [lia|exact E'].
Qed.
(** The value of every signature check. *)
Definition judged (hash : bytes) (g : lsig) (r : bool) : Prop := exists x pub, decompress (g_pubkey g) = x :: pub /\ r = verify pub hash (g_signature g).
Lemma check_every_iff hashes : Forall is_bytes hashes -> forall gs pass, length gs = length hashes -> check_every decompress verify (map hex_encode hashes) gs = Ok pass <-> exists rs, Forall2 (fun '(h, g) r => judged h g r) (combine hashes gs) rs /\ pass = forallb (fun r => r) rs.
Proof.
  induction 1 as [|h hs Bh B IH]; intros gs pass L; destruct gs as [|g gs]; try discriminate; cbn [map check_every combine].
  - split; [intros E; exists []; split; [constructor|cbn [forallb]; congruence]|intros (rs & F & ->); inversion F; reflexivity].
  - cbn [length] in L. split.
    + intros E. apply bind_ok in E as (r & Er & E). apply (check_sig_iff _ _ _ Bh) in Er. apply bind_ok in E as (r2 & E2 & E). apply IH in E2 as (rs & F & ->); [|lia]. exists (r :: rs). split; [constructor; assumption|]. cbn [forallb]. congruence.
    + intros (rs & F & ->). inversion F as [|? r ? rs' J F']; subst. apply (check_sig_iff _ _ _ Bh) in J. rewrite J. cbn [bind]. rewrite (proj2 (IH gs (forallb (fun r => r) rs') ltac:(lia))); [reflexivity|]. exists rs'. split; [exact F'|reflexivity].
Qed.
Lemma wide_hash_eq z locks k : length locks = length (z_ins z) -> zlen (z_ins z) <= 255 -> zlen (z_outs z) <= 255 -> legacy_hash H (set_locks (of_wide z) locks) k = hex_encode (wide_sighash H z locks k).
Proof.
  intros L Ni No. unfold legacy_hash, wide_sighash, set_locks, of_wide, wlay. cbn [l_head l_ins l_outs l_trail].
  assert (Lc : length (combine (map of_win (z_ins z)) locks) = length (z_ins z)) by (rewrite combine_length, map_length; lia). rewrite !zlen_map', flat_map_map, map_length, Lc. unfold zlen at 1. rewrite Lc. fold (zlen (z_ins z)). pose proof (zlen_nonneg (z_ins z)). pose proof (zlen_nonneg (z_outs z)).
  unfold u8. rewrite !Z.mod_small by lia. do 2 f_equal. rewrite <- !app_assoc. do 2 f_equal. f_equal.
  - unfold wonly. rewrite L. assert (G : forall ws ls a, length ls = length ws -> flat_map (fun '(j, n) => n_txid n ++ n_vout n ++ (if Nat.eqb j k then n_lock n else [0]) ++ n_seq n) (combine (seq a (length ws)) (map (fun '(i, l) => set_lock i l) (combine (map of_win ws) ls))) =
      flat_map (fun '((id, v, s), sc) => id ++ v ++ sc ++ s) (combine ws (map (fun '(j, l) => if Nat.eqb j k then counted l else [0]) (combine (seq a (length ws)) ls)))).
    { clear. induction ws as [|[[id v] s] ws IH]; intros ls a L; destruct ls as [|l ls]; try discriminate; [reflexivity|]. cbn [length seq map combine flat_map]. rewrite IH by (cbn [length] in L; lia). reflexivity. }
    apply G. exact L.
  - do 2 f_equal. apply flat_map_ext. intros [[[a m] sc] t]. reflexivity.
Qed.
Lemma signed_bytes sp z locks gs : length locks = length (z_ins z) -> length gs = length (z_ins z) -> zlen (z_ins z) <= 255 -> zlen (z_outs z) <= 255 ->
  ltx_bytes sp (set_sigs (set_locks (of_wide z) locks) gs) = (scripts <- mapr (fun g => sp (g_signature g) (g_pubkey g)) gs ;; Ok (wlay z scripts)).
Proof.
  intros L1 L2 Ni No. unfold ltx_bytes, set_sigs, set_locks, of_wide, wlay. cbn [l_head l_ins l_outs l_trail].
  assert (G : forall ws ls gs, length ls = length ws -> length gs = length ws -> mapr (lin_bytes sp) (map (fun '(i, g) => set_sig i g) (combine (map (fun '(i, l) => set_lock i l) (combine (map of_win ws) ls)) gs)) =
    (scripts <- mapr (fun g => sp (g_signature g) (g_pubkey g)) gs ;; Ok (map (fun '((id, v, s), sc) => id ++ v ++ sc ++ s) (combine ws scripts)))).
  { clear. induction ws as [|[[id v] s] ws IH]; intros ls gs L1 L2; destruct ls as [|l ls], gs as [|g gs]; try discriminate; [reflexivity|]. cbn [map combine mapr]. rewrite IH by (cbn [length] in *; lia). unfold lin_bytes. cbn [n_sig n_txid n_vout n_seq set_sig set_lock of_win].
    destruct (sp (g_signature g) (g_pubkey g)); cbn [bind]; [|reflexivity..]. destruct (mapr (fun g => sp (g_signature g) (g_pubkey g)) gs); reflexivity. }
  rewrite G by assumption. destruct (mapr (fun g => sp (g_signature g) (g_pubkey g)) gs) as [scripts| |]; cbn [bind]; [|reflexivity..]. pose proof (zlen_nonneg (z_ins z)). pose proof (zlen_nonneg (z_outs z)).
  rewrite !zlen_map', flat_map_map. assert (Q : zlen (combine (map (fun '(i, l) => set_lock i l) (combine (map of_win (z_ins z)) locks)) gs) = zlen (z_ins z)) by (unfold zlen; rewrite combine_length, map_length, combine_length, map_length; lia). rewrite Q.
  unfold u8. rewrite !Z.mod_small by lia. rewrite <- flat_map_concat_map. do 5 f_equal. f_equal. apply flat_map_ext. intros [[[a m] sc] t]. reflexivity.
Qed.
(** Aliencoin and Verge: what VerifyAndCombineTransaction accepts, and what it returns. [hex_prefix l] is the part of
    a lock script before the first character pair that is not hexadecimal. *)
Theorem legacy_verify_iff : forall c sp text gs signed, coin_ok c -> verify_legacy c sp H decompress verify text gs = Ok signed <->
  exists z locks scripts, wide_ok c z /\ wide_text text z locks /\
    Forall2 passes (map (wide_sighash H z (map hex_prefix locks)) (seq 0 (length locks))) gs /\
    Forall2 (fun g s => sp (g_signature g) (g_pubkey g) = Ok s) gs scripts /\ signed = hex_encode (wlay z scripts).
Proof.
  intros c sp text gs signed C. unfold verify_legacy.
  assert (HE : forall z locks, length locks = length (z_ins z) -> wide_ok c z -> legacy_hashes H (set_locks (of_wide z) (map hex_prefix locks)) = Ok (map hex_encode (map (wide_sighash H z (map hex_prefix locks)) (seq 0 (length locks))))).
  { intros z locks L (_ & _ & Ni & No & _). unfold legacy_hashes. f_equal. rewrite map_map. replace (length (l_ins (set_locks (of_wide z) (map hex_prefix locks)))) with (length locks) by (cbn [l_ins set_locks of_wide]; rewrite map_length, combine_length, !map_length; lia).
    apply map_ext. intros k. apply wide_hash_eq; [rewrite map_length; exact L|assumption|assumption]. }
  assert (BH : forall z ls n, Forall is_bytes (map (wide_sighash H z ls) (seq 0 n))) by (intros; apply Forall_map; apply Forall_forall; intros; apply HB).
  assert (LI : forall z (locks : list (list Z)), length locks = length (z_ins z) -> length (l_ins (set_locks (of_wide z) (map hex_prefix locks))) = length locks) by (intros z locks L; cbn [l_ins set_locks of_wide]; rewrite map_length, combine_length, !map_length; lia).
  split.
  - intros E. apply bind_ok in E as ([t locks] & Ed & E). apply (decode_raw_iff c text t locks C) in Ed as (z & W & T & ->). cbv zeta in E. pose proof T as (t0 & _ & _ & N0 & L & _).
    rewrite (LI z locks L) in E. destruct gs as [|g gs']; [discriminate|]. set (gs := g :: gs') in *. cbn [orb] in E. destruct (Nat.eqb_spec (length gs) (length locks)) as [Lg|]; cbn [negb] in E; [|discriminate].
    rewrite (HE z locks L W) in E. cbn [bind] in E. apply bind_ok in E as ([] & Ec & E). apply check_all_iff in Ec; [|apply BH|rewrite map_length, seq_length; exact Lg].
    destruct W as (W1 & W2 & Ni & No & W3). rewrite signed_bytes in E; [|rewrite map_length; exact L|lia|assumption|assumption]. destruct (mapr _ gs) as [scripts| |] eqn:Es; cbn [bind] in E; try discriminate. apply mapr_forall2 in Es.
    exists z, locks, scripts. split; [split; [exact W1|]; split; [exact W2|]; split; [exact Ni|]; split; [exact No|exact W3]|]. split; [exact T|]. split; [exact Ec|]. split; [exact Es|]. congruence.
  - intros (z & locks & scripts & W & T & P & S1 & ->). rewrite (proj2 (decode_raw_iff c text (of_wide z) locks C) (ex_intro _ z (conj W (conj T eq_refl)))). cbn [bind]. cbv zeta. pose proof T as (t0 & _ & _ & N0 & L & _). rewrite (LI z locks L).
    assert (Lg : length gs = length locks) by (apply Forall2_length' in P; rewrite map_length, seq_length in P; lia). rewrite Lg, Nat.eqb_refl. replace (match gs with [] => true | _ => false end) with false by (destruct gs; [destruct locks; [contradiction|discriminate]|reflexivity]). cbn [orb negb].
    rewrite (HE z locks L W). cbn [bind]. rewrite (proj2 (check_all_iff _ (BH z (map hex_prefix locks) (length locks)) gs ltac:(rewrite map_length, seq_length; exact Lg)) P). cbn [bind]. destruct W as (W1 & W2 & Ni & No & W3).
    rewrite signed_bytes; [|rewrite map_length; exact L|lia|assumption|assumption]. apply mapr_forall2 in S1. rewrite S1. reflexivity.
Qed.
Lemma wide_vhash_eq z locks : z_ins z <> [] -> length locks = length (z_ins z) -> vollar_hashes H (set_locks (of_wide z) locks) = Ok (map hex_encode (map (wide_vhash H z locks) (seq 0 (length locks)))).
Proof.
  intros N L. unfold vollar_hashes. cbn [l_ins l_outs set_locks of_wide].
  assert (N2 : map (fun '(i, l) => set_lock i l) (combine (map of_win (z_ins z)) locks) <> []) by (destruct (z_ins z), locks; try discriminate; contradiction). destruct (map _ (combine _ locks)) eqn:E; [contradiction|]. rewrite <- E. clear N2 E. cbv zeta.
  assert (G1 : forall ws ls, length ls = length ws -> flat_map (fun n => n_txid n ++ n_vout n) (map (fun '(i, l) => set_lock i l) (combine (map of_win ws) ls)) = flat_map (fun '(id, v, s) => id ++ v) ws /\
    flat_map n_seq (map (fun '(i, l) => set_lock i l) (combine (map of_win ws) ls)) = flat_map (fun '(id, v, s) => s) ws).
  { clear. induction ws as [|[[id v] s] ws IH]; intros ls L; destruct ls; try discriminate; [split; reflexivity|]. cbn [map combine flat_map]. destruct (IH ls) as [-> ->]; [cbn [length] in L; lia|]. split; reflexivity. }
  destruct (G1 (z_ins z) locks L) as [-> ->]. rewrite flat_map_map.
  assert (G2 : flat_map (fun x => lout_bytes (of_wout x)) (z_outs z) = flat_map (fun '(a, m, sc, t) => a ++ m ++ (zlen sc :: sc) ++ t) (z_outs z)) by (apply flat_map_ext; intros [[[a m] sc] t]; reflexivity). rewrite G2. f_equal. unfold wide_vhash.
  set (P := H (flat_map (fun '(id, v, _) => id ++ v) (z_ins z))). set (S0 := H (flat_map (fun '(_, _, s) => s) (z_ins z))). set (O := H (flat_map (fun '(a, m, sc, t) => a ++ m ++ (zlen sc :: sc) ++ t) (z_outs z))). clearbody P S0 O. clear G1 G2 N. rewrite !map_map.
  revert locks L. generalize (z_ins z). intros ws. induction ws as [|[[id v] s] ws IH]; intros locks L; destruct locks as [|lk ls]; try discriminate; [reflexivity|]. cbn [map combine length seq]. f_equal. rewrite (IH ls) by (cbn [length] in L; lia). rewrite <- seq_shift, map_map. apply map_ext. intros k. reflexivity.
Qed.
(** Vollar: the text is signed and returned whatever the checks say; the checks are reported in the flag. The returned
    transaction is followed by 82 zero bytes and one more for every input. *)
Theorem vollar_verify_iff : forall text gs pass signed, verify_vollar H decompress verify text gs = Ok (pass, signed) <->
  exists z locks ls results scripts, wide_ok vollar z /\ wide_text text z locks /\ Forall2 (fun l b => hex_decode l = Ok b) locks ls /\ length gs = length locks /\
    Forall2 (fun '(h, g) r => judged h g r) (combine (map (wide_vhash H z ls) (seq 0 (length ls))) gs) results /\ pass = forallb (fun r => r) results /\
    Forall2 (fun g s => verge_sigpub (g_signature g) (g_pubkey g) = Ok s) gs scripts /\ signed = hex_encode (wlay z scripts ++ zeros (82 + length locks)).
Proof.
  intros text gs pass signed. assert (C : coin_ok vollar) by (right; right; reflexivity). unfold verify_vollar.
  assert (BH : forall z ls n, Forall is_bytes (map (wide_vhash H z ls) (seq 0 n))) by (intros; apply Forall_map; apply Forall_forall; intros; unfold wide_vhash; destruct (nth _ _ _) as [[? ?] ?]; apply HB).
  assert (LI : forall z (ls : list bytes), length ls = length (z_ins z) -> length (l_ins (set_locks (of_wide z) ls)) = length ls) by (intros z locks L; cbn [l_ins set_locks of_wide]; rewrite map_length, combine_length, !map_length; lia).
  split.
  - intros E. apply bind_ok in E as ([t locks] & Ed & E). apply (decode_raw_iff vollar text t locks C) in Ed as (z & W & T & ->). cbv zeta in E. pose proof T as (t0 & _ & _ & N0 & L & _). cbn [l_ins of_wide] in E. rewrite map_length in E.
    destruct (Nat.eqb_spec (length (z_ins z)) (length gs)) as [Lg|]; cbn [negb orb] in E; [|discriminate]. rewrite <- L, Nat.eqb_refl in E. cbn [negb] in E. apply bind_ok in E as (ls & El & E). pose proof (mapr_length _ _ _ El) as Ll. apply mapr_forall2 in El.
    fold (of_wide z) in E. rewrite wide_vhash_eq in E; [|intros Q; rewrite Q in L; destruct locks; [contradiction|discriminate]|lia]. cbn [bind] in E. apply bind_ok in E as (ps & Ec & E). apply check_every_iff in Ec as (rs & Er & ->); [|apply BH|rewrite map_length, seq_length; lia].
    destruct W as (W1 & W2 & Ni & No & W3). rewrite signed_bytes in E by (first [assumption|lia]). destruct (mapr _ gs) as [scripts| |] eqn:Es; cbn [bind] in E; try discriminate. apply mapr_forall2 in Es. rewrite LI in E by lia.
    exists z, locks, ls, rs, scripts. split; [split; [exact W1|]; split; [exact W2|]; split; [exact Ni|]; split; [exact No|exact W3]|]. split; [exact T|]. split; [exact El|]. split; [lia|]. split; [exact Er|]. split; [congruence|]. split; [exact Es|]. rewrite <- Ll. congruence.
  - intros (z & locks & ls & rs & scripts & W & T & El & Lg & Er & -> & S1 & ->). rewrite (proj2 (decode_raw_iff vollar text (of_wide z) locks C) (ex_intro _ z (conj W (conj T eq_refl)))). cbn [bind]. cbv zeta. pose proof T as (t0 & _ & _ & N0 & L & _).
    cbn [l_ins of_wide]. rewrite map_length. replace (Nat.eqb (length (z_ins z)) (length gs)) with true by lia. replace (Nat.eqb (length (z_ins z)) (length locks)) with true by lia. cbn [negb orb]. pose proof (Forall2_length' _ _ _ El) as Ll. apply mapr_forall2 in El. rewrite El. cbn [bind]. fold (of_wide z).
    rewrite wide_vhash_eq; [|intros Q; rewrite Q in L; destruct locks; [contradiction|discriminate]|lia]. cbn [bind]. rewrite (proj2 (check_every_iff _ (BH z ls (length ls)) gs (forallb (fun r => r) rs) ltac:(rewrite map_length, seq_length; lia)) (ex_intro _ rs (conj Er eq_refl))). cbn [bind].
    destruct W as (W1 & W2 & Ni & No & W3). rewrite signed_bytes by (first [assumption|lia]). apply mapr_forall2 in S1. rewrite S1. cbn [bind]. rewrite LI by lia. rewrite <- Ll. reflexivity.
Qed.
(** *** What was created *)
Definition wide_of (c : coin) (head : bytes) (ins : list lvin) (outs : list (Z * bytes)) (trail : bytes) : wide :=
  {| z_head := head; z_ins := map (fun i => (tid i, le 4 (w_vout i), [0xff; 0xff; 0xff; 0xff])) ins; z_outs := map (fun o => (le 8 (fst o), zeros (Z.to_nat (c_mid c)), snd o, zeros (Z.to_nat (c_tail c)))) outs; z_trail := trail |}.
Definition created_ok (c : coin) (head : bytes) (ins : list lvin) (outs : list (Z * bytes)) (trail : bytes) : Prop :=
  coin_ok c /\ is_bytes head /\ is_bytes trail /\ zlen head = c_head c /\ zlen trail = c_trail c /\ ins <> [] /\ zlen ins <= 255 /\ zlen outs <= 255 /\
  Forall (fun i => valid i /\ length (tid i) = 32%nat) ins /\ Forall (fun o => is_bytes (snd o) /\ zlen (snd o) <= 255) outs.
Lemma wlay_of c head ins scripts outs trail : zlen ins <= 255 -> zlen outs <= 255 -> Forall (fun o => zlen (snd o) <= 255) outs -> wlay (wide_of c head ins outs trail) scripts = lay c head ins scripts outs trail.
Proof.
  intros Ni No F. unfold wlay, lay, wide_of. cbn [z_head z_ins z_outs z_trail]. rewrite !zlen_map'. pose proof (zlen_nonneg ins). pose proof (zlen_nonneg outs). rewrite !(Z.mod_small (zlen ins)), !(Z.mod_small (zlen outs)) by lia.
  assert (G1 : forall scripts, flat_map (fun '((id, v, s), sc) => id ++ v ++ sc ++ s) (combine (map (fun i => (tid i, le 4 (w_vout i), [255; 255; 255; 255])) ins) scripts) = flat_map (fun '(i, s) => tid i ++ le 4 (w_vout i) ++ s ++ [255; 255; 255; 255]) (combine ins scripts)).
  { clear. induction ins as [|i ins IH]; intros scripts; [reflexivity|]. destruct scripts as [|s scripts]; [reflexivity|]. cbn [map combine flat_map]. rewrite IH. reflexivity. }
  assert (G2 : flat_map (fun '(a, m, sc, t) => a ++ m ++ (zlen sc :: sc) ++ t) (map (fun o => (le 8 (fst o), zeros (Z.to_nat (c_mid c)), snd o, zeros (Z.to_nat (c_tail c)))) outs) = flat_map (fun o => le 8 (fst o) ++ zeros (Z.to_nat (c_mid c)) ++ (zlen (snd o) mod 256 :: snd o) ++ zeros (Z.to_nat (c_tail c))) outs).
  { clear -F. induction F as [|o outs Lo F IH]; [reflexivity|]. cbn [map flat_map]. rewrite IH. pose proof (zlen_nonneg (snd o)). rewrite (Z.mod_small (zlen (snd o))) by lia. reflexivity. }
  unfold bytes in *. rewrite G1, G2. reflexivity.
Qed.
Lemma tid_bytes i : is_bytes (tid i).
Proof. unfold tid. destruct (hex_decode (w_txid i)) as [b| |] eqn:E; [|constructor..]. apply is_bytes_rev. exact (proj1 (hex_decode_bytes _ _ E)). Qed.
Lemma byte_mod n : is_byte (n mod 256). Proof. apply Z.mod_pos_bound. lia. Qed.
Lemma lay_bytes c head ins outs trail : is_bytes head -> is_bytes trail -> Forall (fun o => is_bytes (snd o)) outs -> is_bytes (lay c head ins (blank ins) outs trail).
Proof.
  intros Hh Ht Ho. unfold lay. apply is_bytes_app; split; [exact Hh|]. apply is_bytes_app; split; [constructor; [apply byte_mod|constructor]|]. apply is_bytes_app; split; [|apply is_bytes_app; split; [constructor; [apply byte_mod|constructor]|]; apply is_bytes_app; split; [|exact Ht]].
  - unfold blank. clear. induction ins as [|i ins IH]; [constructor|]. cbn [map combine flat_map]. apply is_bytes_app; split; [|exact IH]. apply is_bytes_app; split; [apply tid_bytes|]. apply is_bytes_app; split; [apply le_bytes_is_bytes|]. bts.
  - clear -Ho. induction Ho as [|o outs Bo Ho IH]; [constructor|]. cbn [flat_map]. apply is_bytes_app; split; [|exact IH]. apply is_bytes_app; split; [apply le_bytes_is_bytes|]. apply is_bytes_app; split; [apply is_bytes_zeros|]. apply is_bytes_app; split; [|apply is_bytes_zeros]. constructor; [apply byte_mod|exact Bo].
Qed.
Lemma no_colon s b : hex_decode s = Ok b -> ~ In 58 s.
Proof.
  revert b. induction s as [|x|x y r IH] using pair_ind; intros b; cbn [hex_decode]; [intros _ []|destruct (hex_val x); discriminate|]. destruct (hex_val x) eqn:Ex; [|discriminate]. destruct (hex_val y) eqn:Ey; [|discriminate].
  intros E. apply bind_ok in E as (t & Et & E). intros [Q|[Q|Q]]; [subst x; discriminate|subst y; discriminate|exact (IH _ Et Q)].
Qed.
Lemma digit_range d : (0 <= d < 16 -> 48 <= hex_digit d) /\ hex_digit d <> 58.
Proof. unfold hex_digit. destruct (Z.ltb_spec d 10); lia. Qed.
Lemma hex_no_colon b : ~ In 58 (hex_encode b).
Proof. intros I. unfold hex_encode in I. apply in_flat_map in I as (y & _ & I). destruct I as [Q|[Q|[]]]; [exact (proj2 (digit_range _) Q)|exact (proj2 (digit_range _) Q)]. Qed.
Lemma created_wide c head ins outs trail : created_ok c head ins outs trail -> wide_ok c (wide_of c head ins outs trail) /\ wide_text (lite_text c head ins outs trail) (wide_of c head ins outs trail) (map w_lock ins).
Proof.
  intros (C & Bh & Bt & Lh & Lt & N & Ni & No & Fi & Fo). destruct (coin_nonneg c C) as (_ & Cm & Ct & _). split.
  - unfold wide_ok, wide_of. cbn [z_head z_ins z_outs z_trail]. rewrite !zlen_map'. split; [exact Lh|]. split; [exact Lt|]. split; [exact Ni|]. split; [exact No|]. split; apply Forall_map.
    + eapply Forall_impl; [|exact Fi]. intros i [_ L]. split; [unfold zlen; rewrite L; reflexivity|]. split; reflexivity.
    + eapply Forall_impl; [|exact Fo]. intros o [_ L]. split; [reflexivity|]. rewrite !zlen_zeros. split; [lia|]. split; [exact L|lia].
  - assert (D : hex_decode (hex_encode (lay c head ins (blank ins) outs trail)) = Ok (lay c head ins (blank ins) outs trail)) by (apply hex_decode_encode; apply lay_bytes; [exact Bh|exact Bt|]; eapply Forall_impl; [|exact Fo]; intros o [B _]; exact B).
    exists (hex_encode (lay c head ins (blank ins) outs trail)). unfold lite_text. split; [rewrite flat_map_map; reflexivity|]. split; [constructor; [exact (no_colon _ _ D)|]; apply Forall_map; eapply Forall_impl; [|exact Fi]; intros i [[_ (l & El)] _]; exact (no_colon _ _ El)|].
    split; [destruct ins; [contradiction|discriminate]|]. split; [unfold wide_of; cbn [z_ins]; rewrite !map_length; reflexivity|]. rewrite D. f_equal. rewrite wlay_of; [|exact Ni|exact No|eapply Forall_impl; [|exact Fo]; intros o [_ L]; exact L]. f_equal. unfold blank, wide_of. cbn [z_ins]. rewrite map_map. reflexivity.
Qed.
Lemma of_wide_inj z z' : of_wide z = of_wide z' -> z = z'.
Proof.
  destruct z as [h i o t], z' as [h' i' o' t']. unfold of_wide. cbn [z_head z_ins z_outs z_trail]. intros E. injection E as -> Ei Eo ->. f_equal.
  - clear Eo. revert i' Ei. induction i as [|[[a b] d] i IH]; intros [|[[a' b'] d'] i'] E; try discriminate; [reflexivity|]. cbn [map of_win] in E. injection E as -> -> -> E. rewrite (IH _ E). reflexivity.
  - clear Ei. revert o' Eo. induction o as [|[[[a b] d] e] o IH]; intros [|[[[a' b'] d'] e'] o'] E; try discriminate; [reflexivity|]. cbn [map of_wout] in E. injection E as -> -> _ -> -> E. rewrite (IH _ E). reflexivity.
Qed.
Lemma wide_unique c text z locks z' locks' : coin_ok c -> wide_ok c z -> wide_text text z locks -> wide_ok c z' -> wide_text text z' locks' -> z = z' /\ locks = locks'.
Proof.
  intros C W T W' T'. pose proof (proj2 (decode_raw_iff c text (of_wide z) locks C) (ex_intro _ z (conj W (conj T eq_refl)))) as E. rewrite (proj2 (decode_raw_iff c text (of_wide z') locks' C) (ex_intro _ z' (conj W' (conj T' eq_refl)))) in E.
  split; [apply of_wide_inj; congruence|congruence].
Qed.
Lemma locks_ok ins : Forall (fun i => valid i /\ length (tid i) = 32%nat) ins -> map hex_prefix (map w_lock ins) = map tlock ins.
Proof. intros F. rewrite map_map. apply map_ext_in. intros i I. rewrite Forall_forall in F. destruct (F i I) as [[_ (l & El)] _]. unfold tlock. rewrite El. exact (hex_prefix_ok _ _ El). Qed.
Lemma wonly_only k ins : wonly k (map tlock ins) = only k ins.
Proof. unfold wonly, only. rewrite map_length. assert (G : forall a, map (fun '(j, l) => if Nat.eqb j k then counted l else [0]) (combine (seq a (length ins)) (map tlock ins)) = map (fun '(j, i) => if Nat.eqb j k then counted (tlock i) else [0]) (combine (seq a (length ins)) ins)) by (induction ins as [|i ins IH]; intros a; [reflexivity|]; cbn [length seq map combine]; rewrite IH; reflexivity). apply G. Qed.
(** Aliencoin, Verge: the text that was created is accepted exactly when there is one passing signature per input, in
    the order of the inputs; the result is the transaction with the signature scripts. *)
Theorem legacy_verify_created : forall c sp head ins outs trail gs signed, created_ok c head ins outs trail ->
  verify_legacy c sp H decompress verify (lite_text c head ins outs trail) gs = Ok signed <->
  exists scripts, Forall2 passes (legacy_list H c head ins outs trail) gs /\ Forall2 (fun g s => sp (g_signature g) (g_pubkey g) = Ok s) gs scripts /\ signed = hex_encode (lay c head ins scripts outs trail).
Proof.
  intros c sp head ins outs trail gs signed K. destruct (created_wide _ _ _ _ _ K) as [W T]. pose proof K as (C & _ & _ & _ & _ & _ & Ni & No & Fi & Fo).
  assert (Fo' : Forall (fun o => zlen (snd o) <= 255) outs) by (eapply Forall_impl; [|exact Fo]; intros o [_ L]; exact L).
  assert (HE : map (wide_sighash H (wide_of c head ins outs trail) (map hex_prefix (map w_lock ins))) (seq 0 (length (map w_lock ins))) = legacy_list H c head ins outs trail).
  { unfold legacy_list. rewrite map_length, (locks_ok ins Fi). apply map_ext. intros k. unfold wide_sighash, legacy_sighash. rewrite wonly_only, wlay_of by assumption. reflexivity. }
  rewrite legacy_verify_iff by exact C. split.
  - intros (z & locks & scripts & W' & T' & P & S1 & E). destruct (wide_unique c _ _ _ _ _ C W T W' T') as [<- <-]. exists scripts. rewrite HE in P. rewrite wlay_of in E by assumption. split; [exact P|]. split; assumption.
  - intros (scripts & P & S1 & E). exists (wide_of c head ins outs trail), (map w_lock ins), scripts. rewrite HE, wlay_of by assumption. split; [exact W|]. split; [exact T|]. split; [exact P|]. split; assumption.
Qed.
(** Vollar: the same transaction, and the flag says whether all signatures pass. *)
Theorem vollar_verify_created : forall ins outs gs pass signed, created_ok vollar [1; 0; 0; 0; 0] ins outs [] ->
  verify_vollar H decompress verify (lite_text vollar [1; 0; 0; 0; 0] ins outs []) gs = Ok (pass, signed) <->
  exists results scripts, length gs = length ins /\ Forall2 (fun '(h, g) r => judged h g r) (combine (vollar_list H ins outs) gs) results /\ pass = forallb (fun r => r) results /\
    Forall2 (fun g s => verge_sigpub (g_signature g) (g_pubkey g) = Ok s) gs scripts /\ signed = hex_encode (lay vollar [1; 0; 0; 0; 0] ins scripts outs [] ++ zeros (82 + length ins)).
Proof.
  intros ins outs gs pass signed K. destruct (created_wide _ _ _ _ _ K) as [W T]. pose proof K as (C & _ & _ & _ & _ & _ & Ni & No & Fi & Fo).
  assert (Fo' : Forall (fun o => zlen (snd o) <= 255) outs) by (eapply Forall_impl; [|exact Fo]; intros o [_ L]; exact L).
  assert (El : Forall2 (fun l b => hex_decode l = Ok b) (map w_lock ins) (map tlock ins)).
  { clear -Fi. induction Fi as [|i ins [[_ (l & E)] _] F IH]; [constructor|]. cbn [map]. constructor; [unfold tlock; rewrite E; reflexivity|exact IH]. }
  assert (HE : map (wide_vhash H (wide_of vollar [1; 0; 0; 0; 0] ins outs []) (map tlock ins)) (seq 0 (length (map tlock ins))) = vollar_list H ins outs).
  { unfold vollar_list. rewrite map_length. unfold wide_vhash, vollar_sighash. cbn [z_ins z_outs wide_of]. rewrite !flat_map_map.
    assert (G2 : flat_map (fun x : Z * bytes => le 8 (fst x) ++ zeros (Z.to_nat (c_mid vollar)) ++ (zlen (snd x) :: snd x) ++ zeros (Z.to_nat (c_tail vollar))) outs = flat_map (fun o => le 8 (fst o) ++ [0] ++ (zlen (snd o) mod 256 :: snd o) ++ zeros 32) outs).
    { clear -Fo'. induction Fo' as [|o outs Lo F IH]; [reflexivity|]. cbn [flat_map]. rewrite IH. pose proof (zlen_nonneg (snd o)). rewrite (Z.mod_small (zlen (snd o))) by lia. reflexivity. }
    rewrite G2. set (P := H (flat_map (fun x => tid x ++ le 4 (w_vout x)) ins)). set (S0 := H (flat_map (fun _ => [255; 255; 255; 255]) ins)). set (O := H (flat_map (fun o => le 8 (fst o) ++ [0] ++ (zlen (snd o) mod 256 :: snd o) ++ zeros 32) outs)). clearbody P S0 O. clear.
    induction ins as [|i ins IH]; [reflexivity|]. cbn [length seq map nth]. f_equal. rewrite <- seq_shift, map_map. rewrite <- IH. apply map_ext. intros k. reflexivity. }
  rewrite vollar_verify_iff. split.
  - intros (z & locks & ls & rs & scripts & W' & T' & El' & Lg & Er & Ep & S1 & E). destruct (wide_unique vollar _ _ _ _ _ C W T W' T') as [<- <-].
    assert (ls = map tlock ins) as ->. { apply mapr_forall2 in El, El'. congruence. } rewrite HE in Er. rewrite map_length in *. exists rs, scripts. rewrite wlay_of in E by assumption. split; [exact Lg|]. split; [exact Er|]. split; [exact Ep|]. split; assumption.
  - intros (rs & scripts & Lg & Er & Ep & S1 & E). exists (wide_of vollar [1; 0; 0; 0; 0] ins outs []), (map w_lock ins), (map tlock ins), rs, scripts. rewrite HE, wlay_of by assumption. split; [exact W|]. split; [exact T|]. split; [exact El|]. rewrite map_length. split; [exact Lg|]. split; [exact Er|]. split; [exact Ep|]. split; assumption.
Qed.
End Verify.

(** ** More outputs than the count byte can say *)
Lemma read_many c head ins outs trail t : coin_ok c -> is_bytes head -> is_bytes trail -> zlen head = c_head c -> zlen trail = c_trail c -> zlen ins <= 255 -> Forall (fun i => length (tid i) = 32%nat) ins ->
  Forall (fun o => is_bytes (snd o) /\ zlen (snd o) <= 255) outs -> 255 < zlen outs -> read_tx c (lay c head ins (blank ins) outs trail) <> Ok t.
Proof.
  intros C Bh Bt Lh Lt Ni Fi Fo No E. assert (Fo1 : Forall (fun o => is_bytes (snd o)) outs) by (eapply Forall_impl; [|exact Fo]; intros o [B _]; exact B). assert (Fo2 : Forall (fun o => zlen (snd o) <= 255) outs) by (eapply Forall_impl; [|exact Fo]; intros o [_ L]; exact L).
  pose proof (lay_bytes c head ins outs trail Bh Bt Fo1) as B. destruct (coin_nonneg c C) as (_ & Cm & Ct & Cr).
  assert (Q : lay c head ins (blank ins) outs trail = head ++ (zlen ins :: concat (map win_bytes (z_ins (wide_of c head ins outs trail))) ++ (zlen outs mod 256 :: concat (map wout_bytes (z_outs (wide_of c head ins outs trail))) ++ trail))).
  { unfold lay, wide_of. cbn [z_ins z_outs]. pose proof (zlen_nonneg ins). rewrite (Z.mod_small (zlen ins)) by lia. rewrite !map_map, <- !flat_map_concat_map.
    assert (G1 : flat_map (fun '(i, s) => tid i ++ le 4 (w_vout i) ++ s ++ [255; 255; 255; 255]) (combine ins (blank ins)) = flat_map (fun x => win_bytes (tid x, le 4 (w_vout x), [255; 255; 255; 255])) ins) by (unfold blank; clear; induction ins as [|i ins IH]; [reflexivity|]; cbn [map combine flat_map]; rewrite IH; reflexivity).
    assert (G2 : flat_map (fun o => le 8 (fst o) ++ zeros (Z.to_nat (c_mid c)) ++ (zlen (snd o) mod 256 :: snd o) ++ zeros (Z.to_nat (c_tail c))) outs = flat_map (fun x => wout_bytes (le 8 (fst x), zeros (Z.to_nat (c_mid c)), snd x, zeros (Z.to_nat (c_tail c)))) outs)
      by (clear -Fo2; induction Fo2 as [|o outs Lo F IH]; [reflexivity|]; cbn [flat_map]; rewrite IH; pose proof (zlen_nonneg (snd o)); rewrite (Z.mod_small (zlen (snd o))) by lia; reflexivity).
    unfold bytes in *. rewrite G1, G2. reflexivity. }
  rewrite Q in *. unfold read_tx in E. rewrite need_app in E by exact Lh. cbn [need1] in E. apply is_bytes_app in B as [_ B]. apply is_bytes_cons in B as [_ B].
  match type of E with context [readn ?n read_in (?x ++ ?r)] => assert (R1 : readn n read_in (x ++ r) = Ok (map of_win (z_ins (wide_of c head ins outs trail)), r)) end.
  { apply (read_in_iff _ _ _ _ B). exists (z_ins (wide_of c head ins outs trail)). split; [unfold wide_of; cbn [z_ins]; rewrite map_length; unfold zlen; lia|]. split; [|split; reflexivity]. unfold wide_of. cbn [z_ins]. apply Forall_map. eapply Forall_impl; [|exact Fi]. intros i L. split; [unfold zlen; rewrite L; reflexivity|]. split; reflexivity. }
  rewrite R1 in E. clear R1. cbn [bind need1] in E. apply is_bytes_app in B as [_ B]. apply is_bytes_cons in B as [_ B]. set (n := Z.to_nat (zlen outs mod 256)) in *. set (ws := z_outs (wide_of c head ins outs trail)) in *.
  assert (Lw : length ws = length outs) by (unfold ws, wide_of; cbn [z_outs]; apply map_length).
  assert (Fw : Forall (fun '(a, m, sc, t) => zlen a = 8 /\ zlen m = c_mid c /\ zlen sc <= 255 /\ zlen t = c_tail c) ws).
  { unfold ws, wide_of. cbn [z_outs]. apply Forall_map. eapply Forall_impl; [|exact Fo2]. intros o L. split; [reflexivity|]. rewrite !zlen_zeros. split; [lia|]. split; [exact L|lia]. }
  assert (Hn : (n < length ws)%nat) by (rewrite Lw; unfold n; pose proof (Z.mod_pos_bound (zlen outs) 256 ltac:(lia)); unfold zlen in *; lia).
  rewrite <- (firstn_skipn n ws) in E, B at 1. rewrite map_app, concat_app, <- app_assoc in E, B. rewrite <- (firstn_skipn n ws) in Fw. apply Forall_app in Fw as [Fw1 Fw2].
  match type of E with context [readn n (read_out c) (?x ++ ?r)] => assert (R1 : readn n (read_out c) (x ++ r) = Ok (map of_wout (firstn n ws), r)) end.
  { apply (read_out_iff c _ _ _ _ C B). exists (firstn n ws). split; [rewrite firstn_length; lia|]. split; [exact Fw1|]. split; reflexivity. }
  rewrite R1 in E. cbn [bind] in E. apply need_inv in E as (tr & rest & Qr & Lr & E); [|lia]. destruct rest; [|discriminate]. rewrite app_nil_r in Qr.
  destruct (skipn n ws) as [|[[[a m] sc] tt0] more] eqn:Es; [apply (f_equal (@length _)) in Es; rewrite skipn_length in Es; cbn [length] in Es; lia|]. pose proof (Forall_inv Fw2) as A0. cbn beta iota in A0. destruct A0 as (A & _). apply (f_equal zlen) in Qr. cbn [map concat wout_bytes] in Qr. rewrite !zlen_app in Qr.
  pose proof (zlen_nonneg m). pose proof (zlen_nonneg (zlen sc :: sc)). pose proof (zlen_nonneg tt0). pose proof (zlen_nonneg (concat (map wout_bytes more))). lia.
Qed.
(** The text is refused by the decoder that verification starts with. *)
Lemma decode_created c head ins outs trail x : decode_raw c (lite_text c head ins outs trail) = Ok x -> Forall valid ins -> Forall (fun o => is_bytes (snd o)) outs -> is_bytes head -> is_bytes trail ->
  exists t, read_tx c (lay c head ins (blank ins) outs trail) = Ok t /\ length (l_ins t) = length ins.
Proof.
  intros E V Fo Bh Bt. unfold decode_raw, lite_text in E. replace (flat_map (fun i => str ":" ++ w_lock i) ins) with (flat_map (cons 58) (map w_lock ins)) in E by (rewrite flat_map_map; reflexivity).
  rewrite split_on_join in E; [|apply hex_no_colon|apply Forall_map; eapply Forall_impl; [|exact V]; intros i [_ (l & El)]; exact (no_colon _ _ El)]. destruct (_ <=? 1); [discriminate|]. rewrite hex_decode_encode in E by (apply lay_bytes; assumption).
  apply bind_ok in E as (t & Et & E). destruct (Nat.eqb_spec (length (l_ins t)) (length (map w_lock ins))) as [L|]; [|discriminate]. rewrite map_length in L. exists t. split; assumption.
Qed.
Theorem too_many_refused : forall c sp H decompress verify head ins outs trail gs r, coin_ok c -> is_bytes head -> is_bytes trail -> zlen head = c_head c -> zlen trail = c_trail c ->
  Forall (fun i => valid i /\ length (tid i) = 32%nat) ins -> Forall (fun o => is_bytes (snd o) /\ zlen (snd o) <= 255) outs -> 255 < zlen ins \/ 255 < zlen outs ->
  verify_legacy c sp H decompress verify (lite_text c head ins outs trail) gs <> Ok r /\ (c = vollar -> forall pass, verify_vollar H decompress verify (lite_text c head ins outs trail) gs <> Ok (pass, r)).
Proof.
  intros c sp H decompress verify head ins outs trail gs r C Bh Bt Lh Lt Fi Fo N.
  assert (V : Forall valid ins) by (eapply Forall_impl; [|exact Fi]; intros i [v _]; exact v). assert (Fo1 : Forall (fun o => is_bytes (snd o)) outs) by (eapply Forall_impl; [|exact Fo]; intros o [B _]; exact B).
  assert (D : forall x, decode_raw c (lite_text c head ins outs trail) <> Ok x).
  { intros x E. destruct (decode_created _ _ _ _ _ _ E V Fo1 Bh Bt) as (t & Et & L). destruct (Z.le_gt_cases (zlen ins) 255) as [Ni|Ni].
    - destruct N as [N|N]; [lia|]. eapply read_many; [exact C|exact Bh|exact Bt|exact Lh|exact Lt|exact Ni| |exact Fo|exact N|exact Et]. eapply Forall_impl; [|exact Fi]. intros i [_ l]. exact l.
    - apply (read_tx_iff c _ t C) in Et; [|apply lay_bytes; assumption]. destruct Et as (z & (_ & _ & W & _) & _ & ->). cbn [l_ins of_wide] in L. rewrite map_length in L. unfold zlen in *. lia. }
  split.
  - unfold verify_legacy. intros E. apply bind_ok in E as (x & E & _). exact (D x E).
  - intros -> pass E. unfold verify_vollar in E. apply bind_ok in E as (x & E & _). exact (D x E).
Qed.

(** ** What creation accepts *)
Lemma mapr_some {A B} (f : A -> res B) l : (exists r, mapr f l = Ok r) <-> Forall (fun x => exists y, f x = Ok y) l.
Proof.
  split.
  - intros (r & E). apply mapr_forall2 in E. induction E as [|x y l r E F IH]; [constructor|]. constructor; [exists y; exact E|exact IH].
  - induction 1 as [|x l (y & E) F (r & IH)]; [exists []; reflexivity|]. exists (y :: r). cbn [mapr]. rewrite E, IH. reflexivity.
Qed.
Lemma new_lin_some ins : (exists r, mapr new_lin ins = Ok r) <-> Forall valid ins.
Proof. rewrite mapr_some. split; apply Forall_impl; intros i; [intros (t & E); apply new_lin_iff in E; tauto|intros V; exists (mk_lin i); apply new_lin_iff; tauto]. Qed.
Definition pays_to1 al H pk ps (o : lvout) : Prop := exists p h, decode_check1 al H (w_address o) = Ok (p, h) /\ (p = pk \/ p = ps).
Definition pays_to2 al H (o : lvout) : Prop := exists p h, decode_check al H (w_address o) = Ok (p, h) /\ (p = [0x10; 0x1c] \/ p = [0x10; 0x41]).
Lemma new_lout_some pk ps al H o : (exists r, new_lout pk ps al H o = Ok r) <-> pays_to1 al H pk ps o.
Proof.
  unfold new_lout, pays_to1. destruct (decode_check1 al H (w_address o)) as [[p h]| |]; cbn [bind]; [|split; [intros (r & E); discriminate|intros (p & h & E & _); discriminate]..].
  destruct (Z.eqb_spec p pk); [split; [intros _; exists p, h; split; [reflexivity|left; assumption]|intros _; eexists; reflexivity]|]. destruct (Z.eqb_spec p ps); [split; [intros _; exists p, h; split; [reflexivity|right; assumption]|intros _; eexists; reflexivity]|].
  split; [intros (r & E); discriminate|]. intros (p' & h' & E & [Q|Q]); assert (p' = p) by congruence; congruence.
Qed.
Lemma new_vout_some al H o : (exists r, new_vout al H o = Ok r) <-> pays_to2 al H o.
Proof.
  unfold new_vout, pays_to2. destruct (decode_check al H (w_address o)) as [[p h]| |]; cbn [bind]; [|split; [intros (r & E); discriminate|intros (p & h & E & _); discriminate]..].
  destruct (beq p [16; 28]) eqn:B1; [apply beq_eq in B1; split; [intros _; exists p, h; split; [reflexivity|left; assumption]|intros _; eexists; reflexivity]|]. destruct (beq p [16; 65]) eqn:B2; [apply beq_eq in B2; split; [intros _; exists p, h; split; [reflexivity|right; assumption]|intros _; eexists; reflexivity]|].
  split; [intros (r & E); discriminate|]. intros (p' & h' & E & [Q|Q]); assert (p' = p) by congruence; subst p' p; discriminate.
Qed.
Lemma new_ltx_some f (P : lvout -> Prop) head trail ins outs : (forall o, (exists r, f o = Ok r) <-> P o) -> (exists t, new_ltx f head trail ins outs = Ok t) <-> Forall valid ins /\ Forall P outs.
Proof.
  intros F. rewrite <- new_lin_some. assert (G : (exists r, mapr f outs = Ok r) <-> Forall P outs) by (rewrite mapr_some; split; apply Forall_impl; intros o; apply F). rewrite <- G. unfold new_ltx. split.
  - intros (t & E). apply bind_ok in E as (i & Ei & E). apply bind_ok in E as (o & Eo & E). split; eexists; eassumption.
  - intros [(i & ->) (o & ->)]. eexists. reflexivity.
Qed.
Lemma empty_bytes sp t : Forall (fun i => n_sig i = None) (l_ins t) -> exists b, ltx_bytes sp t = Ok b.
Proof.
  intros F. unfold ltx_bytes. destruct (proj2 (mapr_some (lin_bytes sp) (l_ins t))) as (r & ->); [|eexists; reflexivity]. eapply Forall_impl; [|exact F]. intros i E. unfold lin_bytes. rewrite E. eexists. reflexivity.
Qed.
Lemma new_ltx_unsigned f head trail ins outs t : new_ltx f head trail ins outs = Ok t -> l_ins t = map mk_lin ins /\ Forall (fun i => n_sig i = None) (l_ins t).
Proof.
  unfold new_ltx. intros E. apply bind_ok in E as (i & Ei & E). apply (mapr_iff new_lin valid mk_lin ins new_lin_iff) in Ei as [_ ->]. apply bind_ok in E as (o & _ & E). assert (l_ins t = map mk_lin ins) as -> by (injection E as <-; reflexivity). split; [reflexivity|]. apply Forall_map. apply Forall_forall. intros; reflexivity.
Qed.
(** Ids and hashes of every length are accepted, and for aliencoin and Verge also no inputs at all. *)
Theorem lite_create_accepts : forall al H ins outs, 
  (forall lt, (exists r, create_aliencoin al H ins outs lt = Ok r) <-> Forall valid ins /\ Forall (pays_to1 al H 0x17 0x30) outs) /\
  (forall now lt ti, (exists r, create_verge now al H ins outs lt ti = Ok r) <-> Forall valid ins /\ Forall (pays_to1 al H 0x1e 0x21) outs) /\
  ((exists r, create_vollar al H ins outs = Ok r) <-> ins <> [] /\ Forall valid ins /\ Forall (pays_to2 al H) outs).
Proof.
  intros al H ins outs. split; [|split].
  - intros lt. rewrite <- (new_ltx_some (new_lout 0x17 0x30 al H) _ [1; 0; 0; 0] (put_le 4 lt) ins outs (new_lout_some 0x17 0x30 al H)). unfold create_aliencoin. split.
    + intros (r & E). apply bind_ok in E as (t & E & _). exists t. exact E.
    + intros (t & E). rewrite E. cbn [bind]. unfold create_text, legacy_hashes. cbn [bind]. destruct (empty_bytes alien_sigpub t (proj2 (new_ltx_unsigned _ _ _ _ _ _ E))) as (b & ->). eexists. reflexivity.
  - intros now lt ti. rewrite <- (new_ltx_some (new_lout 0x1e 0x21 al H) _ ([1; 0; 0; 0] ++ put_le 4 (u32 (u32 now + ti))) (put_le 4 lt) ins outs (new_lout_some 0x1e 0x21 al H)). unfold create_verge. split.
    + intros (r & E). apply bind_ok in E as (t & E & _). exists t. exact E.
    + intros (t & E). rewrite E. cbn [bind]. unfold create_text, legacy_hashes. cbn [bind]. destruct (empty_bytes verge_sigpub t (proj2 (new_ltx_unsigned _ _ _ _ _ _ E))) as (b & ->). eexists. reflexivity.
  - rewrite <- (new_ltx_some (new_vout al H) _ [1; 0; 0; 0; 0] [] ins outs (new_vout_some al H)). unfold create_vollar. split.
    + intros (r & E). apply bind_ok in E as (t & E & E2). split; [|exists t; exact E]. intros ->. unfold create_text, vollar_hashes in E2. rewrite (proj1 (new_ltx_unsigned _ _ _ _ _ _ E)) in E2. discriminate.
    + intros (N & t & E). rewrite E. cbn [bind]. unfold create_text. destruct (new_ltx_unsigned _ _ _ _ _ _ E) as [Ei U]. unfold vollar_hashes. destruct (l_ins t) eqn:Q; [destruct ins; [contradiction|discriminate]|]. rewrite <- Q in *. cbv zeta. cbn [bind]. destruct (empty_bytes verge_sigpub t U) as (b & ->). eexists. reflexivity.
Qed.

(** ** Cases *)
Definition ex_vin (v : Z) : lvin := {| w_txid := hex_encode (repeat 7 32); w_vout := v; w_lock := hex_encode [0x76; 0xa9] |}.
Lemma ex_vin_ok v : valid (ex_vin v) /\ length (tid (ex_vin v)) = 32%nat.
Proof. unfold valid, tid, ex_vin. cbn [w_txid w_lock]. rewrite hex_decode_encode by (apply Forall_forall; intros x I; apply repeat_spec in I; subst x; red; lia). rewrite hex_decode_encode by bts. split; [split; eexists; reflexivity|reflexivity]. Qed.
Lemma ex_pays1 pk ps : is_byte pk -> exists o, pays1 btc_alphabet toy_hash pk ps o (500, p2pkh (zeros 20)).
Proof.
  intros B. destruct (decode_check1_encode_check1 toy_hash _ _ pk (zeros 20) toy_hash_ok btc_alphabet_ok btc_alphabet_new B) as (s & _ & D); [apply is_bytes_zeros|].
  exists {| w_address := s; w_amount := 500 |}, (zeros 20). split; [reflexivity|]. left. cbn [w_address w_amount]. split; [exact D|reflexivity].
Qed.
Lemma ex_pays2 : exists o, pays2 btc_alphabet toy_hash o (500, p2pkh (zeros 20)).
Proof.
  destruct (decode_check_encode_check toy_hash _ _ [0x10; 0x1c] (zeros 20) toy_hash_ok btc_alphabet_ok btc_alphabet_new) as (s & _ & D); [bts|apply is_bytes_zeros|reflexivity|].
  exists {| w_address := s; w_amount := 500 |}, (zeros 20). split; [reflexivity|]. left. cbn [w_address w_amount]. split; [exact D|reflexivity].
Qed.
Lemma ex_created_ok c head trail : coin_ok c -> is_bytes head -> is_bytes trail -> zlen head = c_head c -> zlen trail = c_trail c -> created_ok c head [ex_vin 0; ex_vin 1] [(500, p2pkh (zeros 20))] trail.
Proof.
  intros C Bh Bt Lh Lt. split; [exact C|]. split; [exact Bh|]. split; [exact Bt|]. split; [exact Lh|]. split; [exact Lt|]. split; [discriminate|]. split; [unfold zlen; cbn [length]; lia|]. split; [unfold zlen; cbn [length]; lia|].
  split; [constructor; [apply ex_vin_ok|constructor; [apply ex_vin_ok|constructor]]|]. constructor; [|constructor]. cbn [snd]. split; [unfold p2pkh; apply is_bytes_app; split; [bts|apply is_bytes_app; split; [apply is_bytes_zeros|bts]]|]. rewrite p2pkh_len by reflexivity. lia.
Qed.
(** An aliencoin transaction is created and accepted with two signatures. *)
Example ex_aliencoin : exists o text hashes, create_aliencoin btc_alphabet toy_hash [ex_vin 0; ex_vin 1] [o] 0 = Ok (text, hashes) /\ length hashes = 2%nat /\
  exists signed, verify_legacy aliencoin (fun s p => Ok (s ++ p)) toy_hash (fun p => 4 :: p) (fun p h s => beq (firstn 4 s) (firstn 4 h)) text
    [{| g_pubkey := [2]; g_signature := legacy_sighash toy_hash aliencoin [1; 0; 0; 0] [ex_vin 0; ex_vin 1] [(500, p2pkh (zeros 20))] (le 4 0) 0 |};
     {| g_pubkey := [3]; g_signature := legacy_sighash toy_hash aliencoin [1; 0; 0; 0] [ex_vin 0; ex_vin 1] [(500, p2pkh (zeros 20))] (le 4 0) 1 |}] = Ok signed.
Proof.
  destruct (ex_pays1 0x17 0x30 ltac:(red; lia)) as (o & P). eexists o, _, _. split; [apply aliencoin_created; [constructor; [apply ex_vin_ok|constructor; [apply ex_vin_ok|constructor]]|constructor; [exact P|constructor]]|]. split; [unfold legacy_list; rewrite !map_length; reflexivity|].
  eexists. apply (legacy_verify_created toy_hash (fun p => 4 :: p) (fun p h s => beq (firstn 4 s) (firstn 4 h)) (fun b => be_bytes_is_bytes _ _) aliencoin); [apply ex_created_ok; [left; reflexivity|bts|apply le_bytes_is_bytes|reflexivity|reflexivity]|].
  eexists [_; _]. split; [|split; [constructor; [reflexivity|constructor; [reflexivity|constructor]]|reflexivity]]. unfold legacy_list. cbn [length seq map]. constructor; [|constructor; [|constructor]]; (eexists 4, _; split; [reflexivity|apply beq_refl]).
Qed.
(** A Vollar transaction with a wrong signature is returned all the same, with the flag false. *)
Example ex_vollar : exists o text hashes, create_vollar btc_alphabet toy_hash [ex_vin 0; ex_vin 1] [o] = Ok (text, hashes) /\
  exists rs, Forall2 (fun '(h, g) r => judged (fun p => 4 :: p) (fun p h s => beq p h) h g r) (combine (vollar_list toy_hash [ex_vin 0; ex_vin 1] [(500, p2pkh (zeros 20))]) [{| g_pubkey := []; g_signature := repeat 1 64 |}; {| g_pubkey := []; g_signature := repeat 1 64 |}]) rs.
Proof.
  destruct ex_pays2 as (o & P). eexists o, _, _. split; [apply vollar_created; [discriminate|constructor; [apply ex_vin_ok|constructor; [apply ex_vin_ok|constructor]]|constructor; [exact P|constructor]]|].
  eexists [_; _]. unfold vollar_list. cbn [map combine]. constructor; [eexists 4, _; split; reflexivity|]. constructor; [eexists 4, _; split; reflexivity|constructor].
Qed.
(** A verge text with 256 inputs is created and refused. *)
Example ex_many : Forall (fun i => valid i /\ length (tid i) = 32%nat) (repeat (ex_vin 0) 256) /\ 255 < zlen (repeat (ex_vin 0) 256).
Proof. split; [apply Forall_forall; intros i I; apply repeat_spec in I; subst i; apply ex_vin_ok|unfold zlen; rewrite repeat_length; lia]. Qed.

Print Assumptions lite_read.
Print Assumptions aliencoin_created.
Print Assumptions verge_created.
Print Assumptions vollar_created.
Print Assumptions lite_create_accepts.
Print Assumptions legacy_verify_iff.
Print Assumptions vollar_verify_iff.
Print Assumptions legacy_verify_created.
Print Assumptions vollar_verify_created.
Print Assumptions too_many_refused.
