(** Lemmas about btcLikeTxDriver: creation and decoding. *)
From Coq Require Import String ZArith List Bool Lia ZifyBool ZifyNat.
From Verif Require Import Go GoFacts GoFacts2 Rd Base58Model Base58Spec Base58Props Base58CheckModel Base58CheckSpec Base58CheckProofs Base58CheckProps
  Digits58 BtcModel BtcSpec BtcProofs BtcTxProofs SigModel SigDerProps LikeModel.
Import ListNotations.
Open Scope Z_scope.
Ltac Zify.zify_post_hook ::= idtac.

(** ** Specification *)
(** The script an address of the package stands for: Base58Check with prefix 0x6F (public key hash) or 0xC4 (script hash). *)
Definition like_lock (H : bytes -> bytes) (address : list Z) (lock : bytes) : Prop :=
  exists h, is_bytes h /\ length h = 20%nat /\
    (is_base58_of bitcoin_rs (checked H (0x6F :: h)) address /\ lock = p2pkh_script h \/
     is_base58_of bitcoin_rs (checked H (0xC4 :: h)) address /\ lock = p2sh_script h).
Definition like_pays (H : bytes -> bytes) (v : vout) (o : spec_out) : Prop := s_amount o = v_amount v /\ like_lock H (v_addr v) (s_lock o).
(** A decoded transaction shows the given values. *)
Definition lin_of (s : spec_in) : lin := {| li_txid := s_txid s; li_vout := le_bytes 4 (s_vout s); li_script := s_script s; li_seq := le_bytes 4 (s_seq s) |}.
Definition lout_of (s : spec_out) : lout := {| lo_amount := le_bytes 8 (s_amount s); lo_lock := s_lock s |}.
Definition ltx_of (version : Z) (ins : list spec_in) (outs : list spec_out) (wits : list sigpub) (lockTime : Z) : ltx :=
  {| l_version := le_bytes 4 version; l_vins := map lin_of ins; l_vouts := map lout_of outs; l_wit := wits; l_locktime := le_bytes 4 lockTime |}.

(** ** Creation *)
Lemma like_text_head H p h s : hash_ok H -> is_bytes h -> length h = 20%nat -> p = 0x6F \/ p = 0xC4 ->
  is_base58_of bitcoin_rs (checked H (p :: h)) s -> ~ begins (str "tb1") s.
Proof.
  intros HH Bh Lh Hp N [r0 ->].
  assert (Bp : is_bytes (p :: h)) by (constructor; [unfold is_byte; lia|exact Bh]).
  assert (B : is_bytes (checked H (p :: h))) by (apply checked_bytes; assumption).
  assert (V : p * 256 ^ 24 <= be_num (checked H (p :: h)) <= (p + 1) * 256 ^ 24 - 1).
  { unfold checked in *. cbn [app] in *. rewrite be_num_cons. apply Forall_cons_iff in B as [_ B]. pose proof (be_num_bound _ B) as Q.
    assert (L : zlen (h ++ firstn 4 (H (p :: h))) = 24). { rewrite zlen_app, (cks_len H HH) by assumption. unfold zlen. rewrite Lh. reflexivity. }
    unfold bytes in *. rewrite L in *. lia. }
  assert (Hd : hd 1 (checked H (p :: h)) <> 0) by (cbn; lia).
  destruct Hp as [-> | ->].
  - destruct (base58_lead _ _ _ 34 1 (0x6F * 256 ^ 24) ((0x6F + 1) * 256 ^ 24 - 1) N B Hd) as (q & r & Q & E); try exact V; try lia.
    assert (q = 44 \/ q = 45). { assert (Q1 : 0x6F * 256 ^ 24 / 58 ^ Z.of_nat (34 - 1) = 44) by (vm_compute; reflexivity). assert (Q2 : ((0x6F + 1) * 256 ^ 24 - 1) / 58 ^ Z.of_nat (34 - 1) = 45) by (vm_compute; reflexivity). rewrite Q1, Q2 in Q. lia. }
    destruct H0 as [-> | ->]; discriminate E.
  - destruct (base58_lead _ _ _ 35 1 (0xC4 * 256 ^ 24) ((0xC4 + 1) * 256 ^ 24 - 1) N B Hd) as (q & r & Q & E); try exact V; try lia.
    assert (q = 1). { assert (Q1 : 0xC4 * 256 ^ 24 / 58 ^ Z.of_nat (35 - 1) = 1) by (vm_compute; reflexivity). assert (Q2 : ((0xC4 + 1) * 256 ^ 24 - 1) / 58 ^ Z.of_nat (35 - 1) = 1) by (vm_compute; reflexivity). rewrite Q1, Q2 in Q. lia. }
    subst q. discriminate E.
Qed.

Lemma like_out_iff H v l : hash_ok H -> is_bytes (v_addr v) ->
  like_out H v = Ok l <-> exists o, like_pays H v o /\ l = [lout_of o].
Proof.
  intros HH Ba. assert (T : forall p h, is_byte p -> is_bytes h -> length h = 20%nat -> decode_check1 bitcoin_al H (v_addr v) = Ok (p, h) <-> is_base58_of bitcoin_rs (checked H (p :: h)) (v_addr v)).
  { intros p h Bp Bh Lh. change (p :: h) with ([p] ++ h). assert (Bl : is_bytes [p]) by (constructor; [assumption|constructor]). rewrite (address_text H [p] h (v_addr v) HH Bl Bh Lh). split.
    - intros E. apply (decode_check1_sound H bitcoin_rs bitcoin_al _ _ _ HH bitcoin_alphabet_ok bitcoin_al_eq Ba E).
    - intros E. destruct (decode_check1_encode_check1 H bitcoin_rs bitcoin_al p h HH bitcoin_alphabet_ok bitcoin_al_eq Bp Bh) as (s & E1 & E2). unfold encode_check1 in E1. assert (s = v_addr v) by congruence. subst s. exact E2. }
  unfold like_out. split.
  - intros E. apply bind_ok in E as (first & Ef & E). apply bind_ok in E as ([p h] & D & E). destruct (negb (zlen h =? 20)) eqn:L; [discriminate|].
    assert (Lh : length h = 20%nat) by (unfold zlen in L; lia).
    destruct (decode_check1_inv H HH bitcoin_rs bitcoin_alphabet_ok bitcoin_al bitcoin_al_eq _ _ _ Ba D) as (Bp & Bh & _).
    pose proof (proj1 (T p h Bp Bh Lh) D) as N. apply bind_ok in E as (lock & El & E).
    assert (P : p = 0x6F \/ p = 0xC4). { destruct (p =? 0x6F) eqn:P1; [left; lia|]. destruct (p =? 0xC4) eqn:P2; [right; lia|discriminate]. }
    pose proof (like_text_head H p h _ HH Bh Lh P N) as NT.
    assert (F0 : first = []). { destruct (is_prefix (str "tb1") (v_addr v)) eqn:Pre; [exfalso; apply NT, is_prefix_begins, Pre|]. injection Ef as <-. reflexivity. }
    subst first. cbn [app] in E. assert (l = [{| lo_amount := le64 (v_amount v); lo_lock := lock |}]) by congruence. subst l.
    exists {| s_amount := v_amount v; s_lock := lock |}. split; [|reflexivity]. split; [reflexivity|]. exists h. split; [exact Bh|]. split; [exact Lh|]. cbn [s_lock].
    destruct P as [-> | ->]; [left|right]; (split; [exact N|]); cbn in El; unfold zlen in El; rewrite Lh in El; injection El as <-; reflexivity.
  - intros (o & (A & h & Bh & Lh & S) & ->).
    assert (exists p, (p = 0x6F \/ p = 0xC4) /\ is_base58_of bitcoin_rs (checked H (p :: h)) (v_addr v) /\ s_lock o = if p =? 0x6F then p2pkh_script h else p2sh_script h) as (p & P & N & Lk).
    { destruct S as [[N L]|[N L]]; [exists 0x6F|exists 0xC4]; auto. }
    pose proof (like_text_head H p h _ HH Bh Lh P N) as NT.
    replace (is_prefix (str "tb1") (v_addr v)) with false by (destruct (is_prefix (str "tb1") (v_addr v)) eqn:Pre; [exfalso; apply NT, is_prefix_begins, Pre|reflexivity]).
    cbn [bind]. rewrite (proj2 (T p h ltac:(unfold is_byte; lia) Bh Lh) N). cbn [bind]. replace (zlen h) with 20 by (unfold zlen; lia). cbn [Z.eqb Pos.eqb negb].
    unfold lout_of. rewrite A, Lk. destruct P as [-> | ->]; reflexivity.
Qed.
Lemma like_in_iff lt r v i : like_in lt r v = Ok i <-> exists s, spends lt r v s /\ i = lin_of s.
Proof.
  unfold like_in. rewrite sequence_spec. split.
  - intros E. destruct (reverse_hex (v_txid v)) as [b| |] eqn:R; try discriminate. destruct (zlen b =? 32) eqn:L; [|discriminate]. apply reverse_hex_ok in R.
    exists {| s_txid := b; s_vout := v_vout v; s_script := []; s_seq := spec_sequence lt r |}. split; [|injection E as <-; reflexivity].
    split; [exact R|]. split; [cbn; lia|]. auto.
  - intros (s & (A & B & C & D & E) & ->). apply reverse_hex_ok in A. rewrite A. rewrite B. cbn [Z.eqb Pos.eqb]. unfold lin_of. rewrite C, D, E. reflexivity.
Qed.
Lemma like_locks H vouts outs : Forall vout_typed vouts -> Forall2 (like_pays H) vouts outs ->
  Forall (fun s => 1 <= zlen (s_lock s) <= 252) outs /\ Forall (fun s => 0 <= s_amount s < 2 ^ 64) outs /\ Forall (fun s => is_bytes (s_lock s)) outs.
Proof.
  intros FT F. induction F as [|v s vs ss (A & h & Bh & Lh & S) F IH]; [repeat constructor|]. apply Forall_cons_iff in FT as [[Ta Tm] FT].
  destruct (IH FT) as (X & Y & W). split; [|split]; constructor; auto.
  - destruct S as [[_ ->]|[_ ->]]; [rewrite p2pkh_len by assumption|rewrite p2sh_len by assumption]; lia.
  - rewrite A. exact Tm.
  - destruct S as [[_ ->]|[_ ->]]; [unfold p2pkh_script|unfold p2sh_script]; (apply is_bytes_app; split; [repeat constructor; lia|]; apply is_bytes_app; split; [exact Bh|repeat constructor; lia]).
Qed.
Lemma like_new_iff H vins vouts lt r t : hash_ok H -> Forall vout_typed vouts ->
  like_new H vins vouts lt r = Ok t <-> exists ins outs, Forall2 (spends lt r) vins ins /\ Forall2 (like_pays H) vouts outs /\ t = ltx_of 2 ins outs [] lt.
Proof.
  intros HH FT. unfold like_new.
  assert (I : forall l, mapr (like_in lt r) vins = Ok l <-> exists ins, Forall2 (spends lt r) vins ins /\ l = map lin_of ins).
  { clear. induction vins as [|v vs IH]; intros l; cbn [mapr].
    - split; [intros E; injection E as <-; exists []; split; constructor|]. intros (ins & F & ->). inversion F. reflexivity.
    - split.
      + intros E. apply bind_ok in E as (i & Ei & E). apply bind_ok in E as (t & Et & E). apply like_in_iff in Ei as (s & S & ->). apply IH in Et as (ins & F & ->). assert (l = lin_of s :: map lin_of ins) by congruence. subst l.
        exists (s :: ins). split; [constructor; assumption|reflexivity].
      + intros (ins & F & ->). inversion F as [|? s ? ss S F']; subst. rewrite (proj2 (like_in_iff lt r v (lin_of s))) by eauto. cbn [bind]. rewrite (proj2 (IH (map lin_of ss))) by eauto. reflexivity. }
  assert (O : forall l, mapr (like_out H) vouts = Ok l <-> exists outs, Forall2 (like_pays H) vouts outs /\ l = map (fun o => [lout_of o]) outs).
  { clear - HH FT. induction FT as [|v vs [Tv _] FT IH]; intros l; cbn [mapr].
    - split; [intros E; injection E as <-; exists []; split; constructor|]. intros (ins & F & ->). inversion F. reflexivity.
    - split.
      + intros E. apply bind_ok in E as (i & Ei & E). apply bind_ok in E as (t & Et & E). apply like_out_iff in Ei as (s & S & ->); try assumption. apply IH in Et as (ins & F & ->). assert (l = [lout_of s] :: map (fun o => [lout_of o]) ins) by congruence. subst l.
        exists (s :: ins). split; [constructor; assumption|reflexivity].
      + intros (ins & F & ->). inversion F as [|? s ? ss S F']; subst. rewrite (proj2 (like_out_iff H v [lout_of s] HH Tv)) by eauto. cbn [bind]. rewrite (proj2 (IH (map (fun o => [lout_of o]) ss))) by eauto. reflexivity. }
  assert (C : forall outs, concat (map (fun o => [lout_of o]) outs) = map lout_of outs) by (induction outs as [|o outs IH]; [reflexivity|cbn [map concat app]; rewrite IH; reflexivity]).
  split.
  - intros E. apply bind_ok in E as (li & Ei & E). apply bind_ok in E as (lo & Eo & E). apply I in Ei as (ins & Fi & ->). apply O in Eo as (outs & Fo & ->). rewrite C in E. exists ins, outs. split; [exact Fi|]. split; [exact Fo|]. symmetry. exact (f_equal (fun x => match x with Ok y => y | _ => t end) E).
  - intros (ins & outs & Fi & Fo & ->). rewrite (proj2 (I (map lin_of ins))) by eauto. cbn [bind]. rewrite (proj2 (O (map (fun o => [lout_of o]) outs))) by eauto. cbn [bind]. rewrite C. reflexivity.
Qed.

(** ** Serialisation *)
Lemma in_bytes_of f s : zlen (s_txid s) = 32 -> like_in_bytes f (lin_of s) = Ok (s_txid s ++ le_bytes 4 (s_vout s) ++ u8 (zlen (f (s_script s))) :: f (s_script s) ++ le_bytes 4 (s_seq s)).
Proof. intros L. unfold like_in_bytes, lin_of. cbn [li_txid li_vout li_script li_seq]. rewrite zlen_le_bytes, L. reflexivity. Qed.
Lemma in_bytes_plain s : zlen (s_txid s) = 32 -> zlen (s_script s) <= 255 -> like_in_bytes (fun x => x) (lin_of s) = Ok (wire_spec_in s).
Proof. intros L M. rewrite in_bytes_of by assumption. unfold wire_spec_in, u8. pose proof (zlen_nonneg (s_script s)). rewrite Z.mod_small by lia. reflexivity. Qed.
Lemma out_bytes_plain s : zlen (s_lock s) <= 255 -> like_out_bytes (lout_of s) = Ok (wire_spec_out s).
Proof. intros M. unfold like_out_bytes, lout_of, wire_spec_out, u8. cbn [lo_amount lo_lock]. rewrite zlen_le_bytes. pose proof (zlen_nonneg (s_lock s)). rewrite Z.mod_small by lia. reflexivity. Qed.
(** With the counts modulo 256, the marker and the given witnesses. *)
Definition like_wire (version : Z) (ins : list spec_in) (outs : list spec_out) (marker wits : bytes) (lt : Z) : bytes :=
  le_bytes 4 version ++ marker ++ zlen ins mod 256 :: concat (map wire_spec_in ins) ++ zlen outs mod 256 :: concat (map wire_spec_out outs) ++ wits ++ le_bytes 4 lt.
Definition not_multi (ins : list spec_in) : Prop := match ins with [i] => last (s_script i) 0 <> 0xAE | _ => True end.
Lemma is_multi_of version ins outs ws lt : not_multi ins -> is_multi (ltx_of version ins outs ws lt) = false.
Proof.
  unfold is_multi, ltx_of. cbn [l_vins]. destruct ins as [|i [|j l]]; [reflexivity| |reflexivity]. cbn [map not_multi lin_of li_script]. intros N. destruct (zlen (s_script i) =? 0); [reflexivity|]. cbn [negb andb]. lia.
Qed.
Lemma bytes_of sha version ins outs ws lt wb : 1 <= zlen ins -> 1 <= zlen outs -> not_multi ins ->
  Forall (fun s => zlen (s_txid s) = 32 /\ zlen (s_script s) <= 255) ins -> Forall (fun s => zlen (s_lock s) <= 255) outs -> mapr like_wit_bytes ws = Ok wb ->
  like_bytes sha (ltx_of version ins outs ws lt) = Ok (like_wire version ins outs (if zlen ws =? 0 then [] else [0; 1]) (concat wb) lt).
Proof.
  intros Ni No NM Fi Fo Ew. unfold like_bytes. rewrite is_multi_of by assumption. unfold ltx_of. cbn [l_version l_vins l_vouts l_wit l_locktime]. rewrite !zlen_map.
  replace (zlen ins =? 0) with false by lia. replace (zlen outs =? 0) with false by lia.
  assert (E1 : mapr (like_in_bytes (fun s => s)) (map lin_of ins) = Ok (map wire_spec_in ins)).
  { clear - Fi. induction Fi as [|s ss [A B] F IH]; [reflexivity|]. cbn [map mapr]. rewrite in_bytes_plain by assumption. cbn [bind]. rewrite IH. reflexivity. }
  assert (E2 : mapr like_out_bytes (map lout_of outs) = Ok (map wire_spec_out outs)).
  { clear - Fo. induction Fo as [|s ss A F IH]; [reflexivity|]. cbn [map mapr]. rewrite out_bytes_plain by assumption. cbn [bind]. rewrite IH. reflexivity. }
  rewrite E1. cbn [bind]. rewrite E2. cbn [bind]. rewrite Ew. cbn [bind]. unfold like_wire, u8. reflexivity.
Qed.
Lemma bare_not_multi ins : Forall (fun s => s_script s = []) ins -> not_multi ins.
Proof. intros F. destruct ins as [|i [|j l]]; try exact I. inversion F; subst. cbn. rewrite H1. cbn. lia. Qed.
Lemma like_create_trunc H sha vins vouts lt r hexs : hash_ok H -> Forall vin_typed vins -> Forall vout_typed vouts ->
  like_create H sha vins vouts lt r = Ok hexs <->
  vins <> [] /\ vouts <> [] /\ exists ins outs, Forall2 (spends lt r) vins ins /\ Forall2 (like_pays H) vouts outs /\ hexs = hex_encode (trunc_wire 2 ins outs lt).
Proof.
  intros HH TI TO. unfold like_create.
  assert (W : forall ins outs, Forall2 (spends lt r) vins ins -> Forall2 (like_pays H) vouts outs -> vins <> [] -> vouts <> [] -> like_bytes sha (ltx_of 2 ins outs [] lt) = Ok (trunc_wire 2 ins outs lt)).
  { intros ins outs Fi Fo Ni No. destruct (spends_ok _ _ _ _ TI Fi) as (S1 & _ & _). destruct (like_locks _ _ _ TO Fo) as (L1 & _ & _).
    rewrite (bytes_of sha 2 ins outs [] lt []).
    - unfold like_wire, trunc_wire. reflexivity.
    - rewrite (Forall2_len _ _ _ Fi). apply zlen_pos, Ni.
    - rewrite (Forall2_len _ _ _ Fo). apply zlen_pos, No.
    - apply bare_not_multi. eapply Forall_impl; [|exact S1]. cbn. tauto.
    - eapply Forall_impl; [|exact S1]. cbn. intros s [A B]. rewrite B. split; [exact A|]. cbv. discriminate.
    - eapply Forall_impl; [|exact L1]. cbn. intros; lia.
    - reflexivity. }
  split.
  - intros E. apply bind_ok in E as (t & Et & E). apply bind_ok in E as (b & Eb & E). apply like_new_iff in Et as (ins & outs & Fi & Fo & ->); try assumption.
    assert (Ni : vins <> []). { intros ->. inversion Fi; subst. unfold like_bytes, ltx_of in Eb. cbn [l_vins map] in Eb. discriminate Eb. }
    assert (No : vouts <> []). { intros ->. inversion Fo; subst. unfold like_bytes, ltx_of in Eb. cbn [l_vins l_vouts map] in Eb. destruct (zlen (map lin_of ins) =? 0); discriminate Eb. }
    rewrite (W ins outs Fi Fo Ni No) in Eb. split; [exact Ni|]. split; [exact No|]. exists ins, outs. split; [exact Fi|]. split; [exact Fo|]. congruence.
  - intros (Ni & No & ins & outs & Fi & Fo & ->). rewrite (proj2 (like_new_iff H vins vouts lt r (ltx_of 2 ins outs [] lt) HH TO)) by eauto. cbn [bind]. rewrite W by assumption. reflexivity.
Qed.

(** ** Decoding *)
Lemma decode_in_of s rest : zlen (s_txid s) = 32 -> like_decode_in (wire_spec_in s ++ rest) = Ok (lin_of s, rest).
Proof.
  intros L. unfold like_decode_in, wire_spec_in. rewrite <- !app_assoc. rewrite need_app by assumption. rewrite need_app by apply zlen_le_bytes. cbn [app need1].
  rewrite <- app_assoc. rewrite need_app by reflexivity. rewrite need_app by apply zlen_le_bytes. reflexivity.
Qed.
Lemma decode_out_of s rest : like_decode_out (wire_spec_out s ++ rest) = Ok (lout_of s, rest).
Proof. unfold like_decode_out, wire_spec_out. rewrite <- app_assoc. rewrite need_app by apply zlen_le_bytes. cbn [app need1]. rewrite need_app by reflexivity. reflexivity. Qed.
Lemma readn_map {A B} (read : bytes -> res (B * bytes)) (f : A -> B) (enc : A -> bytes) l rest :
  (forall x r, In x l -> read (enc x ++ r) = Ok (f x, r)) -> readn (length l) read (concat (map enc l) ++ rest) = Ok (map f l, rest).
Proof.
  induction l as [|x l IH]; intros H; [reflexivity|]. cbn [length readn map concat]. rewrite <- app_assoc, H by (left; reflexivity). cbn [bind].
  rewrite IH by (intros; apply H; right; assumption). reflexivity.
Qed.
Lemma readn_inv {A C} (read : bytes -> res (C * bytes)) (f : A -> C) (P : A -> Prop) (enc : A -> bytes) n : 
  (forall b x r, is_bytes b -> read b = Ok (x, r) -> exists s, x = f s /\ P s /\ b = enc s ++ r) ->
  forall b l r, is_bytes b -> readn n read b = Ok (l, r) -> exists ss, l = map f ss /\ Forall P ss /\ length ss = n /\ b = concat (map enc ss) ++ r.
Proof.
  intros I. induction n as [|n IH]; intros b l r B E; cbn [readn] in E.
  - injection E as <- <-. exists []. repeat split; constructor.
  - apply bind_ok in E as ([x r1] & E1 & E). apply bind_ok in E as ([t r2] & E2 & E). injection E as <- <-. destruct (I _ _ _ B E1) as (s & -> & Ps & ->). apply is_bytes_app in B as [_ B].
    destruct (IH _ _ _ B E2) as (ss & -> & Fs & Ls & ->). exists (s :: ss). split; [reflexivity|]. split; [constructor; assumption|]. split; [cbn; lia|]. cbn [map concat]. rewrite <- app_assoc. reflexivity.
Qed.
(** Inputs and outputs with values in the ranges of the format. *)
Definition in_field (s : spec_in) : Prop := is_bytes (s_txid s) /\ zlen (s_txid s) = 32 /\ 0 <= s_vout s < 2 ^ 32 /\ is_bytes (s_script s) /\ zlen (s_script s) <= 255 /\ 0 <= s_seq s < 2 ^ 32.
Definition out_field (s : spec_out) : Prop := 0 <= s_amount s < 2 ^ 64 /\ is_bytes (s_lock s) /\ zlen (s_lock s) <= 255.
Lemma field_of n (b : bytes) : is_bytes b -> zlen b = Z.of_nat n -> b = le_bytes n (le_num b) /\ 0 <= le_num b < 256 ^ Z.of_nat n.
Proof.
  intros B L. pose proof (le_num_bound b B) as Q. rewrite L in Q. split; [|exact Q]. symmetry. assert (length b = n) by (unfold zlen in L; lia). subst n. apply le_bytes_le_num. exact B.
Qed.
Lemma decode_in_inv b i r : is_bytes b -> like_decode_in b = Ok (i, r) -> exists s, i = lin_of s /\ in_field s /\ b = wire_spec_in s ++ r.
Proof.
  intros B E. unfold like_decode_in in E. apply need_inv in E as (txid & b1 & -> & L1 & E); [|lia]. apply is_bytes_app in B as [B1 B].
  apply need_inv in E as (vo & b2 & -> & L2 & E); [|lia]. apply is_bytes_app in B as [B2 B]. apply need1_inv in E as (n & b3 & -> & E). apply Forall_cons_iff in B as [Bn B]. unfold is_byte in Bn.
  apply need_inv in E as (s & b4 & -> & L3 & E); [|lia]. apply is_bytes_app in B as [B3 B]. apply need_inv in E as (sq & b5 & -> & L4 & E); [|lia]. apply is_bytes_app in B as [B4 B].
  destruct (field_of 4 vo B2 L2) as [V1 V2]. destruct (field_of 4 sq B4 L4) as [S1 S2].
  exists {| s_txid := txid; s_vout := le_num vo; s_script := s; s_seq := le_num sq |}. unfold lin_of, in_field, wire_spec_in. cbn [s_txid s_vout s_script s_seq]. rewrite <- V1, <- S1. injection E as <- <-. split; [reflexivity|]. split.
  - split; [exact B1|]. split; [exact L1|]. split; [exact V2|]. split; [exact B3|]. split; [lia|exact S2].
  - rewrite <- L3. rewrite <- !app_assoc. cbn [app]. rewrite <- app_assoc. reflexivity.
Qed.
Lemma decode_out_inv b o r : is_bytes b -> like_decode_out b = Ok (o, r) -> exists s, o = lout_of s /\ out_field s /\ b = wire_spec_out s ++ r.
Proof.
  intros B E. unfold like_decode_out in E. apply need_inv in E as (am & b1 & -> & L1 & E); [|lia]. apply is_bytes_app in B as [B1 B].
  apply need1_inv in E as (n & b3 & -> & E). apply Forall_cons_iff in B as [Bn B]. unfold is_byte in Bn.
  apply need_inv in E as (s & b4 & -> & L3 & E); [|lia]. apply is_bytes_app in B as [B3 B].
  destruct (field_of 8 am B1 L1) as [V1 V2].
  exists {| s_amount := le_num am; s_lock := s |}. unfold lout_of, out_field, wire_spec_out. cbn [s_amount s_lock]. rewrite <- V1. injection E as <- <-. split; [reflexivity|]. split.
  - split; [exact V2|]. split; [exact B3|lia].
  - rewrite <- L3. rewrite <- !app_assoc. reflexivity.
Qed.
(** The decoder on well-formed inputs and outputs, with or without marker, whatever follows. *)
Definition after_outs (segwit : bool) (version : bytes) (ins : list lin) (outs : list lout) (rest : bytes) : res ltx :=
  '(wits, rest) <- (if segwit then like_decode_wits (List.length ins) rest else Ok ([], rest)) ;;
  need 4 rest (fun locktime rest =>
  if negb (zlen rest =? 0) then Err else
  Ok {| l_version := version; l_vins := ins; l_vouts := outs; l_wit := wits; l_locktime := locktime |}).
Lemma decode_prefix version ins outs (segwit : bool) rest : zlen ins <= 255 -> zlen outs <= 255 -> (segwit = false -> 1 <= zlen ins) ->
  Forall (fun s => zlen (s_txid s) = 32) ins ->
  like_decode (le_bytes 4 version ++ (if segwit then [0; 1] else []) ++ zlen ins :: concat (map wire_spec_in ins) ++ zlen outs :: concat (map wire_spec_out outs) ++ rest) =
  after_outs segwit (le_bytes 4 version) (map lin_of ins) (map lout_of outs) rest.
Proof.
  intros Ni No Ns Fi. unfold like_decode. rewrite need_app by apply zlen_le_bytes.
  set (body := concat (map wire_spec_in ins) ++ zlen outs :: concat (map wire_spec_out outs) ++ rest).
  assert (Lb : 1 <= zlen body) by (unfold body; rewrite zlen_app, zlen_cons; pose proof (zlen_nonneg (concat (map wire_spec_in ins))); pose proof (zlen_nonneg (concat (map wire_spec_out outs) ++ rest)); lia).
  pose proof (zlen_nonneg ins). pose proof (zlen_nonneg outs).
  assert (E : forall (k : Z -> list lin -> list lout -> bytes -> res ltx), need1 (zlen ins :: body) (fun nin rest0 => '(ins0, rest1) <- readn (Z.to_nat nin) like_decode_in rest0 ;;
    need1 rest1 (fun nout rest2 => '(outs0, rest3) <- readn (Z.to_nat nout) like_decode_out rest2 ;; k nin ins0 outs0 rest3)) = k (zlen ins) (map lin_of ins) (map lout_of outs) rest).
  { intros k. cbn [need1]. unfold body. replace (Z.to_nat (zlen ins)) with (length ins) by (unfold zlen; lia).
    rewrite (readn_map like_decode_in lin_of wire_spec_in); [|intros x r0 Hx; apply decode_in_of; rewrite Forall_forall in Fi; apply Fi; exact Hx]. cbn [bind need1].
    replace (Z.to_nat (zlen outs)) with (length outs) by (unfold zlen; lia). rewrite (readn_map like_decode_out lout_of wire_spec_out); [|intros x r0 _; apply decode_out_of]. reflexivity. }
  destruct segwit; cbn [app].
  - rewrite !zlen_cons. replace (1 + (1 + (1 + zlen body)) <? 2) with false by lia. change (0 =? 0) with true. cbn [negb Z.eqb Pos.eqb bind].
    rewrite (E (fun nin ins0 outs0 rest3 => '(wits, rest4) <- like_decode_wits (Z.to_nat nin) rest3 ;; need 4 rest4 (fun locktime rest5 => if negb (zlen rest5 =? 0) then Err else Ok {| l_version := le_bytes 4 version; l_vins := ins0; l_vouts := outs0; l_wit := wits; l_locktime := locktime |}))).
    unfold after_outs. rewrite map_length. replace (Z.to_nat (zlen ins)) with (length ins) by (unfold zlen; lia). reflexivity.
  - specialize (Ns eq_refl). rewrite zlen_cons. replace (1 + zlen body <? 2) with false by lia. clearbody body.
    destruct body as [|x body']; [cbv in Lb; lia|]. replace (zlen ins =? 0) with false by lia. cbn [bind].
    refine (eq_trans _ (E (fun nin ins0 outs0 rest3 => after_outs false (le_bytes 4 version) ins0 outs0 rest3))).
    reflexivity.
Qed.
(** ** Witnesses *)
Lemma segwit_int_at script i d l j : segwit_int script i = Ok (d, l, j) -> idx script (i + 1) = Ok l /\ j = i + 34 + (if l =? 33 then 1 else 0).
Proof.
  unfold segwit_int. destruct (idx script i) as [tag| |]; try discriminate. cbn [bind]. destruct (negb (tag =? 2)); [discriminate|].
  destruct (idx script (i + 1)) as [l0| |]; try discriminate. cbn [bind]. cbv zeta. intros E. destruct (l0 =? 33) eqn:E33.
  - destruct (idx script (i + 2)) as [a| |]; try discriminate. cbn [bind] in E.
    destruct (if a =? 0 then Ok false else b <- idx script (i + 2 + 1) ;; Ok (negb (Z.land b 128 =? 128))) as [[]| |]; try discriminate. cbn [bind] in E.
    destruct (slice script (i + 2 + 1) (i + 2 + 1 + 32)); try discriminate. cbn [bind] in E. assert (l0 = l) by congruence. subst l0. rewrite E33. split; [reflexivity|]. assert (j = i + 2 + 1 + 32) by congruence. lia.
  - cbn [bind] in E. destruct (slice script (i + 2) (i + 2 + 32)); try discriminate. cbn [bind] in E. assert (l0 = l) by congruence. subst l0. rewrite E33. split; [reflexivity|]. assert (j = i + 2 + 32) by congruence. lia.
Qed.
Lemma decode_segwit_long R S t pub x : is_bytes (sig_script R S t ++ 33 :: pub) -> zlen R <= 33 -> zlen S <= 33 -> zlen pub = 33 ->
  decode_segwit 1 (sig_script R S t ++ 33 :: pub) = Ok x -> 32 <= zlen R /\ 32 <= zlen S /\ t = 1.
Proof.
  intros B LR LS LP E. pose proof (zlen_nonneg R). pose proof (zlen_nonneg S). set (sc := sig_script R S t ++ 33 :: pub) in *.
  assert (L : zlen sc = zlen R + zlen S + 42) by (unfold sc; rewrite zlen_app, zlen_cons, sig_script_len; lia).
  unfold decode_segwit in E. change (idx sc 0) with (@Ok Z (zlen R + zlen S + 7)) in E. cbn [bind] in E. change (idx sc 1) with (@Ok Z 48) in E. cbn [bind] in E. change (negb (48 =? 48)) with false in E. cbv iota in E.
  change (idx sc 2) with (@Ok Z (zlen R + zlen S + 4)) in E. cbn [bind] in E.
  destruct (segwit_int sc 3) as [[[r rl] i1]| |] eqn:E1; try discriminate. cbn [bind] in E. apply segwit_int_at in E1 as [A1 J1].
  change (idx sc (3 + 1)) with (@Ok Z (zlen R)) in A1. assert (rl = zlen R) by congruence. subst rl.
  destruct (segwit_int sc i1) as [[[s sl] i2]| |] eqn:E2; try discriminate. cbn [bind] in E. apply segwit_int_at in E2 as [A2 J2].
  destruct (idx sc i2) as [ty| |] eqn:A3; try discriminate. cbn [bind] in E. destruct (negb (ty =? 1)) eqn:Ety; [discriminate|].
  destruct (idx sc (i2 + 1)) as [pl| |]; try discriminate. cbn [bind] in E. destruct (negb (pl =? 33)); [discriminate|]. cbv zeta in E.
  destruct (slice sc (i2 + 2) (i2 + 2 + 33)) as [pb| |]; try discriminate. cbn [bind] in E.
  destruct (negb (u8 (zlen R + sl + 4) =? zlen R + zlen S + 4) || negb (u8 (zlen R + zlen S + 4 + 3) =? zlen R + zlen S + 7) || negb (u8 (zlen R + zlen S + 7 + pl + 2) =? u8 (zlen sc))) eqn:C; [discriminate|].
  destruct (negb (i2 + 2 + 33 =? zlen sc)) eqn:C2; [discriminate|].
  assert (Bs : 0 <= sl < 256). { apply idx_ok in A2 as (a & b & Q & _). rewrite Q in B. apply is_bytes_app in B as [_ B]. apply Forall_cons_iff in B as [B _]. exact B. }
  assert (SL : sl = zlen S). { assert (Q : u8 (zlen R + sl + 4) = zlen R + zlen S + 4) by lia. unfold u8 in Q. change (2 ^ 8) with 256 in Q. 
    pose proof (Z.div_mod (zlen R + sl + 4) 256 ltac:(lia)). assert (0 <= (zlen R + sl + 4) / 256 <= 1) by (split; [apply Z.div_pos; lia|]; apply Z.div_le_upper_bound; lia). lia. }
  subst sl. assert (i2 + 35 = zlen R + zlen S + 42) by lia. 
  assert (32 <= zlen R /\ 32 <= zlen S) by (destruct (zlen R =? 33) eqn:Q1, (zlen S =? 33) eqn:Q2; lia).
  split; [lia|]. split; [lia|]. assert (i2 = zlen R + zlen S + 7) by lia.
  assert (A4 : idx sc i2 = Ok t). { unfold sc. rewrite sig_script_head. apply idx_mid. rewrite sig_head_len. assumption. }
  assert (ty = t) by congruence. subst ty. lia.
Qed.
Lemma wide_taken v R : der_int v R -> v < 256 ^ 32 -> 32 <= zlen R -> is_bytes (taken R) /\ length (taken R) = 32%nat /\ wide_int (taken R) = R.
Proof.
  intros D V L. pose proof (der_loose v R D V) as [L33 _]. destruct D as (B & _ & Hv & Hd & M). split; [|split; [apply taken_length; exact L33|]].
  - unfold taken. apply is_bytes_app. split; [apply is_bytes_zeros|]. destruct (length R =? 33)%nat; [|exact B]. destruct R as [|x R]; [exact B|]. apply Forall_cons_iff in B as [_ B]. exact B.
  - unfold taken. unfold zlen in L. replace (32 - length R)%nat with O by lia. cbn [zeros repeat app]. destruct (length R =? 33)%nat eqn:E.
    + destruct R as [|x [|y R]]; [discriminate|discriminate|]. cbn [tl]. assert (x = 0).
      { rewrite be_num_cons in Hv. apply Forall_cons_iff in B as [Bx B]. pose proof (be_num_bound _ B) as Q. replace (zlen (y :: R)) with 32 in * by (unfold zlen; cbn [length] in *; lia). unfold is_byte in Bx. destruct (Z.eq_dec x 0); [assumption|exfalso]. nia. }
      subst x. specialize (M 0 y R eq_refl eq_refl). unfold wide_int. cbn [hd]. replace (128 <=? y) with true by lia. reflexivity.
    + unfold wide_int. replace (128 <=? hd 0 R) with false by lia. reflexivity.
Qed.
Lemma decode_segwit_ok vr vs R S pub : der_int vr R -> vr < 256 ^ 32 -> der_int vs S -> vs < 256 ^ 32 -> 32 <= zlen R -> 32 <= zlen S -> zlen pub = 33 ->
  decode_segwit 1 (sig_script R S 1 ++ 33 :: pub) = Ok (taken R ++ taken S, pub).
Proof.
  intros D1 V1 D2 V2 LR LS LP. destruct (wide_taken _ _ D1 V1 LR) as (B1 & T1 & W1). destruct (wide_taken _ _ D2 V2 LS) as (B2 & T2 & W2).
  assert (LL : length (taken R ++ taken S) = 64%nat) by (rewrite app_length; lia).
  destruct (witness_script_round_trip (taken R ++ taken S) pub) as (sc & E & K); [apply is_bytes_app; split; assumption|exact LL|unfold zlen in LP; lia|].
  destruct (split64 _ LL) as (_ & _ & Q1 & Q2). unfold witness_script in E. rewrite Q1 in E. cbn [bind] in E. rewrite Q2 in E. cbn [bind] in E.
  rewrite firstn_app, T1, Nat.sub_diag, firstn_O, app_nil_r, firstn_all2, skipn_app, T1, Nat.sub_diag, skipn_all2 in E by lia. cbn [app skipn] in E.
  rewrite !witness_trim_ok in E by assumption. cbn [bind] in E. rewrite W1, W2 in E. 
  destruct (der_loose _ _ D1 V1) as [K1 _]. destruct (der_loose _ _ D2 V2) as [K2 _]. rewrite der_wrap_eq in E by assumption. rewrite LP in E. change (u8 33) with 33 in E.
  assert (sc = sig_script R S 1 ++ 33 :: pub) by congruence. subst sc. exact K.
Qed.
(** A witness as the network writes it for a spend by signature and key: none, or two items, the signature with minimal
    integers and a type byte, and a 33-byte key. *)
Record spec_wit := { w_r : Z; w_s : Z; w_R : bytes; w_S : bytes; w_type : Z; w_pub : bytes }.
Definition wit_ok (w : option spec_wit) : Prop :=
  match w with
  | None => True
  | Some w => der_int (w_r w) (w_R w) /\ w_r w < 256 ^ 32 /\ der_int (w_s w) (w_S w) /\ w_s w < 256 ^ 32 /\ is_byte (w_type w) /\ is_bytes (w_pub w) /\ zlen (w_pub w) = 33
  end.
Definition wit_bytes (w : option spec_wit) : bytes :=
  match w with None => [0] | Some w => 2 :: sig_script (w_R w) (w_S w) (w_type w) ++ 33 :: w_pub w end.
Definition wit_shown (w : option spec_wit) : sigpub :=
  match w with None => no_sigpub | Some w => {| sp_sig := taken (w_R w) ++ taken (w_S w); sp_pub := w_pub w |} end.
Definition wit_long (w : option spec_wit) : bool :=
  match w with None => true | Some w => (32 <=? zlen (w_R w)) && (32 <=? zlen (w_S w)) && (w_type w =? 1) end.
Lemma sig_script_bytes R S t : is_bytes R -> is_bytes S -> zlen R <= 33 -> zlen S <= 33 -> is_byte t -> is_bytes (sig_script R S t).
Proof.
  intros B1 B2 L1 L2 Bt. pose proof (zlen_nonneg R). pose proof (zlen_nonneg S). unfold sig_script.
  apply is_bytes_app; split; [repeat (constructor; [unfold is_byte; lia|]); constructor|]. apply is_bytes_app; split; [repeat (constructor; [unfold is_byte; lia|]); constructor|].
  apply is_bytes_app; split; [exact B1|]. apply is_bytes_app; split; [repeat (constructor; [unfold is_byte; lia|]); constructor|]. apply is_bytes_app; split; [exact B2|]. constructor; [exact Bt|constructor].
Qed.
Lemma decode_wit_spec w rest : wit_ok w -> like_decode_wit (wit_bytes w ++ rest) = if wit_long w then Ok ([wit_shown w], rest) else Panic.
Proof.
  intros K. destruct w as [w|]; [|reflexivity]. destruct K as (D1 & V1 & D2 & V2 & Bt & Bp & Lp). unfold like_decode_wit, wit_bytes. cbn [app need1]. change (2 =? 0) with false. change (2 =? 2) with true. cbv iota.
  destruct (der_loose _ _ D1 V1) as [K1 _]. destruct (der_loose _ _ D2 V2) as [K2 _]. pose proof (zlen_nonneg (w_R w)). pose proof (zlen_nonneg (w_S w)).
  set (sc := sig_script (w_R w) (w_S w) (w_type w) ++ 33 :: w_pub w).
  assert (LS : zlen sc = zlen (w_R w) + zlen (w_S w) + 7 + 35) by (unfold sc; rewrite zlen_app, zlen_cons, sig_script_len; lia).
  assert (BS : is_bytes sc). { unfold sc. apply is_bytes_app; split; [apply sig_script_bytes; [apply D1|apply D2|unfold zlen; lia|unfold zlen; lia|exact Bt]|]. constructor; [unfold is_byte; lia|exact Bp]. }
  assert (E : need1 (sc ++ rest) (fun n _ => need (n + 35) (sc ++ rest) (fun s r => match decode_segwit 1 s with Ok (sig, pub) => Ok ([{| sp_sig := sig; sp_pub := pub |}], r) | _ => Panic end))
    = match decode_segwit 1 sc with Ok (sig, pub) => Ok ([{| sp_sig := sig; sp_pub := pub |}], rest) | _ => Panic end).
  { change (need1 (sc ++ rest)) with (fun k : Z -> bytes -> res (list sigpub * bytes) => k (zlen (w_R w) + zlen (w_S w) + 7) (tl (sc ++ rest))). cbv beta. rewrite need_app by exact LS. reflexivity. }
  rewrite E. clear E. destruct (wit_long (Some w)) eqn:Q.
  - cbn [wit_long] in Q. unfold sc. replace (w_type w) with 1 by lia. rewrite (decode_segwit_ok (w_r w) (w_s w)) by (assumption || lia). reflexivity.
  - destruct (decode_segwit 1 sc) as [[g p]| |] eqn:E; try reflexivity. exfalso. apply decode_segwit_long in E; [|exact BS|unfold zlen; lia|unfold zlen; lia|exact Lp]. cbn [wit_long] in Q. lia.
Qed.
Lemma decode_wits_spec ws rest : Forall wit_ok ws -> like_decode_wits (length ws) (concat (map wit_bytes ws) ++ rest) = if forallb wit_long ws then Ok (map wit_shown ws, rest) else Panic.
Proof.
  induction ws as [|w ws IH]; intros F; [reflexivity|]. apply Forall_cons_iff in F as [K F]. cbn [length like_decode_wits map concat forallb]. rewrite <- app_assoc, decode_wit_spec by exact K.
  destruct (wit_long w); [|reflexivity]. cbn [bind andb]. rewrite IH by exact F. destruct (forallb wit_long ws); reflexivity.
Qed.
