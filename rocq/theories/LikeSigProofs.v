(** Lemmas for the signing side of btcLikeTxDriver. *)
From Coq Require Import String ZArith List Bool Lia ZifyBool ZifyNat.
From Verif Require Import Go GoFacts GoFacts2 Rd Base58CheckModel BtcModel BtcSpec BtcProofs BtcTxProofs BtcSigProps SigModel SigDerProps LikeModel LikeProofs LikeProps.
Import ListNotations.
Open Scope Z_scope.
Ltac Zify.zify_post_hook ::= idtac.

(** ** Specification *)
(** The script a segwit signature commits to: the key hash script for a version 0 program of 20 bytes, else the script
    itself, when it does not begin like such a program. *)
Definition like_code (redeem code : bytes) : Prop :=
  (exists h, length h = 20%nat /\ redeem = witness_v0_script h /\ code = p2pkh_script h) \/
  (redeem <> [] /\ redeem <> [0] /\ ~ begins [0; 0x14] redeem /\ code = redeem).
(** The hash for input [n] and the unlock entry afterwards. *)
Definition like_signs (H : bytes -> bytes) (version : Z) (ins : list spec_in) (outs : list spec_out) (lockTime : Z) (n : nat) (u : lunlock) (p : bytes * lunlock) : Prop :=
  exists lock i, hex_decode (lu_lock u) = Ok lock /\ nth_error ins n = Some i /\
  ((exists h, length h = 20%nat /\ lock = p2pkh_script h /\ p = (H (legacy_preimage version ins outs lockTime n lock), u)) \/
   (exists h extra redeem code, length h = 20%nat /\ lock = p2sh_script h ++ extra /\ (length extra = 0%nat \/ length extra = 2%nat) /\
      hex_decode (lu_redeem u) = Ok redeem /\ like_code redeem code /\ p = (H (bip143_preimage H version ins outs lockTime i code (lu_amount u)), u)) \/
   (exists h, length h = 20%nat /\ lock = witness_v0_script h /\ p = (H (bip143_preimage H version ins outs lockTime i (p2pkh_script h) (lu_amount u)), set_redeem (lu_lock u) u))).

(** ** Kinds of script *)
Lemma idx_nth (l : bytes) i : 0 <= i < zlen l -> idx l i = Ok (nth (Z.to_nat i) l 0).
Proof.
  intros R. unfold idx. replace (i <? 0) with false by lia. rewrite (nth_error_nth' l 0) by (unfold zlen in R; lia). reflexivity.
Qed.
Lemma idx_out {A} (l : list A) i : zlen l <= i -> idx l i = Panic.
Proof. intros R. pose proof (zlen_nonneg l). unfold idx. replace (i <? 0) with false by lia. rewrite (proj2 (nth_error_None l (Z.to_nat i))) by (unfold zlen in R; lia). reflexivity. Qed.
Definition kind_ok (l : bytes) (ty : res (option like_type)) : Prop :=
  match ty with
  | Ok (Some LikeP2PKH) => exists h, length h = 20%nat /\ l = p2pkh_script h
  | Ok (Some LikeP2SH) => exists h extra, length h = 20%nat /\ l = p2sh_script h ++ extra
  | Ok (Some LikeBech32) => begins [0; 0x14] l
  | Ok None => (forall h, length h = 20%nat -> l <> p2pkh_script h) /\ (forall h extra, length h = 20%nat -> l <> p2sh_script h ++ extra) /\ ~ begins [0; 0x14] l
  | Err => False
  | Panic => (begins [0x76; 0xA9; 0x14] l /\ zlen l <> 25) \/ (begins [0xA9; 0x14] l /\ zlen l = 22)
  end.
Lemma begins_nth2 a b l : 2 <= zlen l -> (nth 0 l 0 =? a) && (nth 1 l 0 =? b) = true <-> begins [a; b] l.
Proof.
  intros L. destruct l as [|x [|y l]]; [cbv in L; congruence|cbv in L; congruence|]. cbn [nth]. split.
  - intros E. exists l. cbn [app]. f_equal; [|f_equal]; lia.
  - intros (r & E). cbn [app] in E. assert (x = a /\ y = b) by (split; congruence). lia.
Qed.
Lemma begins_nth3 a b c l : 3 <= zlen l -> (nth 0 l 0 =? a) && (nth 1 l 0 =? b) && (nth 2 l 0 =? c) = true <-> begins [a; b; c] l.
Proof.
  intros L. destruct l as [|x [|y [|z l]]]; [cbv in L; congruence|cbv in L; congruence|cbv in L; congruence|]. cbn [nth]. split.
  - intros E. exists l. cbn [app]. f_equal; [|f_equal; [|f_equal]]; lia.
  - intros (r & E). cbn [app] in E. assert (x = a /\ y = b /\ z = c) by (split; [|split]; congruence). lia.
Qed.
Lemma p2sh_front l : 23 <= zlen l -> (nth 0 l 0 =? 0xA9) && (nth 1 l 0 =? 0x14) && (nth 22 l 0 =? 0x87) = true <-> exists h extra, length h = 20%nat /\ l = p2sh_script h ++ extra.
Proof.
  intros L. assert (LF : zlen (firstn 23 l) = 23) by (unfold zlen in *; rewrite firstn_length; lia).
  assert (N : forall k, (k < 23)%nat -> nth k (firstn 23 l) 0 = nth k l 0).
  { intros k Hk. rewrite <- (firstn_skipn 23 l) at 2. rewrite app_nth1 by (unfold zlen in LF; lia). reflexivity. }
  pose proof (is_p2sh (firstn 23 l)) as Q. rewrite !N in Q by lia. rewrite LF in Q. change (23 =? 23) with true in Q. cbn [andb] in Q. split.
  - intros E. apply Q in E as (h & Lh & E). exists h, (skipn 23 l). split; [exact Lh|]. rewrite <- E. symmetry. apply firstn_skipn.
  - intros (h & extra & Lh & ->). apply Q. exists h. split; [exact Lh|]. rewrite firstn_app, firstn_all2 by (unfold p2sh_script; rewrite !app_length; cbn [length]; lia).
    replace (23 - length (p2sh_script h))%nat with O by (unfold p2sh_script; rewrite !app_length; cbn [length]; lia). apply app_nil_r.
Qed.
Lemma kind_of l : zlen l = 22 \/ zlen l = 23 \/ zlen l = 25 -> kind_ok l (like_script_type l).
Proof.
  intros L. unfold like_script_type. cbn [all_at]. rewrite !(idx_nth l 0), !(idx_nth l 1), !(idx_nth l 2) by lia. change (Z.to_nat 0) with 0%nat. change (Z.to_nat 1) with 1%nat. change (Z.to_nat 2) with 2%nat. cbn [bind].
  pose proof (begins_nth2 0 0x14 l ltac:(lia)) as B0. pose proof (begins_nth2 0xA9 0x14 l ltac:(lia)) as B1. pose proof (begins_nth3 0x76 0xA9 0x14 l ltac:(lia)) as B2.
  assert (NP : zlen l <> 25 -> forall h, length h = 20%nat -> l <> p2pkh_script h) by (intros N h Lh ->; rewrite p2pkh_len in N by exact Lh; lia).
  assert (NS : (nth 0 l 0 =? 169) && (nth 1 l 0 =? 20) = false -> forall h extra, length h = 20%nat -> l <> p2sh_script h ++ extra).
  { intros Q h extra Lh ->. unfold p2sh_script in Q. cbn in Q. discriminate. }
  assert (N0 : (nth 0 l 0 =? 0) && (nth 1 l 0 =? 20) = false -> ~ begins [0; 20] l) by (intros Q W; apply B0 in W; congruence).
  destruct L as [L|[L|L]].
  - rewrite (idx_out l 23), (idx_out l 22) by lia. cbn [bind].
    destruct (nth 0 l 0 =? 118) eqn:A1; cbn [bind]; [destruct (nth 1 l 0 =? 169) eqn:A2; cbn [bind]; [destruct (nth 2 l 0 =? 20) eqn:A3; cbn [bind]|]|].
    + left. split; [apply B2; reflexivity|lia].
    + replace (nth 0 l 0 =? 169) with false in * by lia. cbn [bind]. replace (nth 0 l 0 =? 0) with false in * by lia. cbn [bind kind_ok andb] in *. split; [apply NP; lia|]. split; [apply NS; reflexivity|apply N0; reflexivity].
    + replace (nth 0 l 0 =? 169) with false in * by lia. cbn [bind]. replace (nth 0 l 0 =? 0) with false in * by lia. cbn [bind kind_ok andb] in *. split; [apply NP; lia|]. split; [apply NS; reflexivity|apply N0; reflexivity].
    + destruct (nth 0 l 0 =? 169) eqn:A4; cbn [bind]; [destruct (nth 1 l 0 =? 20) eqn:A5; cbn [bind]|].
      * right. split; [apply B1; reflexivity|exact L].
      * replace (nth 0 l 0 =? 0) with false in * by lia. cbn [bind kind_ok andb] in *. split; [apply NP; lia|]. split; [apply NS; reflexivity|apply N0; reflexivity].
      * destruct (nth 0 l 0 =? 0) eqn:A6; cbn [bind]; [destruct (nth 1 l 0 =? 20) eqn:A5; cbn [bind]|]; cbn [bind kind_ok andb] in *.
        -- apply B0. reflexivity.
        -- split; [apply NP; lia|]. split; [apply NS; reflexivity|apply N0; reflexivity].
        -- split; [apply NP; lia|]. split; [apply NS; reflexivity|apply N0; reflexivity].
  - rewrite (idx_out l 23) by lia. rewrite !(idx_nth l 22) by lia. change (Z.to_nat 22) with 22%nat. cbn [bind]. pose proof (p2sh_front l ltac:(lia)) as PS.
    destruct (nth 0 l 0 =? 118) eqn:A1; cbn [bind]; [destruct (nth 1 l 0 =? 169) eqn:A2; cbn [bind]; [destruct (nth 2 l 0 =? 20) eqn:A3; cbn [bind]|]|].
    + left. split; [apply B2; reflexivity|lia].
    + replace (nth 0 l 0 =? 169) with false in * by lia. cbn [bind]. replace (nth 0 l 0 =? 0) with false in * by lia. cbn [bind kind_ok andb] in *. split; [apply NP; lia|]. split; [apply NS; reflexivity|apply N0; reflexivity].
    + replace (nth 0 l 0 =? 169) with false in * by lia. cbn [bind]. replace (nth 0 l 0 =? 0) with false in * by lia. cbn [bind kind_ok andb] in *. split; [apply NP; lia|]. split; [apply NS; reflexivity|apply N0; reflexivity].
    + destruct (nth 0 l 0 =? 169) eqn:A4; cbn [bind]; [destruct (nth 1 l 0 =? 20) eqn:A5; cbn [bind]; [destruct (nth 22 l 0 =? 135) eqn:A7; cbn [bind]|]|].
      * apply PS. reflexivity.
      * replace (nth 0 l 0 =? 0) with false in * by lia. cbn [bind kind_ok andb] in *. split; [apply NP; lia|]. split; [|apply N0; reflexivity]. intros h e Lh W. assert (false = true) by (apply PS; eauto). discriminate.
      * replace (nth 0 l 0 =? 0) with false in * by lia. cbn [bind kind_ok andb] in *. split; [apply NP; lia|]. split; [apply NS; reflexivity|apply N0; reflexivity].
      * destruct (nth 0 l 0 =? 0) eqn:A6; cbn [bind]; [destruct (nth 1 l 0 =? 20) eqn:A5; cbn [bind]|]; cbn [bind kind_ok andb] in *.
        -- apply B0. reflexivity.
        -- split; [apply NP; lia|]. split; [apply NS; reflexivity|apply N0; reflexivity].
        -- split; [apply NP; lia|]. split; [apply NS; reflexivity|apply N0; reflexivity].
  - rewrite !(idx_nth l 22), !(idx_nth l 23), !(idx_nth l 24) by lia. change (Z.to_nat 22) with 22%nat. change (Z.to_nat 23) with 23%nat. change (Z.to_nat 24) with 24%nat. cbn [bind].
    pose proof (p2sh_front l ltac:(lia)) as PS. pose proof (is_p2pkh l) as PK. rewrite L in PK. change (25 =? 25) with true in PK. cbn [andb] in PK.
    destruct ((nth 0 l 0 =? 118) && (nth 1 l 0 =? 169) && (nth 2 l 0 =? 20) && (nth 23 l 0 =? 136) && (nth 24 l 0 =? 172)) eqn:K.
    + replace (nth 0 l 0 =? 118) with true by lia. replace (nth 1 l 0 =? 169) with true by lia. replace (nth 2 l 0 =? 20) with true by lia. replace (nth 23 l 0 =? 136) with true by lia. replace (nth 24 l 0 =? 172) with true by lia. cbn [bind kind_ok]. apply PK. reflexivity.
    + assert (NK : forall h, length h = 20%nat -> l <> p2pkh_script h) by (intros h Lh W; assert (false = true) by (apply PK; eauto); discriminate).
      match goal with |- kind_ok l (bind ?A _) => replace A with (@Ok bool false) end.
      2: { destruct (nth 0 l 0 =? 118); [|reflexivity]. destruct (nth 1 l 0 =? 169); [|reflexivity]. destruct (nth 2 l 0 =? 20); [|reflexivity]. destruct (nth 23 l 0 =? 136); [|reflexivity]. cbn [andb] in K. cbn [bind]. rewrite K. reflexivity. }
      cbn [bind]. destruct (nth 0 l 0 =? 169) eqn:A4; cbn [bind]; [destruct (nth 1 l 0 =? 20) eqn:A5; cbn [bind]; [destruct (nth 22 l 0 =? 135) eqn:A7; cbn [bind]|]|].
      * apply PS. reflexivity.
      * replace (nth 0 l 0 =? 0) with false in * by lia. cbn [bind kind_ok andb] in *. split; [exact NK|]. split; [|apply N0; reflexivity]. intros h e Lh W. assert (false = true) by (apply PS; eauto). discriminate.
      * replace (nth 0 l 0 =? 0) with false in * by lia. cbn [bind kind_ok andb] in *. split; [exact NK|]. split; [apply NS; reflexivity|apply N0; reflexivity].
      * destruct (nth 0 l 0 =? 0) eqn:A6; cbn [bind]; [destruct (nth 1 l 0 =? 20) eqn:A5; cbn [bind]|]; cbn [bind kind_ok andb] in *.
        -- apply B0. reflexivity.
        -- split; [exact NK|]. split; [apply NS; reflexivity|apply N0; reflexivity].
        -- split; [exact NK|]. split; [apply NS; reflexivity|apply N0; reflexivity].
Qed.
Ltac list20 h L := do 20 (destruct h as [|? h]; [discriminate L|]); destruct h as [|? h]; [|discriminate L].
Lemma type_p2pkh h : length h = 20%nat -> like_script_type (p2pkh_script h) = Ok (Some LikeP2PKH).
Proof. intros L. list20 h L. reflexivity. Qed.
Lemma type_p2sh h extra : length h = 20%nat -> like_script_type (p2sh_script h ++ extra) = Ok (Some LikeP2SH).
Proof. intros L. list20 h L. reflexivity. Qed.
Lemma type_wpkh l : begins [0; 0x14] l -> like_script_type l = Ok (Some LikeBech32).
Proof. intros (r & ->). reflexivity. Qed.
Lemma code_iff r code : is_bytes r -> script_code r = Ok code <-> like_code r code.
Proof.
  intros B. unfold script_code, like_code. destruct r as [|a r].
  - change (idx (@nil Z) 0) with (@Panic Z). split; [discriminate|]. intros [(h & _ & E & _)|(N & _)]; [discriminate E|exfalso; apply N; reflexivity].
  - change (idx (a :: r) 0) with (Ok a). cbn [bind]. destruct (a =? 0) eqn:A.
    + assert (a = 0) by lia. subst a. destruct r as [|b r].
      * change (idx [0] 1) with (@Panic Z). split; [discriminate|]. intros [(h & _ & E & _)|(_ & N & _)]; [discriminate E|exfalso; apply N; reflexivity].
      * change (idx (0 :: b :: r) 1) with (Ok b). cbn [bind]. destruct (b =? 20) eqn:Bb.
        -- assert (b = 20) by lia. subst b. rewrite (slice_from_post [0; 20] r) by reflexivity. cbn [bind]. destruct (zlen r =? 20) eqn:L; cbn [negb].
           ++ split; [intros E; left; exists r; assert (LL : length r = 20%nat) by (unfold zlen in L; lia); split; [exact LL|]; split; [unfold witness_v0_script; replace (zlen r) with 20 by lia; reflexivity|]; replace (zlen r) with 20 in E by lia; change (u8 20) with 20 in E; unfold p2pkh_script; congruence|].
              intros [(h & Lh & E & ->)|(_ & _ & N & _)]; [|exfalso; apply N; exists r; reflexivity]. unfold witness_v0_script in E. cbn [app] in E. assert (r = h) by congruence. subst h. replace (zlen r) with 20 by lia. reflexivity.
           ++ split; [discriminate|]. intros [(h & Lh & E & ->)|(_ & _ & N & _)]; [|exfalso; apply N; exists r; reflexivity]. unfold witness_v0_script in E. cbn [app] in E. assert (r = h) by congruence. subst h. unfold zlen in L. lia.
        -- split; [intros E; right; split; [discriminate|]; split; [discriminate|]; split; [intros (x & E1); cbn [app] in E1; assert (b = 20) by congruence; lia|congruence]|].
           intros [(h & Lh & E & ->)|(_ & _ & N & ->)]; [|reflexivity]. unfold witness_v0_script in E. cbn [app] in E. assert (b = zlen h) by congruence. unfold zlen in *. lia.
    + cbn [bind]. split; [intros E; right; split; [discriminate|]; split; [intros Q; assert (a = 0) by congruence; lia|]; split; [intros (x & E1); cbn [app] in E1; assert (a = 0) by congruence; lia|congruence]|].
      intros [(h & Lh & E & ->)|(_ & _ & N & ->)]; [|reflexivity]. unfold witness_v0_script in E. cbn [app] in E. assert (a = 0) by congruence. lia.
Qed.
Lemma code_panic r : script_code r = Panic <-> r = [] \/ r = [0].
Proof.
  unfold script_code. destruct r as [|a r]; [split; [intros _; left; reflexivity|reflexivity]|]. change (idx (a :: r) 0) with (Ok a). cbn [bind]. destruct (a =? 0) eqn:A.
  - assert (a = 0) by lia. subst a. destruct r as [|b r]; [split; [intros _; right; reflexivity|reflexivity]|]. change (idx (0 :: b :: r) 1) with (Ok b). cbn [bind]. destruct (b =? 20) eqn:Bb.
    + assert (b = 20) by lia. subst b. rewrite (slice_from_post [0; 20] r) by reflexivity. cbn [bind]. destruct (zlen r =? 20); cbn [negb]; (split; [discriminate|intros [Q|Q]; discriminate Q]).
    + split; [discriminate|intros [Q|Q]; discriminate Q].
  - cbn [bind]. split; [discriminate|]. intros [Q|Q]; [discriminate Q|]. assert (a = 0) by congruence. lia.
Qed.

(** ** Messages *)
Definition strip_in (s : spec_in) : spec_in := {| s_txid := s_txid s; s_vout := s_vout s; s_script := []; s_seq := s_seq s |}.
Lemma bare_of ins : map (set_script []) (map lin_of ins) = map lin_of (map strip_in ins).
Proof. rewrite !map_map. reflexivity. Qed.
Lemma upd_at script ins : forall k n, upd (map lin_of (map strip_in ins)) n (set_script script) = map lin_of (map (at_step (k + n) script) (combine (seq k (length ins)) ins)).
Proof.
  induction ins as [|s ins IH]; intros k n; [reflexivity|]. cbn [length seq combine map upd]. destruct n as [|n].
  - rewrite Nat.add_0_r. f_equal.
    + unfold at_step, lin_of, set_script. cbn [fst snd s_txid s_vout s_script s_seq li_txid li_vout li_seq strip_in]. rewrite Nat.eqb_refl. reflexivity.
    + rewrite !map_map. assert (G : forall m j, (k < j)%nat -> map (fun x => lin_of (strip_in x)) m = map (fun x => lin_of (at_step k script x)) (combine (seq j (length m)) m)).
      { clear. induction m as [|s m IHm]; intros j Hj; [reflexivity|]. cbn [length seq combine map]. f_equal; [|apply IHm; lia].
        unfold at_step, lin_of. cbn [fst snd s_txid s_vout s_script s_seq strip_in]. replace (Nat.eqb j k) with false by (symmetry; apply Nat.eqb_neq; lia). reflexivity. }
      apply G. lia.
  - f_equal.
    + unfold at_step, lin_of. cbn [fst snd s_txid s_vout s_script s_seq strip_in]. replace (Nat.eqb k (k + S n)) with false by (symmetry; apply Nat.eqb_neq; lia). reflexivity.
    + rewrite (IH (S k) n). do 2 f_equal. f_equal. lia.
Qed.
Lemma upd_only n script ins : upd (map lin_of (map strip_in ins)) n (set_script script) = map lin_of (spec_scripts_only_at n script ins).
Proof. rewrite (upd_at script ins 0 n). reflexivity. Qed.
Lemma scripts_not_multi n script ins : last script 0 <> 0xAE -> not_multi (spec_scripts_only_at n script ins).
Proof.
  intros N. unfold spec_scripts_only_at. destruct ins as [|i [|j l]]; [exact I| |exact I]. cbn [length seq combine map not_multi fst snd s_script]. destruct (Nat.eqb 0 n); [exact N|]. cbn. lia.
Qed.
Lemma like_legacy sha version ins outs lt n script : 1 <= zlen ins <= 252 -> 1 <= zlen outs <= 252 -> zlen script <= 252 -> last script 0 <> 0xAE ->
  Forall (fun s => zlen (s_txid s) = 32) ins -> Forall (fun s => zlen (s_lock s) <= 252) outs ->
  like_bytes sha (set_ins (upd (map lin_of (map strip_in ins)) n (set_script script)) (ltx_of version ins outs [] lt)) = Ok (consensus_tx version (spec_scripts_only_at n script ins) outs lt).
Proof.
  intros Ni No Ls Nm Fi Fo. rewrite upd_only. destruct (scripts_facts n script ins Fi Ls) as [LL FF].
  change (set_ins (map lin_of (spec_scripts_only_at n script ins)) (ltx_of version ins outs [] lt)) with (ltx_of version (spec_scripts_only_at n script ins) outs [] lt).
  rewrite (bytes_of sha version _ outs [] lt []); [|lia|lia|apply scripts_not_multi; exact Nm|eapply Forall_impl; [|exact FF]; cbn; intros; lia|eapply Forall_impl; [|exact Fo]; cbn; intros; lia|reflexivity].
  rewrite <- wire_is_consensus; [|lia|lia|eapply Forall_impl; [|exact FF]; cbn; intros; lia|exact Fo]. unfold like_wire, wire_spec_tx. rewrite LL. rewrite !Z.mod_small by lia. reflexivity.
Qed.
Lemma like_bip143 H version ins ins' outs lt redeem r code i amount : map strip_in ins' = map strip_in ins -> hex_decode redeem = Ok r -> script_code r = Ok code -> zlen code <= 252 -> Forall (fun s => zlen (s_lock s) <= 252) outs ->
  (b <- like_segwit_bytes H (ltx_of version ins' outs [] lt) redeem (lin_of (strip_in i)) amount ;; Ok (b ++ le32 1)) = Ok (bip143_preimage H version ins outs lt i code amount).
Proof.
  intros Ei Er Ec L Fo. unfold like_segwit_bytes. rewrite Er. cbn [bind]. rewrite Ec. cbn [bind]. pose proof (zlen_nonneg code).
  assert (EP : like_prevouts (ltx_of version ins' outs [] lt) = concat (map (fun i => s_txid i ++ le_bytes 4 (s_vout i)) ins)).
  { transitivity (concat (map (fun i => s_txid i ++ le_bytes 4 (s_vout i)) (map strip_in ins'))); [unfold like_prevouts, ltx_of; cbn [l_vins]; rewrite !map_map; reflexivity|]. rewrite Ei, map_map. reflexivity. }
  assert (ES : like_sequences (ltx_of version ins' outs [] lt) = concat (map (fun i => le_bytes 4 (s_seq i)) ins)).
  { transitivity (concat (map (fun i => le_bytes 4 (s_seq i)) (map strip_in ins'))); [unfold like_sequences, ltx_of; cbn [l_vins]; rewrite !map_map; reflexivity|]. rewrite Ei, map_map. reflexivity. }
  assert (EO : like_outputs (ltx_of version ins' outs [] lt) = concat (map consensus_out outs)).
  { unfold like_outputs, ltx_of. cbn [l_vouts]. rewrite map_map. f_equal. apply map_ext_in. intros s Hs. rewrite Forall_forall in Fo. pose proof (Fo s Hs) as Q. cbn beta in Q. pose proof (zlen_nonneg (s_lock s)). unfold consensus_out. rewrite compact_small by lia. cbn [lout_of lo_amount lo_lock]. rewrite u8_small by lia. reflexivity. }
  rewrite EP, ES, EO. unfold bip143_preimage. rewrite compact_small by exact L. rewrite u8_small by lia. cbn [lin_of strip_in s_txid s_vout s_seq li_txid li_vout li_seq ltx_of l_version l_locktime].
  rewrite <- !app_assoc. cbn [app]. rewrite <- !app_assoc. reflexivity.
Qed.
Definition redeem_small (u : lunlock) : Prop := forall r, hex_decode (lu_redeem u) = Ok r -> zlen r <= 252.
Lemma code_small r code : zlen r <= 252 -> like_code r code -> zlen code <= 252.
Proof. intros L [(h & Lh & _ & ->)|(_ & _ & _ & ->)]; [rewrite p2pkh_len by exact Lh; lia|exact L]. Qed.
Lemma wpkh_begins h : length h = 20%nat -> begins [0; 0x14] (witness_v0_script h).
Proof. intros L. exists h. unfold witness_v0_script, zlen. rewrite L. reflexivity. Qed.
Lemma p2pkh_last h : last (p2pkh_script h) 0 <> 0xAE.
Proof. unfold p2pkh_script. rewrite app_assoc. change [0x88; 0xAC] with ([0x88] ++ [0xAC]). rewrite app_assoc, last_last. lia. Qed.
Lemma hash_iff H sha version ins outs lt n u p : 1 <= zlen ins <= 252 -> 1 <= zlen outs <= 252 -> Forall (fun s => zlen (s_txid s) = 32) ins -> Forall (fun s => zlen (s_lock s) <= 252) outs -> redeem_small u ->
  like_hash H sha (ltx_of version ins outs [] lt) n u = Ok p <-> like_signs H version ins outs lt n u p.
Proof.
  intros Ni No Fi Fo Ru. unfold like_hash, like_signs. change (l_vins (ltx_of version ins outs [] lt)) with (map lin_of ins). rewrite bare_of.
  change (set_ins (map lin_of (map strip_in ins)) (ltx_of version ins outs [] lt)) with (ltx_of version (map strip_in ins) outs [] lt).
  assert (SS : map strip_in (map strip_in ins) = map strip_in ins) by (rewrite map_map; reflexivity).
  split.
  - intros E. apply bind_ok in E as (l & El & E). destruct (hex_decode_bytes _ _ El) as [Bl _].
    destruct (negb (zlen l =? 22) && negb (zlen l =? 23) && negb (zlen l =? 25)) eqn:LL; [discriminate|]. assert (L3 : zlen l = 22 \/ zlen l = 23 \/ zlen l = 25) by lia.
    pose proof (kind_of l L3) as K. apply bind_ok in E as (ty & Ety & E). rewrite Ety in K. rewrite !nth_error_map in E. destruct (nth_error ins n) as [i|] eqn:En; cbn [option_map] in E; [|discriminate].
    exists l, i. split; [exact El|]. split; [reflexivity|]. destruct ty as [[]|]; cbn [kind_ok] in K; [| | |discriminate].
    + destruct K as (h & Lh & ->). left. exists h. split; [exact Lh|]. split; [reflexivity|]. rewrite like_legacy in E by first [assumption | apply p2pkh_last | (rewrite p2pkh_len by exact Lh; lia)]. cbn [bind] in E. unfold legacy_preimage. change (le_bytes 4 1) with (le32 1). congruence.
    + destruct K as (h & extra & Lh & ->). right. left. apply bind_ok in E as (b & Eb & E). pose proof Eb as Eb0. unfold like_segwit_bytes in Eb0. apply bind_ok in Eb0 as (r & Er & Eb0). apply bind_ok in Eb0 as (code & Ec & _).
      destruct (hex_decode_bytes _ _ Er) as [Br _]. pose proof (proj1 (code_iff r code Br) Ec) as Lc. exists h, extra, r, code. split; [exact Lh|]. split; [reflexivity|]. split.
      { rewrite zlen_app, p2sh_len in L3 by exact Lh. unfold zlen in L3. lia. }
      split; [exact Er|]. split; [exact Lc|]. pose proof (like_bip143 H version ins (map strip_in ins) outs lt (lu_redeem u) r code i (lu_amount u) SS Er Ec (code_small _ _ (Ru r Er) Lc) Fo) as M. rewrite Eb in M. cbn [bind] in M.
      assert (M' : b ++ le32 1 = bip143_preimage H version ins outs lt i code (lu_amount u)) by exact (f_equal (fun x => match x with Ok y => y | _ => [] end) M). rewrite M' in E. congruence.
    + right. right. apply bind_ok in E as (b & Eb & E). pose proof Eb as Eb0. unfold like_segwit_bytes in Eb0. apply bind_ok in Eb0 as (r & Er & Eb0). apply bind_ok in Eb0 as (code & Ec & _). assert (r = l) by congruence. subst r.
      pose proof (proj1 (code_iff l code Bl) Ec) as Lc. destruct Lc as [(h & Lh & -> & ->)|(_ & _ & N & _)]; [|contradiction]. exists h. split; [exact Lh|]. split; [reflexivity|].
      pose proof (like_bip143 H version ins (map strip_in ins) outs lt (lu_lock u) _ _ i (lu_amount u) SS Er Ec ltac:(rewrite p2pkh_len by exact Lh; lia) Fo) as M. rewrite Eb in M. cbn [bind] in M.
      assert (M' : b ++ le32 1 = bip143_preimage H version ins outs lt i (p2pkh_script h) (lu_amount u)) by exact (f_equal (fun x => match x with Ok y => y | _ => [] end) M). rewrite M' in E. congruence.
  - intros (l & i & El & En & Q). rewrite El. cbn [bind]. rewrite !nth_error_map, En. cbn [option_map]. destruct (hex_decode_bytes _ _ El) as [Bl _].
    destruct Q as [(h & Lh & -> & ->)|[(h & extra & r & code & Lh & -> & Le & Er & Lc & ->)|(h & Lh & -> & ->)]].
    + rewrite p2pkh_len by exact Lh. cbn [Z.eqb Pos.eqb negb andb]. rewrite type_p2pkh by exact Lh. cbn [bind]. rewrite like_legacy by first [assumption | apply p2pkh_last | (rewrite p2pkh_len by exact Lh; lia)]. reflexivity.
    + rewrite zlen_app, p2sh_len by exact Lh. replace (negb (23 + zlen extra =? 22) && negb (23 + zlen extra =? 23) && negb (23 + zlen extra =? 25)) with false by (unfold zlen; lia).
      rewrite type_p2sh by exact Lh. cbn [bind]. destruct (hex_decode_bytes _ _ Er) as [Br _].
      pose proof (like_bip143 H version ins (map strip_in ins) outs lt (lu_redeem u) r code i (lu_amount u) SS Er (proj2 (code_iff r code Br) Lc) (code_small _ _ (Ru r Er) Lc) Fo) as M.
      apply bind_ok in M as (b & Eb & M). rewrite Eb. cbn [bind]. assert (M' : b ++ le32 1 = bip143_preimage H version ins outs lt i code (lu_amount u)) by exact (f_equal (fun x => match x with Ok y => y | _ => [] end) M). rewrite M'. reflexivity.
    + rewrite wpkh_len by exact Lh. cbn [Z.eqb Pos.eqb negb andb]. rewrite type_wpkh by (apply wpkh_begins; exact Lh). cbn [bind].
      pose proof (like_bip143 H version ins (map strip_in ins) outs lt (lu_lock u) _ _ i (lu_amount u) SS El (code_wpkh h Lh) ltac:(rewrite p2pkh_len by exact Lh; lia) Fo) as M.
      apply bind_ok in M as (b & Eb & M). rewrite Eb. cbn [bind]. assert (M' : b ++ le32 1 = bip143_preimage H version ins outs lt i (p2pkh_script h) (lu_amount u)) by exact (f_equal (fun x => match x with Ok y => y | _ => [] end) M). rewrite M'. reflexivity.
Qed.
(** When making the hash panics. *)
Definition like_hash_trap (u : lunlock) : Prop :=
  exists lock, hex_decode (lu_lock u) = Ok lock /\
  ((begins [0x76; 0xA9; 0x14] lock /\ (zlen lock = 22 \/ zlen lock = 23)) \/ (begins [0xA9; 0x14] lock /\ zlen lock = 22) \/
   (exists h extra, length h = 20%nat /\ lock = p2sh_script h ++ extra /\ (length extra = 0%nat \/ length extra = 2%nat) /\ (hex_decode (lu_redeem u) = Ok [] \/ hex_decode (lu_redeem u) = Ok [0]))).
Lemma segwit_panic H t redeem i amount : like_segwit_bytes H t redeem i amount = Panic <-> hex_decode redeem = Ok [] \/ hex_decode redeem = Ok [0].
Proof.
  unfold like_segwit_bytes. destruct (hex_decode redeem) as [r| |] eqn:Er; cbn [bind].
  - destruct (script_code r) as [c| |] eqn:Ec; cbn [bind]; (split; [|]).
    + discriminate. + intros Q. assert (P : script_code r = Panic) by (apply code_panic; destruct Q; [left|right]; congruence). congruence.
    + discriminate. + intros Q. assert (P : script_code r = Panic) by (apply code_panic; destruct Q; [left|right]; congruence). congruence.
    + intros _. apply code_panic in Ec. destruct Ec as [-> | ->]; [left|right]; reflexivity. + reflexivity.
  - split; [discriminate|]. intros [Q|Q]; discriminate Q.
  - exfalso. exact (hex_decode_not_panic _ Er).
Qed.
Lemma hash_panic H sha version ins outs lt n u : 1 <= zlen ins <= 252 -> 1 <= zlen outs <= 252 -> Forall (fun s => zlen (s_txid s) = 32) ins -> Forall (fun s => zlen (s_lock s) <= 252) outs -> (n < length ins)%nat ->
  like_hash H sha (ltx_of version ins outs [] lt) n u = Panic <-> like_hash_trap u.
Proof.
  intros Ni No Fi Fo Hn. unfold like_hash, like_hash_trap. change (l_vins (ltx_of version ins outs [] lt)) with (map lin_of ins). rewrite bare_of.
  change (set_ins (map lin_of (map strip_in ins)) (ltx_of version ins outs [] lt)) with (ltx_of version (map strip_in ins) outs [] lt).
  destruct (hex_decode (lu_lock u)) as [l| |] eqn:El; cbn [bind]; [|split; [discriminate|intros (l & Q & _); discriminate Q]|exfalso; exact (hex_decode_not_panic _ El)].
  destruct (hex_decode_bytes _ _ El) as [Bl _]. rewrite !nth_error_map. destruct (nth_error ins n) as [i|] eqn:En; [|apply nth_error_None in En; lia]. cbn [option_map].
  destruct (negb (zlen l =? 22) && negb (zlen l =? 23) && negb (zlen l =? 25)) eqn:LL.
  { split; [discriminate|]. intros (l' & Q & D). assert (l' = l) by congruence. subst l'. destruct D as [[_ D]|[[_ D]|(h & e & Lh & -> & Le & _)]]; [lia|lia|]. rewrite zlen_app, p2sh_len in LL by exact Lh. unfold zlen in LL. lia. }
  assert (L3 : zlen l = 22 \/ zlen l = 23 \/ zlen l = 25) by lia. pose proof (kind_of l L3) as K.
  split.
  - intros E. exists l. split; [reflexivity|]. destruct (like_script_type l) as [[[]|]| |] eqn:Ety; cbn [kind_ok bind] in *; try discriminate E.
    + destruct K as (h & Lh & ->). rewrite like_legacy in E by first [assumption | apply p2pkh_last | (rewrite p2pkh_len by exact Lh; lia)]. discriminate E.
    + destruct K as (h & extra & Lh & ->). right. right. exists h, extra. split; [exact Lh|]. split; [reflexivity|]. split; [rewrite zlen_app, p2sh_len in L3 by exact Lh; unfold zlen in L3; lia|].
      apply (segwit_panic H (ltx_of version (map strip_in ins) outs [] lt) (lu_redeem u) (lin_of (strip_in i)) (lu_amount u)). destruct (like_segwit_bytes H (ltx_of version (map strip_in ins) outs [] lt) (lu_redeem u) (lin_of (strip_in i)) (lu_amount u)); [discriminate E|discriminate E|reflexivity].
    + exfalso. assert (P : like_segwit_bytes H (ltx_of version (map strip_in ins) outs [] lt) (lu_lock u) (lin_of (strip_in i)) (lu_amount u) = Panic) by (destruct (like_segwit_bytes H (ltx_of version (map strip_in ins) outs [] lt) (lu_lock u) (lin_of (strip_in i)) (lu_amount u)); [discriminate E|discriminate E|reflexivity]).
      apply segwit_panic in P. destruct P as [P|P]; assert (L0 : zlen l <= 1) by (rewrite El in P; assert (Q : l = [] \/ l = [0]) by (try (left; congruence); right; congruence); destruct Q as [-> | ->]; cbv; discriminate); lia.
    + destruct K as [[K1 K2]|[K1 K2]]; [left; split; [exact K1|lia]|right; left; split; assumption].
  - intros (l' & Q & D). assert (l' = l) by congruence. subst l'. clear Q.
    destruct (like_script_type l) as [[[]|]| |] eqn:Ety; cbn [kind_ok bind] in *.
    + exfalso. destruct K as (h & Lh & ->). rewrite p2pkh_len in D by exact Lh. destruct D as [[_ D]|[[_ D]|(h' & e & _ & D & _)]]; [lia|lia|]. unfold p2pkh_script, p2sh_script in D. cbn [app] in D. discriminate D.
    + destruct K as (h & extra & Lh & ->). destruct D as [[(r & D) _]|[[_ D]|(h' & e & _ & _ & _ & D)]]; [exfalso; unfold p2sh_script in D; cbn [app] in D; discriminate D|exfalso; rewrite zlen_app, p2sh_len in D by exact Lh; pose proof (zlen_nonneg extra); lia|].
      rewrite (proj2 (segwit_panic H _ (lu_redeem u) (lin_of (strip_in i)) (lu_amount u)) D). reflexivity.
    + exfalso. destruct K as (r & ->). destruct D as [[(r' & D) _]|[[(r' & D) _]|(h' & e & _ & D & _)]]; cbn [app p2sh_script] in D; discriminate D.
    + exfalso. destruct K as (K1 & K2 & _). destruct D as [[D1 D2]|[[D1 D2]|(h & e & Lh & D & _)]]; [| |exact (K2 h e Lh D)].
      * assert (P : like_script_type l = Panic); [|congruence]. destruct D1 as (r & D1). unfold like_script_type. cbn [all_at]. rewrite (idx_out l 23) by lia. rewrite D1. reflexivity.
      * assert (P : like_script_type l = Panic); [|congruence]. destruct D1 as (r & D1). unfold like_script_type. cbn [all_at]. rewrite (idx_out l 22) by lia. rewrite D1. reflexivity.
    + contradiction.
    + reflexivity.
Qed.
