(** btcLikeTxDriver: insertion of signatures. *)
From Coq Require Import String ZArith List Bool Lia ZifyBool ZifyNat.
From Verif Require Import Go GoFacts GoFacts2 Rd Base58CheckModel BtcModel BtcSpec BtcProofs BtcTxProofs BtcTxProps BtcSigProps BtcVerProps SigModel SigDerProps LikeModel LikeProofs LikeProps LikeSigProofs LikeSigProps Toy.
Import ListNotations.
Open Scope Z_scope.
Ltac Zify.zify_post_hook ::= idtac.

(** ** Specification *)
(** What insertion gives one input, with unlock entry [u] and signature and key [sp]: the script, the witness if any, and
    the caller's unlock entry afterwards. *)
Definition like_fills (u : lunlock) (sp : sigpub) (o : bytes * option sigpub * lunlock) : Prop :=
  zlen (sp_sig sp) = 64 /\ zlen (sp_pub sp) = 33 /\
  ((lu_redeem u = [] /\ begins (str "0014") (lu_lock u) /\
      o = ([], Some sp, {| lu_key := lu_key u; lu_lock := str "00"; lu_redeem := lu_lock u; lu_amount := lu_amount u |})) \/
   (lu_redeem u = [] /\ ~ begins (str "0014") (lu_lock u) /\
      exists R S, der_int (r_of (sp_sig sp)) R /\ der_int (s_of (sp_sig sp)) S /\ o = (sig_script R S 1 ++ 33 :: sp_pub sp, None, u)) \/
   (lu_redeem u <> [] /\ lu_lock u = str "00" /\ o = ([], Some sp, u)) \/
   (lu_redeem u <> [] /\ lu_lock u <> str "00" /\ exists r, hex_decode (lu_redeem u) = Ok r /\ o = (zlen r mod 256 :: r, Some sp, u))).
(** All inputs in order; signatures beyond the last input are not looked at. *)
Inductive like_fills_all : list spec_in -> list lunlock -> list sigpub -> list (spec_in * option sigpub * lunlock) -> Prop :=
| lf_nil : forall sps, like_fills_all [] [] sps []
| lf_cons : forall i ins u us sp sps s w u' l, like_fills u sp (s, w, u') -> like_fills_all ins us sps l ->
    like_fills_all (i :: ins) (u :: us) (sp :: sps) ((with_script i s, w, u') :: l).
(** One witness: none, or signature (32-byte integers, with a zero byte in front when negative) and key. *)
Definition wit_field (w : option sigpub) : bytes :=
  match w with
  | None => [0]
  | Some sp => 2 :: sig_script (wide_int (firstn 32 (sp_sig sp))) (wide_int (skipn 32 (sp_sig sp))) 1 ++ 33 :: sp_pub sp
  end.
Definition has_wit (w : option sigpub) : bool := match w with Some _ => true | None => false end.
Definition like_signed (version : Z) (ins : list spec_in) (outs : list spec_out) (ws : list (option sigpub)) (lockTime : Z) : bytes :=
  le_bytes 4 version ++ (if existsb has_wit ws then [0; 1] else []) ++ zlen ins :: concat (map wire_spec_in ins) ++
  zlen outs :: concat (map wire_spec_out outs) ++ (if existsb has_wit ws then concat (map wit_field ws) else []) ++ le_bytes 4 lockTime.
(** A signature of the right length is one: bytes, neither integer zero. *)
Definition sound_sp (sp : sigpub) : Prop := zlen (sp_sig sp) = 64 -> is_bytes (sp_sig sp) /\ r_of (sp_sig sp) <> 0 /\ s_of (sp_sig sp) <> 0.
(** No redeem script ends with CHECKMULTISIG. *)
Definition no_multisig (us : list lunlock) : Prop := Forall (fun u => forall r, hex_decode (lu_redeem u) = Ok r -> last r 0 <> 0xAE) us.

(** ** Lemmas *)
Definition o_in (o : spec_in * option sigpub * lunlock) : spec_in := fst (fst o).
Definition o_wit (o : spec_in * option sigpub * lunlock) : option sigpub := snd (fst o).
Definition shown1 (w : option sigpub) : sigpub := match w with Some sp => sp | None => no_sigpub end.
Definition shown (l : list (option sigpub)) : list sigpub := if existsb has_wit l then map shown1 l else [].
Definition grown (n : nat) (ws : list sigpub) (w : option sigpub) : list sigpub :=
  match w with None => if zlen ws =? 0 then ws else ws ++ [no_sigpub] | Some sp => pad_wits n ws ++ [sp] end.
Lemma shown_none l : existsb has_wit l = false -> map shown1 l = repeat no_sigpub (length l).
Proof. induction l as [|[sp|] l IH]; intros E; [reflexivity|discriminate E|]. cbn [map shown1 repeat length]. f_equal. apply IH, E. Qed.
Lemma grown_shown l w : grown (length l) (shown l) w = shown (l ++ [w]).
Proof.
  unfold grown, shown, pad_wits. rewrite existsb_app. destruct (existsb has_wit l) eqn:E.
  - assert (N : zlen (map shown1 l) =? 0 = false). { destruct l as [|a l]; [discriminate E|]. cbn [map]. rewrite zlen_cons. pose proof (zlen_nonneg (map shown1 l)). lia. }
    rewrite N. cbn [orb]. rewrite map_app. destruct w; reflexivity.
  - change (zlen (@nil sigpub) =? 0) with true. cbv iota. destruct w as [sp|]; cbn [existsb has_wit orb]; [|reflexivity]. rewrite map_app, shown_none by exact E. reflexivity.
Qed.
Lemma der_zero_unique sp : sound_sp sp -> zlen (sp_sig sp) = 64 -> exists R S, der_int (r_of (sp_sig sp)) R /\ der_int (s_of (sp_sig sp)) S /\ zlen R <= 33 /\ zlen S <= 33 /\ encode_sig (sp_sig sp) 1 = Ok (sig_script R S 1).
Proof.
  intros K L. destruct (K L) as (B & Nr & Ns). destruct (halves_bytes _ B) as [B1 B2]. pose proof (be_num_bound _ B1). pose proof (be_num_bound _ B2).
  destruct (encode_sig_parts (sp_sig sp) 1 B) as (R & S & D1 & D2 & (L1 & _) & (L2 & _) & _ & E); [unfold zlen in L; lia|unfold r_of in *; lia|unfold s_of in *; lia|].
  exists R, S. unfold zlen. split; [exact D1|]. split; [exact D2|]. split; [lia|]. split; [lia|exact E].
Qed.
Lemma zlen0 {A} (l : list A) : zlen l =? 0 = true <-> l = [].
Proof. destruct l as [|a l]; [split; reflexivity|]. rewrite zlen_cons. pose proof (zlen_nonneg l). split; [lia|discriminate]. Qed.
Lemma insert_one n i u sp ws i' ws' u' : sound_sp sp ->
  like_insert_one n (lin_of i) u sp ws = Ok (i', ws', u') <-> exists s w, like_fills u sp (s, w, u') /\ i' = lin_of (with_script i s) /\ ws' = grown n ws w.
Proof.
  intros K. unfold like_insert_one, like_fills. destruct (zlen (sp_sig sp) =? 64) eqn:L1; cbn [negb]; [|split; [discriminate|intros (s & w & (L & _) & _); lia]].
  destruct (zlen (sp_pub sp) =? 33) eqn:L2; cbn [negb]; [|split; [discriminate|intros (s & w & (_ & L & _) & _); lia]].
  assert (SS : forall s, set_script s (lin_of i) = lin_of (with_script i s)) by reflexivity.
  destruct (zlen (lu_redeem u) =? 0) eqn:Er; cbn [andb].
  - apply zlen0 in Er. destruct (is_prefix (str "0014") (lu_lock u)) eqn:Ep.
    + apply is_prefix_begins in Ep. cbn [lu_redeem lu_lock]. assert (N : zlen (lu_lock u) =? 0 = false) by (destruct Ep as (r & ->); change (str "0014") with [48; 48; 49; 52]; rewrite zlen_app; pose proof (zlen_nonneg r); change (zlen [48; 48; 49; 52]) with 4; lia).
      rewrite N. cbv zeta. replace (beq (str "00") (str "00")) with true by reflexivity. rewrite SS. split.
      * intros E. exists [], (Some sp). assert (Q : u' = {| lu_key := lu_key u; lu_lock := str "00"; lu_redeem := lu_lock u; lu_amount := lu_amount u |}) by exact (eq_sym (f_equal (fun x => match x with Ok y => snd y | _ => u end) E)).
        subst u'. split; [|split; cbn [grown]; congruence]. split; [lia|]. split; [lia|]. left. split; [exact Er|]. split; [exact Ep|]. reflexivity.
      * intros (s & w & (_ & _ & [(_ & _ & Q)|[(_ & Q & _)|[(Q & _)|(Q & _)]]]) & -> & ->); [|contradiction|contradiction|contradiction]. assert (Q1 : s = []) by congruence. assert (Q2 : w = Some sp) by congruence. pose proof (f_equal snd Q) as Q3. cbn [snd] in Q3. subst s w u'. reflexivity.
    + assert (Nb : ~ begins (str "0014") (lu_lock u)) by (intros Q; apply is_prefix_begins in Q; congruence). replace (zlen (lu_redeem u) =? 0) with true by (rewrite Er; reflexivity). cbv iota.
      destruct (der_zero_unique sp K ltac:(lia)) as (R & S & D1 & D2 & _ & _ & EE). unfold encode_script. rewrite EE. cbn [bind]. replace (u8 (zlen (sp_pub sp))) with 33 by (unfold u8; rewrite (proj1 (Z.eqb_eq _ _) L2); reflexivity). rewrite SS. split.
      * intros E. exists (sig_script R S 1 ++ 33 :: sp_pub sp), None. split; [|split; cbn [grown]; congruence]. split; [lia|]. split; [lia|]. right. left. split; [exact Er|]. split; [exact Nb|]. exists R, S. split; [exact D1|]. split; [exact D2|]. assert (u' = u) by congruence. subst u'. reflexivity.
      * intros (s & w & (_ & _ & [(_ & Q & _)|[(_ & _ & R' & S' & D1' & D2' & Q)|[(Q & _)|(Q & _)]]]) & -> & ->); [contradiction| |contradiction|contradiction].
        rewrite (minimal_der_unique _ _ _ D1' D1), (minimal_der_unique _ _ _ D2' D2) in Q. assert (Q1 : s = sig_script R S 1 ++ 33 :: sp_pub sp) by congruence. assert (Q2 : w = None) by congruence. assert (Q3 : u' = u) by congruence. subst s w u'. reflexivity.
  - assert (Nr : lu_redeem u <> []) by (intros Q; apply zlen0 in Q; congruence). cbv zeta. rewrite Er. destruct (beq (lu_lock u) (str "00")) eqn:Eb.
    + apply beq_eq in Eb. rewrite SS. split.
      * intros E. exists [], (Some sp). split; [|split; cbn [grown]; congruence]. split; [lia|]. split; [lia|]. right. right. left. split; [exact Nr|]. split; [exact Eb|]. assert (u' = u) by congruence. subst u'. reflexivity.
      * intros (s & w & (_ & _ & [(Q & _)|[(Q & _)|[(_ & _ & Q)|(_ & Q & _)]]]) & -> & ->); [contradiction|contradiction| |contradiction]. assert (Q1 : s = []) by congruence. assert (Q2 : w = Some sp) by congruence. assert (Q3 : u' = u) by congruence. subst s w u'. reflexivity.
    + assert (Nb : lu_lock u <> str "00") by (intros Q; apply beq_eq in Q; congruence). split.
      * intros E. apply bind_ok in E as (r & Eh & E). rewrite SS in E. exists (u8 (zlen r) :: r), (Some sp). split; [|split; cbn [grown]; congruence]. split; [lia|]. split; [lia|]. right. right. right. split; [exact Nr|]. split; [exact Nb|]. exists r. split; [exact Eh|]. assert (u' = u) by congruence. subst u'. reflexivity.
      * intros (s & w & (_ & _ & [(Q & _)|[(Q & _)|[(_ & Q & _)|(_ & _ & r & Eh & Q)]]]) & -> & ->); [contradiction|contradiction|contradiction|]. rewrite Eh. cbn [bind]. assert (Q1 : s = zlen r mod 256 :: r) by congruence. assert (Q2 : w = Some sp) by congruence. assert (Q3 : u' = u) by congruence. subst s w u'. reflexivity.
Qed.
Lemma insert_loop_iff ins : forall us sps before ins' ws' us', Forall sound_sp sps -> length ins = length us ->
  like_insert_loop (length before) (map lin_of ins) us sps (shown before) = Ok (ins', ws', us') <->
  exists l, like_fills_all ins us sps l /\ ins' = map lin_of (map o_in l) /\ ws' = shown (before ++ map o_wit l) /\ us' = map snd l.
Proof.
  induction ins as [|i ins IH]; intros us sps before ins' ws' us' F L; destruct us as [|u us]; try discriminate L; cbn [map like_insert_loop].
  - split.
    + intros E. exists []. cbn [map]. rewrite app_nil_r. split; [constructor|]. split; [congruence|]. split; congruence.
    + intros (l & FA & -> & -> & ->). inversion FA; subst. cbn [map]. rewrite app_nil_r. reflexivity.
  - destruct sps as [|sp sps]; [split; [discriminate|intros (l & FA & _); inversion FA]|]. apply Forall_cons_iff in F as [F0 F]. pose proof (insert_one (length before) i u sp (shown before)) as One. split.
    + intros E. apply bind_ok in E as ([[i1 ws1] u1] & E1 & E). apply One in E1 as (s & w & Q & -> & ->); [|exact F0]. rewrite grown_shown in E. apply bind_ok in E as ([[ins2 ws2] us2] & E2 & E).
      replace (S (length before)) with (length (before ++ [w])) in E2 by (rewrite app_length; cbn [length]; lia). apply IH in E2 as (l & FA & -> & -> & ->); [|exact F|cbn [length] in L; lia].
      exists ((with_script i s, w, u1) :: l). split; [constructor; assumption|]. change (map o_in ((with_script i s, w, u1) :: l)) with (with_script i s :: map o_in l). change (map o_wit ((with_script i s, w, u1) :: l)) with (w :: map o_wit l). change (map snd ((with_script i s, w, u1) :: l)) with (u1 :: map snd l). cbn [map]. replace (before ++ w :: map o_wit l) with ((before ++ [w]) ++ map o_wit l) by (rewrite <- app_assoc; reflexivity). split; [congruence|]. split; congruence.
    + intros (l & FA & -> & -> & ->). inversion FA as [|? ? ? ? ? ? s w u1 l1 Q FA1]; subst. rewrite (proj2 (One (lin_of (with_script i s)) (grown (length before) (shown before) w) u1 F0)) by eauto. cbn [bind]. rewrite grown_shown.
      replace (S (length before)) with (length (before ++ [w])) by (rewrite app_length; cbn [length]; lia).
      rewrite (proj2 (IH us sps (before ++ [w]) (map lin_of (map o_in l1)) (shown ((before ++ [w]) ++ map o_wit l1)) (map snd l1) F ltac:(cbn [length] in L; lia))) by eauto.
      cbn [bind]. change (map o_in ((with_script i s, w, u1) :: l1)) with (with_script i s :: map o_in l1). change (map o_wit ((with_script i s, w, u1) :: l1)) with (w :: map o_wit l1). change (map snd ((with_script i s, w, u1) :: l1)) with (u1 :: map snd l1). cbn [map]. rewrite <- app_assoc. reflexivity.
Qed.
Definition wit_good (w : option sigpub) : Prop := match w with None => True | Some sp => is_bytes (sp_sig sp) /\ zlen (sp_sig sp) = 64 /\ zlen (sp_pub sp) = 33 end.
Lemma witness_script_wide sp : wit_good (Some sp) -> witness_script (sp_sig sp) (sp_pub sp) 1 = Ok (sig_script (wide_int (firstn 32 (sp_sig sp))) (wide_int (skipn 32 (sp_sig sp))) 1 ++ 33 :: sp_pub sp).
Proof.
  intros (B & L & Lp). destruct (split64 (sp_sig sp)) as (L1 & L2 & Q1 & Q2); [unfold zlen in L; lia|]. destruct (halves_bytes (sp_sig sp) B) as [B1 B2].
  unfold witness_script. rewrite Q1. cbn [bind]. rewrite Q2. cbn [bind]. rewrite witness_trim_ok by assumption. cbn [bind]. rewrite witness_trim_ok by assumption. cbn [bind].
  pose proof (wide_len _ L1) as W1. pose proof (wide_len _ L2) as W2. rewrite der_wrap_eq by (unfold zlen in *; lia). unfold u8. rewrite Lp. reflexivity.
Qed.
Lemma wits_written ws : Forall wit_good ws -> mapr like_wit_bytes (shown ws) = Ok (if existsb has_wit ws then map wit_field ws else []).
Proof.
  intros F. unfold shown. destruct (existsb has_wit ws); [|reflexivity]. induction F as [|w ws W F IH]; [reflexivity|]. cbn [map mapr]. rewrite IH.
  assert (E : like_wit_bytes (shown1 w) = Ok (wit_field w)); [|rewrite E; reflexivity]. destruct w as [sp|]; [|reflexivity]. cbn [shown1 wit_field]. unfold like_wit_bytes.
  replace (zlen (sp_sig sp) =? 0) with false by (destruct W as (_ & L & _); lia). rewrite witness_script_wide by exact W. reflexivity.
Qed.
Lemma fills_facts ins us sps l : Forall sound_sp sps -> Forall redeem_small us -> Forall (fun s => zlen (s_txid s) = 32) ins -> like_fills_all ins us sps l ->
  Forall wit_good (map o_wit l) /\ Forall (fun s => zlen (s_txid s) = 32 /\ zlen (s_script s) <= 253) (map o_in l) /\ length l = length ins /\ length us = length ins.
Proof.
  intros K F FT FA. induction FA as [sps|i ins u us sp sps s w u' l Q FA IH]; [split; [constructor|split; [constructor|split; reflexivity]]|].
  apply Forall_cons_iff in K as [K0 K]. apply Forall_cons_iff in F as [F0 F]. apply Forall_cons_iff in FT as [T0 FT]. destruct (IH K F FT) as (I1 & I2 & I3 & I4). cbn [map length].
  change (o_wit (with_script i s, w, u')) with w. change (o_in (with_script i s, w, u')) with (with_script i s). destruct Q as (L1 & L2 & Q). destruct (K0 L1) as (B & _ & _).
  split; [|split; [|split; congruence]]; constructor; try assumption.
  - destruct w; [|exact I]. assert (Es : s0 = sp); [|subst s0; split; [exact B|split; assumption]]. destruct Q as [(_ & _ & Q)|[(_ & _ & R & S & _ & _ & Q)|[(_ & _ & Q)|(_ & _ & r & _ & Q)]]]; congruence.
  - cbn [with_script s_txid s_script]. split; [exact T0|]. destruct Q as [(_ & _ & Q)|[(_ & _ & R & S & D1 & D2 & Q)|[(_ & _ & Q)|(_ & _ & r & Eh & Q)]]].
    + assert (s = []) by congruence. subst s. cbv; discriminate.
    + destruct (der_zero_unique sp K0 L1) as (R' & S' & D1' & D2' & LR & LS & _). rewrite <- (minimal_der_unique _ _ _ D1 D1') in LR. rewrite <- (minimal_der_unique _ _ _ D2 D2') in LS.
      assert (Es : s = sig_script R S 1 ++ 33 :: sp_pub sp) by congruence. rewrite Es, zlen_app, zlen_cons, sig_script_len. lia.
    + assert (s = []) by congruence. subst s. cbv; discriminate.
    + assert (Es : s = zlen r mod 256 :: r) by congruence. rewrite Es, zlen_cons. specialize (F0 _ Eh). lia.
Qed.
Lemma signed_bytes_of sha version ins outs lt l : tx_fits ins outs -> length l = length ins -> Forall wit_good (map o_wit l) -> Forall (fun s => zlen (s_txid s) = 32 /\ zlen (s_script s) <= 253) (map o_in l) -> not_multi (map o_in l) ->
  like_bytes sha (ltx_of version (map o_in l) outs (shown (map o_wit l)) lt) = Ok (like_signed version (map o_in l) outs (map o_wit l) lt).
Proof.
  intros (Ni & No & Fi & Fo) L W F NM. assert (LZ : zlen (map o_in l) = zlen ins) by (unfold zlen; rewrite map_length; lia).
  erewrite bytes_of; [|lia|lia|exact NM|eapply Forall_impl; [|exact F]; cbn; intros s Hs; lia|eapply Forall_impl; [|exact Fo]; cbn; intros s Hs; lia|apply wits_written, W].
  f_equal. unfold like_wire, like_signed. rewrite (Z.mod_small (zlen (map o_in l))) by lia. rewrite (Z.mod_small (zlen outs)) by lia.
  assert (E : (zlen (shown (map o_wit l)) =? 0) = negb (existsb has_wit (map o_wit l))).
  { unfold shown. destruct (existsb has_wit (map o_wit l)) eqn:X; [|reflexivity]. destruct (map o_wit l) as [|a m]; [discriminate X|]. cbn [map]. rewrite zlen_cons. pose proof (zlen_nonneg (map shown1 m)). cbn [negb]. lia. }
  rewrite E. destruct (existsb has_wit (map o_wit l)); reflexivity.
Qed.
Lemma no_multi_entry us : no_multisig us -> forall u, nth_error us 0 = Some u -> like_is_multi (lu_lock u) (lu_redeem u) = Ok false.
Proof.
  intros F u E. destruct us as [|v us]; [discriminate E|]. assert (v = u) by (cbn in E; congruence). subst v. apply Forall_cons_iff in F as [F _]. unfold like_is_multi.
  destruct (zlen (lu_lock u) =? 46) eqn:L; cbn [negb]; [|reflexivity]. destruct (hex_decode (lu_lock u)) as [b| |] eqn:Eb; [|reflexivity|exfalso; exact (hex_decode_not_panic _ Eb)].
  assert (Lb : zlen b = 23) by (pose proof (proj2 (hex_decode_bytes _ _ Eb)) as Q; unfold zlen in *; lia).
  assert (A : forall k, (forall i v, In (i, v) k -> 0 <= i < 23) -> exists c, all_at b k = Ok c).
  { induction k as [|[i v] k IH]; intros Hk; [exists true; reflexivity|]. cbn [all_at]. rewrite idx_nth by (rewrite Lb; apply (Hk i v); left; reflexivity). cbn [bind]. destruct (nth (Z.to_nat i) b 0 =? v); [apply IH; intros j w I; apply (Hk j w); right; exact I|exists false; reflexivity]. }
  destruct (A [(0, 0xA9); (1, 0x14)]) as (c1 & ->); [cbn; intros i v [Q|[Q|[]]]; assert (i = 0 \/ i = 1) by (first [left; congruence|right; congruence]); lia|]. cbn [bind].
  destruct (A [(22, 0x87)]) as (c2 & E2); [cbn; intros i v [Q|[]]; assert (i = 22) by congruence; lia|].
  assert (C : exists c, (if c1 then Ok true else all_at b [(22, 0x87)]) = Ok c) by (destruct c1; [exists true; reflexivity|exists c2; exact E2]). destruct C as (c & ->). cbn [bind].
  destruct c; cbn [negb]; [|reflexivity]. destruct (hex_decode (lu_redeem u)) as [r| |] eqn:Er; [|reflexivity|exfalso; exact (hex_decode_not_panic _ Er)]. specialize (F r eq_refl). replace (last r 0 =? 0xAE) with false by lia. rewrite andb_false_r. reflexivity.
Qed.
Lemma multi_without_witness sha version ins outs lt : is_multi (ltx_of version ins outs [] lt) = true -> forall b, like_bytes sha (ltx_of version ins outs [] lt) <> Ok b.
Proof. intros M b. unfold like_bytes. rewrite M. destruct (zlen (l_vins _) =? 0); [discriminate|]. destruct (zlen (l_vouts _) =? 0); discriminate. Qed.
Lemma not_multi_dec ins : {not_multi ins} + {exists i, ins = [i] /\ last (s_script i) 0 = 0xAE}.
Proof. destruct ins as [|i [|j l]]; [left; exact I| |left; exact I]. cbn [not_multi]. destruct (Z.eq_dec (last (s_script i) 0) 0xAE); [right; eauto|left; assumption]. Qed.
Lemma last_cons (x : Z) r d : r <> [] -> last (x :: r) d = last r d.
Proof. destruct r; [contradiction|reflexivity]. Qed.
(** ** C117 *)
(** Insertion into a transaction without witnesses, no multisig redeem script involved: one signature and key for each
    input; the scripts and witnesses are those of [like_fills]; a sole input must not get a script ending in 0xAE. *)
Theorem like_insert_iff : forall sha version ins outs lt sps us signed us', tx_fits ins outs -> Forall (fun s => zlen (s_script s) <= 252) ins -> Forall redeem_small us ->
  is_bytes (consensus_tx version ins outs lt) -> Forall sound_sp sps -> no_multisig us ->
  like_insert sha (hex_encode (consensus_tx version ins outs lt)) sps us = Ok (signed, us') <->
  exists l, like_fills_all ins us sps l /\ us' = map snd l /\ not_multi (map o_in l) /\ signed = hex_encode (like_signed version (map o_in l) outs (map o_wit l) lt).
Proof.
  intros sha version ins outs lt sps us signed us' T Fs Fu B K NM. unfold like_insert. rewrite hex_decode_encode by exact B. cbn [bind]. rewrite decode_plain_tx by assumption. cbn [bind].
  change (l_vins (ltx_of version ins outs [] lt)) with (map lin_of ins). change (l_vouts (ltx_of version ins outs [] lt)) with (map lout_of outs). rewrite !zlen_map. pose proof T as (Ni & No & Fi & Fo).
  assert (FF : forall l, like_fills_all ins us sps l -> length us = length ins /\ us <> [] /\ sps <> []).
  { intros l FA. destruct (fills_facts ins us sps l K Fu Fi FA) as (_ & _ & _ & L). split; [exact L|]. inversion FA; subst; [change (zlen (@nil spec_in)) with 0 in Ni; lia|]. split; discriminate. }
  replace (zlen ins =? 0) with false by lia. replace (zlen outs =? 0) with false by lia.
  destruct (zlen us =? 0) eqn:U0. { split; [discriminate|]. intros (l & FA & _). destruct (FF l FA) as (_ & N & _). apply zlen0 in U0. contradiction. }
  destruct (zlen sps =? 0) eqn:S0. { split; [discriminate|]. intros (l & FA & _). destruct (FF l FA) as (_ & _ & N). apply zlen0 in S0. contradiction. }
  destruct (zlen ins =? zlen us) eqn:L; cbn [negb]. 2: { split; [discriminate|]. intros (l & FA & _). destruct (FF l FA) as (N & _). unfold zlen in L. lia. }
  destruct us as [|u us]; [discriminate U0|]. rewrite (no_multi_entry (u :: us) NM u eq_refl). cbn [bind].
  change (l_wit (ltx_of version ins outs [] lt)) with (shown []). change (0%nat) with (length (@nil (option sigpub))).
  pose proof (insert_loop_iff ins (u :: us) sps []) as Loop. cbn [app] in Loop. unfold zlen in L.
  assert (W : forall l, {| l_version := l_version (ltx_of version ins outs [] lt); l_vins := map lin_of (map o_in l); l_vouts := map lout_of outs; l_wit := shown (map o_wit l); l_locktime := l_locktime (ltx_of version ins outs [] lt) |} = ltx_of version (map o_in l) outs (shown (map o_wit l)) lt) by reflexivity.
  split.
  - intros E. apply bind_ok in E as ([[ins1 ws1] us1] & E1 & E). apply Loop in E1 as (l & FA & -> & -> & ->); [|exact K|lia]. rewrite W in E. apply bind_ok in E as (b & Eb & E).
    exists l. destruct (fills_facts ins (u :: us) sps l K Fu Fi FA) as (W1 & W2 & W3 & _).
    assert (N : not_multi (map o_in l)).
    { destruct (not_multi_dec (map o_in l)) as [N|(i & El & La)]; [exact N|exfalso]. destruct l as [|[[i1 w1] u1] [|o2 l]]; try discriminate El. cbn [map] in El. change (o_in (i1, w1, u1)) with i1 in El. assert (i1 = i) by congruence. subst i1.
      inversion FA as [|i0 ? ? ? sp ? s ? ? ? (_ & _ & Q) FA1]; subst. cbn [with_script s_script] in La. destruct Q as [(_ & _ & Q)|[(_ & _ & R & S & _ & _ & Q)|[(_ & _ & Q)|(Nr & _ & r & Eh & Q)]]].
      - assert (s = []) by congruence. subst s. discriminate La.
      - assert (w1 = None) by congruence. subst w1. change (shown (map o_wit [(with_script i0 s, @None sigpub, u1)])) with (@nil sigpub) in Eb. revert Eb. apply multi_without_witness. unfold is_multi, ltx_of. cbn [l_vins map o_in fst lin_of li_script with_script s_script].
        assert (Es : s = sig_script R S 1 ++ 33 :: sp_pub sp) by congruence. replace (zlen s =? 0) with false by (rewrite Es, zlen_app, zlen_cons, sig_script_len; pose proof (zlen_nonneg R); pose proof (zlen_nonneg S); pose proof (zlen_nonneg (sp_pub sp)); lia). cbn [negb andb]. lia.
      - assert (s = []) by congruence. subst s. discriminate La.
      - assert (Es : s = zlen r mod 256 :: r) by congruence. apply Forall_cons_iff in NM as [NM _]. specialize (NM r Eh). destruct r as [|x r]; [|rewrite Es, last_cons in La by discriminate; congruence]. rewrite Es in La. discriminate La. }
    rewrite (signed_bytes_of sha version ins outs lt l T W3 W1 W2 N) in Eb. split; [exact FA|]. split; [congruence|]. split; [exact N|]. congruence.
  - intros (l & FA & -> & N & ->). destruct (fills_facts ins (u :: us) sps l K Fu Fi FA) as (W1 & W2 & W3 & _).
    rewrite (proj2 (Loop (map lin_of (map o_in l)) (shown (map o_wit l)) (map snd l) K ltac:(lia))) by eauto. cbn [bind]. rewrite W, (signed_bytes_of sha version ins outs lt l T W3 W1 W2 N). reflexivity.
Qed.
(** So the owner of a key whose compressed form ends in 0xAE can never complete a transaction with one key hash input. *)
Theorem like_insert_key_refused : forall sha version i outs lt sp sps u, tx_fits [i] outs -> zlen (s_script i) <= 252 -> redeem_small u ->
  is_bytes (consensus_tx version [i] outs lt) -> Forall sound_sp (sp :: sps) -> lu_redeem u = [] -> ~ begins (str "0014") (lu_lock u) -> last (sp_pub sp) 0 = 0xAE ->
  forall p, like_insert sha (hex_encode (consensus_tx version [i] outs lt)) (sp :: sps) [u] <> Ok p.
Proof.
  intros sha version i outs lt sp sps u T Fs Fu B K Er Nb La [signed us'] E. apply like_insert_iff in E as (l & FA & _ & N & _); try assumption; [|constructor; [exact Fs|constructor]|constructor; [exact Fu|constructor]|].
  - inversion FA as [|? ? ? ? ? ? s w u1 l1 (_ & L2 & Q) FA1]; subst. inversion FA1; subst. cbn [map] in N. change (not_multi [with_script i s]) in N. cbn [not_multi with_script s_script] in N. destruct Q as [(_ & Q & _)|[(_ & _ & R & S & _ & _ & Q)|[(Q & _)|(Q & _)]]]; [contradiction| |contradiction|contradiction].
    apply N. assert (Es : s = sig_script R S 1 ++ 33 :: sp_pub sp) by congruence. assert (P : sp_pub sp <> []) by (intros P; rewrite P in La; discriminate La).
    rewrite Es. destruct (exists_last P) as (a & x & Ea). rewrite Ea in La |- *. rewrite last_last in La. replace (sig_script R S 1 ++ 33 :: a ++ [x]) with ((sig_script R S 1 ++ 33 :: a) ++ [x]) by (rewrite <- app_assoc; reflexivity). rewrite last_last. exact La.
  - constructor; [|constructor]. intros r Eh. rewrite Er in Eh. assert (r = []) by (cbn in Eh; congruence). subst r. cbn. lia.
Qed.
(** With the unlock data left by the hashing call a native segwit input gets a script: the push of its own locking script. *)
Lemma hex_one a b t x r : hex_decode (a :: b :: t) = Ok (x :: r) -> exists v w, hex_val a = Some v /\ hex_val b = Some w /\ x = v * 16 + w /\ hex_decode t = Ok r.
Proof.
  cbn [hex_decode]. destruct (hex_val a) as [v|]; [|discriminate]. destruct (hex_val b) as [w|]; [|discriminate]. destruct (hex_decode t) as [q| |] eqn:E; cbn [bind]; try discriminate.
  intros Q. exists v, w. split; [reflexivity|]. split; [reflexivity|]. injection Q as Q1 Q2. split; [symmetry; exact Q1|]. rewrite Q2. reflexivity.
Qed.
Lemma hex_range a v : hex_val a = Some v -> 0 <= v < 16 /\ (v < 10 -> a = 48 + v).
Proof.
  unfold hex_val. destruct ((48 <=? a) && (a <=? 57)) eqn:E1; [|destruct ((97 <=? a) && (a <=? 102)) eqn:E2; [|destruct ((65 <=? a) && (a <=? 70)) eqn:E3; [|discriminate]]]; intros Q.
  - assert (v = a - 48) by congruence. lia.
  - assert (v = a - 87) by congruence. lia.
  - assert (v = a - 55) by congruence. lia.
Qed.
Lemma hex_0014 t r : hex_decode t = Ok (0 :: 0x14 :: r) -> begins (str "0014") t.
Proof.
  intros E. destruct t as [|a [|b t]]; [discriminate E|discriminate E|]. apply hex_one in E as (v & w & Ha & Hb & E1 & E). destruct t as [|c [|d t]]; [discriminate E|discriminate E|]. apply hex_one in E as (v2 & w2 & Hc & Hd & E2 & E).
  apply hex_range in Ha as [Ra Ha]. apply hex_range in Hb as [Rb Hb]. apply hex_range in Hc as [Rc Hc]. apply hex_range in Hd as [Rd Hd]. exists t. change (str "0014") with [48; 48; 49; 52]. cbn [app]. assert (a = 48) by lia. assert (b = 48) by lia. assert (c = 49) by lia. assert (d = 52) by lia. subst a b c d. reflexivity.
Qed.
Lemma hex_0014_inv t l : hex_decode t = Ok l -> begins (str "0014") t -> begins [0; 0x14] l.
Proof.
  intros E (q & ->). change (str "0014") with [48; 48; 49; 52] in E. cbn [app] in E. destruct l as [|x l]; [apply hex_decode_bytes in E as [_ E]; discriminate E|]. apply hex_one in E as (v & w & Ha & Hb & E1 & E).
  destruct l as [|y l]; [apply hex_decode_bytes in E as [_ E]; discriminate E|]. apply hex_one in E as (v2 & w2 & Hc & Hd & E2 & E). change (hex_val 48) with (Some 0) in *. change (hex_val 49) with (Some 1) in *. change (hex_val 52) with (Some 4) in *.
  exists l. cbn [app]. f_equal; [|f_equal]; [assert (v = 0) by congruence; assert (w = 0) by congruence; lia|assert (v2 = 1) by congruence; assert (w2 = 4) by congruence; lia].
Qed.
Lemma str00_no : ~ begins (str "0014") (str "00").
Proof. intros (r & E). discriminate E. Qed.
Lemma fills_nth ins us sps l : like_fills_all ins us sps l -> forall k u, nth_error us k = Some u ->
  exists i sp s w u', nth_error ins k = Some i /\ nth_error sps k = Some sp /\ nth_error l k = Some (with_script i s, w, u') /\ like_fills u sp (s, w, u').
Proof.
  induction 1 as [sps|i ins u us sp sps s w u' l Q FA IH]; intros k v E; [destruct k; discriminate E|]. destruct k as [|k]; cbn [nth_error] in *; [|apply IH, E]. assert (u = v) by congruence. subst v. exists i, sp, s, w, u'. auto.
Qed.
Lemma signs_native H version ins outs lt n u p h : like_signs H version ins outs lt n u p -> length h = 20%nat -> hex_decode (lu_lock u) = Ok (witness_v0_script h) -> snd p = set_redeem (lu_lock u) u.
Proof.
  intros (lock & i & El & _ & Q) Lh Eh. assert (lock = witness_v0_script h) by congruence. subst lock. destruct Q as [(h' & _ & Q & _)|[(h' & e & r & c & _ & Q & _)|(h' & _ & _ & ->)]]; [discriminate Q|discriminate Q|reflexivity].
Qed.
Theorem like_insert_after_hashes : forall H sha version ins outs lt sps us hexs us1 signed us2, tx_fits ins outs -> Forall (fun s => zlen (s_script s) <= 252) ins -> Forall redeem_small us ->
  is_bytes (consensus_tx version ins outs lt) -> Forall sound_sp sps -> no_multisig us1 ->
  like_create_hashes H sha (hex_encode (consensus_tx version ins outs lt)) us = Ok (hexs, us1) ->
  like_insert sha (hex_encode (consensus_tx version ins outs lt)) sps us1 = Ok (signed, us2) ->
  us2 = us1 /\ exists l, like_fills_all ins us1 sps l /\ signed = hex_encode (like_signed version (map o_in l) outs (map o_wit l) lt) /\
    forall k u h, nth_error us k = Some u -> length h = 20%nat -> hex_decode (lu_lock u) = Ok (witness_v0_script h) ->
      exists i, nth_error (map o_in l) k = Some i /\ s_script i = 22 :: witness_v0_script h.
Proof.
  intros H sha version ins outs lt sps us hexs us1 signed us2 T Fs Fu B K NM E I. apply like_hashes_iff in E as (L & hl & _ & -> & P); try assumption.
  assert (G : forall n us l, pointwise (like_signs H version ins outs lt) n us l -> Forall redeem_small us -> Forall redeem_small (map snd l) /\ Forall (fun u => lu_redeem u = [] -> ~ begins (str "0014") (lu_lock u)) (map snd l)).
  { clear - T. intros n us l P. induction P as [|n u p us l S1 P IH]; intros F; [split; constructor|]. apply Forall_cons_iff in F as [Fu F]. destruct (IH F) as [I1 I2]. cbn [map].
    destruct S1 as (lock & i & El & _ & [(h & Lh & -> & ->)|[(h & extra & r & code & Lh & -> & _ & Er & Lc & ->)|(h & Lh & -> & ->)]]); cbn [snd]; split; constructor; try assumption.
    - intros _ Q. apply (hex_0014_inv _ _ El) in Q as (q & Q). discriminate Q.
    - intros _ Q. apply (hex_0014_inv _ _ El) in Q as (q & Q). discriminate Q.
    - intros r Er. cbn [set_redeem lu_redeem] in Er. assert (r = witness_v0_script h) by congruence. subst r. rewrite wpkh_len by exact Lh. lia.
    - cbn [set_redeem lu_redeem lu_lock]. intros Q. rewrite Q in El. discriminate El. }
  destruct (G _ _ _ P Fu) as [F1 F2]. apply like_insert_iff in I as (l & FA & -> & _ & ->); try assumption. split.
  - clear - FA F2. induction FA as [sps|i ins u us sp sps s w u' l (_ & _ & Q) FA IH]; [reflexivity|]. apply Forall_cons_iff in F2 as [F0 F2]. cbn [map snd]. f_equal; [|apply IH, F2].
    destruct Q as [(Q1 & Q2 & _)|[(_ & _ & R & S & _ & _ & Q)|[(_ & _ & Q)|(_ & _ & r & _ & Q)]]]; [exfalso; exact (F0 Q1 Q2)|congruence..].
  - exists l. split; [exact FA|]. split; [reflexivity|]. intros k u h Ek Lh Eh. assert (Lk : (k < length hl)%nat) by (pose proof (pointwise_len _ _ _ _ P) as LL; assert (k < length us)%nat by (apply nth_error_Some; congruence); lia).
    destruct (nth_error hl k) as [p|] eqn:Ep; [|apply nth_error_None in Ep; lia]. pose proof (pointwise_nth _ _ _ _ P k u p Ek Ep) as S1. pose proof (signs_native _ _ _ _ _ _ _ _ h S1 Lh Eh) as Sp.
    destruct (fills_nth _ _ _ _ FA k (snd p)) as (i & sp & s & w & u' & _ & _ & El & (_ & _ & Q)); [rewrite nth_error_map, Ep; reflexivity|].
    exists (with_script i s). split; [rewrite nth_error_map, El; reflexivity|]. rewrite Sp in Q. cbn [set_redeem lu_redeem lu_lock with_script s_script] in *.
    destruct Q as [(Q & _)|[(Q & _)|[(_ & Q & _)|(_ & _ & r & Er & Q)]]]; [rewrite Q in Eh; discriminate Eh|rewrite Q in Eh; discriminate Eh|rewrite Q in Eh; discriminate Eh|].
    assert (r = witness_v0_script h) by congruence. subst r. rewrite wpkh_len in Q by exact Lh. change (22 mod 256) with 22 in Q. congruence.
Qed.
(** With fresh data the script is empty, but the entry is used up: with it no hashing succeeds any more. *)
Theorem like_insert_uses_up : forall H sha version ins outs lt sps us signed us', tx_fits ins outs -> Forall (fun s => zlen (s_script s) <= 252) ins -> Forall redeem_small us ->
  is_bytes (consensus_tx version ins outs lt) -> Forall sound_sp sps -> no_multisig us ->
  like_insert sha (hex_encode (consensus_tx version ins outs lt)) sps us = Ok (signed, us') ->
  forall u, In u us -> lu_redeem u = [] -> begins (str "0014") (lu_lock u) ->
  In {| lu_key := lu_key u; lu_lock := str "00"; lu_redeem := lu_lock u; lu_amount := lu_amount u |} us' /\
  forall txHex p, like_create_hashes H sha txHex us' <> Ok p.
Proof.
  intros H sha version ins outs lt sps us signed us' T Fs Fu B K NM E u Hu Er Bg. apply like_insert_iff in E as (l & FA & -> & _ & _); try assumption.
  apply In_nth_error in Hu as (k & Ek). destruct (fills_nth _ _ _ _ FA k u Ek) as (i & sp & s & w & u' & _ & _ & El & (_ & _ & Q)). destruct Q as [(_ & _ & Q)|[(_ & Q & _)|[(Q & _)|(Q & _)]]]; [|contradiction..].
  assert (Eu : u' = {| lu_key := lu_key u; lu_lock := str "00"; lu_redeem := lu_lock u; lu_amount := lu_amount u |}) by congruence. apply nth_error_In in El. apply (in_map snd) in El. cbn [snd] in El. rewrite Eu in El. split; [exact El|].
  intros tx [hs us2] E. unfold like_create_hashes in E. apply bind_ok in E as (b & _ & E). apply bind_ok in E as (t & _ & E). apply bind_ok in E as ([hs1 us3] & E & _). unfold like_hashes in E. destruct ((zlen (l_vins t) =? 0) || negb (zlen (l_vins t) =? zlen (map snd l))); [discriminate E|].
  revert E. generalize (map snd l) El. clear. generalize 0%nat. intros n us. revert n hs1 us3. induction us as [|v us IH]; intros n hs1 us3 Hin E; [destruct Hin|]. cbn [like_hash_loop] in E. apply bind_ok in E as ([h v'] & E1 & E). apply bind_ok in E as ([hs2 us4] & E2 & _).
  destruct Hin as [->|Hin]; [|exact (IH _ _ _ Hin E2)]. unfold like_hash in E1. cbn [lu_lock] in E1. discriminate E1.
Qed.

(** ** A concrete case: the three kinds of input of [like_hashes_example] *)
Definition ex_like_sp : sigpub := {| sp_sig := ex_sig; sp_pub := ex_pub |}.
Lemma ex_like_sound : sound_sp ex_like_sp.
Proof. intros _. destruct ex_sig_meets_hypotheses as (A & _ & B & C & _). auto. Qed.
Lemma ex_like_plain : no_multisig ex_like_us.
Proof.
  assert (G : forall lock r a, is_bytes r -> last r 0 <> 0xAE -> forall q, hex_decode (lu_redeem (ex_like_u lock r a)) = Ok q -> last q 0 <> 0xAE) by (intros lock r a B L q E; cbn [ex_like_u lu_redeem] in E; rewrite hex_decode_encode in E by exact B; congruence).
  constructor; [apply G; [apply is_bytes_b; reflexivity|cbv; discriminate]|]. constructor; [apply G; [apply is_bytes_b; reflexivity|cbv; discriminate]|]. constructor; [apply G; [apply is_bytes_b; reflexivity|cbv; discriminate]|constructor].
Qed.
Lemma ex_like_scripts : Forall (fun s => zlen (s_script s) <= 252) ex_like_ins.
Proof. repeat (constructor; [cbv; discriminate|]). constructor. Qed.
Lemma ex_like_bytes : is_bytes (consensus_tx 2 ex_like_ins [ex_like_out] 3).
Proof. apply is_bytes_b. vm_compute. reflexivity. Qed.
Definition ex_like_used : lunlock := {| lu_key := []; lu_lock := str "00"; lu_redeem := hex_encode (witness_v0_script (repeat 6 20)); lu_amount := 5000000000 |}.
(** A script signature, a script hash input with redeem script and witness, a native input with witness only. *)
Example like_insert_example : exists R S, let l := [(with_script (ex_like_in 1) (sig_script R S 1 ++ 33 :: ex_pub), None, ex_like_u (p2pkh_script (repeat 3 20)) [] 0);
    (with_script (ex_like_in 9) (22 :: witness_v0_script (repeat 5 20)), Some ex_like_sp, ex_like_u (p2sh_script (repeat 4 20)) (witness_v0_script (repeat 5 20)) 77);
    (with_script (ex_like_in 200) [], Some ex_like_sp, ex_like_used)] in
  forall sha, like_insert sha (hex_encode (consensus_tx 2 ex_like_ins [ex_like_out] 3)) [ex_like_sp; ex_like_sp; ex_like_sp] ex_like_us =
  Ok (hex_encode (like_signed 2 (map o_in l) [ex_like_out] (map o_wit l) 3), map snd l).
Proof.
  destruct (der_zero_unique ex_like_sp ex_like_sound eq_refl) as (R & S & D1 & D2 & _). exists R, S. intros l sha.
  apply like_insert_iff; [exact ex_like_fits|exact ex_like_scripts|exact ex_like_redeem|exact ex_like_bytes|repeat (constructor; [exact ex_like_sound|]); constructor|exact ex_like_plain|].
  exists l. split; [|split; [reflexivity|split; [exact I|reflexivity]]].
  constructor; [split; [reflexivity|]; split; [reflexivity|]; right; left; split; [reflexivity|]; split; [intros (q & X); discriminate X|]; exists R, S; auto|].
  constructor; [split; [reflexivity|]; split; [reflexivity|]; right; right; right; split; [discriminate|]; split; [discriminate|]; exists (witness_v0_script (repeat 5 20)); split; reflexivity|].
  constructor; [|constructor]. split; [reflexivity|]. split; [reflexivity|]. left. split; [reflexivity|]. split; [eexists; reflexivity|reflexivity].
Qed.
(** A key ending in 0xAE is an ordinary 33-byte compressed key. *)
Example like_key_example : let sp := {| sp_sig := ex_sig; sp_pub := 2 :: repeat 0x11 31 ++ [0xAE] |} in sound_sp sp /\ zlen (sp_pub sp) = 33 /\ last (sp_pub sp) 0 = 0xAE.
Proof. split; [exact ex_like_sound|split; reflexivity]. Qed.
Print Assumptions like_insert_iff.
Print Assumptions like_insert_key_refused.
Print Assumptions like_insert_after_hashes.
Print Assumptions like_insert_uses_up.
