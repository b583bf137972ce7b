(** btcLikeTxDriver: verification of signed transactions. *)
From Coq Require Import String ZArith List Bool Lia ZifyBool ZifyNat.
From Verif Require Import Go GoFacts GoFacts2 Rd Base58CheckModel BtcModel BtcSpec BtcProofs BtcTxProofs BtcTxProps BtcSigProps BtcVerProps SigModel SigDerProps LikeModel LikeProofs LikeProps LikeSigProofs LikeSigProps LikeInsProps Toy.
Import ListNotations.
Open Scope Z_scope.
Ltac Zify.zify_post_hook ::= idtac.

(** ** Specification *)
(** The signature and key an input script is read as: minimal or not minimal integers, type SIGHASH_ALL, 33-byte key
    (after the decoder has appended s to r in place, see SigDerProps.v). *)
Definition script_signs (script : bytes) (sp : sigpub) : Prop :=
  exists R S rest, loose_int R /\ loose_int S /\ length rest = 35%nat /\ script = sig_head R S ++ rest /\
    sp_sig sp = taken R ++ taken S /\ left_after R S rest = 1 :: 33 :: sp_pub sp.
(** What is read from one input with witness [w], and the unlock entry used for its hash: for a witness whose output is not
    native segwit the redeem script is taken from the input, not from the caller. *)
Definition like_reads (i : spec_in) (w : option sigpub) (u : lunlock) (o : sigpub * lunlock) : Prop :=
  (w = None /\ script_signs (s_script i) (fst o) /\ snd o = u) \/
  (w = Some (fst o) /\ begins (str "0014") (lu_lock u) /\ snd o = u) \/
  (w = Some (fst o) /\ ~ begins (str "0014") (lu_lock u) /\ exists x r, s_script i = x :: r /\ snd o = set_redeem (hex_encode r) u).
Inductive like_reads_all : list spec_in -> list (option sigpub) -> list lunlock -> list (sigpub * lunlock) -> Prop :=
| lr_nil : like_reads_all [] [] [] []
| lr_cons : forall i ins w ws u us o l, like_reads i w u o -> like_reads_all ins ws us l -> like_reads_all (i :: ins) (w :: ws) (u :: us) (o :: l).
Definition like_valid (decompress : bytes -> bytes) (ecdsa : bytes -> bytes -> bytes -> bool) (h : bytes) (sp : sigpub) : Prop :=
  exists x k, decompress (sp_pub sp) = x :: k /\ ecdsa k h (sp_sig sp) = true.
Definition sig_field (s : spec_in) : Prop := zlen (s_txid s) = 32 /\ is_bytes (s_script s) /\ zlen (s_script s) <= 253.

(** ** Lemmas *)
Lemma decode_wit_field w rest : wit_good w -> like_decode_wit (wit_field w ++ rest) = Ok ([shown1 w], rest).
Proof.
  intros K. destruct w as [sp|]; [|reflexivity]. pose proof (witness_script_wide sp K) as EW. destruct K as (B & L & Lp). destruct (split64 (sp_sig sp)) as (L1 & L2 & _); [unfold zlen in L; lia|]. pose proof (wide_len _ L1) as W1. pose proof (wide_len _ L2) as W2.
  unfold like_decode_wit, wit_field. cbn [app need1]. change (2 =? 0) with false. change (2 =? 2) with true. cbv iota.
  destruct (witness_script_round_trip (sp_sig sp) (sp_pub sp) B) as (script & E & D); [unfold zlen in L; lia|unfold zlen in Lp; lia|]. assert (script = sig_script (wide_int (firstn 32 (sp_sig sp))) (wide_int (skipn 32 (sp_sig sp))) 1 ++ 33 :: sp_pub sp) by congruence. subst script. clear E EW.
  set (R := wide_int (firstn 32 (sp_sig sp))) in *. set (S := wide_int (skipn 32 (sp_sig sp))) in *. set (sc := sig_script R S 1 ++ 33 :: sp_pub sp) in *.
  assert (LS : zlen sc = zlen R + zlen S + 7 + 35) by (unfold sc; rewrite zlen_app, zlen_cons, sig_script_len; lia).
  change (need1 (sc ++ rest)) with (fun k : Z -> bytes -> res (list sigpub * bytes) => k (zlen R + zlen S + 7) (tl (sc ++ rest))). cbv beta. rewrite need_app by exact LS. rewrite D. destruct sp; reflexivity.
Qed.
Lemma decode_wit_fields ws rest : Forall wit_good ws -> like_decode_wits (length ws) (concat (map wit_field ws) ++ rest) = Ok (map shown1 ws, rest).
Proof.
  induction ws as [|w ws IH]; intros F; [reflexivity|]. apply Forall_cons_iff in F as [K F]. cbn [length like_decode_wits map concat]. rewrite <- app_assoc, decode_wit_field by exact K. cbn [bind]. rewrite IH by exact F. reflexivity.
Qed.
Lemma decode_signed version ins outs ws lt : 1 <= zlen ins <= 252 -> 1 <= zlen outs <= 252 -> Forall sig_field ins -> length ws = length ins -> Forall wit_good ws ->
  like_decode (like_signed version ins outs ws lt) = Ok (ltx_of version ins outs (shown ws) lt).
Proof.
  intros Ni No Fi L F. unfold like_signed, shown.
  refine (eq_trans (decode_prefix version ins outs (existsb has_wit ws) ((if existsb has_wit ws then concat (map wit_field ws) else []) ++ le_bytes 4 lt) ltac:(lia) ltac:(lia) (fun _ => proj1 Ni) _) _); [eapply Forall_impl; [|exact Fi]; intros s Hs; apply Hs|].
  unfold after_outs. destruct (existsb has_wit ws).
  - rewrite map_length, <- L, decode_wit_fields by exact F. cbn [bind]. rewrite <- (app_nil_r (le_bytes 4 lt)). rewrite need_app by apply zlen_le_bytes. reflexivity.
  - cbn [bind app]. rewrite <- (app_nil_r (le_bytes 4 lt)). rewrite need_app by apply zlen_le_bytes. reflexivity.
Qed.
Lemma script_sp_iff script sp : is_bytes script -> like_script_sp script = Ok sp <-> script_signs script sp.
Proof.
  intros B. unfold like_script_sp, script_signs. destruct (input_script_accepts_exactly script B) as [NP Q]. destruct (decode_script script) as [[[sig pub] t]| |] eqn:E; cbn [bind].
  - destruct (t =? 1) eqn:T; split.
    + intros X. assert (sp = {| sp_sig := sig; sp_pub := pub |}) by congruence. subst sp. cbn [sp_sig sp_pub]. apply Q. replace 1 with t by lia. reflexivity.
    + intros X. apply Q in X. assert (sig = sp_sig sp /\ pub = sp_pub sp) as [-> ->] by (split; congruence). destruct sp; reflexivity.
    + discriminate.
    + intros X. apply Q in X. assert (t = 1) by congruence. lia.
  - split; [discriminate|]. intros X. apply Q in X. discriminate X.
  - contradiction.
Qed.
Lemma script_sp_not_panic script : is_bytes script -> like_script_sp script <> Panic.
Proof. intros B. unfold like_script_sp. destruct (input_script_accepts_exactly script B) as [NP _]. destruct (decode_script script) as [[[sig pub] t]| |]; cbn [bind]; [destruct (t =? 1); discriminate|discriminate|contradiction]. Qed.
Lemma read_one_iff i w u o : wit_good w -> is_bytes (s_script i) -> like_read_one (Some (shown1 w)) (lin_of i) u = Ok o <-> like_reads i w u o.
Proof.
  intros K B. unfold like_read_one, like_reads. change (li_script (lin_of i)) with (s_script i). destruct w as [sp|]; cbn [shown1].
  - replace (zlen (sp_sig sp) =? 0) with false by (destruct K as (_ & L & _); lia). destruct (is_prefix (str "0014") (lu_lock u)) eqn:P.
    + apply is_prefix_begins in P. split.
      * intros E. right. left. assert (o = (sp, u)) by congruence. subst o. auto.
      * intros [(Q & _)|[(Q & _ & U)|(_ & Q & _)]]; [discriminate Q| |contradiction]. destruct o as [a b]. cbn [fst snd] in *. congruence.
    + assert (NB : ~ begins (str "0014") (lu_lock u)) by (intros Q; apply is_prefix_begins in Q; congruence). destruct (s_script i) as [|x r] eqn:Es.
      * change (slice_from (@nil Z) 1) with (@Panic bytes). cbn [bind]. split; [discriminate|]. intros [(Q & _)|[(_ & Q & _)|(_ & _ & x & r & Q & _)]]; [discriminate Q|contradiction|discriminate Q].
      * rewrite slice_from_cons. cbn [bind]. split.
        -- intros E. right. right. assert (o = (sp, set_redeem (hex_encode r) u)) by congruence. subst o. split; [reflexivity|]. split; [exact NB|]. exists x, r. auto.
        -- intros [(Q & _)|[(_ & Q & _)|(Q & _ & x' & r' & E & U)]]; [discriminate Q|contradiction|]. destruct o as [a b]. cbn [fst snd] in *. assert (r' = r) by congruence. subst r'. congruence.
  - change (zlen (sp_sig no_sigpub) =? 0) with true. cbv iota. split.
    + intros E. apply bind_ok in E as (sp & E1 & E). apply script_sp_iff in E1; [|exact B]. left. assert (o = (sp, u)) by congruence. subst o. auto.
    + intros [(_ & Q & U)|[(Q & _)|(Q & _)]]; [|discriminate Q|discriminate Q]. apply script_sp_iff in Q; [|exact B]. rewrite Q. cbn [bind]. destruct o as [a b]. cbn [fst snd] in *. congruence.
Qed.
Lemma read_loop_iff ins : forall ws us sps us1, Forall wit_good ws -> Forall (fun s => is_bytes (s_script s)) ins -> length ws = length ins -> length us = length ins ->
  like_read_loop (map shown1 ws) (map lin_of ins) us = Ok (sps, us1) <-> exists l, like_reads_all ins ws us l /\ sps = map fst l /\ us1 = map snd l.
Proof.
  induction ins as [|i ins IH]; intros ws us sps us1 Fw Fb Lw Lu; destruct ws as [|w ws]; try discriminate Lw; destruct us as [|u us]; try discriminate Lu; cbn [map like_read_loop].
  - split.
    + intros E. exists []. split; [constructor|]. cbn [map]. split; congruence.
    + intros (l & A & -> & ->). inversion A; subst. reflexivity.
  - apply Forall_cons_iff in Fw as [W0 Fw]. apply Forall_cons_iff in Fb as [B0 Fb]. cbn [length] in Lw, Lu. cbn [hd_error tl]. pose proof (read_one_iff i w u) as One. split.
    + intros E. apply bind_ok in E as ([sp u1] & E1 & E). apply One in E1; try assumption. apply bind_ok in E as ([sps2 us2] & E2 & E). apply IH in E2 as (l & A & -> & ->); [|exact Fw|exact Fb|lia|lia].
      exists ((sp, u1) :: l). split; [constructor; assumption|]. cbn [map fst snd]. split; congruence.
    + intros (l & A & -> & ->). inversion A as [|? ? ? ? ? ? [sp u1] l1 Q A1]; subst. rewrite (proj2 (One (sp, u1) W0 B0) Q). cbn [bind]. rewrite (proj2 (IH ws us (map fst l1) (map snd l1) Fw Fb ltac:(lia) ltac:(lia))) by eauto. reflexivity.
Qed.
Lemma plain_reads ins : forall us sps, Forall (fun s => is_bytes (s_script s)) ins -> length us = length ins ->
  mapr (fun i => like_script_sp (li_script i)) (map lin_of ins) = Ok sps <-> exists l, like_reads_all ins (map (fun _ => None) ins) us l /\ sps = map fst l /\ us = map snd l.
Proof.
  induction ins as [|i ins IH]; intros us sps Fb Lu; destruct us as [|u us]; try discriminate Lu; cbn [map mapr].
  - split.
    + intros E. exists []. split; [constructor|]. cbn [map]. split; congruence.
    + intros (l & A & -> & _). inversion A; subst. reflexivity.
  - apply Forall_cons_iff in Fb as [B0 Fb]. cbn [length] in Lu. change (li_script (lin_of i)) with (s_script i). split.
    + intros E. apply bind_ok in E as (sp & E1 & E). apply script_sp_iff in E1; [|exact B0]. apply bind_ok in E as (sps2 & E2 & E). apply (IH us) in E2 as (l & A & E3 & E4); [|exact Fb|lia].
      exists ((sp, u) :: l). split; [constructor; [left; auto|exact A]|]. cbn [map fst snd]. split; congruence.
    + intros (l & A & -> & _). inversion A as [|? ? ? ? ? ? [sp u1] l1 Q A1]; subst. destruct Q as [(_ & Q & E)|[(Q & _)|(Q & _)]]; [|discriminate Q|discriminate Q]. cbn [fst snd] in Q, E. apply script_sp_iff in Q; [|exact B0]. rewrite Q. cbn [bind].
      assert (M : forall ins us l, like_reads_all ins (map (fun _ => None) ins) us l -> us = map snd l).
      { clear. induction ins as [|i ins IH]; intros us l A; inversion A as [|? ? ? ? ? ? o l1 Q A1]; subst; [reflexivity|]. cbn [map]. destruct Q as [(_ & _ & E)|[(Q & _)|(Q & _)]]; [|discriminate Q|discriminate Q]. rewrite E. f_equal. apply IH, A1. }
      rewrite (proj2 (IH us (map fst l1) Fb ltac:(lia))) by (exists l1; split; [exact A1|split; [reflexivity|apply (M ins us l1 A1)]]). reflexivity.
Qed.
Lemma no_wits ws : existsb has_wit ws = false -> ws = map (fun _ => None) ws.
Proof. induction ws as [|[sp|] ws IH]; intros E; [reflexivity|discriminate E|]. cbn [map]. f_equal. apply IH, E. Qed.
Lemma map_none_len {A B} (a : list A) : forall b : list B, length a = length b -> map (fun _ => @None sigpub) a = map (fun _ => None) b.
Proof. induction a as [|x a IH]; intros [|y b] L; try discriminate L; [reflexivity|]. cbn [map]. f_equal. apply IH. cbn [length] in L. lia. Qed.
Lemma reads_step ins ws us sps us1 : Forall wit_good ws -> Forall (fun s => is_bytes (s_script s)) ins -> length ws = length ins -> length us = length ins ->
  (if zlen (shown ws) =? 0 then sps <- mapr (fun i => like_script_sp (li_script i)) (map lin_of ins) ;; Ok (sps, us) else like_read_loop (shown ws) (map lin_of ins) us) = Ok (sps, us1) <->
  exists l, like_reads_all ins ws us l /\ sps = map fst l /\ us1 = map snd l.
Proof.
  intros Fw Fb Lw Lu. unfold shown. destruct (existsb has_wit ws) eqn:X.
  - replace (zlen (map shown1 ws) =? 0) with false; [apply read_loop_iff; assumption|]. destruct ws as [|w ws]; [discriminate X|]. cbn [map]. rewrite zlen_cons. pose proof (zlen_nonneg (map shown1 ws)). lia.
  - change (zlen (@nil sigpub) =? 0) with true. cbv iota. apply no_wits in X. rewrite (map_none_len ws ins Lw) in X. rewrite X. split.
    + intros E. apply bind_ok in E as (sps1 & E1 & E). apply (plain_reads ins us) in E1 as (l & A & E2 & E3); [|exact Fb|exact Lu]. exists l. split; [exact A|]. split; congruence.
    + intros (l & A & -> & ->). pose proof A as A'. assert (M : us = map snd l).
      { clear - A. revert us l A. induction ins as [|i ins IH]; intros us l A; inversion A as [|? ? ? ? ? ? o l1 Q A1]; subst; [reflexivity|]. cbn [map]. destruct Q as [(_ & _ & E)|[(Q & _)|(Q & _)]]; [|discriminate Q|discriminate Q]. rewrite E. f_equal. apply IH, A1. }
      rewrite (proj2 (plain_reads ins us (map fst l) Fb Lu)) by eauto. cbn [bind]. congruence.
Qed.
Lemma check_true decompress ecdsa : forall sps hs, length hs = length sps -> like_check decompress ecdsa hs sps = Ok true <-> Forall2 (like_valid decompress ecdsa) hs sps.
Proof.
  induction sps as [|sp sps IH]; intros hs L; destruct hs as [|h hs]; try discriminate L; cbn [like_check]; [split; [constructor|reflexivity]|]. cbn [length] in L. destruct (decompress (sp_pub sp)) as [|x k] eqn:D.
  - change (slice_from (@nil Z) 1) with (@Panic bytes). cbn [bind]. split; [discriminate|]. intros F. inversion F as [|? ? ? ? (x & k & E & _) _]; subst. congruence.
  - rewrite slice_from_cons. cbn [bind]. destruct (ecdsa k h (sp_sig sp)) eqn:V.
    + rewrite IH by lia. split; [intros F; constructor; [exists x, k; auto|exact F]|intros F; inversion F; assumption].
    + split; [discriminate|]. intros F. inversion F as [|? ? ? ? (x' & k' & E & E2) _]; subst. congruence.
Qed.
Definition valid_all (decompress : bytes -> bytes) (ecdsa : bytes -> bytes -> bytes -> bool) (hs : list bytes) (sps : list sigpub) : bool :=
  forallb (fun p => ecdsa (tl (decompress (sp_pub (snd p)))) (fst p) (sp_sig (snd p))) (combine hs sps).
Lemma check_bool decompress ecdsa : (forall k, decompress k <> []) -> forall sps hs, length hs = length sps -> like_check decompress ecdsa hs sps = Ok (valid_all decompress ecdsa hs sps).
Proof.
  intros N. induction sps as [|sp sps IH]; intros hs L; destruct hs as [|h hs]; try discriminate L; cbn [like_check]; [reflexivity|]. cbn [length] in L. unfold valid_all. cbn [combine forallb fst snd]. pose proof (N (sp_pub sp)) as Np. destruct (decompress (sp_pub sp)) as [|x k]; [contradiction|].
  rewrite slice_from_cons. cbn [bind tl]. destruct (ecdsa k h (sp_sig sp)); [|reflexivity]. apply IH. lia.
Qed.
Lemma reads_facts ins ws us l : like_reads_all ins ws us l -> length l = length ins /\ length ws = length ins /\ length us = length ins.
Proof. induction 1 as [|i ins w ws u us o l Q A IH]; [auto|]. cbn [length]. lia. Qed.
Lemma reads_redeem ins ws us l : Forall sig_field ins -> Forall redeem_small us -> like_reads_all ins ws us l -> Forall redeem_small (map snd l).
Proof.
  intros Fi Fu A. induction A as [|i ins w ws u us o l Q A IH]; [constructor|]. apply Forall_cons_iff in Fi as [I0 Fi]. apply Forall_cons_iff in Fu as [U0 Fu]. cbn [map]. constructor; [|apply IH; assumption].
  destruct Q as [(_ & _ & E)|[(_ & _ & E)|(_ & _ & x & r & Es & E)]]; rewrite E; [exact U0|exact U0|]. destruct I0 as (_ & B & L). rewrite Es in B, L. apply Forall_cons_iff in B as [_ B]. rewrite zlen_cons in L.
  intros q Eq. cbn [set_redeem lu_redeem] in Eq. rewrite hex_decode_encode in Eq by exact B. assert (q = r) by congruence. subst q. lia.
Qed.
Section Verify.
Variables (H sha : bytes -> bytes) (decompress : bytes -> bytes) (ecdsa : bytes -> bytes -> bytes -> bool).
Variables (version : Z) (ins : list spec_in) (outs : list spec_out) (ws : list (option sigpub)) (lt : Z).
Hypotheses (Ni : 1 <= zlen ins <= 252) (No : 1 <= zlen outs <= 252) (Fi : Forall sig_field ins) (Fo : Forall (fun s => zlen (s_lock s) <= 252) outs).
Hypotheses (Lw : length ws = length ins) (Fw : Forall wit_good ws) (B : is_bytes (like_signed version ins outs ws lt)).
Lemma fits_here : tx_fits ins outs.
Proof. split; [exact Ni|]. split; [exact No|]. split; [|exact Fo]. eapply Forall_impl; [|exact Fi]. intros s Hs. apply Hs. Qed.
Lemma bytes_here : Forall (fun s => is_bytes (s_script s)) ins.
Proof. eapply Forall_impl; [|exact Fi]. intros s Hs. apply Hs. Qed.
Lemma verify_core us : Forall redeem_small us -> forall b, b = true ->
  like_verify H sha decompress ecdsa (hex_encode (like_signed version ins outs ws lt)) us = Ok b <->
  exists l hl, like_reads_all ins ws us l /\ pointwise (like_signs H version ins outs lt) 0 (map snd l) hl /\ like_check decompress ecdsa (map fst hl) (map fst l) = Ok b.
Proof.
  intros Fu b Hb. unfold like_verify. rewrite hex_decode_encode by exact B. cbn [bind]. rewrite decode_signed by assumption. cbn [bind].
  change (l_vins (ltx_of version ins outs (shown ws) lt)) with (map lin_of ins). rewrite zlen_map. change (l_wit (ltx_of version ins outs (shown ws) lt)) with (shown ws).
  change {| l_version := l_version (ltx_of version ins outs (shown ws) lt); l_vins := map lin_of ins; l_vouts := l_vouts (ltx_of version ins outs (shown ws) lt); l_wit := []; l_locktime := l_locktime (ltx_of version ins outs (shown ws) lt) |} with (ltx_of version ins outs [] lt).
  destruct (zlen ins =? zlen us) eqn:L; cbn [negb].
  2: { split; [intros E; congruence|]. intros (l & hl & A & _). destruct (reads_facts _ _ _ _ A) as (_ & _ & Q). unfold zlen in L. lia. }
  assert (Lu : length us = length ins) by (unfold zlen in L; lia).
  pose proof (fun sps us1 => reads_step ins ws us sps us1 Fw bytes_here Lw Lu) as RS.
  remember (if zlen (shown ws) =? 0 then sps <- mapr (fun i => like_script_sp (li_script i)) (map lin_of ins) ;; Ok (sps, us) else like_read_loop (shown ws) (map lin_of ins) us) as rd eqn:Erd. clear Erd.
  assert (HL : forall us1, length us1 = length ins -> like_hashes H sha (ltx_of version ins outs [] lt) us1 = like_hash_loop H sha (ltx_of version ins outs [] lt) 0 us1).
  { intros us1 L1. unfold like_hashes. change (l_vins (ltx_of version ins outs [] lt)) with (map lin_of ins). rewrite zlen_map. replace (zlen ins =? 0) with false by lia. replace (zlen ins =? zlen us1) with true by (unfold zlen; lia). reflexivity. }
  split.
  - destruct rd as [[sps us1]| |]; cbn [bind]; [|intros E; congruence|discriminate]. destruct (proj1 (RS sps us1) eq_refl) as (l & A & -> & ->). destruct (reads_facts _ _ _ _ A) as (L1 & _ & _).
    rewrite HL by (rewrite map_length; exact L1). destruct (like_hash_loop H sha (ltx_of version ins outs [] lt) 0 (map snd l)) as [[hs us2]| |] eqn:E2; cbn [bind]; [|intros E; congruence|discriminate].
    destruct (proj1 (hash_loop_iff H sha version ins outs lt fits_here _ _ _ _ (reads_redeem _ _ _ _ Fi Fu A)) E2) as (hl & -> & _ & P). intros E. exists l, hl. split; [exact A|]. split; [exact P|].
    destruct (like_check decompress ecdsa (map fst hl) (map fst l)) as [c| |]; [exact E|congruence|discriminate E].
  - intros (l & hl & A & P & E). destruct (reads_facts _ _ _ _ A) as (L1 & _ & _). rewrite (proj2 (RS (map fst l) (map snd l))) by eauto. cbn [bind]. rewrite HL by (rewrite map_length; exact L1).
    rewrite (proj2 (hash_loop_iff H sha version ins outs lt fits_here (map snd l) 0%nat (map fst hl) (map snd hl) (reads_redeem _ _ _ _ Fi Fu A))) by eauto. cbn [bind]. rewrite E. reflexivity.
Qed.
Lemma verify_computed us l hl b : Forall redeem_small us -> like_reads_all ins ws us l -> pointwise (like_signs H version ins outs lt) 0 (map snd l) hl -> like_check decompress ecdsa (map fst hl) (map fst l) = Ok b ->
  like_verify H sha decompress ecdsa (hex_encode (like_signed version ins outs ws lt)) us = Ok b.
Proof.
  intros Fu A P E. unfold like_verify. rewrite hex_decode_encode by exact B. cbn [bind]. rewrite decode_signed by assumption. cbn [bind].
  change (l_vins (ltx_of version ins outs (shown ws) lt)) with (map lin_of ins). rewrite zlen_map. change (l_wit (ltx_of version ins outs (shown ws) lt)) with (shown ws).
  change {| l_version := l_version (ltx_of version ins outs (shown ws) lt); l_vins := map lin_of ins; l_vouts := l_vouts (ltx_of version ins outs (shown ws) lt); l_wit := []; l_locktime := l_locktime (ltx_of version ins outs (shown ws) lt) |} with (ltx_of version ins outs [] lt).
  destruct (reads_facts _ _ _ _ A) as (L1 & _ & Lu). replace (zlen ins =? zlen us) with true by (unfold zlen; lia). cbn [negb].
  rewrite (proj2 (reads_step ins ws us (map fst l) (map snd l) Fw bytes_here Lw Lu)) by eauto. cbn [bind].
  assert (HL : like_hashes H sha (ltx_of version ins outs [] lt) (map snd l) = like_hash_loop H sha (ltx_of version ins outs [] lt) 0 (map snd l)).
  { unfold like_hashes. change (l_vins (ltx_of version ins outs [] lt)) with (map lin_of ins). rewrite zlen_map. replace (zlen ins =? 0) with false by lia. replace (zlen ins =? zlen (map snd l)) with true by (rewrite zlen_map; unfold zlen; lia). reflexivity. }
  rewrite HL, (proj2 (hash_loop_iff H sha version ins outs lt fits_here (map snd l) 0%nat (map fst hl) (map snd hl) (reads_redeem _ _ _ _ Fi Fu A))) by eauto. cbn [bind]. rewrite E. reflexivity.
Qed.
End Verify.
(** ** C118 *)
(** A signed transaction is accepted exactly when every input is read as a signature and key and the signature verifies
    under that key for the consensus hash. *)
Theorem like_verify_iff : forall H sha decompress ecdsa version ins outs ws lt us,
  1 <= zlen ins <= 252 -> 1 <= zlen outs <= 252 -> Forall sig_field ins -> Forall (fun s => zlen (s_lock s) <= 252) outs ->
  length ws = length ins -> Forall wit_good ws -> is_bytes (like_signed version ins outs ws lt) -> Forall redeem_small us ->
  like_verify H sha decompress ecdsa (hex_encode (like_signed version ins outs ws lt)) us = Ok true <->
  exists l hl, like_reads_all ins ws us l /\ pointwise (like_signs H version ins outs lt) 0 (map snd l) hl /\ Forall2 (like_valid decompress ecdsa) (map fst hl) (map fst l).
Proof.
  intros H sha decompress ecdsa version ins outs ws lt us Ni No Fi Fo Lw Fw B Fu. rewrite verify_core by (assumption || reflexivity).
  assert (G : forall l hl, like_reads_all ins ws us l -> pointwise (like_signs H version ins outs lt) 0 (map snd l) hl -> length (map fst hl) = length (map fst l)) by (intros l hl A P; apply pointwise_len in P; rewrite !map_length in *; lia).
  split; intros (l & hl & A & P & E); exists l, hl; (split; [exact A|]; split; [exact P|]); apply check_true; auto; exact (G l hl A P).
Qed.
Lemma only_at_strip script ins : forall n k, map (at_step n script) (combine (seq k (length ins)) ins) = map (at_step n script) (combine (seq k (length (map strip_in ins))) (map strip_in ins)).
Proof. induction ins as [|i ins IH]; intros n k; [reflexivity|]. cbn [map length seq combine]. f_equal. apply IH. Qed.
Lemma legacy_strip version ins ins' outs lt n script : map strip_in ins' = map strip_in ins -> legacy_preimage version ins' outs lt n script = legacy_preimage version ins outs lt n script.
Proof.
  intros E. assert (G : forall l, spec_scripts_only_at n script l = map (at_step n script) (combine (seq 0 (length (map strip_in l))) (map strip_in l))) by (intros l; rewrite <- only_at_strip; reflexivity).
  unfold legacy_preimage. rewrite (G ins'), (G ins), E. reflexivity.
Qed.
Lemma bip143_strip H version ins ins' outs lt i i' code amount : map strip_in ins' = map strip_in ins -> strip_in i' = strip_in i -> bip143_preimage H version ins' outs lt i' code amount = bip143_preimage H version ins outs lt i code amount.
Proof.
  intros E Ei. unfold bip143_preimage.
  assert (G1 : forall l, map (fun i => s_txid i ++ le_bytes 4 (s_vout i)) l = map (fun i => s_txid i ++ le_bytes 4 (s_vout i)) (map strip_in l)) by (intros l; rewrite map_map; reflexivity).
  assert (G2 : forall l, map (fun i => le_bytes 4 (s_seq i)) l = map (fun i => le_bytes 4 (s_seq i)) (map strip_in l)) by (intros l; rewrite map_map; reflexivity).
  rewrite (G1 ins'), (G2 ins'), E, <- (G1 ins), <- (G2 ins). change (s_txid i') with (s_txid (strip_in i')). change (s_vout i') with (s_vout (strip_in i')). change (s_seq i') with (s_seq (strip_in i')). rewrite Ei. reflexivity.
Qed.
Lemma signs_strip H version ins ins' outs lt n u p : map strip_in ins' = map strip_in ins -> like_signs H version ins outs lt n u p -> like_signs H version ins' outs lt n u p.
Proof.
  intros E (lock & i & El & En & Q). assert (N : exists i', nth_error ins' n = Some i' /\ strip_in i' = strip_in i).
  { pose proof (map_nth_error strip_in _ _ En) as M. rewrite <- E, nth_error_map in M. destruct (nth_error ins' n) as [i'|]; [|discriminate M]. exists i'. cbn in M. split; congruence. }
  destruct N as (i' & En' & Ei). exists lock, i'. split; [exact El|]. split; [exact En'|]. rewrite (legacy_strip version ins ins' outs lt n lock E).
  destruct Q as [Q|[(h & extra & r & code & A1 & A2 & A3 & A4 & A5 & A6)|(h & A1 & A2 & A3)]]; [left; exact Q|right; left|right; right].
  - exists h, extra, r, code. rewrite (bip143_strip H version ins ins' outs lt i i' code (lu_amount u) E Ei). auto 10.
  - exists h. rewrite (bip143_strip H version ins ins' outs lt i i' (p2pkh_script h) (lu_amount u) E Ei). auto.
Qed.
Lemma fills_strip ins us sps l : like_fills_all ins us sps l -> map strip_in (map o_in l) = map strip_in ins.
Proof. induction 1 as [|i ins u us sp sps s w u' l Q FA IH]; [reflexivity|]. cbn [map]. f_equal. exact IH. Qed.
Lemma concat_bytes {A} (f : A -> bytes) l : is_bytes (concat (map f l)) -> Forall (fun x => is_bytes (f x)) l.
Proof. induction l as [|x l IH]; intros B; [constructor|]. cbn [map concat] in B. apply is_bytes_app in B as [B1 B2]. constructor; [exact B1|apply IH, B2]. Qed.
Lemma tx_bytes version ins outs lt : tx_fits ins outs -> Forall (fun s => zlen (s_script s) <= 252) ins -> is_bytes (consensus_tx version ins outs lt) ->
  Forall (fun s => is_bytes (s_txid s)) ins /\ Forall (fun s => is_bytes (s_lock s)) outs.
Proof.
  intros (Ni & No & Fi & Fo) Fs B. rewrite <- wire_is_consensus in B by (assumption || lia). unfold wire_spec_tx in B. apply is_bytes_app in B as [_ B]. apply Forall_cons_iff in B as [_ B]. apply is_bytes_app in B as [B1 B]. apply Forall_cons_iff in B as [_ B]. apply is_bytes_app in B as [B2 _].
  apply concat_bytes in B1. apply concat_bytes in B2. split; [eapply Forall_impl; [|exact B1]|eapply Forall_impl; [|exact B2]]; intros s Q; unfold wire_spec_in, wire_spec_out in Q.
  - apply is_bytes_app in Q as [Q _]. exact Q.
  - apply is_bytes_app in Q as [_ Q]. apply Forall_cons_iff in Q as [_ Q]. exact Q.
Qed.
Lemma bytes_concat {A} (f : A -> bytes) l : Forall (fun x => is_bytes (f x)) l -> is_bytes (concat (map f l)).
Proof. induction 1 as [|x l B F IH]; [constructor|]. cbn [map concat]. apply is_bytes_app. split; assumption. Qed.
Lemma wide_bytes r : is_bytes r -> is_bytes (wide_int r).
Proof. intros B. unfold wide_int. destruct (128 <=? hd 0 r); [constructor; [unfold is_byte; lia|exact B]|exact B]. Qed.
Lemma signed_are_bytes version ins outs ws lt : 1 <= zlen ins <= 252 -> 1 <= zlen outs <= 252 -> Forall sig_field ins -> Forall (fun s => is_bytes (s_txid s)) ins -> Forall (fun s => zlen (s_lock s) <= 252) outs -> Forall (fun s => is_bytes (s_lock s)) outs ->
  Forall (fun w => wit_good w /\ match w with Some sp => is_bytes (sp_pub sp) | None => True end) ws -> is_bytes (like_signed version ins outs ws lt).
Proof.
  intros Ni No Fi Ft Fo Fl Fw. unfold like_signed. apply is_bytes_app; split; [apply le_bytes_is_bytes|]. apply is_bytes_app; split; [destruct (existsb has_wit ws); [apply is_bytes_b; reflexivity|constructor]|].
  constructor; [unfold is_byte; lia|]. apply is_bytes_app; split.
  - apply bytes_concat. rewrite Forall_forall in *. intros s I. specialize (Fi s I). specialize (Ft s I). destruct Fi as (_ & Bs & Ls). pose proof (zlen_nonneg (s_script s)). unfold wire_spec_in. apply is_bytes_app; split; [exact Ft|]. apply is_bytes_app; split; [apply le_bytes_is_bytes|].
    constructor; [unfold is_byte; lia|]. apply is_bytes_app; split; [exact Bs|apply le_bytes_is_bytes].
  - constructor; [unfold is_byte; lia|]. apply is_bytes_app; split.
    + apply bytes_concat. rewrite Forall_forall in *. intros s I. specialize (Fo s I). specialize (Fl s I). pose proof (zlen_nonneg (s_lock s)). unfold wire_spec_out. apply is_bytes_app; split; [apply le_bytes_is_bytes|]. constructor; [unfold is_byte; cbn in Fo; lia|exact Fl].
    + apply is_bytes_app; split; [|apply le_bytes_is_bytes]. destruct (existsb has_wit ws); [|constructor]. apply bytes_concat. eapply Forall_impl; [|exact Fw]. intros w [G P]. destruct w as [sp|]; [|apply is_bytes_b; reflexivity].
      destruct G as (Bs & Ls & Lp). destruct (halves_bytes _ Bs) as [B1 B2]. destruct (split64 (sp_sig sp)) as (L1 & L2 & _); [unfold zlen in Ls; lia|]. pose proof (wide_len _ L1). pose proof (wide_len _ L2). cbn [wit_field]. constructor; [unfold is_byte; lia|]. apply is_bytes_app; split; [|constructor; [unfold is_byte; lia|exact P]].
      apply sig_script_bytes; [apply wide_bytes, B1|apply wide_bytes, B2|lia|lia|unfold is_byte; lia].
Qed.
(** The usual entries: a key hash or native segwit output without redeem script, or a script hash output. *)
Definition usual (u : lunlock) : Prop :=
  exists h, length h = 20%nat /\ ((hex_decode (lu_lock u) = Ok (p2pkh_script h) /\ lu_redeem u = []) \/ hex_decode (lu_lock u) = Ok (p2sh_script h) \/ (hex_decode (lu_lock u) = Ok (witness_v0_script h) /\ lu_redeem u = [])).
Lemma checked_step H version ins outs lt n u p v v0 i sp s w u' : usual u -> like_signs H version ins outs lt n u p -> v = u \/ v = snd p -> v0 = u \/ v0 = snd p -> sound_sp sp -> is_bytes (sp_pub sp) -> readable (sp_sig sp) ->
  like_fills v sp (s, w, u') -> exists o q, like_reads (with_script i s) w v0 o /\ fst o = sp /\ like_signs H version ins outs lt n (snd o) q /\ fst q = fst p /\ is_bytes s.
Proof.
  intros (h & Lh & U) S1 Ev Ev0 K Bp Rd (L1 & L2 & Q). pose proof S1 as (lock & j & El & En & S2). destruct (K L1) as (Bs & Nr & Ns).
  destruct U as [(Eh & Er)|[Eh|(Eh & Er)]]; assert (Elk : lock = _) by (rewrite Eh in El; exact (f_equal (fun x => match x with Ok y => y | _ => [] end) (eq_sym El))).
  - assert (Sp : snd p = u). { rewrite Elk in S2. destruct S2 as [(h' & _ & _ & ->)|[(h' & e & r & c & _ & X & _)|(h' & _ & X & _)]]; [reflexivity|discriminate X|discriminate X]. }
    assert (v = u) by (destruct Ev; congruence). assert (v0 = u) by (destruct Ev0; congruence). subst v v0. assert (NB : ~ begins (str "0014") (lu_lock u)) by (intros X; apply (hex_0014_inv _ _ Eh) in X as (q & X); discriminate X).
    destruct Q as [(_ & X & _)|[(_ & _ & R & S & D1 & D2 & Q)|[(X & _)|(X & _)]]]; [contradiction| |contradiction|contradiction]. destruct (input_script_round_trip (sp_sig sp) (sp_pub sp) 1 Bs) as (script & E & D & _); [unfold zlen in L1; lia|exact Nr|exact Ns|exact Rd|unfold zlen in L2; lia|].
    destruct (der_zero_unique sp K L1) as (R' & S' & D1' & D2' & LR & LS & EE). rewrite (minimal_der_unique _ _ _ D1 D1'), (minimal_der_unique _ _ _ D2 D2') in Q. unfold encode_script in E. rewrite EE in E. cbn [bind] in E. replace (u8 (zlen (sp_pub sp))) with 33 in E by (unfold u8; rewrite L2; reflexivity).
    assert (Es : s = script) by congruence. assert (w = None) by congruence. subst w. assert (BS : is_bytes script).
    { assert (EB : script = sig_script R' S' 1 ++ 33 :: sp_pub sp) by congruence. rewrite EB. apply is_bytes_app; split; [apply sig_script_bytes; [apply D1'|apply D2'|exact LR|exact LS|unfold is_byte; lia]|]. constructor; [unfold is_byte; lia|exact Bp]. }
    exists (sp, u), p. cbn [fst snd]. split; [left; split; [reflexivity|]; split; [|reflexivity]|]; [|rewrite Es; auto]. cbn [with_script s_script fst]. rewrite Es. apply script_sp_iff; [exact BS|]. unfold like_script_sp. rewrite D. destruct sp; reflexivity.
  - rewrite Elk in S2. destruct S2 as [(h' & _ & X & _)|[(h' & e & r & c & Lh' & X & Le & Er & Lc & Ep)|(h' & _ & X & _)]]; [discriminate X| |discriminate X].
    assert (Sp : snd p = u) by (rewrite Ep; reflexivity). assert (v = u) by (destruct Ev; congruence). assert (v0 = u) by (destruct Ev0; congruence). subst v v0. assert (NB : ~ begins (str "0014") (lu_lock u)) by (intros Y; apply (hex_0014_inv _ _ Eh) in Y as (q & Y); discriminate Y).
    assert (Nr0 : r <> []) by (destruct Lc as [(h2 & _ & -> & _)|(N & _)]; [discriminate|exact N]). assert (NR : lu_redeem u <> []) by (intros Y; rewrite Y in Er; cbn in Er; congruence).
    destruct Q as [(Y & _)|[(Y & _)|[(_ & Y & _)|(_ & _ & r' & Er' & Q)]]]; [contradiction|contradiction|rewrite Y in Eh; discriminate Eh|]. assert (r' = r) by congruence. subst r'. assert (Es : s = zlen r mod 256 :: r) by congruence. assert (w = Some sp) by congruence. subst w.
    assert (Br : is_bytes r) by (apply (proj1 (hex_decode_bytes _ _ Er))).
    exists (sp, set_redeem (hex_encode r) u), (fst p, set_redeem (hex_encode r) u). cbn [fst snd]. split; [|split; [reflexivity|split; [|split; [reflexivity|]]]].
    + right. right. cbn [fst snd with_script s_script]. split; [reflexivity|]. split; [exact NB|]. exists (zlen r mod 256), r. split; [exact Es|reflexivity].
    + exists lock, j. cbn [set_redeem lu_lock lu_redeem lu_amount]. split; [exact El|]. split; [exact En|]. right. left. exists h', e, r, c. split; [exact Lh'|]. split; [rewrite Elk; exact X|]. split; [exact Le|]. split; [apply hex_decode_encode, Br|]. split; [exact Lc|]. rewrite Ep. reflexivity.
    + rewrite Es. constructor; [|exact Br]. unfold is_byte. apply Z.mod_pos_bound. lia.
  - assert (BG : begins (str "0014") (lu_lock u)) by (apply (hex_0014 (lu_lock u) h); rewrite Eh; unfold witness_v0_script, zlen; rewrite Lh; reflexivity). pose proof (signs_native _ _ _ _ _ _ _ _ h S1 Lh Eh) as Sp.
    assert (Lk0 : lu_lock v0 = lu_lock u) by (destruct Ev0 as [->| ->]; [reflexivity|rewrite Sp; reflexivity]).
    assert (S0 : like_signs H version ins outs lt n v0 p) by (destruct Ev0 as [->| ->]; [exact S1|exact (signs_again _ _ _ _ _ _ _ _ S1)]).
    assert (W : w = Some sp /\ is_bytes s).
    { destruct Ev as [Ev|Ev]; subst v.
      - destruct Q as [(_ & _ & Q)|[(_ & X & _)|[(X & _)|(X & _)]]]; [|contradiction|contradiction|contradiction]. split; [congruence|]. assert (Es : s = []) by congruence. rewrite Es. constructor.
      - rewrite Sp in Q. cbn [set_redeem lu_redeem lu_lock] in Q. destruct Q as [(X & _)|[(X & _)|[(_ & X & _)|(_ & _ & r & Er' & Q)]]]; [rewrite X in Eh; discriminate Eh|rewrite X in Eh; discriminate Eh|rewrite X in Eh; discriminate Eh|].
        split; [congruence|]. assert (Es : s = zlen r mod 256 :: r) by congruence. rewrite Es. constructor; [unfold is_byte; apply Z.mod_pos_bound; lia|]. apply (proj1 (hex_decode_bytes _ _ Er')). }
    destruct W as [-> Bsc]. exists (sp, v0), p. cbn [fst snd]. split; [|auto]. right. left. cbn [fst snd]. rewrite Lk0. auto.
Qed.
Lemma checked_all H version ins0 outs lt : forall us n hl ins v v0 sps l, pointwise (like_signs H version ins0 outs lt) n us hl -> Forall usual us ->
  Forall2 (fun a b => fst a = b \/ snd a = b) (combine us (map snd hl)) v -> Forall2 (fun a b => fst a = b \/ snd a = b) (combine us (map snd hl)) v0 ->
  Forall sound_sp sps -> Forall (fun sp => is_bytes (sp_pub sp) /\ readable (sp_sig sp)) sps -> like_fills_all ins v sps l ->
  exists l2 hl2, like_reads_all (map o_in l) (map o_wit l) v0 l2 /\ map fst l2 = firstn (length ins) sps /\ pointwise (like_signs H version ins0 outs lt) n (map snd l2) hl2 /\ map fst hl2 = map fst hl /\ Forall (fun s => is_bytes (s_script s)) (map o_in l).
Proof.
  intros us n hl ins v v0 sps l P. revert ins v v0 sps l. induction P as [|n u p us hl S1 P IH]; intros ins v v0 sps l FU Fv Fv0 K Kb FA.
  - cbn [map combine] in *. inversion Fv; subst. inversion Fv0; subst. inversion FA; subst. exists [], []. cbn [map length firstn]. split; [constructor|]. split; [reflexivity|]. split; [constructor|]. split; [reflexivity|constructor].
  - cbn [map combine] in Fv, Fv0. inversion Fv as [|? v1 ? v' E1 Fv1]; subst. inversion Fv0 as [|? v01 ? v0' E2 Fv2]; subst. cbn [fst snd] in E1, E2. apply Forall_cons_iff in FU as [U0 FU]. inversion FA as [|i ins1 ? ? sp sps1 s w u' l1 Q FA1]; subst.
    apply Forall_cons_iff in K as [K0 K]. apply Forall_cons_iff in Kb as [[Kb0 Rd0] Kb].
    destruct (checked_step H version ins0 outs lt n u p v1 v01 i sp s w u' U0 S1 ltac:(destruct E1; auto) ltac:(destruct E2; auto) K0 Kb0 Rd0 Q) as (o & q & R1 & R2 & R3 & R4 & R5).
    destruct (IH ins1 v' v0' sps1 l1 FU Fv1 Fv2 K Kb FA1) as (l2 & hl2 & I1 & I2 & I3 & I4 & I5). exists (o :: l2), (q :: hl2). cbn [map length firstn].
    split; [constructor; [exact R1|exact I1]|]. split; [rewrite R2, I2; reflexivity|]. split; [constructor; assumption|]. split; [rewrite R4, I4; reflexivity|]. constructor; [exact R5|exact I5].
Qed.
Lemma either_all {A} (a b : list A) c : length a = length b -> c = a \/ c = b -> Forall2 (fun p x => fst p = x \/ snd p = x) (combine a b) c.
Proof.
  intros L E. assert (G : Forall2 (fun p x => fst p = x \/ snd p = x) (combine a b) a /\ Forall2 (fun p x => fst p = x \/ snd p = x) (combine a b) b); [|destruct E as [->| ->]; apply G].
  clear c E. revert b L. induction a as [|x a IH]; intros [|y b] L; try discriminate L; [split; constructor|]. destruct (IH b) as [I1 I2]; [cbn [length] in L; lia|]. cbn [combine]. split; constructor; auto.
Qed.
Lemma round_trip_core H sha decompress ecdsa version ins outs lt sps us hl v v' v0 signed : (forall k, decompress k <> []) ->
  tx_fits ins outs -> Forall (fun s => zlen (s_script s) <= 252) ins -> Forall redeem_small us -> is_bytes (consensus_tx version ins outs lt) -> Forall usual us ->
  Forall sound_sp sps -> Forall (fun sp => is_bytes (sp_pub sp) /\ readable (sp_sig sp)) sps -> no_multisig v -> v = us \/ v = map snd hl -> v0 = us \/ v0 = map snd hl ->
  zlen us = zlen ins -> pointwise (like_signs H version ins outs lt) 0 us hl ->
  like_insert sha (hex_encode (consensus_tx version ins outs lt)) sps v = Ok (signed, v') ->
  like_verify H sha decompress ecdsa signed v0 = Ok (valid_all decompress ecdsa (map fst hl) (firstn (length ins) sps)).
Proof.
  intros HD T Fs Fu B FU K Kb NM Ev Ev0 L P I.
  pose proof (pointwise_len _ _ _ _ P) as LP.
  assert (G : forall n us l, pointwise (like_signs H version ins outs lt) n us l -> Forall redeem_small us -> Forall redeem_small (map snd l)).
  { clear. intros n us l P. induction P as [|n u p us l S1 P IH]; intros F; [constructor|]. apply Forall_cons_iff in F as [Fu F]. cbn [map]. constructor; [|apply IH, F].
    destruct S1 as (lock & i & El & _ & [(h & _ & _ & ->)|[(h & extra & r & code & _ & _ & _ & _ & _ & ->)|(h & Lh & -> & ->)]]); cbn [snd]; [exact Fu|exact Fu|].
    intros r Er. cbn [set_redeem lu_redeem] in Er. assert (r = witness_v0_script h) by congruence. subst r. rewrite wpkh_len by exact Lh. lia. }
  assert (RS : forall x, x = us \/ x = map snd hl -> Forall redeem_small x) by (intros x [->| ->]; [exact Fu|exact (G _ _ _ P Fu)]).
  apply like_insert_iff in I as (l & FA & _ & _ & ->); try assumption; [|apply RS, Ev].
  destruct (checked_all H version ins outs lt us 0%nat hl ins v v0 sps l P FU) as (l2 & hl2 & A & E1 & P2 & E2 & BS); [apply either_all; [rewrite map_length; exact LP|exact Ev]|apply either_all; [rewrite map_length; exact LP|exact Ev0]|exact K|exact Kb|exact FA|].
  destruct (fills_facts ins v sps l K (RS v Ev) (proj1 (proj2 (proj2 T))) FA) as (W1 & W2 & W3 & W4). pose proof T as (Ni & No & Fi & Fo). destruct (tx_bytes version ins outs lt T Fs B) as [Bt Bl].
  pose proof (fills_strip _ _ _ _ FA) as ST.
  assert (LZ : zlen (map o_in l) = zlen ins) by (unfold zlen; rewrite map_length; lia).
  assert (SF : Forall sig_field (map o_in l)). { apply Forall_forall. intros s Hs. rewrite Forall_forall in W2, BS. destruct (W2 s Hs) as [X1 X2]. split; [exact X1|]. split; [exact (BS s Hs)|exact X2]. }
  assert (BT : Forall (fun s => is_bytes (s_txid s)) (map o_in l)).
  { assert (M : map s_txid (map o_in l) = map s_txid ins) by (assert (M : forall x, map s_txid x = map s_txid (map strip_in x)) by (intros x; rewrite map_map; reflexivity); rewrite (M (map o_in l)), ST, <- M; reflexivity).
    rewrite <- (Forall_map s_txid is_bytes), M, (Forall_map s_txid is_bytes). exact Bt. }
  assert (WB : Forall (fun w => wit_good w /\ match w with Some sp => is_bytes (sp_pub sp) | None => True end) (map o_wit l)).
  { clear - W1 FA Kb. induction FA as [sps|i ins u us sp sps s w u' l (_ & _ & Q) FA IH]; [constructor|]. cbn [map] in *. apply Forall_cons_iff in W1 as [W0 W1]. apply Forall_cons_iff in Kb as [[Kb0 _] Kb]. constructor; [|apply IH; assumption]. split; [exact W0|].
    change (o_wit (with_script i s, w, u')) with w. destruct w as [x|]; [|exact I]. assert (Es : x = sp); [|subst x; exact Kb0]. destruct Q as [(_ & _ & Q)|[(_ & _ & R & S & _ & _ & Q)|[(_ & _ & Q)|(_ & _ & r & _ & Q)]]]; congruence. }
  assert (LF : length (map fst hl) = length (map fst l2)) by (destruct (reads_facts _ _ _ _ A) as (X & _ & _); rewrite <- E2, !map_length; rewrite <- (pointwise_len _ _ _ _ P2), map_length; reflexivity).
  rewrite <- E1, <- E2. eapply verify_computed; try eassumption; try (rewrite LZ; assumption).
  - rewrite !map_length. reflexivity.
  - apply signed_are_bytes; try assumption; rewrite LZ; assumption.
  - apply RS, Ev0.
  - clear - P2 ST. assert (X : forall n a b, pointwise (like_signs H version ins outs lt) n a b -> pointwise (like_signs H version (map o_in l) outs lt) n a b) by (induction 1; constructor; [eapply signs_strip; eassumption|assumption]). apply X, P2.
  - apply check_bool; [exact HD|]. rewrite E2. exact LF.
Qed.
(** Create the hashes, insert the signatures, with fresh or used unlock data: the verdict is the validity of the
    signatures under the keys handed in. That a key belongs to the output spent plays no part. *)
Theorem like_round_trip : forall H sha decompress ecdsa version ins outs lt sps us hexs us1 v v' v0 signed, (forall k, decompress k <> []) ->
  tx_fits ins outs -> Forall (fun s => zlen (s_script s) <= 252) ins -> Forall redeem_small us -> is_bytes (consensus_tx version ins outs lt) -> Forall usual us ->
  Forall sound_sp sps -> Forall (fun sp => is_bytes (sp_pub sp) /\ readable (sp_sig sp)) sps -> no_multisig v -> v = us \/ v = us1 -> v0 = us \/ v0 = us1 ->
  like_create_hashes H sha (hex_encode (consensus_tx version ins outs lt)) us = Ok (hexs, us1) ->
  like_insert sha (hex_encode (consensus_tx version ins outs lt)) sps v = Ok (signed, v') ->
  exists hs, hexs = map hex_encode hs /\ length hs = length ins /\ like_verify H sha decompress ecdsa signed v0 = Ok (valid_all decompress ecdsa hs (firstn (length ins) sps)).
Proof.
  intros H sha decompress ecdsa version ins outs lt sps us hexs us1 v v' v0 signed HD T Fs Fu B FU K Kb NM Ev Ev0 E I. apply like_hashes_iff in E as (L & hl & -> & -> & P); try assumption.
  exists (map fst hl). split; [rewrite map_map; reflexivity|]. split; [rewrite map_length; pose proof (pointwise_len _ _ _ _ P); unfold zlen in L; lia|]. exact (round_trip_core H sha decompress ecdsa version ins outs lt sps us hl v v' v0 signed HD T Fs Fu B FU K Kb NM Ev Ev0 L P I).
Qed.
Lemma loop_panics pre : forall wpre upre lpre i sp u ins ws us, Forall wit_good wpre -> Forall (fun s => is_bytes (s_script s)) pre -> like_reads_all pre wpre upre lpre -> zlen (sp_sig sp) <> 0 -> ~ begins (str "0014") (lu_lock u) -> s_script i = [] ->
  like_read_loop (map shown1 (wpre ++ Some sp :: ws)) (map lin_of (pre ++ i :: ins)) (upre ++ u :: us) = Panic.
Proof.
  induction pre as [|j pre IH]; intros wpre upre lpre i sp u ins ws us Fw Fb A L NB E; inversion A as [|? ? w0 w1 u0 u1 o l R A1]; subst; cbn [app map like_read_loop hd_error tl].
  - unfold like_read_one. cbn [shown1]. replace (zlen (sp_sig sp) =? 0) with false by lia. destruct (is_prefix (str "0014") (lu_lock u)) eqn:P; [apply is_prefix_begins in P; contradiction|]. change (li_script (lin_of i)) with (s_script i). rewrite E. reflexivity.
  - apply Forall_cons_iff in Fw as [Fw0 Fw]. apply Forall_cons_iff in Fb as [Fb0 Fb]. rewrite (proj2 (read_one_iff j w0 u0 o Fw0 Fb0) R). destruct o as [a b]. cbn [bind]. rewrite (IH w1 u1 l) by assumption. reflexivity.
Qed.
(** A witness on an input with an empty script, paired with unlock data whose lock script does not begin with
    "0014": checking the transaction stops the program. *)
Theorem like_verify_panics : forall H sha decompress ecdsa version pre i post outs wpre sp wpost lt upre u upost lpre, let ins := pre ++ i :: post in let ws := wpre ++ Some sp :: wpost in
  1 <= zlen ins <= 252 -> 1 <= zlen outs <= 252 -> Forall sig_field ins -> length ws = length ins -> Forall wit_good ws -> is_bytes (like_signed version ins outs ws lt) ->
  like_reads_all pre wpre upre lpre -> ~ begins (str "0014") (lu_lock u) -> s_script i = [] -> length (upre ++ u :: upost) = length ins ->
  like_verify H sha decompress ecdsa (hex_encode (like_signed version ins outs ws lt)) (upre ++ u :: upost) = Panic.
Proof.
  intros H sha decompress ecdsa version pre i post outs wpre sp wpost lt upre u upost lpre ins ws Ni No Fi Lw Fw B A NB E Lu. unfold like_verify. rewrite hex_decode_encode by exact B. cbn [bind]. rewrite decode_signed by assumption. cbn [bind].
  change (l_vins (ltx_of version ins outs (shown ws) lt)) with (map lin_of ins). rewrite zlen_map. change (l_wit (ltx_of version ins outs (shown ws) lt)) with (shown ws).
  replace (zlen ins =? zlen (upre ++ u :: upost)) with true by (unfold zlen; lia). cbn [negb].
  assert (X : existsb has_wit ws = true) by (apply existsb_exists; exists (Some sp); split; [apply in_or_app; right; left|]; reflexivity). unfold shown. rewrite X.
  replace (zlen (map shown1 ws) =? 0) with false by (unfold ws; rewrite zlen_map, zlen_app, zlen_cons; pose proof (zlen_nonneg wpre); pose proof (zlen_nonneg wpost); lia).
  unfold ws at 1, ins at 1. unfold ws in Fw. apply Forall_app in Fw as [Fw1 Fw2]. apply Forall_cons_iff in Fw2 as [Fw0 _]. unfold ins in Fi. apply Forall_app in Fi as [Fi1 _].
  erewrite loop_panics; [reflexivity|exact Fw1| |exact A|destruct Fw0 as (_ & Q & _); lia|exact NB|exact E]. eapply Forall_impl; [|exact Fi1]. intros s Hs. apply Hs.
Qed.
(** In particular: insert with fresh unlock data whose first entry is native segwit, then check the result with
    the unlock data as the insertion left it. *)
Theorem like_verify_after_insert_panics : forall H sha decompress ecdsa version ins outs lt sps u us signed us', tx_fits ins outs -> Forall (fun s => zlen (s_script s) <= 252) ins -> Forall redeem_small (u :: us) ->
  is_bytes (consensus_tx version ins outs lt) -> Forall sound_sp sps -> Forall (fun sp => is_bytes (sp_pub sp)) sps -> no_multisig (u :: us) -> lu_redeem u = [] -> begins (str "0014") (lu_lock u) ->
  like_insert sha (hex_encode (consensus_tx version ins outs lt)) sps (u :: us) = Ok (signed, us') -> like_verify H sha decompress ecdsa signed us' = Panic.
Proof.
  intros H sha decompress ecdsa version ins outs lt sps u us signed us' T Fs Fu B K Kb NM Er Bg E. apply like_insert_iff in E as (l & FA & -> & _ & ->); try assumption.
  destruct (fills_facts ins (u :: us) sps l K Fu (proj1 (proj2 (proj2 T))) FA) as (W1 & W2 & W3 & W4). pose proof T as (Ni & No & Fi & Fo). destruct (tx_bytes version ins outs lt T Fs B) as [Bt Bl]. pose proof (fills_strip _ _ _ _ FA) as ST.
  inversion FA as [|i ins1 ? ? sp sps1 s w u' l1 Q FA1]; subst. destruct Q as (L1 & L2 & Q). destruct Q as [(_ & _ & Q)|[(_ & Q & _)|[(Q & _)|(Q & _)]]]; [|contradiction..].
  assert (s = []) by congruence. assert (w = Some sp) by congruence. assert (Eu : u' = {| lu_key := lu_key u; lu_lock := str "00"; lu_redeem := lu_lock u; lu_amount := lu_amount u |}) by congruence. subst s w.
  set (l0 := (with_script i [], Some sp, u') :: l1) in *.
  assert (LZ : zlen (map o_in l0) = zlen (i :: ins1)) by (unfold zlen; rewrite map_length; lia).
  assert (BS : Forall (fun s => is_bytes (s_script s)) (map o_in l0) /\ Forall (fun w => match w with Some sp => is_bytes (sp_pub sp) | None => True end) (map o_wit l0)).
  { clear - FA K Kb. clearbody l0. revert FA K Kb. generalize (i :: ins1) (u :: us) (sp :: sps1).
    intros a b c FA. induction FA as [sps|i1 ins v us1 sp1 sps s w u1 l (L1 & L2 & Q) FA IH]; intros K Kb; [split; constructor|]. apply Forall_cons_iff in K as [K0 K]. apply Forall_cons_iff in Kb as [Kb0 Kb]. destruct (IH K Kb) as [I1 I2]. cbn [map].
    assert (G : is_bytes s /\ match w with Some sp => is_bytes (sp_pub sp) | None => True end).
    { destruct Q as [(_ & _ & Q)|[(_ & _ & R & S & D1 & D2 & Q)|[(_ & _ & Q)|(_ & _ & r & Er & Q)]]].
      - assert (s = []) by congruence. assert (w = Some sp1) by congruence. subst s w. split; [constructor|exact Kb0].
      - destruct (der_zero_unique sp1 K0 L1) as (R' & S' & D1' & D2' & LR & LS & _). rewrite (minimal_der_unique _ _ _ D1 D1'), (minimal_der_unique _ _ _ D2 D2') in Q. assert (Es : s = sig_script R' S' 1 ++ 33 :: sp_pub sp1) by congruence. assert (w = None) by congruence. subst w. split; [|exact I].
        rewrite Es. apply is_bytes_app; split; [apply sig_script_bytes; [apply D1'|apply D2'|exact LR|exact LS|unfold is_byte; lia]|]. constructor; [unfold is_byte; lia|exact Kb0].
      - assert (s = []) by congruence. assert (w = Some sp1) by congruence. subst s w. split; [constructor|exact Kb0].
      - assert (Es : s = zlen r mod 256 :: r) by congruence. assert (w = Some sp1) by congruence. subst w. split; [|exact Kb0]. rewrite Es. constructor; [unfold is_byte; apply Z.mod_pos_bound; lia|]. apply (proj1 (hex_decode_bytes _ _ Er)). }
    destruct G as [G1 G2]. split; constructor; assumption. }
  destruct BS as [BS BW].
  assert (SF : Forall sig_field (map o_in l0)). { apply Forall_forall. intros s Hs. rewrite Forall_forall in W2, BS. destruct (W2 s Hs) as [X1 X2]. split; [exact X1|]. split; [exact (BS s Hs)|exact X2]. }
  assert (BT : Forall (fun s => is_bytes (s_txid s)) (map o_in l0)).
  { assert (M : map s_txid (map o_in l0) = map s_txid (i :: ins1)) by (assert (M : forall x, map s_txid x = map s_txid (map strip_in x)) by (intros x; rewrite map_map; reflexivity); rewrite (M (map o_in l0)), ST, <- M; reflexivity).
    rewrite <- (Forall_map s_txid is_bytes), M, (Forall_map s_txid is_bytes). exact Bt. }
  assert (WB : Forall (fun w => wit_good w /\ match w with Some sp => is_bytes (sp_pub sp) | None => True end) (map o_wit l0)) by (apply Forall_forall; intros w Hw; rewrite Forall_forall in W1, BW; split; [exact (W1 w Hw)|exact (BW w Hw)]).
  assert (BY : is_bytes (like_signed version (map o_in l0) outs (map o_wit l0) lt)) by (apply signed_are_bytes; try assumption; rewrite LZ; assumption).
  change (map o_in l0) with ([] ++ with_script i [] :: map o_in l1) in *. change (map o_wit l0) with ([] ++ Some sp :: map o_wit l1) in *. change (map snd l0) with ([] ++ u' :: map snd l1).
  eapply like_verify_panics; try eassumption; try (rewrite LZ; assumption).
  - cbn [app length]. rewrite !map_length. reflexivity.
  - constructor.
  - rewrite Eu. intros (q & X). discriminate X.
  - reflexivity.
  - cbn [app length]. rewrite !map_length. reflexivity.
Qed.

(** ** Concrete cases *)
Example like_round_trip_example : forall sha decompress ecdsa, (forall k, decompress k <> []) -> exists signed us' hs,
  like_create_hashes toy_hash sha (hex_encode (consensus_tx 2 ex_like_ins [ex_like_out] 3)) ex_like_us = Ok (map hex_encode hs, map snd ex_like_l) /\
  like_insert sha (hex_encode (consensus_tx 2 ex_like_ins [ex_like_out] 3)) [ex_like_sp; ex_like_sp; ex_like_sp] ex_like_us = Ok (signed, us') /\
  like_verify toy_hash sha decompress ecdsa signed ex_like_us = Ok (valid_all decompress ecdsa hs [ex_like_sp; ex_like_sp; ex_like_sp]).
Proof.
  intros sha decompress ecdsa HD. destruct like_insert_example as (R & S & E). cbv zeta in E. specialize (E sha). match type of E with _ = Ok (?a, ?b) => set (signed := a) in *; set (us' := b) in *; exists signed, us' end.
  assert (C : like_create_hashes toy_hash sha (hex_encode (consensus_tx 2 ex_like_ins [ex_like_out] 3)) ex_like_us = Ok (map (fun p => hex_encode (fst p)) ex_like_l, map snd ex_like_l)).
  { destruct like_hashes_example as (A1 & A2 & A3 & A4 & A5). apply like_hashes_iff in A5; try assumption. apply like_hashes_iff; try assumption. }
  destruct (like_round_trip toy_hash sha decompress ecdsa 2 ex_like_ins [ex_like_out] 3 [ex_like_sp; ex_like_sp; ex_like_sp] ex_like_us (map (fun p => hex_encode (fst p)) ex_like_l) (map snd ex_like_l) ex_like_us us' ex_like_us signed HD ex_like_fits ex_like_scripts ex_like_redeem ex_like_bytes) as (hs & E1 & E2 & E3); try exact C; try exact E; try (left; reflexivity); try exact ex_like_plain.
  - constructor; [exists (repeat 3 20); split; [reflexivity|]; left; split; reflexivity|]. constructor; [exists (repeat 4 20); split; [reflexivity|]; right; left; reflexivity|]. constructor; [exists (repeat 6 20); split; [reflexivity|]; right; right; split; reflexivity|constructor].
  - repeat (constructor; [exact ex_like_sound|]). constructor.
  - assert (G : is_bytes (sp_pub ex_like_sp) /\ readable (sp_sig ex_like_sp)) by (split; [apply is_bytes_b; reflexivity|exact ex_sig_readable]). repeat (constructor; [exact G|]). constructor.
  - exists hs. split; [rewrite C; rewrite E1; reflexivity|]. split; [exact E|exact E3].
Qed.
Print Assumptions like_verify_iff.
Print Assumptions like_round_trip.
Print Assumptions like_verify_panics.
Print Assumptions like_verify_after_insert_panics.
