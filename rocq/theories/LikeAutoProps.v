(** btcLikeTxDriver: SignEmptyRawTransaction, which hashes, signs and inserts in one call. *)
From Coq Require Import String ZArith List Bool Lia ZifyBool ZifyNat.
From Verif Require Import Go GoFacts GoFacts2 Rd Base58CheckModel BtcModel BtcSpec BtcProofs BtcTxProofs BtcTxProps BtcSigProps BtcVerProps SigModel SigDerProps LikeModel LikeProofs LikeProps LikeSigProofs LikeSigProps LikeInsProps LikeVerProps Toy.
Import ListNotations.
Open Scope Z_scope.
Ltac Zify.zify_post_hook ::= idtac.

(** ** Specification *)
(** What one input gets, by its locking script. *)
Definition like_autos (u : lunlock) (sp : sigpub) (o : bytes * option sigpub) : Prop :=
  exists lock h, hex_decode (lu_lock u) = Ok lock /\ length h = 20%nat /\
  ((lock = p2pkh_script h /\ exists R S, der_int (r_of (sp_sig sp)) R /\ der_int (s_of (sp_sig sp)) S /\ o = (sig_script R S 1 ++ 33 :: sp_pub sp, None)) \/
   (exists extra redeem, lock = p2sh_script h ++ extra /\ hex_decode (lu_redeem u) = Ok redeem /\ o = (zlen redeem mod 256 :: redeem, Some sp)) \/
   (lock = witness_v0_script h /\ o = ([], Some sp))).
Inductive autos_all (sign : bytes -> bytes -> res sigpub) : list spec_in -> list lunlock -> list bytes -> list (spec_in * option sigpub) -> Prop :=
| aa_nil : autos_all sign [] [] [] []
| aa_cons : forall i ins u us h hs sp s w l, zlen (lu_key u) = 32 -> sign (lu_key u) h = Ok sp -> like_autos u sp (s, w) -> autos_all sign ins us hs l ->
    autos_all sign (i :: ins) (u :: us) (h :: hs) ((with_script i s, w) :: l).
(** The witnesses that end up in the transaction: of those with content only the first. *)
Fixpoint kept (ws : list (option sigpub)) : list (option sigpub) :=
  match ws with
  | [] => []
  | None :: r => None :: kept r
  | Some sp :: r => Some sp :: filter (fun w => negb (has_wit w)) r
  end.
Definition like_short (version : Z) (ins : list spec_in) (outs : list spec_out) (ws : list (option sigpub)) (lockTime : Z) : bytes :=
  le_bytes 4 version ++ (if existsb has_wit ws then [0; 1] else []) ++ zlen ins :: concat (map wire_spec_in ins) ++
  zlen outs :: concat (map wire_spec_out outs) ++ (if existsb has_wit ws then concat (map wit_field (kept ws)) else []) ++ le_bytes 4 lockTime.
(** What is assumed of the signing library: signatures of 64 bytes without zero integers, compressed keys. *)
Definition sign_ok (sign : bytes -> bytes -> res sigpub) : Prop :=
  forall k h sp, sign k h = Ok sp -> zlen (sp_sig sp) = 64 /\ zlen (sp_pub sp) = 33 /\ is_bytes (sp_sig sp) /\ r_of (sp_sig sp) <> 0 /\ s_of (sp_sig sp) <> 0.
(** Number of inputs with a witness. *)
Definition segwits (ws : list (option sigpub)) : Z := zlen (filter has_wit ws).

(** ** Lemmas *)
Definition acc (before : list (option sigpub)) : list sigpub := if existsb has_wit before then map shown1 (kept before) else [].
Lemma kept_app before w : kept (before ++ [w]) = if existsb has_wit before then kept before ++ (match w with None => [None] | Some _ => [] end) else before ++ [w].
Proof.
  induction before as [|[sp|] l IH]; [destruct w; reflexivity| |].
  - cbn [app kept existsb has_wit orb]. rewrite filter_app. destruct w; reflexivity.
  - cbn [app kept existsb has_wit orb]. rewrite IH. destruct (existsb has_wit l); reflexivity.
Qed.
Lemma acc_zero before : (zlen (acc before) =? 0) = negb (existsb has_wit before).
Proof.
  unfold acc. destruct (existsb has_wit before) eqn:X; [|reflexivity]. destruct before as [|w r]; [discriminate X|]. destruct w; cbn [kept map]; rewrite zlen_cons; cbn [negb]; match goal with |- (1 + zlen ?x =? 0) = _ => pose proof (zlen_nonneg x) end; lia.
Qed.
Lemma acc_some before sp : (if zlen (acc before) =? 0 then repeat no_sigpub (length before) ++ [sp] else acc before) = acc (before ++ [Some sp]).
Proof.
  rewrite acc_zero. unfold acc. rewrite existsb_app, kept_app. destruct (existsb has_wit before) eqn:X; cbn [negb orb existsb has_wit].
  - rewrite app_nil_r. reflexivity.
  - rewrite map_app, shown_none by exact X. reflexivity.
Qed.
Lemma acc_none before : (if zlen (acc before) =? 0 then acc before else acc before ++ [no_sigpub]) = acc (before ++ [None]).
Proof.
  rewrite acc_zero. unfold acc. rewrite existsb_app, kept_app. destruct (existsb has_wit before) eqn:X; cbn [negb orb existsb has_wit]; [|reflexivity]. rewrite map_app. reflexivity.
Qed.
Lemma sign_one before i u u0 sp i' ws' H version ins0 outs lt n p : zlen (sp_sig sp) = 64 -> zlen (sp_pub sp) = 33 -> sound_sp sp -> like_signs H version ins0 outs lt n u0 p -> u = snd p ->
  like_sign_one (length before) (lin_of i) u sp (acc before) = Ok (i', ws') <-> exists s w, like_autos u0 sp (s, w) /\ i' = lin_of (with_script i s) /\ ws' = acc (before ++ [w]).
Proof.
  intros L1 L2 K (lock & j & El & En & Q) ->. unfold like_sign_one, like_autos.
  assert (SS : forall s, set_script s (lin_of i) = lin_of (with_script i s)) by reflexivity.
  assert (Elk : lu_lock (snd p) = lu_lock u0) by (destruct Q as [(h & _ & _ & ->)|[(h & e & r & c & _ & _ & _ & _ & _ & ->)|(h & _ & _ & ->)]]; reflexivity). rewrite Elk, El. cbn [bind].
  destruct Q as [(h & Lh & -> & ->)|[(h & e & r & c & Lh & -> & Le & Er & Lc & ->)|(h & Lh & -> & ->)]]; cbn [snd].
  - rewrite type_p2pkh by exact Lh. cbn [bind]. destruct (der_zero_unique sp K L1) as (R & S & D1 & D2 & _ & _ & EE). unfold encode_script. rewrite EE. cbn [bind]. replace (u8 (zlen (sp_pub sp))) with 33 by (unfold u8; rewrite L2; reflexivity).
    rewrite acc_none, SS. split.
    + intros E. exists (sig_script R S 1 ++ 33 :: sp_pub sp), None. split; [|split; congruence]. exists (p2pkh_script h), h. split; [reflexivity|]. split; [exact Lh|]. left. split; [reflexivity|]. exists R, S. auto.
    + intros (s & w & (lock & h' & E & Lh' & Q) & -> & ->). assert (lock = p2pkh_script h) by congruence. subst lock. destruct Q as [(_ & R' & S' & D1' & D2' & Q)|[(e & r & X & _)|(X & _)]]; [|discriminate X|discriminate X].
      rewrite (minimal_der_unique _ _ _ D1' D1), (minimal_der_unique _ _ _ D2' D2) in Q. assert (Q1 : s = sig_script R S 1 ++ 33 :: sp_pub sp) by congruence. assert (Q2 : w = None) by congruence. subst s w. reflexivity.
  - rewrite type_p2sh by exact Lh. cbn [bind]. rewrite Er. cbn [bind]. rewrite acc_some, SS. split.
    + intros E. exists (zlen r mod 256 :: r), (Some sp). split; [|split; [unfold u8 in E; change (2 ^ 8) with 256 in E; congruence|congruence]]. exists (p2sh_script h ++ e), h. split; [reflexivity|]. split; [exact Lh|]. right. left. exists e, r. auto.
    + intros (s & w & (lock & h' & E & Lh' & Q) & -> & ->). assert (lock = p2sh_script h ++ e) by congruence. subst lock. destruct Q as [(X & _)|[(e' & r' & X & Er' & Q)|(X & _)]]; [discriminate X| |discriminate X].
      assert (r' = r) by congruence. subst r'. assert (Q1 : s = zlen r mod 256 :: r) by congruence. assert (Q2 : w = Some sp) by congruence. subst s w. reflexivity.
  - rewrite type_wpkh by (exists h; unfold witness_v0_script, zlen; rewrite Lh; reflexivity). cbn [bind]. rewrite acc_some, SS. split.
    + intros E. exists [], (Some sp). split; [|split; congruence]. exists (witness_v0_script h), h. split; [reflexivity|]. split; [exact Lh|]. right. right. auto.
    + intros (s & w & (lock & h' & E & Lh' & Q) & -> & ->). assert (lock = witness_v0_script h) by congruence. subst lock. destruct Q as [(X & _)|[(e' & r' & X & _)|(_ & Q)]]; [discriminate X|discriminate X|]. assert (Q1 : s = []) by congruence. assert (Q2 : w = Some sp) by congruence. subst s w. reflexivity.
Qed.
Lemma signs_key H version ins0 outs lt n u p : like_signs H version ins0 outs lt n u p -> lu_key (snd p) = lu_key u.
Proof. intros (lock & j & _ & _ & [(h & _ & _ & ->)|[(h & e & r & c & _ & _ & _ & _ & _ & ->)|(h & _ & _ & ->)]]); reflexivity. Qed.
Lemma signs_hash H version ins0 outs lt n u p : (forall d, zlen (H d) = 32) -> like_signs H version ins0 outs lt n u p -> zlen (fst p) = 32.
Proof. intros HH (lock & j & _ & _ & [(h & _ & _ & ->)|[(h & e & r & c & _ & _ & _ & _ & _ & ->)|(h & _ & _ & ->)]]); apply HH. Qed.
Lemma auto_loop H sign version ins0 outs lt : (forall d, zlen (H d) = 32) -> sign_ok sign -> forall n us hl, pointwise (like_signs H version ins0 outs lt) n us hl -> forall ins before ins' ws', length ins = length us ->
  (sps <- like_sign_all sign (map fst hl) (map snd hl) ;; like_sign_loop (length before) (map lin_of ins) (map snd hl) sps (acc before)) = Ok (ins', ws') <->
  exists l, autos_all sign ins us (map fst hl) l /\ ins' = map lin_of (map fst l) /\ ws' = acc (before ++ map snd l).
Proof.
  intros HH KS n us hl P. induction P as [|n u p us hl S1 P IH]; intros ins before ins' ws' L; destruct ins as [|i ins]; try discriminate L; cbn [map like_sign_all like_sign_loop].
  - cbn [bind]. split.
    + intros E. exists []. split; [constructor|]. cbn [map]. rewrite app_nil_r. split; congruence.
    + intros (l & A & -> & ->). inversion A; subst. cbn [map]. rewrite app_nil_r. reflexivity.
  - rewrite (signs_key _ _ _ _ _ _ _ _ S1), (signs_hash _ _ _ _ _ _ _ _ HH S1). change (32 =? 32) with true. cbn [negb]. destruct (zlen (lu_key u) =? 32) eqn:LK; cbn [negb].
    2: { split; [discriminate|]. intros (l & A & _). inversion A; subst. lia. }
    destruct (sign (lu_key u) (fst p)) as [sp| |] eqn:Es; cbn [bind]; [|split; [discriminate|intros (l & A & _); inversion A; subst; congruence]|split; [discriminate|intros (l & A & _); inversion A; subst; congruence]].
    destruct (KS _ _ _ Es) as (K1 & K2 & K3). assert (K : sound_sp sp) by (intros _; exact K3).
    pose proof (fun i' ws' => sign_one before i (snd p) u sp i' ws' H version ins0 outs lt n p K1 K2 K S1 eq_refl) as One. split.
    + intros E. apply bind_ok in E as (sps & Esp & E). apply bind_ok in Esp as (sps1 & Esp1 & Esp). assert (sps = sp :: sps1) by congruence. subst sps. apply bind_ok in E as ([i1 ws1] & E1 & E). apply bind_ok in E as ([ins2 ws2] & E2 & E).
      apply One in E1 as (s & w & Q & -> & ->). specialize (IH ins (before ++ [w]) ins2 ws2 ltac:(cbn [length] in L; lia)). rewrite app_length in IH. cbn [length] in IH. replace (length before + 1)%nat with (S (length before)) in IH by lia.
      destruct (proj1 IH) as (l & A & -> & ->); [rewrite Esp1; cbn [bind]; exact E2|]. exists ((with_script i s, w) :: l). split; [econstructor; try eassumption; lia|]. cbn [map fst snd]. rewrite <- app_assoc in E. cbn [app] in E. split; congruence.
    + intros (l & A & -> & ->). inversion A as [|? ? ? ? ? ? sp1 s w l1 A1 A2 A3 A4]; subst. assert (sp1 = sp) by congruence. subst sp1.
      specialize (IH ins (before ++ [w]) (map lin_of (map fst l1)) (acc ((before ++ [w]) ++ map snd l1)) ltac:(cbn [length] in L; lia)). rewrite app_length in IH. cbn [length] in IH. replace (length before + 1)%nat with (S (length before)) in IH by lia.
      assert (E2 := proj2 IH ltac:(eauto)). apply bind_ok in E2 as (sps1 & -> & E2). cbn [bind]. rewrite (proj2 (One (lin_of (with_script i s)) (acc (before ++ [w])))) by eauto. cbn [bind]. rewrite E2. cbn [bind map fst snd]. rewrite <- app_assoc. reflexivity.
Qed.
Lemma autos_facts sign ins us hs l : sign_ok sign -> Forall redeem_small us -> Forall (fun s => zlen (s_txid s) = 32) ins -> autos_all sign ins us hs l ->
  Forall wit_good (map snd l) /\ Forall (fun s => zlen (s_txid s) = 32 /\ zlen (s_script s) <= 253) (map fst l) /\ length l = length ins /\ length us = length ins.
Proof.
  intros KS F FT A. induction A as [|i ins u us h hs sp s w l A1 A2 A3 A IH]; [split; [constructor|split; [constructor|split; reflexivity]]|].
  apply Forall_cons_iff in F as [F0 F]. apply Forall_cons_iff in FT as [T0 FT]. destruct (IH F FT) as (I1 & I2 & I3 & I4). destruct (KS _ _ _ A2) as (L1 & L2 & B & Nr & Ns). cbn [map length fst snd].
  assert (G : wit_good w /\ zlen s <= 253).
  { destruct A3 as (lock & h0 & _ & _ & [(_ & R & S & D1 & D2 & Q)|[(e & r & _ & Er & Q)|(_ & Q)]]).
    - destruct (der_zero_unique sp (fun _ => conj B (conj Nr Ns)) L1) as (R' & S' & D1' & D2' & LR & LS & _). rewrite <- (minimal_der_unique _ _ _ D1 D1') in LR. rewrite <- (minimal_der_unique _ _ _ D2 D2') in LS.
      assert (Es : s = sig_script R S 1 ++ 33 :: sp_pub sp) by congruence. assert (w = None) by congruence. subst w. split; [exact I|]. rewrite Es, zlen_app, zlen_cons, sig_script_len. lia.
    - assert (Es : s = zlen r mod 256 :: r) by congruence. assert (w = Some sp) by congruence. subst w. split; [split; [exact B|split; assumption]|]. rewrite Es, zlen_cons. specialize (F0 _ Er). lia.
    - assert (s = []) by congruence. assert (w = Some sp) by congruence. subst s w. split; [split; [exact B|split; assumption]|]. cbv. discriminate. }
  destruct G as [G1 G2]. split; [constructor; assumption|]. split; [constructor; [split; [exact T0|exact G2]|exact I2]|]. split; congruence.
Qed.
Lemma kept_good ws : Forall wit_good ws -> Forall wit_good (kept ws).
Proof.
  intros F. induction F as [|w ws W F IH]; [constructor|]. destruct w as [sp|]; cbn [kept]; constructor; try assumption. apply Forall_forall. intros x Hx. apply filter_In in Hx as [Hx _]. rewrite Forall_forall in F. exact (F x Hx).
Qed.
Lemma kept_has ws : existsb has_wit (kept ws) = existsb has_wit ws.
Proof. induction ws as [|[sp|] ws IH]; [reflexivity|reflexivity|]. cbn [kept existsb has_wit orb]. exact IH. Qed.
Lemma acc_shown ws : acc ws = shown (kept ws).
Proof. unfold acc, shown. rewrite kept_has. reflexivity. Qed.
Lemma short_bytes_of sha version ins outs lt ws : 1 <= zlen ins <= 252 -> 1 <= zlen outs <= 252 -> Forall (fun s => zlen (s_lock s) <= 252) outs -> Forall wit_good ws -> Forall (fun s => zlen (s_txid s) = 32 /\ zlen (s_script s) <= 253) ins -> not_multi ins ->
  like_bytes sha (ltx_of version ins outs (acc ws) lt) = Ok (like_short version ins outs ws lt).
Proof.
  intros Ni No Fo W F NM.
  erewrite bytes_of; [|lia|lia|exact NM|eapply Forall_impl; [|exact F]; cbn; intros s Hs; lia|eapply Forall_impl; [|exact Fo]; cbn; intros s Hs; lia|rewrite acc_shown; apply wits_written, kept_good, W].
  f_equal. unfold like_wire, like_short. rewrite (Z.mod_small (zlen ins)) by lia. rewrite (Z.mod_small (zlen outs)) by lia. rewrite acc_zero, kept_has. destruct (existsb has_wit ws); reflexivity.
Qed.
(** ** C119 *)
Theorem like_sign_raw_iff : forall H sha sign version ins outs lt us signed, (forall d, zlen (H d) = 32) -> sign_ok sign -> tx_fits ins outs -> Forall (fun s => zlen (s_script s) <= 252) ins -> Forall redeem_small us ->
  is_bytes (consensus_tx version ins outs lt) -> no_multisig us ->
  like_sign_raw H sha sign (hex_encode (consensus_tx version ins outs lt)) us = Ok signed <->
  exists hl l, pointwise (like_signs H version ins outs lt) 0 us hl /\ autos_all sign ins us (map fst hl) l /\ not_multi (map fst l) /\
    signed = hex_encode (like_short version (map fst l) outs (map snd l) lt).
Proof.
  intros H sha sign version ins outs lt us signed HH KS T Fs Fu B NM. pose proof T as (Ni & No & Fi & Fo). unfold like_sign_raw. rewrite hex_decode_encode by exact B. cbn [bind]. rewrite decode_plain_tx by assumption. cbn [bind].
  unfold like_hashes. change (l_vins (ltx_of version ins outs [] lt)) with (map lin_of ins). rewrite zlen_map. replace (zlen ins =? 0) with false by lia. cbn [orb].
  destruct (zlen ins =? zlen us) eqn:L; cbn [negb]. 2: { split; [discriminate|]. intros (hl & l & _ & A & _). destruct (autos_facts _ _ _ _ _ KS Fu Fi A) as (_ & _ & _ & X). unfold zlen in L. lia. }
  assert (LN : length ins = length us) by (unfold zlen in L; lia).
  split.
  - intros E. apply bind_ok in E as ([hs us1] & E1 & E). apply (hash_loop_iff H sha version ins outs lt T us 0%nat hs us1 Fu) in E1 as (hl & -> & -> & P). apply bind_ok in E as (sps & E2 & E). apply bind_ok in E as ([ins1 ws1] & E3 & E). apply bind_ok in E as (b & Eb & E).
    destruct (proj1 (auto_loop H sign version ins outs lt HH KS 0%nat us hl P ins [] ins1 ws1 LN)) as (l & A & -> & ->). { rewrite E2. cbn [bind length]. exact E3. }
    cbn [app] in *. exists hl, l. destruct (autos_facts _ _ _ _ _ KS Fu Fi A) as (W1 & W2 & W3 & _).
    assert (EB : like_bytes sha (ltx_of version (map fst l) outs (acc (map snd l)) lt) = Ok b) by exact Eb.
    assert (LZ : zlen (map fst l) = zlen ins) by (unfold zlen; rewrite map_length; lia).
    assert (N : not_multi (map fst l)).
    { destruct (not_multi_dec (map fst l)) as [N|(i & El & La)]; [exact N|exfalso]. destruct l as [|[i1 w1] [|o2 l]]; try discriminate El. cbn [map fst] in El. assert (i1 = i) by congruence. subst i1.
      inversion A as [|i0 ? u us0 h hs sp s ? ? A1 A2 A3 A4 X1 X2 X3 X4]; subst. cbn [with_script s_script] in La. destruct A3 as (lock & h0 & _ & _ & [(_ & R & S & D1 & D2 & Q)|[(e & r & _ & Er & Q)|(_ & Q)]]).
      - assert (w1 = None) by congruence. subst w1. change (acc (map snd [(with_script i0 s, @None sigpub)])) with (@nil sigpub) in EB. revert EB. apply multi_without_witness. unfold is_multi, ltx_of. cbn [l_vins map fst lin_of li_script with_script s_script].
        assert (Es : s = sig_script R S 1 ++ 33 :: sp_pub sp) by congruence. replace (zlen s =? 0) with false by (rewrite Es, zlen_app, zlen_cons, sig_script_len; pose proof (zlen_nonneg R); pose proof (zlen_nonneg S); pose proof (zlen_nonneg (sp_pub sp)); lia). cbn [negb andb]. lia.
      - assert (Es : s = zlen r mod 256 :: r) by congruence. apply Forall_cons_iff in NM as [NM _]. specialize (NM r Er). destruct r as [|x r]; [|rewrite Es, last_cons in La by discriminate; congruence]. rewrite Es in La. discriminate La.
      - assert (s = []) by congruence. subst s. discriminate La. }
    rewrite short_bytes_of in EB by (assumption || (rewrite LZ; assumption)). split; [exact P|]. split; [exact A|]. split; [exact N|]. congruence.
  - intros (hl & l & P & A & N & ->). destruct (autos_facts _ _ _ _ _ KS Fu Fi A) as (W1 & W2 & W3 & _). assert (LZ : zlen (map fst l) = zlen ins) by (unfold zlen; rewrite map_length; lia).
    rewrite (proj2 (hash_loop_iff H sha version ins outs lt T us 0%nat (map fst hl) (map snd hl) Fu)) by eauto. cbn [bind].
    pose proof (proj2 (auto_loop H sign version ins outs lt HH KS 0%nat us hl P ins [] (map lin_of (map fst l)) (acc (map snd l)) LN) ltac:(eauto)) as E. apply bind_ok in E as (sps & -> & E). cbn [bind]. change (l_wit (ltx_of version ins outs [] lt)) with (acc []). cbn [length] in E. rewrite E. cbn [bind].
    change {| l_version := l_version (ltx_of version ins outs [] lt); l_vins := map lin_of (map fst l); l_vouts := l_vouts (ltx_of version ins outs [] lt); l_wit := acc (map snd l); l_locktime := l_locktime (ltx_of version ins outs [] lt) |} with (ltx_of version (map fst l) outs (acc (map snd l)) lt).
    rewrite short_bytes_of by (assumption || (rewrite LZ; assumption)). reflexivity.
Qed.
Lemma kept_all ws : segwits ws <= 1 -> kept ws = ws.
Proof.
  unfold segwits. induction ws as [|[sp|] ws IH]; intros L; [reflexivity| |]; cbn [filter has_wit kept] in *.
  - rewrite zlen_cons in L. f_equal. assert (E : filter has_wit ws = []) by (destruct (filter has_wit ws); [reflexivity|rewrite zlen_cons in L; pose proof (zlen_nonneg l); lia]). clear - E.
    induction ws as [|[sp|] ws IH]; [reflexivity|discriminate E|]. cbn [filter has_wit negb] in *. f_equal. apply IH, E.
  - f_equal. apply IH, L.
Qed.
Lemma filter_both (ws : list (option sigpub)) : zlen (filter (fun w => negb (has_wit w)) ws) + segwits ws = zlen ws.
Proof. unfold segwits. induction ws as [|[sp|] ws IH]; [reflexivity| |]; cbn [filter has_wit negb]; rewrite !zlen_cons; lia. Qed.
Lemma kept_len ws : 1 <= segwits ws -> zlen (kept ws) = zlen ws - (segwits ws - 1).
Proof.
  induction ws as [|[sp|] ws IH]; intros L.
  - cbv in L. exfalso. apply L. reflexivity.
  - cbn [kept]. rewrite !zlen_cons. pose proof (filter_both ws). unfold segwits in *. cbn [filter has_wit]. rewrite zlen_cons. lia.
  - cbn [kept]. rewrite !zlen_cons. change (segwits (None :: ws)) with (segwits ws) in *. rewrite IH by exact L. lia.
Qed.
Lemma short_signed version ins outs ws lt : like_short version ins outs ws lt = like_signed version ins outs (kept ws) lt.
Proof. unfold like_short, like_signed. rewrite kept_has. reflexivity. Qed.
Lemma some_has ws : 1 <= segwits ws -> existsb has_wit ws = true.
Proof. unfold segwits. induction ws as [|[sp|] ws IH]; intros L; [cbv in L; exfalso; apply L; reflexivity|reflexivity|]. cbn [existsb has_wit orb]. apply IH. exact L. Qed.
Lemma decode_wits_cost m : forall b ws r, is_bytes b -> like_decode_wits m b = Ok (ws, r) -> zlen ws + zlen r <= zlen b /\ is_bytes r.
Proof.
  induction m as [|m IH]; intros b ws r B E; cbn [like_decode_wits] in E.
  - assert (ws = []) by congruence. assert (r = b) by congruence. subst. change (zlen (@nil sigpub)) with 0. split; [lia|exact B].
  - apply bind_ok in E as ([w b1] & E1 & E). apply bind_ok in E as ([ws1 b2] & E2 & E). assert (ws = w ++ ws1) by congruence. assert (r = b2) by congruence. subst ws r.
    assert (G : zlen w + zlen b1 <= zlen b /\ is_bytes b1).
    { unfold like_decode_wit in E1. apply need1_inv in E1 as (x & t & -> & E1). apply is_bytes_cons in B as [Bx Bt]. destruct (x =? 0).
      - assert (w = [no_sigpub]) by congruence. assert (b1 = t) by congruence. subst. split; [unfold zlen; cbn [length]; lia|exact Bt].
      - destruct (x =? 2).
        + apply need1_inv in E1 as (n & t1 & -> & E1). pose proof Bt as Bt'. apply is_bytes_cons in Bt' as [Bn _]. unfold is_byte in Bn. apply need_inv in E1 as (sc & t2 & Et & Ls & E1); [|lia]. rewrite Et in Bt |- *. apply is_bytes_app in Bt as [_ Bt2].
          destruct (decode_segwit 1 sc) as [[sig pub]| |]; try discriminate E1. assert (Ew : w = [{| sp_sig := sig; sp_pub := pub |}]) by congruence. assert (b1 = t2) by congruence. subst b1. rewrite Ew. split; [unfold zlen; cbn [length]; rewrite app_length; lia|exact Bt2].
        + assert (w = []) by congruence. assert (b1 = x :: t) by congruence. subst. change (zlen (@nil sigpub)) with 0. split; [lia|]. constructor; assumption. }
    destruct G as [G1 G2]. destruct (IH _ _ _ G2 E2) as [I1 I2]. rewrite zlen_app. split; [lia|exact I2].
Qed.
Lemma decode_wits_more ws m rest : Forall wit_good ws -> like_decode_wits (length ws + m) (concat (map wit_field ws) ++ rest) = '(x, r) <- like_decode_wits m rest ;; Ok (map shown1 ws ++ x, r).
Proof.
  induction ws as [|w ws IH]; intros F; [cbn [length plus map concat app]; destruct (like_decode_wits m rest) as [[x r]| |]; reflexivity|]. apply Forall_cons_iff in F as [K F]. cbn [length plus like_decode_wits map concat]. rewrite <- app_assoc, decode_wit_field by exact K. cbn [bind]. rewrite IH by exact F.
  destruct (like_decode_wits m rest) as [[x r]| |]; reflexivity.
Qed.
Lemma short_loop ws : forall ins us p, (length ws < length ins)%nat -> length ins = length us -> like_read_loop ws ins us <> Ok p.
Proof.
  induction ws as [|w ws IH]; intros ins us p L L2 E; (destruct ins as [|i ins]; [cbn [length] in L; lia|]); (destruct us as [|u us]; [discriminate L2|]); cbn [like_read_loop hd_error tl] in E; [discriminate E|].
  apply bind_ok in E as ([sp u1] & _ & E). apply bind_ok in E as ([sps us1] & E & _). revert E. apply IH; cbn [length] in *; lia.
Qed.
(** Too few witnesses for the inputs: never accepted, whatever the unlock data. *)
Lemma short_rejected H sha decompress ecdsa version ins outs ws lt us : 1 <= zlen ins <= 252 -> 1 <= zlen outs <= 252 -> Forall (fun s => zlen (s_txid s) = 32) ins -> Forall wit_good ws -> (length ws < length ins)%nat -> existsb has_wit ws = true ->
  is_bytes (like_signed version ins outs ws lt) -> like_verify H sha decompress ecdsa (hex_encode (like_signed version ins outs ws lt)) us <> Ok true.
Proof.
  intros Ni No Fi Fw L X B E. unfold like_verify in E. rewrite hex_decode_encode in E by exact B. cbn [bind] in E. unfold like_signed in E. rewrite X in E.
  pose proof (decode_prefix version ins outs true (concat (map wit_field ws) ++ le_bytes 4 lt) ltac:(lia) ltac:(lia) ltac:(discriminate) Fi) as D. rewrite D in E. unfold after_outs in E. rewrite map_length in E.
  replace (length ins) with (length ws + (length ins - length ws))%nat in E by lia. rewrite decode_wits_more in E by exact Fw.
  destruct (like_decode_wits (length ins - length ws) (le_bytes 4 lt)) as [[x r]| |] eqn:ED; [|discriminate E|discriminate E]. cbn [bind] in E. destruct (decode_wits_cost _ _ _ _ (le_bytes_is_bytes 4 lt) ED) as [C _]. rewrite zlen_le_bytes in C.
  destruct (need 4 r _) as [t| |] eqn:EN in E; [|discriminate E|discriminate E]. apply need_inv in EN as (a & b & -> & La & EN); [|lia]. rewrite zlen_app in C. pose proof (zlen_nonneg b). pose proof (zlen_nonneg x). assert (x = []) by (apply zlen0; lia). subst x.
  destruct (negb (zlen b =? 0)); [discriminate EN|]. match type of EN with Ok ?y = _ => assert (Et : t = y) by congruence end. rewrite Et in E. cbn [bind l_vins l_wit] in E. rewrite zlen_map in E. destruct (zlen ins =? zlen us) eqn:LU; cbn [negb] in E; [|discriminate E].
  rewrite app_nil_r in E. destruct (zlen (map shown1 ws) =? 0) eqn:Z0; [destruct ws; [discriminate X|discriminate Z0]|].
  destruct (like_read_loop (map shown1 ws) (map lin_of ins) us) as [p| |] eqn:EL; [|discriminate E|discriminate E]. revert EL. apply short_loop; rewrite ?map_length; unfold zlen in LU; lia.
Qed.
Lemma autos_scripts sign ins us hs l : sign_ok sign -> (forall k h sp, sign k h = Ok sp -> is_bytes (sp_pub sp)) -> autos_all sign ins us hs l ->
  Forall (fun s => is_bytes (s_script s)) (map fst l) /\ Forall (fun w => match w with Some sp => is_bytes (sp_pub sp) | None => True end) (map snd l) /\ map strip_in (map fst l) = map strip_in ins.
Proof.
  intros KS KB A. induction A as [|i ins u us h hs sp s w l A1 A2 A3 A (I1 & I2 & I3)]; [split; [constructor|split; [constructor|reflexivity]]|]. destruct (KS _ _ _ A2) as (L1 & L2 & B & Nr & Ns). cbn [map fst snd].
  assert (G : is_bytes s /\ match w with Some sp => is_bytes (sp_pub sp) | None => True end).
  { destruct A3 as (lock & h0 & _ & _ & [(_ & R & S & D1 & D2 & Q)|[(e & r & _ & Er & Q)|(_ & Q)]]).
    - destruct (der_zero_unique sp (fun _ => conj B (conj Nr Ns)) L1) as (R' & S' & D1' & D2' & LR & LS & _). rewrite (minimal_der_unique _ _ _ D1 D1'), (minimal_der_unique _ _ _ D2 D2') in Q. assert (Es : s = sig_script R' S' 1 ++ 33 :: sp_pub sp) by congruence. assert (w = None) by congruence. subst w. split; [|exact I].
      rewrite Es. apply is_bytes_app; split; [apply sig_script_bytes; [apply D1'|apply D2'|exact LR|exact LS|unfold is_byte; lia]|]. constructor; [unfold is_byte; lia|exact (KB _ _ _ A2)].
    - assert (Es : s = zlen r mod 256 :: r) by congruence. assert (w = Some sp) by congruence. subst w. split; [|exact (KB _ _ _ A2)]. rewrite Es. constructor; [unfold is_byte; apply Z.mod_pos_bound; lia|]. apply (proj1 (hex_decode_bytes _ _ Er)).
    - assert (s = []) by congruence. assert (w = Some sp) by congruence. subst s w. split; [constructor|exact (KB _ _ _ A2)]. }
  destruct G as [G1 G2]. split; [constructor; assumption|]. split; [constructor; assumption|]. f_equal. exact I3.
Qed.
Lemma autos_two sign ins us hs l : autos_all sign ins us hs l -> forall k u, nth_error us k = Some u -> (forall h, length h = 20%nat -> hex_decode (lu_lock u) <> Ok (p2pkh_script h)) -> exists sp, nth_error (map snd l) k = Some (Some sp).
Proof.
  intros A. induction A as [|i ins u us h hs sp s w l A1 A2 A3 A IH]; intros [|k] v Ek N; try discriminate Ek; cbn [nth_error map snd] in *; [|exact (IH k v Ek N)]. assert (v = u) by congruence. subst v.
  destruct A3 as (lock & h0 & El & Lh & [(-> & _)|[(e & r & _ & Er & Q)|(_ & Q)]]); [exfalso; exact (N h0 Lh El)| |]; exists sp; congruence.
Qed.
Lemma two_segwits ws j k a b : j <> k -> nth_error ws j = Some (Some a) -> nth_error ws k = Some (Some b) -> 2 <= segwits ws.
Proof.
  assert (O : forall ws k b, nth_error ws k = Some (Some b) -> 1 <= segwits ws).
  { clear. unfold segwits. induction ws as [|[sp|] ws IH]; intros [|k] b E; try discriminate E; cbn [filter has_wit nth_error] in *; rewrite ?zlen_cons; [pose proof (zlen_nonneg (filter has_wit ws)); lia|pose proof (zlen_nonneg (filter has_wit ws)); lia|exact (IH k b E)]. }
  revert j k. induction ws as [|[sp|] ws IH]; intros [|j] [|k] N E1 E2; try discriminate E1; try discriminate E2; try contradiction; cbn [nth_error] in *.
  - unfold segwits. cbn [filter has_wit]. rewrite zlen_cons. pose proof (O ws k b E2). unfold segwits in *. lia.
  - unfold segwits. cbn [filter has_wit]. rewrite zlen_cons. pose proof (O ws j a E1). unfold segwits in *. lia.
  - unfold segwits. cbn [filter has_wit]. rewrite zlen_cons. pose proof (O ws j a E1). unfold segwits in *. lia.
  - change (segwits (None :: ws)) with (segwits ws). apply (IH j k); congruence.
Qed.
(** With two inputs that are not key hash inputs the call succeeds all the same, but witnesses are missing, and the
    package itself accepts the result under no unlock data. *)
Theorem like_sign_two_segwit : forall H sha sign version ins outs lt us signed, (forall d, zlen (H d) = 32) -> sign_ok sign -> (forall k h sp, sign k h = Ok sp -> is_bytes (sp_pub sp)) ->
  tx_fits ins outs -> Forall (fun s => zlen (s_script s) <= 252) ins -> Forall redeem_small us -> is_bytes (consensus_tx version ins outs lt) -> no_multisig us ->
  forall j k u v, j <> k -> nth_error us j = Some u -> nth_error us k = Some v ->
  (forall h, length h = 20%nat -> hex_decode (lu_lock u) <> Ok (p2pkh_script h)) -> (forall h, length h = 20%nat -> hex_decode (lu_lock v) <> Ok (p2pkh_script h)) ->
  like_sign_raw H sha sign (hex_encode (consensus_tx version ins outs lt)) us = Ok signed ->
  (exists ins' ws, zlen ins' = zlen ins /\ zlen ws < zlen ins /\ signed = hex_encode (like_signed version ins' outs ws lt)) /\
  forall H' sha' decompress ecdsa us', like_verify H' sha' decompress ecdsa signed us' <> Ok true.
Proof.
  intros H sha sign version ins outs lt us signed HH KS KB T Fs Fu B NM j k u v Njk Ej Ek Nu Nv E. apply like_sign_raw_iff in E as (hl & l & P & A & _ & ->); try assumption. pose proof T as (Ni & No & Fi & Fo).
  destruct (autos_facts _ _ _ _ _ KS Fu Fi A) as (W1 & W2 & W3 & _). destruct (autos_scripts _ _ _ _ _ KS KB A) as (S1 & S2 & S3). destruct (tx_bytes version ins outs lt T Fs B) as [Bt Bl].
  destruct (autos_two _ _ _ _ _ A j u Ej Nu) as (a & Ea). destruct (autos_two _ _ _ _ _ A k v Ek Nv) as (b & Eb). pose proof (two_segwits _ j k a b Njk Ea Eb) as Two.
  assert (LZ : zlen (map fst l) = zlen ins) by (unfold zlen; rewrite map_length; lia). pose proof (kept_len (map snd l) ltac:(lia)) as KL. assert (LS : zlen (map snd l) = zlen ins) by (unfold zlen; rewrite map_length; lia). rewrite LS in KL.
  rewrite short_signed. split; [exists (map fst l), (kept (map snd l)); split; [exact LZ|]; split; [lia|reflexivity]|]. intros H' sha' decompress ecdsa us'.
  assert (SF : Forall sig_field (map fst l)) by (apply Forall_forall; intros s Hs; rewrite Forall_forall in W2, S1; destruct (W2 s Hs) as [X1 X2]; split; [exact X1|]; split; [exact (S1 s Hs)|exact X2]).
  assert (BT : Forall (fun s => is_bytes (s_txid s)) (map fst l)).
  { assert (M : map s_txid (map fst l) = map s_txid ins) by (assert (M : forall x, map s_txid x = map s_txid (map strip_in x)) by (intros x; rewrite map_map; reflexivity); rewrite (M (map fst l)), S3, <- M; reflexivity).
    rewrite <- (Forall_map s_txid is_bytes), M, (Forall_map s_txid is_bytes). exact Bt. }
  apply short_rejected; try (rewrite LZ; assumption); try assumption.
  - eapply Forall_impl; [|exact W2]. intros s Hs. apply Hs.
  - apply kept_good, W1.
  - rewrite map_length. unfold zlen in *. rewrite map_length in *. lia.
  - rewrite kept_has. apply some_has. lia.
  - apply signed_are_bytes; try assumption; try (rewrite LZ; assumption). apply Forall_forall. intros w Hw.
    assert (In w (map snd l)) by (clear - Hw; revert Hw; induction (map snd l) as [|[sp|] m IH]; cbn [kept]; intros Hw; [exact Hw| |]; destruct Hw as [Hw|Hw]; [left; exact Hw|right; apply filter_In in Hw; apply Hw|left; exact Hw|right; apply IH, Hw]).
    rewrite Forall_forall in W1, S2. split; [apply W1; assumption|apply (S2 w); assumption].
Qed.
Lemma one_segwit_core H sha sign version ins outs lt us signed : (forall d, zlen (H d) = 32) -> sign_ok sign ->
  tx_fits ins outs -> Forall (fun s => zlen (s_script s) <= 252) ins -> Forall redeem_small us -> is_bytes (consensus_tx version ins outs lt) -> no_multisig us -> Forall usual us ->
  (forall j k u v, j <> k -> nth_error us j = Some u -> nth_error us k = Some v -> exists h, length h = 20%nat /\ (hex_decode (lu_lock u) = Ok (p2pkh_script h) \/ hex_decode (lu_lock v) = Ok (p2pkh_script h))) ->
  like_sign_raw H sha sign (hex_encode (consensus_tx version ins outs lt)) us = Ok signed ->
  exists hl sps us', zlen us = zlen ins /\ pointwise (like_signs H version ins outs lt) 0 us hl /\
    length sps = length us /\ Forall2 (fun p sp => sign (lu_key (fst p)) (snd p) = Ok sp) (combine us (map fst hl)) sps /\
    like_insert sha (hex_encode (consensus_tx version ins outs lt)) sps us = Ok (signed, us').
Proof.
  intros HH KS T Fs Fu B NM FU One E. apply like_sign_raw_iff in E as (hl & l & P & A & N & ->); try assumption. pose proof T as (Ni & No & Fi & Fo).
  destruct (autos_facts _ _ _ _ _ KS Fu Fi A) as (W1 & W2 & W3 & W4).
  assert (SW : segwits (map snd l) <= 1).
  { assert (G : forall ws, segwits ws <= 1 \/ exists j k a b, j <> k /\ nth_error ws j = Some (Some a) /\ nth_error ws k = Some (Some b)).
    { clear. intros ws. assert (O : forall ws, segwits ws = 0 \/ exists k b, nth_error ws k = Some (Some b)).
      { clear. unfold segwits. induction ws as [|[sp|] ws IH]; [left; reflexivity|right; exists 0%nat, sp; reflexivity|]. cbn [filter has_wit]. destruct IH as [IH|(k & b & IH)]; [left; exact IH|right; exists (S k), b; exact IH]. }
      induction ws as [|[sp|] ws IH].
      - left. cbv. discriminate.
      - destruct (O ws) as [Z|(k & b & Z)]; [left; unfold segwits in *; cbn [filter has_wit]; rewrite zlen_cons; lia|]. right. exists 0%nat, (S k), sp, b. split; [discriminate|]. split; [reflexivity|exact Z].
      - destruct IH as [Z|(j & k & a & b & N & E1 & E2)]; [left; exact Z|]. right. exists (S j), (S k), a, b. split; [congruence|]. split; assumption. }
    destruct (G (map snd l)) as [Z|(j & k & a & b & Njk & E1 & E2)]; [exact Z|exfalso].
    assert (NN : forall ins us hs l, autos_all sign ins us hs l -> forall k b, nth_error (map snd l) k = Some (Some b) -> exists u, nth_error us k = Some u /\ forall h, length h = 20%nat -> hex_decode (lu_lock u) <> Ok (p2pkh_script h)).
    { clear. intros ins us hs l A. induction A as [|i ins u us h hs sp s w l A1 A2 A3 A IH]; intros [|k] b Ek; try discriminate Ek; cbn [nth_error map snd] in *; [|exact (IH k b Ek)]. exists u. split; [reflexivity|]. intros h1 Lh1 X.
      destruct A3 as (lock & h0 & El & Lh & [(_ & R & S & _ & _ & Q)|[(e & r & Elk & Er & Q)|(Elk & Q)]]); [congruence| |]; rewrite El, Elk in X; discriminate X. }
    destruct (NN _ _ _ _ A j a E1) as (u & Eu & Nu). destruct (NN _ _ _ _ A k b E2) as (v & Ev & Nv). destruct (One j k u v Njk Eu Ev) as (h & Lh & [X|X]); [exact (Nu h Lh X)|exact (Nv h Lh X)]. }
  assert (FI : forall n us hl l ins, pointwise (like_signs H version ins outs lt) n us hl -> forall ins1, autos_all sign ins1 us (map fst hl) l -> Forall usual us ->
    exists sps lf, like_fills_all ins1 us sps lf /\ map o_in lf = map fst l /\ map o_wit lf = map snd l /\ length sps = length us /\ Forall2 (fun p sp => sign (lu_key (fst p)) (snd p) = Ok sp) (combine us (map fst hl)) sps).
  { clear - KS. intros n us hl l ins P. revert l. induction P as [|n u p us hl S1 P IH]; intros l ins1 A FU; [inversion A; subst; exists [], []; split; [constructor|]; split; [reflexivity|split; [reflexivity|split; [reflexivity|constructor]]]|].
    cbn [map] in A. inversion A as [|i0 ins0 ? ? ? ? sp s w l0 A1 A2 A3 A4]; subst. apply Forall_cons_iff in FU as [U0 FU]. destruct (IH _ _ A4 FU) as (sps & lf & F1 & F2 & F3 & F4 & F5). destruct (KS _ _ _ A2) as (L1 & L2 & _).
    assert (Q : exists u', like_fills u sp (s, w, u')).
    { destruct A3 as (lock & h & El & Lh & Q). destruct U0 as (h1 & Lh1 & U). destruct Q as [(-> & R & S & D1 & D2 & Q)|[(e & r & -> & Er & Q)|(-> & Q)]].
      - assert (Er : lu_redeem u = []) by (destruct U as [(_ & Er)|[X|(X & _)]]; [exact Er|rewrite El in X; discriminate X|rewrite El in X; discriminate X]). exists u. split; [exact L1|]. split; [exact L2|]. right. left. split; [exact Er|].
        split; [intros X; apply (hex_0014_inv _ _ El) in X as (q & X); discriminate X|]. exists R, S. split; [exact D1|]. split; [exact D2|]. assert (Q1 : s = sig_script R S 1 ++ 33 :: sp_pub sp) by congruence. assert (Q2 : w = None) by congruence. rewrite Q1, Q2. reflexivity.
      - exists u. split; [exact L1|]. split; [exact L2|]. right. right. right. split; [|split; [intros X; rewrite X in El; discriminate El|exists r; split; [exact Er|assert (Q1 : s = zlen r mod 256 :: r) by congruence; assert (Q2 : w = Some sp) by congruence; rewrite Q1, Q2; reflexivity]]].
        destruct S1 as (lock & j & El' & _ & [(h2 & _ & X & _)|[(h2 & e2 & r2 & c & _ & _ & _ & Er2 & Lc & _)|(h2 & _ & X & _)]]); [rewrite El in El'; assert (Y : p2sh_script h ++ e = p2pkh_script h2) by congruence; discriminate Y| |rewrite El in El'; assert (Y : p2sh_script h ++ e = witness_v0_script h2) by congruence; discriminate Y].
        assert (r2 <> []) by (destruct Lc as [(h3 & _ & -> & _)|(X & _)]; [discriminate|exact X]). intros X. rewrite X in Er2. cbn in Er2. congruence.
      - assert (Er : lu_redeem u = []) by (destruct U as [(X & _)|[X|(_ & Er)]]; [rewrite El in X; discriminate X|rewrite El in X; discriminate X|exact Er]). exists {| lu_key := lu_key u; lu_lock := str "00"; lu_redeem := lu_lock u; lu_amount := lu_amount u |}. split; [exact L1|]. split; [exact L2|]. left. split; [exact Er|].
        split; [apply (hex_0014 (lu_lock u) h); rewrite El; unfold witness_v0_script, zlen; rewrite Lh; reflexivity|]. assert (s = []) by congruence. assert (w = Some sp) by congruence. subst s w. reflexivity. }
    destruct Q as (u' & Q). exists (sp :: sps), ((with_script i0 s, w, u') :: lf). split; [constructor; assumption|]. cbn [map fst snd length combine]. split; [f_equal; exact F2|]. split; [f_equal; exact F3|]. split; [congruence|]. constructor; [exact A2|exact F5]. }
  destruct (FI 0%nat us hl l ins P ins A FU) as (sps & lf & F1 & F2 & F3 & F4 & F5). exists hl, sps, (map snd lf). split; [unfold zlen; lia|]. split; [exact P|]. split; [exact F4|]. split; [exact F5|].
  - apply like_insert_iff; try assumption.
    + clear - F5 KS. induction F5 as [|p sp m sps Q F IH]; constructor; [|exact IH]. destruct (KS _ _ _ Q) as (_ & _ & X). intros _. exact X.
    + exists lf. split; [exact F1|]. split; [reflexivity|]. rewrite F2, F3. split; [exact N|]. rewrite short_signed, kept_all by exact SW. reflexivity.
Qed.
(** With usual entries, at most one of them not a key hash entry, the call is hashing, signing and insertion in one. *)
Theorem like_sign_one_segwit : forall H sha sign version ins outs lt us signed, (forall d, zlen (H d) = 32) -> sign_ok sign ->
  tx_fits ins outs -> Forall (fun s => zlen (s_script s) <= 252) ins -> Forall redeem_small us -> is_bytes (consensus_tx version ins outs lt) -> no_multisig us -> Forall usual us ->
  (forall j k u v, j <> k -> nth_error us j = Some u -> nth_error us k = Some v -> exists h, length h = 20%nat /\ (hex_decode (lu_lock u) = Ok (p2pkh_script h) \/ hex_decode (lu_lock v) = Ok (p2pkh_script h))) ->
  like_sign_raw H sha sign (hex_encode (consensus_tx version ins outs lt)) us = Ok signed ->
  exists hs us1 sps us', like_create_hashes H sha (hex_encode (consensus_tx version ins outs lt)) us = Ok (map hex_encode hs, us1) /\
    length sps = length us /\ Forall2 (fun p sp => sign (lu_key (fst p)) (snd p) = Ok sp) (combine us hs) sps /\
    like_insert sha (hex_encode (consensus_tx version ins outs lt)) sps us = Ok (signed, us').
Proof.
  intros H sha sign version ins outs lt us signed HH KS T Fs Fu B NM FU One E. destruct (one_segwit_core H sha sign version ins outs lt us signed HH KS T Fs Fu B NM FU One E) as (hl & sps & us' & L & P & LS & F & E2).
  exists (map fst hl), (map snd hl), sps, us'. split; [|auto]. apply like_hashes_iff; try assumption. split; [exact L|]. exists hl. split; [rewrite map_map; reflexivity|]. split; [reflexivity|exact P].
Qed.
(** So, with signatures that check and that the decoder reads back, VerifyRawTransaction accepts the result. *)
Theorem like_sign_verified : forall H sha sign decompress ecdsa version ins outs lt us signed, (forall d, zlen (H d) = 32) -> sign_ok sign -> (forall k, decompress k <> []) ->
  (forall k h sp, sign k h = Ok sp -> is_bytes (sp_pub sp) /\ readable (sp_sig sp) /\ ecdsa (tl (decompress (sp_pub sp))) h (sp_sig sp) = true) ->
  tx_fits ins outs -> Forall (fun s => zlen (s_script s) <= 252) ins -> Forall redeem_small us -> is_bytes (consensus_tx version ins outs lt) -> no_multisig us -> Forall usual us ->
  (forall j k u v, j <> k -> nth_error us j = Some u -> nth_error us k = Some v -> exists h, length h = 20%nat /\ (hex_decode (lu_lock u) = Ok (p2pkh_script h) \/ hex_decode (lu_lock v) = Ok (p2pkh_script h))) ->
  like_sign_raw H sha sign (hex_encode (consensus_tx version ins outs lt)) us = Ok signed -> like_verify H sha decompress ecdsa signed us = Ok true.
Proof.
  intros H sha sign decompress ecdsa version ins outs lt us signed HH KS HD KV T Fs Fu B NM FU One E.
  destruct (one_segwit_core H sha sign version ins outs lt us signed HH KS T Fs Fu B NM FU One E) as (hl & sps & us' & L & P & LS & F & E2).
  assert (G1 : Forall sound_sp sps) by (clear - F KS; induction F as [|p sp m sps Q F IH]; constructor; [|exact IH]; destruct (KS _ _ _ Q) as (_ & _ & X); intros _; exact X).
  assert (G2 : Forall (fun sp => is_bytes (sp_pub sp) /\ readable (sp_sig sp)) sps) by (clear - F KV; induction F as [|p sp m sps Q F IH]; constructor; [|exact IH]; destruct (KV _ _ _ Q) as (X & Y & _); auto).
  rewrite (round_trip_core H sha decompress ecdsa version ins outs lt sps us hl us us' us signed HD T Fs Fu B FU G1 G2 NM (or_introl eq_refl) (or_introl eq_refl) L P E2). f_equal. rewrite firstn_all2 by (unfold zlen in L; lia).
  clear - F KV LS. unfold valid_all. revert sps LS F. generalize (map fst hl). intros hs. revert hs. induction us as [|u us IH]; intros hs sps LS F; destruct sps as [|sp sps]; try discriminate LS; [destruct hs; reflexivity|].
  destruct hs as [|h hs]; [reflexivity|]. cbn [combine] in F |- *. inversion F as [|? ? ? ? Q F1]; subst. cbn [forallb fst snd] in *. rewrite (proj2 (proj2 (KV _ _ _ Q))). cbn [andb]. apply (IH hs sps); [cbn [length] in LS; lia|exact F1].
Qed.

(** ** Concrete cases *)
Definition ex_sign (k h : bytes) : res sigpub := Ok ex_like_sp.
Lemma ex_sign_ok : sign_ok ex_sign.
Proof. intros k h sp E. assert (sp = ex_like_sp) by (unfold ex_sign in E; congruence). subst sp. split; [reflexivity|]. split; [reflexivity|]. apply ex_like_sound. reflexivity. Qed.
Definition keyed (u : lunlock) : lunlock := {| lu_key := repeat 1 32; lu_lock := lu_lock u; lu_redeem := lu_redeem u; lu_amount := lu_amount u |}.
Definition ex_auto_us : list lunlock := map keyed ex_like_us.
Lemma toy_len d : zlen (toy_hash d) = 32.
Proof. unfold toy_hash, zlen. rewrite be_bytes_length. reflexivity. Qed.
Lemma ex_auto_signs : pointwise (like_signs toy_hash 2 ex_like_ins [ex_like_out] 3) 0 ex_auto_us (map (fun p => (fst p, keyed (snd p))) ex_like_l).
Proof.
  constructor; [exists (p2pkh_script (repeat 3 20)), (ex_like_in 1); split; [reflexivity|]; split; [reflexivity|]; left; exists (repeat 3 20); split; [reflexivity|]; split; reflexivity|].
  constructor; [exists (p2sh_script (repeat 4 20)), (ex_like_in 9); split; [reflexivity|]; split; [reflexivity|]; right; left; exists (repeat 4 20), [], (witness_v0_script (repeat 5 20)), (p2pkh_script (repeat 5 20))|].
  - split; [reflexivity|]. split; [rewrite app_nil_r; reflexivity|]. split; [left; reflexivity|]. split; [reflexivity|]. split; [left; exists (repeat 5 20); auto|reflexivity].
  - constructor; [|constructor]. exists (witness_v0_script (repeat 6 20)), (ex_like_in 200); split; [reflexivity|]; split; [reflexivity|]; right; right; exists (repeat 6 20); split; [reflexivity|]; split; reflexivity.
Qed.
Lemma ex_auto_redeem : Forall redeem_small ex_auto_us /\ no_multisig ex_auto_us.
Proof.
  pose proof ex_like_redeem as A. pose proof ex_like_plain as B. unfold no_multisig, ex_auto_us in *. rewrite Forall_map. rewrite Forall_map. split; [exact A|exact B].
Qed.
(** A key hash, a nested and a native input: signing succeeds, with two witnesses for three inputs. *)
Example like_sign_two_example : exists R S signed, like_sign_raw toy_hash (fun _ => []) ex_sign (hex_encode (consensus_tx 2 ex_like_ins [ex_like_out] 3)) ex_auto_us = Ok signed /\
  signed = hex_encode (like_signed 2 [with_script (ex_like_in 1) (sig_script R S 1 ++ 33 :: ex_pub); with_script (ex_like_in 9) (22 :: witness_v0_script (repeat 5 20)); with_script (ex_like_in 200) []] [ex_like_out] [None; Some ex_like_sp] 3).
Proof.
  destruct (der_zero_unique ex_like_sp ex_like_sound eq_refl) as (R & S & D1 & D2 & _). exists R, S. eexists. split; [|reflexivity].
  apply like_sign_raw_iff; [exact toy_len|exact ex_sign_ok|exact ex_like_fits|exact ex_like_scripts|apply ex_auto_redeem|exact ex_like_bytes|apply ex_auto_redeem|].
  exists (map (fun p => (fst p, keyed (snd p))) ex_like_l), [(with_script (ex_like_in 1) (sig_script R S 1 ++ 33 :: ex_pub), None); (with_script (ex_like_in 9) (22 :: witness_v0_script (repeat 5 20)), Some ex_like_sp); (with_script (ex_like_in 200) [], Some ex_like_sp)].
  split; [exact ex_auto_signs|]. split; [|split; [exact I|reflexivity]].
  econstructor; [reflexivity|reflexivity|exists (p2pkh_script (repeat 3 20)), (repeat 3 20); split; [reflexivity|]; split; [reflexivity|]; left; split; [reflexivity|]; exists R, S; auto|].
  econstructor; [reflexivity|reflexivity|exists (p2sh_script (repeat 4 20)), (repeat 4 20); split; [reflexivity|]; split; [reflexivity|]; right; left; exists [], (witness_v0_script (repeat 5 20)); split; [rewrite app_nil_r; reflexivity|]; split; reflexivity|].
  econstructor; [reflexivity|reflexivity|exists (witness_v0_script (repeat 6 20)), (repeat 6 20); split; [reflexivity|]; split; [reflexivity|]; right; right; split; reflexivity|constructor].
Qed.
Print Assumptions like_sign_raw_iff.
Print Assumptions like_sign_two_segwit.
Print Assumptions like_sign_one_segwit.
Print Assumptions like_sign_verified.
