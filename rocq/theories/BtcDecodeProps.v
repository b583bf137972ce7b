(** DecodeRawTransaction of btcTransaction and of the packages with the same text of it (bitcoincash, bitcoinsv, omni, hc,
    cxc and zencash; only the version they demand differs): exactly which bytes are accepted, what is shown for them, and
    which bytes make it panic. *)
From Coq Require Import ZArith List Bool Lia ZifyBool ZifyNat.
From Verif Require Import Go GoFacts GoFacts2 Rd BtcSpec BtcModel BtcTxProofs AddressProps.
Import ListNotations.
Open Scope Z_scope.
Ltac Zify.zify_post_hook ::= idtac.

(** ** Specification *)
(** The script of an input with its length, and what is shown for it: kind, witness program, signature script, multi-signature
    script. Without the marker every length is taken except 23, 35 and more than 65535; with the marker at most 108. *)
Inductive taken_script (marker : bool) : bytes -> Z * bytes * bytes * bytes -> Prop :=
| script_none : taken_script marker [0] (if marker then TypeBech32 else TypeEmpty, [], [], [])
| script_key s : 1 <= zlen s <= 108 -> zlen s <> 23 -> zlen s <> 35 -> taken_script marker (zlen s :: s) (TypeP2PKH, [], s, [])
| script_nested s : marker = true -> zlen s = 23 -> taken_script marker (23 :: s) (TypeP2WPKH, s, [], [])
| script_wrapped s : marker = true -> zlen s = 35 -> taken_script marker (35 :: s) (TypeMultiSig, 35 :: s, [], [])
| script_multi s : marker = false -> 109 <= zlen s <= 252 -> taken_script marker (zlen s :: s) (TypeMultiSig, [], [], s)
| script_long s : marker = false -> zlen s < 65536 -> taken_script marker (253 :: le_bytes 2 (zlen s) ++ s) (TypeMultiSig, [], [], 253 :: le_bytes 2 (zlen s) ++ s).
Inductive taken_in (marker : bool) : bytes -> txin -> Prop :=
| in_taken txid vout f ty pub sig multi seq : zlen txid = 32 -> zlen vout = 4 -> zlen seq = 4 -> taken_script marker f (ty, pub, sig, multi) ->
    taken_in marker (txid ++ vout ++ f ++ seq) {| in_type := ty; in_txid := txid; in_vout := vout; in_pub := pub; in_sig := sig; in_seq := seq; in_multi := multi |}.
Inductive taken_out : bytes -> txout -> Prop :=
| out_taken amount s : zlen amount = 8 -> 1 <= zlen s <= 255 -> taken_out (amount ++ zlen s :: s) {| out_amount := amount; out_lock := s |}.
(** Pushes of signatures before a redeem script: the byte behind each length is 0x30, and that of the redeem script is not. *)
Definition pushes_of (sigs : list bytes) : bytes := concat (map (fun s => zlen s :: s) sigs).
Fixpoint sig_run (sigs : list bytes) (redeem : bytes) : Prop :=
  match sigs with
  | [] => hd 0 redeem <> 0x30
  | s :: r => zlen s <= 255 /\ nth 1 (pushes_of sigs ++ zlen redeem :: redeem) 0 = 0x30 /\ sig_run r redeem
  end.
(** The witness of an input: none after a signature script; two items whose second takes 34 bytes with its length, whatever
    the length says; with segwit on, an announcement of four items and then any number of signatures and a redeem script. *)
Inductive taken_wit (segwitOn : bool) : txin -> bytes -> txin -> Prop :=
| wit_key i : in_type i = TypeP2PKH -> taken_wit segwitOn i [0] i
| wit_single i sig key : in_type i = TypeP2WPKH \/ in_type i = TypeBech32 -> zlen sig <= 255 -> zlen key = 34 ->
    taken_wit segwitOn i (2 :: zlen sig :: sig ++ key) (with_sig (zlen sig :: sig ++ key) i)
| wit_many i sigs redeem : segwitOn = true -> in_type i = TypeMultiSig -> 1 <= zlen redeem <= 255 -> last redeem 0 = 0xAE -> sig_run sigs redeem ->
    taken_wit segwitOn i (4 :: 0 :: pushes_of sigs ++ zlen redeem :: redeem) (with_multi (0 :: pushes_of sigs ++ zlen redeem :: redeem) i).
Inductive taken_wits (segwitOn : bool) : list txin -> list bytes -> list txin -> Prop :=
| wits_nil : taken_wits segwitOn [] [] []
| wits_cons i w i' l ws l' : taken_wit segwitOn i w i' -> taken_wits segwitOn l ws l' -> taken_wits segwitOn (i :: l) (w :: ws) (i' :: l').
Definition marker_bytes (marker : bool) : bytes := if marker then [0; 1] else [].

(** ** Reading fields *)
Lemma need_cases {A} n rest (k : bytes -> bytes -> res A) : 0 <= n ->
  (zlen rest < n /\ need n rest k = Err) \/ exists a b, rest = a ++ b /\ zlen a = n /\ need n rest k = k a b.
Proof.
  intros Hn. unfold need. destruct (zlen rest <? n) eqn:E; [left; split; [lia|reflexivity]|]. right. eexists _, _. split; [symmetry; apply firstn_skipn|]. split; [|reflexivity].
  unfold zlen in *. rewrite firstn_length. lia.
Qed.
Lemma must_cases {A} n rest (k : bytes -> bytes -> res A) : 0 <= n ->
  (zlen rest < n /\ must n rest k = Panic) \/ exists a b, rest = a ++ b /\ zlen a = n /\ must n rest k = k a b.
Proof.
  intros Hn. unfold must. destruct (zlen rest <? n) eqn:E; [left; split; [lia|reflexivity]|]. right. eexists _, _. split; [symmetry; apply firstn_skipn|]. split; [|reflexivity].
  unfold zlen in *. rewrite firstn_length. lia.
Qed.
Lemma must_short {A} n rest (k : bytes -> bytes -> res A) : zlen rest < n -> must n rest k = Panic.
Proof. intros L. unfold must. replace (zlen rest <? n) with true by lia. reflexivity. Qed.
(** A reader that takes exactly the texts of [T] and panics exactly on [S]. *)
Definition reads {A} (read : bytes -> res (A * bytes)) (T : bytes -> A -> Prop) (S : bytes -> Prop) : Prop :=
  (forall w x r, T w x -> read (w ++ r) = Ok (x, r)) /\ (forall b, S b -> read b = Panic) /\
  (forall b, is_bytes b -> (exists w x r, T w x /\ b = w ++ r) \/ S b \/ read b = Err).
Lemma reads_ok {A} (read : bytes -> res (A * bytes)) T S b x r : reads read T S -> is_bytes b -> read b = Ok (x, r) -> exists w, T w x /\ b = w ++ r.
Proof. intros (H1 & H2 & H3) B E. destruct (H3 b B) as [(w & y & q & Hw & ->)|[Hs|Hs]]; [|rewrite (H2 _ Hs) in E; discriminate|congruence]. rewrite (H1 _ _ _ Hw) in E. assert (y = x) by congruence. assert (q = r) by congruence. subst. eauto. Qed.
Lemma reads_panic {A} (read : bytes -> res (A * bytes)) T S b : reads read T S -> is_bytes b -> read b = Panic -> S b.
Proof. intros (H1 & H2 & H3) B E. destruct (H3 b B) as [(w & y & q & Hw & ->)|[Hs|Hs]]; [rewrite (H1 _ _ _ Hw) in E; discriminate|exact Hs|congruence]. Qed.
Definition many_stuck {A} (T : bytes -> A -> Prop) (S : bytes -> Prop) (n : nat) (b : bytes) : Prop :=
  exists ws xs r, Forall2 T ws xs /\ (length ws < n)%nat /\ b = concat ws ++ r /\ S r.
Definition many_taken {A} (T : bytes -> A -> Prop) (n : nat) (b : bytes) (xs : list A) : Prop := exists ws, Forall2 T ws xs /\ length ws = n /\ b = concat ws.
Lemma readn_reads {A} (read : bytes -> res (A * bytes)) T S : reads read T S -> forall n, reads (readn n read) (many_taken T n) (many_stuck T S n).
Proof.
  intros R n. destruct R as (H1 & H2 & H3). induction n as [|n IH].
  - split; [|split].
    + intros w xs r (ws & F & L & ->). destruct ws; [|discriminate L]. inversion F; subst. reflexivity.
    + intros b (ws & xs & r & _ & L & _). lia.
    + intros b B. left. exists [], [], b. split; [exists []; split; [constructor|split; reflexivity]|reflexivity].
  - destruct IH as (I1 & I2 & I3). split; [|split].
    + intros w xs r (ws & F & L & ->). inversion F as [|w1 x1 ws1 xs1 T1 F1 E1 E2]; subst; [discriminate L|]. cbn [length] in L. cbn [readn concat]. rewrite <- app_assoc, (H1 _ _ _ T1). cbn [bind]. rewrite (I1 (concat ws1) xs1 r) by (exists ws1; split; [exact F1|split; [lia|reflexivity]]). reflexivity.
    + intros b (ws & xs & r & F & L & -> & Hs). cbn [readn]. inversion F as [|w1 x1 ws1 xs1 T1 F1 E1 E2]; subst.
      * cbn [concat app]. rewrite (H2 _ Hs). reflexivity.
      * cbn [length] in L. cbn [concat]. rewrite <- app_assoc, (H1 _ _ _ T1). cbn [bind]. rewrite (I2 (concat ws1 ++ r)) by (exists ws1, xs1, r; repeat split; try assumption; lia). reflexivity.
    + intros b B. destruct (H3 b B) as [(w & x & r & Tw & ->)|[Hs|E]].
      * apply is_bytes_app in B as [_ B]. destruct (I3 r B) as [(w2 & xs & r2 & (ws & F & L & ->) & ->)|[(ws & xs & r2 & F & L & -> & Hs)|E]].
        -- left. exists (w ++ concat ws), (x :: xs), r2. split; [exists (w :: ws); split; [constructor; assumption|split; [cbn [length]; lia|reflexivity]]|rewrite <- app_assoc; reflexivity].
        -- right; left. exists (w :: ws), (x :: xs), r2. split; [constructor; assumption|]. split; [cbn [length]; lia|]. split; [cbn [concat]; rewrite <- app_assoc; reflexivity|exact Hs].
        -- right; right. cbn [readn]. rewrite (H1 _ _ _ Tw). cbn [bind]. rewrite E. reflexivity.
      * right; left. exists [], [], b. split; [constructor|]. split; [cbn [length]; lia|]. split; [reflexivity|exact Hs].
      * right; right. cbn [readn]. rewrite E. reflexivity.
Qed.
(** ** Inputs *)
(** An input that ends before its sequence number, or a long script of which one or two bytes are missing. *)
Definition stuck_in (marker : bool) (b : bytes) : Prop :=
  exists txid vout p, zlen txid = 32 /\ zlen vout = 4 /\ b = txid ++ vout ++ p /\
    ((exists f x cut, taken_script marker f x /\ zlen cut < 4 /\ p = f ++ cut) \/
     (marker = false /\ exists n cut, 0 <= n < 65536 /\ n - 2 <= zlen cut < n /\ p = 253 :: le_bytes 2 n ++ cut)).
Definition after_script (txid vout : bytes) (x : Z * bytes * bytes * bytes) (rest : bytes) : res (txin * bytes) :=
  let '(ty, pub, sig, multi) := x in must 4 rest (fun seq rest =>
    Ok ({| in_type := ty; in_txid := txid; in_vout := vout; in_pub := pub; in_sig := sig; in_seq := seq; in_multi := multi |}, rest)).
Lemma decode_in_script m txid vout f x rest : zlen txid = 32 -> zlen vout = 4 -> taken_script m f x -> decode_in m (txid ++ vout ++ f ++ rest) = after_script txid vout x rest.
Proof.
  intros L1 L2 T. unfold decode_in. rewrite need_app by exact L1. rewrite need_app by exact L2. destruct T as [|s L N1 N2|s -> L|s -> L|s -> L|s -> L]; cbn [app need1]; cbv zeta.
  - change (0 =? 0) with true. destruct m; reflexivity.
  - replace (zlen s =? 0) with false by lia. replace (zlen s =? 23) with false by lia. replace (zlen s =? 35) with false by lia. replace (zlen s <=? 108) with true by lia. cbv iota. rewrite need_app by reflexivity. reflexivity.
  - change (23 =? 0) with false. change (23 =? 23) with true. cbv iota. cbn [negb]. cbv iota. rewrite need_app by exact L. reflexivity.
  - change (35 =? 0) with false. change (35 =? 23) with false. change (35 =? 35) with true. cbv iota. cbn [negb]. cbv iota. rewrite need_app by exact L. reflexivity.
  - replace (zlen s =? 0) with false by lia. replace (zlen s =? 23) with false by lia. replace (zlen s =? 35) with false by lia. replace (zlen s <=? 108) with false by lia. replace (zlen s =? 253) with false by lia. replace (253 <? zlen s) with false by lia. cbv iota. rewrite need_app by reflexivity. reflexivity.
  - change (253 =? 0) with false. change (253 =? 23) with false. change (253 =? 35) with false. change (253 <=? 108) with false. change (253 =? 253) with true. cbv iota. pose proof (zlen_nonneg s) as Zs. pose proof (zlen_nonneg rest) as Zr.
    rewrite <- app_assoc. replace (firstn 2 (le_bytes 2 (zlen s) ++ s ++ rest)) with (le_bytes 2 (zlen s)) by reflexivity. rewrite le_num_small by (change (256 ^ Z.of_nat 2) with 65536; lia).
    rewrite !zlen_app. change (zlen (le_bytes 2 (zlen s))) with 2. replace (2 + (zlen s + zlen rest) <? 2) with false by lia. replace (2 + (zlen s + zlen rest) <? zlen s) with false by lia. cbv iota.
    rewrite app_assoc. rewrite must_app by (rewrite zlen_app; change (zlen (le_bytes 2 (zlen s))) with 2; lia). reflexivity.
Qed.
Lemma decode_in_reads m : reads (decode_in m) (taken_in m) (stuck_in m).
Proof.
  split; [|split].
  - intros w x r T. destruct T as [txid vout f ty pub sig multi seq L1 L2 L3 T]. rewrite <- !app_assoc. rewrite (decode_in_script m txid vout f _ (seq ++ r) L1 L2 T). cbn [after_script]. rewrite must_app by exact L3. reflexivity.
  - intros b (txid & vout & p & L1 & L2 & -> & [(f & x & cut & T & L3 & ->)|(-> & n & cut & N & L3 & ->)]).
    + rewrite (decode_in_script m txid vout f _ cut L1 L2 T). destruct x as [[[ty pub] sig] multi]. cbn [after_script]. apply must_short. exact L3.
    + unfold decode_in. rewrite need_app by exact L1. rewrite need_app by exact L2. cbn [need1]. cbv zeta. change (253 =? 0) with false. change (253 =? 23) with false. change (253 =? 35) with false. change (253 <=? 108) with false. change (253 =? 253) with true. cbv iota.
      replace (firstn 2 (le_bytes 2 n ++ cut)) with (le_bytes 2 n) by reflexivity. rewrite le_num_small by (change (256 ^ Z.of_nat 2) with 65536; lia). rewrite zlen_app. change (zlen (le_bytes 2 n)) with 2. pose proof (zlen_nonneg cut). replace (2 + zlen cut <? 2) with false by lia. replace (2 + zlen cut <? n) with false by lia. cbv iota.
      apply must_short. rewrite zlen_app. change (zlen (le_bytes 2 n)) with 2. lia.
  - intros b B. unfold decode_in at 1.
    match goal with |- context [need 32 b ?k] => destruct (need_cases 32 b k) as [[L E]|(txid & r1 & -> & L1 & E)]; [lia|rewrite E; tauto|rewrite E; clear E] end.
    match goal with |- context [need 4 r1 ?k] => destruct (need_cases 4 r1 k) as [[L E]|(vout & r2 & -> & L2 & E)]; [lia|rewrite E; tauto|rewrite E; clear E] end.
    destruct r2 as [|n r]; [right; right; reflexivity|]. cbn [need1]. cbv zeta. assert (Bn : is_byte n /\ is_bytes r) by (apply is_bytes_app in B as [_ B]; apply is_bytes_app in B as [_ B]; apply is_bytes_cons; exact B). destruct Bn as [Bn Br]. unfold is_byte in Bn.
    assert (D : forall f x r', taken_script m f x -> n :: r = f ++ r' -> (exists w x r0, taken_in m w x /\ txid ++ vout ++ n :: r = w ++ r0) \/ stuck_in m (txid ++ vout ++ n :: r)).
    { intros f [[[ty pub] sig] multi] r' T E. rewrite E. destruct (Z_lt_dec (zlen r') 4) as [Q|Q].
      - right. exists txid, vout, (f ++ r'). split; [exact L1|]. split; [exact L2|]. split; [reflexivity|]. left. exists f, (ty, pub, sig, multi), r'. repeat split; assumption.
      - left. assert (S4 : exists seq r2, r' = seq ++ r2 /\ zlen seq = 4). { exists (firstn 4 r'), (skipn 4 r'). split; [symmetry; apply firstn_skipn|]. unfold zlen in *. rewrite firstn_length. lia. } destruct S4 as (seq & r2 & -> & L4).
        eexists _, _, r2. split; [exact (in_taken m txid vout f ty pub sig multi seq L1 L2 L4 T)|]. rewrite <- !app_assoc. reflexivity. }
    destruct (n =? 0) eqn:N0; [assert (n = 0) by lia; subst n; destruct (D _ _ r (script_none m) eq_refl); tauto|].
    destruct (n =? 23) eqn:N1.
    { assert (n = 23) by lia; subst n. destruct m; cbn [negb]; [|right; right; reflexivity]. match goal with |- context [need 23 r ?k] => destruct (need_cases 23 r k) as [[L E]|(s & r' & -> & L & E)]; [lia|rewrite E; tauto|clear E] end. destruct (D _ _ r' (script_nested true s eq_refl L) eq_refl); tauto. }
    destruct (n =? 35) eqn:N2.
    { assert (n = 35) by lia; subst n. destruct m; cbn [negb]; [|right; right; reflexivity]. match goal with |- context [need 35 r ?k] => destruct (need_cases 35 r k) as [[L E]|(s & r' & -> & L & E)]; [lia|rewrite E; tauto|clear E] end. destruct (D _ _ r' (script_wrapped true s eq_refl L) eq_refl); tauto. }
    destruct (n <=? 108) eqn:N3.
    { match goal with |- context [need n r ?k] => destruct (need_cases n r k) as [[L E]|(s & r' & -> & L & E)]; [lia|rewrite E; tauto|clear E] end. destruct (D (zlen s :: s) (TypeP2PKH, [], s, []) r'); [apply script_key; lia|rewrite L; reflexivity|tauto|tauto]. }
    destruct m; [right; right; reflexivity|].
    destruct (n =? 253) eqn:N4.
    { assert (n = 253) by lia; subst n. destruct (zlen r <? 2) eqn:R2; [right; right; reflexivity|]. destruct r as [|a [|c r]]; try discriminate R2. change (firstn 2 (a :: c :: r)) with [a; c]. apply is_bytes_cons in Br as [Ba Br]. apply is_bytes_cons in Br as [Bc Br].
      set (k := le_num [a; c]). assert (K : [a; c] = le_bytes 2 k /\ 0 <= k < 65536). { assert (is_bytes [a; c]) by (apply is_bytes_cons; split; [exact Ba|apply is_bytes_cons; split; [exact Bc|constructor]]). split; [symmetry; apply (le_bytes_le_num [a; c]); assumption|]. apply (le_num_bound [a; c]). assumption. } destruct K as [K1 K2].
      rewrite !zlen_cons. destruct (1 + (1 + zlen r) <? k) eqn:R3; [right; right; reflexivity|]. change (a :: c :: r) with ([a; c] ++ r). rewrite K1.
      destruct (Z_lt_dec (zlen r) k) as [Q|Q].
      - right; left. exists txid, vout, (253 :: le_bytes 2 k ++ r). split; [exact L1|]. split; [exact L2|]. split; [reflexivity|]. right. split; [reflexivity|]. exists k, r. repeat split; lia.
      - assert (S4 : exists s r2, r = s ++ r2 /\ zlen s = k). { exists (firstn (Z.to_nat k) r), (skipn (Z.to_nat k) r). split; [symmetry; apply firstn_skipn|]. unfold zlen in *. rewrite firstn_length. lia. } destruct S4 as (s & r2 & -> & L4).
        destruct (D (253 :: le_bytes 2 (zlen s) ++ s) (TypeMultiSig, [], [], 253 :: le_bytes 2 (zlen s) ++ s) r2) as [D1|D1]; [apply script_long; [reflexivity|lia]|change (a :: c :: s ++ r2) with ([a; c] ++ s ++ r2); rewrite K1, L4; cbn [app]; rewrite ?app_assoc_reverse; reflexivity|left; change (a :: c :: s ++ r2) with ([a; c] ++ s ++ r2) in D1; rewrite K1 in D1; exact D1|right; left; change (a :: c :: s ++ r2) with ([a; c] ++ s ++ r2) in D1; rewrite K1 in D1; exact D1]. }
    destruct (253 <? n) eqn:N5; [right; right; reflexivity|].
    match goal with |- context [need n r ?k] => destruct (need_cases n r k) as [[L E]|(s & r' & -> & L & E)]; [lia|rewrite E; tauto|clear E] end. destruct (D (zlen s :: s) (TypeMultiSig, [], [], s) r'); [apply script_multi; [reflexivity|lia]|rewrite L; reflexivity|tauto|tauto].
Qed.
(** ** Outputs *)
Lemma decode_out_reads : reads decode_out taken_out (fun _ => False).
Proof.
  split; [|split].
  - intros w x r [amount s L1 L2]. unfold decode_out. rewrite <- app_assoc. rewrite need_app by exact L1. cbn [app need1]. replace (zlen s =? 0) with false by lia. rewrite need_app by reflexivity. reflexivity.
  - intros b [].
  - intros b B. unfold decode_out at 1. match goal with |- context [need 8 b ?k] => destruct (need_cases 8 b k) as [[L E]|(amount & r1 & -> & L1 & E)]; [lia|rewrite E; tauto|rewrite E; clear E] end.
    destruct r1 as [|n r]; [right; right; reflexivity|]. cbn [need1]. apply is_bytes_app in B as [_ B]. apply is_bytes_cons in B as [Bn B]. unfold is_byte in Bn. destruct (n =? 0) eqn:N0; [right; right; reflexivity|].
    match goal with |- context [need n r ?k] => destruct (need_cases n r k) as [[L E]|(s & r' & -> & L & E)]; [lia|rewrite E; tauto|clear E] end.
    left. exists (amount ++ zlen s :: s), {| out_amount := amount; out_lock := s |}, r'. split; [constructor; [exact L1|lia]|]. rewrite <- app_assoc, L. reflexivity.
Qed.
(** ** Witnesses *)
Lemma sigs_read sigs redeem r : forall fuel, sig_run sigs redeem -> 1 <= zlen redeem -> (length sigs <= fuel)%nat ->
  decode_wit_sigs fuel (pushes_of sigs ++ zlen redeem :: redeem ++ r) = Ok (pushes_of sigs, zlen redeem :: redeem ++ r).
Proof.
  induction sigs as [|s sigs IH]; intros fuel R L F.
  - cbn [sig_run] in R. destruct redeem as [|x redeem]; [change (zlen (@nil Z)) with 0 in L; lia|]. cbn [hd] in R. unfold pushes_of. cbn [map concat app]. destruct fuel; cbn [decode_wit_sigs]; replace (x =? 48) with false by lia; reflexivity.
  - destruct R as (Ls & R1 & R). destruct fuel as [|fuel]; [cbn [length] in F; lia|]. cbn [length] in F. unfold pushes_of in *. cbn [map concat] in *. set (q := concat (map (fun s => zlen s :: s) sigs)) in *.
    assert (E : exists c, s ++ q ++ zlen redeem :: redeem ++ r = 48 :: c).
    { cbn [app] in R1. change (nth 1 (zlen s :: (s ++ q) ++ zlen redeem :: redeem) 0) with (nth 0 ((s ++ q) ++ zlen redeem :: redeem) 0) in R1. rewrite <- app_assoc in R1.
      replace (s ++ q ++ zlen redeem :: redeem ++ r) with ((s ++ q ++ zlen redeem :: redeem) ++ r) by (rewrite <- !app_assoc; reflexivity). destruct (s ++ q ++ zlen redeem :: redeem) as [|x c] eqn:Ec; [destruct s; [destruct q|]; discriminate Ec|]. cbn [nth] in R1. subst x. exists (c ++ r). reflexivity. }
    destruct E as (c & E). replace ((zlen s :: s) ++ q) with (zlen s :: s ++ q) by reflexivity. cbn [app]. rewrite <- app_assoc, E. cbn [decode_wit_sigs]. change (48 =? 48) with true. cbn [negb]. cbv iota. rewrite <- E. rewrite need_app by reflexivity. rewrite IH by (try assumption; lia). reflexivity.
Qed.
Lemma sigs_inv : forall fuel b acc r, is_bytes b -> decode_wit_sigs fuel b = Ok (acc, r) ->
  exists sigs, acc = pushes_of sigs /\ b = acc ++ r /\ Forall (fun s => zlen s <= 255) sigs /\ (length sigs <= fuel)%nat /\
    (exists x y q, r = x :: y :: q /\ y <> 48) /\ (forall pre post, sigs = pre ++ post -> post <> [] -> nth 1 (pushes_of post ++ r) 0 = 48).
Proof.
  induction fuel as [|fuel IH]; intros b acc r B E; destruct b as [|n [|y q]]; try discriminate E; cbn [decode_wit_sigs] in E; destruct (y =? 48) eqn:Y; cbn [negb] in E; try discriminate E;
    try (assert (acc = []) by congruence; assert (r = n :: y :: q) by congruence; subst acc r; exists []; split; [reflexivity|]; split; [reflexivity|]; split; [constructor|]; split; [cbn; lia|]; split; [exists n, y, q; split; [reflexivity|lia]|]; intros pre post P1 P2; destruct pre, post; try discriminate P1; contradiction).
  apply is_bytes_cons in B as [Bn B]. unfold is_byte in Bn. apply need_inv in E as (s & r1 & Es & Ls & E); [|lia]. rewrite Es in B. apply is_bytes_app in B as [_ B]. apply bind_ok in E as ([acc1 r2] & E1 & E). apply (IH _ _ _ B) in E1 as (sigs & -> & -> & F & L & T & P).
  assert (acc = n :: s ++ pushes_of sigs) by congruence. assert (r2 = r) by congruence. subst acc r2. exists (s :: sigs). subst n. split; [reflexivity|]. split; [rewrite Es; cbn [app]; rewrite <- app_assoc; reflexivity|]. split; [constructor; [lia|exact F]|]. split; [cbn [length]; lia|]. split; [exact T|].
  intros pre post Ep N. destruct pre as [|p pre]; cbn [app] in Ep.
  - subst post. assert (y = 48) by lia. subst y. unfold pushes_of. cbn [map concat]. fold (pushes_of sigs). cbn [app]. rewrite <- app_assoc, <- Es. reflexivity.
  - apply (P pre post); [congruence|exact N].
Qed.
Lemma sigs_never_panic : forall fuel b, decode_wit_sigs fuel b <> Panic.
Proof.
  induction fuel as [|fuel IH]; intros b; destruct b as [|n [|y q]]; try discriminate; cbn [decode_wit_sigs]; destruct (negb (y =? 48)); try discriminate. unfold need. destruct (_ <? n); [discriminate|]. specialize (IH (skipn (Z.to_nat n) (y :: q))). destruct (decode_wit_sigs fuel _) as [[? ?]| |]; try discriminate. contradiction.
Qed.
Lemma sig_run_of sigs redeem : Forall (fun s => zlen s <= 255) sigs -> hd 0 redeem <> 48 ->
  (forall pre post, sigs = pre ++ post -> post <> [] -> nth 1 (pushes_of post ++ zlen redeem :: redeem) 0 = 48) -> sig_run sigs redeem.
Proof.
  induction sigs as [|s sigs IH]; intros F N P; cbn [sig_run]; [exact N|]. inversion F as [|? ? Fs Fr]; subst. split; [exact Fs|]. split; [apply (P [] (s :: sigs)); [reflexivity|discriminate]|].
  apply IH; [exact Fr|exact N|]. intros pre post E Np. apply (P (s :: pre) post); [rewrite E; reflexivity|exact Np].
Qed.
Lemma nth1_cut (p redeem r : bytes) n : redeem <> [] -> nth 1 (p ++ n :: redeem ++ r) 0 = nth 1 (p ++ n :: redeem) 0.
Proof. intros N. replace (p ++ n :: redeem ++ r) with ((p ++ n :: redeem) ++ r) by (rewrite <- app_assoc; reflexivity). apply app_nth1. rewrite app_length. cbn [length]. destruct redeem; [contradiction|]. cbn [length]. lia. Qed.
Lemma decode_wit_taken sw i w i' r : taken_wit sw i w i' -> decode_wit sw i (w ++ r) = Ok (i', r).
Proof.
  intros T. destruct T as [i Ty|i sig key Ty L1 L2|i sigs redeem Sw Ty L1 L2 R]; unfold decode_wit; cbn [app need1].
  - rewrite Ty. reflexivity.
  - replace (in_type i =? TypeP2PKH) with false by (destruct Ty as [-> | ->]; reflexivity). replace ((in_type i =? TypeP2WPKH) || (in_type i =? TypeBech32)) with true by (destruct Ty as [-> | ->]; reflexivity). change (negb (2 =? 2)) with false. cbv iota.
    change (zlen sig :: (sig ++ key) ++ r) with ((zlen sig :: sig ++ key) ++ r). rewrite need_app by (rewrite zlen_cons, zlen_app; lia). reflexivity.
  - rewrite Ty, Sw. change (TypeMultiSig =? TypeP2PKH) with false. change ((TypeMultiSig =? TypeP2WPKH) || (TypeMultiSig =? TypeBech32)) with false. change (TypeMultiSig =? TypeMultiSig) with true. change (negb (4 =? 4)) with false. cbn [negb must1]. change (0 =? 0) with true. cbn [negb]. cbv iota.
    rewrite <- app_assoc. cbn [app]. rewrite sigs_read; [|exact R|lia|].
    + cbn [bind need1]. replace (zlen redeem =? 0) with false by lia. rewrite need_app by reflexivity. rewrite L2. reflexivity.
    + unfold pushes_of. rewrite app_length. match goal with |- (_ <= _ + ?x)%nat => generalize x end. clear. intros x. induction sigs as [|s sigs IH]; [cbn; lia|]. cbn [map concat length app]. rewrite app_length. lia.
Qed.
(** Stuck: the announcement of a multi-signature witness is the last byte. *)
Definition stuck_wit (segwitOn : bool) (i : txin) (b : bytes) : Prop := segwitOn = true /\ in_type i = TypeMultiSig /\ b = [4].
Definition wit_type (i : txin) : Prop := in_type i = TypeP2PKH \/ in_type i = TypeP2WPKH \/ in_type i = TypeBech32 \/ in_type i = TypeMultiSig.
Lemma decode_wit_cases sw i b : is_bytes b -> wit_type i -> (exists w i' r, taken_wit sw i w i' /\ b = w ++ r) \/ stuck_wit sw i b \/ decode_wit sw i b = Err.
Proof.
  intros B Ty. unfold decode_wit. destruct b as [|x b]; [right; right; reflexivity|]. cbn [need1]. apply is_bytes_cons in B as [Bx B]. destruct (in_type i =? TypeP2PKH) eqn:T1.
  { destruct (x =? 0) eqn:X; cbn [negb]; [|right; right; reflexivity]. assert (x = 0) by lia. subst x. left. exists [0], i, b. split; [apply wit_key; lia|reflexivity]. }
  destruct ((in_type i =? TypeP2WPKH) || (in_type i =? TypeBech32)) eqn:T2.
  { destruct (x =? 2) eqn:X; cbn [negb]; [|right; right; reflexivity]. assert (x = 2) by lia. subst x. destruct b as [|n b]; [right; right; reflexivity|]. cbn [need1]. assert (Bn : is_byte n) by (apply is_bytes_cons in B; apply B). unfold is_byte in Bn.
    match goal with |- context [need (n + 35) ?r ?k] => destruct (need_cases (n + 35) r k) as [[L E]|(s & r' & E0 & L & E)]; [lia|rewrite E; tauto|clear E] end.
    destruct s as [|y s]; [change (zlen (@nil Z)) with 0 in L; lia|]. cbn [app] in E0. assert (y = n) by congruence. assert (E1 : b = s ++ r') by congruence. subst y b. rewrite zlen_cons in L.
    left. set (sig := firstn (Z.to_nat n) s). set (key := skipn (Z.to_nat n) s). assert (Es : s = sig ++ key) by (symmetry; apply firstn_skipn). assert (Lg : zlen sig = n) by (unfold sig, zlen in *; rewrite firstn_length; lia).
    exists (2 :: zlen sig :: sig ++ key), (with_sig (zlen sig :: sig ++ key) i), r'. split; [apply wit_single; [apply orb_true_iff in T2; lia|rewrite Lg; lia|]|].
    - assert (zlen s = zlen sig + zlen key) by (rewrite Es at 1; apply zlen_app). lia.
    - rewrite Lg. cbn [app]. rewrite Es. reflexivity. }
  destruct (in_type i =? TypeMultiSig) eqn:T3; [|exfalso; unfold wit_type in Ty; lia].
  destruct sw; cbn [negb]; [|right; right; reflexivity]. destruct (x =? 4) eqn:X; cbn [negb]; [|right; right; reflexivity]. assert (x = 4) by lia. subst x.
  destruct b as [|z b]; [right; left; split; [reflexivity|]; split; [lia|reflexivity]|]. cbn [must1]. destruct (z =? 0) eqn:Z0; cbn [negb]; [|right; right; reflexivity]. assert (z = 0) by lia. subst z.
  apply is_bytes_cons in B as [_ B]. destruct (decode_wit_sigs (length b) b) as [[acc r]| |] eqn:E; [|right; right; reflexivity|exfalso; exact (sigs_never_panic _ _ E)]. cbn [bind].
  apply sigs_inv in E as (sigs & -> & -> & F & L & (n & y & q & -> & Hy) & P); [|exact B]. cbn [need1]. apply is_bytes_app in B as [_ B]. apply is_bytes_cons in B as [Bn B]. unfold is_byte in Bn.
  destruct (n =? 0) eqn:N0; [right; right; reflexivity|].
  match goal with |- context [need n ?r ?k] => destruct (need_cases n r k) as [[L2 E]|(redeem & r' & E0 & L2 & E)]; [lia|rewrite E; tauto|rewrite E; clear E] end.
  destruct redeem as [|c redeem]; [change (zlen (@nil Z)) with 0 in L2; lia|]. assert (c = y) by (cbn [app] in E0; congruence). subst c. rewrite E0 in *.
  destruct (last (y :: redeem) 0 =? 174) eqn:La; cbn [negb]; [|right; right; reflexivity]. left.
  exists (4 :: 0 :: pushes_of sigs ++ zlen (y :: redeem) :: y :: redeem), (with_multi (0 :: pushes_of sigs ++ zlen (y :: redeem) :: y :: redeem) i), r'. split.
  - apply wit_many; [reflexivity|lia|lia|lia|]. apply sig_run_of; [exact F|exact Hy|]. intros pre post Ep Np. rewrite <- (P pre post Ep Np). rewrite L2. symmetry. apply nth1_cut. discriminate.
  - rewrite L2. cbn [app]. rewrite <- app_assoc. reflexivity.
Qed.
Lemma stuck_wit_panics sw i b : stuck_wit sw i b -> decode_wit sw i b = Panic.
Proof. intros (-> & Ty & ->). unfold decode_wit. cbn [need1]. rewrite Ty. reflexivity. Qed.
(** The witnesses of the first inputs are taken and the next one is stuck. *)
Definition stuck_wits (segwitOn : bool) (l : list txin) (b : bytes) : Prop :=
  exists l1 i l2 ws l1' r, l = l1 ++ i :: l2 /\ taken_wits segwitOn l1 ws l1' /\ b = concat ws ++ r /\ stuck_wit segwitOn i r.
Lemma decode_wits_all sw l : Forall wit_type l ->
  (forall ws l' r, taken_wits sw l ws l' -> decode_wits sw l (concat ws ++ r) = Ok (l', r)) /\ (forall b, stuck_wits sw l b -> decode_wits sw l b = Panic) /\
  (forall b, is_bytes b -> (exists ws l' r, taken_wits sw l ws l' /\ b = concat ws ++ r) \/ stuck_wits sw l b \/ decode_wits sw l b = Err).
Proof.
  induction 1 as [|i l Ty F IH].
  - split; [|split].
    + intros ws l' r T. inversion T; subst. reflexivity.
    + intros b (l1 & i & l2 & ws & l1' & r & E & _). destruct l1; discriminate E.
    + intros b B. left. exists [], [], b. split; [constructor|reflexivity].
  - destruct IH as (I1 & I2 & I3). split; [|split].
    + intros ws l' r T. inversion T as [|? w i' ? ws1 l1' Tw T1]; subst. cbn [decode_wits concat]. rewrite <- app_assoc, (decode_wit_taken _ _ _ _ _ Tw). cbn [bind]. rewrite (I1 _ _ _ T1). reflexivity.
    + intros b (l1 & j & l2 & ws & l1' & r & E & T & -> & S). cbn [decode_wits]. destruct l1 as [|i0 l1]; cbn [app] in E.
      * assert (j = i) by congruence. subst j. inversion T; subst. cbn [concat app]. rewrite (stuck_wit_panics _ _ _ S). reflexivity.
      * assert (i0 = i) by congruence. subst i0. assert (E1 : l = l1 ++ j :: l2) by congruence. inversion T as [|? w i' ? ws1 l1b Tw T1]; subst. cbn [concat]. rewrite <- app_assoc, (decode_wit_taken _ _ _ _ _ Tw). cbn [bind]. rewrite (I2 (concat ws1 ++ r)); [reflexivity|]. exists l1, j, l2, ws1, l1b, r. repeat split; try assumption; apply S.
    + intros b B. destruct (decode_wit_cases sw i b B Ty) as [(w & i' & r & Tw & ->)|[S|E]].
      * apply is_bytes_app in B as [_ B]. destruct (I3 r B) as [(ws & l' & r2 & T & ->)|[(l1 & j & l2 & ws & l1' & r2 & -> & T & -> & S)|E]].
        -- left. exists (w :: ws), (i' :: l'), r2. split; [constructor; assumption|cbn [concat]; rewrite <- app_assoc; reflexivity].
        -- right; left. exists (i :: l1), j, l2, (w :: ws), (i' :: l1'), r2. split; [reflexivity|]. split; [constructor; assumption|]. split; [cbn [concat]; rewrite <- app_assoc; reflexivity|exact S].
        -- right; right. cbn [decode_wits]. rewrite (decode_wit_taken _ _ _ _ _ Tw). cbn [bind]. rewrite E. reflexivity.
      * right; left. exists [], i, l, [], [], b. split; [reflexivity|]. split; [constructor|]. split; [reflexivity|exact S].
      * right; right. cbn [decode_wits]. rewrite E. reflexivity.
Qed.
Lemma taken_type w i : taken_in true w i -> wit_type i.
Proof. intros T. destruct T as [txid vout f ty pub sig multi seq L1 L2 L3 T]. unfold wit_type. cbn [in_type]. inversion T; subst; try discriminate; tauto. Qed.
(** ** Whole transactions *)
Definition decode_body (v : Z) (sw m : bool) (n : Z) (rest : bytes) : res tx :=
  '(ins, rest) <- readn (Z.to_nat n) (decode_in m) rest ;;
  need1 rest (fun nout rest =>
  if nout =? 0 then Err else
  '(outs, rest) <- readn (Z.to_nat nout) decode_out rest ;;
  '(ins, rest) <- (if m : bool then decode_wits sw ins rest else Ok (ins, rest)) ;;
  need 4 rest (fun locktime rest =>
  if negb (zlen rest =? 0) then Err else
  Ok {| tx_version := le_bytes 4 v; tx_vins := ins; tx_vouts := outs; tx_locktime := locktime; tx_witness := m |})).
Lemma decode_start v sw m n rest : 0 <= v < 2 ^ 32 -> 1 <= n <= 255 -> decode_v v (le_bytes 4 v ++ marker_bytes m ++ n :: rest) sw = decode_body v sw m n rest.
Proof.
  intros V N. unfold decode_v. rewrite need_app by apply zlen_le_bytes. rewrite le_num_small by exact V. rewrite Z.eqb_refl. cbn [negb]. cbv iota. pose proof (zlen_nonneg rest) as Z0. destruct m; cbn [marker_bytes app].
  - rewrite !zlen_cons. replace (1 + (1 + (1 + zlen rest)) <? 2) with false by lia. change (1 =? 1) with true. cbn [negb bind need1]. cbv iota. cbn [bind need1]. replace (n =? 0) with false by lia. reflexivity.
  - rewrite !zlen_cons. destruct (1 + zlen rest <? 2) eqn:Q.
    + assert (rest = []) by (destruct rest; [reflexivity|rewrite zlen_cons in Q; pose proof (zlen_nonneg rest); lia]). subst rest. unfold decode_body. destruct (Z.to_nat n) eqn:T; [lia|]. reflexivity.
    + destruct n as [|p|p]; [lia| |lia]. reflexivity.
Qed.
Lemma decode_start_cases v sw b : is_bytes b -> 0 <= v < 2 ^ 32 ->
  (exists m n rest, b = le_bytes 4 v ++ marker_bytes m ++ n :: rest /\ 1 <= n <= 255 /\ is_bytes rest) \/ decode_v v b sw = Err.
Proof.
  intros B V. unfold decode_v. match goal with |- context [need 4 b ?k] => destruct (need_cases 4 b k) as [[L E]|(ver & r1 & -> & L1 & E)]; [lia|rewrite E; tauto|rewrite E; clear E] end. apply is_bytes_app in B as [Bv B].
  destruct (le_num ver =? v) eqn:Ev; cbn [negb]; [|right; reflexivity]. assert (Hv : ver = le_bytes 4 v) by (assert (v = le_num ver) by lia; subst v; symmetry; replace 4%nat with (length ver) by (unfold zlen in L1; lia); apply le_bytes_le_num; exact Bv). subst ver.
  destruct (zlen r1 <? 2) eqn:Q; [right; reflexivity|]. destruct r1 as [|x r1]; [right; reflexivity|]. apply is_bytes_cons in B as [Bx B]. unfold is_byte in Bx. destruct (Z.eq_dec x 0) as [->|Nx].
  - destruct r1 as [|c r1]; [discriminate Q|]. destruct (c =? 1) eqn:C; cbn [negb bind]; [|right; reflexivity]. assert (c = 1) by lia. subst c. apply is_bytes_cons in B as [_ B]. destruct r1 as [|n r1]; [right; reflexivity|]. cbn [need1]. apply is_bytes_cons in B as [Bn B]. unfold is_byte in Bn. destruct (n =? 0) eqn:N0; [right; reflexivity|]. left. exists true, n, r1. split; [reflexivity|]. split; [lia|exact B].
  - left. exists false, x, r1. split; [reflexivity|]. split; [lia|exact B].
Qed.
Lemma Forall2_taken_types ib ins : Forall2 (taken_in true) ib ins -> Forall wit_type ins.
Proof. induction 1 as [|w i ib ins T F IH]; constructor; [eapply taken_type; exact T|exact IH]. Qed.
Definition wits_part (sw m : bool) (ins : list txin) (wb : list bytes) (ins' : list txin) : Prop :=
  if m then taken_wits sw ins wb ins' else wb = [] /\ ins' = ins.
Lemma body_after v sw (m : bool) ib ins rest n : Forall2 (taken_in m) ib ins -> zlen ins = n -> decode_body v sw m n (concat ib ++ rest) =
  need1 rest (fun nout rest =>
  if nout =? 0 then Err else
  '(outs, rest) <- readn (Z.to_nat nout) decode_out rest ;;
  '(ins, rest) <- (if m : bool then decode_wits sw ins rest else Ok (ins, rest)) ;;
  need 4 rest (fun locktime rest =>
  if negb (zlen rest =? 0) then Err else
  Ok {| tx_version := le_bytes 4 v; tx_vins := ins; tx_vouts := outs; tx_locktime := locktime; tx_witness := m |})).
Proof.
  intros F L. unfold decode_body. destruct (readn_reads _ _ _ (decode_in_reads m) (Z.to_nat n)) as (R & _ & _). rewrite (R (concat ib) ins rest); [reflexivity|].
  exists ib. split; [exact F|]. split; [|reflexivity]. assert (length ib = length ins) by (clear -F; induction F; cbn; lia). unfold zlen in L. lia.
Qed.
Lemma body_wits v sw (m : bool) ib ins ob outs rest : Forall2 (taken_in m) ib ins -> Forall2 taken_out ob outs -> 1 <= zlen outs ->
  decode_body v sw m (zlen ins) (concat ib ++ zlen outs :: concat ob ++ rest) =
  ('(ins, rest) <- (if m : bool then decode_wits sw ins rest else Ok (ins, rest)) ;;
   need 4 rest (fun locktime rest =>
   if negb (zlen rest =? 0) then Err else
   Ok {| tx_version := le_bytes 4 v; tx_vins := ins; tx_vouts := outs; tx_locktime := locktime; tx_witness := m |})).
Proof.
  intros Fi Fo L. rewrite (body_after v sw m ib ins _ _ Fi eq_refl). cbn [need1]. replace (zlen outs =? 0) with false by lia. destruct (readn_reads _ _ _ decode_out_reads (Z.to_nat (zlen outs))) as (R & _ & _). rewrite (R (concat ob) outs rest); [reflexivity|].
  exists ob. split; [exact Fo|]. split; [|reflexivity]. assert (length ob = length outs) by (clear -Fo; induction Fo; cbn; lia). unfold zlen. lia.
Qed.
(** C135. Exactly which bytes are accepted, and what is shown for them. *)
Theorem btc_decode_iff : forall v b segwitOn t, is_bytes b -> 0 <= v < 2 ^ 32 ->
  (decode_v v b segwitOn = Ok t <->
   exists marker ib ins ob outs wb ins' lt,
     1 <= zlen ins <= 255 /\ 1 <= zlen outs <= 255 /\ Forall2 (taken_in marker) ib ins /\ Forall2 taken_out ob outs /\
     (if marker : bool then taken_wits segwitOn ins wb ins' else wb = [] /\ ins' = ins) /\ zlen lt = 4 /\
     b = le_bytes 4 v ++ marker_bytes marker ++ zlen ins :: concat ib ++ zlen outs :: concat ob ++ concat wb ++ lt /\
     t = {| tx_version := le_bytes 4 v; tx_vins := ins'; tx_vouts := outs; tx_locktime := lt; tx_witness := marker |}).
Proof.
  intros v b sw t B V. split.
  - intros E. destruct (decode_start_cases v sw b B V) as [(m & n & rest & -> & N & Br)|Q]; [|congruence]. rewrite decode_start in E by assumption. unfold decode_body in E.
    apply bind_ok in E as ([ins r1] & E1 & E). pose proof (readn_length _ _ _ _ _ E1) as Li. apply (reads_ok _ _ _ _ _ _ (readn_reads _ _ _ (decode_in_reads m) _)) in E1 as (w & (ib & Fi & Lib & ->) & ->); [|exact Br]. apply is_bytes_app in Br as [_ Br].
    apply need1_inv in E as (k & r2 & -> & E). apply is_bytes_cons in Br as [Bk Br]. unfold is_byte in Bk. destruct (k =? 0) eqn:K0; [discriminate|].
    apply bind_ok in E as ([outs r3] & E1 & E). pose proof (readn_length _ _ _ _ _ E1) as Lo. apply (reads_ok _ _ _ _ _ _ (readn_reads _ _ _ decode_out_reads _)) in E1 as (w & (ob & Fo & Lob & ->) & ->); [|exact Br]. apply is_bytes_app in Br as [_ Br].
    apply bind_ok in E as ([ins' r4] & E1 & E). apply need_inv in E as (lt & r5 & -> & Llt & E); [|lia]. destruct (zlen r5 =? 0) eqn:R5; [|discriminate]. cbn [negb] in E. assert (r5 = []) by (destruct r5; [reflexivity|rewrite zlen_cons in R5; pose proof (zlen_nonneg r5); lia]). subst r5. rewrite app_nil_r in *.
    assert (W : exists wb, wits_part sw m ins wb ins' /\ r3 = concat wb ++ lt).
    { destruct m; [|exists []; assert (ins' = ins) by congruence; assert (r3 = lt) by congruence; subst; split; [split; reflexivity|reflexivity]].
      destruct (decode_wits_all sw ins (Forall2_taken_types _ _ Fi)) as (W1 & W2 & W3). destruct (W3 r3 Br) as [(ws & l' & r & T & ->)|[S|Q]]; [|rewrite (W2 _ S) in E1; discriminate|congruence].
      rewrite (W1 _ _ _ T) in E1. assert (l' = ins') by congruence. assert (r = lt) by congruence. subst. exists ws. split; [exact T|reflexivity]. }
    destruct W as (wb & W & ->). exists m, ib, ins, ob, outs, wb, ins', lt.
    assert (zlen ins = n) by (unfold zlen; lia). assert (zlen outs = k) by (unfold zlen; lia). subst n k. split; [lia|]. split; [lia|]. split; [exact Fi|]. split; [exact Fo|]. split; [exact W|]. split; [exact Llt|]. split; [reflexivity|congruence].
  - intros (m & ib & ins & ob & outs & wb & ins' & lt & N1 & N2 & Fi & Fo & W & L & -> & ->). rewrite decode_start by (assumption || lia). rewrite body_wits by (assumption || lia).
    assert (Q : (if m then decode_wits sw ins (concat wb ++ lt) else Ok (ins, concat wb ++ lt)) = Ok (ins', lt)).
    { destruct m; [|destruct W as [-> ->]; reflexivity]. destruct (decode_wits_all sw ins (Forall2_taken_types _ _ Fi)) as (W1 & _ & _). apply W1. exact W. }
    rewrite Q. cbn [bind]. rewrite <- (app_nil_r lt) at 1. rewrite need_app by exact L. reflexivity.
Qed.
(** C135. Exactly which bytes make it panic (a slice without spare capacity): an input that is cut before the end of its sequence
    number or within the last two bytes of a long script, and a multi-signature witness cut behind its announcement. *)
Theorem btc_decode_panics_iff : forall v b segwitOn, is_bytes b -> 0 <= v < 2 ^ 32 ->
  (decode_v v b segwitOn = Panic <->
   exists marker n ib ins r, 1 <= n <= 255 /\ Forall2 (taken_in marker) ib ins /\ b = le_bytes 4 v ++ marker_bytes marker ++ n :: concat ib ++ r /\
     ((zlen ins < n /\ stuck_in marker r) \/
      (marker = true /\ segwitOn = true /\ zlen ins = n /\ exists ob outs done i others ws done',
         Forall2 taken_out ob outs /\ 1 <= zlen outs <= 255 /\ ins = done ++ i :: others /\ taken_wits segwitOn done ws done' /\ in_type i = TypeMultiSig /\
         r = zlen outs :: concat ob ++ concat ws ++ [4]))).
Proof.
  intros v b sw B V. split.
  - intros E. destruct (decode_start_cases v sw b B V) as [(m & n & rest & -> & N & Br)|Q]; [|congruence]. rewrite decode_start in E by assumption. unfold decode_body in E.
    destruct (readn (Z.to_nat n) (decode_in m) rest) as [[ins r1]| |] eqn:E1; cbn [bind] in E; [|discriminate|].
    + pose proof (readn_length _ _ _ _ _ E1) as Li. apply (reads_ok _ _ _ _ _ _ (readn_reads _ _ _ (decode_in_reads m) _)) in E1 as (w & (ib & Fi & Lib & ->) & ->); [|exact Br]. apply is_bytes_app in Br as [_ Br].
      destruct r1 as [|k r2]; [discriminate|]. cbn [need1] in E. apply is_bytes_cons in Br as [Bk Br]. unfold is_byte in Bk. destruct (k =? 0) eqn:K0; [discriminate|].
      destruct (readn (Z.to_nat k) decode_out r2) as [[outs r3]| |] eqn:E1; cbn [bind] in E; [|discriminate|].
      2:{ apply (reads_panic _ _ _ _ (readn_reads _ _ _ decode_out_reads _) Br) in E1 as (? & ? & ? & _ & _ & _ & []). }
      pose proof (readn_length _ _ _ _ _ E1) as Lo. apply (reads_ok _ _ _ _ _ _ (readn_reads _ _ _ decode_out_reads _)) in E1 as (w & (ob & Fo & Lob & ->) & ->); [|exact Br]. apply is_bytes_app in Br as [_ Br].
      assert (NP : forall x r, need 4 r (fun locktime rest => if negb (zlen rest =? 0) then Err else Ok {| tx_version := le_bytes 4 v; tx_vins := x; tx_vouts := outs; tx_locktime := locktime; tx_witness := m |}) <> Panic) by (intros x r; unfold need; destruct (_ <? _); [discriminate|]; destruct (negb _); discriminate).
      destruct m; [|cbn [bind] in E; exfalso; exact (NP _ _ E)]. destruct (decode_wits sw ins r3) as [[ins' r4]| |] eqn:E1; cbn [bind] in E; [exfalso; exact (NP _ _ E)|discriminate|].
      destruct (decode_wits_all sw ins (Forall2_taken_types _ _ Fi)) as (W1 & W2 & W3). destruct (W3 r3 Br) as [(ws & l' & r & T & ->)|[(l1 & i & l2 & ws & l1' & r & -> & T & -> & S)|Q]]; [rewrite (W1 _ _ _ T) in E1; discriminate| |congruence].
      destruct S as (-> & Ty & ->). exists true, n, ib, (l1 ++ i :: l2), (k :: concat ob ++ concat ws ++ [4]). split; [exact N|]. split; [exact Fi|]. split; [reflexivity|]. right. split; [reflexivity|]. split; [reflexivity|]. split; [unfold zlen; lia|].
      exists ob, outs, l1, i, l2, ws, l1'. assert (zlen outs = k) by (unfold zlen; lia). subst k. split; [exact Fo|]. split; [lia|]. split; [reflexivity|]. split; [exact T|]. split; [exact Ty|reflexivity].
    + apply (reads_panic _ _ _ _ (readn_reads _ _ _ (decode_in_reads m) _) Br) in E1 as (ib & ins & r & Fi & L & -> & S). exists m, n, ib, ins, r. split; [exact N|]. split; [exact Fi|]. split; [reflexivity|]. left. split; [|exact S].
      assert (length ib = length ins) by (clear -Fi; induction Fi; cbn; lia). unfold zlen. lia.
  - intros (m & n & ib & ins & r & N & Fi & -> & [(L & S)|(-> & -> & L & ob & outs & l1 & i & l2 & ws & l1' & Fo & No & -> & T & Ty & ->)]); rewrite decode_start by assumption.
    + unfold decode_body. destruct (readn_reads _ _ _ (decode_in_reads m) (Z.to_nat n)) as (_ & R & _). rewrite (R (concat ib ++ r)); [reflexivity|]. exists ib, ins, r. split; [exact Fi|]. split; [|split; [reflexivity|exact S]]. assert (length ib = length ins) by (clear -Fi; induction Fi; cbn; lia). unfold zlen in L. lia.
    + subst n. rewrite body_wits by (assumption || lia). destruct (decode_wits_all true _ (Forall2_taken_types _ _ Fi)) as (_ & W & _). rewrite W; [reflexivity|]. exists l1, i, l2, ws, l1', [4]. split; [reflexivity|]. split; [exact T|]. split; [reflexivity|]. split; [reflexivity|]. split; [exact Ty|reflexivity].
Qed.
(** C135. With the marker two different texts are never shown as the same transaction. *)
Definition shown_in (i : txin) : bytes :=
  in_txid i ++ in_vout i ++
  (if in_type i =? TypeP2PKH then zlen (in_sig i) :: in_sig i else if in_type i =? TypeP2WPKH then 23 :: in_pub i else if in_type i =? TypeBech32 then [0] else in_pub i) ++ in_seq i.
Definition shown_wit (i : txin) : bytes := if in_type i =? TypeP2PKH then [0] else if in_type i =? TypeMultiSig then 4 :: in_multi i else 2 :: in_sig i.
Lemma shown_texts sw w i x i' : taken_in true w i -> taken_wit sw i x i' -> w = shown_in i' /\ x = shown_wit i'.
Proof.
  intros T W. destruct T as [txid vout f ty pub sig multi seq L1 L2 L3 T]. remember {| in_type := ty; in_txid := txid; in_vout := vout; in_pub := pub; in_sig := sig; in_seq := seq; in_multi := multi |} as i eqn:Ei.
  destruct W as [i Ty|i sg key Ty L4 L5|i sigs redeem Sw Ty L4 L5 R]; subst i; cbn [in_type] in Ty; unfold shown_in, shown_wit; cbn [with_sig with_multi in_type in_txid in_vout in_pub in_sig in_seq in_multi].
  - subst ty. inversion T; subst; try discriminate. split; reflexivity.
  - destruct Ty as [-> | ->]; inversion T; subst; try discriminate; split; reflexivity.
  - subst ty. inversion T; subst; try discriminate. split; reflexivity.
Qed.
Lemma shown_texts_all sw ib ins : Forall2 (taken_in true) ib ins -> forall wb ins', taken_wits sw ins wb ins' -> ib = map shown_in ins' /\ wb = map shown_wit ins'.
Proof.
  induction 1 as [|w i ib ins T F IH]; intros wb ins' W; inversion W as [|? x i' ? ws l' Wx Wl]; subst; [split; reflexivity|]. destruct (shown_texts _ _ _ _ _ T Wx) as [-> ->]. destruct (IH _ _ Wl) as [-> ->]. split; reflexivity.
Qed.
Lemma shown_outs ob outs : Forall2 taken_out ob outs -> ob = map (fun o => out_amount o ++ zlen (out_lock o) :: out_lock o) outs.
Proof. induction 1 as [|w o ob outs T F IH]; [reflexivity|]. destruct T. cbn [map out_amount out_lock]. rewrite <- IH. reflexivity. Qed.
Lemma wits_len sw ins wb ins' : taken_wits sw ins wb ins' -> zlen ins = zlen ins'.
Proof. induction 1 as [|? ? ? ? ? ? ? ? IH]; [reflexivity|]. rewrite !zlen_cons, IH. reflexivity. Qed.
Theorem btc_decode_marked_injective : forall v b b' segwitOn t, is_bytes b -> is_bytes b' -> 0 <= v < 2 ^ 32 -> nth 4 b 1 = 0 ->
  decode_v v b segwitOn = Ok t -> decode_v v b' segwitOn = Ok t -> b = b'.
Proof.
  intros v b b' sw t B B' V M E E'. apply btc_decode_iff in E as (m & ib & ins & ob & outs & wb & ins' & lt & N1 & N2 & Fi & Fo & W & L & Eb & Et); [|assumption..]. apply btc_decode_iff in E' as (m2 & ib2 & ins2 & ob2 & outs2 & wb2 & ins2' & lt2 & N12 & N22 & Fi2 & Fo2 & W2 & L2 & Eb2 & Et2); [|assumption..].
  rewrite Et in Et2. assert (m = m2) by congruence. assert (ins' = ins2') by congruence. assert (outs = outs2) by congruence. assert (lt = lt2) by congruence. subst m2 ins2' outs2 lt2.
  destruct m; [|rewrite Eb in M; cbn [marker_bytes app] in M; change (zlen ins = 0) in M; lia].
  destruct (shown_texts_all _ _ _ Fi _ _ W) as [-> ->]. destruct (shown_texts_all _ _ _ Fi2 _ _ W2) as [-> ->]. rewrite (shown_outs _ _ Fo) in Eb. rewrite (shown_outs _ _ Fo2) in Eb2. rewrite (wits_len _ _ _ _ W) in Eb. rewrite (wits_len _ _ _ _ W2) in Eb2. congruence.
Qed.
(** C135. Without the marker this is false: a script of 106 to 249 bytes with its length in the long form, which consensus does not
    allow, is shown as the script that begins with that length. *)
Theorem btc_decode_two_texts : forall v segwitOn n txid vout s rest, 0 <= v < 2 ^ 32 -> 1 <= n <= 255 -> zlen txid = 32 -> zlen vout = 4 -> 106 <= zlen s <= 249 ->
  let long := 253 :: le_bytes 2 (zlen s) ++ s in
  let a := le_bytes 4 v ++ n :: txid ++ vout ++ long ++ rest in
  let b := le_bytes 4 v ++ n :: txid ++ vout ++ (zlen long :: long) ++ rest in
  a <> b /\ decode_v v a segwitOn = decode_v v b segwitOn.
Proof.
  intros v sw n txid vout s rest V N L1 L2 L long a b. assert (Ll : zlen long = zlen s + 3) by (unfold long; rewrite zlen_cons, zlen_app; change (zlen (le_bytes 2 (zlen s))) with 2; lia). split.
  - intros E. apply (f_equal zlen) in E. unfold a, b in E. rewrite !zlen_app, !zlen_cons, !zlen_app, !zlen_cons in E. lia.
  - unfold a, b. change (n :: txid ++ vout ++ long ++ rest) with (marker_bytes false ++ n :: txid ++ vout ++ long ++ rest). change (n :: txid ++ vout ++ (zlen long :: long) ++ rest) with (marker_bytes false ++ n :: txid ++ vout ++ (zlen long :: long) ++ rest).
    rewrite !decode_start by assumption. unfold decode_body. destruct (Z.to_nat n) as [|k] eqn:K; [lia|]. cbn [readn].
    rewrite (decode_in_script false txid vout long (TypeMultiSig, [], [], long) rest L1 L2) by (apply script_long; [reflexivity|lia]).
    rewrite (decode_in_script false txid vout (zlen long :: long) (TypeMultiSig, [], [], long) rest L1 L2) by (apply script_multi; [reflexivity|lia]). reflexivity.
Qed.

(** ** Concrete cases *)
(** Three inputs with a key script, a native and a wrapped multi-signature witness with one signature, announced as four items. *)
Definition ex_key_in : txin := {| in_type := TypeP2PKH; in_txid := repeat 7 32; in_vout := [0; 0; 0; 0]; in_pub := []; in_sig := repeat 1 106; in_seq := [255; 255; 255; 255]; in_multi := [] |}.
Definition ex_native_in : txin := {| in_type := TypeBech32; in_txid := repeat 8 32; in_vout := [1; 0; 0; 0]; in_pub := []; in_sig := []; in_seq := [255; 255; 255; 255]; in_multi := [] |}.
Definition ex_many_in : txin := {| in_type := TypeMultiSig; in_txid := repeat 9 32; in_vout := [2; 0; 0; 0]; in_pub := 35 :: repeat 34 35; in_sig := []; in_seq := [255; 255; 255; 255]; in_multi := [] |}.
Definition ex_redeem : bytes := [81; 33; 2; 82; 174].
Example btc_decode_example : exists b t, is_bytes b /\ nth 4 b 1 = 0 /\ decode_v 2 b true = Ok t /\ tx_vins t = [ex_key_in; with_sig (71 :: repeat 48 71 ++ 33 :: repeat 2 33) ex_native_in; with_multi (0 :: [3; 48; 1; 1] ++ 5 :: ex_redeem) ex_many_in].
Proof.
  pose (ib := [repeat 7 32 ++ [0; 0; 0; 0] ++ (106 :: repeat 1 106) ++ [255; 255; 255; 255]; repeat 8 32 ++ [1; 0; 0; 0] ++ [0] ++ [255; 255; 255; 255]; repeat 9 32 ++ [2; 0; 0; 0] ++ (35 :: repeat 34 35) ++ [255; 255; 255; 255]]).
  pose (wb := [[0]; 2 :: 71 :: repeat 48 71 ++ 33 :: repeat 2 33; 4 :: 0 :: [3; 48; 1; 1] ++ 5 :: ex_redeem]). pose (ob := [repeat 0 8 ++ 25 :: repeat 118 25]).
  pose (b := le_bytes 4 2 ++ [0; 1] ++ 3 :: concat ib ++ 1 :: concat ob ++ concat wb ++ [0; 0; 0; 0]).
  assert (B : is_bytes b) by (apply forallb_bytes; vm_compute; reflexivity).
  exists b. eexists. split; [exact B|]. split; [reflexivity|]. split.
  - apply btc_decode_iff; [exact B|lia|]. exists true, ib, [ex_key_in; ex_native_in; ex_many_in], ob, [{| out_amount := repeat 0 8; out_lock := repeat 118 25 |}], wb. eexists _, [0; 0; 0; 0]. split; [change (1 <= 3 <= 255); lia|]. split; [change (1 <= 1 <= 255); lia|]. split.
    { constructor; [apply in_taken; try reflexivity; apply (script_key true (repeat 1 106)); change (zlen (repeat 1 106)) with 106; lia|]. constructor; [apply in_taken; try reflexivity; apply (script_none true)|]. constructor; [apply in_taken; try reflexivity; apply (script_wrapped true (repeat 34 35)); reflexivity|constructor]. }
    split; [constructor; [apply (out_taken (repeat 0 8) (repeat 118 25)); [reflexivity|change (zlen (repeat 118 25)) with 25; lia]|constructor]|]. split; [|split; [reflexivity|split; [reflexivity|reflexivity]]].
    constructor; [apply wit_key; reflexivity|]. constructor; [apply (wit_single true ex_native_in (repeat 48 71) (33 :: repeat 2 33)); [right; reflexivity|change (71 <= 255); lia|reflexivity]|].
    constructor; [|constructor]. apply (wit_many true ex_many_in [[48; 1; 1]] ex_redeem); [reflexivity|reflexivity|change (1 <= 5 <= 255); lia|reflexivity|]. cbn [sig_run]. split; [change (3 <= 255); lia|]. split; [reflexivity|discriminate].
  - reflexivity.
Qed.
Example btc_decode_panic_example : decode_v 2 (le_bytes 4 2 ++ 1 :: repeat 7 32 ++ [0; 0; 0; 0] ++ [0] ++ [255; 255; 255]) false = Panic.
Proof.
  apply btc_decode_panics_iff; [apply forallb_bytes; vm_compute; reflexivity|lia|]. exists false, 1, [], [], (repeat 7 32 ++ [0; 0; 0; 0] ++ [0] ++ [255; 255; 255]). split; [lia|]. split; [constructor|]. split; [reflexivity|]. left. split; [reflexivity|].
  exists (repeat 7 32), [0; 0; 0; 0], ([0] ++ [255; 255; 255]). split; [reflexivity|]. split; [reflexivity|]. split; [reflexivity|]. left. eexists _, _, [255; 255; 255]. split; [apply (script_none false)|]. split; [reflexivity|reflexivity].
Qed.
Print Assumptions btc_decode_iff.
Print Assumptions btc_decode_panics_iff.
Print Assumptions btc_decode_marked_injective.
Print Assumptions btc_decode_two_texts.
