(** Lemmas about the textual layer of the bech32 model. *)
From Coq Require Import String ZArith List Bool Lia ZifyBool ZifyNat.
From Verif Require Import Go GoFacts Base58Proofs Bech32Spec PolymodProofs PolymodFree Bech32Model Bech32Proofs.
Import ListNotations.
Open Scope Z_scope.
Ltac Zify.zify_post_hook ::= Z.div_mod_to_equations.

Definition bsym (d : Z) : Z := nth (Z.to_nat d) bech32_alphabet 0.

Lemma in_range32 d : d5 d -> In d (map Z.of_nat (seq 0 32)).
Proof. unfold d5. intros. apply in_map_iff. exists (Z.to_nat d). split; [lia|]. apply in_seq. lia. Qed.
Lemma forall32 (P : Z -> bool) : forallb P (map Z.of_nat (seq 0 32)) = true -> forall d, d5 d -> P d = true.
Proof. intros H d Hd. rewrite forallb_forall in H. apply H, in_range32, Hd. Qed.

Lemma bsym_idx d : d5 d -> idx bech32_alphabet d = Ok (bsym d).
Proof.
  intros Hd. unfold idx. unfold d5 in Hd.
  replace ((d <? 0)) with false by lia.
  unfold bsym. rewrite (nth_error_nth' bech32_alphabet 0); [reflexivity|].
  change (length bech32_alphabet) with 32%nat. lia.
Qed.
Definition bsym_ok (d : Z) : bool :=
  let c := bsym d in
  (c <? 128) && (negb (c =? 49)) && (((97 <=? c) && (c <=? 122)) || (c =? 48) || ((50 <=? c) && (c <=? 57))) &&
  match idx charset_rev c with Ok v => v =? d | _ => false end.
Lemma bsym_facts d : d5 d -> bsym_ok d = true.
Proof. apply (forall32 bsym_ok). vm_compute. reflexivity. Qed.

Lemma bech32_char_sym c : is_bech32_char c -> exists d, d5 d /\ c = bsym d.
Proof.
  intros H. change (In c bech32_alphabet) in H.
  apply In_nth_error in H. destruct H as [n Hn].
  assert (Hl : (n < 32)%nat) by (change 32%nat with (length bech32_alphabet); apply nth_error_Some; congruence).
  exists (Z.of_nat n). split; [unfold d5; lia|]. unfold bsym. rewrite Nat2Z.id.
  symmetry. apply nth_error_nth. exact Hn.
Qed.
Lemma bech32_chars_syms s : Forall is_bech32_char s -> exists ds, Forall d5 ds /\ s = map bsym ds.
Proof.
  induction 1 as [|c s Hc _ (ds & Hd & E)]; [exists []; split; [constructor|reflexivity]|].
  destruct (bech32_char_sym c Hc) as (d & Hd0 & Ec). exists (d :: ds). split; [constructor; assumption|].
  cbn [map]. congruence.
Qed.
Lemma bsym_char d : d5 d -> is_bech32_char (bsym d).
Proof.
  intros Hd. change (In (bsym d) bech32_alphabet). unfold bsym. apply nth_In.
  change (length bech32_alphabet) with 32%nat. unfold d5 in Hd. lia.
Qed.
Lemma bsym_inj a b : d5 a -> d5 b -> bsym a = bsym b -> a = b.
Proof.
  intros Ha Hb E. pose proof (bsym_facts a Ha) as Fa. pose proof (bsym_facts b Hb) as Fb.
  unfold bsym_ok in *. rewrite E in Fa. cbv zeta in *.
  apply andb_true_iff in Fa. apply andb_true_iff in Fb. destruct Fa as [_ Fa], Fb as [_ Fb].
  destruct (idx charset_rev (bsym b)); try discriminate. lia.
Qed.
Lemma hamming_syms a b : Forall d5 a -> Forall d5 b -> length a = length b -> hamming (map bsym a) (map bsym b) = hamming a b.
Proof.
  intros Ha; revert b; induction Ha as [|x a Hx _ IH]; intros b Hb Hl; destruct Hb as [|y b Hy Hb]; try discriminate; [reflexivity|].
  cbn [map hamming]. rewrite IH by (try assumption; cbn in Hl; lia).
  destruct (Z.eqb_spec x y) as [->|Hne]; [rewrite Z.eqb_refl; reflexivity|].
  destruct (Z.eqb_spec (bsym x) (bsym y)) as [E|]; [apply bsym_inj in E; auto; contradiction|reflexivity].
Qed.

Lemma lookup_bsyms ds : Forall d5 ds -> lookup_syms bech32_alphabet ds = Ok (map bsym ds).
Proof.
  induction 1 as [|d ds Hd _ IH]; [reflexivity|]. cbn [lookup_syms map].
  assert (Hd' : 0 <= d < 32) by exact Hd. replace (d <? 128) with true by lia.
  rewrite bsym_idx by assumption. cbn [bind]. rewrite IH. reflexivity.
Qed.
Lemma rev_lookup_bsyms ds : Forall d5 ds -> rev_lookup (map bsym ds) = Ok ds.
Proof.
  induction 1 as [|d ds Hd _ IH]; [reflexivity|]. cbn [rev_lookup map].
  pose proof (bsym_facts d Hd) as F. unfold bsym_ok in F. cbv zeta in F.
  apply andb_true_iff in F. destruct F as [F1 F2].
  replace (127 <? bsym d) with false by lia.
  destruct (idx charset_rev (bsym d)) as [v| |]; try discriminate. cbn [bind].
  assert (v = d) by lia. subst v. assert (0 <= d < 32) by exact Hd. replace (d =? -1) with false by lia.
  rewrite IH. reflexivity.
Qed.

(** The scan over the data part: state stays lower-case only and prefixSize does not change. *)
Lemma scan_data ds : Forall d5 ds -> forall i lo hn ps, exists lo',
  scan (map bsym ds) i lo false hn ps = Ok (lo', false, ps).
Proof.
  induction 1 as [|d ds Hd _ IH]; intros i lo hn ps; [exists lo; reflexivity|].
  cbn [map scan]. pose proof (bsym_facts d Hd) as F. unfold bsym_ok in F. cbv zeta in F.
  apply andb_true_iff in F. destruct F as [F _].
  destruct ((97 <=? bsym d) && (bsym d <=? 122)) eqn:E1; [apply IH|].
  replace ((65 <=? bsym d) && (bsym d <=? 90)) with false by lia.
  replace ((bsym d =? 48) || ((50 <=? bsym d) && (bsym d <=? 57))) with true by lia.
  apply IH.
Qed.
Lemma scan_prefix p : Forall (fun c => 97 <= c <= 122) p -> forall rest i lo,
  scan (p ++ rest) i lo false false 0 = scan rest (i + zlen p) (match p with [] => lo | _ => true end) false false 0.
Proof.
  induction 1 as [|c p Hc _ IH]; intros rest i lo; cbn [app scan].
  - change (zlen (@nil Z)) with 0. f_equal. lia.
  - replace ((97 <=? c) && (c <=? 122)) with true by lia. rewrite IH. rewrite zlen_cons.
    replace (i + 1 + zlen p) with (i + (1 + zlen p)) by lia. destruct p; reflexivity.
Qed.
Lemma before_prefix p rest : Forall (fun c => 97 <= c <= 122) p -> before 49 (p ++ 49 :: rest) = p.
Proof.
  induction 1 as [|c p Hc _ IH]; cbn [app before]; [reflexivity|].
  replace (c =? 49) with false by lia. rewrite IH. reflexivity.
Qed.

Definition decode_tail (p ds : list Z) : res (list Z) :=
  if negb (verify_checksum p ds) then Err else
  if zlen ds <? 6 then Panic else
  ret <- unextend_payload (firstn (length ds - 6) ds) ;;
  if zlen ret =? 33 then h <- slice (hex_encode ret) 1 65 ;; hex_decode h else Ok ret.
Lemma decode_structured p ds : lower_prefix p -> Forall d5 ds ->
  bech32_decode (p ++ [49] ++ map bsym ds) = decode_tail p ds.
Proof.
  intros [Hn Hp] Hd. unfold bech32_decode.
  rewrite (scan_prefix p Hp). cbn [app scan].
  assert (Hz : 0 < zlen p) by (destruct p; [congruence|]; rewrite zlen_cons; pose proof (zlen_nonneg p); lia).
  replace ((97 <=? 49) && (49 <=? 122)) with false by reflexivity.
  replace ((65 <=? 49) && (49 <=? 90)) with false by reflexivity.
  replace ((49 =? 48) || ((50 <=? 49) && (49 <=? 57))) with false by reflexivity.
  replace (49 =? 49) with true by reflexivity.
  replace (false || (0 + zlen p =? 0) || negb (0 =? 0)) with false by (cbn; lia).
  replace (match p with [] => false | _ => true end) with true by (destruct p; [congruence|reflexivity]).
  destruct (scan_data ds Hd (0 + zlen p + 1) true false (0 + zlen p)) as (lo & E). rewrite E. cbn [bind].
  cbv beta zeta. rewrite (before_prefix p _ Hp). cbn [andb].
  rewrite zlen_app, zlen_cons, zlen_map. 
  replace (zlen p + (1 + zlen ds) - (0 + zlen p + 1) <? 0) with false by (pose proof (zlen_nonneg ds); lia).
  replace (Z.to_nat (0 + zlen p + 1)) with (length (p ++ [49])) by (rewrite app_length; cbn [length]; unfold zlen; lia).
  change (p ++ 49 :: map bsym ds) with (p ++ [49] ++ map bsym ds). rewrite app_assoc.
  rewrite skipn_app, skipn_all, Nat.sub_diag. cbn [skipn app].
  rewrite rev_lookup_bsyms by assumption. reflexivity.
Qed.

Lemma verify_fold p ds : Forall (fun c => 97 <= c <= 122) p -> Forall d5 ds ->
  (verify_checksum p ds = true <-> fold_left (gstep 25 gens30) ds (fold_left (gstep 25 gens30) (expand_prefix p) 1) = 1).
Proof.
  intros Hp Hd. unfold verify_checksum, poly_mod.
  rewrite fold_poly; [|lia|apply Forall_app; split; [apply expand_range|]; assumption].
  rewrite fold_left_app. rewrite Z.eqb_eq. split; intros H; [apply Z.lxor_eq in H; exact H|]. rewrite H. reflexivity.
Qed.
Lemma verify_errors p a b : Forall (fun c => 97 <= c <= 122) p -> Forall d5 a -> Forall d5 b ->
  length a = length b -> (length a <= 89)%nat -> (0 < hamming a b <= 4)%nat ->
  verify_checksum p a = true -> verify_checksum p b = false.
Proof.
  intros Hp Ha Hb Hl HN Hh Hv.
  destruct (verify_checksum p b) eqn:E; [exfalso|reflexivity].
  apply verify_fold in Hv; auto. apply verify_fold in E; auto.
  apply (errors_detected30 a b (fold_left (gstep 25 gens30) (expand_prefix p) 1)); auto. congruence.
Qed.

(** ** Round trips *)
Lemma firstn_digits (ds : list Z) cs : length cs = 6%nat -> firstn (length (ds ++ cs) - 6) (ds ++ cs) = ds.
Proof.
  intros H. rewrite app_length, H. replace (length ds + 6 - 6)%nat with (length ds + 0)%nat by lia.
  rewrite firstn_app_2. cbn. apply app_nil_r.
Qed.
Lemma encode_eq p payload (pp : list Z) : Forall (fun c => 97 <= c <= 122) p -> is_bytes payload -> Forall d5 pp ->
  let ext := pp ++ extend_payload payload in
  bech32_encode p bech32_alphabet payload (Some pp) = Ok (p ++ [49] ++ map bsym (ext ++ calc_checksum p ext)).
Proof.
  intros Hp Hb Hpp ext. unfold bech32_encode.
  destruct (extend_spec payload Hb) as (_ & D & _).
  fold ext. rewrite lookup_bsyms; [reflexivity|].
  apply Forall_app; split; [apply Forall_app; split; assumption|apply digits6_range].
Qed.
Lemma encode_none p payload : bech32_encode p bech32_alphabet payload None = bech32_encode p bech32_alphabet payload (Some []).
Proof. reflexivity. Qed.
Lemma decode_encoded p payload pp : lower_prefix p -> is_bytes payload -> Forall d5 pp ->
  let ext := pp ++ extend_payload payload in
  bech32_decode (p ++ [49] ++ map bsym (ext ++ calc_checksum p ext)) =
  (ret <- unextend_payload ext ;;
   if zlen ret =? 33 then h <- slice (hex_encode ret) 1 65 ;; hex_decode h else Ok ret).
Proof.
  intros Hp Hb Hpp ext. destruct (extend_spec payload Hb) as (_ & D & _).
  assert (De : Forall d5 ext) by (apply Forall_app; split; assumption).
  assert (Dc : Forall d5 (calc_checksum p ext)) by apply digits6_range.
  rewrite decode_structured; [|assumption|apply Forall_app; split; assumption].
  unfold decode_tail. rewrite verify_calc by (try apply Hp; assumption). cbn [negb].
  replace (zlen (ext ++ calc_checksum p ext) <? 6) with false.
  2: { rewrite zlen_app. change (zlen (calc_checksum p ext)) with 6. pose proof (zlen_nonneg ext). lia. }
  rewrite firstn_digits by reflexivity. reflexivity.
Qed.

Lemma unextend_ext payload pp (n : nat) : is_bytes payload -> Forall d5 pp ->
  length (pp ++ extend_payload payload) = n -> (2 <= n)%nat ->
  exists out, unextend_payload (pp ++ extend_payload payload) = Ok out /\ is_bytes out /\ length out = (n * 5 / 8)%nat /\
   be_num out = (bval 32 pp * 32 ^ Z.of_nat (groups5 (length payload)) +
     be_num payload * 2 ^ (5 * Z.of_nat (groups5 (length payload)) - 8 * zlen payload)) mod 256 ^ Z.of_nat (n * 5 / 8).
Proof.
  intros Hb Hpp Hn H2. destruct (extend_spec payload Hb) as (L & D & V & _).
  destruct (unextend_spec (pp ++ extend_payload payload)) as (out & E & B & Lo & Vo).
  - lia.
  - apply Forall_app; split; assumption.
  - exists out. repeat split; auto; [congruence|].
    rewrite Vo, bval_app, V. f_equal; [|f_equal; unfold zlen; lia].
    f_equal. f_equal. f_equal. unfold zlen; lia.
Qed.

(** 20 bytes, with at most one leading group. *)
Lemma unextend_20 payload pp : is_bytes payload -> length payload = 20%nat -> Forall d5 pp -> (length pp <= 1)%nat ->
  unextend_payload (pp ++ extend_payload payload) = Ok payload.
Proof.
  intros Hb Hl Hpp H1. destruct (extend_spec payload Hb) as (L & _). rewrite Hl in L. change (groups5 20) with 32%nat in L.
  destruct (unextend_ext payload pp (length pp + 32) Hb Hpp) as (out & E & B & Lo & V).
  - rewrite app_length. lia.
  - lia.
  - assert (Hlen : ((length pp + 32) * 5 / 8 = 20)%nat) by (destruct pp as [|? [|]]; [reflexivity|reflexivity|cbn in H1; lia]).
    rewrite Hlen in *. rewrite E. f_equal. apply be_num_inj; auto; [lia|].
    rewrite V, Hl. change (groups5 20) with 32%nat.
    replace (5 * Z.of_nat 32 - 8 * zlen payload) with 0 by (unfold zlen; lia).
    change (32 ^ Z.of_nat 32) with (256 ^ Z.of_nat 20). change (2 ^ 0) with 1. rewrite Z.mul_1_r.
    rewrite Z.add_comm, Z_mod_plus_full. apply Z.mod_small.
    pose proof (be_num_bound payload Hb) as Hbd. unfold zlen in Hbd. rewrite Hl in Hbd. exact Hbd.
Qed.

(** Nibbles. *)
Definition nibbles (l : list Z) : list Z := flat_map (fun b => [b / 16; b mod 16]) l.
Lemma hex_nibbles l : hex_encode l = map hex_digit (nibbles l).
Proof.
  unfold hex_encode, nibbles. induction l as [|b l IH]; [reflexivity|]. cbn [flat_map map app]. rewrite IH. reflexivity.
Qed.
Lemma nibbles_len l : length (nibbles l) = (2 * length l)%nat.
Proof. induction l as [|b l IH]; [reflexivity|]. unfold nibbles in *. cbn [flat_map app length]. rewrite IH. lia. Qed.
Lemma nibbles_digits l : is_bytes l -> digits 16 (nibbles l).
Proof.
  induction l as [|b l IH]; intros H; [constructor|]. apply is_bytes_cons in H. destruct H as [Hb Hl]. unfold is_byte in Hb.
  unfold nibbles. cbn [flat_map app]. constructor; [lia|]. constructor; [lia|]. apply IH; assumption.
Qed.
Lemma nibbles_val l : bval 16 (nibbles l) = be_num l.
Proof.
  induction l as [|b l IH]; [reflexivity|].
  change (nibbles (b :: l)) with (b / 16 :: b mod 16 :: nibbles l). rewrite !bval_cons, IH, be_num_cons.
  rewrite zlen_cons, Z.pow_add_r by (pose proof (zlen_nonneg (nibbles l)); lia). change (16 ^ 1) with 16.
  assert (Hl : 16 ^ zlen (nibbles l) = 256 ^ zlen l).
  { change 256 with (16 ^ 2). rewrite <- Z.pow_mul_r by (pose proof (zlen_nonneg l); lia). f_equal.
    unfold zlen. rewrite nibbles_len. lia. }
  rewrite Hl. set (P := 256 ^ zlen l). pose proof (Z.div_mod b 16). nia.
Qed.
Lemma bval_inj base a : 1 < base -> digits base a -> forall b, digits base b -> length a = length b -> bval base a = bval base b -> a = b.
Proof.
  intros Hbase Ha. induction Ha as [|x a Hx Ha IH]; intros b Hb Hl E; destruct Hb as [|y b Hy Hb]; try discriminate; [reflexivity|].
  cbn [length] in Hl. rewrite !bval_cons in E.
  replace (zlen b) with (zlen a) in E by (unfold zlen; lia).
  pose proof (bval_bound base a ltac:(lia) Ha) as Ba. pose proof (bval_bound base b ltac:(lia) Hb) as Bb.
  replace (zlen b) with (zlen a) in Bb by (unfold zlen; lia).
  set (P := base ^ zlen a) in *. cbv beta in Hx, Hy.
  assert (x = y) by nia. subst y. f_equal. apply IH; auto; nia.
Qed.

(** 32 bytes after one leading group: the extra nibbles are dropped. *)
Lemma unextend_32 payload v : is_bytes payload -> length payload = 32%nat -> d5 v ->
  exists out, unextend_payload ([v] ++ extend_payload payload) = Ok out /\ zlen out = 33 /\
    (h <- slice (hex_encode out) 1 65 ;; hex_decode h) = Ok payload.
Proof.
  intros Hb Hl Hv. destruct (extend_spec payload Hb) as (L & _). rewrite Hl in L. change (groups5 32) with 52%nat in L.
  destruct (unextend_ext payload [v] 53 Hb) as (out & E & B & Lo & V).
  - repeat constructor; apply Hv.
  - rewrite app_length. cbn [length]. lia.
  - lia.
  - exists out. split; [exact E|]. change (53 * 5 / 8)%nat with 33%nat in *. split; [unfold zlen; lia|].
    assert (Hn : nibbles out = (v mod 16) :: nibbles payload ++ [0]).
    { apply (bval_inj 16).
      - lia.
      - apply nibbles_digits; assumption.
      - constructor; [lia|]. apply Forall_app; split; [apply nibbles_digits; assumption|repeat constructor; lia].
      - rewrite nibbles_len. cbn [length]. rewrite app_length, nibbles_len. cbn [length]. lia.
      - rewrite nibbles_val, V, Hl. change (groups5 32) with 52%nat.
        rewrite (bval_cons 16), (bval_app 16), nibbles_val. change (bval 16 [0]) with 0. change (zlen [0]) with 1.
        change (bval 32 [v]) with (v + 32 * 0).
        replace (5 * Z.of_nat 52 - 8 * zlen payload) with 4 by (unfold zlen; lia).
        replace (zlen (nibbles payload ++ [0])) with 65 by (rewrite zlen_app; unfold zlen; rewrite nibbles_len; cbn; lia).
        pose proof (be_num_bound payload Hb) as Hbd. unfold zlen in Hbd. rewrite Hl in Hbd.
        change (32 ^ Z.of_nat 52) with (16 ^ 65). change (256 ^ Z.of_nat 33) with (16 * 16 ^ 65).
        change (256 ^ Z.of_nat 32) with (16 ^ 64) in Hbd. change (16 ^ 1) with 16. change (2 ^ 4) with 16.
        change (16 ^ 65) with (16 * 16 ^ 64). set (P := 16 ^ 64) in *. unfold d5 in Hv.
        symmetry. apply Z.mod_unique with (q := v / 16); [left|]; nia. }
    rewrite hex_nibbles, Hn. cbn [map]. rewrite map_app. cbn [map].
    change (hex_digit (v mod 16) :: map hex_digit (nibbles payload) ++ [hex_digit 0])
      with ([hex_digit (v mod 16)] ++ map hex_digit (nibbles payload) ++ [hex_digit 0]).
    rewrite slice_mid; [|reflexivity|].
    + cbn [bind]. rewrite <- hex_nibbles. apply hex_decode_encode; assumption.
    + rewrite zlen_map. unfold zlen. rewrite nibbles_len, Hl. reflexivity.
Qed.

(** 32 bytes without a leading group: the last four bits push out the first four. *)
Lemma unextend_32_none payload : is_bytes payload -> length payload = 32%nat ->
  exists out, unextend_payload (extend_payload payload) = Ok out /\ is_bytes out /\ length out = 32%nat /\
    be_num out = (16 * be_num payload) mod 2 ^ 256.
Proof.
  intros Hb Hl. destruct (extend_spec payload Hb) as (L & _). rewrite Hl in L. change (groups5 32) with 52%nat in L.
  destruct (unextend_ext payload [] 52 Hb ltac:(constructor) L ltac:(lia)) as (out & E & B & Lo & V).
  cbn [app] in E. exists out. repeat split; auto.
  rewrite V, Hl. change (groups5 32) with 52%nat. change (bval 32 []) with 0.
  replace (5 * Z.of_nat 52 - 8 * zlen payload) with 4 by (unfold zlen; lia).
  change (52 * 5 / 8)%nat with 32%nat. change (256 ^ Z.of_nat 32) with (2 ^ 256). change (2 ^ 4) with 16.
  f_equal. ring.
Qed.
