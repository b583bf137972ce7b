(** C83, C84: signing and verifying Bytom transactions; multisignature scripts. *)
From Coq Require Import String ZArith List Bool Lia ZifyBool ZifyNat.
From Verif Require Import Go GoFacts GoFacts2 Codes Rd Reader Uvarint Bech32mModel Bech32mProofs Bech32mProps BytomModel BytomProps BytomSigProps.
Import ListNotations.
Open Scope Z_scope.
Ltac Zify.zify_post_hook ::= idtac.

(** ** Specification *)
Definition keys_of (ms : list (list Z * sigpub)) : list bytes := map (fun m => p_pub (snd m)) ms.
(** The signatures that are there, in order. *)
Definition present (ms : list (list Z * sigpub)) : list bytes := flat_map (fun m => match p_sig (snd m) with Some s => [s] | None => [] end) ms.
Definition taken (r : Z) (ms : list (list Z * sigpub)) : list bytes := firstn (Z.to_nat r) (present ms).
(** The script of an r-of-n multisignature address. *)
Definition the_script (r : Z) (keys : list bytes) : bytes := 0xAE :: concat (map (cons 0x20) keys) ++ [0x50 + r; 0x50 + zlen keys; 0xAD].
(** What a wallet puts into a hash: one signature with its key, or the members of a multisignature address. *)
Inductive answer := One (sig pub : bytes) | Many (required : Z) (members : list (list Z * sigpub)).
Definition give (h : txhash) (a : answer) : txhash :=
  match a with
  | One sig pub => {| h_hash := h_hash h; h_required := h_required h; h_normal := match h_normal h with Some (ad, _) => Some (ad, {| p_sig := Some sig; p_pub := pub |}) | None => None end; h_multi := h_multi h |}
  | Many r ms => {| h_hash := h_hash h; h_required := r; h_normal := h_normal h; h_multi := ms |}
  end.
Definition program (x : bytes * bytes * Z * Z * bytes) : bytes := let '(_, _, _, _, c) := x in c.
Definition allowed (H : bytes -> bytes) (c : bytes) (a : answer) : Prop :=
  match a with
  | One sig pub => zlen c = 22 /\ zlen sig = 64 /\ zlen pub = 32 /\ is_bytes sig /\ is_bytes pub
  | Many r ms => c = 0 :: 32 :: H (the_script r (keys_of ms)) /\ Forall (fun k => zlen k = 32) (keys_of ms) /\ 1 <= r <= zlen (present ms) /\ Forall (fun s => zlen s = 64) (taken r ms) /\ 65 * r + 33 * zlen ms <= 249 /\ Forall is_bytes (keys_of ms) /\ Forall is_bytes (taken r ms)
  end.
(** The arguments the chain should find. *)
Definition args (a : answer) : list bytes := match a with One sig pub => [sig; pub] | Many r ms => taken r ms ++ [the_script r (keys_of ms)] end.
(** What the check of one input says. *)
Definition accepted (verify : bytes -> bytes -> bytes -> bool) (h : bytes) (a : answer) : bool :=
  match a with One sig pub => verify pub h sig | Many r ms => pairs verify h (taken r ms) (keys_of ms) =? r end.

(** ** Scripts *)
Lemma script_of_iff (keys : list bytes) r s : script_of keys r = Ok s <-> Forall (fun k => zlen k = 32) keys /\ s = 0xAE :: concat (map (cons 0x20) keys) ++ [u8 (0x50 + r); u8 (0x50 + zlen keys); 0xAD].
Proof.
  unfold script_of. split.
  - intros E. apply bind_ok in E as (ks & K & E). assert (Q : Forall (fun k => zlen k = 32) keys /\ ks = map (cons 0x20) keys).
    { clear E. revert ks K. induction keys as [|k keys IH]; intros ks K; cbn [mapr] in K; [injection K as <-; auto|]. apply bind_ok in K as (x & X & K). apply bind_ok in K as (t & T & K). destruct (zlen k =? 32) eqn:L; [|discriminate]. injection X as <-. injection K as <-. destruct (IH t T) as [F ->]. split; [constructor; [lia|exact F]|reflexivity]. }
    destruct Q as [F ->]. split; [exact F|]. assert (Q : forall x y : bytes, Ok x = Ok y -> y = x) by congruence. apply Q. exact E.
  - intros [F ->]. rewrite (mapr_ok _ (cons 0x20)); [reflexivity|]. intros k I. rewrite Forall_forall in F. rewrite (F k I). reflexivity.
Qed.
Lemma script_of_ok (keys : list bytes) r : Forall (fun k => zlen k = 32) keys -> 0 <= r < 176 -> zlen keys < 176 -> script_of keys r = Ok (the_script r keys).
Proof. intros F R L. apply script_of_iff. split; [exact F|]. pose proof (zlen_nonneg keys). rewrite (u8_small (80 + r)), (u8_small (80 + zlen keys)) by lia. reflexivity. Qed.
Lemma zlen_concat_cons b n (l : list bytes) : Forall (fun k => zlen k = n) l -> zlen (concat (map (cons b) l)) = (n + 1) * zlen l.
Proof. induction 1 as [|k l K F IH]; [cbn; lia|]. cbn [map concat]. rewrite zlen_app, !zlen_cons, IH, K. lia. Qed.
Lemma script_len r (keys : list bytes) : Forall (fun k => zlen k = 32) keys -> zlen (the_script r keys) = 33 * zlen keys + 4.
Proof. intros F. unfold the_script. rewrite zlen_cons, zlen_app, (zlen_concat_cons 32 32) by exact F. change (zlen [80 + r; 80 + zlen keys; 173]) with 3. lia. Qed.
Lemma collect_ok r : 1 <= r < 256 -> forall ms c, 0 <= c < r -> Forall (fun s => zlen s = 64) (firstn (Z.to_nat (r - c)) (present ms)) ->
  collect r ms c = Ok (concat (map (cons 64) (firstn (Z.to_nat (r - c)) (present ms))), c + zlen (firstn (Z.to_nat (r - c)) (present ms))).
Proof.
  intros R. induction ms as [|[a [[s|] p]] ms IH]; intros c C F; unfold present in *; cbn [flat_map snd p_sig app] in *.
  - rewrite firstn_nil. cbn [collect]. f_equal. f_equal. cbn. lia.
  - replace (Z.to_nat (r - c)) with (S (Z.to_nat (r - (c + 1)))) in * by lia. cbn [firstn] in *. inversion F as [|? ? Ls F']; subst. cbn [collect p_sig]. rewrite Ls. cbn [Z.eqb Pos.eqb negb]. rewrite u8_small by lia. destruct (c + 1 =? r) eqn:Q.
    + assert (c + 1 = r) by lia. replace (r - (c + 1)) with 0 by lia. change (Z.to_nat 0) with 0%nat. cbn [firstn map concat]. rewrite app_nil_r. f_equal.
    + rewrite IH by (try assumption; lia). cbn [bind map concat]. rewrite zlen_cons. f_equal. f_equal. lia.
  - cbn [collect p_sig]. apply IH; assumption.
Qed.
Lemma zlen_taken r ms : 1 <= r <= zlen (present ms) -> zlen (taken r ms) = r.
Proof. intros R. unfold taken, zlen in *. rewrite firstn_length. lia. Qed.
Lemma present_le ms : zlen (present ms) <= zlen ms.
Proof. unfold present. induction ms as [|m ms IH]; [cbn; lia|]. cbn [flat_map]. rewrite zlen_app, zlen_cons. destruct (p_sig (snd m)); [change (zlen [b]) with 1|change (zlen (@nil bytes)) with 0]; lia. Qed.
(** What follows the length of the witness. *)
Definition wit_body (r : Z) (ms : list (list Z * sigpub)) : bytes := 1 :: 3 :: concat (map (cons 64) (taken r ms)) ++ zlen (the_script r (keys_of ms)) :: the_script r (keys_of ms).
Lemma multisig_bytes_ok H r ms h n : Forall (fun k => zlen k = 32) (keys_of ms) -> 1 <= r <= zlen (present ms) -> Forall (fun s => zlen s = 64) (taken r ms) -> 65 * r + 33 * zlen ms <= 249 ->
  multisig_bytes H {| h_hash := h; h_required := r; h_normal := n; h_multi := ms |} = Ok (65 * r + 33 * zlen ms + 6 :: wit_body r ms, 0 :: 32 :: H (the_script r (keys_of ms))) /\ zlen (wit_body r ms) = 65 * r + 33 * zlen ms + 7.
Proof.
  intros Fk R Fs B. assert (Lk : zlen (keys_of ms) = zlen ms) by (unfold keys_of; apply zlen_map). pose proof (present_le ms). pose proof (script_len r _ Fk) as Ls. pose proof (zlen_taken r ms R) as Lt.
  assert (Lb : zlen (wit_body r ms) = 65 * r + 33 * zlen ms + 7) by (unfold wit_body; rewrite !zlen_cons, zlen_app, zlen_cons, (zlen_concat_cons 64 64) by exact Fs; lia). split; [|exact Lb].
  unfold multisig_bytes. cbn [h_multi h_required]. fold (keys_of ms). rewrite script_of_ok by (try assumption; lia). cbn [bind]. rewrite collect_ok by (try lia; rewrite Z.sub_0_r; exact Fs). rewrite Z.sub_0_r. fold (taken r ms). cbn [bind]. rewrite Lt, u8_small by lia. replace (0 + r <? r) with false by lia. rewrite (u8_small (zlen (the_script _ _))) by lia. cbv zeta.
  change ([1; 3] ++ concat (map (cons 64) (taken r ms)) ++ zlen (the_script r (keys_of ms)) :: the_script r (keys_of ms)) with (wit_body r ms). rewrite Lb, u8_small by lia. do 3 f_equal. lia.
Qed.
Lemma scan_sigs_ok {A} sigs : forall fuel acc rest (k : list bytes -> bytes -> res A), (length sigs < fuel)%nat -> Forall (fun s => zlen s = 64) sigs -> (exists b l, rest = b :: l /\ b <> 64) -> scan_sigs fuel acc (concat (map (cons 64) sigs) ++ rest) k = k (acc ++ sigs) rest.
Proof.
  induction sigs as [|s sigs IH]; intros [|f] acc rest k L F R; try (cbn in L; lia).
  - destruct R as (b & l & -> & N). cbn [map concat app scan_sigs need1]. replace (b =? 64) with false by lia. rewrite app_nil_r. reflexivity.
  - inversion F; subst. cbn [map concat app scan_sigs need1 Z.eqb Pos.eqb]. rewrite <- app_assoc, need_app by assumption. rewrite IH by (try assumption; cbn [length] in L; lia). rewrite <- app_assoc. reflexivity.
Qed.
Lemma scan_keys_ok {A} keys : forall fuel acc rest (k : list bytes -> bytes -> res A), (length keys < fuel)%nat -> Forall (fun s => zlen s = 32) keys -> (exists b l, rest = b :: l /\ b <> 32) -> scan_keys fuel acc (concat (map (cons 32) keys) ++ rest) k = k (acc ++ keys) rest.
Proof.
  induction keys as [|s sigs IH]; intros [|f] acc rest k L F R; try (cbn in L; lia).
  - destruct R as (b & l & -> & N). cbn [map concat app scan_keys need1]. replace (b =? 32) with false by lia. rewrite app_nil_r. reflexivity.
  - inversion F; subst. cbn [map concat app scan_keys need1 Z.eqb Pos.eqb negb]. rewrite <- app_assoc, need_app by assumption. rewrite IH by (try assumption; cbn [length] in L; lia). rewrite <- app_assoc. reflexivity.
Qed.
Lemma length_concat_cons (b : Z) (l : list bytes) : (length l <= length (concat (map (cons b) l)))%nat.
Proof. induction l as [|x l IH]; [cbn; lia|]. cbn [map concat length app]. rewrite app_length. lia. Qed.
Lemma multisig_pubs_ok r ms : Forall (fun k => zlen k = 32) (keys_of ms) -> 1 <= r <= zlen (present ms) -> Forall (fun s => zlen s = 64) (taken r ms) -> 65 * r + 33 * zlen ms <= 249 -> multisig_pubs (wit_body r ms) = Ok (taken r ms, keys_of ms).
Proof.
  intros Fk R Fs B. assert (Lk : zlen (keys_of ms) = zlen ms) by (unfold keys_of; apply zlen_map). pose proof (present_le ms). pose proof (script_len r _ Fk) as Ls. pose proof (zlen_taken r ms R) as Lt. pose proof (zlen_nonneg ms).
  unfold multisig_pubs, wit_body. cbn [Z.eqb Pos.eqb negb orb]. rewrite scan_sigs_ok; [|rewrite app_length; pose proof (length_concat_cons 64 (taken r ms)); unfold bytes in *; lia|exact Fs|eexists; eexists; split; [reflexivity|lia]]. cbn [app need1]. rewrite Z.eqb_refl. unfold the_script at 1. cbn [need1 negb]. change (174 =? op_txsighash) with true. cbn [negb].
  rewrite scan_keys_ok; [|rewrite app_length; pose proof (length_concat_cons 32 (keys_of ms)); unfold bytes in *; lia|exact Fk|eexists; eexists; split; [reflexivity|lia]]. cbn [app must1 need1]. change (op_1 - 1) with 80. replace (80 + zlen (keys_of ms) - 80) with (zlen (keys_of ms)) by lia. replace (80 + r - 80) with r by lia. rewrite !u8_small by lia. rewrite Z.eqb_refl. cbn [negb]. rewrite Lt, Z.eqb_refl. reflexivity.
Qed.

(** ** One input *)
Definition wit (a : answer) : bytes := match a with One sig pub => [99; 2; 64] ++ sig ++ [32] ++ pub | Many r ms => 65 * r + 33 * zlen ms + 6 :: wit_body r ms end.
Definition put_sig (a : answer) : option sigpub := match a with One sig pub => Some {| p_sig := Some sig; p_pub := pub |} | Many _ _ => None end.
Definition put_multi (a : answer) : option bytes := match a with One _ _ => None | Many _ _ => Some (wit a) end.
Definition got_multi (a : answer) : option bytes := match a with One _ _ => None | Many r ms => Some (wit_body r ms) end.
Lemma wit_ok H c a : allowed H c a -> witness (put_sig a) (put_multi a) = Ok (wit a).
Proof. destruct a as [sig pub|r ms]; [|reflexivity]. intros (_ & A & B & _). unfold witness, put_sig, sigpub_bytes. cbn [p_sig p_pub]. rewrite A, B. reflexivity. Qed.
Lemma wit_decoded H x a rest : allowed H (program x) a -> spent_ok x -> position x < 128 -> decode_in (in_wire x (wit a) ++ rest) = Ok (mk_in x (put_sig a) (got_multi a), rest).
Proof.
  intros A X P. rewrite in_wire_app, in_decoded by exact X. replace (position x <? 128) with true by lia. destruct a as [sig pub|r ms].
  - destruct A as (_ & A & B & _). unfold wit. rewrite <- !app_assoc. cbn [app]. unfold decode_wit. cbn [need1 Z.eqb Pos.eqb andb]. rewrite need_app by exact A. cbn [need1 Z.eqb Pos.eqb negb]. rewrite need_app by exact B. reflexivity.
  - destruct A as (_ & Fk & R & Fs & B & _). destruct (multisig_bytes_ok H r ms [] None Fk R Fs B) as [_ L]. unfold wit. cbn [app]. unfold decode_wit. cbn [need1]. pose proof (zlen_nonneg ms). replace (65 * r + 33 * zlen ms + 6 =? 1) with false by lia. replace (65 * r + 33 * zlen ms + 6 =? 0) with false by lia.
    assert (Q : exists l, wit_body r ms = 1 :: 3 :: l) by (eexists; reflexivity). destruct Q as [l Q]. rewrite Q. cbn [app Z.eqb Pos.eqb andb]. change (1 :: 3 :: l ++ rest) with ((1 :: 3 :: l) ++ rest). rewrite <- Q. rewrite need_app by lia. reflexivity.
Qed.
Lemma verify_in_ok H verify x a h : (forall m, zlen (H m) = 32) -> allowed H (program x) a -> verify_in verify h (mk_in x (put_sig a) (got_multi a)) = Ok (accepted verify h a).
Proof.
  intros H32 A. unfold verify_in. destruct x as [[[[s0 a0] m0] p0] c]. cbn [program] in A. cbn [mk_in i_program i_sig i_multi]. destruct a as [sig pub|r ms].
  - destruct A as (-> & _). reflexivity.
  - destruct A as (-> & Fk & R & Fs & B & _). rewrite !zlen_cons, H32. cbn [Z.eqb Pos.eqb Z.add Pos.add Pos.succ]. cbn [got_multi put_sig]. rewrite multisig_pubs_ok by assumption. cbn [accepted]. rewrite zlen_taken by exact R. reflexivity.
Qed.
Lemma args_read H c a : allowed H c a -> match a with One _ _ => True | Many r _ => r = 2 end -> reads (inside (rlist rstr)) (wit a) (args a).
Proof.
  destruct a as [sig pub|r ms].
  - intros (_ & A & B & _) _. unfold wit, args. change ([99; 2; 64] ++ sig ++ [32] ++ pub) with (99 :: (2 :: (64 :: sig) ++ (32 :: pub))). replace 99 with (zlen (2 :: (64 :: sig) ++ (32 :: pub))) by (rewrite zlen_cons, zlen_app, !zlen_cons; lia). apply inside_read; [rewrite zlen_cons, zlen_app, !zlen_cons; lia|].
    pose proof (list_read rstr (fun b => zlen b :: b) (fun b => b) [sig; pub] ltac:(reflexivity)) as L. cbn [map concat] in L. rewrite app_nil_r in L. rewrite A, B in L. apply L. constructor; [apply str_read; lia|]. constructor; [apply str_read; lia|constructor].
  - intros (_ & Fk & R & Fs & B & _) ->. pose proof (present_le ms) as PL. destruct (multisig_bytes_ok H 2 ms [] None Fk R Fs B) as [_ L]. assert (Lk : zlen (keys_of ms) = zlen ms) by (unfold keys_of; apply zlen_map). pose proof (script_len 2 _ Fk) as Ls. pose proof (zlen_taken 2 ms R) as Lt. unfold wit, wit_body in *. set (S := concat (map (cons 64) (taken 2 ms)) ++ zlen (the_script 2 (keys_of ms)) :: the_script 2 (keys_of ms)) in *. rewrite zlen_cons in L.
    intros rest. assert (E : rstr ((65 * 2 + 33 * zlen ms + 6 :: 1 :: 3 :: S) ++ rest) = Some (3 :: S, rest)). { unfold rstr, rbind. cbn [app rleb]. replace (65 * 2 + 33 * zlen ms + 6 <? 128) with false by lia. change (1 <? 128) with true. cbv iota. replace (65 * 2 + 33 * zlen ms + 6 - 128 + 128 * 1) with (zlen (3 :: S)) by lia. change (3 :: S ++ rest) with ((3 :: S) ++ rest). apply (reads_take (zlen (3 :: S)) (3 :: S) eq_refl rest). }
    assert (Q : reads (rlist rstr) (3 :: S) (args (Many 2 ms))).
    { cbn [args]. pose proof (@list_read bytes bytes rstr (fun b => zlen b :: b) (fun b => b) (taken 2 ms ++ [the_script 2 (keys_of ms)])) as Q. rewrite map_id in Q. rewrite map_app, concat_app in Q. cbn [map concat] in Q. rewrite app_nil_r in Q. rewrite (@zlen_app bytes), Lt in Q. change (2 + zlen [the_script 2 (keys_of ms)]) with 3 in Q. unfold S. assert (W : map (cons 64) (taken 2 ms) = map (fun b => zlen b :: b) (taken 2 ms)) by (clear -Fs; induction Fs as [|s l E F IH]; [reflexivity|]; cbn [map]; rewrite IH, E; reflexivity). rewrite W. apply Q; [lia|]. apply Forall_app. split; [eapply Forall_impl; [|exact Fs]; intros s Es; apply str_read; cbv beta in Es; lia|]. constructor; [apply str_read; lia|constructor]. }
    unfold inside, rbind at 1. rewrite E. rewrite (reads_whole _ _ _ Q). reflexivity.
Qed.

(** ** Transactions *)
Notation spent := (bytes * bytes * Z * Z * bytes)%type.
Definition wire_of (range : Z) (es : list (spent * answer)) (ys : list (Z * bytes)) : bytes :=
  7 :: 1 :: uv range ++ (zlen es mod 256) :: concat (map (fun e => in_wire (fst e) (wit (snd e))) es) ++ (zlen ys mod 256) :: concat (map out_wire ys).
Definition entry_ok (H : bytes -> bytes) (e : spent * answer) : Prop := spent_ok (fst e) /\ position (fst e) < 128 /\ allowed H (program (fst e)) (snd e).
Definition read_in (e : spent * answer) : txin := mk_in (fst e) (put_sig (snd e)) (got_multi (snd e)).
Definition put_in (e : spent * answer) : txin := mk_in (fst e) (put_sig (snd e)) (put_multi (snd e)).
Definition bare (x : spent) : txin := mk_in x None None.
Lemma signed_decoded H range es ys : 0 <= range < 2 ^ 56 -> 0 < zlen es < 256 -> 0 < zlen ys < 256 -> Forall (entry_ok H) es -> Forall paid_ok ys ->
  decode_tx (wire_of range es ys) = Ok {| t_version := [1]; t_range := uv range; t_ins := map read_in es; t_outs := map mk_out ys |}.
Proof.
  intros R L1 L2 Fe Fy. unfold decode_tx, wire_of. cbn [need1 Z.eqb Pos.eqb negb scan_version Z.ltb Z.compare Pos.compare Pos.compare_cont]. rewrite scan_var_group by (apply uv_group; exact R). cbn [need1]. rewrite !Z.mod_small by lia. replace (zlen es <=? 0) with false by lia. replace (Z.to_nat (zlen es)) with (length es) by (unfold zlen; lia).
  rewrite (readn_ok decode_in (fun e => in_wire (fst e) (wit (snd e))) read_in es) by (eapply Forall_impl; [|exact Fe]; intros e (A & B & C) r; apply (wit_decoded H); assumption). cbn [bind need1]. replace (zlen ys =? 0) with false by lia. replace (Z.to_nat (zlen ys)) with (length ys) by (unfold zlen; lia). rewrite <- (app_nil_r (concat (map out_wire ys))).
  rewrite (readn_ok decode_out out_wire mk_out ys) by (eapply Forall_impl; [|exact Fy]; intros y Y r; apply out_decoded; exact Y). reflexivity.
Qed.
Lemma signed_bytes H range es ys : 0 <= range < 2 ^ 56 -> 0 < zlen es < 256 -> 0 < zlen ys < 256 -> Forall (entry_ok H) es -> Forall paid_ok ys ->
  tx_bytes {| t_version := [1]; t_range := uv range; t_ins := map put_in es; t_outs := map mk_out ys |} = Ok (wire_of range es ys).
Proof.
  intros R L1 L2 Fe Fy. unfold tx_bytes. cbn [t_ins t_outs t_range t_version]. rewrite !zlen_map. pose proof (uv_ok range R) as (_ & _ & Lr & _). replace (zlen es =? 0) with false by lia. replace (zlen ys =? 0) with false by lia. replace (zlen (uv range) =? 0) with false by lia. change (zlen [1] =? 0) with false. cbv iota.
  assert (Q1 : mapr in_bytes (map put_in es) = Ok (map (fun e => in_wire (fst e) (wit (snd e))) es)).
  { clear -Fe. induction Fe as [|e es (A & B & C) F IH]; [reflexivity|]. cbn [map mapr]. unfold put_in at 1. rewrite (in_bytes_wire _ _ _ (wit (snd e)) A (wit_ok H _ _ C)). cbn [bind]. rewrite IH. reflexivity. }
  assert (Q2 : mapr out_bytes (map mk_out ys) = Ok (map out_wire ys)).
  { clear -Fy. induction Fy as [|y ys Y F IH]; [reflexivity|]. cbn [map mapr]. rewrite out_bytes_wire by exact Y. cbn [bind]. rewrite IH. reflexivity. }
  rewrite Q1, Q2. reflexivity.
Qed.
(** The hash for one input of the created transaction, and what hashes_for_sig returns. *)
Definition the_tx (range : Z) (xs : list spent) (ys : list (Z * bytes)) : tx := {| t_version := [1]; t_range := uv range; t_ins := map bare xs; t_outs := map mk_out ys |}.
Definition the_hash (H : bytes -> bytes) (range : Z) (xs : list spent) (ys : list (Z * bytes)) (x : spent) : bytes := sighash H (the_tx range xs ys) (bare x).
Lemma bare_ok x : spent_ok x -> in_ok (bare x).
Proof. destruct x as [[[[s a] m] p] c]. intros (A & B & _ & _ & C). unfold in_ok, bare. cbn [mk_in i_source i_asset i_program]. lia. Qed.
Lemma mk_out_ok y : paid_ok y -> out_ok (mk_out y).
Proof. intros [M P]. unfold out_ok, mk_out. cbn [o_asset o_amount o_program]. split; [reflexivity|]. split; [pose proof (uv_ok _ M); lia|]. unfold prog_wire. eexists. eexists. split; [reflexivity|]. rewrite !zlen_cons. lia. Qed.
Lemma the_tx_ok range xs ys : 0 < zlen xs < 256 -> 0 < zlen ys < 256 -> Forall spent_ok xs -> Forall paid_ok ys -> tx_ok (the_tx range xs ys).
Proof.
  intros L1 L2 Fx Fy. unfold tx_ok, the_tx. cbn [t_ins t_outs]. rewrite !zlen_map. split; [exact L1|]. split; [exact L2|]. split; apply Forall_map; (eapply Forall_impl; [|eassumption]); [exact bare_ok|exact mk_out_ok].
Qed.
Lemma seg_ok (tn : bool) p : is_bytes p -> zlen p = 20 -> exists s, bytom_encode_segwit (if tn then str "tm" else str "bm") 0 p = Ok s /\ bytom_decode_segwit s = Ok (0, p).
Proof.
  intros B L. apply bytom_segwit_roundtrip; [|exact B|lia|lia|lia|rewrite L; destruct tn; vm_compute; discriminate]. destruct tn; [change (str "tm") with [116; 109]|change (str "bm") with [98; 109]]; (split; [discriminate|]; repeat (constructor; [lia|]); constructor).
Qed.
Lemma segwit_bytes s v p : bytom_decode_segwit s = Ok (v, p) -> is_bytes p.
Proof.
  unfold bytom_decode_segwit. intros E. apply bind_ok in E as ([h data] & E1 & E). apply bytom_decode_inv in E1 as (_ & Dd & _ & _). destruct (zlen data <? 1); [discriminate|]. destruct data as [|w rest]; [discriminate|]. change (idx (w :: rest) 0) with (Ok w) in E. cbn [bind] in E. destruct (16 <? w); [discriminate|]. rewrite slice_from_cons in E. cbn [bind] in E. apply bind_ok in E as (q & Ec & E). inversion Dd; subst. apply bytom_convertbits_accepted_canonical in Ec as [B _]; [|assumption]. destruct (_ || _); [discriminate|]. destruct (_ && _); [discriminate|]. injection E as _ <-. exact B.
Qed.
Lemma is_bytes_concat_map {A} (f : A -> bytes) l : Forall (fun x => is_bytes (f x)) l -> is_bytes (concat (map f l)).
Proof. induction 1; [constructor|]. cbn [map concat]. apply is_bytes_app. auto. Qed.
Ltac byt := match goal with |- is_byte _ => unfold is_byte; lia end.
Definition spent_bytes (x : spent) : Prop := let '(s, a, _, _, c) := x in is_bytes s /\ is_bytes a /\ is_bytes c.
Lemma in_wire_bytes x w : spent_ok x -> spent_bytes x -> is_bytes w -> is_bytes (in_wire x w).
Proof.
  intros X B W. pose proof (spent_len x X) as L. unfold in_wire. bts; try byt. destruct x as [[[[s a] m] p] c]. destruct X as (_ & _ & M & P & Lc). destruct B as (Bs & Ba & Bc). unfold spent_wire. pose proof (uv_ok m M) as (_ & Bm & _). pose proof (uv_ok p P) as (_ & Bp & _). bts; byt.
Qed.
Lemma out_wire_bytes y : paid_ok y -> is_bytes (snd y) -> is_bytes (out_wire y).
Proof.
  intros Y B. pose proof (paid_len y Y) as L. destruct Y as [M P]. pose proof (uv_ok _ M) as (_ & Bm & _). unfold out_wire. bts; try byt. unfold paid_wire, prog_wire. bts; try byt. repeat (constructor; [byt|]). constructor.
Qed.
Lemma wit_bytes H c a : allowed H c a -> is_bytes (wit a).
Proof.
  destruct a as [sig pub|r ms].
  - intros (_ & _ & _ & Bs & Bp). unfold wit. bts; byt.
  - intros (_ & Fk & R & Fs & B & Bk & Bs). pose proof (zlen_nonneg ms). pose proof (present_le ms). assert (Lk : zlen (keys_of ms) = zlen ms) by (unfold keys_of; apply zlen_map). pose proof (script_len r _ Fk) as Ls.
    assert (S : is_bytes (the_script r (keys_of ms))) by (unfold the_script; bts; try byt; apply is_bytes_concat_map; eapply Forall_impl; [|exact Bk]; intros k K; bts; byt).
    unfold wit, wit_body. bts; try byt. apply is_bytes_concat_map. eapply Forall_impl; [|exact Bs]. intros k K. bts; byt.
Qed.
Lemma wire_of_bytes H range es ys : 0 <= range < 2 ^ 56 -> Forall (entry_ok H) es -> Forall (fun e => spent_bytes (fst e)) es -> Forall paid_ok ys -> Forall (fun y => is_bytes (snd y)) ys -> is_bytes (wire_of range es ys).
Proof.
  intros R Fe Be Fy By. unfold wire_of. pose proof (uv_ok range R) as (_ & Br & _). pose proof (Z.mod_pos_bound (zlen es) 256 ltac:(lia)). pose proof (Z.mod_pos_bound (zlen ys) 256 ltac:(lia)). bts; try byt.
  - apply is_bytes_concat_map. clear -Fe Be. induction Fe as [|e es (A & _ & C) F IH]; [constructor|]. inversion Be; subst. constructor; [|auto]. apply in_wire_bytes; [exact A|assumption|]. eapply wit_bytes. exact C.
  - apply is_bytes_concat_map. clear -Fy By. induction Fy; [constructor|]. inversion By; subst. constructor; [|auto]. apply out_wire_bytes; assumption.
Qed.
Lemma wire_bytes range xs ys : 0 <= range < 2 ^ 56 -> Forall spent_ok xs -> Forall spent_bytes xs -> Forall paid_ok ys -> Forall (fun y => is_bytes (snd y)) ys -> is_bytes (wire range xs ys).
Proof.
  intros R Fe Be Fy By. unfold wire. pose proof (uv_ok range R) as (_ & Br & _). pose proof (Z.mod_pos_bound (zlen xs) 256 ltac:(lia)). pose proof (Z.mod_pos_bound (zlen ys) 256 ltac:(lia)). bts; try byt.
  - apply is_bytes_concat_map. clear -Fe Be. induction Fe as [|e es A F IH]; [constructor|]. inversion Be; subst. constructor; [|auto]. apply in_wire_bytes; [exact A|assumption|]. bts; byt.
  - apply is_bytes_concat_map. clear -Fy By. induction Fy; [constructor|]. inversion By; subst. constructor; [|auto]. apply out_wire_bytes; assumption.
Qed.
(** What a created transaction is made of, when the decoder can read it. *)
Lemma created_parts vins vouts range tn raw : typed vins vouts -> 0 <= range < 2 ^ 64 -> create vins vouts range tn = Ok raw -> zlen vins < 256 -> zlen vouts < 256 -> Forall (fun v => v_position v < 128) vins ->
  exists xs ys, Forall2 spends vins xs /\ Forall2 pays vouts ys /\ raw = hex_encode (wire range xs ys) /\ is_bytes (wire range xs ys) /\ decode_tx (wire range xs ys) = Ok (the_tx range xs ys) /\
    0 <= range < 2 ^ 56 /\ 0 < zlen xs < 256 /\ 0 < zlen ys < 256 /\ Forall spent_ok xs /\ Forall spent_bytes xs /\ Forall (fun x => position x < 128) xs /\ Forall paid_ok ys /\ Forall (fun y => is_bytes (snd y)) ys.
Proof.
  intros T R E L1 L2 P. apply bytom_created_iff in E as (N1 & N2 & Lr & _ & xs & ys & Fx & Fy & ->); [|assumption..]. exists xs, ys. destruct T as [Ti To].
  assert (WI : Forall spent_ok xs). { clear -Fx Ti. induction Fx as [|v x vins xs S F IH]; [constructor|]. inversion Ti; subst. constructor; [eapply spends_ok; [| |exact S]; lia|apply IH; assumption]. }
  assert (WO : Forall paid_ok ys). { clear -Fy To. induction Fy as [|v x vins xs S F IH]; [constructor|]. inversion To; subst. constructor; [eapply pays_ok; [|exact S]; lia|apply IH; assumption]. }
  assert (BI : Forall spent_bytes xs). { clear -Fx. induction Fx as [|v x vins xs S F IH]; [constructor|]. constructor; [|exact IH]. destruct x as [[[[s a] m] p] c]. destruct S as (A & _ & B & _ & _ & _ & _ & _ & C & _). apply hex_decode_bytes in A, B, C. repeat split; [apply A|apply B|apply C]. }
  assert (BO : Forall (fun y => is_bytes (snd y)) ys). { clear -Fy. induction Fy as [|v x vins xs S F IH]; [constructor|]. constructor; [|exact IH]. destruct x as [m p]. destruct S as (_ & _ & D & _). apply segwit_bytes in D. exact D. }
  assert (PP : Forall (fun x => position x < 128) xs). { clear -Fx P. induction Fx as [|v x vins xs S F IH]; [constructor|]. inversion P; subst. constructor; [|auto]. destruct x as [[[[s a] m] p] c]. cbn [position]. destruct S as (_ & _ & _ & _ & _ & _ & -> & _). assumption. }
  pose proof (forall2_zlen _ _ _ Fx) as Z1. pose proof (forall2_zlen _ _ _ Fy) as Z2. assert (P1 : 0 < zlen vins) by (destruct vins; [contradiction|rewrite zlen_cons; pose proof (zlen_nonneg vins); lia]). assert (P2 : 0 < zlen vouts) by (destruct vouts; [contradiction|rewrite zlen_cons; pose proof (zlen_nonneg vouts); lia]).
  split; [exact Fx|]. split; [exact Fy|]. split; [reflexivity|]. split; [apply wire_bytes; try assumption; lia|]. split.
  - destruct (wire_decoded range xs ys) as [[_ D]|[C D]]; [lia|intros ->; change (zlen (@nil spent)) with 0 in Z1; lia|intros ->; change (zlen (@nil (Z * bytes))) with 0 in Z2; lia|exact WI|exact WO|exact D|]. exfalso. apply C. split; [lia|]. split; [lia|exact PP].
  - repeat (split; [first [assumption|lia]|]). assumption.
Qed.

(** ** C83: hashes, signing, verification *)
Definition hash_of (H : bytes -> bytes) (range : Z) (xs : list spent) (ys : list (Z * bytes)) (tn : bool) (x : spent) : txhash :=
  if zlen (program x) =? 34 then {| h_hash := hex_encode (the_hash H range xs ys x); h_required := 1; h_normal := None; h_multi := [] |}
  else {| h_hash := hex_encode (the_hash H range xs ys x); h_required := 0; h_normal := Some (match bytom_encode_segwit (if tn then str "tm" else str "bm") 0 (skipn 2 (program x)) with Ok s => s | _ => [] end, {| p_sig := None; p_pub := [] |}); h_multi := [] |}.
Lemma hash_for_sig_ok H range xs ys tn x : tx_ok (the_tx range xs ys) -> In x xs -> spent_ok x -> spent_bytes x -> hash_for_sig H tn (the_tx range xs ys) (bare x) = Ok (hash_of H range xs ys tn x) /\
  (zlen (program x) = 22 -> exists s, h_normal (hash_of H range xs ys tn x) = Some (s, {| p_sig := None; p_pub := [] |}) /\ bytom_decode_segwit s = Ok (0, skipn 2 (program x))).
Proof.
  intros T I X B. assert (Ip : i_program (bare x) = program x) by (destruct x as [[[[s a] m] p] c]; reflexivity). assert (Lp : zlen (program x) = 22 \/ zlen (program x) = 34) by (destruct x as [[[[s a] m] p] c]; apply X). assert (Bp : is_bytes (program x)) by (destruct x as [[[[s a] m] p] c]; apply B).
  unfold hash_for_sig. rewrite (sighash_ok H _ (bare x) T (in_map bare xs x I)). cbn [bind]. fold (the_hash H range xs ys x). rewrite Ip. unfold hash_of. destruct (zlen (program x) =? 34) eqn:Q; [split; [reflexivity|lia]|]. assert (L : zlen (program x) = 22) by lia.
  assert (S : exists a b r, program x = a :: b :: r) by (destruct (program x) as [|a [|b r]]; [discriminate L|discriminate L|eauto]). destruct S as (a & b & r & S). rewrite S in *. cbn [skipn]. change (a :: b :: r) with ([a; b] ++ r). rewrite slice_from_post by reflexivity. cbn [bind]. rewrite !zlen_cons in L. apply is_bytes_cons in Bp as [_ Bp]. apply is_bytes_cons in Bp as [_ Bp]. destruct (seg_ok tn r Bp ltac:(lia)) as (s & E & D). rewrite E. cbn [bind]. split; [reflexivity|]. intros _. exists s. split; [reflexivity|exact D].
Qed.
Lemma insert_all_ok H range xs0 ys tn es : Forall (entry_ok H) es -> insert_all H (map (fun e => bare (fst e)) es) (map (fun e => give (hash_of H range xs0 ys tn (fst e)) (snd e)) es) = Ok (map put_in es).
Proof.
  induction 1 as [|[x a] es (X & P & A) F IH]; [reflexivity|]. cbn [fst snd] in *. cbn [map insert_all fst snd]. destruct a as [sig pub|r ms].
  - destruct A as (L & _). assert (Q : h_required (hash_of H range xs0 ys tn x) = 0 /\ exists s, h_normal (hash_of H range xs0 ys tn x) = Some s) by (unfold hash_of; rewrite L; split; [reflexivity|eexists; reflexivity]). destruct Q as [Q1 [[ad sp] Q2]]. cbn [give h_required h_normal]. rewrite Q1, Q2. cbn [Z.eqb negb]. rewrite IH. cbn [bind]. unfold put_in at 2. cbn [fst snd put_sig put_multi]. destruct x as [[[[s0 a0] m0] p0] c]. reflexivity.
  - cbn [give h_required]. destruct A as (E & Fk & R & Fs & B & _). replace (r =? 0) with false by lia. cbn [negb]. destruct (multisig_bytes_ok H r ms (h_hash (hash_of H range xs0 ys tn x)) (h_normal (hash_of H range xs0 ys tn x)) Fk R Fs B) as [-> _]. cbn [bind]. rewrite IH. cbn [bind]. unfold put_in at 2. cbn [fst snd put_sig put_multi wit]. destruct x as [[[[s0 a0] m0] p0] c]. cbn [program] in E. rewrite <- E. reflexivity.
Qed.
Lemma verify_all_ok H verify f es : (forall m, zlen (H m) = 32) -> Forall (entry_ok H) es -> verify_all verify (map (fun e => f (fst e)) es) (map read_in es) = Ok (forallb (fun e => accepted verify (f (fst e)) (snd e)) es).
Proof.
  intros H32. induction 1 as [|[x a] es (X & P & A) F IH]; [reflexivity|]. cbn [fst snd] in *. cbn [map verify_all forallb fst snd]. unfold read_in at 1. cbn [fst snd]. rewrite (verify_in_ok H) by assumption. cbn [bind]. destruct (accepted verify (f x) a); [exact IH|reflexivity].
Qed.
Lemma mapr_map {A B C} (f : B -> res C) (g : A -> B) l : mapr f (map g l) = mapr (fun a => f (g a)) l.
Proof. induction l as [|a l IH]; [reflexivity|]. cbn [map mapr]. rewrite IH. reflexivity. Qed.
Lemma clone_bare x s m : {| i_source := i_source (mk_in x s m); i_position := i_position (mk_in x s m); i_asset := i_asset (mk_in x s m); i_amount := i_amount (mk_in x s m); i_program := i_program (mk_in x s m); i_sig := None; i_multi := None |} = bare x.
Proof. destruct x as [[[[s0 a0] m0] p0] c]. reflexivity. Qed.

Theorem bytom_signed : forall H verify vins vouts range testnet raw answers, (forall m, zlen (H m) = 32) -> typed vins vouts -> 0 <= range < 2 ^ 64 ->
  create vins vouts range testnet = Ok raw -> zlen vins < 256 -> zlen vouts < 256 -> Forall (fun v => v_position v < 128) vins ->
  Forall2 (fun v a => forall c, hex_decode (v_program v) = Ok c -> allowed H c a) vins answers ->
  exists hs digests raw2 b xs ys, hashes_for_sig H raw testnet = Ok hs /\
    (* one hash for each input, with the address the 20-byte program pays to *)
    Forall2 (fun v h => forall c, hex_decode (v_program v) = Ok c -> zlen c = 22 -> exists s, h_normal h = Some (s, {| p_sig := None; p_pub := [] |}) /\ bytom_decode_segwit s = Ok (0, skipn 2 c)) vins hs /\
    map h_hash hs = map hex_encode digests /\
    insert H raw (map (fun p => give (fst p) (snd p)) (combine hs answers)) = Ok raw2 /\ raw2 = hex_encode b /\
    (* the check accepts exactly when it accepts each answer for its own digest *)
    verify_tx H verify raw2 = Ok (forallb (fun p => accepted verify (fst p) (snd p)) (combine digests answers)) /\
    (* and the chain finds the same transaction, with the arguments *)
    Forall2 spends vins xs /\ Forall2 pays vouts ys /\
    (zlen vins < 128 -> zlen vouts < 128 -> Forall (fun a => match a with One _ _ => True | Many r _ => r = 2 end) answers ->
     rwhole rtx b = Some (1, range, combine xs (map args answers), map (fun y => (repeat 255 32, fst y, 0 :: zlen (snd y) :: snd y)) ys)).
Proof.
  intros H verify vins vouts range tn raw answers H32 T R E L1 L2 P FA.
  destruct (created_parts vins vouts range tn raw T R E L1 L2 P) as (xs & ys & Fx & Fy & -> & Bw & D & R' & Lx & Ly & Wx & Bx & Px & Wy & By).
  assert (La : length xs = length answers) by (pose proof (forall2_zlen _ _ _ Fx); pose proof (forall2_zlen _ _ _ FA); unfold zlen in *; lia).
  set (es := combine xs answers). assert (E1 : map fst es = xs) by (unfold es; clear -La; revert answers La; induction xs as [|x xs IH]; intros [|a l] L; try discriminate; [reflexivity|cbn; f_equal; apply IH; cbn in L; lia]). assert (E2 : map snd es = answers) by (unfold es; clear -La; revert xs La; induction answers as [|a l IH]; intros [|x xs] L; try discriminate; [reflexivity|cbn; f_equal; apply IH; cbn in L; lia]).
  assert (Fe : Forall (entry_ok H) es).
  { unfold es. clear -Fx FA Wx Px. revert answers FA. induction Fx as [|v x vins xs S F IH]; intros answers FA; inversion FA; subst; [constructor|]. inversion Wx; subst. inversion Px; subst. cbn [combine]. constructor; [|apply IH; assumption]. split; [assumption|]. split; [assumption|]. cbn [fst snd]. destruct x as [[[[s0 a0] m0] p0] c]. cbn [program]. apply H2. apply S. }
  assert (Ls : zlen es = zlen xs) by (rewrite <- E1, zlen_map; reflexivity).
  assert (TX : tx_ok (the_tx range xs ys)) by (apply the_tx_ok; assumption).
  exists (map (hash_of H range xs ys tn) xs), (map (the_hash H range xs ys) xs), (hex_encode (wire_of range es ys)), (wire_of range es ys), xs, ys.
  assert (HS : forall x, In x xs -> hash_for_sig H tn (the_tx range xs ys) (bare x) = Ok (hash_of H range xs ys tn x) /\ (zlen (program x) = 22 -> exists s, h_normal (hash_of H range xs ys tn x) = Some (s, {| p_sig := None; p_pub := [] |}) /\ bytom_decode_segwit s = Ok (0, skipn 2 (program x)))).
  { intros x I. rewrite Forall_forall in Wx, Bx. apply hash_for_sig_ok; auto. }
  split. { unfold hashes_for_sig. rewrite hex_decode_encode by exact Bw. cbn [bind]. rewrite D. cbn [bind]. unfold the_tx at 2. cbn [t_ins]. rewrite mapr_map. apply mapr_ok. intros x I. apply HS. exact I. }
  split. { pose proof (fun x I => proj2 (HS x I)) as HS'. revert HS'. generalize (hash_of H range xs ys tn). clear -Fx. intros f HS. induction Fx as [|v x vins xs' S F IH]; [constructor|]. cbn [map]. constructor; [|apply IH; intros x0 I0; apply HS; right; exact I0]. intros c Ec Lc. destruct x as [[[[s0 a0] m0] p0] c']. destruct S as (_ & _ & _ & _ & _ & _ & _ & _ & Ec' & _). assert (c' = c) by congruence. subst c'. apply (HS (s0, a0, m0, p0, c) ltac:(left; reflexivity)). exact Lc. }
  split. { rewrite !map_map. apply map_ext. intros x. unfold hash_of. destruct (_ =? _); reflexivity. }
  split. { unfold insert. rewrite hex_decode_encode by exact Bw. cbn [bind]. rewrite D. cbn [bind].
    assert (Hs : map (fun p => give (fst p) (snd p)) (combine (map (hash_of H range xs ys tn) xs) answers) = map (fun e => give (hash_of H range xs ys tn (fst e)) (snd e)) es).
    { unfold es. clear. generalize (hash_of H range xs ys tn). intros f. revert answers. induction xs as [|x xs IH]; intros [|a l]; try reflexivity. cbn [map combine fst snd]. rewrite IH. reflexivity. }
    rewrite Hs. rewrite zlen_map. unfold the_tx at 1 2 3. cbn [t_ins t_outs]. rewrite !zlen_map. replace (zlen es =? 0) with false by lia. replace (zlen xs =? 0) with false by lia. replace (zlen ys =? 0) with false by lia.
    replace (map bare xs) with (map (fun e => bare (fst e)) es) by (rewrite <- (map_map fst bare), E1; reflexivity). rewrite insert_all_ok by exact Fe. cbn [bind]. unfold the_tx. cbn [t_version t_range t_outs]. rewrite (signed_bytes H) by (try assumption; lia). reflexivity. }
  split; [reflexivity|].
  split. { unfold verify_tx. rewrite hex_decode_encode by (apply (wire_of_bytes H); try assumption; apply (proj1 (Forall_map fst spent_bytes es)); rewrite E1; exact Bx). rewrite (signed_decoded H) by (try assumption; lia).
    assert (C : clone_empty {| t_version := [1]; t_range := uv range; t_ins := map read_in es; t_outs := map mk_out ys |} = the_tx range xs ys).
    { unfold clone_empty, the_tx. cbn [t_version t_range t_ins t_outs]. f_equal. rewrite <- E1, !map_map. apply map_ext. intros e. unfold read_in. apply clone_bare. }
    rewrite C. unfold the_tx at 2. cbn [t_ins]. rewrite mapr_map. rewrite (mapr_ok _ (the_hash H range xs ys)) by (intros x I; apply sighash_ok; [exact TX|apply in_map; exact I]).
    replace (map (the_hash H range xs ys) xs) with (map (fun e => the_hash H range xs ys (fst e)) es) by (rewrite <- (map_map fst (the_hash H range xs ys)), E1; reflexivity). rewrite (verify_all_ok H) by assumption. f_equal. unfold es. generalize (the_hash H range xs ys). intros f. clear. revert answers. induction xs as [|x xs IH]; intros [|a l]; try reflexivity. cbn [map combine forallb fst snd]. rewrite IH. reflexivity. }
  split; [exact Fx|]. split; [exact Fy|]. intros C1 C2 FM. rewrite (forall2_zlen _ _ _ Fx) in C1. rewrite (forall2_zlen _ _ _ Fy) in C2. apply reads_whole. unfold rtx, wire_of. rewrite Ls. rewrite !Z.mod_small by lia.
  change (7 :: 1 :: uv range ++ zlen xs :: concat (map (fun e => in_wire (fst e) (wit (snd e))) es) ++ zlen ys :: concat (map out_wire ys)) with ([7] ++ [1] ++ uv range ++ (zlen xs :: concat (map (fun e => in_wire (fst e) (wit (snd e))) es)) ++ (zlen ys :: concat (map out_wire ys))).
  eapply reads_bind; [apply reads_exact|]. eapply reads_bind; [apply (reads_small 1); lia|]. eapply reads_bind; [apply uv_ok; lia|]. rewrite <- Ls. eapply reads_bind; [apply (list_read rin (fun e => in_wire (fst e) (wit (snd e))) (fun e => (fst e, args (snd e))) es); [lia|]|].
  - assert (FM' : Forall (fun e => match snd e with One _ _ => True | Many r _ => r = 2 end) es) by (apply (proj1 (Forall_map snd (fun a => match a with One _ _ => True | Many r _ => r = 2 end) es)); rewrite E2; exact FM). clear -Fe FM'. induction Fe as [|e es (A & B & C) F IH]; [constructor|]. inversion FM'; subst. constructor; [|auto]. apply in_read; [exact A|]. eapply args_read; eassumption.
  - eapply reads_eq; [eapply reads_bind; [apply (list_read rout out_wire (fun y => (repeat 255 32, fst y, 0 :: zlen (snd y) :: snd y)) ys); [lia|eapply Forall_impl; [|exact Wy]; exact out_read]|apply reads_ret]|apply app_nil_r|]. f_equal. f_equal. unfold es. clear. revert answers. induction xs as [|x xs IH]; intros [|a l]; try reflexivity. cbn [map combine fst snd]. rewrite IH. reflexivity.
Qed.
(** Verification of a transaction nobody has signed: a crash or a refusal, by the length of the first program. *)
Theorem bytom_unsigned_verified : forall H verify v vins vouts range testnet raw c, (forall m, zlen (H m) = 32) -> typed (v :: vins) vouts -> 0 <= range < 2 ^ 64 ->
  create (v :: vins) vouts range testnet = Ok raw -> zlen (v :: vins) < 256 -> zlen vouts < 256 -> Forall (fun v => v_position v < 128) (v :: vins) -> hex_decode (v_program v) = Ok c ->
  (zlen c = 22 /\ verify_tx H verify raw = Panic) \/ (zlen c = 34 /\ verify_tx H verify raw = Ok false).
Proof.
  intros H verify v vins vouts range tn raw c H32 T R E L1 L2 P Ec.
  destruct (created_parts (v :: vins) vouts range tn raw T R E L1 L2 P) as (xs & ys & Fx & Fy & -> & Bw & D & R' & Lx & Ly & Wx & Bx & Px & Wy & By).
  inversion Fx as [|? x ? xs' S Fx']; subst. assert (TX : tx_ok (the_tx range (x :: xs') ys)) by (apply the_tx_ok; assumption).
  assert (V : verify_tx H verify (hex_encode (wire range (x :: xs') ys)) = (ok <- verify_in verify (the_hash H range (x :: xs') ys x) (bare x) ;; if ok then verify_all verify (map (the_hash H range (x :: xs') ys) xs') (map bare xs') else Ok false)).
  { unfold verify_tx. rewrite hex_decode_encode by exact Bw. rewrite D. assert (C : clone_empty (the_tx range (x :: xs') ys) = the_tx range (x :: xs') ys) by (unfold clone_empty, the_tx; cbn [t_version t_range t_ins t_outs]; f_equal; rewrite map_map; apply map_ext; intros e; apply clone_bare). rewrite C. unfold the_tx at 2. cbn [t_ins]. rewrite mapr_map. rewrite (mapr_ok _ (the_hash H range (x :: xs') ys)) by (intros z I; apply sighash_ok; [exact TX|apply in_map; exact I]). unfold the_tx at 1. cbn [t_ins map verify_all]. reflexivity. }
  rewrite V. destruct x as [[[[s0 a0] m0] p0] c']. destruct S as (_ & _ & _ & _ & _ & _ & _ & _ & Ec' & Lc). assert (c' = c) by congruence. subst c'. unfold verify_in, bare at 1 2. cbn [mk_in i_program i_sig i_multi]. destruct Lc as [Lc|Lc]; [left|right]; (split; [exact Lc|]); unfold bare; cbn [mk_in i_program i_sig i_multi]; rewrite Lc; reflexivity.
Qed.
Theorem bytom_crashes :
  (* creating with an address of less than two characters, or an amount of 2^56 and more *)
  (forall vins v vouts range testnet, zlen (w_address v) < 2 -> create vins (v :: vouts) range testnet = Panic) /\
  (forall v vins vouts range testnet s, Forall (fun w => starts testnet (w_address w)) vouts -> hex_decode (v_source v) = Ok s -> 2 ^ 56 <= v_position v < 2 ^ 64 -> create (v :: vins) vouts range testnet = Panic) /\
  (* reading a time range that does not end *)
  (forall bs, bs <> [] -> is_bytes bs -> Forall (fun b => 128 <= b) bs -> forall H verify testnet, decode_tx (7 :: 1 :: bs) = Panic /\ verify_tx H verify (hex_encode (7 :: 1 :: bs)) = Panic /\ hashes_for_sig H (hex_encode (7 :: 1 :: bs)) testnet = Panic) /\
  (* putting in more signatures than there are inputs, or none where one is due *)
  (forall H b t hs, is_bytes b -> decode_tx b = Ok t -> zlen (t_ins t) < zlen hs -> Forall (fun h => h_required h = 0) hs -> insert H (hex_encode b) hs = Panic) /\
  (forall H b t h hs, is_bytes b -> decode_tx b = Ok t -> h_required h = 0 -> h_normal h = None -> insert H (hex_encode b) (h :: hs) = Panic).
Proof.
  split; [|split; [|split; [|split]]].
  - intros vins v vouts range tn L. unfold create. cbn [check_all]. unfold check_prefix. assert (S : slice (w_address v) 0 2 = Panic) by (apply slice_panic; lia). rewrite S. reflexivity.
  - intros v vins vouts range tn s F E P. apply check_all_iff in F. unfold create. rewrite F. cbn [bind]. unfold new_tx. cbn [mapr]. unfold new_in at 1. rewrite E. cbn [bind]. destruct (uvarint_written (v_position v)) as [[? _]|[_ U]]; [lia|lia|]. rewrite U. reflexivity.
  - intros bs N B F H verify tn. assert (D : decode_tx (7 :: 1 :: bs) = Panic).
    { unfold decode_tx. cbn [need1 Z.eqb Pos.eqb negb scan_version Z.ltb Z.compare Pos.compare Pos.compare_cont]. unfold scan_var. destruct bs as [|b bs]; [contradiction|]. set (k := fun range rest => _). clearbody k. revert F. generalize (b :: bs). intros l F. generalize (@nil Z). induction F as [|x l X F IH]; intros acc; [reflexivity|]. cbn [scan_more]. replace (x <? 128) with false by lia. apply IH. }
    assert (HD : hex_decode (hex_encode (7 :: 1 :: bs)) = Ok (7 :: 1 :: bs)) by (apply hex_decode_encode; bts; byt). split; [exact D|]. unfold verify_tx, hashes_for_sig. rewrite HD. cbn [bind]. rewrite D. auto.
  - intros H b t hs B D L F. apply decoded_ok in D as T; [|exact B]. destruct T as (L1 & L2 & _). unfold insert. rewrite hex_decode_encode by exact B. cbn [bind]. rewrite D. cbn [bind]. replace (zlen hs =? 0) with false by lia. replace (zlen (t_ins t) =? 0) with false by lia. replace (zlen (t_outs t) =? 0) with false by lia.
    assert (Q : insert_all H (t_ins t) hs = Panic).
    { clear -L F. revert L. generalize (t_ins t) as l. induction F as [|h hs R F IH]; intros l L; [change (zlen (@nil txhash)) with 0 in L; pose proof (zlen_nonneg l); lia|]. destruct l as [|i l]; cbn [insert_all]; rewrite R; cbn [Z.eqb negb]; (destruct (h_normal h) as [[ad s]|]; [|reflexivity]); [reflexivity|]. rewrite !zlen_cons in L. rewrite IH by lia. reflexivity. }
    rewrite Q. reflexivity.
  - intros H b t h hs B D R N. apply decoded_ok in D as T; [|exact B]. destruct T as (L1 & L2 & _). unfold insert. rewrite hex_decode_encode by exact B. cbn [bind]. rewrite D. cbn [bind]. rewrite zlen_cons. pose proof (zlen_nonneg hs). replace (1 + zlen hs =? 0) with false by lia. replace (zlen (t_ins t) =? 0) with false by lia. replace (zlen (t_outs t) =? 0) with false by lia. destruct (t_ins t); cbn [insert_all]; rewrite R, N; reflexivity.
Qed.

(** ** C84: multisignature *)
Theorem bytom_multisig_created : forall H required keys testnet address script, (forall m, zlen (H m) = 32 /\ is_bytes (H m)) -> 0 <= required < 256 ->
  create_multisig H required keys testnet = Ok (address, script) ->
  1 <= required <= zlen keys /\ Forall (fun k => zlen k = 32) keys /\
  exists s, script = hex_encode s /\ bytom_decode_segwit address = Ok (0, H s) /\
    s = 0xAE :: concat (map (cons 0x20) keys) ++ [(0x50 + required) mod 256; (0x50 + zlen keys) mod 256; 0xAD] /\
    (* the script reader gives the keys and the number back, except for 208 signatures *)
    ((required <> 208 /\ multisig_detail s = Ok (keys, required)) \/ (required = 208 /\ multisig_detail s = Err)).
Proof.
  intros H r keys tn ad sc HH R E. unfold create_multisig in E. destruct (zlen keys =? 0) eqn:Z0; [discriminate|]. destruct (r <=? 0) eqn:R0; [discriminate|]. destruct (zlen keys <? r) eqn:RK; [discriminate|]. apply bind_ok in E as (s & S & E). apply bind_ok in E as (a & A & E). assert (a = ad) by congruence. assert (sc = hex_encode s) by congruence. clear E. subst a sc. apply script_of_iff in S as [F S]. split; [lia|]. split; [exact F|]. exists s. split; [reflexivity|]. split.
  { destruct (bytom_segwit_roundtrip (if tn then str "tm" else str "bm") 0 (H s)) as (t & T & D); [| apply HH | lia | rewrite (proj1 (HH s)); lia | intros; right; apply HH | rewrite (proj1 (HH s)); destruct tn; vm_compute; discriminate|].
    - destruct tn; [change (str "tm") with [116; 109]|change (str "bm") with [98; 109]]; (split; [discriminate|]; repeat (constructor; [lia|]); constructor).
    - assert (t = ad) by congruence. subst t. exact D. }
  split; [exact S|]. rewrite S. unfold multisig_detail. cbn [need1]. change (174 =? op_txsighash) with true. cbn [negb].
  assert (U : forall x, u8 (u8 (80 + x) - (op_1 - 1)) = u8 x) by (intros x; unfold u8; change (op_1 - 1) with 80; rewrite Zminus_mod_idemp_l; f_equal; lia).
  destruct (Z.eq_dec r 208) as [->|N]; [right|left]; (split; [first [reflexivity|exact N]|]).
  - assert (Q : forall ks fuel acc (k : list bytes -> bytes -> res (list bytes * Z)), Forall (fun k => zlen k = 32) ks -> scan_keys fuel acc (concat (map (cons 32) ks) ++ [32; u8 (80 + zlen keys); 173]) k = Err).
    { induction ks as [|q ks IH]; intros [|f] acc k Fq; try reflexivity. inversion Fq; subst. cbn [map concat app scan_keys need1 Z.eqb Pos.eqb negb]. rewrite <- app_assoc, need_app by assumption. apply IH. assumption. }
    apply Q. exact F.
  - assert (V : u8 (80 + r) <> 32) by (unfold u8; change (2 ^ 8) with 256; intros V; assert (Q : 80 + r = 256 * ((80 + r) / 256) + 32) by (rewrite <- V; apply Z.div_mod; lia); lia).
    rewrite scan_keys_ok; [|rewrite app_length; pose proof (length_concat_cons 32 keys); unfold bytes in *; lia|exact F|eexists; eexists; split; [reflexivity|exact V]]. cbn [app must1 need1]. rewrite !U. rewrite u8_small by lia. rewrite R0, Z.eqb_refl. reflexivity.
Qed.
(** The check counts the pairs of a signature and a key at its place or later that match, and wants as many as there are signatures. *)
Theorem bytom_pairs_meaning : forall verify hash sigs pubs, pairs verify hash sigs pubs =
  zlen (filter (fun jk => (fst jk <=? snd jk)%nat && verify (nth (snd jk) pubs []) hash (nth (fst jk) sigs [])) (list_prod (seq 0 (length sigs)) (seq 0 (length pubs)))).
Proof.
  intros verify hash sigs pubs. assert (G : forall n pubs m (f : bytes -> bool), zlen (filter (fun k => (n <=? m + k)%nat && f (nth k pubs [])) (seq 0 (length pubs))) = zlen (filter f (skipn (n - m) pubs))).
  { clear. intros n pubs. induction pubs as [|p pubs IH]; intros m f; [rewrite skipn_nil; reflexivity|]. cbn [length seq]. rewrite <- seq_shift. cbn [filter]. change (nth 0 (p :: pubs) []) with p. rewrite Nat.add_0_r.
    assert (Q : zlen (filter (fun k => (n <=? m + k)%nat && f (nth k (p :: pubs) [])) (map S (seq 0 (length pubs)))) = zlen (filter f (skipn (n - S m) pubs))).
    { rewrite <- (IH (S m) f). generalize (seq 0 (length pubs)). intros l. induction l as [|k l IHl]; [reflexivity|]. cbn [map filter]. change (nth (S k) (p :: pubs) []) with (nth k pubs []). replace (m + S k)%nat with (S m + k)%nat by lia. destruct (_ && _); rewrite ?zlen_cons, IHl; reflexivity. }
    destruct (n <=? m)%nat eqn:E.
    - apply Nat.leb_le in E. replace (n - m)%nat with 0%nat by lia. replace (n - S m)%nat with 0%nat in Q by lia. cbn [skipn filter andb] in *. destruct (f p); rewrite ?zlen_cons, Q; reflexivity.
    - apply Nat.leb_gt in E. cbn [andb]. replace (n - m)%nat with (S (n - S m)) by lia. cbn [skipn]. exact Q. }
  assert (P : forall (f : nat * nat -> bool) l a l', zlen (filter f (list_prod (a :: l) l')) = zlen (filter (fun k => f (a, k)) l') + zlen (filter f (list_prod l l'))).
  { clear. intros f l a l'. cbn [list_prod]. rewrite filter_app, zlen_app. f_equal. induction l' as [|x l' IH]; [reflexivity|]. cbn [map filter]. destruct (f (a, x)); rewrite ?zlen_cons, IH; reflexivity. }
  assert (M : forall sigs' j, skipn j sigs = sigs' -> pairs verify hash sigs' (skipn j pubs) = zlen (filter (fun jk => (fst jk <=? snd jk)%nat && verify (nth (snd jk) pubs []) hash (nth (fst jk) sigs [])) (list_prod (seq j (length sigs')) (seq 0 (length pubs))))).
  { induction sigs' as [|s r IH]; intros j E; [reflexivity|]. cbn [pairs length seq]. rewrite P. cbn [fst snd]. assert (N : nth j sigs [] = s) by (rewrite <- (firstn_skipn j sigs), E; assert (L : (length (firstn j sigs) = j)%nat) by (apply firstn_length_le; apply Nat.lt_le_incl; apply Nat.nle_gt; intros L; rewrite skipn_all2 in E by exact L; discriminate); rewrite app_nth2 by lia; rewrite L, Nat.sub_diag; reflexivity). rewrite N.
    pose proof (G j pubs 0%nat (fun k => verify k hash s)) as Q. cbn [Nat.add] in Q. rewrite Nat.sub_0_r in Q. f_equal; [symmetry; exact Q|]. assert (T : forall {A} n (l : list A), tl (skipn n l) = skipn (S n) l) by (clear; intros A n; induction n as [|n IH]; intros [|x l]; try reflexivity; apply IH). rewrite T. apply IH. rewrite <- T, E. reflexivity. }
  apply (M sigs 0%nat eq_refl).
Qed.
(** Signatures by some of the members, in the order of the keys. *)
Inductive in_order (valid : bytes -> bytes -> bool) : list bytes -> list bytes -> Prop :=
| in_none pubs : in_order valid [] pubs
| in_take s p sigs pubs : valid p s = true -> in_order valid sigs pubs -> in_order valid (s :: sigs) (p :: pubs)
| in_skip p sigs pubs : in_order valid sigs pubs -> in_order valid sigs (p :: pubs).
Theorem bytom_honest_accepted : forall verify h r ms, 1 <= r <= zlen (present ms) -> in_order (fun k s => verify k h s) (taken r ms) (keys_of ms) ->
  (* each signature is valid for one of the keys only *)
  Forall (fun s => zlen (filter (fun k => verify k h s) (keys_of ms)) <= 1) (taken r ms) ->
  accepted verify h (Many r ms) = true.
Proof.
  intros verify h r ms R O F. cbn [accepted]. rewrite <- (zlen_taken r ms R) at 2. generalize dependent (taken r ms). generalize (keys_of ms). clear. intros pubs sigs. revert pubs.
  assert (T : forall sigs pubs, in_order (fun k s => verify k h s) sigs pubs -> forall s r, sigs = s :: r -> 1 <= zlen (filter (fun k => verify k h s) pubs) /\ in_order (fun k s => verify k h s) r (tl pubs)).
  { clear. intros sigs pubs O. induction O as [pubs|s p sigs pubs V O IH|p sigs pubs O IH]; intros s' r E; [discriminate| |].
    - injection E as <- <-. cbn [filter tl]. rewrite V, zlen_cons. split; [pose proof (zlen_nonneg (filter (fun k => verify k h s) pubs)); lia|exact O].
    - destruct (IH s' r E) as [A B]. cbn [filter tl]. split; [destruct (verify p h s'); rewrite ?zlen_cons; lia|]. destruct pubs as [|q pubs]; [exact B|]. apply in_skip. exact B. }
  induction sigs as [|s sigs IH]; intros pubs O F; [reflexivity|]. destruct (T _ _ O s sigs eq_refl) as [A B]. inversion F as [|? ? C D]; subst. cbn [pairs]. rewrite zlen_cons. assert (Q : pairs verify h sigs (tl pubs) =? zlen sigs = true).
  { apply IH; [exact B|]. eapply Forall_impl; [|exact D]. intros t Ht. cbv beta in Ht. destruct pubs as [|p pubs]; [exact Ht|]. cbn [tl]. cbn [filter] in Ht. destruct (verify p h t); rewrite ?zlen_cons in Ht; lia. }
  lia.
Qed.
(** It is not a check that enough members signed. One member's signature twice is accepted for two; a valid and an invalid
    signature are accepted for a key that is listed twice; and then two valid ones are refused. Signatures out of order are refused. *)
Theorem bytom_multisig_count_wrong : forall verify h k1 k2 s1 s2 bad a1 a2, verify k1 h s1 = true -> verify k2 h s2 = true -> verify k2 h s1 = false -> verify k1 h s2 = false -> verify k1 h bad = false ->
  accepted verify h (Many 2 [(a1, {| p_sig := Some s2; p_pub := k1 |}); (a2, {| p_sig := Some s2; p_pub := k2 |})]) = true /\
  accepted verify h (Many 2 [(a1, {| p_sig := Some s1; p_pub := k1 |}); (a2, {| p_sig := Some bad; p_pub := k1 |})]) = true /\
  accepted verify h (Many 2 [(a1, {| p_sig := Some s1; p_pub := k1 |}); (a2, {| p_sig := Some s1; p_pub := k1 |})]) = false /\
  accepted verify h (Many 2 [(a1, {| p_sig := Some s2; p_pub := k1 |}); (a2, {| p_sig := Some s1; p_pub := k2 |})]) = false.
Proof.
  intros verify h k1 k2 s1 s2 bad a1 a2 V1 V2 V3 V4 V5. unfold accepted, taken, present, keys_of. change (Z.to_nat 2) with 2%nat. cbn [flat_map map snd p_sig p_pub app firstn pairs filter tl]. rewrite ?V1, ?V2, ?V3, ?V4, ?V5. cbn [filter tl]. rewrite ?V1, ?V2, ?V3, ?V4, ?V5. repeat split.
Qed.
(** The chain cannot read the arguments when one signature is required. *)
Theorem bytom_one_of_many_unreadable : forall H c ms rest, allowed H c (Many 1 ms) -> inside (rlist rstr) (wit (Many 1 ms) ++ rest) = None.
Proof.
  intros H c ms rest (_ & Fk & R & Fs & B & _). pose proof (present_le ms) as PL. destruct (multisig_bytes_ok H 1 ms [] None Fk R Fs B) as [_ L]. assert (Lk : zlen (keys_of ms) = zlen ms) by (unfold keys_of; apply zlen_map). pose proof (script_len 1 _ Fk) as Ls. pose proof (zlen_taken 1 ms R) as Lt.
  assert (T : exists s, taken 1 ms = [s] /\ zlen s = 64). { destruct (taken 1 ms) as [|s [|? ?]]; [discriminate Lt| |rewrite !zlen_cons in Lt; pose proof (zlen_nonneg l); lia]. exists s. split; [reflexivity|]. inversion Fs; assumption. }
  destruct T as (s & T & L64). unfold wit. cbn [app]. assert (Bd : wit_body 1 ms = 1 :: 3 :: 64 :: s ++ zlen (the_script 1 (keys_of ms)) :: the_script 1 (keys_of ms)) by (unfold wit_body; rewrite T; cbn [map concat app]; rewrite app_nil_r; reflexivity).
  set (sc := the_script 1 (keys_of ms)) in *. unfold inside, rbind at 1. destruct (Z.eq_dec (zlen ms) 1) as [M1|M1].
  - assert (E : rstr (65 * 1 + 33 * zlen ms + 6 :: wit_body 1 ms ++ rest) = Some (firstn 104 (wit_body 1 ms ++ rest), skipn 104 (wit_body 1 ms ++ rest))).
    { unfold rstr, rbind. cbn [rleb]. replace (65 * 1 + 33 * zlen ms + 6) with 104 by lia. change (104 <? 128) with true. cbv iota. unfold rtake. rewrite zlen_app. pose proof (zlen_nonneg rest). replace (zlen (wit_body 1 ms) + zlen rest <? 104) with false by lia. reflexivity. }
    rewrite E. rewrite Bd. destruct s as [|s0 [|s1 [|s2 s]]]; try discriminate L64. assert (W : forall l, rwhole (rlist rstr) (1 :: 3 :: 64 :: s0 :: s1 :: s2 :: l) = None) by (clear; intros l; unfold rwhole, rlist, rstr, rbind; cbn [rleb Z.ltb Z.compare Pos.compare Pos.compare_cont]; change (Z.to_nat 1) with 1%nat; cbn [rrepeat]; unfold rbind; cbn [rleb Z.ltb Z.compare Pos.compare Pos.compare_cont]; unfold rtake; rewrite !zlen_cons; pose proof (zlen_nonneg l); replace (1 + (1 + (1 + (1 + zlen l))) <? 3) with false by lia; reflexivity). cbn [app]. change 104%nat with (6 + 98)%nat. cbn [Nat.add firstn]. rewrite W. reflexivity.
  - assert (E : rstr (65 * 1 + 33 * zlen ms + 6 :: wit_body 1 ms ++ rest) = Some (3 :: 64 :: s ++ zlen sc :: sc, rest)).
    { rewrite Bd. unfold rstr, rbind. cbn [app rleb]. replace (65 * 1 + 33 * zlen ms + 6 <? 128) with false by lia. change (1 <? 128) with true. cbv iota. change (3 :: 64 :: (s ++ zlen sc :: sc) ++ rest) with ((3 :: 64 :: s ++ zlen sc :: sc) ++ rest). apply reads_take. rewrite Bd in L. rewrite !zlen_cons in *. lia. }
    rewrite E. assert (W : rwhole (rlist rstr) (3 :: 64 :: s ++ zlen sc :: sc) = None).
    { unfold rwhole, rlist, rbind at 1. cbn [rleb]. change (3 <? 128) with true. cbv iota. change (Z.to_nat 3) with 3%nat. cbn [rrepeat]. unfold rbind at 1. change (64 :: s ++ zlen sc :: sc) with ((64 :: s) ++ (zlen sc :: sc)). rewrite <- L64 at 1. rewrite (str_read s ltac:(lia)). unfold rbind at 1 2. destruct (Z_lt_dec (zlen sc) 128) as [Q|Q].
      - pose proof (str_read sc Q []) as Y. rewrite app_nil_r in Y. rewrite Y. reflexivity.
      - assert (Y : rstr (zlen sc :: sc) = None). { assert (K : exists q, sc = 174 :: 32 :: q) by (unfold sc, the_script; destruct (keys_of ms) as [|k ks]; [change (zlen (@nil bytes)) with 0 in Lk; lia|]; eexists; reflexivity). destruct K as [q K]. unfold rstr, rbind. rewrite K at 2. cbn [rleb]. replace (zlen sc <? 128) with false by lia. change (174 <? 128) with false. change (32 <? 128) with true. cbv iota. unfold rtake. assert (Lq : zlen sc = 2 + zlen q) by (rewrite K, !zlen_cons; lia). replace (zlen q <? zlen sc - 128 + 128 * (174 - 128 + 128 * 32)) with true by lia. reflexivity. }
        rewrite Y. reflexivity. }
    rewrite W. reflexivity.
Qed.
(** The members a script names come back in order; the signing keys have to be filled in for all of them, also for those
    who do not sign. *)
Theorem bytom_multisig_padded : forall H required keys testnet address script h, (forall m, zlen (H m) = 32 /\ is_bytes (H m)) -> 0 <= required < 256 -> required <> 208 -> Forall is_bytes keys ->
  create_multisig H required keys testnet = Ok (address, script) ->
  exists h', pad_multisig h script = Ok h' /\ h_hash h' = h_hash h /\ h_required h' = required /\ map fst (h_multi h') = map hex_encode keys /\ multisig_bytes H h' = Err /\
    (forall h'' raw, h_required h'' = required -> (exists m, In m (h_multi h'') /\ zlen (p_pub (snd m)) <> 32) -> multisig_bytes H h'' = Err /\ forall r, insert H raw [h''] <> Ok r).
Proof.
  intros H r keys tn ad sc h HH R N B E. apply bytom_multisig_created in E as (Rk & F & s & -> & _ & S & D); [|exact HH|exact R]. destruct D as [[_ D]|[? _]]; [|contradiction].
  assert (X : forall h'', (exists m, In m (h_multi h'') /\ zlen (p_pub (snd m)) <> 32) -> multisig_bytes H h'' = Err).
  { intros h'' (m & I & L). unfold multisig_bytes. assert (Q : script_of (map (fun m => p_pub (snd m)) (h_multi h'')) (h_required h'') = Err); [|rewrite Q; reflexivity]. unfold script_of. match goal with |- context [mapr ?f ?l] => assert (Q : mapr f l = Err); [|rewrite Q; reflexivity] end.
    clear -I L. induction (h_multi h'') as [|x l IH]; [destruct I|]. cbn [map mapr]. destruct I as [->|I]; [replace (zlen (p_pub (snd m)) =? 32) with false by lia; reflexivity|]. rewrite (IH I). destruct (zlen (p_pub (snd x)) =? 32); reflexivity. }
  assert (BS : is_bytes s). { rewrite S. pose proof (Z.mod_pos_bound (80 + r) 256 ltac:(lia)). pose proof (Z.mod_pos_bound (80 + zlen keys) 256 ltac:(lia)). bts; try byt. apply is_bytes_concat_map. eapply Forall_impl; [|exact B]. intros k K. bts; byt. }
  eexists. split; [unfold pad_multisig; rewrite hex_decode_encode by exact BS; cbn [bind]; rewrite D; reflexivity|]. cbn [h_hash h_required h_multi]. split; [reflexivity|]. split; [reflexivity|]. split; [rewrite map_map; reflexivity|]. split.
  - apply X. cbn [h_multi]. destruct keys as [|k keys]; [change (zlen (@nil bytes)) with 0 in Rk; lia|]. eexists. split; [left; reflexivity|discriminate].
  - intros h'' raw Er M. split; [apply X; exact M|]. intros q. unfold insert. destruct (hex_decode raw) as [b| |]; [|discriminate..]. cbn [bind]. destruct (decode_tx b) as [t| |]; [|discriminate..]. cbn [bind]. destruct (zlen [h''] =? 0); [discriminate|]. destruct (zlen (t_ins t) =? 0); [discriminate|]. destruct (zlen (t_outs t) =? 0); [discriminate|]. assert (Q : insert_all H (t_ins t) [h''] = Err) by (destruct (t_ins t); cbn [insert_all]; replace (h_required h'' =? 0) with false by lia; cbn [negb]; rewrite (X h'' M); reflexivity). rewrite Q. discriminate.
Qed.

(** ** The hypotheses are met *)
Definition ex_in : vin := {| v_source := hex_encode (repeat 7 32); v_position := 1; v_asset := hex_encode (repeat 255 32); v_amount := 300; v_program := hex_encode (0 :: 20 :: repeat 1 20) |}.
Definition ex_in2 (c : bytes) : vin := {| v_source := hex_encode (repeat 8 32); v_position := 0; v_asset := hex_encode (repeat 255 32); v_amount := 5000000; v_program := hex_encode c |}.
Definition ex_out : vout := {| w_address := str "bm1qqyqszqgpqyqszqgpqyqszqgpqyqszqgpzl7qxd"; w_amount := 250 |}.
Definition ex_members : list (list Z * sigpub) := [([], {| p_sig := Some (repeat 3 64); p_pub := repeat 4 32 |}); ([], {| p_sig := None; p_pub := repeat 5 32 |}); ([], {| p_sig := Some (repeat 6 64); p_pub := repeat 9 32 |})].
Lemma rep_bytes b n : is_byte b -> is_bytes (repeat b n).
Proof. intros B. induction n; [constructor|]. cbn [repeat]. apply is_bytes_cons. auto. Qed.
Lemma ex_created H : (forall m, zlen (H m) = 32 /\ is_bytes (H m)) -> let c := 0 :: 32 :: H (the_script 2 (keys_of ex_members)) in
  typed [ex_in; ex_in2 c] [ex_out] /\ exists raw, create [ex_in; ex_in2 c] [ex_out] 1000 false = Ok raw.
Proof.
  intros HH c. assert (T : typed [ex_in; ex_in2 c] [ex_out]). { split; [constructor; [|constructor; [|constructor]]|constructor; [|constructor]]; cbn [ex_in ex_in2 ex_out v_amount v_position w_amount]; lia. }
  split; [exact T|]. eexists. apply bytom_created_iff; [exact T|lia|]. split; [discriminate|]. split; [discriminate|]. split; [reflexivity|]. split; [constructor; [|constructor]; exists (str "1qqyqszqgpqyqszqgpqyqszqgpqyqszqgpzl7qxd"); reflexivity|].
  exists [(repeat 7 32, repeat 255 32, 300, 1, 0 :: 20 :: repeat 1 20); (repeat 8 32, repeat 255 32, 5000000, 0, c)], [(250, repeat 1 20)]. assert (Hx : forall b, is_bytes b -> hex_decode (hex_encode b) = Ok b) by (intros; apply hex_decode_encode; assumption).
  assert (L : zlen c = 34) by (unfold c; rewrite !zlen_cons, (proj1 (HH _)); reflexivity). assert (Bc : is_bytes c) by (unfold c; bts; try byt; apply HH).
  split; [constructor; [|constructor; [|constructor]]|split; [constructor; [|constructor]|reflexivity]].
  - unfold spends, ex_in. cbn [v_source v_asset v_amount v_position v_program]. rewrite !Hx by (bts; try byt; apply rep_bytes; byt). repeat (split; [first [reflexivity|lia]|]). left. reflexivity.
  - unfold spends, ex_in2. cbn [v_source v_asset v_amount v_position v_program]. rewrite (Hx c Bc). rewrite !Hx by (apply rep_bytes; byt). repeat (split; [first [reflexivity|lia]|]). right. exact L.
  - unfold pays, ex_out. cbn [w_amount w_address]. split; [reflexivity|]. split; [lia|]. split; [vm_compute; reflexivity|left; reflexivity].
Qed.
Example bytom_signed_applies : forall H verify, (forall m, zlen (H m) = 32 /\ is_bytes (H m)) -> exists raw hs raw2 d1 d2,
  hashes_for_sig H raw false = Ok hs /\ insert H raw (map (fun p => give (fst p) (snd p)) (combine hs [One (repeat 1 64) (repeat 2 32); Many 2 ex_members])) = Ok raw2 /\
  verify_tx H verify raw2 = Ok (verify (repeat 2 32) d1 (repeat 1 64) && ((pairs verify d2 [repeat 3 64; repeat 6 64] [repeat 4 32; repeat 5 32; repeat 9 32] =? 2) && true)).
Proof.
  intros H verify HH. destruct (ex_created H HH) as (T & raw & E). exists raw.
  destruct (bytom_signed H verify _ _ 1000 false raw [One (repeat 1 64) (repeat 2 32); Many 2 ex_members] (fun m => proj1 (HH m)) T ltac:(lia) E) as (hs & ds & raw2 & b & xs & ys & A1 & A2 & A3 & A4 & A5 & A6 & _); [reflexivity|reflexivity|repeat constructor| |].
  - assert (Hx : forall b, is_bytes b -> hex_decode (hex_encode b) = Ok b) by (intros; apply hex_decode_encode; assumption).
    constructor; [|constructor; [|constructor]]; intros c Ec; cbn [ex_in ex_in2 v_program] in Ec; rewrite Hx in Ec by (bts; try byt; first [apply HH|apply rep_bytes; byt]); apply (f_equal (fun x => match x with Ok v => v | _ => [] end)) in Ec; cbv beta iota in Ec; subst c; cbn [allowed].
    + split; [reflexivity|]. split; [reflexivity|]. split; [reflexivity|]. split; apply rep_bytes; byt.
    + split; [reflexivity|]. split; [repeat constructor|]. split; [change (zlen (present ex_members)) with 2; lia|]. split; [repeat constructor|]. split; [change (zlen ex_members) with 3; lia|]. split; repeat (constructor; [apply rep_bytes; byt|]); constructor.
  - apply (f_equal (@length _)) in A3 as A7. rewrite !map_length in A7. pose proof (forall2_zlen _ _ _ A2) as A8. destruct hs as [|h1 [|h2 [|h3 hs]]]; try discriminate A8; [|rewrite !zlen_cons in A8; pose proof (zlen_nonneg hs); change (zlen (@nil vin)) with 0 in A8; lia]. destruct ds as [|d1 [|d2 [|d3 ds]]]; try discriminate A7. exists [h1; h2], raw2, d1, d2. split; [exact A1|]. split; [exact A4|]. exact A6.
Qed.
Example bytom_multisig_example : exists address script, create_multisig (fun _ => repeat 9 32) 2 [repeat 4 32; repeat 5 32; repeat 9 32] false = Ok (address, script).
Proof.
  unfold create_multisig. cbn [script_of mapr]. destruct (bytom_segwit_roundtrip (str "bm") 0 (repeat 9 32)) as (s & E & _); [|apply rep_bytes; byt|lia|cbn; lia|right; reflexivity|vm_compute; discriminate|].
  - change (str "bm") with [98; 109]. split; [discriminate|]. repeat (constructor; [lia|]). constructor.
  - exists s. eexists. change (zlen [repeat 4 32; repeat 5 32; repeat 9 32] =? 0) with false. change (2 <=? 0) with false. change (zlen [repeat 4 32; repeat 5 32; repeat 9 32] <? 2) with false. cbv iota. rewrite script_of_ok by (try lia; repeat constructor). cbn [bind]. rewrite E. reflexivity.
Qed.
Print Assumptions bytom_signed.
Print Assumptions bytom_unsigned_verified.
Print Assumptions bytom_crashes.
Print Assumptions bytom_multisig_created.
Print Assumptions bytom_multisig_padded.
Print Assumptions bytom_pairs_meaning.
Print Assumptions bytom_honest_accepted.
Print Assumptions bytom_multisig_count_wrong.
Print Assumptions bytom_one_of_many_unreadable.
