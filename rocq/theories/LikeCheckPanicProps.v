(** C156: exactly when checking a signed transaction with btcLikeTxDriver crashes. *)
From Coq Require Import String ZArith List Bool Lia ZifyBool ZifyNat.
From Verif Require Import Go GoFacts GoFacts2 Rd Base58CheckModel BtcModel BtcSpec BtcProofs BtcTxProofs BtcSigProps BtcVerProps SigModel SigDerProps FamPanicProps
  LikeModel LikeProofs LikeProps LikeSigProofs LikeSigProps LikeInsProps LikeVerProps LikeWitModel LikeWitProps LikePanicProps Toy.
Import ListNotations.
Open Scope Z_scope.
Ltac Zify.zify_post_hook ::= idtac.

(** ** Specification *)
(** The first element that [fine] does not cover is one that is [bad]. *)
Definition meets {A} (fine bad : A -> Prop) (l : list A) : Prop := exists before x after, l = before ++ x :: after /\ Forall fine before /\ bad x.
(** The witness of every input: an empty one when the transaction has none at all, nothing when it has fewer than inputs. *)
Definition witness_column (ws : list sigpub) (inputs : nat) : list (option sigpub) :=
  if ws then repeat (Some no_sigpub) inputs else map Some (firstn inputs ws) ++ repeat None (inputs - length ws).
Definition row : Type := option sigpub * lin * lunlock.
Definition rows_of (t : ltx) (us : list lunlock) : list row := combine (combine (witness_column (l_wit t) (length (l_vins t))) (l_vins t)) us.
(** The signature and key read for one input, and the request used for its hash. *)
Definition row_reads (x : row) (o : sigpub * lunlock) : Prop :=
  let '(w, i, u) := x in exists sp, w = Some sp /\
  ((sp_sig sp = [] /\ script_signs (li_script i) (fst o) /\ snd o = u) \/
   (sp_sig sp <> [] /\ begins (str "0014") (lu_lock u) /\ o = (sp, u)) \/
   (sp_sig sp <> [] /\ ~ begins (str "0014") (lu_lock u) /\ exists x r, li_script i = x :: r /\ o = (sp, set_redeem (hex_encode r) u))).
(** There is no witness for the input, or there is one for a lock that is not native segwit and the input script is empty. *)
Definition row_crash (x : row) : Prop :=
  let '(w, i, u) := x in w = None \/ exists sp, w = Some sp /\ sp_sig sp <> [] /\ ~ begins (str "0014") (lu_lock u) /\ li_script i = [].
(** A request whose hash can be made. *)
Definition hashable (outputs : bool) (u : lunlock) : Prop :=
  exists lock, hex_decode (lu_lock u) = Ok lock /\
  ((exists h, length h = 20%nat /\ lock = p2pkh_script h /\ outputs = true) \/
   (exists h extra r code, length h = 20%nat /\ lock = p2sh_script h ++ extra /\ (length extra = 0%nat \/ length extra = 2%nat) /\ hex_decode (lu_redeem u) = Ok r /\ like_code r code) \/
   (exists h, length h = 20%nat /\ lock = witness_v0_script h)).
Definition has_outputs (t : ltx) : bool := if l_vouts t then false else true.
Definition unsigned (t : ltx) : ltx := {| l_version := l_version t; l_vins := l_vins t; l_vouts := l_vouts t; l_wit := []; l_locktime := l_locktime t |}.

(** ** Reading *)
Definition read_row (x : row) : res (sigpub * lunlock) := let '(w, i, u) := x in like_read_one w i u.
Lemma read_row_cases w i u : is_bytes (li_script i) ->
  (forall o, read_row (w, i, u) = Ok o <-> row_reads (w, i, u) o) /\ (read_row (w, i, u) = Panic <-> row_crash (w, i, u)).
Proof.
  intros B. unfold read_row, row_reads, row_crash, like_read_one. destruct w as [sp|].
  2:{ split; [intros o; split; [discriminate|intros (sp & Q & _); discriminate]|split; auto]. }
  pose proof (zlen_zero (sp_sig sp)) as Z0. pose proof (is_prefix_begins (str "0014") (lu_lock u)) as PB. destruct (zlen (sp_sig sp) =? 0) eqn:E0.
  - assert (N : sp_sig sp = []) by (apply Z0; reflexivity). pose proof (script_sp_not_panic _ B) as NP. split.
    + intros o. split.
      * intros E. apply bind_ok in E as (q & E1 & E). apply script_sp_iff in E1; [|exact B]. injection E as <-. exists sp. split; [reflexivity|]. left. auto.
      * intros (sp' & E & D). injection E as <-. destruct D as [(_ & Q & U)|[(Q & _)|(Q & _)]]; [|contradiction..]. apply script_sp_iff in Q; [|exact B]. rewrite Q. cbn [bind]. destruct o. cbn in U |- *. congruence.
    + split; [intros E; apply bind_panics in E as [E|(? & _ & E)]; [contradiction|discriminate]|]. intros [Q|(sp' & E & Q & _)]; [discriminate|]. injection E as <-. contradiction.
  - assert (N : sp_sig sp <> []) by (intros Q; apply Z0 in Q; congruence). destruct (is_prefix _ _) eqn:P.
    + assert (Bg : begins (str "0014") (lu_lock u)) by (apply PB; reflexivity). split.
      * intros o. split; [intros E; injection E as <-; exists sp; auto 6|]. intros (sp' & E & D). injection E as <-. destruct D as [(Q & _)|[(_ & _ & ->)|(_ & Q & _)]]; [contradiction|reflexivity|contradiction].
      * split; [discriminate|]. intros [Q|(sp' & E & _ & Q & _)]; [discriminate|contradiction].
    + assert (Bg : ~ begins (str "0014") (lu_lock u)) by (intros Q; apply PB in Q; congruence). destruct (li_script i) as [|x r] eqn:Es.
      * change (slice_from (@nil Z) 1) with (@Panic bytes). cbn [bind]. split; [|split; [intros _; right; exists sp; auto|reflexivity]]. intros o. split; [discriminate|]. intros (sp' & E & D). injection E as <-. destruct D as [(Q & _)|[(_ & Q & _)|(_ & _ & x & r & Q & _)]]; [contradiction..|discriminate].
      * rewrite slice_from_cons. cbn [bind]. split.
        -- intros o. split; [intros E; injection E as <-; exists sp; split; [reflexivity|]; right; right; eauto 8|]. intros (sp' & E & D). injection E as <-. destruct D as [(Q & _)|[(_ & Q & _)|(_ & _ & x' & r' & Q & ->)]]; [contradiction..|]. injection Q as <- <-. reflexivity.
        -- split; [discriminate|]. intros [Q|(sp' & E & _ & _ & Q)]; discriminate.
Qed.
Definition loop_rows (ws : list sigpub) (ins : list lin) (us : list lunlock) : list row :=
  combine (combine (map Some (firstn (length ins) ws) ++ repeat None (length ins - length ws)) ins) us.
Lemma read_loop_rows ins : forall ws us, length us = length ins -> like_read_loop ws ins us = (l <- mapr read_row (loop_rows ws ins us) ;; Ok (map fst l, map snd l)).
Proof.
  induction ins as [|i ins IH]; intros ws us L; destruct us as [|u us]; try discriminate L; cbn [like_read_loop].
  - unfold loop_rows. cbn [length firstn map app]. destruct (repeat None _) as [|? ?]; reflexivity.
  - assert (E : loop_rows ws (i :: ins) (u :: us) = (hd_error ws, i, u) :: loop_rows (tl ws) ins us) by (destruct ws as [|w ws]; unfold loop_rows; [cbn [length firstn map app Nat.sub tl repeat]; rewrite firstn_nil, Nat.sub_0_r; reflexivity|reflexivity]).
    rewrite E. cbn [mapr]. change (read_row (hd_error ws, i, u)) with (like_read_one (hd_error ws) i u). destruct (like_read_one _ i u) as [[sp u']| |]; cbn [bind]; try reflexivity. rewrite IH by (cbn [length] in L; lia). destruct (mapr read_row _) as [l| |]; reflexivity.
Qed.
Lemma read_plain_rows ins : forall us, length us = length ins ->
  (sps <- mapr (fun i => like_script_sp (li_script i)) ins ;; Ok (sps, us)) = (l <- mapr read_row (combine (combine (repeat (Some no_sigpub) (length ins)) ins) us) ;; Ok (map fst l, map snd l)).
Proof.
  induction ins as [|i ins IH]; intros us L; destruct us as [|u us]; try discriminate L; [reflexivity|]. cbn [length repeat combine mapr]. change (read_row (Some no_sigpub, i, u)) with (sp <- like_script_sp (li_script i) ;; Ok (sp, u)).
  destruct (like_script_sp (li_script i)) as [sp| |]; cbn [bind]; try reflexivity. specialize (IH us ltac:(cbn [length] in L; lia)). destruct (mapr (fun i => like_script_sp (li_script i)) ins) as [sps| |]; destruct (mapr read_row _) as [l| |]; cbn [bind] in *; try discriminate IH; try reflexivity. injection IH as -> ->. reflexivity.
Qed.
Lemma read_stage t us : length us = length (l_vins t) ->
  (if zlen (l_wit t) =? 0 then sps <- mapr (fun i => like_script_sp (li_script i)) (l_vins t) ;; Ok (sps, us) else like_read_loop (l_wit t) (l_vins t) us) =
  (l <- mapr read_row (rows_of t us) ;; Ok (map fst l, map snd l)).
Proof.
  intros L. unfold rows_of, witness_column. destruct (l_wit t) as [|w ws] eqn:E.
  - change (zlen (@nil sigpub) =? 0) with true. cbv iota. apply read_plain_rows. exact L.
  - replace (zlen (w :: ws) =? 0) with false by (rewrite zlen_cons; pose proof (zlen_nonneg ws); lia). rewrite read_loop_rows by exact L. reflexivity.
Qed.
Lemma rows_len t us : length us = length (l_vins t) -> length (rows_of t us) = length us.
Proof.
  intros L. unfold rows_of, row. rewrite !combine_length. assert (Q : length (witness_column (l_wit t) (length (l_vins t))) = length (l_vins t)); [|lia].
  unfold witness_column. destruct (l_wit t) as [|w ws]; [apply repeat_length|]. rewrite app_length, map_length, firstn_length, repeat_length. lia.
Qed.

(** ** Hashing *)
Lemma bare_sized ins n lock : Forall (fun i => zlen (li_txid i) = 32 /\ zlen (li_vout i) = 4) ins -> Forall (fun i => zlen (li_txid i) = 32 /\ zlen (li_vout i) = 4) (upd (map (set_script []) ins) n (set_script lock)).
Proof.
  intros F. revert n. induction F as [|i ins Fi F IH]; intros [|n]; cbn [map upd]; constructor; try exact Fi; [|apply IH]. clear - F. induction F; cbn [map]; constructor; assumption.
Qed.
Lemma bare_single ins n lock : last lock 0 <> 0xAE -> match upd (map (set_script []) ins) n (set_script lock) with [i] => negb (zlen (li_script i) =? 0) && (last (li_script i) 0 =? 0xAE) | _ => false end = false.
Proof.
  intros N. destruct ins as [|i [|j ins]]; cbn [map]; [destruct n; reflexivity| |destruct n as [|[|n]]; reflexivity]. destruct n as [|n]; cbn [upd set_script li_script]; [|destruct n; reflexivity]. replace (last lock 0 =? 174) with false by lia. apply andb_false_r.
Qed.
Lemma upd_len {A} (l : list A) f : forall n, length (upd l n f) = length l.
Proof. induction l as [|x l IH]; intros [|n]; cbn [upd length]; try reflexivity. rewrite IH. reflexivity. Qed.
Lemma wits_ok ws : Forall wit_sized ws -> exists r, mapr like_wit_bytes ws = Ok r.
Proof. intros F. apply ok_all. eapply Forall_impl; [|exact F]. intros w A. apply like_wit_cases. exact A. Qed.
Lemma legacy_cases sha t n h : decoded_ok t -> (n < length (l_vins t))%nat -> length h = 20%nat ->
  let x := like_bytes sha (set_ins (upd (map (set_script []) (l_vins t)) n (set_script (p2pkh_script h))) t) in x <> Panic /\ ((exists b, x = Ok b) <-> has_outputs t = true).
Proof.
  intros (Fi & Fo & Fw) Ln Lh x. split; [apply like_bytes_sized; exact Fw|]. subst x. unfold like_bytes, is_multi, has_outputs. cbn [set_ins l_vins l_vouts l_wit l_version l_locktime].
  assert (Lz : zlen (upd (map (set_script []) (l_vins t)) n (set_script (p2pkh_script h))) = zlen (l_vins t)) by (unfold zlen; rewrite upd_len, map_length; reflexivity).
  rewrite Lz. replace (zlen (l_vins t) =? 0) with false by (unfold zlen; lia). rewrite bare_single by apply p2pkh_last. destruct (l_vouts t) as [|o os] eqn:Eo.
  - change (zlen (@nil lout) =? 0) with true. cbv iota. split; [intros (? & Q); discriminate|discriminate].
  - replace (zlen (o :: os) =? 0) with false by (rewrite zlen_cons; pose proof (zlen_nonneg os); lia). destruct (like_in_bytes_ok (fun s => s) _ (bare_sized _ n (p2pkh_script h) Fi)) as (a & ->). destruct (like_out_bytes_ok _ Fo) as (b & ->). destruct (wits_ok _ Fw) as (c & ->). cbn [bind]. split; eauto.
Qed.
Lemma segwit_ok H t redeem i amount : (exists b, like_segwit_bytes H t redeem i amount = Ok b) <-> exists r code, hex_decode redeem = Ok r /\ like_code r code.
Proof.
  unfold like_segwit_bytes. split.
  - intros (b & E). apply bind_ok in E as (r & Er & E). apply bind_ok in E as (code & Ec & _). exists r, code. split; [exact Er|]. apply code_iff; [exact (proj1 (hex_decode_bytes _ _ Er))|exact Ec].
  - intros (r & code & Er & Lc). rewrite Er. cbn [bind]. apply code_iff in Lc; [|exact (proj1 (hex_decode_bytes _ _ Er))]. rewrite Lc. cbn [bind]. eauto.
Qed.
Lemma hash_cases H sha t n u : decoded_ok t -> (n < length (l_vins t))%nat ->
  (like_hash H sha t n u = Panic <-> like_hash_trap u) /\ ((exists p, like_hash H sha t n u = Ok p) <-> hashable (has_outputs t) u).
Proof.
  intros D Ln. unfold like_hash, like_hash_trap, hashable.
  destruct (hex_decode (lu_lock u)) as [l| |] eqn:El; cbn [bind]; [|split; split; try discriminate; intros (? & Q); first [discriminate | destruct Q as [Q _]; discriminate]|exfalso; exact (hex_decode_not_panic _ El)].
  destruct (hex_decode_bytes _ _ El) as [Bl _]. rewrite nth_error_map. destruct (nth_error (l_vins t) n) as [i|] eqn:En; [|apply nth_error_None in En; lia]. cbn [option_map].
  destruct (negb (zlen l =? 22) && negb (zlen l =? 23) && negb (zlen l =? 25)) eqn:LL.
  { split; split; try discriminate.
    - intros (l' & Q & X). match type of Q with Ok ?a = Ok ?b => assert (QE : b = a) by congruence; subst b end. clear Q. destruct X as [[_ X]|[[_ X]|(h & e & Lh & -> & Le & _)]]; [lia|lia|]. rewrite zlen_app, p2sh_len in LL by exact Lh. unfold zlen in LL. lia.
    - intros (? & Q). discriminate.
    - intros (l' & Q & X). match type of Q with Ok ?a = Ok ?b => assert (QE : b = a) by congruence; subst b end. clear Q. exfalso. destruct X as [(h & Lh & -> & _)|[(h & e & r & c & Lh & -> & Le & _)|(h & Lh & ->)]].
      + rewrite p2pkh_len in LL by exact Lh. lia.
      + rewrite zlen_app, p2sh_len in LL by exact Lh. unfold zlen in LL. lia.
      + rewrite wpkh_len in LL by exact Lh. lia. }
  assert (L3 : zlen l = 22 \/ zlen l = 23 \/ zlen l = 25) by lia. pose proof (kind_of l L3) as K. destruct (like_script_type l) as [[[]|]| |] eqn:Ety; cbn [kind_ok bind] in *.
  - destruct K as (h & Lh & ->). destruct (legacy_cases sha t n h D Ln Lh) as [NP Oi]. set (x := like_bytes _ _) in *. split.
    + split; [intros E; apply bind_panics in E as [E|(? & _ & E)]; [contradiction|discriminate]|]. intros (l' & Q & X). match type of Q with Ok ?a = Ok ?b => assert (QE : b = a) by congruence; subst b end. clear Q. exfalso. rewrite p2pkh_len in X by exact Lh. destruct X as [[_ X]|[[_ X]|(h' & e & _ & X & _)]]; [lia|lia|]. unfold p2pkh_script, p2sh_script in X. cbn [app] in X. discriminate X.
    + split.
      * intros (p & E). apply bind_ok in E as (b & Eb & _). exists (p2pkh_script h). split; [reflexivity|]. left. exists h. split; [exact Lh|]. split; [reflexivity|]. apply Oi. eauto.
      * intros (l' & Q & X). match type of Q with Ok ?a = Ok ?b => assert (QE : b = a) by congruence; subst b end. clear Q. destruct X as [(h' & _ & _ & O)|[(h' & e & r & c & _ & X & _)|(h' & _ & X)]]; [|unfold p2pkh_script, p2sh_script in X; cbn [app] in X; discriminate X|unfold p2pkh_script, witness_v0_script in X; cbn [app] in X; discriminate X].
        apply Oi in O as (b & Eb). rewrite Eb. cbn [bind]. eauto.
  - destruct K as (h & extra & Lh & ->). assert (Le : length extra = 0%nat \/ length extra = 2%nat) by (rewrite zlen_app, p2sh_len in L3 by exact Lh; unfold zlen in L3; lia).
    pose proof (segwit_panic H (set_ins (map (set_script []) (l_vins t)) t) (lu_redeem u) (set_script [] i) (lu_amount u)) as SP. pose proof (segwit_ok H (set_ins (map (set_script []) (l_vins t)) t) (lu_redeem u) (set_script [] i) (lu_amount u)) as SO. set (x := like_segwit_bytes _ _ _ _ _) in *. split.
    + split.
      * intros E. apply bind_panics in E as [E|(? & _ & E)]; [|discriminate]. exists (p2sh_script h ++ extra). split; [reflexivity|]. right. right. exists h, extra. split; [exact Lh|]. split; [reflexivity|]. split; [exact Le|]. apply SP. exact E.
      * intros (l' & Q & X). match type of Q with Ok ?a = Ok ?b => assert (QE : b = a) by congruence; subst b end. clear Q. apply bind_panics. left. apply SP. destruct X as [[(r & X) _]|[[_ X]|(h' & e & _ & _ & _ & X)]]; [exfalso; unfold p2sh_script in X; cbn [app] in X; discriminate X|exfalso; rewrite zlen_app, p2sh_len in X by exact Lh; pose proof (zlen_nonneg extra); lia|exact X].
    + split.
      * intros (p & E). apply bind_ok in E as (b & Eb & _). destruct (proj1 SO ltac:(eauto)) as (r & c & Er & Lc). exists (p2sh_script h ++ extra). split; [reflexivity|]. right. left. exists h, extra, r, c. auto.
      * intros (l' & Q & X). match type of Q with Ok ?a = Ok ?b => assert (QE : b = a) by congruence; subst b end. clear Q. destruct X as [(h' & _ & X & _)|[(h' & e & r & c & _ & _ & _ & Er & Lc)|(h' & _ & X)]]; [unfold p2pkh_script, p2sh_script in X; cbn [app] in X; discriminate X| |unfold p2sh_script, witness_v0_script in X; cbn [app] in X; discriminate X].
        destruct (proj2 SO ltac:(eauto)) as (b & Eb). rewrite Eb. cbn [bind]. eauto.
  - pose proof (segwit_panic H (set_ins (map (set_script []) (l_vins t)) t) (lu_lock u) (set_script [] i) (lu_amount u)) as SP. pose proof (segwit_ok H (set_ins (map (set_script []) (l_vins t)) t) (lu_lock u) (set_script [] i) (lu_amount u)) as SO. set (x := like_segwit_bytes _ _ _ _ _) in *. rewrite El in SP, SO. split.
    + split.
      * intros E. exfalso. apply bind_panics in E as [E|(? & _ & E)]; [|discriminate]. apply SP in E. assert (Q : l = [] \/ l = [0]) by (destruct E as [E|E]; injection E as ->; auto). destruct Q as [-> | ->]; cbv in L3; intuition discriminate.
      * intros (l' & Q & X). match type of Q with Ok ?a = Ok ?b => assert (QE : b = a) by congruence; subst b end. clear Q. exfalso. destruct K as (r & ->). destruct X as [[(r' & X) _]|[[(r' & X) _]|(h' & e & _ & X & _)]]; cbn [app p2sh_script] in X; discriminate X.
    + split.
      * intros (p & E). apply bind_ok in E as (b & Eb & _). destruct (proj1 SO ltac:(eauto)) as (r & c & Er & Lc). injection Er as <-. exists l. split; [reflexivity|]. right. right. destruct Lc as [(h & Lh & -> & _)|(_ & _ & N & _)]; [eauto|contradiction].
      * intros (l' & Q & X). match type of Q with Ok ?a = Ok ?b => assert (QE : b = a) by congruence; subst b end. clear Q. destruct X as [(h' & _ & -> & _)|[(h' & e & r & c & _ & -> & _)|(h' & Lh & ->)]]; [destruct K as (r & K); unfold p2pkh_script in K; cbn [app] in K; discriminate K|destruct K as (r' & K); unfold p2sh_script in K; cbn [app] in K; discriminate K|].
        destruct (proj2 SO) as (b & Eb); [exists (witness_v0_script h'), (p2pkh_script h'); split; [reflexivity|]; left; eauto|]. rewrite Eb. cbn [bind]. eauto.
  - destruct K as (K1 & K2 & K3). split.
    + split; [discriminate|]. intros (l' & Q & X). match type of Q with Ok ?a = Ok ?b => assert (QE : b = a) by congruence; subst b end. clear Q. exfalso. destruct X as [[D1 D2]|[[D1 D2]|(h & e & Lh & X & _)]]; [| |exact (K2 h e Lh X)].
      * assert (P : like_script_type l = Panic); [|congruence]. destruct D1 as (r & D1). unfold like_script_type. cbn [all_at]. rewrite (idx_out l 23) by lia. rewrite D1. reflexivity.
      * assert (P : like_script_type l = Panic); [|congruence]. destruct D1 as (r & D1). unfold like_script_type. cbn [all_at]. rewrite (idx_out l 22) by lia. rewrite D1. reflexivity.
    + split; [intros (? & Q); discriminate|]. intros (l' & Q & X). match type of Q with Ok ?a = Ok ?b => assert (QE : b = a) by congruence; subst b end. clear Q. exfalso. destruct X as [(h & Lh & X & _)|[(h & e & r & c & Lh & X & _)|(h & Lh & X)]]; [exact (K1 h Lh X)|exact (K2 h e Lh X)|]. apply K3. rewrite X. apply wpkh_begins. exact Lh.
  - contradiction.
  - split.
    + split; [intros _|reflexivity]. exists l. split; [reflexivity|]. destruct K as [[K1 K2]|[K1 K2]]; [left; split; [exact K1|lia]|right; left; split; assumption].
    + split; [intros (? & Q); discriminate|]. intros (l' & Q & X). match type of Q with Ok ?a = Ok ?b => assert (QE : b = a) by congruence; subst b end. clear Q. exfalso. destruct X as [(h & Lh & -> & _)|[(h & e & r & c & Lh & -> & _)|(h & Lh & ->)]].
      * rewrite p2pkh_len in K by exact Lh. destruct K as [[_ K]|[_ K]]; lia.
      * destruct K as [[(r' & K) _]|[_ K]]; [unfold p2sh_script in K; cbn [app] in K; discriminate K|]. rewrite zlen_app, p2sh_len in K by exact Lh. pose proof (zlen_nonneg e). lia.
      * destruct K as [[(r' & K) _]|[(r' & K) _]]; unfold witness_v0_script in K; cbn [app] in K; discriminate K.
Qed.
Lemma hash_loop_cases H sha t : decoded_ok t -> forall us n, (n + length us <= length (l_vins t))%nat -> like_hash_loop H sha t n us = Panic <-> meets (hashable (has_outputs t)) like_hash_trap us.
Proof.
  intros D. induction us as [|u us IH]; intros n L; cbn [like_hash_loop].
  - split; [discriminate|]. intros ([|? ?] & x & b & E & _); discriminate.
  - cbn [length] in L. destruct (hash_cases H sha t n u D ltac:(lia)) as [P O]. specialize (IH (S n) ltac:(lia)). split.
    + intros E. apply bind_panics in E as [E|([h u'] & E1 & E)].
      * exists [], u, us. split; [reflexivity|]. split; [constructor|apply P; exact E].
      * apply bind_panics in E as [E|([hs us'] & _ & E)]; [|discriminate]. apply IH in E as (a & x & b & -> & F & X). exists (u :: a), x, b. split; [reflexivity|]. split; [constructor; [apply O; eauto|exact F]|exact X].
    + intros (a & x & b & E & F & X). destruct a as [|y a]; cbn [app] in E; injection E as <- ->.
      * apply P in X. rewrite X. reflexivity.
      * apply Forall_cons_iff in F as [Fu F]. apply O in Fu as ([h u'] & ->). cbn [bind]. rewrite (proj2 IH); [reflexivity|]. exists a, x, b. auto.
Qed.
Lemma hash_loop_len H sha t : forall us n hs us', like_hash_loop H sha t n us = Ok (hs, us') -> length hs = length us.
Proof.
  induction us as [|u us IH]; intros n hs us' E; cbn [like_hash_loop] in E; [injection E as <- <-; reflexivity|]. apply bind_ok in E as ([h u1] & _ & E). apply bind_ok in E as ([hs1 us1] & E1 & E). injection E as <- <-. cbn [length]. f_equal. exact (IH _ _ _ E1).
Qed.

Lemma all2_length {A B} (R : A -> B -> Prop) l m : Forall2 R l m -> length l = length m.
Proof. induction 1; cbn [length]; congruence. Qed.

(** ** Checking *)
Definition sig_valid (decompress : bytes -> bytes) (ecdsa : bytes -> bytes -> bytes -> bool) (p : bytes * sigpub) : Prop := decompress (sp_pub (snd p)) <> [] /\ ecdsa (tl (decompress (sp_pub (snd p)))) (fst p) (sp_sig (snd p)) = true.
Definition no_point (decompress : bytes -> bytes) (p : bytes * sigpub) : Prop := decompress (sp_pub (snd p)) = [].
Lemma check_cases decompress ecdsa : forall sps hs, length hs = length sps -> like_check decompress ecdsa hs sps = Panic <-> meets (sig_valid decompress ecdsa) (no_point decompress) (combine hs sps).
Proof.
  induction sps as [|sp sps IH]; intros hs L; destruct hs as [|h hs]; try discriminate L; cbn [like_check combine].
  - split; [discriminate|]. intros ([|? ?] & x & b & E & _); discriminate.
  - destruct (decompress (sp_pub sp)) as [|c k] eqn:Dk.
    + change (slice_from (@nil Z) 1) with (@Panic bytes). cbn [bind]. split; [intros _|reflexivity]. exists [], (h, sp), (combine hs sps). split; [reflexivity|]. split; [constructor|exact Dk].
    + rewrite slice_from_cons. cbn [bind]. specialize (IH hs ltac:(cbn [length] in L; lia)). destruct (ecdsa k h (sp_sig sp)) eqn:V.
      * rewrite IH. split.
        -- intros (a & x & b & E & F & X). exists ((h, sp) :: a), x, b. split; [cbn [app]; congruence|]. split; [|exact X]. constructor; [|exact F]. split; cbn [fst snd]; rewrite Dk; [discriminate|exact V].
        -- intros (a & x & b & E & F & X). destruct a as [|y a]; cbn [app] in E; injection E as <- E; [unfold no_point in X; cbn [snd] in X; congruence|]. apply Forall_cons_iff in F as [_ F]. exists a, x, b. auto.
      * split; [discriminate|]. intros (a & x & b & E & F & X). exfalso. destruct a as [|y a]; cbn [app] in E; injection E as <- E; [unfold no_point in X; cbn [snd] in X; congruence|]. apply Forall_cons_iff in F as [[_ F] _]. cbn [fst snd] in F. rewrite Dk in F. cbn [tl] in F. congruence.
Qed.
Lemma like_scripts b t : is_bytes b -> like_decode b = Ok t -> Forall (fun i => is_bytes (li_script i)) (l_vins t).
Proof.
  intros B E. assert (G : forall v ins outs ws lt, Forall in_field ins -> Forall (fun i => is_bytes (li_script i)) (l_vins (ltx_of v ins outs ws lt))).
  { intros v ins outs ws lt F. cbn [ltx_of l_vins]. apply Forall_forall. intros x I. apply in_map_iff in I as (s & <- & I). rewrite Forall_forall in F. destruct (F _ I) as (_ & _ & _ & Q & _). exact Q. }
  destruct (Z.eq_dec (nth 4 b 1) 0) as [N|N].
  - apply like_decode_marked in E as (v & ins & outs & wb & ws & lt & (_ & _ & _ & F & _) & _ & _ & _ & _ & ->); [|assumption..]. apply G, F.
  - apply (like_decode_plain b B N) in E as (v & ins & outs & lt & _ & _ & _ & _ & F & _ & _ & ->). apply G, F.
Qed.
Lemma read_rows_cases rows : Forall (fun x : row => is_bytes (li_script (snd (fst x)))) rows ->
  (forall l, mapr read_row rows = Ok l <-> Forall2 row_reads rows l) /\ (mapr read_row rows = Panic <-> meets (fun x => exists o, row_reads x o) row_crash rows).
Proof.
  induction 1 as [|[[w i] u] rows B F [IH1 IH2]]; cbn [mapr]; cbn [fst snd] in *.
  - split; [intros l; split; [intros E; injection E as <-; constructor|intros Q; inversion Q; reflexivity]|]. split; [discriminate|]. intros ([|? ?] & x & b & E & _); discriminate.
  - destruct (read_row_cases w i u B) as [R1 R2]. split.
    + intros l. split.
      * intros E. apply bind_ok in E as (o & E1 & E). apply bind_ok in E as (m & E2 & E). injection E as <-. constructor; [apply R1; exact E1|apply IH1; exact E2].
      * intros Q. inversion Q as [|? o ? m Q1 Q2]; subst. apply R1 in Q1. apply IH1 in Q2. rewrite Q1. cbn [bind]. rewrite Q2. reflexivity.
    + split.
      * intros E. apply bind_panics in E as [E|(o & E1 & E)]; [exists [], (w, i, u), rows; split; [reflexivity|]; split; [constructor|apply R2; exact E]|]. apply bind_panics in E as [E|(? & _ & E)]; [|discriminate].
        apply IH2 in E as (a & x & b & -> & Fa & X). exists ((w, i, u) :: a), x, b. split; [reflexivity|]. split; [constructor; [exists o; apply R1; exact E1|exact Fa]|exact X].
      * intros (a & x & b & E & Fa & X). destruct a as [|y a]; cbn [app] in E; injection E as <- ->; [apply R2 in X; rewrite X; reflexivity|]. apply Forall_cons_iff in Fa as [(o & Fo) Fa]. apply R1 in Fo. rewrite Fo. cbn [bind]. rewrite (proj2 IH2); [reflexivity|]. exists a, x, b. auto.
Qed.

(** ** C156 *)
(** Checking crashes exactly when the text is hex and decoding its bytes crashes, or there is one request per input and the first input without a readable signature is one that ends
    the program, or all are readable and the first request that cannot be hashed is a trap, or all are hashed and a key that is no point is met before a signature that fails. *)
Theorem like_check_crashes_exactly : forall H sha decompress ecdsa txHex us,
  like_verify H sha decompress ecdsa txHex us = Panic <->
  exists b, hex_decode txHex = Ok b /\
  (like_decode b = Panic \/
   exists t, like_decode b = Ok t /\ length us = length (l_vins t) /\
   (meets (fun x => exists o, row_reads x o) row_crash (rows_of t us) \/
    exists l, Forall2 row_reads (rows_of t us) l /\
    (meets (hashable (has_outputs t)) like_hash_trap (map snd l) \/
     exists hs us', like_hashes H sha (unsigned t) (map snd l) = Ok (hs, us') /\ meets (sig_valid decompress ecdsa) (no_point decompress) (combine hs (map fst l))))).
Proof.
  intros H sha decompress ecdsa txHex us. unfold like_verify.
  assert (G : forall x : res bool, match x with Ok b => Ok b | Err => Ok false | Panic => Panic end = Panic <-> x = Panic) by (intros [| |]; split; congruence).
  rewrite G. clear G. rewrite bind_panics. split.
  - intros [E|(b & Eb & E)]; [exfalso; exact (hex_decode_not_panic _ E)|]. exists b. split; [exact Eb|]. destruct (hex_decode_bytes _ _ Eb) as [B _]. apply bind_panics in E as [E|(t & Et & E)]; [left; exact E|]. right. exists t. split; [exact Et|].
    destruct (zlen (l_vins t) =? zlen us) eqn:L; [|discriminate]. cbn [negb] in E. assert (L' : length us = length (l_vins t)) by (unfold zlen in L; lia). split; [exact L'|]. pose proof (like_decoded b t B Et) as Dt. pose proof (like_scripts b t B Et) as Sc.
    rewrite read_stage in E by exact L'. assert (Fr : Forall (fun x : row => is_bytes (li_script (snd (fst x)))) (rows_of t us)).
    { apply Forall_forall. intros [[w i] u] I. cbn [fst snd]. unfold rows_of in I. apply in_combine_l in I. apply in_combine_r in I. rewrite Forall_forall in Sc. exact (Sc i I). }
    destruct (read_rows_cases _ Fr) as [R1 R2]. apply bind_panics in E as [E|([sps us1] & E1 & E)].
    { left. apply R2. apply bind_panics in E as [E|(? & _ & E)]; [exact E|discriminate]. }
    right. apply bind_ok in E1 as (l & El & E1). injection E1 as <- <-. exists l. apply R1 in El. split; [exact El|]. fold (unsigned t) in E.
    assert (Ll : length l = length (l_vins t)) by (apply all2_length in El; rewrite rows_len in El by exact L'; lia).
    apply bind_panics in E as [E|([hs us1] & E1 & E)].
    + left. unfold like_hashes in E. destruct (_ || _); [discriminate|]. apply hash_loop_cases in E; [exact E|destruct Dt as (? & ? & _); split; [assumption|split; [assumption|constructor]]|rewrite map_length; cbn [unsigned l_vins]; lia].
    + right. exists hs, us1. split; [exact E1|]. apply check_cases in E; [exact E|]. unfold like_hashes in E1. destruct (_ || _); [discriminate|]. apply hash_loop_len in E1. rewrite map_length in *. exact E1.
  - intros (b & Eb & D). right. exists b. split; [exact Eb|]. destruct (hex_decode_bytes _ _ Eb) as [B _]. rewrite bind_panics. destruct D as [D|(t & Et & L' & D)]; [left; exact D|]. right. exists t. split; [exact Et|].
    replace (negb (zlen (l_vins t) =? zlen us)) with false by (unfold zlen; lia). pose proof (like_decoded b t B Et) as Dt. pose proof (like_scripts b t B Et) as Sc. rewrite read_stage by exact L'.
    assert (Fr : Forall (fun x : row => is_bytes (li_script (snd (fst x)))) (rows_of t us)).
    { apply Forall_forall. intros [[w i] u] I. cbn [fst snd]. unfold rows_of in I. apply in_combine_l in I. apply in_combine_r in I. rewrite Forall_forall in Sc. exact (Sc i I). }
    destruct (read_rows_cases _ Fr) as [R1 R2]. destruct D as [D|(l & El & D)]; [apply R2 in D; rewrite D; reflexivity|].
    assert (Ll : length l = length (l_vins t)) by (apply all2_length in El; rewrite rows_len in El by exact L'; lia).
    apply R1 in El. rewrite El. cbn [bind]. fold (unsigned t). destruct D as [D|(hs & us1 & E1 & D)].
    + unfold like_hashes. cbn [unsigned l_vins]. assert (l <> []) by (intros ->; destruct D as ([|? ?] & x & q & E & _); discriminate). assert (length l <> 0%nat) by (destruct l; [contradiction|discriminate]).
      replace ((zlen (l_vins t) =? 0) || negb (zlen (l_vins t) =? zlen (map snd l))) with false by (unfold zlen; rewrite map_length; lia). fold (unsigned t).
      rewrite (proj2 (hash_loop_cases H sha (unsigned t) ltac:(destruct Dt as (? & ? & _); split; [assumption|split; [assumption|constructor]]) (map snd l) 0%nat ltac:(rewrite map_length; cbn [unsigned l_vins]; lia)) D). reflexivity.
    + rewrite E1. cbn [bind]. apply check_cases; [|exact D]. unfold like_hashes in E1. destruct (_ || _); [discriminate|]. apply hash_loop_len in E1. rewrite map_length in *. exact E1.
Qed.

(** A transaction without the segwit marker crashes the check only through the requests, or through a key that is no point. *)
Theorem like_check_plain_safe : forall H sha decompress ecdsa txHex us b, (forall k, decompress k <> []) -> hex_decode txHex = Ok b -> nth 4 b 1 <> 0 -> Forall (fun u => ~ like_hash_trap u) us ->
  like_verify H sha decompress ecdsa txHex us <> Panic.
Proof.
  intros H sha decompress ecdsa txHex us b HD Eb N4 NT P. destruct (hex_decode_bytes _ _ Eb) as [B _]. apply like_check_crashes_exactly in P as (b' & Eb' & D). assert (b' = b) by congruence. subst b'. destruct (like_decode_plain b B N4) as [NP _]. destruct D as [D|(t & Et & L & D)]; [contradiction|].
  apply (like_decode_plain b B N4) in Et as (v & ins & outs & lt & _ & _ & _ & _ & _ & _ & _ & ->). set (t := ltx_of v ins outs [] lt) in *.
  assert (R : forall x, In x (rows_of t us) -> fst (fst x) = Some no_sigpub /\ In (snd x) us).
  { intros [[w i] u] I. unfold rows_of in I. split; [|apply in_combine_r in I; exact I]. apply in_combine_l in I. apply in_combine_l in I. cbn [witness_column t ltx_of l_wit] in I. apply repeat_spec in I. cbn [fst]. exact I. }
  destruct D as [(a & [[w i] u] & c & E & _ & X)|(l & F & D)].
  - destruct (R (w, i, u)) as [W _]; [rewrite E; apply in_or_app; right; left; reflexivity|]. cbn [fst] in W. destruct X as [X|(sp & X & N & _)]; [congruence|]. assert (sp = no_sigpub) by congruence. subst sp. apply N. reflexivity.
  - destruct D as [(a & u & c & E & _ & X)|(hs & us' & _ & (a & x & c & _ & _ & X))]; [|exact (HD _ X)].
    assert (S : Forall2 (fun x o => fst (fst x) = Some no_sigpub /\ In (snd x) us /\ row_reads x o) (rows_of t us) l).
    { clear - F R. induction F as [|x o rows l Q F IH]; constructor; [destruct (R x ltac:(left; reflexivity)); auto|]. apply IH. intros y I. apply R. right. exact I. }
    assert (A : Forall (fun u => ~ like_hash_trap u) (map snd l)).
    { rewrite Forall_forall in NT. clear - S NT. induction S as [|[[w i] u] o rows l (W & I & sp & Es & Q) S IH]; cbn [map]; constructor; [|exact IH]. cbn [fst snd] in *. assert (sp = no_sigpub) by congruence. subst sp. destruct Q as [(_ & _ & ->)|[(N & _)|(N & _)]]; [exact (NT u I)|exfalso; apply N; reflexivity..]. }
    rewrite E in A. apply Forall_app in A as [_ A]. apply Forall_cons_iff in A as [A _]. contradiction.
Qed.
(** A transaction that carries some witnesses but not one for each input crashes the check, if the inputs it does carry them for are readable. *)
Theorem missing_witness_crashes : forall H sha decompress ecdsa txHex us b t, hex_decode txHex = Ok b -> like_decode b = Ok t -> length us = length (l_vins t) -> l_wit t <> [] -> (length (l_wit t) < length (l_vins t))%nat ->
  Forall (fun x => exists o, row_reads x o) (combine (combine (map Some (l_wit t)) (l_vins t)) us) ->
  like_verify H sha decompress ecdsa txHex us = Panic.
Proof.
  intros H sha decompress ecdsa txHex us b t Eb Et L W Lw F. apply like_check_crashes_exactly. exists b. split; [exact Eb|]. right. exists t. split; [exact Et|]. split; [exact L|]. left. unfold rows_of.
  assert (C : witness_column (l_wit t) (length (l_vins t)) = map Some (l_wit t) ++ repeat None (length (l_vins t) - length (l_wit t))).
  { unfold witness_column. destruct (l_wit t) as [|w ws]; [contradiction|]. rewrite firstn_all2 by lia. reflexivity. }
  rewrite C. assert (G : forall (ws : list sigpub) (ins : list lin) (us : list lunlock), length us = length ins -> (length ws < length ins)%nat -> Forall (fun x => exists o, row_reads x o) (combine (combine (map Some ws) ins) us) ->
    meets (fun x => exists o, row_reads x o) row_crash (combine (combine (map Some ws ++ repeat None (length ins - length ws)) ins) us)).
  { clear. induction ws as [|w ws IH]; intros ins us L Lw F; destruct ins as [|i ins]; cbn [length] in Lw; try lia; destruct us as [|u us]; try discriminate L.
    - exists [], (None, i, u), (combine (combine (repeat None (length ins)) ins) us). split; [reflexivity|]. split; [constructor|]. left. reflexivity.
    - cbn [map combine] in F. apply Forall_cons_iff in F as [F0 F]. destruct (IH ins us) as (a & x & c & E & Fa & X); [cbn [length] in L; lia|lia|exact F|]. exists ((Some w, i, u) :: a), x, c. split; [cbn [map app combine length Nat.sub]; cbn [app] in E |- *; rewrite E; reflexivity|]. split; [constructor; [exact F0|exact Fa]|exact X]. }
  apply G; assumption.
Qed.

(** ** Concrete cases *)
Definition ex_native (x : Z) : lunlock := ex_like_u (witness_v0_script (repeat x 20)) [] 5.
(** Two native segwit inputs and one witness. *)
Definition ex_short_hex : list Z := hex_encode (le_bytes 4 2 ++ [0; 1; 2] ++ consensus_in (ex_like_in 1) ++ consensus_in (ex_like_in 9) ++ 1 :: consensus_out ex_like_out ++ wit_field (Some ex_like_sp) ++ le_bytes 4 3).
Example missing_witness_example : exists b t, hex_decode ex_short_hex = Ok b /\ like_decode b = Ok t /\ length (l_vins t) = 2%nat /\ l_wit t = [ex_like_sp] /\
  Forall (fun x => exists o, row_reads x o) (combine (combine (map Some (l_wit t)) (l_vins t)) [ex_native 6; ex_native 7]) /\
  like_verify toy_hash toy_hash (fun k => k) (fun _ _ _ => true) ex_short_hex [ex_native 6; ex_native 7] = Panic.
Proof.
  assert (E : exists b t, hex_decode ex_short_hex = Ok b /\ like_decode b = Ok t /\ length (l_vins t) = 2%nat /\ l_wit t = [ex_like_sp]) by (eexists; eexists; split; [vm_compute; reflexivity|]; split; [vm_compute; reflexivity|]; split; vm_compute; reflexivity).
  destruct E as (b & t & Eb & Et & L & W). assert (F : Forall (fun x => exists o, row_reads x o) (combine (combine (map Some (l_wit t)) (l_vins t)) [ex_native 6; ex_native 7])).
  { rewrite W. destruct (l_vins t) as [|i ins]; [discriminate L|]. cbn [map combine]. constructor; [|constructor]. exists (ex_like_sp, ex_native 6). exists ex_like_sp. split; [reflexivity|]. right. left. split; [discriminate|]. split; [apply is_prefix_begins; vm_compute; reflexivity|reflexivity]. }
  exists b, t. repeat (split; [assumption|]). apply (missing_witness_crashes _ _ _ _ _ _ b t Eb Et); [rewrite L; reflexivity|rewrite W; discriminate|rewrite W, L; cbn; lia|exact F].
Qed.
(** A key hash input with its signature: accepted, and a crash when the key is no point. *)
Definition ex_signed_in : spec_in := {| s_txid := s_txid (ex_like_in 1); s_vout := 1; s_script := match encode_script (sp_sig ex_like_sp) (sp_pub ex_like_sp) 1 with Ok s => s | _ => [] end; s_seq := 5 |}.
Definition ex_signed_hex : list Z := hex_encode (le_bytes 4 2 ++ 1 :: consensus_in ex_signed_in ++ 1 :: consensus_out ex_like_out ++ le_bytes 4 3).
Example key_hash_check_example : let u := ex_like_u (p2pkh_script (repeat 3 20)) [] 0 in
  like_verify toy_hash toy_hash (fun k => k) (fun _ _ _ => true) ex_signed_hex [u] = Ok true /\ like_verify toy_hash toy_hash (fun k => []) (fun _ _ _ => true) ex_signed_hex [u] = Panic /\
  (exists b, hex_decode ex_signed_hex = Ok b /\ nth 4 b 1 <> 0) /\ ~ like_hash_trap u.
Proof.
  cbv zeta. split; [vm_compute; reflexivity|]. split; [vm_compute; reflexivity|]. split; [eexists; split; [vm_compute; reflexivity|cbv; discriminate]|].
  intros (lock & E & D). assert (lock = p2pkh_script (repeat 3 20)) by (assert (Q : hex_decode (lu_lock (ex_like_u (p2pkh_script (repeat 3 20)) [] 0)) = Ok (p2pkh_script (repeat 3 20))) by (vm_compute; reflexivity); congruence). subst lock.
  destruct D as [[_ D]|[[_ D]|(h & e & _ & D & _)]]; [cbv in D; intuition discriminate|cbv in D; discriminate|discriminate D].
Qed.
(** A lock of the script hash kind without redeem script: a crash. *)
Example trap_check_example : like_verify toy_hash toy_hash (fun k => k) (fun _ _ _ => true) ex_signed_hex [ex_like_u (p2sh_script (repeat 4 20)) [] 77] = Panic.
Proof. vm_compute. reflexivity. Qed.
Print Assumptions like_check_crashes_exactly.
Print Assumptions like_check_plain_safe.
Print Assumptions missing_witness_crashes.
