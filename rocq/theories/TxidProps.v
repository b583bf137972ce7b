(** GetTxID on decoded transactions: what a sequence of calls returns and what it leaves in the caller's bytes. *)
From Coq Require Import ZArith List Bool Lia ZifyBool ZifyNat.
From Verif Require Import Go GoFacts GoFacts2 Rd Base58CheckModel Base58CheckSpec Base58CheckProofs Base58CheckProps BtcModel BtcSpec BtcProofs BtcTxProofs BtcTxProps LikeModel LikeProofs LikeProps LikeSigProofs LikeSigProps LikeInsProps TxidModel Toy.
Import ListNotations.
Open Scope Z_scope.
Ltac Zify.zify_post_hook ::= idtac.

(** ** Specification *)
(** The input with the bytes of the previous transaction id the other way round. *)
Definition turned (i : spec_in) : spec_in := {| s_txid := rev (s_txid i); s_vout := s_vout i; s_script := s_script i; s_seq := s_seq i |}.
Definition calls_of (n : nat) (calls : list nat) : nat := count_occ Nat.eq_dec calls n.
(** A serialised transaction up to its inputs, with or without the witness marker, followed by anything. *)
Definition tx_head (version : Z) (marker : bool) (ins : list spec_in) (rest : bytes) : bytes :=
  le_bytes 4 version ++ (if marker then [0; 1] else []) ++ zlen ins :: concat (map wire_spec_in ins) ++ rest.
(** The inputs after a history of calls. *)
Definition after_calls (calls : list nat) (ins ins' : list spec_in) : Prop :=
  length ins' = length ins /\ forall n i, nth_error ins n = Some i -> nth_error ins' n = Some (if Nat.even (calls_of n calls) then i else turned i).
(** What the calls return: the id as displayed if the input was asked an even number of times before, else its mirror image. *)
Definition answered (calls : list nat) (ins : list spec_in) (texts : list (list Z)) : Prop :=
  length texts = length calls /\ forall k n, nth_error calls k = Some n ->
    exists i, nth_error ins n = Some i /\ nth_error texts k = Some (hex_encode (if Nat.even (calls_of n (firstn k calls)) then rev (s_txid i) else s_txid i)).

(** ** The loop reverses *)
Lemma put_mid (a : bytes) x b i v : i = zlen a -> put (a ++ x :: b) i v = Ok (a ++ v :: b).
Proof.
  intros ->. unfold put. pose proof (zlen_nonneg a). rewrite zlen_app, zlen_cons. pose proof (zlen_nonneg b). replace (_ && _) with true by lia.
  replace (Z.to_nat (zlen a)) with (length a) by (unfold zlen; lia). rewrite firstn_app, firstn_all, Nat.sub_diag. cbn [firstn]. rewrite app_nil_r.
  rewrite skipn_app. rewrite skipn_all2 by lia. replace (S (length a) - length a)%nat with 1%nat by lia. reflexivity.
Qed.
Lemma reverse_loop_ok : forall fuel (s a c : bytes) i j, i = zlen a -> j = zlen a + zlen s - 1 -> (length s <= fuel)%nat -> reverse_loop fuel (a ++ s ++ c) i j = Ok (a ++ rev s ++ c).
Proof.
  induction fuel as [|f IH]; intros s a c i j -> -> L.
  - destruct s; [|cbn in L; lia]. cbn [reverse_loop]. change (zlen (@nil Z)) with 0. replace (zlen a <? zlen a + 0 - 1) with false by lia. reflexivity.
  - destruct s as [|x s]; [cbn [reverse_loop]; change (zlen (@nil Z)) with 0; replace (zlen a <? zlen a + 0 - 1) with false by lia; reflexivity|].
    assert (K : s = [] \/ exists m y, s = m ++ [y]) by (clear; destruct s using rev_ind; [left; reflexivity|right; eauto]).
    destruct K as [->|(m & y & ->)]; [cbn [reverse_loop]; change (zlen [x]) with 1; replace (zlen a <? zlen a + 1 - 1) with false by lia; reflexivity|].
    cbn [reverse_loop]. assert (Z1 : zlen (x :: m ++ [y]) = zlen m + 2) by (rewrite zlen_cons, zlen_app; change (zlen [y]) with 1; lia). rewrite Z1. pose proof (zlen_nonneg m).
    replace (zlen a <? zlen a + (zlen m + 2) - 1) with true by lia.
    change (a ++ (x :: m ++ [y]) ++ c) with (a ++ x :: ((m ++ [y]) ++ c)). rewrite idx_mid by reflexivity. cbn [bind].
    replace (a ++ x :: (m ++ [y]) ++ c) with ((a ++ x :: m) ++ y :: c) at 1 by (rewrite <- !app_assoc; reflexivity). rewrite idx_mid by (rewrite zlen_app, zlen_cons; lia). cbn [bind].
    rewrite put_mid by reflexivity. cbn [bind]. replace (a ++ y :: (m ++ [y]) ++ c) with ((a ++ y :: m) ++ y :: c) by (rewrite <- !app_assoc; reflexivity). rewrite put_mid by (rewrite zlen_app, zlen_cons; lia). cbn [bind].
    replace ((a ++ y :: m) ++ x :: c) with ((a ++ [y]) ++ m ++ x :: c) by (rewrite <- !app_assoc; reflexivity).
    rewrite IH; [|rewrite zlen_app; reflexivity|rewrite zlen_app; change (zlen [y]) with 1; lia|cbn [length] in L; rewrite app_length in L; cbn [length] in L; lia].
    f_equal. cbn [rev]. rewrite rev_app_distr. cbn [rev app]. rewrite <- !app_assoc. reflexivity.
Qed.
Lemma get_txid_ok (a s c : bytes) : zlen s = 32 -> get_txid (a ++ s ++ c) (zlen a) = Ok (hex_encode (rev s), a ++ rev s ++ c).
Proof.
  intros L. unfold get_txid, reverse_in_place. rewrite (reverse_loop_ok _ s a c) by (reflexivity || lia || (unfold zlen in L; lia)). cbn [bind].
  rewrite (slice_mid a (rev s) c); [reflexivity|reflexivity|]. unfold zlen in *. rewrite rev_length. lia.
Qed.
(** ** Where the ids lie *)
Definition spot (version : Z) (marker : bool) (ins : list spec_in) (n : nat) : Z := 5 + (if marker then 2 else 0) + zlen (concat (map wire_spec_in (firstn n ins))).
Lemma wire_in_len i : zlen (s_txid i) = 32 -> zlen (wire_spec_in i) = 41 + zlen (s_script i).
Proof. intros L. unfold wire_spec_in. rewrite !zlen_app, zlen_cons, zlen_app, !zlen_le_bytes. lia. Qed.
Lemma walk_ok : forall n ins (pre rest : bytes) index, Forall (fun i => zlen (s_txid i) = 32) ins -> index = zlen pre -> (n < length ins)%nat ->
  txid_walk (pre ++ concat (map wire_spec_in ins) ++ rest) n index = Ok (index + zlen (concat (map wire_spec_in (firstn n ins)))).
Proof.
  induction n as [|n IH]; intros ins pre rest index F -> L; (destruct ins as [|i ins]; [cbn in L; lia|]).
  - cbn [txid_walk firstn map concat]. change (zlen (@nil Z)) with 0. f_equal. lia.
  - apply Forall_cons_iff in F as [Fi F]. cbn [txid_walk firstn map concat]. pose proof (wire_in_len i Fi) as W.
    assert (P : pre ++ (wire_spec_in i ++ concat (map wire_spec_in ins)) ++ rest = (pre ++ s_txid i ++ le_bytes 4 (s_vout i)) ++ zlen (s_script i) :: (s_script i ++ le_bytes 4 (s_seq i)) ++ concat (map wire_spec_in ins) ++ rest) by (unfold wire_spec_in; rewrite <- !app_assoc; cbn [app]; rewrite <- !app_assoc; reflexivity).
    rewrite P at 1. rewrite idx_mid by (rewrite !zlen_app, zlen_le_bytes; lia). cbn [bind].
    replace (pre ++ (wire_spec_in i ++ concat (map wire_spec_in ins)) ++ rest) with ((pre ++ wire_spec_in i) ++ concat (map wire_spec_in ins) ++ rest) by (rewrite <- !app_assoc; reflexivity).
    rewrite IH; [|exact F|rewrite zlen_app; lia|cbn in L; lia]. f_equal. rewrite zlen_app. lia.
Qed.
Lemma offset_ok version marker ins rest n : Forall (fun i => zlen (s_txid i) = 32) ins -> (n < length ins)%nat -> txid_offset (tx_head version marker ins rest) n = Ok (spot version marker ins n).
Proof.
  intros F L. unfold txid_offset, tx_head. pose proof (zlen_le_bytes 4 version) as V.
  destruct marker; cbn [app].
  - rewrite idx_mid by (rewrite V; reflexivity). cbn [bind]. change (0 =? 0) with true. cbv iota.
    replace (le_bytes 4 version ++ 0 :: 1 :: zlen ins :: concat (map wire_spec_in ins) ++ rest) with ((le_bytes 4 version ++ [0; 1; zlen ins]) ++ concat (map wire_spec_in ins) ++ rest) by (rewrite <- !app_assoc; reflexivity).
    rewrite walk_ok; [unfold spot; f_equal; lia|exact F|rewrite zlen_app, V; reflexivity|exact L].
  - rewrite idx_mid by (rewrite V; reflexivity). cbn [bind]. replace (zlen ins =? 0) with false by (unfold zlen; lia). cbv iota.
    replace (le_bytes 4 version ++ zlen ins :: concat (map wire_spec_in ins) ++ rest) with ((le_bytes 4 version ++ [zlen ins]) ++ concat (map wire_spec_in ins) ++ rest) by (rewrite <- !app_assoc; reflexivity).
    rewrite walk_ok; [unfold spot; f_equal; lia|exact F|rewrite zlen_app, V; reflexivity|exact L].
Qed.
(** ** One call *)
Definition turn_at (n : nat) (ins : list spec_in) : list spec_in := match nth_error ins n with Some i => firstn n ins ++ turned i :: skipn (S n) ins | None => ins end.
Lemma nth_split (ins : list spec_in) n i : nth_error ins n = Some i -> ins = firstn n ins ++ i :: skipn (S n) ins /\ length (firstn n ins) = n.
Proof.
  revert ins. induction n as [|n IH]; intros [|a ins] E; try discriminate E.
  - cbn in E. injection E as ->. split; reflexivity.
  - cbn [nth_error] in E. destruct (IH _ E) as [E1 E2]. cbn [firstn skipn]. split; [cbn [app]; f_equal; exact E1|cbn [length]; lia].
Qed.
Lemma turn_nth n ins m : nth_error (turn_at n ins) m = if Nat.eq_dec n m then option_map turned (nth_error ins m) else nth_error ins m.
Proof.
  unfold turn_at. destruct (nth_error ins n) as [i|] eqn:E; [|destruct (Nat.eq_dec n m) as [<-|]; [rewrite E; reflexivity|reflexivity]].
  destruct (nth_split _ _ _ E) as [E1 E2]. destruct (Nat.eq_dec n m) as [<-|D].
  - rewrite E. rewrite nth_error_app2 by lia. rewrite E2, Nat.sub_diag. reflexivity.
  - set (a := firstn n ins) in *. set (c := skipn (S n) ins) in *. clearbody a c. subst ins. destruct (Nat.lt_ge_cases m n) as [Lt|Ge].
    + rewrite !nth_error_app1 by lia. reflexivity.
    + rewrite !nth_error_app2 by lia. rewrite E2. destruct (m - n)%nat eqn:Q; [lia|reflexivity].
Qed.
Lemma turn_len n ins : length (turn_at n ins) = length ins.
Proof. unfold turn_at. destruct (nth_error ins n) as [i|] eqn:E; [|reflexivity]. destruct (nth_split _ _ _ E) as [E1 E2]. set (a := firstn n ins) in *. set (c := skipn (S n) ins) in *. clearbody a c. subst ins. rewrite !app_length. reflexivity. Qed.
Lemma turn_txid n ins : Forall (fun i => zlen (s_txid i) = 32) ins -> Forall (fun i => zlen (s_txid i) = 32) (turn_at n ins).
Proof.
  intros F. unfold turn_at. destruct (nth_error ins n) as [i|] eqn:E; [|exact F]. destruct (nth_split _ _ _ E) as [E1 _]. rewrite E1 in F. apply Forall_app in F as [F1 F2]. apply Forall_cons_iff in F2 as [F2 F3].
  apply Forall_app. split; [exact F1|]. constructor; [|exact F3]. cbn [turned s_txid]. unfold zlen in *. rewrite rev_length. exact F2.
Qed.
Lemma turn_wire n ins : Forall (fun i => zlen (s_txid i) = 32) ins -> forall m, zlen (concat (map wire_spec_in (firstn m (turn_at n ins)))) = zlen (concat (map wire_spec_in (firstn m ins))).
Proof.
  intros F m. unfold turn_at. destruct (nth_error ins n) as [i|] eqn:E; [|reflexivity]. destruct (nth_split _ _ _ E) as [E1 E2]. rewrite E1 in F. apply Forall_app in F as [F1 F2]. apply Forall_cons_iff in F2 as [F2 F3].
  set (a := firstn n ins) in *. set (c := skipn (S n) ins) in *. clearbody a c. subst ins. rewrite !firstn_app, !map_app, !concat_app, !zlen_app. f_equal. destruct (m - _)%nat; [reflexivity|]. cbn [firstn map concat]. rewrite !zlen_app. f_equal.
  rewrite (wire_in_len i F2). rewrite wire_in_len by (cbn [turned s_txid]; unfold zlen in *; rewrite rev_length; exact F2). reflexivity.
Qed.
Lemma one_call version marker ins rest n i : Forall (fun i => zlen (s_txid i) = 32) ins -> nth_error ins n = Some i ->
  get_txid (tx_head version marker ins rest) (spot version marker ins n) = Ok (hex_encode (rev (s_txid i)), tx_head version marker (turn_at n ins) rest).
Proof.
  intros F E. destruct (nth_split _ _ _ E) as [E1 E2]. assert (Li : zlen (s_txid i) = 32) by (rewrite E1 in F; apply Forall_app in F as [_ F]; apply Forall_cons_iff in F as [F _]; exact F).
  set (a := le_bytes 4 version ++ (if marker then [0; 1] else []) ++ [zlen ins] ++ concat (map wire_spec_in (firstn n ins))).
  set (c := (le_bytes 4 (s_vout i) ++ zlen (s_script i) :: s_script i ++ le_bytes 4 (s_seq i)) ++ concat (map wire_spec_in (skipn (S n) ins)) ++ rest).
  assert (A : tx_head version marker ins rest = a ++ s_txid i ++ c).
  { unfold tx_head, a, c. rewrite E1 at 2. rewrite map_app, concat_app. cbn [map concat]. unfold wire_spec_in at 2. rewrite <- !app_assoc. cbn [app]. rewrite <- !app_assoc. reflexivity. }
  assert (T : tx_head version marker (turn_at n ins) rest = a ++ rev (s_txid i) ++ c).
  { unfold tx_head, a, c. assert (Z1 : zlen (turn_at n ins) = zlen ins) by (unfold zlen; rewrite turn_len; reflexivity). rewrite Z1. unfold turn_at. rewrite E. rewrite map_app, concat_app. cbn [map concat]. unfold wire_spec_in at 2. cbn [turned s_txid s_vout s_script s_seq]. rewrite <- !app_assoc. cbn [app]. rewrite <- !app_assoc. reflexivity. }
  assert (Z0 : spot version marker ins n = zlen a) by (unfold spot, a; rewrite !zlen_app, zlen_le_bytes; change (zlen [zlen ins]) with 1; destruct marker; [change (zlen [0; 1]) with 2|change (zlen (@nil Z)) with 0]; lia).
  rewrite A, T, Z0. apply get_txid_ok, Li.
Qed.
(** ** C121 *)
(** Every history of calls on the inputs of a decoded transaction: the answers, and the bytes afterwards. *)
Theorem get_txid_history : forall version marker ins rest calls, Forall (fun i => zlen (s_txid i) = 32) ins -> Forall (fun n => (n < length ins)%nat) calls ->
  exists texts ins', txid_session (tx_head version marker ins rest) calls = Ok (texts, tx_head version marker ins' rest) /\ answered calls ins texts /\ after_calls calls ins ins'.
Proof.
  intros version marker ins rest calls F C. unfold txid_session.
  assert (O : mapr (txid_offset (tx_head version marker ins rest)) calls = Ok (map (spot version marker ins) calls)).
  { clear - F C. induction C as [|n l A C IH]; [reflexivity|]. cbn [mapr map]. rewrite offset_ok by assumption. cbn [bind]. rewrite IH. reflexivity. }
  rewrite O. cbn [bind]. clear O.
  assert (G : forall ins0, (forall n, spot version marker ins0 n = spot version marker ins n) -> Forall (fun i => zlen (s_txid i) = 32) ins0 -> Forall (fun n => (n < length ins0)%nat) calls ->
    exists texts ins', txid_calls (tx_head version marker ins0 rest) (map (spot version marker ins) calls) = Ok (texts, tx_head version marker ins' rest) /\ answered calls ins0 texts /\ after_calls calls ins0 ins').
  { clear C F. induction calls as [|n calls IH]; intros ins0 S0 F C.
    - exists [], ins0. split; [reflexivity|]. split; [split; [reflexivity|intros [|] ? E; discriminate E]|]. split; [reflexivity|]. intros n i E. exact E.
    - apply Forall_cons_iff in C as [Cn C]. destruct (nth_error ins0 n) as [i|] eqn:E; [|apply nth_error_None in E; lia]. cbn [map txid_calls]. rewrite <- S0, (one_call version marker ins0 rest n i F E). cbn [bind].
      destruct (IH (turn_at n ins0)) as (texts & ins' & E1 & (A1 & A2) & (B1 & B2)).
      { intros m. rewrite <- S0. unfold spot. rewrite turn_wire by exact F. reflexivity. } { apply turn_txid, F. } { rewrite turn_len. exact C. }
      rewrite E1. cbn [bind]. exists (hex_encode (rev (s_txid i)) :: texts), ins'. split; [reflexivity|]. split; [split; [cbn [length]; rewrite A1; reflexivity|]|split; [rewrite B1; apply turn_len|]].
      + intros [|k] m Em; cbn [nth_error] in Em.
        * injection Em as <-. exists i. split; [exact E|]. reflexivity.
        * destruct (A2 k m Em) as (x & X1 & X2). rewrite turn_nth in X1. unfold calls_of in *. cbn [firstn count_occ]. cbn [nth_error]. rewrite X2. destruct (Nat.eq_dec n m) as [D|D].
          -- destruct (nth_error ins0 m) as [y|] eqn:Ey; [|discriminate X1]. cbn [option_map] in X1. assert (x = turned y) by congruence. subst x. exists y. split; [reflexivity|]. rewrite Nat.even_succ, <- Nat.negb_even. destruct (Nat.even _); cbn [negb turned s_txid]; [rewrite rev_involutive|]; reflexivity.
          -- exists x. split; [exact X1|reflexivity].
      + intros m y Ey. unfold calls_of in *. cbn [count_occ]. destruct (Nat.eq_dec n m) as [D|D].
        * rewrite (B2 m (turned y)) by (rewrite turn_nth; destruct (Nat.eq_dec n m); [rewrite Ey; reflexivity|contradiction]). rewrite Nat.even_succ, <- Nat.negb_even. destruct (Nat.even _); cbn [negb]; [reflexivity|]. unfold turned. cbn [s_txid s_vout s_script s_seq]. rewrite rev_involutive. destruct y; reflexivity.
        * apply B2. rewrite turn_nth. destruct (Nat.eq_dec n m); [contradiction|exact Ey]. }
  apply G; [reflexivity|exact F|exact C].
Qed.
(** So the first answer for an input is the id the transaction was created with, a second answer is its mirror image, and
    reading the same bytes again after an odd number of calls gives a transaction that spends something else. *)
Theorem get_txid_corrupts : forall version ins outs lt calls, tx_fits ins outs -> Forall (fun s => zlen (s_script s) <= 252) ins -> Forall (fun n => (n < length ins)%nat) calls ->
  exists texts ins', txid_session (consensus_tx version ins outs lt) calls = Ok (texts, consensus_tx version ins' outs lt) /\ answered calls ins texts /\ after_calls calls ins ins' /\
    like_decode (consensus_tx version ins outs lt) = Ok (ltx_of version ins outs [] lt) /\ like_decode (consensus_tx version ins' outs lt) = Ok (ltx_of version ins' outs [] lt) /\
    (consensus_tx version ins' outs lt = consensus_tx version ins outs lt <->
     forall n i, nth_error ins n = Some i -> Nat.odd (calls_of n calls) = true -> rev (s_txid i) = s_txid i).
Proof.
  intros version ins outs lt calls T Fs C. pose proof T as (Ni & No & Fi & Fo).
  destruct (get_txid_history version false ins (zlen outs :: concat (map wire_spec_out outs) ++ le_bytes 4 lt) calls Fi C) as (texts & ins' & E & A & B). pose proof B as (B1 & B2).
  assert (P : forall (Q : spec_in -> Prop), (forall i, Q i -> Q (turned i)) -> Forall Q ins -> Forall Q ins').
  { intros Q HQ F. apply Forall_forall. intros x I. apply In_nth_error in I as (n & I). destruct (nth_error ins n) as [i|] eqn:Ei.
    - rewrite (B2 n i Ei) in I. assert (Qi : Q i) by (apply (proj1 (Forall_forall Q ins) F); exact (nth_error_In _ _ Ei)). destruct (Nat.even _); injection I as <-; [exact Qi|apply HQ, Qi].
    - apply nth_error_None in Ei. assert (n < length ins')%nat by (apply nth_error_Some; rewrite I; discriminate). lia. }
  assert (Fi' : Forall (fun s => zlen (s_txid s) = 32) ins') by (apply P; [intros i Li; cbn [turned s_txid]; unfold zlen in *; rewrite rev_length; exact Li|exact Fi]).
  assert (Fs' : Forall (fun s => zlen (s_script s) <= 252) ins') by (apply P; [intros i Li; exact Li|exact Fs]).
  assert (Zl : zlen ins' = zlen ins) by (unfold zlen; rewrite B1; reflexivity).
  assert (T' : tx_fits ins' outs) by (unfold tx_fits; rewrite Zl; split; [exact Ni|]; split; [exact No|]; split; assumption).
  assert (W : tx_head version false ins (zlen outs :: concat (map wire_spec_out outs) ++ le_bytes 4 lt) = consensus_tx version ins outs lt) by (rewrite <- wire_is_consensus by (assumption || lia); reflexivity).
  assert (W' : tx_head version false ins' (zlen outs :: concat (map wire_spec_out outs) ++ le_bytes 4 lt) = consensus_tx version ins' outs lt) by (rewrite <- wire_is_consensus by (assumption || lia); reflexivity).
  rewrite W, W' in E. pose proof (decode_plain_tx version ins outs lt T Fs) as D. pose proof (decode_plain_tx version ins' outs lt T' Fs') as D'.
  exists texts, ins'. split; [exact E|]. split; [exact A|]. split; [exact B|]. split; [exact D|]. split; [exact D'|]. split.
  - intros Eq n i Ei O. rewrite Eq, D in D'. apply (f_equal (fun r => match r with Ok t => map li_txid (l_vins t) | _ => [] end)) in D'. cbn [ltx_of l_vins] in D'. rewrite !map_map in D'. apply (f_equal (fun l => nth_error l n)) in D'. rewrite !nth_error_map, Ei, (B2 n i Ei) in D'. rewrite <- Nat.negb_even in O. apply negb_true_iff in O. rewrite O in D'. cbn [option_map lin_of li_txid turned s_txid] in D'. congruence.
  - intros Q. f_equal. apply nth_ext with (d := {| s_txid := []; s_vout := 0; s_script := []; s_seq := 0 |}) (d' := {| s_txid := []; s_vout := 0; s_script := []; s_seq := 0 |}); [exact B1|]. intros n Ln. destruct (nth_error ins n) as [i|] eqn:Ei; [|apply nth_error_None in Ei; lia].
    rewrite (nth_error_nth ins n _ Ei). rewrite (nth_error_nth ins' n _ (B2 n i Ei)). destruct (Nat.even (calls_of n calls)) eqn:Ev; [reflexivity|]. specialize (Q n i Ei). rewrite <- Nat.negb_even, Ev in Q. specialize (Q eq_refl). unfold turned. rewrite Q. destruct i; reflexivity.
Qed.
(** From creation on: the first question for an input gives back the id of the request in lower case, the second its mirror image. *)
Theorem get_txid_of_created : forall H sha vins vouts lt r hexs b n v, hash_ok H -> Forall vin_typed vins -> Forall vout_typed vouts -> zlen vins <= 252 -> zlen vouts <= 252 ->
  like_create H sha vins vouts lt r = Ok hexs -> hex_decode hexs = Ok b -> nth_error vins n = Some v ->
  exists id b', hex_decode (v_txid v) = Ok id /\ txid_session b [n] = Ok ([hex_encode id], b') /\ txid_session b [n; n] = Ok ([hex_encode id; hex_encode (rev id)], b).
Proof.
  intros H sha vins vouts lt r hexs b n v HH TI TO Ni No E Eb En. pose proof E as E0. apply like_create_iff in E0 as (N1 & N2 & _); try assumption. destruct (like_created_decodes H sha vins vouts lt r hexs HH TI TO Ni No E) as (ins & outs & Fi & Fo & D & _).
  assert (b = consensus_tx 2 ins outs lt) by congruence. subst b. destruct (spends_ok _ _ _ _ TI Fi) as (S1 & _ & S2). destruct (like_locks _ _ _ TO Fo) as (L1 & _).
  pose proof (Forall2_len _ _ _ Fi) as LI. pose proof (Forall2_len _ _ _ Fo) as LO. pose proof (zlen_pos _ N1). pose proof (zlen_pos _ N2).
  assert (T : tx_fits ins outs) by (split; [lia|]; split; [lia|]; split; [eapply Forall_impl; [|exact S1]; cbn; tauto|eapply Forall_impl; [|exact L1]; cbn; intros; lia]).
  assert (Fs : Forall (fun s => zlen (s_script s) <= 252) ins) by (eapply Forall_impl; [|exact S1]; cbn; intros s [_ ->]; cbv; discriminate).
  assert (Hi : exists i, nth_error ins n = Some i /\ spends lt r v i).
  { clear - Fi En. revert n En. induction Fi as [|a i l l' P F IH]; intros [|n] En; try discriminate En; cbn [nth_error] in *; [injection En as <-; eauto|apply IH, En]. }
  destruct Hi as (i & Ei & Sp & _). assert (Ln : (n < length ins)%nat) by (apply nth_error_Some; rewrite Ei; discriminate).
  exists (rev (s_txid i)).
  destruct (get_txid_corrupts 2 ins outs lt [n] T Fs ltac:(repeat constructor; exact Ln)) as (t1 & i1 & Q1 & (A1 & A2) & _).
  destruct (get_txid_corrupts 2 ins outs lt [n; n] T Fs ltac:(repeat constructor; exact Ln)) as (t2 & i2 & Q2 & (C1 & C2) & _ & _ & _ & M).
  exists (consensus_tx 2 i1 outs lt). split; [exact Sp|]. split.
  - rewrite Q1. destruct t1 as [|x [|]]; try discriminate A1. destruct (A2 0%nat n eq_refl) as (j & J1 & J2). assert (j = i) by congruence. subst j. cbn [nth_error] in J2. injection J2 as ->. reflexivity.
  - rewrite Q2. destruct t2 as [|x [|y [|]]]; try discriminate C1. destruct (C2 0%nat n eq_refl) as (j & J1 & J2). assert (j = i) by congruence. subst j. destruct (C2 1%nat n eq_refl) as (j & J3 & J4). assert (j = i) by congruence. subst j. cbn [nth_error firstn] in J2, J4.
    injection J2 as ->. unfold calls_of in J4. cbn [count_occ] in J4. destruct (Nat.eq_dec n n); [|contradiction]. cbn [Nat.even] in J4. injection J4 as ->. rewrite rev_involutive. f_equal. f_equal. apply M.
    intros m k _ O. unfold calls_of in O. cbn [count_occ] in O. destruct (Nat.eq_dec n m); discriminate O.
Qed.

(** ** Concrete case *)
Example txid_example : exists texts b', txid_session (consensus_tx 2 [ex_like_in 1; ex_like_in 2] [ex_like_out] 3) [1%nat; 0%nat; 1%nat; 1%nat] = Ok (texts, b') /\ length texts = 4%nat.
Proof.
  destruct (get_txid_corrupts 2 [ex_like_in 1; ex_like_in 2] [ex_like_out] 3 [1%nat; 0%nat; 1%nat; 1%nat]) as (texts & ins' & E & (A & _) & _).
  - split; [cbv; split; discriminate|]. split; [cbv; split; discriminate|]. split; [repeat (constructor; [reflexivity|]); constructor|]. repeat (constructor; [cbv; discriminate|]). constructor.
  - repeat (constructor; [cbv; discriminate|]). constructor.
  - repeat (constructor; [cbn; lia|]). constructor.
  - exists texts, (consensus_tx 2 ins' [ex_like_out] 3). split; [exact E|exact A].
Qed.
Example txid_turned_example : rev (s_txid {| s_txid := 7 :: zeros 31; s_vout := 0; s_script := []; s_seq := 0 |}) <> 7 :: zeros 31.
Proof. cbv. discriminate. Qed.
Print Assumptions get_txid_history.
Print Assumptions get_txid_corrupts.
Print Assumptions get_txid_of_created.
