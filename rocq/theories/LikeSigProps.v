(** btcLikeTxDriver: the hashes to sign. Specification [like_signs], [like_hash_trap] in LikeSigProofs.v. *)
From Coq Require Import String ZArith List Bool Lia ZifyBool ZifyNat.
From Verif Require Import Go GoFacts GoFacts2 Rd Base58CheckModel BtcModel BtcSpec BtcProofs BtcTxProofs BtcTxProps BtcSigProps SigModel SigDerProps LikeModel LikeProofs LikeProps LikeSigProofs Toy.
Import ListNotations.
Open Scope Z_scope.
Ltac Zify.zify_post_hook ::= idtac.

Definition tx_fits (ins : list spec_in) (outs : list spec_out) : Prop :=
  1 <= zlen ins <= 252 /\ 1 <= zlen outs <= 252 /\ Forall (fun s => zlen (s_txid s) = 32) ins /\ Forall (fun s => zlen (s_lock s) <= 252) outs.
Lemma hash_loop_iff H sha version ins outs lt : tx_fits ins outs -> forall us n hs us', Forall redeem_small us ->
  like_hash_loop H sha (ltx_of version ins outs [] lt) n us = Ok (hs, us') <-> exists l, hs = map fst l /\ us' = map snd l /\ pointwise (like_signs H version ins outs lt) n us l.
Proof.
  intros (Ni & No & Fi & Fo). induction us as [|u us IH]; intros n hs us' F; cbn [like_hash_loop].
  - split.
    + intros E. exists []. assert (hs = [] /\ us' = []) as [-> ->] by (split; congruence). split; [reflexivity|]. split; [reflexivity|constructor].
    + intros (l & -> & -> & P). inversion P; subst. reflexivity.
  - apply Forall_cons_iff in F as [Fu F]. pose proof (hash_iff H sha version ins outs lt n u) as One. split.
    + intros E. apply bind_ok in E as ([h u1] & Eh & E). apply bind_ok in E as ([hs1 us1] & Er & E). apply One in Eh; try assumption. apply IH in Er as (l & -> & -> & P); [|exact F].
      exists ((h, u1) :: l). cbn [map fst snd]. split; [congruence|]. split; [congruence|]. constructor; assumption.
    + intros (l & -> & -> & P). inversion P as [|? ? [h u1] ? l1 P1 P2]; subst. rewrite (proj2 (One (h, u1) Ni No Fi Fo Fu) P1). cbn [bind map fst snd].
      rewrite (proj2 (IH (S n) (map fst l1) (map snd l1) F)) by eauto. reflexivity.
Qed.
Lemma hash_loop_panic H sha version ins outs lt : tx_fits ins outs -> forall us n, Forall redeem_small us -> (n + length us <= length ins)%nat ->
  like_hash_loop H sha (ltx_of version ins outs [] lt) n us = Panic <->
  exists k u, nth_error us k = Some u /\ like_hash_trap u /\ forall j v, (j < k)%nat -> nth_error us j = Some v -> exists p, like_signs H version ins outs lt (n + j) v p.
Proof.
  intros (Ni & No & Fi & Fo). induction us as [|u us IH]; intros n F L; cbn [like_hash_loop].
  - split; [discriminate|]. intros (k & u & E & _). destruct k; discriminate E.
  - apply Forall_cons_iff in F as [Fu F]. cbn [length] in L. pose proof (hash_iff H sha version ins outs lt n u) as One. pose proof (hash_panic H sha version ins outs lt n u Ni No Fi Fo ltac:(lia)) as Pan.
    destruct (like_hash H sha (ltx_of version ins outs [] lt) n u) as [[h u1]| |] eqn:Eh; cbn [bind].
    + assert (S1 : like_signs H version ins outs lt n u (h, u1)) by (apply One; try assumption; reflexivity). specialize (IH (S n) F ltac:(lia)).
      split.
      * intros E. assert (P : like_hash_loop H sha (ltx_of version ins outs [] lt) (S n) us = Panic) by (destruct (like_hash_loop H sha (ltx_of version ins outs [] lt) (S n) us) as [[]| |]; [discriminate E|discriminate E|reflexivity]).
        apply IH in P as (k & v & E1 & T & Q). exists (S k), v. split; [exact E1|]. split; [exact T|]. intros j w Hj Ej. destruct j as [|j]; cbn [nth_error] in Ej.
        -- assert (w = u) by congruence. subst w. rewrite Nat.add_0_r. eauto.
        -- replace (n + S j)%nat with (S n + j)%nat by lia. apply (Q j w); [lia|exact Ej].
      * intros (k & v & E1 & T & Q). destruct k as [|k]; cbn [nth_error] in E1.
        -- exfalso. assert (v = u) by congruence. subst v. apply Pan in T. discriminate T.
        -- rewrite (proj2 IH); [reflexivity|]. exists k, v. split; [exact E1|]. split; [exact T|]. intros j w Hj Ej. replace (S n + j)%nat with (n + S j)%nat by lia. apply (Q (S j) w); [lia|exact Ej].
    + split; [discriminate|]. intros (k & v & E1 & T & Q). destruct k as [|k]; cbn [nth_error] in E1.
      * assert (v = u) by congruence. subst v. apply Pan in T. discriminate T.
      * destruct (Q 0%nat u ltac:(lia) eq_refl) as (p & S1). rewrite Nat.add_0_r in S1. apply One in S1; try assumption. discriminate S1.
    + split; [|reflexivity]. intros _. exists 0%nat, u. split; [reflexivity|]. split; [apply Pan; reflexivity|]. intros j w Hj. lia.
Qed.
Lemma decode_plain_tx version ins outs lt : tx_fits ins outs -> Forall (fun s => zlen (s_script s) <= 252) ins ->
  like_decode (consensus_tx version ins outs lt) = Ok (ltx_of version ins outs [] lt).
Proof.
  intros (Ni & No & Fi & Fo) Fs. rewrite <- wire_is_consensus by (assumption || lia). unfold wire_spec_tx.
  refine (eq_trans (decode_prefix version ins outs false (le_bytes 4 lt) ltac:(lia) ltac:(lia) (fun _ => proj1 Ni) Fi) _).
  unfold after_outs. cbn [bind]. rewrite <- (app_nil_r (le_bytes 4 lt)). rewrite need_app by apply zlen_le_bytes. reflexivity.
Qed.
(** ** C116 *)
(** For every transaction without witnesses, unsigned or not: one hash per input, in order, of the consensus message of
    that input's kind of output; the unlock entry of a native segwit input afterwards carries its own locking script as
    redeem script. No other case succeeds. *)
Theorem like_hashes_iff : forall H sha version ins outs lt us hexs us', tx_fits ins outs -> Forall (fun s => zlen (s_script s) <= 252) ins -> Forall redeem_small us ->
  is_bytes (consensus_tx version ins outs lt) ->
  like_create_hashes H sha (hex_encode (consensus_tx version ins outs lt)) us = Ok (hexs, us') <->
  zlen us = zlen ins /\ exists l, hexs = map (fun p => hex_encode (fst p)) l /\ us' = map snd l /\ pointwise (like_signs H version ins outs lt) 0 us l.
Proof.
  intros H sha version ins outs lt us hexs us' T Fs Fu B. unfold like_create_hashes. rewrite hex_decode_encode by exact B. cbn [bind]. rewrite decode_plain_tx by assumption. cbn [bind].
  unfold like_hashes. change (l_vins (ltx_of version ins outs [] lt)) with (map lin_of ins). rewrite zlen_map. pose proof T as (Ni & _). replace (zlen ins =? 0) with false by lia. cbn [orb].
  destruct (zlen ins =? zlen us) eqn:L; cbn [negb bind].
  - split.
    + intros E. apply bind_ok in E as ([hs us1] & Eh & E). apply hash_loop_iff in Eh as (l & -> & -> & P); try assumption. split; [lia|]. exists l. rewrite map_map in E. split; [congruence|]. split; [congruence|exact P].
    + intros (_ & l & -> & -> & P). rewrite (proj2 (hash_loop_iff H sha version ins outs lt T us 0%nat (map fst l) (map snd l) Fu)) by eauto. cbn [bind]. rewrite map_map. reflexivity.
  - split; [discriminate|]. lia.
Qed.
(** It panics exactly when it gets to an entry with a cut locking script or an empty redeem script. *)
Theorem like_hashes_panic_iff : forall H sha version ins outs lt us, tx_fits ins outs -> Forall (fun s => zlen (s_script s) <= 252) ins -> Forall redeem_small us ->
  is_bytes (consensus_tx version ins outs lt) ->
  like_create_hashes H sha (hex_encode (consensus_tx version ins outs lt)) us = Panic <->
  zlen us = zlen ins /\ exists k u, nth_error us k = Some u /\ like_hash_trap u /\ forall j v, (j < k)%nat -> nth_error us j = Some v -> exists p, like_signs H version ins outs lt j v p.
Proof.
  intros H sha version ins outs lt us T Fs Fu B. unfold like_create_hashes. rewrite hex_decode_encode by exact B. cbn [bind]. rewrite decode_plain_tx by assumption. cbn [bind].
  unfold like_hashes. change (l_vins (ltx_of version ins outs [] lt)) with (map lin_of ins). rewrite zlen_map. pose proof T as (Ni & _). replace (zlen ins =? 0) with false by lia. cbn [orb].
  destruct (zlen ins =? zlen us) eqn:L; cbn [negb bind].
  - pose proof (hash_loop_panic H sha version ins outs lt T us 0%nat Fu ltac:(unfold zlen in L; lia)) as Q. cbn [Nat.add] in Q. split.
    + intros E. split; [lia|]. apply Q. destruct (like_hash_loop H sha (ltx_of version ins outs [] lt) 0 us) as [[]| |]; [discriminate E|discriminate E|reflexivity].
    + intros (_ & P). apply Q in P. rewrite P. reflexivity.
  - split; [discriminate|]. lia.
Qed.
(** A second call with the entries left by the first gives the same hashes and the same entries. *)
Lemma signs_again H version ins outs lt n u p : like_signs H version ins outs lt n u p -> like_signs H version ins outs lt n (snd p) p.
Proof.
  intros (lock & i & El & En & Q). exists lock, i. destruct Q as [(h & Lh & -> & ->)|[(h & extra & r & code & Lh & -> & Le & Er & Lc & ->)|(h & Lh & -> & ->)]]; cbn [snd].
  - split; [exact El|]. split; [exact En|]. left. eauto.
  - split; [exact El|]. split; [exact En|]. right. left. exists h, extra, r, code. auto 10.
  - split; [exact El|]. split; [exact En|]. right. right. exists h. split; [exact Lh|]. split; [reflexivity|]. reflexivity.
Qed.
Theorem like_hashes_again : forall H sha version ins outs lt us hexs us', tx_fits ins outs -> Forall (fun s => zlen (s_script s) <= 252) ins -> Forall redeem_small us ->
  is_bytes (consensus_tx version ins outs lt) ->
  like_create_hashes H sha (hex_encode (consensus_tx version ins outs lt)) us = Ok (hexs, us') ->
  like_create_hashes H sha (hex_encode (consensus_tx version ins outs lt)) us' = Ok (hexs, us').
Proof.
  intros H sha version ins outs lt us hexs us' T Fs Fu B E. apply like_hashes_iff in E as (L & l & -> & -> & P); try assumption.
  assert (G : forall n us l, pointwise (like_signs H version ins outs lt) n us l -> Forall redeem_small us -> pointwise (like_signs H version ins outs lt) n (map snd l) l /\ Forall redeem_small (map snd l) /\ length l = length us).
  { clear. intros n us l P. induction P as [|n u p us l S1 P IH]; intros F; [split; [constructor|split; [constructor|reflexivity]]|]. apply Forall_cons_iff in F as [Fu F]. destruct (IH F) as (I1 & I2 & I3). cbn [map length]. split; [constructor; [eapply signs_again; exact S1|exact I1]|]. split; [|congruence].
    constructor; [|exact I2]. destruct S1 as (lock & i & El & _ & [(h & _ & _ & ->)|[(h & extra & r & code & _ & _ & _ & _ & _ & ->)|(h & Lh & -> & ->)]]); cbn [snd]; [exact Fu|exact Fu|].
    intros r Er. cbn [set_redeem lu_redeem] in Er. assert (r = witness_v0_script h) by congruence. subst r. rewrite wpkh_len by exact Lh. lia. }
  destruct (G _ _ _ P Fu) as (P' & F' & L'). apply like_hashes_iff; try assumption. split; [unfold zlen in *; rewrite map_length; lia|]. exists l. auto.
Qed.

(** ** Concrete case: a key hash input, a nested and a native witness input. *)
Definition ex_like_u (lock redeem : bytes) (amount : Z) : lunlock := {| lu_key := []; lu_lock := hex_encode lock; lu_redeem := hex_encode redeem; lu_amount := amount |}.
Definition ex_like_us : list lunlock :=
  [ex_like_u (p2pkh_script (repeat 3 20)) [] 0; ex_like_u (p2sh_script (repeat 4 20)) (witness_v0_script (repeat 5 20)) 77; ex_like_u (witness_v0_script (repeat 6 20)) [] 5000000000].
Definition ex_like_ins : list spec_in := [ex_like_in 1; ex_like_in 9; ex_like_in 200].
Definition ex_like_l : list (bytes * lunlock) :=
  [(toy_hash (legacy_preimage 2 ex_like_ins [ex_like_out] 3 0 (p2pkh_script (repeat 3 20))), ex_like_u (p2pkh_script (repeat 3 20)) [] 0);
   (toy_hash (bip143_preimage toy_hash 2 ex_like_ins [ex_like_out] 3 (ex_like_in 9) (p2pkh_script (repeat 5 20)) 77), ex_like_u (p2sh_script (repeat 4 20)) (witness_v0_script (repeat 5 20)) 77);
   (toy_hash (bip143_preimage toy_hash 2 ex_like_ins [ex_like_out] 3 (ex_like_in 200) (p2pkh_script (repeat 6 20)) 5000000000), ex_like_u (witness_v0_script (repeat 6 20)) (witness_v0_script (repeat 6 20)) 5000000000)].
Definition is_byteb (x : Z) : bool := (0 <=? x) && (x <? 256).
Lemma is_bytes_b l : forallb is_byteb l = true -> is_bytes l.
Proof. intros E. rewrite forallb_forall in E. apply Forall_forall. intros x I. specialize (E x I). unfold is_byteb in E. unfold is_byte. lia. Qed.
Lemma ex_like_fits : tx_fits ex_like_ins [ex_like_out].
Proof.
  split; [cbv; split; discriminate|]. split; [cbv; split; discriminate|]. split; [repeat (constructor; [reflexivity|]); constructor|]. repeat (constructor; [cbv; discriminate|]). constructor.
Qed.
Lemma ex_like_redeem : Forall redeem_small ex_like_us.
Proof.
  assert (G : forall lock r a, is_bytes r -> zlen r <= 252 -> redeem_small (ex_like_u lock r a)) by (intros lock r a B L q E; cbn [ex_like_u lu_redeem] in E; rewrite hex_decode_encode in E by exact B; congruence).
  constructor; [apply G; [apply is_bytes_b; reflexivity|cbv; discriminate]|]. constructor; [apply G; [apply is_bytes_b; reflexivity|cbv; discriminate]|]. constructor; [apply G; [apply is_bytes_b; reflexivity|cbv; discriminate]|constructor].
Qed.
Example like_hashes_example : tx_fits ex_like_ins [ex_like_out] /\ Forall (fun s => zlen (s_script s) <= 252) ex_like_ins /\ Forall redeem_small ex_like_us /\ is_bytes (consensus_tx 2 ex_like_ins [ex_like_out] 3) /\
  like_create_hashes toy_hash (fun _ => []) (hex_encode (consensus_tx 2 ex_like_ins [ex_like_out] 3)) ex_like_us = Ok (map (fun p => hex_encode (fst p)) ex_like_l, map snd ex_like_l).
Proof.
  assert (B : is_bytes (consensus_tx 2 ex_like_ins [ex_like_out] 3)) by (apply is_bytes_b; vm_compute; reflexivity).
  assert (F : Forall (fun s => zlen (s_script s) <= 252) ex_like_ins) by (repeat (constructor; [cbv; discriminate|]); constructor).
  split; [exact ex_like_fits|]. split; [exact F|]. split; [exact ex_like_redeem|]. split; [exact B|].
  apply like_hashes_iff; [exact ex_like_fits|exact F|exact ex_like_redeem|exact B|]. split; [reflexivity|]. exists ex_like_l. split; [reflexivity|]. split; [reflexivity|].
  constructor; [exists (p2pkh_script (repeat 3 20)), (ex_like_in 1); split; [reflexivity|]; split; [reflexivity|]; left; exists (repeat 3 20); auto|].
  constructor; [exists (p2sh_script (repeat 4 20)), (ex_like_in 9); split; [reflexivity|]; split; [reflexivity|]; right; left; exists (repeat 4 20), [], (witness_v0_script (repeat 5 20)), (p2pkh_script (repeat 5 20))|].
  - split; [reflexivity|]. split; [rewrite app_nil_r; reflexivity|]. split; [left; reflexivity|]. split; [reflexivity|]. split; [left; exists (repeat 5 20); auto|reflexivity].
  - constructor; [|constructor]. exists (witness_v0_script (repeat 6 20)), (ex_like_in 200); split; [reflexivity|]; split; [reflexivity|]; right; right; exists (repeat 6 20); auto.
Qed.
Example like_trap_example : like_hash_trap (ex_like_u (p2sh_script (repeat 4 20)) [] 77).
Proof.
  exists (p2sh_script (repeat 4 20)). split; [reflexivity|]. right. right. exists (repeat 4 20), []. split; [reflexivity|]. split; [rewrite app_nil_r; reflexivity|]. split; [left; reflexivity|]. left. reflexivity.
Qed.
Print Assumptions like_hashes_iff.
Print Assumptions like_hashes_panic_iff.
Print Assumptions like_hashes_again.
