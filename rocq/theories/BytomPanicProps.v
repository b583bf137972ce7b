(** C154: exactly when the Bytom driver crashes: creating, hashing, inserting signatures, verifying, and the multisignature helpers. *)
From Coq Require Import String ZArith List Bool Lia ZifyBool ZifyNat.
From Verif Require Import Go GoFacts GoFacts2 Codes Rd Reader Uvarint Base58Proofs Bech32Spec Bech32Model Bech32Proofs Bech32Text Bech32mModel ConvertBitsProofs Bech32mProofs Bech32mProps BytomModel BytomProps BytomSigProps BytomSignProps.
From Verif Require BytomDecodeProps CreatePanicProps FamPanicProps.
Import ListNotations.
Open Scope Z_scope.
Ltac Zify.zify_post_hook ::= idtac.

(** ** Specification *)
(** The first element that [fine] does not cover is one that is [bad]. *)
Definition meets {A} (fine bad : A -> Prop) (l : list A) : Prop := exists before x after, l = before ++ x :: after /\ Forall fine before /\ bad x.
Definition hexed (t : list Z) : Prop := exists b, hex_decode t = Ok b.
(** An input that is built without complaint, and one that crashes: a position or an amount that needs a ninth byte. *)
Definition input_built (v : vin) : Prop := hexed (v_source v) /\ v_position v < 2 ^ 56 /\ hexed (v_asset v) /\ v_amount v < 2 ^ 56 /\ hexed (v_program v).
Definition input_crash (v : vin) : Prop := hexed (v_source v) /\ (2 ^ 56 <= v_position v \/ (hexed (v_asset v) /\ 2 ^ 56 <= v_amount v)).
(** The address of a key or of a script, on whichever network. *)
Definition payable (w : vout) : Prop := exists p, bytom_decode_segwit (w_address w) = Ok (0, p) /\ (zlen p = 20 \/ zlen p = 32).
Definition output_built (w : vout) : Prop := payable w /\ w_amount w < 2 ^ 56.
Definition output_crash (w : vout) : Prop := payable w /\ 2 ^ 56 <= w_amount w.
(** The bytes of a transaction with a time range or an amount that is never ended. *)
Definition unended (b : bytes) : Prop :=
  exists more version p, Forall (fun x => 128 <= x) more /\ version < 128 /\ b = 7 :: more ++ version :: p /\
    (BytomDecodeProps.no_end p \/
     exists range n ib ins r, BytomDecodeProps.low_end range /\ 1 <= n /\ Forall2 BytomDecodeProps.spend_text ib ins /\ p = range ++ n :: concat ib ++ r /\
       ((zlen ins < n /\ BytomDecodeProps.spend_stuck r) \/
        (zlen ins = n /\ exists k ob outs q, Forall2 BytomDecodeProps.pay_text ob outs /\ zlen outs < k /\ r = k :: concat ob ++ q /\ BytomDecodeProps.pay_stuck q))).
Definition text_of (s : list Z) (b : bytes) : Prop := hex_decode s = Ok b.
(** What is filled in for an input: a signature where one is due, or enough members with keys of 32 bytes and signatures of 64. *)
Definition ready (h : txhash) : Prop :=
  (h_required h = 0 /\ h_normal h <> None) \/
  (h_required h <> 0 /\ Forall (fun k => zlen k = 32) (keys_of (h_multi h)) /\ h_required h <= zlen (present (h_multi h)) /\ Forall (fun s => zlen s = 64) (taken (h_required h) (h_multi h))).

(** ** Addresses *)
Lemma segwit_decode_np a : bytom_decode_segwit a <> Panic.
Proof.
  unfold bytom_decode_segwit. assert (D : bytom_decode a <> Panic).
  { unfold bytom_decode. destruct ((zlen a <? 8) || (90 <? zlen a)); [discriminate|]. destruct (existsb _ a); [discriminate|]. destruct (negb _ && negb _); [discriminate|]. cbv zeta. set (t := to_lower a). clearbody t.
    destruct ((last_index 49 t <? 1) || (zlen t <? last_index 49 t + 7)) eqn:Ei; [discriminate|]. destruct (last_index_inv 49 t ltac:(lia)) as (x & y & -> & L). rewrite <- L in *. rewrite (slice_pre x) by reflexivity. cbn [bind]. rewrite skipn_hrp. rewrite zlen_app, zlen_cons in Ei. pose proof (zlen_nonneg x).
    apply CreatePanicProps.bind_np; [apply chars_not_panic|]. intros ds Ed. change bytom_charset with bech32_alphabet in Ed. apply chars_digits_inv in Ed as [_ ->]. rewrite zlen_map in Ei.
    assert (Q : exists s, slice ds 0 (zlen ds - 6) = Ok s) by (apply slice_total; lia). destruct Q as (s & ->). destruct (negb _); discriminate. }
  apply CreatePanicProps.bind_np; [exact D|]. intros [h d] E. destruct d as [|v rest]; [discriminate|]. rewrite zlen_cons. pose proof (zlen_nonneg rest). replace (1 + zlen rest <? 1) with false by lia. change (idx (v :: rest) 0) with (Ok v). cbn [bind]. destruct (16 <? v); [discriminate|]. rewrite slice_from_cons. cbn [bind].
  apply CreatePanicProps.bind_np.
  - unfold bytom_convertbits. cbn [Z.ltb Z.compare Pos.compare Pos.compare_cont orb]. destruct (by_loop _ _ _ _ _) as [[? ?] ?]. cbn [andb]. destruct (_ && _); discriminate.
  - intros y _. destruct (_ || _); [discriminate|]. destruct (_ && _ && _); discriminate.
Qed.
Definition net (testnet : bool) : list Z := if testnet then str "tm" else str "bm".
Lemma net_ok tn : hrp_ok (net tn).
Proof. destruct tn; [change (net true) with [116; 109]|change (net false) with [98; 109]]; (split; [discriminate|]; repeat (constructor; [lia|]); constructor). Qed.
Lemma segwit_encode_np tn p : is_bytes p -> bytom_encode_segwit (net tn) 0 p <> Panic.
Proof.
  intros B. destruct (bytom_convertbits_roundtrip p B) as (out & E & _). destruct (convertbits_8_5_value p B) as (out' & q & _ & E' & _ & _ & D & _). rewrite E in E'. injection E' as <-. unfold bytom_encode_segwit. rewrite E. cbn [bind]. rewrite bytom_encode_text by (constructor; [unfold d5; lia|exact D]). cbn [bind].
  apply CreatePanicProps.bind_np; [apply segwit_decode_np|]. intros [v g] _. destruct (_ || _); discriminate.
Qed.
Lemma segwit_encode_ok tn p : is_bytes p -> (exists s, bytom_encode_segwit (net tn) 0 p = Ok s) <-> zlen p = 20 \/ zlen p = 32.
Proof.
  intros B. split.
  - intros (s & E). unfold bytom_encode_segwit in E. apply bind_ok in E as (c & _ & E). apply bind_ok in E as (t & _ & E). apply bind_ok in E as ([v g] & D & E). destruct (negb (v =? 0) || negb (beq g p)) eqn:Q; [discriminate|]. apply orb_false_iff in Q as [Q1 Q2]. apply negb_false_iff in Q2. apply beq_eq in Q2. subst g. destruct (bytom_segwit_accepted_canonical _ _ _ D) as (_ & _ & _ & _ & _ & L). apply L. lia.
  - intros L. destruct (bytom_segwit_roundtrip (net tn) 0 p) as (s & E & _); [apply net_ok|exact B|lia|lia|auto| |eauto]. destruct L as [->| ->]; destruct tn; vm_compute; discriminate.
Qed.

(** ** Creation *)
Lemma uvarint_cases x : 0 <= x < 2 ^ 64 -> ((exists b, uint64_to_uvarint x = Ok b) <-> x < 2 ^ 56) /\ (uint64_to_uvarint x = Panic <-> 2 ^ 56 <= x).
Proof. intros X. destruct (uvarint_written x X) as [(L & b & E & _)|(L & E)]; rewrite E; split; split; try eauto; try lia; try discriminate. intros (b & Q). discriminate. Qed.
Lemma hex_cases s : hexed s \/ hex_decode s = Err.
Proof. unfold hexed. pose proof (hex_decode_not_panic s). destruct (hex_decode s); eauto. contradiction. Qed.
Lemma in_cases v : 0 <= v_amount v < 2 ^ 64 -> 0 <= v_position v < 2 ^ 64 -> ((exists i, new_in v = Ok i) <-> input_built v) /\ (new_in v = Panic <-> input_crash v).
Proof.
  intros A P. unfold new_in, input_built, input_crash. destruct (uvarint_written _ A) as [(La & ba & Ea & _)|(La & Ea)]; destruct (uvarint_written _ P) as [(Lp & bp & Ep & _)|(Lp & Ep)]; rewrite Ea, Ep;
  destruct (hex_cases (v_source v)) as [(s & Es)|Es]; destruct (hex_cases (v_asset v)) as [(a & Es')|Es']; destruct (hex_cases (v_program v)) as [(c & Ec)|Ec]; unfold hexed; rewrite Es, Es', Ec; cbn [bind];
  (split; split; intros Q; repeat match goal with Q : exists _, _ |- _ => destruct Q | Q : _ /\ _ |- _ => destruct Q | Q : _ \/ _ |- _ => destruct Q end; try discriminate; try lia; try reflexivity; eauto 8).
Qed.
Lemma out_cases w : 0 <= w_amount w < 2 ^ 64 -> ((exists o, new_out w = Ok o) <-> output_built w) /\ (new_out w = Panic <-> output_crash w).
Proof.
  intros A. unfold new_out, output_built, output_crash.
  assert (C : (exists p, control_program (w_address w) = Ok p) <-> payable w).
  { unfold control_program, payable. split.
    - intros (p & E). apply bind_ok in E as ([v q] & D & E). exists q. destruct (v =? 0) eqn:V; [|discriminate]. cbn [negb] in E. assert (v = 0) by lia. subst v. split; [exact D|]. destruct (negb (zlen q =? 20) && negb (zlen q =? 32)) eqn:L; [discriminate|]. lia.
    - intros (p & D & L). rewrite D. cbn [bind Z.eqb negb]. replace (negb (zlen p =? 20) && negb (zlen p =? 32)) with false by lia. eauto. }
  assert (N : control_program (w_address w) <> Panic).
  { unfold control_program. apply CreatePanicProps.bind_np; [apply segwit_decode_np|]. intros [v q] _. destruct (negb _); [discriminate|]. destruct (_ && _); discriminate. }
  rewrite <- C. destruct (uvarint_written _ A) as [(La & ba & Ea & _)|(La & Ea)]; rewrite Ea; destruct (control_program (w_address w)) as [p| |]; try contradiction; cbn [bind];
  (split; split; intros Q; repeat match goal with Q : exists _, _ |- _ => destruct Q | Q : _ /\ _ |- _ => destruct Q end; try discriminate; try lia; try reflexivity; eauto 8).
Qed.
Lemma check_all_panics tn l : check_all tn l = Panic <-> meets (fun w => starts tn (w_address w)) (fun w => zlen (w_address w) < 2) l.
Proof.
  assert (C1 : forall w, check_prefix tn w = Panic <-> zlen (w_address w) < 2).
  { intros w. unfold check_prefix. destruct (Z.ltb_spec (zlen (w_address w)) 2) as [L|L].
    - rewrite (proj2 (slice_panic (w_address w) 0 2)) by lia. split; auto.
    - destruct (slice_total (w_address w) 0 2) as (q & ->); [lia|lia|]. cbn [bind]. destruct (beq _ _); split; intros; (discriminate || lia). }
  assert (C2 : forall w, starts tn (w_address w) <-> check_prefix tn w = Ok tt).
  { intros w. pose proof (check_all_iff tn [w]) as Q. cbn [check_all] in Q. split.
    - intros Sw. assert (F : Forall (fun w => starts tn (w_address w)) [w]) by (constructor; auto). apply Q in F. apply bind_ok in F as ([] & F & _). exact F.
    - intros E. rewrite E in Q. cbn [bind] in Q. destruct Q as [Q _]. specialize (Q eq_refl). inversion Q; assumption. }
  induction l as [|w l IH]; cbn [check_all].
  - split; [discriminate|]. intros ([|? ?] & x & post & Q & _); discriminate.
  - rewrite CreatePanicProps.bindp. split.
    + intros [E|([] & E & P)].
      * exists [], w, l. split; [reflexivity|]. split; [constructor|]. apply C1. exact E.
      * apply IH in P as (pre & x & post & -> & F & X). exists (w :: pre), x, post. split; [reflexivity|]. split; [constructor; [apply C2; exact E|exact F]|exact X].
    + intros (pre & x & post & Q & F & X). destruct pre as [|w' pre]; cbn [app] in Q; injection Q as <- ->.
      * left. apply C1. exact X.
      * right. inversion F; subst. exists tt. split; [apply C2; assumption|]. apply IH. exists pre, x, post. auto.
Qed.
Lemma in_bytes_np i : in_bytes i <> Panic.
Proof.
  unfold in_bytes. repeat (destruct (negb _); [discriminate|]). destruct (_ && _); [discriminate|]. destruct (_ =? 0); [discriminate|]. destruct (_ =? 0); [discriminate|]. cbv zeta. apply CreatePanicProps.bind_np; [|discriminate].
  destruct (i_sig i) as [s|]; [|destruct (i_multi i); discriminate]. unfold sigpub_bytes. destruct (p_sig s); [|discriminate]. destruct (_ || _); discriminate.
Qed.
Lemma tx_bytes_np t : tx_bytes t <> Panic.
Proof.
  unfold tx_bytes. repeat (destruct (_ =? 0); [discriminate|]). apply CreatePanicProps.bind_np; [apply CreatePanicProps.mapr_np; intros; apply in_bytes_np|]. intros is _. apply CreatePanicProps.bind_np; [|discriminate]. apply CreatePanicProps.mapr_np. intros o _. unfold out_bytes. destruct (_ =? 0); [discriminate|]. destruct (negb _); [discriminate|]. destruct (_ =? 0); discriminate.
Qed.
Lemma mapr_built {A B} (f : A -> res B) (fine : A -> Prop) l : (forall x, In x l -> (exists y, f x = Ok y) <-> fine x) -> (exists y, mapr f l = Ok y) <-> Forall fine l.
Proof.
  intros F. induction l as [|x l IH]; cbn [mapr]; [split; [constructor|eauto]|]. specialize (IH (fun y I => F y (or_intror I))). split.
  - intros (y & E). apply bind_ok in E as (a & E1 & E). apply bind_ok in E as (b & E2 & _). constructor; [apply F; [left; reflexivity|eauto]|apply IH; eauto].
  - intros G. apply Forall_cons_iff in G as [Gx G]. apply F in Gx as (a & ->); [|left; reflexivity]. apply IH in G as (b & ->). cbn [bind]. eauto.
Qed.
(** C154. Creating a transaction crashes exactly when the first address that does not begin with the prefix of the network has fewer than two characters;
    or all begin with it and the first input that cannot be built has a position or an amount of 2^56 and more; or the inputs are fine and the first output that cannot
    be built has such an amount; or everything is fine but the time range. *)
Theorem bytom_creation_crashes_exactly : forall vins vouts range testnet, typed vins vouts -> 0 <= range < 2 ^ 64 ->
  (create vins vouts range testnet = Panic <->
   meets (fun w => starts testnet (w_address w)) (fun w => zlen (w_address w) < 2) vouts \/
   (Forall (fun w => starts testnet (w_address w)) vouts /\
    (meets input_built input_crash vins \/
     (vins <> [] /\ Forall input_built vins /\
      (meets output_built output_crash vouts \/ (vouts <> [] /\ Forall output_built vouts /\ 2 ^ 56 <= range)))))).
Proof.
  intros vins vouts range tn (Ti & To) R. rewrite Forall_forall in Ti, To.
  assert (PI : mapr new_in vins = Panic <-> meets input_built input_crash vins) by (apply (CreatePanicProps.meets_mapr new_in input_built input_crash vins); intros x I; apply in_cases; apply Ti; exact I).
  assert (OI : (exists y, mapr new_in vins = Ok y) <-> Forall input_built vins) by (apply mapr_built; intros x I; apply in_cases; apply Ti; exact I).
  assert (PO : mapr new_out vouts = Panic <-> meets output_built output_crash vouts) by (apply (CreatePanicProps.meets_mapr new_out output_built output_crash vouts); intros x I; apply out_cases; apply To; exact I).
  assert (OO : (exists y, mapr new_out vouts = Ok y) <-> Forall output_built vouts) by (apply mapr_built; intros x I; apply out_cases; apply To; exact I).
  destruct (uvarint_cases range R) as [_ UR].
  unfold create. rewrite CreatePanicProps.bindp, check_all_panics.
  assert (T : forall vin', match vins with [] => Err | _ => mapr new_in vins end = vin' -> vins <> [] -> mapr new_in vins = vin') by (intros; destruct vins; [contradiction|assumption]).
  assert (N : (t <- new_tx vins vouts range ;; b <- tx_bytes t ;; Ok (hex_encode b)) = Panic <-> new_tx vins vouts range = Panic).
  { rewrite CreatePanicProps.bindp. split; [|auto]. intros [E|(t & _ & E)]; [exact E|]. exfalso. revert E. apply CreatePanicProps.bind_np; [apply tx_bytes_np|discriminate]. }
  assert (M : new_tx vins vouts range = Panic <-> (meets input_built input_crash vins \/ (vins <> [] /\ Forall input_built vins /\ (meets output_built output_crash vouts \/ (vouts <> [] /\ Forall output_built vouts /\ 2 ^ 56 <= range))))).
  { unfold new_tx. rewrite <- PI, <- OI, <- PO, <- OO, <- UR. rewrite CreatePanicProps.bindp.
    assert (X1 : match vins with [] => Err | _ => mapr new_in vins end = Panic <-> mapr new_in vins = Panic) by (destruct vins; [cbn [mapr]; split; discriminate|reflexivity]).
    assert (X2 : forall y, match vins with [] => Err | _ => mapr new_in vins end = Ok y <-> vins <> [] /\ mapr new_in vins = Ok y) by (intros y; destruct vins; [split; [discriminate|intros [? _]; contradiction]|split; [intros; split; [discriminate|assumption]|tauto]]).
    assert (Y1 : match vouts with [] => Err | _ => mapr new_out vouts end = Panic <-> mapr new_out vouts = Panic) by (destruct vouts; [cbn [mapr]; split; discriminate|reflexivity]).
    assert (Y2 : forall y, match vouts with [] => Err | _ => mapr new_out vouts end = Ok y <-> vouts <> [] /\ mapr new_out vouts = Ok y) by (intros y; destruct vouts; [split; [discriminate|intros [? _]; contradiction]|split; [intros; split; [discriminate|assumption]|tauto]]).
    rewrite X1. split.
    - intros [E|(is & E & P)]; [auto|]. right. apply X2 in E as [Nv E]. split; [exact Nv|]. split; [eauto|]. apply CreatePanicProps.bindp in P as [P|(os & E' & P)]; [left; apply Y1; exact P|]. apply Y2 in E' as [No E']. right. split; [exact No|]. split; [eauto|]. apply CreatePanicProps.bindp in P as [P|(r & _ & P)]; [exact P|discriminate].
    - intros [E|(Nv & (is & E) & Q)]; [auto|]. right. exists is. split; [apply X2; auto|]. apply CreatePanicProps.bindp. destruct Q as [Q|(No & (os & E') & Q)]; [left; apply Y1; exact Q|]. right. exists os. split; [apply Y2; auto|]. rewrite Q. reflexivity. }
  split.
  - intros [E|([] & E & P)]; [auto|]. right. split; [apply check_all_iff; exact E|]. apply M, N, P.
  - intros [E|(F & Q)]; [auto|]. right. exists tt. split; [apply check_all_iff; exact F|]. apply N, M, Q.
Qed.

(** ** Reading *)
Lemma program_bytes b t i : is_bytes b -> decode_tx b = Ok t -> In i (t_ins t) -> is_bytes (i_program i).
Proof.
  intros B D I. apply BytomDecodeProps.bytom_decode_iff in D as (more & v & range & ib & ins & ob & outs & _ & _ & _ & F & _ & _ & _ & -> & ->); [|exact B]. cbn [t_ins] in I.
  apply is_bytes_cons in B as [_ B]. apply is_bytes_app in B as [_ B]. apply is_bytes_cons in B as [_ B]. apply is_bytes_app in B as [_ B]. apply is_bytes_cons in B as [_ B]. apply is_bytes_app in B as [B _].
  clear -F B I. induction F as [|x j ib ins S F IH]; [destruct I|]. cbn [concat] in B. apply is_bytes_app in B as [Bx B]. destruct I as [->|I]; [|exact (IH B I)]. destruct S as [c so a am po p w s m C W]. cbn [i_program]. apply is_bytes_cons in Bx as [_ Bx]. apply is_bytes_cons in Bx as [_ Bx]. apply is_bytes_app in Bx as [Bx _]. inversion C; subst.
  apply is_bytes_cons in Bx as [_ Bx]. apply is_bytes_cons in Bx as [_ Bx]. unfold body in Bx. repeat (apply is_bytes_app in Bx as [_ Bx]). repeat (apply is_bytes_cons in Bx as [_ Bx]). exact Bx.
Qed.
Lemma reading_crashes b : is_bytes b -> decode_tx b = Panic <-> unended b.
Proof. exact (BytomDecodeProps.bytom_decode_panics_iff b). Qed.

Section Hash.
Variable H : bytes -> bytes.
(** C154. Computing the hashes crashes exactly when the text cannot be read without running over its end, or the first input whose program does not have 22 or 34 bytes has
    a program of one byte. *)
Theorem bytom_hashing_crashes_exactly : forall text testnet,
  (hashes_for_sig H text testnet = Panic <->
   exists b, text_of text b /\ (unended b \/ exists t, decode_tx b = Ok t /\ meets (fun i => zlen (i_program i) = 22 \/ zlen (i_program i) = 34) (fun i => zlen (i_program i) = 1) (t_ins t))).
Proof.
  intros text tn. unfold hashes_for_sig, text_of.
  assert (K : forall b t, is_bytes b -> decode_tx b = Ok t -> mapr (hash_for_sig H tn t) (t_ins t) = Panic <-> meets (fun i => zlen (i_program i) = 22 \/ zlen (i_program i) = 34) (fun i => zlen (i_program i) = 1) (t_ins t)).
  { intros b t B D. apply (CreatePanicProps.meets_mapr (hash_for_sig H tn t)). intros i I. pose proof (program_bytes b t i B D I) as Bp. pose proof (decoded_ok b t B D) as T. unfold hash_for_sig. rewrite sighash_ok by assumption. cbn [bind].
    destruct T as (_ & _ & T & _). rewrite Forall_forall in T. destruct (T i I) as (_ & _ & L). destruct (zlen (i_program i) =? 34) eqn:L34; [split; split; intros; first [discriminate | lia | eauto]|].
    change (if tn then str "tm" else str "bm") with (net tn). destruct (i_program i) as [|x [|y p]] eqn:Ep; [change (zlen (@nil Z)) with 0 in L; lia| |].
    - change (zlen [x]) with 1 in *. assert (Q : slice_from [x] 2 = Panic) by reflexivity. rewrite Q. cbn [bind]. split; split; auto; try (intros (? & ?); discriminate). lia.
    - assert (Q : slice_from (x :: y :: p) 2 = Ok p) by (apply (slice_from_post [x; y] p); reflexivity).
      rewrite Q. cbn [bind]. apply is_bytes_cons in Bp as [_ Bp]. apply is_bytes_cons in Bp as [_ Bp]. rewrite !zlen_cons in *. pose proof (zlen_nonneg p). split; split.
      + intros (y0 & E). apply bind_ok in E as (a & E & _). left. assert (zlen p = 20 \/ zlen p = 32) by (apply (segwit_encode_ok tn); eauto). lia.
      + intros Z2. destruct (proj2 (segwit_encode_ok tn p Bp)) as (a & ->); [lia|]. cbn [bind]. eauto.
      + intros E. exfalso. revert E. apply CreatePanicProps.bind_np; [apply segwit_encode_np; exact Bp|discriminate].
      + intros. lia. }
  rewrite CreatePanicProps.bindp. split.
  - intros [E|(b & E & P)]; [destruct (hex_decode_not_panic text E)|]. exists b. split; [exact E|]. destruct (hex_decode_bytes _ _ E) as [B _]. apply CreatePanicProps.bindp in P as [P|(t & D & P)]; [left; apply reading_crashes; assumption|]. right. exists t. split; [exact D|]. apply (K b t B D), P.
  - intros (b & E & Q). right. exists b. split; [exact E|]. destruct (hex_decode_bytes _ _ E) as [B _]. apply CreatePanicProps.bindp. destruct Q as [Q|(t & D & Q)]; [left; apply reading_crashes; assumption|]. right. exists t. split; [exact D|]. apply (K b t B D), Q.
Qed.

(** ** Inserting *)
Lemma collect_np r ms : forall c, collect r ms c <> Panic.
Proof.
  induction ms as [|[a s] ms IH]; intros c; cbn [collect]; [discriminate|]. destruct (p_sig s); [|apply IH]. destruct (negb _); [discriminate|]. destruct (_ =? r); [discriminate|]. apply CreatePanicProps.bind_np; [apply IH|]. intros [? ?] _. discriminate.
Qed.
Lemma script_np ks r : script_of ks r <> Panic.
Proof. unfold script_of. apply CreatePanicProps.bind_np; [|discriminate]. apply CreatePanicProps.mapr_np. intros k _. destruct (_ =? 32); discriminate. Qed.
Lemma multi_np h : multisig_bytes H h <> Panic.
Proof. unfold multisig_bytes. apply CreatePanicProps.bind_np; [apply script_np|]. intros s _. apply CreatePanicProps.bind_np; [apply collect_np|]. intros [b c] _. destruct (_ <? _); discriminate. Qed.
Lemma collect_inv r : 1 <= r < 256 -> forall ms c b n, 0 <= c < r -> collect r ms c = Ok (b, n) -> Forall (fun s => zlen s = 64) (firstn (Z.to_nat (r - c)) (present ms)).
Proof.
  intros R. induction ms as [|[a [[s|] p]] ms IH]; intros c b n C E; unfold present in *; cbn [flat_map snd p_sig app] in *.
  - rewrite firstn_nil. constructor.
  - replace (Z.to_nat (r - c)) with (S (Z.to_nat (r - (c + 1)))) by lia. cbn [firstn]. cbn [collect p_sig] in E. destruct (zlen s =? 64) eqn:L; [|discriminate]. cbn [negb] in E. rewrite u8_small in E by lia. constructor; [lia|]. destruct (c + 1 =? r) eqn:Q.
    + replace (r - (c + 1)) with 0 by lia. constructor.
    + apply bind_ok in E as ([b' n'] & E & _). eapply IH; [|exact E]. lia.
  - cbn [collect p_sig] in E. eapply IH; eassumption.
Qed.
Lemma multi_ready h : 0 < h_required h < 256 -> (exists y, multisig_bytes H h = Ok y) <-> ready h.
Proof.
  intros R. unfold multisig_bytes, ready. fold (keys_of (h_multi h)). set (ms := h_multi h). set (r := h_required h) in *. split.
  - intros (y & E). apply bind_ok in E as (s & Es & E). apply bind_ok in E as ([b n] & Ec & E). apply script_of_iff in Es as [Fk _]. pose proof (collect_inv r ltac:(lia) ms 0 b n ltac:(lia) Ec) as F. rewrite collect_ok in Ec by (try lia; exact F). rewrite Z.sub_0_r in *. injection Ec as _ <-. right. split; [lia|]. split; [exact Fk|]. split; [|exact F].
    destruct (u8 _ <? r) eqn:L in E; [discriminate|]. unfold zlen in *. rewrite firstn_length in L. rewrite u8_small in L by lia. lia.
  - intros [[Z0 _]|(_ & Fk & L & F)]; [lia|]. rewrite (proj2 (script_of_iff (keys_of ms) r _) (conj Fk eq_refl)). cbn [bind]. rewrite collect_ok by (try lia; rewrite Z.sub_0_r; exact F). rewrite Z.sub_0_r. cbn [bind]. fold (taken r ms). rewrite (zlen_taken r ms) by lia. rewrite u8_small by lia. replace (0 + r <? r) with false by lia. eauto.
Qed.
Lemma insert_all_panics hs : forall ins, Forall (fun h => 0 <= h_required h < 256) hs ->
  (insert_all H ins hs = Panic <->
   exists before h after, hs = before ++ h :: after /\ Forall ready before /\ zlen before <= zlen ins /\
     ((h_required h = 0 /\ h_normal h = None) \/ (ready h /\ zlen before = zlen ins))).
Proof.
  induction hs as [|h hs IH]; intros ins U.
  - split; [destruct ins; discriminate|]. intros ([|? ?] & ? & ? & Q & _); discriminate.
  - apply Forall_cons_iff in U as [Uh U].
    assert (Head : ((h_required h = 0 /\ h_normal h = None) \/ (ready h /\ ins = [])) -> insert_all H ins (h :: hs) = Panic).
    { intros [[R N]|[Rd ->]].
      - destruct ins; cbn [insert_all]; rewrite R, N; reflexivity.
      - cbn [insert_all]. destruct (h_required h =? 0) eqn:Q; cbn [negb]; [destruct (h_normal h) as [[? ?]|]; reflexivity|]. destruct (proj2 (multi_ready h ltac:(lia)) Rd) as ([m p] & ->). reflexivity. }
    assert (Tail : forall i ir, ins = i :: ir -> ready h -> insert_all H ins (h :: hs) = Panic <-> insert_all H ir hs = Panic).
    { intros i ir -> Rd. cbn [insert_all]. destruct (h_required h =? 0) eqn:Q; cbn [negb].
      - destruct (h_normal h) as [[a s]|] eqn:N; [|exfalso; destruct Rd as [[_ ?]|[? _]]; [contradiction|lia]]. destruct (insert_all H ir hs); cbn [bind]; split; congruence.
      - destruct (proj2 (multi_ready h ltac:(lia)) Rd) as ([m p] & ->). cbn [bind]. destruct (insert_all H ir hs); cbn [bind]; split; congruence. }
    split.
    + intros E. assert (C : ready h \/ (h_required h = 0 /\ h_normal h = None)).
      { destruct (h_required h =? 0) eqn:Q; [destruct (h_normal h) eqn:N; [left; left; split; [lia|congruence]|right; split; [lia|reflexivity]]|]. left. apply multi_ready; [lia|]. pose proof (multi_np h). destruct ins; cbn [insert_all] in E; rewrite Q in E; cbn [negb] in E; destruct (multisig_bytes H h) as [y| |]; try eauto; try contradiction; discriminate. }
      destruct C as [Rd|C]; [|exists [], h, hs; split; [reflexivity|]; split; [constructor|]; split; [change (zlen (@nil txhash)) with 0; apply zlen_nonneg|auto]].
      destruct ins as [|i ir].
      * exists [], h, hs. split; [reflexivity|]. split; [constructor|]. split; [reflexivity|]. right. auto.
      * apply (Tail i ir eq_refl Rd) in E. apply IH in E as (pre & x & post & -> & F & L & X); [|exact U]. exists (h :: pre), x, post. rewrite !zlen_cons. split; [reflexivity|]. split; [constructor; assumption|]. split; [lia|]. destruct X as [X|[X Lx]]; [auto|right; split; [exact X|lia]].
    + intros (pre & x & post & Q & F & L & X). destruct pre as [|h' pre]; cbn [app] in Q; injection Q as <- Q.
      * apply Head. destruct X as [X|[X Lx]]; [auto|]. right. split; [exact X|]. destruct ins; [reflexivity|]. rewrite zlen_cons in Lx. change (zlen (@nil txhash)) with 0 in Lx. pose proof (zlen_nonneg ins). lia.
      * apply Forall_cons_iff in F as [Rd F]. rewrite zlen_cons in *. pose proof (zlen_nonneg pre). destruct ins as [|i ir]; [change (zlen (@nil txin)) with 0 in L; lia|]. rewrite zlen_cons in *. apply (Tail i ir eq_refl Rd). apply IH; [exact U|]. exists pre, x, post. split; [exact Q|]. split; [exact F|]. split; [lia|]. destruct X as [X|[X Lx]]; [auto|right; split; [exact X|lia]].
Qed.
(** C154. Putting signatures in crashes exactly when the text cannot be read without running over its end, or the first entry that is not filled in correctly is one without a place
    for a signature, or all entries up to one beyond the inputs are filled in correctly. *)
Theorem bytom_insertion_crashes_exactly : forall text hs, Forall (fun h => 0 <= h_required h < 256) hs ->
  (insert H text hs = Panic <->
   exists b, text_of text b /\
     (unended b \/
      exists t before h after, decode_tx b = Ok t /\ hs = before ++ h :: after /\ Forall ready before /\ zlen before <= zlen (t_ins t) /\
        ((h_required h = 0 /\ h_normal h = None) \/ (ready h /\ zlen before = zlen (t_ins t))))).
Proof.
  intros text hs U. unfold insert, text_of.
  assert (K : forall b t, is_bytes b -> decode_tx b = Ok t ->
    (if zlen hs =? 0 then Err else if zlen (t_ins t) =? 0 then Err else if zlen (t_outs t) =? 0 then Err else ins <- insert_all H (t_ins t) hs ;; s <- tx_bytes {| t_version := t_version t; t_range := t_range t; t_ins := ins; t_outs := t_outs t |} ;; Ok (hex_encode s)) = Panic <-> insert_all H (t_ins t) hs = Panic).
  { intros b t B D. destruct (decoded_ok b t B D) as (L1 & L2 & _). replace (zlen (t_ins t) =? 0) with false by lia. replace (zlen (t_outs t) =? 0) with false by lia. destruct hs as [|h hs']; [change (zlen (@nil txhash) =? 0) with true; cbv iota; split; [discriminate|destruct (t_ins t); discriminate]|].
    rewrite zlen_cons. pose proof (zlen_nonneg hs'). replace (1 + zlen hs' =? 0) with false by lia. rewrite CreatePanicProps.bindp. split; [|auto]. intros [E|(ins & _ & E)]; [exact E|]. exfalso. revert E. apply CreatePanicProps.bind_np; [apply tx_bytes_np|discriminate]. }
  rewrite CreatePanicProps.bindp. split.
  - intros [E|(b & E & P)]; [destruct (hex_decode_not_panic text E)|]. exists b. split; [exact E|]. destruct (hex_decode_bytes _ _ E) as [B _]. apply CreatePanicProps.bindp in P as [P|(t & D & P)]; [left; apply reading_crashes; assumption|]. right. apply (K b t B D) in P. apply insert_all_panics in P as (pre & h & post & Q); [|exact U]. exists t, pre, h, post. tauto.
  - intros (b & E & Q). right. exists b. split; [exact E|]. destruct (hex_decode_bytes _ _ E) as [B _]. apply CreatePanicProps.bindp. destruct Q as [Q|(t & pre & h & post & D & Q)]; [left; apply reading_crashes; assumption|]. right. exists t. split; [exact D|]. apply (K b t B D). apply insert_all_panics; [exact U|]. exists pre, h, post. exact Q.
Qed.

(** ** Verifying *)
Lemma scan_keys_np {A} (k : list bytes -> bytes -> res A) : (forall acc b r, k acc (b :: r) <> Panic) -> forall fuel acc rest, scan_keys fuel acc rest k <> Panic.
Proof.
  intros K. induction fuel as [|f IH]; intros acc rest; cbn [scan_keys]; [discriminate|]. destruct rest as [|b r]; cbn [need1]; [discriminate|]. destruct (negb _); [apply K|]. unfold need. destruct (_ <? _); [discriminate|apply IH].
Qed.
Lemma scan_sigs_np {A} (k : list bytes -> bytes -> res A) : (forall acc r, k acc r <> Panic) -> forall fuel acc rest, scan_sigs fuel acc rest k <> Panic.
Proof.
  intros K. induction fuel as [|f IH]; intros acc rest; cbn [scan_sigs]; [discriminate|]. destruct rest as [|b r]; cbn [need1]; [discriminate|]. destruct (_ =? _); [|apply K]. unfold need. destruct (_ <? _); [discriminate|apply IH].
Qed.
Ltac steps := repeat first [discriminate | match goal with |- need1 ?r _ <> Panic => destruct r; cbn [need1] | |- (if ?b then _ else _) <> Panic => destruct b end].
Lemma detail_np s : multisig_detail s <> Panic.
Proof. unfold multisig_detail. destruct s as [|op rest]; cbn [need1]; [discriminate|]. destruct (negb _); [discriminate|]. apply scan_keys_np. intros acc b r. cbn [must1]. cbv zeta. steps. Qed.
Lemma pubs_np s : multisig_pubs s <> Panic.
Proof.
  unfold multisig_pubs. destruct s as [|a [|b rest]]; try discriminate. destruct (_ || _); [discriminate|]. apply scan_sigs_np. intros sigs r. steps. apply scan_keys_np. intros acc c r'. cbn [must1]. cbv zeta. steps.
Qed.
Variable verify : bytes -> bytes -> bytes -> bool.
Lemma verify_in_panics h i : verify_in verify h i = Panic <-> zlen (i_program i) <> 34 /\ i_sig i = None.
Proof.
  unfold verify_in. change 0x22 with 34. destruct (zlen (i_program i) =? 34) eqn:L.
  - split; [|lia]. set (m := match i_multi i with Some m => m | None => [] end). pose proof (pubs_np m). destruct (multisig_pubs m) as [[? ?]| |]; [discriminate|discriminate|contradiction].
  - destruct (i_sig i); split; try discriminate; try (intros [_ ?]; discriminate); intros; split; [lia|reflexivity].
Qed.
Lemma verify_all_panics : forall ins hs, length hs = length ins ->
  (verify_all verify hs ins = Panic <->
   exists before i after, ins = before ++ i :: after /\ Forall2 (fun h j => verify_in verify h j = Ok true) (firstn (length before) hs) before /\ zlen (i_program i) <> 34 /\ i_sig i = None).
Proof.
  induction ins as [|i ins IH]; intros [|h hs] L; try discriminate; cbn [verify_all].
  - split; [discriminate|]. intros ([|? ?] & ? & ? & Q & _); discriminate.
  - cbn [length] in L. specialize (IH hs ltac:(lia)). split.
    + intros E. apply CreatePanicProps.bindp in E as [E|(ok & E & P)]; [exists [], i, ins; split; [reflexivity|]; split; [constructor|]; apply (verify_in_panics h i); exact E|]. destruct ok; [|discriminate]. apply IH in P as (pre & x & post & -> & F & X). exists (i :: pre), x, post. split; [reflexivity|]. cbn [length firstn]. split; [constructor; assumption|exact X].
    + intros (pre & x & post & Q & F & X). destruct pre as [|j pre]; cbn [app] in Q; injection Q as <- ->.
      * rewrite (proj2 (verify_in_panics h i) X). reflexivity.
      * cbn [length firstn] in F. inversion F as [|? ? ? ? V F']; subst. rewrite V. cbn [bind]. apply IH. exists pre, x, post. auto.
Qed.
(** C154. Verifying crashes exactly when the text cannot be read without running over its end, or an input without a signature, whose program does not have 34 bytes, comes
    after inputs that are all accepted. *)
Theorem bytom_verification_crashes_exactly : forall text,
  (verify_tx H verify text = Panic <->
   exists b, text_of text b /\
     (unended b \/
      exists t, decode_tx b = Ok t /\ meets (fun j => exists h, sig_hash H t j = Ok h /\ verify_in verify h j = Ok true) (fun i => zlen (i_program i) <> 34 /\ i_sig i = None) (t_ins t))).
Proof.
  intros text. unfold verify_tx, text_of.
  assert (K : forall b t, is_bytes b -> decode_tx b = Ok t ->
    match mapr (sig_hash H (clone_empty t)) (t_ins (clone_empty t)) with Panic => Panic | Err => Ok false | Ok hs => verify_all verify hs (t_ins t) end = Panic <->
    meets (fun j => exists h, sig_hash H t j = Ok h /\ verify_in verify h j = Ok true) (fun i => zlen (i_program i) <> 34 /\ i_sig i = None) (t_ins t)).
  { intros b t B D. pose proof (decoded_ok b t B D) as T.
    assert (T' : tx_ok (clone_empty t)). { destruct T as (A1 & A2 & A3 & A4). unfold tx_ok, clone_empty. cbn [t_ins t_outs]. rewrite zlen_map. repeat (split; [assumption || lia|]). split; [|exact A4]. apply Forall_map. exact A3. }
    rewrite (mapr_ok _ (sighash H (clone_empty t))) by (intros x I; apply sighash_ok; assumption).
    assert (Eq : forall j, In j (t_ins t) -> sig_hash H t j = Ok (sighash H (clone_empty t) {| i_source := i_source j; i_position := i_position j; i_asset := i_asset j; i_amount := i_amount j; i_program := i_program j; i_sig := None; i_multi := None |})).
    { intros j I. rewrite <- sighash_ok; [|exact T'|unfold clone_empty; cbn [t_ins]; apply (in_map (fun i => {| i_source := i_source i; i_position := i_position i; i_asset := i_asset i; i_amount := i_amount i; i_program := i_program i; i_sig := None; i_multi := None |})); exact I].
      unfold sig_hash, tx_id. cbn [clone_empty t_range t_outs t_ins]. assert (M : forall o ix, out_id H (t_ins t) ix o = out_id H (map (fun i => {| i_source := i_source i; i_position := i_position i; i_asset := i_asset i; i_amount := i_amount i; i_program := i_program i; i_sig := None; i_multi := None |}) (t_ins t)) ix o).
      { intros o ix. unfold out_id. f_equal. unfold mux_id. assert (G : forall l, mapr (input_id H) (map (fun i => {| i_source := i_source i; i_position := i_position i; i_asset := i_asset i; i_amount := i_amount i; i_program := i_program i; i_sig := None; i_multi := None |}) l) = mapr (input_id H) l) by (induction l as [|x l IHl]; [reflexivity|]; cbn [map mapr]; rewrite IHl; reflexivity). rewrite G. destruct (mapr (input_id H) (t_ins t)) as [ids| |]; [|reflexivity|reflexivity]. cbn [bind]. do 7 f_equal. clear. revert ids. generalize (t_ins t). induction l as [|x l IHl]; intros [|y ids]; try reflexivity. cbn [combine map fst snd i_asset i_amount i_position]. f_equal. apply IHl. }
      assert (M' : forall l ix, out_ids H (t_ins t) ix l = out_ids H (map (fun i => {| i_source := i_source i; i_position := i_position i; i_asset := i_asset i; i_amount := i_amount i; i_program := i_program i; i_sig := None; i_multi := None |}) (t_ins t)) ix l) by (induction l as [|o l IHl]; intros ix; [reflexivity|]; cbn [out_ids]; rewrite M, IHl; reflexivity).
      rewrite M'. reflexivity. }
    set (g := sighash H (clone_empty t)) in *. clearbody g. unfold clone_empty. cbn [t_ins]. rewrite map_map. rewrite verify_all_panics by (rewrite map_length; reflexivity). unfold meets. split; intros (pre & i & post & Q & F & X); exists pre, i, post; (split; [exact Q|]); (split; [|exact X]); rewrite Q in *.
    - rewrite map_app in F. rewrite <- (map_length (fun x => g {| i_source := i_source x; i_position := i_position x; i_asset := i_asset x; i_amount := i_amount x; i_program := i_program x; i_sig := None; i_multi := None |}) pre) in F at 1. rewrite firstn_app, Nat.sub_diag, firstn_all in F. cbn [firstn] in F. rewrite app_nil_r in F.
      assert (Eq' : forall j, In j pre -> sig_hash H t j = Ok (g {| i_source := i_source j; i_position := i_position j; i_asset := i_asset j; i_amount := i_amount j; i_program := i_program j; i_sig := None; i_multi := None |})) by (intros; apply Eq; apply in_or_app; auto). clear -F Eq'. induction pre as [|j pre IH]; [constructor|]. cbn [map] in F. inversion F; subst. constructor; [eexists; split; [apply Eq'; left; reflexivity|assumption]|]. apply IH; [assumption|]. intros; apply Eq'; right; assumption.
    - rewrite map_app. rewrite <- (map_length (fun x => g {| i_source := i_source x; i_position := i_position x; i_asset := i_asset x; i_amount := i_amount x; i_program := i_program x; i_sig := None; i_multi := None |}) pre) at 1. rewrite firstn_app, Nat.sub_diag, firstn_all. cbn [firstn]. rewrite app_nil_r.
      assert (Eq' : forall j, In j pre -> sig_hash H t j = Ok (g {| i_source := i_source j; i_position := i_position j; i_asset := i_asset j; i_amount := i_amount j; i_program := i_program j; i_sig := None; i_multi := None |})) by (intros; apply Eq; apply in_or_app; auto). clear -F Eq'. induction pre as [|j pre IH]; [constructor|]. inversion F as [|? ? (h & E1 & E2) F']; subst. cbn [map]. constructor; [rewrite (Eq' j) in E1 by (left; reflexivity); injection E1 as <-; exact E2|]. apply IH; [assumption|]. intros; apply Eq'; right; assumption. }
  split.
  - intros P. destruct (hex_decode text) as [b| |] eqn:E; [|discriminate|destruct (hex_decode_not_panic text E)]. exists b. split; [reflexivity|]. destruct (hex_decode_bytes _ _ E) as [B _]. destruct (decode_tx b) as [t| |] eqn:D; [|discriminate|left; apply reading_crashes; assumption]. right. exists t. split; [reflexivity|]. apply (K b t B D), P.
  - intros (b & E & Q). rewrite E. destruct (hex_decode_bytes _ _ E) as [B _]. destruct Q as [Q|(t & D & Q)]; [rewrite (proj2 (reading_crashes b B) Q); reflexivity|]. rewrite D. apply (K b t B D), Q.
Qed.

(** C154. The multisignature helpers never crash. *)
Theorem bytom_multisig_never_crashes : (forall m, is_bytes (H m)) ->
  (forall required keys testnet, create_multisig H required keys testnet <> Panic) /\ (forall script, multisig_detail script <> Panic) /\ (forall h script, pad_multisig h script <> Panic).
Proof.
  intros HB. split; [|split; [exact detail_np|]].
  - intros r ks tn. unfold create_multisig. destruct (_ =? 0); [discriminate|]. destruct (_ <=? 0); [discriminate|]. destruct (_ <? _); [discriminate|]. apply CreatePanicProps.bind_np; [apply script_np|]. intros s _. apply CreatePanicProps.bind_np; [apply segwit_encode_np; apply HB|discriminate].
  - intros h s. unfold pad_multisig. apply CreatePanicProps.bind_np; [apply hex_decode_not_panic|]. intros b _. apply CreatePanicProps.bind_np; [apply detail_np|]. intros [ks r] _. discriminate.
Qed.
End Hash.

(** ** Concrete cases *)
Definition big_in : vin := {| v_source := hex_encode (repeat 7 32); v_position := 1; v_asset := hex_encode (repeat 255 32); v_amount := 2 ^ 56; v_program := str "not hex" |}.
Example bytom_creation_example : create [ex_in; big_in] [ex_out] 0 false = Panic.
Proof.
  apply bytom_creation_crashes_exactly; [split; (constructor; [cbn; lia|]); [constructor; [cbn; lia|constructor]|constructor]|lia|]. right. split; [constructor; [eexists (skipn 2 (w_address ex_out)); vm_compute; reflexivity|constructor]|]. left. exists [ex_in], big_in, []. split; [reflexivity|]. split.
  - constructor; [|constructor]. split; [eexists; vm_compute; reflexivity|]. split; [cbn; lia|]. split; [eexists; vm_compute; reflexivity|]. split; [cbn; lia|eexists; vm_compute; reflexivity].
  - split; [eexists; vm_compute; reflexivity|]. right. split; [eexists; vm_compute; reflexivity|cbn; lia].
Qed.
Definition spend_bytes (program wit : bytes) : bytes := let body := repeat 7 32 ++ repeat 255 32 ++ [200; 1] ++ 0 :: 1 :: zlen program :: program in 1 :: (zlen body + 2) :: 1 :: zlen body :: body ++ wit.
Definition sample (spends : list bytes) : bytes := 7 :: 1 :: 0 :: zlen spends :: concat spends ++ 1 :: 1 :: 57 :: (repeat 255 32 ++ [100] ++ 1 :: 22 :: 0 :: 20 :: repeat 4 20) ++ [0].
Definition key_program : bytes := 0 :: 20 :: repeat 9 20.
Definition hash9 (_ : bytes) : bytes := repeat 9 32.
(** A proper input and one whose program is a single byte. *)
Example bytom_hashing_example : hashes_for_sig hash9 (hex_encode (sample [spend_bytes key_program [1; 0]; spend_bytes [0x51] [1; 0]])) false = Panic.
Proof.
  apply bytom_hashing_crashes_exactly. eexists. split; [vm_compute; reflexivity|]. right. eexists. split; [vm_compute; reflexivity|]. cbn [t_ins]. eexists [_], _, []. split; [reflexivity|]. split; [constructor; [left; vm_compute; reflexivity|constructor]|vm_compute; reflexivity].
Qed.
(** Two entries for a transaction of one input. *)
Example bytom_insertion_example : let e := {| h_hash := []; h_required := 0; h_normal := Some ([], {| p_sig := Some (repeat 5 64); p_pub := repeat 6 32 |}); h_multi := [] |} in
  insert hash9 (hex_encode (sample [spend_bytes key_program [1; 0]])) [e; {| h_hash := []; h_required := 2; h_normal := None; h_multi := ex_members |}] = Panic /\
  exists raw, insert hash9 (hex_encode (sample [spend_bytes key_program [1; 0]])) [e] = Ok raw.
Proof.
  cbv zeta. split; [|eexists; vm_compute; reflexivity]. apply bytom_insertion_crashes_exactly; [repeat (constructor; [cbn; lia|]); constructor|]. eexists. split; [vm_compute; reflexivity|]. right. eexists _, [_], _, []. split; [vm_compute; reflexivity|]. split; [reflexivity|]. split; [constructor; [left; split; [reflexivity|discriminate]|constructor]|]. split; [vm_compute; discriminate|]. right. split; [|reflexivity].
  right. split; [discriminate|]. split; [repeat (constructor; [reflexivity|]); constructor|]. split; [vm_compute; discriminate|]. repeat (constructor; [reflexivity|]). constructor.
Qed.
(** A signed input and then an unsigned one. *)
Example bytom_verification_example : verify_tx hash9 (fun _ _ _ => true) (hex_encode (sample [spend_bytes key_program (99 :: [2; 64] ++ repeat 5 64 ++ 32 :: repeat 6 32); spend_bytes key_program [1; 0]])) = Panic.
Proof.
  apply bytom_verification_crashes_exactly. eexists. split; [vm_compute; reflexivity|]. right. eexists. split; [vm_compute; reflexivity|]. cbn [t_ins]. eexists [_], _, []. split; [reflexivity|]. split; [constructor; [eexists; split; [vm_compute; reflexivity|vm_compute; reflexivity]|constructor]|]. split; [vm_compute; discriminate|reflexivity].
Qed.

Print Assumptions bytom_creation_crashes_exactly.
Print Assumptions bytom_hashing_crashes_exactly.
Print Assumptions bytom_insertion_crashes_exactly.
Print Assumptions bytom_verification_crashes_exactly.
Print Assumptions bytom_multisig_never_crashes.
