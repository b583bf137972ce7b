(** C159: exactly when creating a token transfer crashes: Omni payloads in omniTransaction, bitcoincashTransaction and
    bitcoinsvTransaction, and asset transfers in cxcTransaction. *)
From Coq Require Import String ZArith List Bool Lia ZifyBool ZifyNat.
From Verif Require Import Go GoFacts GoFacts2 Rd Base58Model Base58Spec Base58Props Base58Proofs Base58CheckModel Base58CheckSpec Base58CheckProofs Bech32Model Bech32DecSpec Bech32DecProps AddressProofs AddressModel
  BtcModel BtcSpec BtcProofs BtcTxProofs OmniModel FamModel FamProofs HyperProps FamTxProps FamSigProps FamPanicProps BtcTxProps Toy.
Import ListNotations.
Open Scope Z_scope.
Ltac Zify.zify_post_hook ::= idtac.

(** ** Specification *)
(** Freezing and unfreezing tokens, message types 185 and 186, are the two messages that name an address. *)
Definition names_address (o : omni) : Prop := o_type o = 185 \/ o_type o = 186.
(** An output address crashes, or all outputs can be paid and the address in the message does. *)
Definition omni_crash (H : bytes -> bytes) (fine bad : list Z -> Prop) (vouts : list vout) (o : omni) : Prop :=
  first_bad fine bad vouts \/ (vouts <> [] /\ Forall (fun v => fine (v_addr v)) vouts /\ names_address o /\ base58_crash H (o_address o)).
(** An asset is transferred to a payable address, and the id of its transaction is hex. *)
Definition hex_id (a : asset) : Prop := exists id, hex_decode (a_txid a) = Ok id.
Definition asset_payable (H : bytes -> bytes) (ap : addr_prefix) (a : asset) : Prop := both_payable H ap (a_addr a) /\ hex_id a.
(** The id is looked at before the base58 reading only for an address with the bech32 prefix. *)
Definition asset_crash (H : bytes -> bytes) (ap : addr_prefix) (a : asset) : Prop :=
  (begins (p_bech32 ap) (a_addr a) /\ bech32_crash (a_addr a)) \/
  ((begins (p_bech32 ap) (a_addr a) -> bech32_readable (a_addr a) /\ hex_id a) /\ base58_crash H (a_addr a)).
Definition first_bad_asset (H : bytes -> bytes) (ap : addr_prefix) (tos : list asset) : Prop :=
  exists pre a post, tos = pre ++ a :: post /\ Forall (asset_payable H ap) pre /\ asset_crash H ap a.

(** ** Lemmas *)
Lemma payload_panics H o : hash_ok H -> is_bytes (o_address o) -> get_payload bitcoin_al H o = Panic <-> names_address o /\ base58_crash H (o_address o).
Proof.
  intros HH B. rewrite <- (decode_check_crash H _ HH B). unfold get_payload, names_address. cbv zeta.
  repeat (match goal with |- context [o_type o =? ?k] => destruct (Z.eqb_spec (o_type o) k) as [->|?] end; [split; [discriminate|intros [N _]; exfalso; lia]|]) || idtac.
  all: try (destruct (Z.eqb_spec (o_type o) 185) as [T|T]).
  - unfold create_freeze. destruct (decode_check bitcoin_al H (o_address o)) as [[p h]| |]; cbn [bind]; split; try discriminate; try (intros [_ N]; discriminate); auto.
  - destruct (Z.eqb_spec (o_type o) 186) as [T'|T'].
    + unfold create_unfreeze. destruct (decode_check bitcoin_al H (o_address o)) as [[p h]| |]; cbn [bind]; split; try discriminate; try (intros [_ N]; discriminate); auto.
    + split; [discriminate|]. intros [N _]. lia.
Qed.
Lemma mapr_some_iff {A B} (f : A -> res B) (P : A -> Prop) l : (forall x, In x l -> ((exists y, f x = Ok y) <-> P x)) -> (exists ys, mapr f l = Ok ys) <-> Forall P l.
Proof.
  induction l as [|x l IH]; intros F; cbn [mapr]; [split; [constructor|eauto]|]. rewrite Forall_cons_iff, <- (F x (or_introl eq_refl)), <- IH by (intros y I; apply F; right; exact I). split.
  - intros (ys & E). apply bind_ok in E as (y & Ey & E). apply bind_ok in E as (zs & Ez & _). eauto.
  - intros [(y & Ey) (zs & Ez)]. rewrite Ey. cbn [bind]. rewrite Ez. cbn [bind]. eauto.
Qed.
Lemma asset_payload_cases a : (hex_id a /\ exists p, asset_payload a = Ok p) \/ (~ hex_id a /\ asset_payload a = Err).
Proof.
  unfold hex_id, asset_payload. rewrite reverse_hex_dec. pose proof (hex_decode_not_panic (a_txid a)). destruct (hex_decode (a_txid a)) as [x| |]; cbn [bind]; [left; eauto| |congruence]. right. split; [|reflexivity]. intros (? & Q). discriminate.
Qed.
Lemma asset_outs_cases H ap a : hash_ok H -> prefixes_ok ap -> is_bytes (a_addr a) ->
  ((exists o, asset_outs H ap a = Ok o) <-> asset_payable H ap a) /\ (asset_outs H ap a = Panic <-> asset_crash H ap a).
Proof.
  intros HH HP Ba. unfold asset_outs, asset_payable, both_payable, asset_crash. pose proof (is_prefix_begins (p_bech32 ap) (a_addr a)) as PB. pose proof (bech32_readable_iff (a_addr a)) as R. pose proof (bech32_crashes_exactly (a_addr a)) as C. fold (bech32_crash (a_addr a)) in C.
  pose proof (base58_script_panics H ap false (a_addr a) HH Ba) as P. pose proof (fun l => base58_script_iff H ap false (a_addr a) l HH HP Ba) as S.
  assert (T : forall x : list txout,
     ((exists o, (s <- base58_script H ap false (a_addr a) ;; p <- asset_payload a ;; Ok (x ++ [paying 0 (s ++ u8 (zlen p) :: p ++ [0x75])])) = Ok o) <-> (exists lock, base58_script_for H ap false (a_addr a) lock) /\ hex_id a) /\
     ((s <- base58_script H ap false (a_addr a) ;; p <- asset_payload a ;; Ok (x ++ [paying 0 (s ++ u8 (zlen p) :: p ++ [0x75])])) = Panic <-> base58_crash H (a_addr a))).
  { intros x. destruct (asset_payload_cases a) as [[I (p & Ep)]|[I Ep]]; rewrite Ep; cbn [bind].
    - split.
      + split; [intros (o & E); apply bind_ok in E as (s & E & _); split; [exists s; apply S; exact E|exact I]|]. intros [(l & Q) _]. apply S in Q. rewrite Q. cbn [bind]. eauto.
      + rewrite bind_panics, P. split; [intros [E|(? & _ & Q)]; [exact E|discriminate]|auto].
    - split.
      + split; [intros (o & E); apply bind_ok in E as (s & _ & E); discriminate|]. tauto.
      + rewrite bind_panics, P. split; [intros [E|(? & _ & Q)]; [exact E|discriminate]|auto]. }
  destruct (is_prefix (p_bech32 ap) (a_addr a)).
  - assert (B : begins (p_bech32 ap) (a_addr a)) by (apply PB; reflexivity). destruct (bech32_decode (a_addr a)) as [h| |] eqn:E; cbn [bind].
    + assert (Rd : bech32_readable (a_addr a)) by (apply R; eauto). assert (NC : ~ bech32_crash (a_addr a)) by (intros Q; apply C in Q; discriminate).
      destruct (asset_payload_cases a) as [[I (p & Ep)]|[I Ep]]; rewrite Ep in T |- *; cbn [bind] in T |- *.
      * edestruct T as [T1 T2]. rewrite T1, T2. split; tauto.
      * split; split; [intros (? & Q); discriminate|tauto|discriminate|tauto].
    + assert (NR : ~ bech32_readable (a_addr a)) by (intros Q; apply R in Q as (? & Q); discriminate). assert (NC : ~ bech32_crash (a_addr a)) by (intros Q; apply C in Q; discriminate). split; split; [intros (? & Q); discriminate|tauto|discriminate|tauto].
    + assert (Cr : bech32_crash (a_addr a)) by (apply C; reflexivity). assert (NR : ~ bech32_readable (a_addr a)) by (intros Q; apply R in Q as (? & Q); discriminate). split; split; [intros (? & Q); discriminate|tauto|auto|reflexivity].
  - assert (B : ~ begins (p_bech32 ap) (a_addr a)) by (intros Q; apply PB in Q; discriminate). cbn [bind]. specialize (T []) as [T1 T2]. rewrite T1, T2. split; tauto.
Qed.
Lemma base58_out_cases H ap v : hash_ok H -> prefixes_ok ap -> is_bytes (v_addr v) ->
  ((exists o, (s <- base58_script H ap false (v_addr v) ;; Ok (paying (v_amount v) s)) = Ok o) <-> exists lock, base58_script_for H ap false (v_addr v) lock) /\
  ((s <- base58_script H ap false (v_addr v) ;; Ok (paying (v_amount v) s)) = Panic <-> base58_crash H (v_addr v)).
Proof.
  intros HH HP Bv. split.
  - split; [intros (o & E); apply bind_ok in E as (s & E & _); exists s; apply base58_script_iff; assumption|]. intros (l & E). apply base58_script_iff in E; [|assumption..]. rewrite E. cbn [bind]. eauto.
  - rewrite bind_panics, base58_script_panics by assumption. split; [intros [E|(? & _ & N)]; [exact E|discriminate]|auto].
Qed.
(** Outputs made one by one, then the payload. *)
Lemma with_payload {A} (f : vout -> res A) (g : list A -> bytes -> list txout) H o fine bad vouts : hash_ok H -> is_bytes (o_address o) -> Forall (fun v => is_bytes (v_addr v)) vouts ->
  (forall v, is_bytes (v_addr v) -> ((exists o, f v = Ok o) <-> fine (v_addr v)) /\ (f v = Panic <-> bad (v_addr v))) -> vouts <> [] ->
  (l <- mapr f vouts ;; p <- get_payload bitcoin_al H o ;; Ok (g l p)) = Panic <-> omni_crash H fine bad vouts o.
Proof.
  intros HH Bo B F Ne. unfold omni_crash. rewrite <- (outs_panic f fine bad vouts B F), bind_panics.
  assert (S : (exists l, mapr f vouts = Ok l) <-> Forall (fun v => fine (v_addr v)) vouts) by (apply mapr_some_iff; intros v I; apply F; rewrite Forall_forall in B; apply B, I).
  split.
  - intros [E|(l & E & P)]; [auto|]. right. apply bind_panics in P as [P|(? & _ & P)]; [|discriminate]. apply payload_panics in P as [N C]; [|assumption..]. split; [exact Ne|]. split; [apply S; eauto|auto].
  - intros [E|(_ & Fv & N & C)]; [auto|]. right. apply S in Fv as (l & E). exists l. split; [exact E|]. apply bind_panics. left. apply payload_panics; auto.
Qed.
Lemma omni_not_empty H fine bad o : ~ omni_crash H fine bad [] o.
Proof. intros [N|[N _]]; [|contradiction]. apply not_empty_bad in N. discriminate. Qed.

(** ** C159 *)
(** bitcoincashTransaction and bitcoinsvTransaction with an Omni message. *)
Theorem fork_omni_creation_crashes_exactly : forall H ap vins vouts o lt r, hash_ok H -> prefixes_ok ap -> Forall (fun v => is_bytes (v_addr v)) vouts -> is_bytes (o_address o) ->
  (create_fork_omni H vins vouts o lt r ap = Panic <->
   vins <> [] /\ Forall named vins /\ omni_crash H (fun a => exists lock, base58_script_for H ap false a lock) (base58_crash H) vouts o).
Proof.
  intros H ap vins vouts o lt r HH HP B Bo. unfold create_fork_omni. rewrite create_v_panics. unfold fork_omni_outs. destruct (zlen vouts =? 0) eqn:Zv.
  - apply zlen_zero in Zv. subst vouts. split; [intros [_ N]; discriminate|]. intros (_ & _ & N). exfalso. exact (omni_not_empty _ _ _ _ N).
  - assert (Ne : vouts <> []) by (intros ->; discriminate).
    pose proof (with_payload _ (fun outs p => outs ++ [paying 0 p]) H o (fun a => exists lock, base58_script_for H ap false a lock) (base58_crash H) vouts HH Bo B (fun v Bv => base58_out_cases H ap v HH HP Bv) Ne). tauto.
Qed.
(** omniTransaction with an Omni message. *)
Theorem omni_creation_crashes_exactly : forall H ap vins vouts o lt r, hash_ok H -> prefixes_ok ap -> Forall (fun v => is_bytes (v_addr v)) vouts -> is_bytes (o_address o) ->
  (create_omni H vins vouts o lt r ap = Panic <-> vins <> [] /\ Forall named vins /\ omni_crash H (both_payable H ap) (both_crash H ap) vouts o).
Proof.
  intros H ap vins vouts o lt r HH HP B Bo. unfold create_omni. rewrite create_v_panics. unfold omni_outs, plain_outs. destruct (zlen vouts =? 0) eqn:Zv.
  - apply zlen_zero in Zv. subst vouts. split; [intros [_ N]; discriminate|]. intros (_ & _ & N). exfalso. exact (omni_not_empty _ _ _ _ N).
  - assert (Ne : vouts <> []) by (intros ->; discriminate). pose proof (with_payload (both_outs H ap []) (fun outs p => concat outs ++ [paying 0 p]) H o (both_payable H ap) (both_crash H ap) vouts HH Bo B (fun v Bv => both_outs_cases H ap [] v HH HP Bv) Ne) as W.
    destruct (mapr (both_outs H ap []) vouts); cbn [bind] in *; tauto.
Qed.
(** cxcTransaction with asset transfers and a change output. *)
Theorem asset_creation_crashes_exactly : forall H ap vins tos change lt r, hash_ok H -> prefixes_ok ap -> Forall (fun a => is_bytes (a_addr a)) tos -> is_bytes (v_addr change) ->
  (create_cxc_asset H vins tos change lt r ap = Panic <->
   vins <> [] /\ Forall named vins /\ (first_bad_asset H ap tos \/ (Forall (asset_payable H ap) tos /\ both_crash H ap (v_addr change)))).
Proof.
  intros H ap vins tos change lt r HH HP B Bc. unfold create_cxc_asset. rewrite create_v_panics.
  assert (Q : cxc_asset_outs H ap tos change = Panic <-> first_bad_asset H ap tos \/ (Forall (asset_payable H ap) tos /\ both_crash H ap (v_addr change))); [|tauto].
  unfold cxc_asset_outs. rewrite Forall_forall in B.
  assert (S : (exists l, mapr (asset_outs H ap) tos = Ok l) <-> Forall (asset_payable H ap) tos) by (apply mapr_some_iff; intros a I; apply asset_outs_cases; auto).
  assert (P : mapr (asset_outs H ap) tos = Panic <-> first_bad_asset H ap tos).
  { rewrite mapr_panics_at. unfold first_bad_asset. split; intros (pre & a & post & -> & F & E); exists pre, a, post; (split; [reflexivity|]); rewrite Forall_forall in F |- *;
      (split; [intros x I; apply asset_outs_cases; auto; apply B, in_or_app; auto|apply asset_outs_cases; auto; apply B, in_or_app; right; left; reflexivity]). }
  assert (C : plain_outs H ap [change] = Panic <-> both_crash H ap (v_addr change)).
  { unfold plain_outs. change (zlen [change] =? 0) with false. cbv iota. cbn [mapr]. destruct (both_outs_cases H ap [] change HH HP Bc) as [_ <-]. destruct (both_outs H ap [] change); cbn [bind]; split; try discriminate; reflexivity. }
  rewrite bind_panics, P. split.
  - intros [E|(l & E & N)]; [auto|]. right. split; [apply S; eauto|]. apply bind_panics in N as [N|(? & _ & N)]; [|discriminate]. apply C. exact N.
  - intros [E|[F N]]; [auto|]. right. apply S in F as (l & E). exists l. split; [exact E|]. apply bind_panics. left. apply C. exact N.
Qed.

(** One input and one payable output. A freeze message to an address of three zero bytes ends the program, a simple send with the same
    address does not. An asset sent there with an id that is not hex crashes as well, since the id is read later. *)
Definition ex_ones : list Z := str "111".
Definition ex_message (ty : Z) : omni := {| o_type := ty; o_property := 31; o_amount := 7; o_ecosystem := 1; o_memo := []; o_address := ex_ones |}.
Definition ex_in1 : vin := {| v_txid := hex_encode (repeat 1 32); v_vout := 0 |}.
Definition ex_out1 : vout := {| v_addr := ex_addr [0] 3; v_amount := 5 |}.
Example token_crash_example :
  (exists r, is_bytes r /\ is_base58_of bitcoin_rs r ex_ones /\ zlen r < 4) /\
  create_fork_omni toy_hash [ex_in1] [ex_out1] (ex_message 185) 0 false btc_main = Panic /\ create_omni toy_hash [ex_in1] [ex_out1] (ex_message 186) 0 false btc_main = Panic /\
  (exists s, create_omni toy_hash [ex_in1] [ex_out1] (ex_message 0) 0 false btc_main = Ok s) /\
  create_cxc_asset toy_hash [ex_in1] [{| a_txid := str "xyz"; a_addr := ex_ones; a_amount := 1 |}] ex_out1 0 false btc_main = Panic /\
  create_cxc_asset toy_hash [ex_in1] [{| a_txid := str "xyz"; a_addr := ex_addr [0] 3; a_amount := 1 |}] {| v_addr := ex_ones; v_amount := 1 |} 0 false btc_main = Err /\
  create_cxc_asset toy_hash [ex_in1] [{| a_txid := hex_encode [9]; a_addr := ex_addr [0] 3; a_amount := 1 |}] {| v_addr := ex_ones; v_amount := 1 |} 0 false btc_main = Panic.
Proof.
  split; [exists [0; 0; 0]; split; [repeat constructor; unfold is_byte; lia|]; split; [|vm_compute; reflexivity]|].
  - apply (base58_numeral bitcoin_rs bitcoin_al _ _ bitcoin_alphabet_ok bitcoin_al_eq); [repeat constructor; unfold is_byte; lia|vm_compute; reflexivity].
  - split; [vm_compute; reflexivity|]. split; [vm_compute; reflexivity|]. split; [eexists; vm_compute; reflexivity|]. repeat split; vm_compute; reflexivity.
Qed.
Print Assumptions fork_omni_creation_crashes_exactly.
Print Assumptions omni_creation_crashes_exactly.
Print Assumptions asset_creation_crashes_exactly.
