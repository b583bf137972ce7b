(** C53, C90, C91: HyperCash transactions. *)
From Coq Require Import String ZArith List Bool Lia ZifyBool ZifyNat.
From Verif Require Import Go GoFacts Codes Reader Rd Base58Model Base58CheckModel Base58Props Base58CheckProps CodecModel CodecProps SigModel BtcModel OmniModel OmniProps HyperModel Toy.
Import ListNotations.
Open Scope Z_scope.
Ltac Zify.zify_post_hook ::= idtac.

(** ** Specification *)
(** A transaction as it is read: previous output (id, index, tree) and sequence of every input; amount, script version
    and script of every output; lock time and expiry. *)
Record transaction := { x_version : Z; x_type : Z; x_ins : list (bytes * Z * Z * Z); x_outs : list (Z * Z * bytes); x_lock : Z; x_expiry : Z }.
Definition rin : reader (bytes * Z * Z * Z) := id <~ rtake 32 ;; v <~ rle 4 ;; t <~ rbyte ;; s <~ rle 4 ;; rret (id, v, t, s).
Definition rout : reader (Z * Z * bytes) := a <~ rle 8 ;; v <~ rle 2 ;; s <~ rcounted ;; rret (a, v, s).
Definition rtx : reader transaction :=
  v <~ rle 2 ;; ty <~ rle 2 ;; n <~ rcompact ;; ins <~ rrepeat (Z.to_nat n) rin ;; m <~ rcompact ;; outs <~ rrepeat (Z.to_nat m) rout ;;
  lt <~ rle 4 ;; ex <~ rle 4 ;; rret {| x_version := v; x_type := ty; x_ins := ins; x_outs := outs; x_lock := lt; x_expiry := ex |}.
(** The bytes of a transaction id, of a lock script, and the hash of an address. *)
Definition id_of (i : hvin) : bytes := match hex_decode (i_txid i) with Ok b => rev b | _ => [] end.
Definition lock_of (i : hvin) : bytes := match hex_decode (i_lock i) with Ok b => b | _ => [] end.
Definition valid_in (i : hvin) : Prop := (exists b, hex_decode (i_txid i) = Ok b /\ length b = 32%nat) /\ (exists l, hex_decode (i_lock i) = Ok l).
Definition in_ok (i : hvin) : Prop := 0 <= i_vout i < 2 ^ 32 /\ 0 <= i_amount i < 2 ^ 64 /\ 0 <= i_height i < 2 ^ 32 /\ 0 <= i_index i < 2 ^ 32.
Definition le (n : nat) (v : Z) : bytes := le_bytes n v.
(** What is spent: amount, height and index, shown to the signer and kept in the witness. *)
Definition spent (i : hvin) : bytes := le 8 (i_amount i) ++ le 4 (i_height i) ++ le 4 (i_index i).
(** Pay to public key hash. *)
Definition p2pkh (h : bytes) : bytes := [0x76; 0xa9; 0x14] ++ h ++ [0x88; 0xac].
(** Layout of a transaction of serialisation type [ty]; an output is (amount, script). *)
Definition layout (ty : Z) (ins : list hvin) (outs : list (Z * bytes)) (lt ex : Z) : bytes :=
  [1; 0] ++ le 2 ty ++ var_int (zlen ins) ++ flat_map (fun i => id_of i ++ le 4 (i_vout i) ++ [0; 0xff; 0xff; 0xff; 0xff]) ins ++
  var_int (zlen outs) ++ flat_map (fun o => le 8 (fst o) ++ [0; 0] ++ [zlen (snd o)] ++ snd o) outs ++ le 4 lt ++ le 4 ex.
(** The hash that input [k] signs: the transaction without witnesses, and the lock script of that input alone. *)
Definition sighash (B : bytes -> bytes) (ins : list hvin) (outs : list (Z * bytes)) (lt ex : Z) (k : nat) : bytes :=
  let lock := match nth_error ins k with Some i => lock_of i | None => [] end in
  B ([1; 0; 0; 0] ++ B (layout 1 ins outs lt ex) ++
     B ([1; 0; 3; 0] ++ var_int (zlen ins) ++ zeros k ++ (zlen lock mod 256 :: lock) ++ zeros (length ins - 1 - k))).
Definition text_of (ins : list hvin) (outs : list (Z * bytes)) (lt ex : Z) : list Z :=
  hex_encode (layout 0 ins outs lt ex) ++ flat_map (fun i => str ":" ++ hex_encode (zlen (lock_of i) mod 256 :: lock_of i) ++ str "/" ++ hex_encode (spent i)) ins.
Definition hashes_of (B : bytes -> bytes) (ins : list hvin) (outs : list (Z * bytes)) (lt ex : Z) : list bytes := map (sighash B ins outs lt ex) (seq 0 (length ins)).

(** ** Proofs about the layout *)
Lemma is_le n v : is_bytes (le n v). Proof. apply le_bytes_is_bytes. Qed.
Lemma var_int_bytes v : 0 <= v < 2 ^ 64 -> is_bytes (var_int v).
Proof. intros V. apply (var_int_shortest v V). Qed.
Lemma reads_compact v : 0 <= v < 2 ^ 64 -> reads rcompact (var_int v) v.
Proof. intros V. apply (var_int_shortest v V). Qed.
Lemma id_of_bytes i : valid_in i -> is_bytes (id_of i) /\ length (id_of i) = 32%nat.
Proof. intros [(b & E & L) _]. unfold id_of. rewrite E. destruct (hex_decode_bytes _ _ E) as [B _]. split; [apply is_bytes_rev; exact B|rewrite rev_length; exact L]. Qed.
Lemma lock_of_bytes i : is_bytes (lock_of i).
Proof. unfold lock_of. destruct (hex_decode (i_lock i)) as [b| |] eqn:E; [apply (hex_decode_bytes _ _ E)|constructor|constructor]. Qed.
Lemma reads_in i : valid_in i -> in_ok i -> reads rin (id_of i ++ le 4 (i_vout i) ++ [0; 0xff; 0xff; 0xff; 0xff]) (id_of i, i_vout i, 0, 0xffffffff).
Proof.
  intros V (K & _). destruct (id_of_bytes i V) as [_ L]. unfold rin. eapply reads_bind; [apply reads_take; unfold zlen; lia|]. eapply reads_bind; [apply (reads_le 4); lia|].
  change [0; 0xff; 0xff; 0xff; 0xff] with ([0] ++ le_bytes 4 0xffffffff). eapply reads_bind; [apply reads_byte|]. apply (reads_last _ (fun s => (id_of i, i_vout i, 0, s))). apply (reads_le 4); lia.
Qed.
Lemma reads_out a s : 0 <= a < 2 ^ 64 -> reads rout (le 8 a ++ [0; 0] ++ [zlen s] ++ s) (a, 0, s).
Proof.
  intros A. unfold rout. eapply reads_bind; [apply (reads_le 8); lia|]. eapply reads_bind; [apply (reads_le 2 0); lia|]. apply (reads_last _ (fun s => (a, 0, s))). apply reads_counted.
Qed.
Lemma f2_map {A B C} (P : B -> C -> Prop) (f : A -> B) (g : A -> C) l : (forall x, In x l -> P (f x) (g x)) -> Forall2 P (map f l) (map g l).
Proof. induction l as [|x l IH]; intros F; constructor; [apply F; left; reflexivity|apply IH; intros y Y; apply F; right; exact Y]. Qed.
Theorem hc_layout_read : forall ty ins outs lt ex, 0 <= ty < 2 ^ 16 -> Forall valid_in ins -> Forall in_ok ins -> Forall (fun o => 0 <= fst o < 2 ^ 64) outs ->
  zlen ins < 2 ^ 64 -> zlen outs < 2 ^ 64 -> 0 <= lt < 2 ^ 32 -> 0 <= ex < 2 ^ 32 ->
  rwhole rtx (layout ty ins outs lt ex) = Some {| x_version := 1; x_type := ty; x_ins := map (fun i => (id_of i, i_vout i, 0, 0xffffffff)) ins;
    x_outs := map (fun o => (fst o, 0, snd o)) outs; x_lock := lt; x_expiry := ex |}.
Proof.
  intros ty ins outs lt ex T V I O Li Lo Lt Le. apply reads_whole. unfold rtx, layout. pose proof (zlen_nonneg ins). pose proof (zlen_nonneg outs).
  eapply reads_bind; [apply (reads_le 2 1); lia|]. eapply reads_bind; [apply (reads_le 2 ty); lia|]. eapply reads_bind; [apply reads_compact; lia|].
  rewrite !flat_map_concat_map. eapply reads_bind.
  { replace (Z.to_nat (zlen ins)) with (length (map (fun i => (id_of i, i_vout i, 0, 0xffffffff)) ins)) by (rewrite map_length; unfold zlen; lia). apply reads_repeat. apply f2_map. intros i J. rewrite Forall_forall in V, I. apply reads_in; auto. }
  eapply reads_bind; [apply reads_compact; lia|]. eapply reads_bind.
  { replace (Z.to_nat (zlen outs)) with (length (map (fun o => (fst o, 0, snd o)) outs)) by (rewrite map_length; unfold zlen; lia). apply reads_repeat. apply f2_map. intros o J. rewrite Forall_forall in O. apply reads_out. apply O. exact J. }
  eapply reads_bind; [apply (reads_le 4 lt); lia|]. apply (reads_last _ (fun e => {| x_version := 1; x_type := ty; x_ins := map (fun i => (id_of i, i_vout i, 0, 0xffffffff)) ins; x_outs := map (fun o => (fst o, 0, snd o)) outs; x_lock := lt; x_expiry := e |})). apply (reads_le 4 ex); lia.
Qed.

(** ** Creation *)
Definition mk_in (i : hvin) : htxin := {| t_txid := id_of i; t_vout := put_le 4 (i_vout i); t_tree := 0; t_sequence := [0xff; 0xff; 0xff; 0xff]; t_sigscript := spent i; t_lock := u8 (zlen (lock_of i)) :: lock_of i |}.
Lemma reverse_hex_dec s : reverse_hex s = match hex_decode s with Ok b => Ok (rev b) | _ => Err end.
Proof.
  unfold reverse_hex. pose proof (hex_decode_not_panic s) as NP. destruct (hex_decode s) as [b| |] eqn:E; cbn [bind]; [|destruct (_ =? 1); reflexivity|contradiction].
  destruct (hex_decode_bytes s b E) as [_ L]. replace (zlen s mod 2 =? 1) with false; [reflexivity|]. unfold zlen. rewrite L. replace (Z.of_nat (2 * length b)) with (Z.of_nat (length b) * 2) by lia. rewrite Z.mod_mul by lia. reflexivity.
Qed.
Lemma new_txin_iff i t : new_txin i = Ok t <-> valid_in i /\ t = mk_in i.
Proof.
  unfold new_txin, valid_in, mk_in, id_of, lock_of, spent, le, put_le. rewrite reverse_hex_dec. destruct (hex_decode (i_txid i)) as [b| |]; [|split; [discriminate|intros [[(x & Q & _) _] _]; discriminate]..].
  destruct (Z.eqb_spec (zlen (rev b)) 32) as [L|L]; cbn [negb].
  - destruct (hex_decode (i_lock i)) as [l| |]; [|split; [discriminate|intros [[_ (x & Q)] _]; discriminate]..]. split; [intros E; split; [split|congruence]|intros [_ ->]; reflexivity].
    + exists b. split; [reflexivity|]. unfold zlen in L. rewrite rev_length in L. lia.
    + exists l. reflexivity.
  - split; [discriminate|]. intros [[(x & Q & K) _] _]. exfalso. apply L. assert (b = x) by congruence. subst b. unfold zlen. rewrite rev_length, K. reflexivity.
Qed.
Lemma mapr_iff {A C} (f : A -> res C) (P : A -> Prop) (g : A -> C) l : (forall x y, f x = Ok y <-> P x /\ y = g x) -> forall r, mapr f l = Ok r <-> Forall P l /\ r = map g l.
Proof.
  intros F. induction l as [|x l IH]; intros r; cbn [mapr map].
  - split; [intros E; split; [constructor|congruence]|intros [_ ->]; reflexivity].
  - destruct (f x) as [y| |] eqn:E; cbn [bind].
    + apply F in E as [Px Ey]. destruct (mapr f l) as [t| |] eqn:M; cbn [bind].
      * destruct (proj1 (IH t) eq_refl) as [Pl Et]. split; [intros Q; split; [constructor; assumption|congruence]|intros [_ ->]; congruence].
      * split; [discriminate|]. intros [Pl _]. apply Forall_inv_tail in Pl. pose proof (proj2 (IH (map g l)) (conj Pl eq_refl)). discriminate.
      * split; [discriminate|]. intros [Pl _]. apply Forall_inv_tail in Pl. pose proof (proj2 (IH (map g l)) (conj Pl eq_refl)). discriminate.
    + split; [discriminate|]. intros [Pl _]. apply Forall_inv in Pl. pose proof (proj2 (F x (g x)) (conj Pl eq_refl)). congruence.
    + split; [discriminate|]. intros [Pl _]. apply Forall_inv in Pl. pose proof (proj2 (F x (g x)) (conj Pl eq_refl)). congruence.
Qed.
Lemma slots_zero n : forall a l k, (k < a)%nat -> flat_map (fun j => if Nat.eqb j k then l else [0]) (seq a n) = zeros n.
Proof. induction n as [|n IH]; intros a l k L; [reflexivity|]. cbn [seq flat_map]. replace (Nat.eqb a k) with false by (symmetry; apply Nat.eqb_neq; lia). rewrite IH by lia. reflexivity. Qed.
Lemma slots_at n : forall a l k, (a <= k < a + n)%nat -> flat_map (fun j => if Nat.eqb j k then l else [0]) (seq a n) = zeros (k - a) ++ l ++ zeros (n - 1 - (k - a)).
Proof.
  induction n as [|n IH]; intros a l k L; [lia|]. cbn [seq flat_map]. destruct (Nat.eqb_spec a k) as [E|E].
  - subst k. rewrite slots_zero by lia. rewrite Nat.sub_diag, Nat.sub_0_r. replace (S n - 1)%nat with n by lia. reflexivity.
  - rewrite IH by lia. replace (k - a)%nat with (S (k - S a)) by lia. replace (S n - 1 - S (k - S a))%nat with (n - 1 - (k - S a))%nat by lia. reflexivity.
Qed.
Lemma witness_slots_eq n k l : (k < n)%nat -> witness_slots n k l = zeros k ++ l ++ zeros (n - 1 - k).
Proof. intros L. unfold witness_slots. rewrite slots_at by lia. rewrite !Nat.sub_0_r. reflexivity. Qed.

Section Created.
Variables (B : bytes -> bytes).
(** Transactions built from inputs and (amount, script) outputs. *)
Definition mk_tx (ins : list hvin) (outs : list (Z * bytes)) (lt ex : Z) : htx :=
  {| h_version := put_le 2 1; h_ins := map mk_in ins; h_outs := map (fun o => {| u_amount := put_le 8 (fst o); u_version := put_le 2 0; u_script := zlen (snd o) :: snd o |}) outs; h_locktime := put_le 4 lt; h_expiry := put_le 4 ex |}.
Lemma flat_map_map {A C D} (f : C -> list D) (g : A -> C) l : flat_map f (map g l) = flat_map (fun x => f (g x)) l.
Proof. induction l as [|x l IH]; [reflexivity|]. cbn [map flat_map]. rewrite IH. reflexivity. Qed.
Lemma zlen_map' {A C} (g : A -> C) l : zlen (map g l) = zlen l.
Proof. unfold zlen. rewrite map_length. reflexivity. Qed.
Lemma mk_tx_bytes ins outs lt ex k ty : (ty = 0 \/ ty = 1) -> tx_bytes (mk_tx ins outs lt ex) k ty = Ok (layout ty ins outs lt ex).
Proof.
  intros T. unfold tx_bytes. replace ((ty =? 1) || (ty =? 0)) with true by lia. unfold mk_tx, layout. cbn [h_version h_ins h_outs h_locktime h_expiry]. rewrite !flat_map_map, !zlen_map'. f_equal.
Qed.
Lemma mk_tx_hash ins outs lt ex k : (k < length ins)%nat -> get_hash B (mk_tx ins outs lt ex) k = Ok (sighash B ins outs lt ex k).
Proof.
  intros L. unfold get_hash. rewrite mk_tx_bytes by lia. cbn [bind]. unfold tx_bytes. change ((3 =? 1) || (3 =? 0)) with false. change (3 =? 3) with true. cbv iota. cbn [h_ins mk_tx]. rewrite nth_error_map.
  destruct (nth_error ins k) as [i|] eqn:E; [|apply nth_error_None in E; lia]. cbn [option_map bind]. unfold sighash. rewrite E. rewrite map_length, zlen_map', witness_slots_eq by exact L. cbn [t_lock mk_in]. reflexivity.
Qed.
Lemma mk_tx_text ins outs lt ex : text_and_hashes B (mk_tx ins outs lt ex) = Ok (text_of ins outs lt ex, map hex_encode (hashes_of B ins outs lt ex)).
Proof.
  unfold text_and_hashes. rewrite mk_tx_bytes by lia. cbn [bind]. cbn [h_ins mk_tx]. rewrite map_length.
  rewrite (mapr_ok _ (fun k => hex_encode (sighash B ins outs lt ex k))) by (intros k I; apply List.in_seq in I; rewrite mk_tx_hash by lia; reflexivity). cbn [bind]. rewrite flat_map_map. unfold text_of, hashes_of. rewrite map_map. reflexivity.
Qed.

Variables (al : alphabet) (H : bytes -> bytes).
Definition hash_of (o : hvout) : bytes := match decode_check al H (v_address o) with Ok (_, h) => h | _ => [] end.
Definition valid_out (o : hvout) : Prop := exists h, decode_check al H (v_address o) = Ok ([0x09; 0x7f], h) /\ length h = 20%nat.
Definition pay (o : hvout) : Z * bytes := (v_amount o, p2pkh (hash_of o)).
Lemma new_txout_iff o t : new_txout al H o = Ok t <-> valid_out o /\ t = {| u_amount := put_le 8 (v_amount o); u_version := put_le 2 0; u_script := zlen (p2pkh (hash_of o)) :: p2pkh (hash_of o) |}.
Proof.
  unfold new_txout, valid_out, hash_of. destruct (decode_check al H (v_address o)) as [[pre h]| |]; cbn [bind]; [|split; [discriminate|intros [(x & Q & _) _]; discriminate]..].
  destruct (Z.eqb_spec (zlen h) 20) as [L|L]; cbn [negb].
  - rewrite orb_false_r. assert (Z25 : zlen (p2pkh h) = 25) by (unfold p2pkh; rewrite !zlen_app, L; reflexivity). rewrite Z25.
    destruct (beq pre [9; 127]) eqn:Q.
    + apply beq_eq in Q. subst pre. change (zlen [9; 127]) with 2. cbn [negb Z.eqb Pos.eqb]. split; [intros E; split; [exists h; split; [reflexivity|unfold zlen in L; lia]|match type of E with Ok ?x = Ok t => assert (Q : t = x) by congruence end; rewrite Q; reflexivity]|intros [_ ->]; reflexivity].
    + replace (if negb (zlen pre =? 2) then Err else if negb false then Err else Ok {| u_amount := put_le 8 (v_amount o); u_version := put_le 2 0; u_script := [25; 118; 169; 20] ++ h ++ [136; 172] |}) with (@Err htxout) by (destruct (negb (zlen pre =? 2)); reflexivity).
      split; [discriminate|]. intros [(x & E & _) _]. assert (pre = [9; 127]) by congruence. subst pre. rewrite beq_refl in Q. discriminate.
  - rewrite orb_true_r. split; [discriminate|]. intros [(x & E & K) _]. assert (h = x) by congruence. subst x. exfalso. apply L. unfold zlen. lia.
Qed.
Lemma new_tx_iff ins outs lt ex t : new_tx al H ins outs lt ex = Ok t <-> ins <> [] /\ outs <> [] /\ Forall valid_in ins /\ Forall valid_out outs /\ t = mk_tx ins (map pay outs) lt ex.
Proof.
  assert (K : ins <> [] -> outs <> [] -> new_tx al H ins outs lt ex = (i <- mapr new_txin ins ;; o <- mapr (new_txout al H) outs ;; Ok {| h_version := put_le 2 1; h_ins := i; h_outs := o; h_locktime := put_le 4 lt; h_expiry := put_le 4 ex |})) by (intros N1 N2; destruct ins; [contradiction|]; destruct outs; [contradiction|]; reflexivity).
  destruct ins as [|i0 ins0]; [split; [discriminate|intros [N _]; contradiction]|]. destruct outs as [|o0 outs0]; [split; [discriminate|intros (_ & N & _); contradiction]|].
  rewrite K by discriminate. clear K. set (ins := i0 :: ins0). set (outs := o0 :: outs0).
  pose proof (mapr_iff new_txin valid_in mk_in ins new_txin_iff) as MI. pose proof (mapr_iff (new_txout al H) valid_out _ outs new_txout_iff) as MO.
  split.
  - intros E. apply bind_ok in E as (i & E1 & E). apply bind_ok in E as (o & E2 & E). apply MI in E1 as [V1 ->]. apply MO in E2 as [V2 ->]. split; [discriminate|]. split; [discriminate|]. split; [exact V1|]. split; [exact V2|].
    assert (T : t = {| h_version := put_le 2 1; h_ins := map mk_in ins; h_outs := map (fun x => {| u_amount := put_le 8 (v_amount x); u_version := put_le 2 0; u_script := zlen (p2pkh (hash_of x)) :: p2pkh (hash_of x) |}) outs; h_locktime := put_le 4 lt; h_expiry := put_le 4 ex |}) by congruence.
    rewrite T. unfold mk_tx. rewrite map_map. reflexivity.
  - intros (_ & _ & V1 & V2 & ->). rewrite (proj2 (MI _) (conj V1 eq_refl)), (proj2 (MO _) (conj V2 eq_refl)). cbn [bind]. unfold mk_tx. rewrite map_map. reflexivity.
Qed.
(** Creation succeeds exactly when there are inputs and outputs, all ids are 32 bytes of hex, all lock scripts are hex
    and all addresses are checked addresses with prefix 09 7f; text and hashes are then those of the specification. *)
Theorem hc_create_exact : forall ins outs lt ex text hashes, create_empty B al H ins outs lt ex = Ok (text, hashes) <->
  ins <> [] /\ outs <> [] /\ Forall valid_in ins /\ Forall valid_out outs /\
  text = text_of ins (map pay outs) lt ex /\ hashes = map hex_encode (hashes_of B ins (map pay outs) lt ex).
Proof.
  intros ins outs lt ex text hashes. unfold create_empty. split.
  - intros E. apply bind_ok in E as (t & E1 & E2). apply new_tx_iff in E1 as (N1 & N2 & V1 & V2 & ->). rewrite mk_tx_text in E2. split; [exact N1|]. split; [exact N2|]. split; [exact V1|]. split; [exact V2|]. split; congruence.
  - intros (N1 & N2 & V1 & V2 & -> & ->). rewrite (proj2 (new_tx_iff ins outs lt ex _) (conj N1 (conj N2 (conj V1 (conj V2 eq_refl))))). cbn [bind]. apply mk_tx_text.
Qed.
(** Omni: the same with the second output a simple send of no coins. *)
Definition change_list (c : option hvout) : list hvout := match c with Some c => [c] | None => [] end.
Definition simple_send (property amount : Z) : bytes := [0x6a; 0x14] ++ str "omni" ++ [0; 0; 0; 0] ++ be_bytes 4 property ++ be_bytes 8 amount.
Theorem hc_create_omni_exact : forall ins to change amount property lt ex text hashes, 0 <= property < 2 ^ 32 -> 0 <= amount < 2 ^ 64 ->
  let outs := pay to :: (0, simple_send property amount) :: map pay (change_list change) in
  omni_script (simple_send property amount) = Some (Transfer 0 property amount) /\
  (create_omni B al H ins to change amount property lt ex = Ok (text, hashes) <->
   ins <> [] /\ Forall valid_in ins /\ valid_out to /\ Forall valid_out (change_list change) /\
   text = text_of ins outs lt ex /\ hashes = map hex_encode (hashes_of B ins outs lt ex)).
Proof.
  intros ins to change amount property lt ex text hashes Pp Pa outs. 
  assert (Es : hc_simple_send property amount = zlen (simple_send property amount) :: simple_send property amount).
  { unfold hc_simple_send, simple_send. cbv zeta. rewrite !zlen_app, ?zlen_put, ?zlen_be_bytes. change (zlen [111; 109; 110; 105]) with 4. match goal with |- context [zlen [u8 ?x]] => change (zlen [u8 x]) with 1 end. reflexivity. }
  split.
  { destruct (hc_simple_send_says property amount Pp Pa) as (s & R & Q). rewrite Es, (reads_whole _ _ _ (reads_counted (simple_send property amount))) in R. congruence. }
  unfold create_omni. fold (change_list change). split.
  - intros E. apply bind_ok in E as (t & E1 & E2). apply new_tx_iff in E1 as (N1 & N2 & V1 & V2 & ->). cbn [app map mk_tx h_outs] in E2. rewrite Es in E2.
    change (text_and_hashes B (mk_tx ins outs lt ex) = Ok (text, hashes)) in E2. rewrite mk_tx_text in E2.
    inversion V2 as [|? ? Vt V3]; subst. inversion V3; subst. split; [exact N1|]. split; [exact V1|]. split; [exact Vt|]. split; [assumption|]. split; congruence.
  - intros (N1 & V1 & Vt & Vc & T & Hs). subst text hashes.
    assert (V2 : Forall valid_out ([to; to] ++ change_list change)) by (constructor; [exact Vt|constructor; [exact Vt|exact Vc]]).
    assert (N2 : [to; to] ++ change_list change <> []) by discriminate.
    rewrite (proj2 (new_tx_iff ins ([to; to] ++ change_list change) lt ex _) (conj N1 (conj N2 (conj V1 (conj V2 eq_refl))))). cbn [bind]. cbn [app map mk_tx h_outs]. rewrite Es.
    change (text_and_hashes B (mk_tx ins outs lt ex) = Ok (text_of ins outs lt ex, map hex_encode (hashes_of B ins outs lt ex))). apply mk_tx_text.
Qed.
End Created.

(** ** Verification *)
Lemma split_on_none c a : ~ In c a -> split_on c a = [a].
Proof. induction a as [|x a IH]; intros N; [reflexivity|]. cbn [split_on]. destruct (Z.eqb_spec x c) as [E|E]; [exfalso; apply N; left; exact E|]. rewrite IH by (intros I; apply N; right; exact I). reflexivity. Qed.
Lemma split_on_cons c a r : ~ In c a -> split_on c (a ++ c :: r) = a :: split_on c r.
Proof. induction a as [|x a IH]; intros N; cbn [app split_on]; [rewrite Z.eqb_refl; reflexivity|]. destruct (Z.eqb_spec x c) as [E|E]; [exfalso; apply N; left; exact E|]. rewrite IH by (intros I; apply N; right; exact I). reflexivity. Qed.
Lemma split_on_join c ps : forall a, ~ In c a -> Forall (fun p => ~ In c p) ps -> split_on c (a ++ flat_map (cons c) ps) = a :: ps.
Proof.
  induction ps as [|p ps IH]; intros a N F; cbn [flat_map]; [rewrite app_nil_r; apply split_on_none; exact N|]. inversion F; subst. cbn [app]. rewrite split_on_cons by exact N. f_equal. apply IH; assumption.
Qed.
Lemma split_on_inv c s : forall a ps, split_on c s = a :: ps -> s = a ++ flat_map (cons c) ps.
Proof.
  induction s as [|x s IH]; intros a ps; cbn [split_on]; [intros E; assert (a = []) by congruence; assert (ps = []) by congruence; subst; reflexivity|].
  destruct (Z.eqb_spec x c) as [E|E].
  - intros Q. assert (a = []) by congruence. assert (P : ps = split_on c s) by congruence. subst a. destruct (split_on c s) as [|b bs] eqn:S1; [destruct s as [|y s']; cbn [split_on] in S1; [discriminate|destruct (y =? c); [discriminate|destruct (split_on c s'); discriminate]]|]. subst ps. cbn [app flat_map]. rewrite (IH b bs eq_refl), E. reflexivity.
  - destruct (split_on c s) as [|b bs] eqn:S1; intros Q.
    + destruct s as [|y s']; cbn [split_on] in S1; [discriminate|destruct (y =? c); [discriminate|destruct (split_on c s'); discriminate]].
    + assert (a = x :: b) by congruence. assert (ps = bs) by congruence. subst. cbn [app]. f_equal. apply IH. reflexivity.
Qed.
Lemma hex_chars b x : is_bytes b -> In x (hex_encode b) -> 48 <= x <= 57 \/ 97 <= x <= 102.
Proof.
  intros Bb I. unfold hex_encode in I. apply in_flat_map in I as (y & Iy & I). unfold is_bytes in Bb. rewrite Forall_forall in Bb. specialize (Bb y Iy). unfold is_byte in Bb.
  assert (D : forall d, 0 <= d < 16 -> 48 <= hex_digit d <= 57 \/ 97 <= hex_digit d <= 102) by (intros d Hd; unfold hex_digit; destruct (Z.ltb_spec d 10); lia).
  destruct I as [<-|[<-|[]]]; apply D; [split; [apply Z.div_pos; lia|apply Z.div_lt_upper_bound; lia]|apply Z.mod_pos_bound; lia].
Qed.
Lemma counted_lock_bytes i : is_bytes (zlen (lock_of i) mod 256 :: lock_of i).
Proof. apply is_bytes_cons. split; [unfold is_byte; apply Z.mod_pos_bound; lia|apply lock_of_bytes]. Qed.
Lemma spent_bytes i : is_bytes (spent i).
Proof. unfold spent. apply is_bytes_app; split; [apply is_le|]. apply is_bytes_app; split; apply is_le. Qed.
Lemma layout_bytes ty ins outs lt ex : Forall valid_in ins -> Forall (fun o => is_bytes (snd o) /\ zlen (snd o) < 256) outs -> zlen ins < 2 ^ 64 -> zlen outs < 2 ^ 64 -> is_bytes (layout ty ins outs lt ex).
Proof.
  intros V O Li Lo. unfold layout. pose proof (zlen_nonneg ins). pose proof (zlen_nonneg outs).
  apply is_bytes_app; split; [bts|]. apply is_bytes_app; split; [apply is_le|]. apply is_bytes_app; split; [apply var_int_bytes; lia|]. apply is_bytes_app; split.
  { unfold is_bytes. rewrite Forall_forall. intros x I. apply in_flat_map in I as (i & Ii & I). rewrite Forall_forall in V. destruct (id_of_bytes i (V i Ii)) as [Bi _].
    assert (K : is_bytes (id_of i ++ le 4 (i_vout i) ++ [0; 0xff; 0xff; 0xff; 0xff])) by (apply is_bytes_app; split; [exact Bi|]; apply is_bytes_app; split; [apply is_le|bts]). unfold is_bytes in K. rewrite Forall_forall in K. apply K. exact I. }
  apply is_bytes_app; split; [apply var_int_bytes; lia|]. apply is_bytes_app; split.
  { unfold is_bytes. rewrite Forall_forall. intros x I. apply in_flat_map in I as (o & Io & I). rewrite Forall_forall in O. destruct (O o Io) as [Bo Lo'].
    assert (K : is_bytes (le 8 (fst o) ++ [0; 0] ++ [zlen (snd o)] ++ snd o)). { apply is_bytes_app; split; [apply is_le|]. apply is_bytes_app; split; [bts|]. apply is_bytes_app; split; [|exact Bo]. apply is_bytes_cons. split; [unfold is_byte; pose proof (zlen_nonneg (snd o)); unfold bytes in *; lia|constructor]. }
    unfold is_bytes in K. rewrite Forall_forall in K. apply K. exact I. }
  apply is_bytes_app; split; apply is_le.
Qed.
Section Verify.
Variables (B decompress : bytes -> bytes) (verify : bytes -> bytes -> bytes -> bool).
(** Signatures for which the witness can be written: the key decompresses to something and the DER form exists
    (signature_script_panics_iff: r and s not 0). *)
Definition writes (s : hsig) (w : bytes) : Prop := decompress (s_pubkey s) <> [] /\ hypercash_sigpub (s_signature s) (s_pubkey s) 1 = Ok w.
Definition data_of (i : hvin) : list Z := hex_encode (zlen (lock_of i) mod 256 :: lock_of i) ++ 47 :: hex_encode (spent i).
Lemma tail_slice (l : bytes) : l <> [] -> slice_from l 1 = Ok (tl l).
Proof.
  intros N. destruct l as [|x l]; [contradiction|]. cbn [tl]. unfold slice_from, slice. rewrite zlen_cons. pose proof (zlen_nonneg l). replace ((0 <=? 1) && (1 <=? 1 + zlen l) && (1 + zlen l <=? 1 + zlen l)) with true by lia.
  f_equal. change (Z.to_nat 1) with 1%nat. cbn [skipn]. apply firstn_all2. unfold zlen. lia.
Qed.
Lemma round_created prefix n k i s w : (k < n)%nat -> writes s w ->
  verify_round B decompress verify prefix n k (data_of i) s =
  Ok (if verify (tl (decompress (s_pubkey s))) (B ([1; 0; 0; 0] ++ B prefix ++ B ([1; 0; 3; 0] ++ var_int (Z.of_nat n) ++ zeros k ++ (zlen (lock_of i) mod 256 :: lock_of i) ++ zeros (n - 1 - k)))) (s_signature s) then Some (spent i ++ w) else None).
Proof.
  intros L [D W]. unfold verify_round, data_of. rewrite split_on_cons by (intros I; apply hex_chars in I; [lia|apply counted_lock_bytes]).
  rewrite split_on_none by (intros I; apply hex_chars in I; [lia|apply spent_bytes]). rewrite hex_decode_encode by apply counted_lock_bytes. cbv zeta. rewrite tail_slice by exact D. cbn [bind].
  rewrite witness_slots_eq by exact L. change (put_le 4 1) with [1; 0; 0; 0]. change (put_le 2 1 ++ put_le 2 3 ++ ?x) with ([1; 0; 3; 0] ++ x).
  match goal with |- context [verify ?a ?b ?c] => change (verify a b c) with (verify (tl (decompress (s_pubkey s))) (B ([1; 0; 0; 0] ++ B prefix ++ B ([1; 0; 3; 0] ++ var_int (Z.of_nat n) ++ zeros k ++ (zlen (lock_of i) mod 256 :: lock_of i) ++ zeros (n - 1 - k)))) (s_signature s)) end.
  destruct (verify _ _ _); cbn [negb]; [|reflexivity]. rewrite hex_decode_encode by apply spent_bytes. rewrite W. reflexivity.
Qed.
Lemma loop_created ins outs lt ex : forall part sigs ws k, (forall j, (j < length part)%nat -> nth_error ins (k + j) = nth_error part j) -> (k + length part = length ins)%nat -> length sigs = length part -> Forall2 writes sigs ws ->
  verify_loop B decompress verify (layout 1 ins outs lt ex) (length ins) k (map data_of part) sigs =
  Ok (if forallb (fun '(h, s) => verify (tl (decompress (s_pubkey s))) h (s_signature s)) (combine (map (sighash B ins outs lt ex) (seq k (length part))) sigs)
      then Some (concat (map (fun '(i, w) => spent i ++ w) (combine part ws))) else None).
Proof.
  induction part as [|i part IH]; intros sigs ws k N K L F; [reflexivity|]. destruct F as [|s w sigs ws W F]; [discriminate|]. cbn [map verify_loop length seq combine forallb]. cbn [length] in K, L, N.
  rewrite (round_created _ _ _ _ _ w) by (lia || exact W). cbn [bind].
  assert (E : sighash B ins outs lt ex k = B ([1; 0; 0; 0] ++ B (layout 1 ins outs lt ex) ++ B ([1; 0; 3; 0] ++ var_int (Z.of_nat (length ins)) ++ zeros k ++ (zlen (lock_of i) mod 256 :: lock_of i) ++ zeros (length ins - 1 - k)))).
  { unfold sighash. specialize (N 0%nat ltac:(lia)). rewrite Nat.add_0_r in N. rewrite N. reflexivity. }
  rewrite <- E. destruct (verify _ _ _); cbn [andb]; [|reflexivity].
  rewrite (IH sigs ws (S k)); [|intros j J; specialize (N (S j) ltac:(lia)); rewrite Nat.add_succ_r in N; exact N|lia|lia|exact F]. cbn [bind].
  destruct (forallb _ _); reflexivity.
Qed.
(** Every signature is checked against the hash that was returned for its input, and the result is the transaction with
    one witness per input in order: what is spent, and the script of the signature and key. *)
Theorem hc_verify_created : forall ins outs lt ex sigs ws, ins <> [] -> Forall valid_in ins -> Forall (fun o => is_bytes (snd o) /\ zlen (snd o) < 256) outs -> zlen ins < 2 ^ 64 -> zlen outs < 2 ^ 64 -> Forall2 writes sigs ws ->
  verify_combine B decompress verify (text_of ins outs lt ex) sigs =
  Ok (if (Nat.eqb (length sigs) (length ins)) && forallb (fun '(h, s) => verify (tl (decompress (s_pubkey s))) h (s_signature s)) (combine (hashes_of B ins outs lt ex) sigs)
      then Some (hex_encode (layout 0 ins outs lt ex ++ var_int (zlen ins) ++ concat (map (fun '(i, w) => spent i ++ w) (combine ins ws)))) else None).
Proof.
  intros ins outs lt ex sigs ws N V O Li Lo F. unfold verify_combine, text_of. pose proof (layout_bytes 0 ins outs lt ex V O Li Lo) as BL.
  assert (J : flat_map (fun i => str ":" ++ hex_encode (zlen (lock_of i) mod 256 :: lock_of i) ++ str "/" ++ hex_encode (spent i)) ins = flat_map (cons 58) (map data_of ins)) by (rewrite flat_map_map; reflexivity).
  rewrite J, split_on_join.
  2: { intros I. apply hex_chars in I; [lia|exact BL]. }
  2: { rewrite Forall_forall. intros d I. apply in_map_iff in I as (i & <- & _). unfold data_of. intros I. apply in_app_or in I as [I|[I|I]]; [apply hex_chars in I; [lia|apply counted_lock_bytes]|lia|apply hex_chars in I; [lia|apply spent_bytes]]. }
  replace (zlen (hex_encode (layout 0 ins outs lt ex) :: map data_of ins) <=? 1) with false by (rewrite zlen_cons; unfold zlen; rewrite map_length; destruct ins; [contradiction|cbn [length]; lia]).
  rewrite map_length, (Nat.eqb_sym (length ins)). destruct (Nat.eqb_spec (length sigs) (length ins)) as [L|L]; cbn [negb andb]; [|reflexivity]. rewrite hex_decode_encode by exact BL.
  assert (Ly : forall ty, exists body, layout 0 ins outs lt ex = [1; 0; 0; 0] ++ body /\ layout ty ins outs lt ex = [1; 0] ++ le 2 ty ++ body) by (intros ty; eexists; split; reflexivity).
  destruct (Ly 1) as (body & E0 & E1). assert (I2 : idx (layout 0 ins outs lt ex) 2 = Ok 0) by (rewrite E0; reflexivity). assert (I3 : idx (layout 0 ins outs lt ex) 3 = Ok 0) by (rewrite E0; reflexivity).
  rewrite I2. cbn [bind]. change (negb (0 =? 0)) with false. cbv iota. rewrite I3. cbn [bind]. change (negb (0 =? 0)) with false. cbv iota.
  assert (P : firstn 2 (layout 0 ins outs lt ex) ++ put_le 2 1 ++ skipn 4 (layout 0 ins outs lt ex) = layout 1 ins outs lt ex) by (rewrite E0, E1; reflexivity). rewrite P, L.
  rewrite (loop_created ins outs lt ex ins sigs ws 0); [|reflexivity|reflexivity|exact L|exact F]. cbn [bind]. unfold hashes_of. destruct (forallb _ _); [|reflexivity]. rewrite <- app_assoc. unfold zlen. rewrite L. reflexivity.
Qed.
(** For any text whatever: acceptance means that every signature was verified against the hash of the transaction bytes
    and lock script in the text, and the result is those bytes with the witnesses. *)
Definition rehash (tx : bytes) (n k : nat) (lock : bytes) : bytes :=
  B ([1; 0; 0; 0] ++ B (firstn 2 tx ++ [1; 0] ++ skipn 4 tx) ++ B ([1; 0; 3; 0] ++ var_int (Z.of_nat n) ++ zeros k ++ lock ++ zeros (n - 1 - k))).
Theorem hc_verify_sound : forall text sigs r, verify_combine B decompress verify text sigs = Ok (Some r) ->
  exists t0 tx parts wits, text = t0 ++ flat_map (fun p => str ":" ++ fst p ++ str "/" ++ snd p) parts /\ hex_decode t0 = Ok tx /\ nth_error tx 2 = Some 0 /\ nth_error tx 3 = Some 0 /\
    length parts = length sigs /\ sigs <> [] /\
    Forall2 (fun '(k, (p, s)) w => exists lock sc e, hex_decode (fst p) = Ok lock /\ hex_decode (snd p) = Ok sc /\ verify (tl (decompress (s_pubkey s))) (rehash tx (length sigs) k lock) (s_signature s) = true /\
              hypercash_sigpub (s_signature s) (s_pubkey s) 1 = Ok e /\ w = sc ++ e) (combine (seq 0 (length sigs)) (combine parts sigs)) wits /\
    r = hex_encode (tx ++ var_int (zlen sigs) ++ concat wits).
Proof.
  intros text sigs r E. unfold verify_combine in E. destruct (split_on 58 text) as [|t0 datas] eqn:S0; [discriminate|]. apply split_on_inv in S0.
  destruct (Z.leb_spec (zlen (t0 :: datas)) 1) as [|Ln]; [discriminate|]. destruct (Nat.eqb_spec (length datas) (length sigs)) as [L|]; cbn [negb] in E; [|discriminate]. destruct (hex_decode t0) as [tx| |] eqn:Ht; try discriminate.
  apply bind_ok in E as (b2 & I2 & E). destruct (Z.eqb_spec 0 b2) as [Z2|]; cbn [negb] in E; [|discriminate]. apply bind_ok in E as (b3 & I3 & E). destruct (Z.eqb_spec 0 b3) as [Z3|]; cbn [negb] in E; [|discriminate]. subst b2 b3.
  cbv zeta in E. change (put_le 2 1) with [1; 0] in E. set (prefix := firstn 2 tx ++ [1; 0] ++ skipn 4 tx) in *. apply bind_ok in E as (x & E & R). destruct x as [x|]; [|discriminate]. assert (Er : r = hex_encode ((tx ++ var_int (zlen sigs)) ++ x)) by congruence. clear R.
  assert (G : forall ds ss k x, length ds = length ss -> (k + length ss = length sigs)%nat -> verify_loop B decompress verify prefix (length sigs) k ds ss = Ok (Some x) ->
     exists parts wits, flat_map (cons 58) ds = flat_map (fun p => str ":" ++ fst p ++ str "/" ++ snd p) parts /\ length parts = length ss /\
     Forall2 (fun '(k, (p, s)) w => exists lock sc e, hex_decode (fst p) = Ok lock /\ hex_decode (snd p) = Ok sc /\ verify (tl (decompress (s_pubkey s))) (rehash tx (length sigs) k lock) (s_signature s) = true /\
              hypercash_sigpub (s_signature s) (s_pubkey s) 1 = Ok e /\ w = sc ++ e) (combine (seq k (length ss)) (combine parts ss)) wits /\ x = concat wits).
  { clear x E Er. induction ds as [|d ds IH]; intros ss k x Lk K E; destruct ss as [|s ss]; try discriminate; cbn [verify_loop] in E.
    - exists [], []. assert (x = []) by congruence. subst x. split; [reflexivity|]. split; [reflexivity|]. split; [constructor|reflexivity].
    - cbn [length] in K, Lk. apply bind_ok in E as (ro & E1 & E). destruct ro as [y|]; [|discriminate]. apply bind_ok in E as (ro & E2 & E). destruct ro as [z|]; [|discriminate]. assert (x = y ++ z) by congruence. subst x.
      destruct (IH ss (S k) z ltac:(lia) ltac:(lia) E2) as (parts & wits & Q1 & Q2 & Q3 & Q4).
      unfold verify_round in E1. destruct (split_on 47 d) as [|lt1 [|st [|? ?]]] eqn:S1; try discriminate. apply split_on_inv in S1. cbn [flat_map] in S1. rewrite app_nil_r in S1.
      destruct (hex_decode lt1) as [lock| |] eqn:Hl; try discriminate. cbv zeta in E1. apply bind_ok in E1 as (pub & Ep & E1).
      assert (Pt : pub = tl (decompress (s_pubkey s))). { assert (Nd : decompress (s_pubkey s) <> []) by (intros Q; rewrite Q in Ep; discriminate). rewrite tail_slice in Ep by exact Nd. congruence. }
      rewrite witness_slots_eq in E1 by lia. change (put_le 4 1) with [1; 0; 0; 0] in E1. subst pub.
      match type of E1 with context [verify ?a ?b ?c] => change (verify a b c) with (verify (tl (decompress (s_pubkey s))) (rehash tx (length sigs) k lock) (s_signature s)) in E1 end.
      destruct (verify _ _ _) eqn:Ev; cbn [negb] in E1; [|discriminate]. destruct (hex_decode st) as [sc| |] eqn:Hs; try discriminate. apply bind_ok in E1 as (e & Ee & E1). assert (y = sc ++ e) by congruence. subst y.
      exists ((lt1, st) :: parts), ((sc ++ e) :: wits). cbn [flat_map fst snd]. split; [rewrite Q1, S1; reflexivity|]. split; [cbn [length]; lia|]. split; [|cbn [concat]; rewrite Q4; reflexivity].
      cbn [length seq combine]. constructor; [|exact Q3]. exists lock, sc, e. split; [exact Hl|]. split; [exact Hs|]. split; [exact Ev|]. split; [exact Ee|reflexivity]. }
  destruct (G datas sigs 0%nat x L eq_refl E) as (parts & wits & Q1 & Q2 & Q3 & Q4). exists t0, tx, parts, wits. split; [rewrite S0, Q1; reflexivity|]. split; [exact Ht|].
  assert (IX : forall i, 0 <= i -> idx tx i = Ok 0 -> nth_error tx (Z.to_nat i) = Some 0) by (intros i Hi Q; unfold idx in Q; replace (i <? 0) with false in Q by lia; destruct (nth_error tx (Z.to_nat i)); congruence).
  split; [exact (IX 2 ltac:(lia) I2)|]. split; [exact (IX 3 ltac:(lia) I3)|]. split; [exact Q2|]. split; [intros Q; subst sigs; rewrite zlen_cons in Ln; unfold zlen in Ln; cbn [length] in L; lia|]. split; [exact Q3|]. rewrite Er, Q4, <- app_assoc. reflexivity.
Qed.
End Verify.

(** ** The list of inputs *)
Lemma slice_val {A} (l : list A) i j : 0 <= i <= j -> j <= zlen l -> slice l i j = Ok (firstn (Z.to_nat (j - i)) (skipn (Z.to_nat i) l)).
Proof. intros. unfold slice. replace (_ && _ && _) with true by lia. reflexivity. Qed.
Lemma vin_total tx : forall c i, 0 <= i -> i + 41 * Z.of_nat c <= zlen tx -> exists l, vin_loop tx c i = Ok l.
Proof.
  induction c as [|c IH]; intros i Hi L; [eexists; reflexivity|]. cbn [vin_loop]. destruct (Z.gtb_spec (i + 32) (zlen tx)); [lia|]. rewrite slice_val by lia. cbn [bind]. destruct (Z.gtb_spec (i + 32 + 9) (zlen tx)); [lia|]. rewrite slice_val by lia. cbn [bind]. unfold get_le.
  match goal with |- context [zlen ?x <? Z.of_nat 4] => assert (zlen x = 4) as -> by (unfold zlen in *; rewrite firstn_length, skipn_length; lia) end. cbn [Z.ltb Z.of_nat Pos.of_succ_nat Pos.succ Z.compare Pos.compare Pos.compare_cont bind].
  destruct (IH (i + 41) ltac:(lia) ltac:(lia)) as (l & ->). eexists. reflexivity.
Qed.
Lemma vin_first tx c i id : 0 <= i -> i + 41 * Z.of_nat (S c) <= zlen tx -> slice tx i (i + 32) = Ok id -> exists l v, vin_loop tx (S c) i = Ok ((reverse_to_hex id, v) :: l).
Proof.
  intros Hi L S1. cbn [vin_loop]. destruct (Z.gtb_spec (i + 32) (zlen tx)); [lia|]. destruct (Z.gtb_spec (i + 32 + 9) (zlen tx)); [lia|]. rewrite S1. cbn [bind]. rewrite slice_val by lia. cbn [bind]. unfold get_le.
  match goal with |- context [zlen ?x <? Z.of_nat 4] => assert (zlen x = 4) as -> by (unfold zlen in *; rewrite firstn_length, skipn_length; lia) end. change (4 <? Z.of_nat 4) with false. cbv iota. cbn [bind].
  destruct (vin_total tx c (i + 41) ltac:(lia) ltac:(lia)) as (l & ->). cbn [bind]. do 2 eexists. reflexivity.
Qed.
Lemma vin_exact post : forall part pre, Forall valid_in part -> Forall in_ok part ->
  vin_loop (pre ++ flat_map (fun i => id_of i ++ le 4 (i_vout i) ++ [0; 0xff; 0xff; 0xff; 0xff]) part ++ post) (length part) (zlen pre) = Ok (map (fun i => (reverse_to_hex (id_of i), i_vout i)) part).
Proof.
  induction part as [|i part IH]; intros pre V I; [reflexivity|]. inversion V as [|? ? Vi Vr]; subst. inversion I as [|? ? (Ki & _) Ir]; subst. destruct (id_of_bytes i Vi) as [_ L]. cbn [length vin_loop flat_map map].
  set (tx := pre ++ ((id_of i ++ le 4 (i_vout i) ++ [0; 255; 255; 255; 255]) ++ flat_map (fun i => id_of i ++ le 4 (i_vout i) ++ [0; 0xff; 0xff; 0xff; 0xff]) part) ++ post).
  set (fr := flat_map (fun i => id_of i ++ le 4 (i_vout i) ++ [0; 0xff; 0xff; 0xff; 0xff]) part ++ post).
  assert (T : tx = pre ++ id_of i ++ le 4 (i_vout i) ++ [0; 255; 255; 255; 255] ++ fr) by (unfold tx, fr; rewrite <- !app_assoc; reflexivity).
  assert (L32 : zlen (id_of i) = 32) by (unfold zlen; lia). assert (L4 : zlen (le 4 (i_vout i)) = 4) by (unfold le; rewrite zlen_le_bytes; reflexivity). pose proof (zlen_nonneg fr). pose proof (zlen_nonneg pre).
  assert (ZT : zlen tx = zlen pre + 41 + zlen fr) by (rewrite T, !zlen_app, L32, L4; change (zlen [0; 255; 255; 255; 255]) with 5; lia).
  destruct (Z.gtb_spec (zlen pre + 32) (zlen tx)); [lia|]. destruct (Z.gtb_spec (zlen pre + 32 + 9) (zlen tx)); [lia|].
  assert (S1 : slice tx (zlen pre) (zlen pre + 32) = Ok (id_of i)) by (rewrite T; apply slice_mid; lia).
  assert (S2 : slice tx (zlen pre + 32) (zlen pre + 36) = Ok (le 4 (i_vout i))) by (rewrite T, (app_assoc pre); apply slice_mid; rewrite zlen_app; lia).
  rewrite S1. cbn [bind]. rewrite S2. cbn [bind]. destruct (little_endian_codec 4 ltac:(lia)) as (C & _). destruct (C (i_vout i)) as (_ & _ & _ & R); [lia|]. specialize (R []). rewrite app_nil_r in R. unfold put_le in R. unfold le. rewrite R. cbn [bind].
  assert (T2 : tx = (pre ++ id_of i ++ le 4 (i_vout i) ++ [0; 255; 255; 255; 255]) ++ fr) by (rewrite T, <- !app_assoc; reflexivity).
  replace (zlen pre + 41) with (zlen (pre ++ id_of i ++ le 4 (i_vout i) ++ [0; 255; 255; 255; 255])) by (rewrite !zlen_app, L32, L4; change (zlen [0; 255; 255; 255; 255]) with 5; lia).
  rewrite T2. unfold fr. rewrite IH by assumption. reflexivity.
Qed.
(** Up to 252 inputs the list is exact, with ids in lower case. With 253 inputs it is made of bytes two places off; with
    more it is refused. *)
Theorem hc_vin_list : forall ins outs lt ex, ins <> [] -> Forall valid_in ins -> Forall in_ok ins -> Forall (fun o => is_bytes (snd o) /\ zlen (snd o) < 256) outs -> zlen ins < 2 ^ 64 -> zlen outs < 2 ^ 64 ->
  (zlen ins <= 252 -> vin_list (text_of ins outs lt ex) = Ok (map (fun i => (map lower (i_txid i), i_vout i)) ins)) /\
  (zlen ins = 253 -> exists i0 l v, nth_error ins 0 = Some i0 /\ vin_list (text_of ins outs lt ex) = Ok ((reverse_to_hex ([0xfd; 0] ++ firstn 30 (id_of i0)), v) :: l)) /\
  (254 <= zlen ins -> vin_list (text_of ins outs lt ex) = Err).
Proof.
  intros ins outs lt ex N V I O Li Lo. pose proof (layout_bytes 0 ins outs lt ex V O Li Lo) as BL.

  set (ent := flat_map (fun i => id_of i ++ le 4 (i_vout i) ++ [0; 0xff; 0xff; 0xff; 0xff]) ins).
  set (tail := var_int (zlen outs) ++ flat_map (fun o => le 8 (fst o) ++ [0; 0] ++ [zlen (snd o)] ++ snd o) outs ++ le 4 lt ++ le 4 ex).
  assert (Lay : layout 0 ins outs lt ex = [1; 0; 0; 0] ++ var_int (zlen ins) ++ ent ++ tail) by reflexivity.
  assert (LE : zlen ent = 41 * zlen ins).
  { unfold ent. clear -V. induction V as [|i l Vi V IH]; [reflexivity|]. cbn [flat_map]. destruct (id_of_bytes i Vi) as [_ L]. rewrite zlen_cons, !zlen_app, IH. unfold le. rewrite zlen_le_bytes. change (zlen [0; 255; 255; 255; 255]) with 5. unfold zlen. lia. }
  pose proof (zlen_nonneg tail). pose proof (zlen_nonneg ins).
  assert (VV : forall c rest, var_int (zlen ins) = c :: rest -> vin_list (text_of ins outs lt ex) = if (c <=? 0) || negb (c =? zlen ins) then Err else vin_loop (layout 0 ins outs lt ex) (Z.to_nat c) 5).
  { intros c rest Ec. unfold vin_list, text_of.
    assert (J : flat_map (fun i => str ":" ++ hex_encode (zlen (lock_of i) mod 256 :: lock_of i) ++ str "/" ++ hex_encode (spent i)) ins = flat_map (cons 58) (map data_of ins)) by (rewrite flat_map_map; reflexivity).
    rewrite J, split_on_join.
    2: { intros X. apply hex_chars in X; [lia|exact BL]. }
    2: { rewrite Forall_forall. intros d X. apply in_map_iff in X as (i & <- & _). unfold data_of. intros X. apply in_app_or in X as [X|[X|X]]; [apply hex_chars in X; [lia|apply counted_lock_bytes]|lia|apply hex_chars in X; [lia|apply spent_bytes]]. }
    replace (zlen (hex_encode (layout 0 ins outs lt ex) :: map data_of ins) <=? 1) with false by (rewrite zlen_cons; unfold zlen; rewrite map_length; destruct ins; [contradiction|cbn [length]; lia]).
    rewrite hex_decode_encode by exact BL. assert (ZL : 5 <= zlen (layout 0 ins outs lt ex)) by (rewrite Lay, Ec, !zlen_app, (zlen_cons c rest); change (zlen [1; 0; 0; 0]) with 4; pose proof (zlen_nonneg rest); pose proof (zlen_nonneg ent); lia).
    destruct (Z.gtb_spec 4 (zlen (layout 0 ins outs lt ex))); [lia|]. destruct (Z.gtb_spec 5 (zlen (layout 0 ins outs lt ex))); [lia|].
    assert (I4 : idx (layout 0 ins outs lt ex) 4 = Ok c) by (rewrite Lay, Ec; reflexivity). rewrite I4. cbn [bind]. rewrite zlen_map'. reflexivity. }
  assert (N0 : 0 < zlen ins) by (destruct ins; [contradiction|rewrite zlen_cons in *; pose proof (zlen_nonneg ins); lia]).
  split; [|split].
  - intros L. assert (Ec : var_int (zlen ins) = [zlen ins]) by (unfold var_int; replace (zlen ins <? 253) with true by lia; rewrite Z.mod_small by lia; reflexivity).
    rewrite (VV _ _ Ec). replace ((zlen ins <=? 0) || negb (zlen ins =? zlen ins)) with false by lia. replace (Z.to_nat (zlen ins)) with (length ins) by (unfold zlen; lia).
    assert (L2 : layout 0 ins outs lt ex = [1; 0; 0; 0; zlen ins] ++ ent ++ tail) by (rewrite Lay, Ec; reflexivity). rewrite L2. change 5 with (zlen [1; 0; 0; 0; zlen ins]). unfold ent. rewrite vin_exact by assumption.
    f_equal. apply map_ext_in. intros i Ii. f_equal. rewrite Forall_forall in V. destruct (V i Ii) as [(b & E & _) _]. unfold id_of. rewrite E. unfold reverse_to_hex. rewrite rev_involutive. apply hex_encode_decode. exact E.
  - intros L. assert (Ec : var_int (zlen ins) = [253; 253; 0]) by (rewrite L; reflexivity). rewrite (VV _ _ Ec). rewrite L. change ((253 <=? 0) || negb (253 =? 253)) with false. cbv iota.
    assert (ZL : zlen (layout 0 ins outs lt ex) = 7 + 41 * 253 + zlen tail) by (rewrite Lay, Ec, !zlen_app, LE, L; change (zlen [1; 0; 0; 0]) with 4; change (zlen [253; 253; 0]) with 3; lia).
    destruct ins as [|i0 ins']; [contradiction|]. exists i0. inversion V as [|? ? V0 _]; subst. destruct (id_of_bytes i0 V0) as [_ Lid].
    set (tx := layout 0 (i0 :: ins') outs lt ex) in *.
    assert (S1 : slice tx 5 (5 + 32) = Ok ([253; 0] ++ firstn 30 (id_of i0))).
    { rewrite Lay, Ec. unfold ent. cbn [flat_map]. rewrite <- (firstn_skipn 30 (id_of i0)) at 1. rewrite <- !app_assoc. 
      match goal with |- slice ([1; 0; 0; 0] ++ [253; 253; 0] ++ firstn 30 (id_of i0) ++ ?r) _ _ = _ => change ([1; 0; 0; 0] ++ [253; 253; 0] ++ firstn 30 (id_of i0) ++ r) with ([1; 0; 0; 0; 253] ++ ([253; 0] ++ firstn 30 (id_of i0)) ++ r) end.
      apply slice_mid; [reflexivity|]. rewrite zlen_app. change (zlen [253; 0]) with 2. change (zlen [1; 0; 0; 0; 253]) with 5. unfold zlen. rewrite firstn_length. lia. }
    destruct (vin_first tx 252 5 _ ltac:(lia) ltac:(lia) S1) as (l & v & E). exists l, v. split; [reflexivity|]. exact E.
  - intros L. assert (Ec : exists c rest, var_int (zlen ins) = c :: rest /\ c <> zlen ins).
    { unfold var_int. replace (zlen ins <? 253) with false by lia. destruct (Z.leb_spec (zlen ins) 65535); [do 2 eexists; split; [reflexivity|lia]|]. destruct (Z.leb_spec (zlen ins) 4294967295); do 2 eexists; (split; [reflexivity|lia]). }
    destruct Ec as (c & rest & Ec & Nc). rewrite (VV _ _ Ec). replace (c =? zlen ins) with false by lia. cbn [negb]. rewrite orb_true_r. reflexivity.
Qed.
(** ** Non-vacuity *)
Definition ex_in : hvin := {| i_txid := hex_encode (repeat 7 32); i_vout := 1; i_tree := 0; i_amount := 500; i_lock := str "76a9"; i_height := 10; i_index := 2 |}.
Example ex_in_valid : valid_in ex_in /\ in_ok ex_in.
Proof. split; [split; [exists (repeat 7 32); split; vm_compute; reflexivity|eexists; vm_compute; reflexivity]|unfold in_ok; cbn; lia]. Qed.
Example ex_out_valid : exists o, valid_out btc_alphabet toy_hash o /\ v_amount o = 400.
Proof.
  destruct (decode_check_encode_check toy_hash _ _ [0x09; 0x7f] (zeros 20) toy_hash_ok btc_alphabet_ok btc_alphabet_new) as (s & _ & D); [bts|apply is_bytes_zeros|reflexivity|].
  exists {| v_amount := 400; v_version := 0; v_address := s |}. split; [exists (zeros 20); split; [exact D|reflexivity]|reflexivity].
Qed.
Example ex_create : exists o text hashes, create_empty toy_hash btc_alphabet toy_hash [ex_in; ex_in] [o] 0 0 = Ok (text, hashes) /\ length hashes = 2%nat.
Proof.
  destruct ex_out_valid as (o & V & _). exists o. do 2 eexists. split; [apply hc_create_exact; split; [discriminate|]; split; [discriminate|]; split; [constructor; [apply ex_in_valid|constructor; [apply ex_in_valid|constructor]]|]; split; [constructor; [exact V|constructor]|]; split; reflexivity|reflexivity].
Qed.
Definition ex_sig : hsig := {| s_signature := repeat 1 64; s_pubkey := repeat 2 33 |}.
Example ex_writes : exists w, writes (fun b => 4 :: b) ex_sig w.
Proof. eexists. split; [discriminate|vm_compute; reflexivity]. Qed.
Print Assumptions hc_layout_read.
Print Assumptions hc_create_exact.
Print Assumptions hc_create_omni_exact.
Print Assumptions hc_verify_created.
Print Assumptions hc_verify_sound.
Print Assumptions hc_vin_list.
