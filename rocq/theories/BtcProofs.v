(** Lemmas about the btcTransaction serialiser and parser. *)
From Coq Require Import ZArith List Bool Lia ZifyBool ZifyNat.
From Verif Require Import Go GoFacts GoFacts2 Rd BtcModel BtcSpec SigDerProps.
Import ListNotations.
Open Scope Z_scope.
Ltac Zify.zify_post_hook ::= idtac.

Definition ok_in (i : txin) : Prop := zlen (in_txid i) = 32 /\ zlen (in_vout i) = 4 /\ zlen (in_seq i) = 4.
Definition ok_out (o : txout) : Prop := zlen (out_amount o) = 8 /\ 1 <= zlen (out_lock o) <= 255.
Definition wire_in (i : txin) (script : bytes) : bytes := in_txid i ++ in_vout i ++ zlen script :: script ++ in_seq i.
Definition wire_out (o : txout) : bytes := out_amount o ++ zlen (out_lock o) :: out_lock o.

(** What the parser makes of an input with a given script. *)
Definition classify (i : txin) (s : bytes) : txin :=
  {| in_type := if zlen s =? 0 then TypeEmpty else if zlen s <=? 0x6C then TypeP2PKH else TypeMultiSig;
     in_txid := in_txid i; in_vout := in_vout i; in_pub := []; in_sig := if zlen s <=? 0x6C then s else [];
     in_seq := in_seq i; in_multi := if zlen s <=? 0x6C then [] else s |}.
Definition plain_len (s : bytes) : Prop := zlen s <= 0xFC /\ zlen s <> 0x17 /\ zlen s <> 0x23.
Lemma decode_in_wire i s rest : ok_in i -> plain_len s -> decode_in false (wire_in i s ++ rest) = Ok (classify i s, rest).
Proof.
  intros (L1 & L2 & L3) (M1 & M2 & M3). pose proof (zlen_nonneg s) as Ns. unfold decode_in, wire_in. rewrite <- !app_assoc. cbn [app].
  rewrite need_app by exact L1. rewrite need_app by exact L2. cbn [need1]. unfold classify.
  destruct (zlen s =? 0) eqn:E0.
  - assert (s = []) by (destruct s; [reflexivity|rewrite zlen_cons in E0; pose proof (zlen_nonneg s); lia]). subst s. cbn [app]. rewrite must_app by exact L3. reflexivity.
  - replace (zlen s =? 23) with false by lia. replace (zlen s =? 35) with false by lia. rewrite <- app_assoc. destruct (zlen s <=? 108) eqn:E1.
    + rewrite need_app by reflexivity. rewrite must_app by exact L3. reflexivity.
    + replace (zlen s =? 253) with false by lia. replace (253 <? zlen s) with false by lia. rewrite need_app by reflexivity. rewrite must_app by exact L3. reflexivity.
Qed.
Lemma decode_out_wire o rest : ok_out o -> decode_out (wire_out o ++ rest) = Ok (o, rest).
Proof.
  intros [L1 L2]. unfold decode_out, wire_out. rewrite <- app_assoc. cbn [app]. rewrite need_app by exact L1. cbn [need1].
  replace (zlen (out_lock o) =? 0) with false by lia. rewrite need_app by reflexivity. destruct o; reflexivity.
Qed.
Lemma out_bytes_wire o : ok_out o -> out_bytes o = Ok (wire_out o).
Proof.
  intros [L1 L2]. unfold out_bytes. rewrite L1. change (negb (8 =? 8)) with false. replace (zlen (out_lock o) =? 0) with false by lia. rewrite u8_small by lia. reflexivity.
Qed.
Lemma in_bytes_empty sw i : ok_in i -> in_type i = TypeEmpty -> zlen (in_pub i) <= 255 -> in_bytes sw i = Ok (wire_in i (in_pub i)).
Proof.
  intros (L1 & L2 & L3) T L. unfold in_bytes. rewrite L1, L2, L3, T. change (negb (32 =? 32)) with false. change (negb (4 =? 4)) with false. change (TypeEmpty =? TypeEmpty) with true. cbn [bind].
  pose proof (zlen_nonneg (in_pub i)). rewrite u8_small by lia. reflexivity.
Qed.
(** The parser on a serialised transaction without witness, followed by anything. *)
Definition wire_tx (version : bytes) (ins : list (txin * bytes)) (outs : list txout) (locktime : bytes) : bytes :=
  version ++ zlen ins :: concat (map (fun p => wire_in (fst p) (snd p)) ins) ++ zlen outs :: concat (map wire_out outs) ++ locktime.
Lemma readn_pairs sw l rest : Forall (fun p => ok_in (fst p) /\ plain_len (snd p)) l -> sw = false ->
  readn (length l) (decode_in sw) (concat (map (fun p => wire_in (fst p) (snd p)) l) ++ rest) = Ok (map (fun p => classify (fst p) (snd p)) l, rest).
Proof.
  intros F ->. induction F as [|[i s] l [O P] F IH]; [reflexivity|]. cbn [length readn map concat fst snd] in *. rewrite <- app_assoc. rewrite decode_in_wire by assumption. cbn [bind]. rewrite IH. reflexivity.
Qed.
Lemma decode_wire_v v sw version ins outs locktime extra :
  zlen version = 4 -> le_num version = v -> zlen locktime = 4 -> 1 <= zlen ins <= 255 -> 1 <= zlen outs <= 255 ->
  Forall (fun p => ok_in (fst p) /\ plain_len (snd p)) ins -> Forall ok_out outs ->
  decode_v v (wire_tx version ins outs locktime ++ extra) sw =
  match extra with
  | [] => Ok {| tx_version := version; tx_vins := map (fun p => classify (fst p) (snd p)) ins; tx_vouts := outs; tx_locktime := locktime; tx_witness := false |}
  | _ => Err
  end.
Proof.
  intros Lv Nv Ll Ni No Fi Fo. unfold decode_v, wire_tx. rewrite <- !app_assoc. rewrite need_app by exact Lv. rewrite Nv, Z.eqb_refl. cbn [negb]. cbv iota.
  rewrite <- !app_comm_cons. rewrite <- !app_assoc. rewrite <- !app_comm_cons, <- !app_assoc.
  set (body := concat (map (fun p => wire_in (fst p) (snd p)) ins) ++ zlen outs :: concat (map wire_out outs) ++ locktime ++ extra).
  assert (LB : 1 <= zlen body) by (unfold body; rewrite zlen_app, zlen_cons; pose proof (zlen_nonneg (concat (map (fun p : txin * bytes => wire_in (fst p) (snd p)) ins))); pose proof (zlen_nonneg (concat (map wire_out outs) ++ locktime ++ extra)); lia).
  rewrite zlen_cons. replace (1 + zlen body <? 2) with false by lia.
  destruct (zlen ins) as [|p|p] eqn:Zi; [lia| |lia]. cbn [bind need1]. change (Z.pos p =? 0) with false. cbv iota.
  replace (Z.to_nat (Z.pos p)) with (length ins) by (unfold zlen in Zi; lia). unfold body. rewrite readn_pairs by (reflexivity || assumption). cbn [bind need1].
  replace (zlen outs =? 0) with false by lia. replace (Z.to_nat (zlen outs)) with (length outs) by (unfold zlen; lia).
  rewrite (readn_app decode_out wire_out) by (intros x r Hx; apply decode_out_wire; rewrite Forall_forall in Fo; apply Fo; exact Hx). cbn [bind].
  rewrite need_app by exact Ll. destruct extra as [|e extra]; [reflexivity|]. rewrite zlen_cons. pose proof (zlen_nonneg extra). replace (1 + zlen extra =? 0) with false by lia. reflexivity.
Qed.
Lemma tx_bytes_wire sw t : zlen (tx_version t) = 4 -> zlen (tx_locktime t) = 4 -> 1 <= zlen (tx_vins t) <= 255 -> 1 <= zlen (tx_vouts t) <= 255 -> tx_witness t = false ->
  Forall (fun i => ok_in i /\ in_type i = TypeEmpty /\ zlen (in_pub i) <= 255) (tx_vins t) -> Forall ok_out (tx_vouts t) ->
  tx_bytes sw t = Ok (wire_tx (tx_version t) (map (fun i => (i, in_pub i)) (tx_vins t)) (tx_vouts t) (tx_locktime t)).
Proof.
  intros Lv Ll Ni No W Fi Fo. unfold tx_bytes. replace (zlen (tx_vins t) =? 0) with false by lia. replace (zlen (tx_vouts t) =? 0) with false by lia. rewrite Lv, Ll, W. change (negb (4 =? 4)) with false. cbv iota.
  rewrite (mapr_ok _ (fun i => wire_in i (in_pub i))) by (intros i Hi; rewrite Forall_forall in Fi; destruct (Fi i Hi) as (A & B & C); apply in_bytes_empty; assumption). cbn [bind].
  rewrite (mapr_ok _ wire_out) by (intros o Ho; rewrite Forall_forall in Fo; apply out_bytes_wire; apply Fo; exact Ho). cbn [bind concat app].
  rewrite !u8_small by lia. unfold wire_tx. rewrite map_map. cbn [fst snd]. replace (zlen (map (fun i => (i, in_pub i)) (tx_vins t))) with (zlen (tx_vins t)) by (unfold zlen; rewrite map_length; reflexivity). reflexivity.
Qed.

(** ** Creation *)
Lemma zlen_rev' {A} (l : list A) : zlen (rev l) = zlen l.
Proof. unfold zlen. rewrite rev_length. reflexivity. Qed.
Lemma reverse_hex_ok s b : reverse_hex s = Ok b <-> hex_decode s = Ok (rev b).
Proof.
  unfold reverse_hex. split.
  - destruct (zlen s mod 2 =? 1); [discriminate|]. intros E. apply bind_ok in E as (c & E & R). injection R as <-. rewrite rev_involutive. exact E.
  - intros E. destruct (hex_decode_bytes s _ E) as [_ L]. replace (zlen s mod 2 =? 1) with false.
    + rewrite E. cbn [bind]. rewrite rev_involutive. reflexivity.
    + unfold zlen. rewrite L. rewrite Nat2Z.inj_mul. change (Z.of_nat 2) with 2. rewrite Z.mul_comm, Z_mod_mult. reflexivity.
Qed.
Definition made_in (v : vin) (i : txin) : Prop :=
  hex_decode (v_txid v) = Ok (rev (in_txid i)) /\ zlen (in_txid i) = 32 /\ in_vout i = le_bytes 4 (v_vout v) /\ in_type i = TypeEmpty /\ in_pub i = [] /\ in_sig i = [] /\ in_multi i = [].
Lemma new_in_ok v i : new_in v = Ok i <-> made_in v i /\ in_seq i = [].
Proof.
  unfold new_in, made_in. split.
  - destruct (reverse_hex (v_txid v)) as [b| |] eqn:E; try discriminate. apply reverse_hex_ok in E. destruct (zlen b =? 32) eqn:L; [|discriminate]. intros Q. injection Q as <-. cbn. repeat split; try assumption; lia.
  - intros ((A & B & C & D & E & F & G) & S). apply reverse_hex_ok in A. rewrite A, B. change (32 =? 32) with true. destruct i; cbn in *. subst. reflexivity.
Qed.
Lemma Forall2_map_r {A B C} (R : A -> C -> Prop) (f : B -> C) l : forall m, Forall2 (fun x y => R x (f y)) l m -> Forall2 R l (map f m).
Proof. induction l; intros m F; inversion F; subst; constructor; auto. Qed.
Lemma Forall2_impl' {A B} (P Q : A -> B -> Prop) l : (forall x y, P x y -> Q x y) -> forall m, Forall2 P l m -> Forall2 Q l m.
Proof. intros I. induction l; intros m F; inversion F; subst; constructor; auto. Qed.
Lemma Forall2_len {A B} (P : A -> B -> Prop) l : forall m, Forall2 P l m -> zlen m = zlen l.
Proof. induction l; intros m F; inversion F; subst; [reflexivity|]. rewrite !zlen_cons. f_equal. auto. Qed.
Lemma Forall2_Forall_r {A B} (P : A -> B -> Prop) (Q : B -> Prop) l : (forall x y, P x y -> Q y) -> forall m, Forall2 P l m -> Forall Q m.
Proof. intros I. induction l; intros m F; inversion F; subst; constructor; eauto. Qed.

Lemma set_sequence_made v i lt r : made_in v i -> made_in v (set_sequence lt r i) /\ in_seq (set_sequence lt r i) = le_bytes 4 (sequence lt r).
Proof. intros M. split; [exact M|reflexivity]. Qed.
Lemma new_empty_ok H ap vins vouts lt r t : new_empty_tx H ap vins vouts lt r = Ok t <->
  1 <= zlen vins /\ 1 <= zlen vouts /\ tx_version t = le_bytes 4 2 /\ tx_locktime t = le_bytes 4 lt /\ tx_witness t = false /\
  Forall2 (fun v i => made_in v i /\ in_seq i = le_bytes 4 (sequence lt r)) vins (tx_vins t) /\ Forall2 (fun v o => new_out H ap v = Ok o) vouts (tx_vouts t).
Proof.
  unfold new_empty_tx, new_ins, new_outs. pose proof (zlen_nonneg vins). pose proof (zlen_nonneg vouts). split.
  - destruct (zlen vins =? 0) eqn:E1; [discriminate|]. intros E. apply bind_ok in E as (ins & Ei & E). destruct (zlen vouts =? 0) eqn:E2; [discriminate|]. apply bind_ok in E as (outs & Eo & E). injection E as <-. cbn.
    apply mapr_forall2 in Ei. apply mapr_forall2 in Eo. repeat split; try lia; try exact Eo. apply Forall2_map_r. eapply Forall2_impl'; [|exact Ei]. intros v i Q. apply new_in_ok in Q as [M _]. apply set_sequence_made. exact M.
  - intros (N1 & N2 & V & L & W & Fi & Fo). replace (zlen vins =? 0) with false by lia. replace (zlen vouts =? 0) with false by lia.
    set (clr := fun i => {| in_type := in_type i; in_txid := in_txid i; in_vout := in_vout i; in_pub := in_pub i; in_sig := in_sig i; in_seq := []; in_multi := in_multi i |}).
    assert (E1 : mapr new_in vins = Ok (map clr (tx_vins t))).
    { apply mapr_forall2. apply Forall2_map_r. eapply Forall2_impl'; [|exact Fi]. intros v i [M _]. apply new_in_ok. split; [exact M|reflexivity]. }
    rewrite E1. cbn [bind]. apply mapr_forall2 in Fo. rewrite Fo. cbn [bind]. rewrite map_map.
    assert (E2 : map (fun x => set_sequence lt r (clr x)) (tx_vins t) = tx_vins t).
    { clear E1 Fo N1 N2. revert Fi. generalize (tx_vins t). induction vins as [|v vs IH]; intros l F; inversion F as [|? i ? is [M S] F']; subst; [reflexivity|].
      cbn [map]. f_equal; [destruct i; cbn in *; unfold set_sequence; cbn; rewrite S; reflexivity|]. apply IH; [apply zlen_nonneg|exact F']. }
    rewrite E2. destruct t; cbn in *. subst. reflexivity.
Qed.
