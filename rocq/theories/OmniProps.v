(** C65, C89: what the Omni output of a transaction says. *)
From Coq Require Import String ZArith List Bool Lia ZifyBool ZifyNat.
From Verif Require Import Go GoFacts Codes Reader Base58Model Base58CheckModel CodecModel OmniModel BtcModel Toy Base58Props Base58CheckProps.
Import ListNotations.
Open Scope Z_scope.
Ltac Zify.zify_post_hook ::= idtac.

(** ** Specification: Omni messages as they are read from a script *)
Inductive message :=
| Transfer (kind property amount : Z)          (* simple send 0, accept offer 22 *)
| Ecosystem (kind ecosystem : Z)               (* send all 4, cancel all orders 28 *)
| Property (kind property : Z)                 (* close crowdsale 53, change issuer 70, enable / disable freezing 71 / 72 *)
| Issue (kind property amount : Z) (memo : bytes)   (* grant 55, revoke 56 *)
| Freeze (kind property amount : Z) (address : bytes). (* freeze 185, unfreeze 186 *)
(** text up to a zero byte; everything that is left *)
Fixpoint rtext (l : bytes) : option (bytes * bytes) :=
  match l with [] => None | b :: r => if b =? 0 then Some ([], r) else match rtext r with Some (t, r') => Some (b :: t, r') | None => None end end.
Definition rrest : reader bytes := fun l => Some (l, []).
Definition rmessage : reader message :=
  v <~ rbe 2 ;; if negb (v =? 0) then rfail else
  t <~ rbe 2 ;;
  if (t =? 0) || (t =? 22) then p <~ rbe 4 ;; a <~ rbe 8 ;; rret (Transfer t p a) else
  if (t =? 4) || (t =? 28) then e <~ rbyte ;; rret (Ecosystem t e) else
  if (t =? 53) || (t =? 70) || (t =? 71) || (t =? 72) then p <~ rbe 4 ;; rret (Property t p) else
  if (t =? 55) || (t =? 56) then p <~ rbe 4 ;; a <~ rbe 8 ;; m <~ rtext ;; rret (Issue t p a m) else
  if (t =? 185) || (t =? 186) then p <~ rbe 4 ;; a <~ rbe 8 ;; d <~ rrest ;; rret (Freeze t p a d) else rfail.
(** OP_RETURN, then one direct push (at most 75 bytes) of "omni" and the message, and nothing else. *)
Definition omni_script (s : bytes) : option message :=
  rwhole (_ <~ rexact [0x6a] ;; n <~ rbyte ;; if 75 <? n then rfail else d <~ rtake n ;;
          match rwhole (_ <~ rexact (str "omni") ;; rmessage) d with Some m => rret m | None => rfail end) s.
(** What the caller asked for; [address] is the decoded destination. *)
Definition meaning (o : omni) (address : bytes) : option message :=
  let t := o_type o in
  if (t =? 0) || (t =? 22) then Some (Transfer t (o_property o) (o_amount o)) else
  if (t =? 4) || (t =? 28) then Some (Ecosystem t (o_ecosystem o)) else
  if (t =? 53) || (t =? 70) || (t =? 71) || (t =? 72) then Some (Property t (o_property o)) else
  if (t =? 55) || (t =? 56) then Some (Issue t (o_property o) (o_amount o) (o_memo o)) else
  if (t =? 185) || (t =? 186) then Some (Freeze t (o_property o) (o_amount o) address) else None.
Definition in_range (o : omni) : Prop := 0 <= o_property o < 2 ^ 32 /\ 0 <= o_amount o < 2 ^ 64.

(** ** Proofs *)
Lemma wrap_len p : zlen (wrap p) = 6 + zlen p.
Proof. unfold wrap. cbn [app]. rewrite !zlen_cons. lia. Qed.
Lemma script_ok p m : zlen p <= 71 -> rwhole rmessage p = Some m -> omni_script (wrap p) = Some m.
Proof.
  intros L R. unfold omni_script, wrap. set (q := [0x6f; 0x6d; 0x6e; 0x69] ++ p). assert (Q : zlen q = 4 + zlen p) by (unfold q; rewrite zlen_app; reflexivity). pose proof (zlen_nonneg p).
  unfold rwhole at 1, rbind at 1. change ([106; u8 (zlen q)] ++ q) with ([106] ++ [u8 (zlen q)] ++ q). rewrite (reads_exact [0x6a]). unfold rbind at 1. rewrite reads_byte. unfold u8. rewrite Z.mod_small by lia.
  replace (75 <? zlen q) with false by lia. unfold rbind at 1. rewrite <- (app_nil_r q) at 2. rewrite (reads_take (zlen q) q eq_refl).
  assert (K : rwhole (_ <~ rexact (str "omni") ;; rmessage) q = rwhole rmessage p). { unfold rwhole, rbind, q. change [0x6f; 0x6d; 0x6e; 0x69] with (str "omni"). rewrite (reads_exact (str "omni")). reflexivity. }
  rewrite K, R. reflexivity.
Qed.
Lemma script_long p : 71 < zlen p <= 327 -> omni_script (wrap p) = None.
Proof.
  intros L. unfold omni_script, wrap. set (q := [0x6f; 0x6d; 0x6e; 0x69] ++ p). assert (Q : zlen q = 4 + zlen p) by (unfold q; rewrite zlen_app; reflexivity).
  unfold rwhole at 1, rbind at 1. change ([106; u8 (zlen q)] ++ q) with ([106] ++ [u8 (zlen q)] ++ q). rewrite (reads_exact [0x6a]). unfold rbind at 1. rewrite reads_byte.
  destruct (Z.ltb_spec 75 (u8 (zlen q))) as [|N]; [reflexivity|]. assert (256 <= zlen q). { unfold u8 in N. destruct (Z_lt_le_dec (zlen q) 256); [|assumption]. rewrite Z.mod_small in N by lia. lia. }
  unfold rbind at 1, rtake. destruct (Z.ltb_spec (zlen q) (u8 (zlen q))); [lia|]. destruct (rwhole _ _); [|reflexivity]. unfold rret.
  destruct (skipn (Z.to_nat (u8 (zlen q))) q) eqn:E; [|reflexivity]. apply (f_equal (@length Z)) in E. rewrite skipn_length in E. cbn [length] in E. assert (0 <= u8 (zlen q)) by (unfold u8; apply Z.mod_pos_bound; lia). unfold zlen in *. lia.
Qed.
Lemma head_reads t A (k : Z -> reader A) p a : 0 <= t < 65536 -> rwhole (k t) p = Some a ->
  rwhole (v <~ rbe 2 ;; if negb (v =? 0) then rfail else t <~ rbe 2 ;; k t) (head t ++ p) = Some a.
Proof.
  intros T R. unfold head, put_be. rewrite <- app_assoc. unfold rwhole, rbind at 1. change 2%nat with (Z.to_nat 2). rewrite (reads_be 2 0) by lia. cbn [negb Z.eqb]. unfold rbind. rewrite (reads_be 2 t) by lia. exact R.
Qed.
Lemma rtext_reads m : ~ In 0 m -> reads rtext (m ++ [0]) m.
Proof.
  induction m as [|b m IH]; intros N rest; [reflexivity|]. cbn [app rtext]. destruct (Z.eqb_spec b 0) as [E|E]; [exfalso; apply N; left; exact E|]. rewrite IH by (intros I; apply N; right; exact I). reflexivity.
Qed.
Lemma message_reads t p m : 0 <= t < 65536 ->
  rwhole (if (t =? 0) || (t =? 22) then p <~ rbe 4 ;; a <~ rbe 8 ;; rret (Transfer t p a) else
  if (t =? 4) || (t =? 28) then e <~ rbyte ;; rret (Ecosystem t e) else
  if (t =? 53) || (t =? 70) || (t =? 71) || (t =? 72) then p <~ rbe 4 ;; rret (Property t p) else
  if (t =? 55) || (t =? 56) then p <~ rbe 4 ;; a <~ rbe 8 ;; m <~ rtext ;; rret (Issue t p a m) else
  if (t =? 185) || (t =? 186) then p <~ rbe 4 ;; a <~ rbe 8 ;; d <~ rrest ;; rret (Freeze t p a d) else rfail) p = Some m ->
  rwhole rmessage (head t ++ p) = Some m.
Proof.
  intros T R. unfold rmessage. exact (head_reads t message (fun t => if (t =? 0) || (t =? 22) then p <~ rbe 4 ;; a <~ rbe 8 ;; rret (Transfer t p a) else
  if (t =? 4) || (t =? 28) then e <~ rbyte ;; rret (Ecosystem t e) else
  if (t =? 53) || (t =? 70) || (t =? 71) || (t =? 72) then p <~ rbe 4 ;; rret (Property t p) else
  if (t =? 55) || (t =? 56) then p <~ rbe 4 ;; a <~ rbe 8 ;; m <~ rtext ;; rret (Issue t p a m) else
  if (t =? 185) || (t =? 186) then p <~ rbe 4 ;; a <~ rbe 8 ;; d <~ rrest ;; rret (Freeze t p a d) else rfail) p m T R).
Qed.
Lemma reads4 p : 0 <= p < 2 ^ 32 -> reads (rbe 4) (put_be 4 p) p. Proof. intros B. apply (reads_be 4 p); lia. Qed.
Lemma reads8 a : 0 <= a < 2 ^ 64 -> reads (rbe 8) (put_be 8 a) a. Proof. intros B. apply (reads_be 8 a); lia. Qed.
Lemma zlen_put n v : zlen (put_be n v) = Z.of_nat n. Proof. apply zlen_be_bytes. Qed.

Section WithAddress.
Variables (al : alphabet) (H : bytes -> bytes).
Ltac rd := repeat (first [unfold rbind at 1; rewrite reads4 by assumption | unfold rbind at 1; rewrite reads8 by assumption]).
Lemma transfer_msg t o : in_range o -> (t = 0 \/ t = 22) -> rwhole rmessage (head t ++ put_be 4 (o_property o) ++ put_be 8 (o_amount o)) = Some (Transfer t (o_property o) (o_amount o)).
Proof. intros [P A] T. apply message_reads; [lia|]. replace ((t =? 0) || (t =? 22)) with true by lia. apply reads_whole. eapply reads_bind; [apply reads4; exact P|]. apply (reads_last _ (fun a => Transfer t (o_property o) a)). apply reads8. exact A. Qed.
Lemma eco_msg t e : (t = 4 \/ t = 28) -> rwhole rmessage (head t ++ [e]) = Some (Ecosystem t e).
Proof. intros T. apply message_reads; [lia|]. replace ((t =? 0) || (t =? 22)) with false by lia. replace ((t =? 4) || (t =? 28)) with true by lia. apply reads_whole. apply (reads_last _ (Ecosystem t)). apply reads_byte. Qed.
Lemma prop_msg t o : in_range o -> (t = 53 \/ t = 70 \/ t = 71 \/ t = 72) -> rwhole rmessage (head t ++ put_be 4 (o_property o)) = Some (Property t (o_property o)).
Proof. intros [P A] T. apply message_reads; [lia|]. replace ((t =? 0) || (t =? 22)) with false by lia. replace ((t =? 4) || (t =? 28)) with false by lia. replace ((t =? 53) || (t =? 70) || (t =? 71) || (t =? 72)) with true by lia. apply reads_whole. apply (reads_last _ (Property t)). apply reads4. exact P. Qed.
Lemma issue_msg t o m : in_range o -> (t = 55 \/ t = 56) -> ~ In 0 m -> rwhole rmessage (head t ++ put_be 4 (o_property o) ++ put_be 8 (o_amount o) ++ m ++ [0]) = Some (Issue t (o_property o) (o_amount o) m).
Proof.
  intros [P A] T M. apply message_reads; [lia|]. replace ((t =? 0) || (t =? 22)) with false by lia. replace ((t =? 4) || (t =? 28)) with false by lia. replace ((t =? 53) || (t =? 70) || (t =? 71) || (t =? 72)) with false by lia. replace ((t =? 55) || (t =? 56)) with true by lia.
  apply reads_whole. eapply reads_bind; [apply reads4; exact P|]. eapply reads_bind; [apply reads8; exact A|]. apply (reads_last _ (Issue t (o_property o) (o_amount o))). apply rtext_reads. exact M.
Qed.
Lemma freeze_msg t o d : in_range o -> (t = 185 \/ t = 186) -> rwhole rmessage (head t ++ put_be 4 (o_property o) ++ put_be 8 (o_amount o) ++ d) = Some (Freeze t (o_property o) (o_amount o) d).
Proof.
  intros [P A] T. apply message_reads; [lia|]. replace ((t =? 0) || (t =? 22)) with false by lia. replace ((t =? 4) || (t =? 28)) with false by lia. replace ((t =? 53) || (t =? 70) || (t =? 71) || (t =? 72)) with false by lia. replace ((t =? 55) || (t =? 56)) with false by lia.
  replace ((t =? 185) || (t =? 186)) with true by lia. unfold rwhole. unfold rbind at 1. rewrite (reads4 _ P). unfold rbind at 1. rewrite (reads8 _ A). reflexivity.
Qed.

(** Every message asked for is the message read back from the script: the twelve kinds, with the memo complete if it has
    at most 54 bytes and no zero byte, and the freeze destination exactly the checked prefix and hash of the address. *)
Theorem omni_script_says : forall o, in_range o -> In (o_type o) [0; 4; 22; 28; 53; 55; 56; 70; 71; 72; 185; 186] ->
  (o_type o = 55 \/ o_type o = 56 -> zlen (o_memo o) <= 54 /\ ~ In 0 (o_memo o)) ->
  forall pre h, (o_type o = 185 \/ o_type o = 186 -> decode_check al H (o_address o) = Ok (pre, h) /\ zlen (pre ++ h) <= 55) ->
  exists s, get_payload al H o = Ok s /\ s <> [] /\ omni_script s = meaning o (pre ++ h).
Proof.
  intros o R T M pre h D. unfold get_payload, meaning. cbv zeta. assert (W : forall p, wrap p <> []) by (intros p; unfold wrap; discriminate).
  assert (Hd : forall t, zlen (head t) = 4) by (intros t; unfold head; rewrite zlen_app, !zlen_put; reflexivity).
  assert (G : forall p m, zlen p <= 71 -> rwhole rmessage p = Some m -> exists s, Ok (wrap p) = Ok s /\ s <> [] /\ omni_script s = Some m).
  { intros p m L Q. exists (wrap p). split; [reflexivity|]. split; [apply W|]. apply script_ok; assumption. }
  assert (C : zlen (o_memo o) <= 54 -> cut_memo (o_memo o) = o_memo o) by (intros L; unfold cut_memo; destruct (Z.gtb_spec (zlen (o_memo o)) 255); [lia|reflexivity]).
  destruct T as [T|[T|[T|[T|[T|[T|[T|[T|[T|[T|[T|[T|[]]]]]]]]]]]]]; rewrite <- T in *; cbn -[wrap zlen create_simple_send create_dex_accept create_send_all create_cancel_ecosystem create_close_crowdsale create_change_issuer create_enable_freezing create_disable_freezing create_grant create_revoke create_freeze create_unfreeze].
  - apply G; [unfold create_simple_send; rewrite !zlen_app, Hd, !zlen_put; lia|]. apply transfer_msg; [exact R|lia].
  - apply G; [unfold create_send_all; rewrite !zlen_app, Hd; change (zlen [o_ecosystem o]) with 1; lia|]. apply eco_msg; lia.
  - apply G; [unfold create_dex_accept; rewrite !zlen_app, Hd, !zlen_put; lia|]. apply transfer_msg; [exact R|lia].
  - apply G; [unfold create_cancel_ecosystem; rewrite !zlen_app, Hd; change (zlen [o_ecosystem o]) with 1; lia|]. apply eco_msg; lia.
  - apply G; [unfold create_close_crowdsale; rewrite !zlen_app, Hd, !zlen_put; lia|]. apply prop_msg; [exact R|lia].
  - destruct M as [L N]; [lia|]. unfold create_grant. rewrite (C L). apply G; [rewrite !zlen_app, Hd, !zlen_put; change (zlen [0]) with 1; lia|]. apply issue_msg; [exact R|lia|exact N].
  - destruct M as [L N]; [lia|]. unfold create_revoke. rewrite (C L). apply G; [rewrite !zlen_app, Hd, !zlen_put; change (zlen [0]) with 1; lia|]. apply issue_msg; [exact R|lia|exact N].
  - apply G; [unfold create_change_issuer; rewrite !zlen_app, Hd, !zlen_put; lia|]. apply prop_msg; [exact R|lia].
  - apply G; [unfold create_enable_freezing; rewrite !zlen_app, Hd, !zlen_put; lia|]. apply prop_msg; [exact R|lia].
  - apply G; [unfold create_disable_freezing; rewrite !zlen_app, Hd, !zlen_put; lia|]. apply prop_msg; [exact R|lia].
  - destruct D as [E L]; [lia|]. unfold create_freeze. rewrite E. cbn [bind]. apply G; [rewrite !zlen_app in *; rewrite Hd, !zlen_put; lia|]. apply freeze_msg; [exact R|lia].
  - destruct D as [E L]; [lia|]. unfold create_unfreeze. rewrite E. cbn [bind]. apply G; [rewrite !zlen_app in *; rewrite Hd, !zlen_put; lia|]. apply freeze_msg; [exact R|lia].
Qed.
(** The scripts of two requests are equal only if the requests say the same. *)
Theorem omni_scripts_distinct : forall o1 o2 pre1 h1 pre2 h2 s,
  (forall o pre h, (o, pre, h) = (o1, pre1, h1) \/ (o, pre, h) = (o2, pre2, h2) -> in_range o /\ In (o_type o) [0; 4; 22; 28; 53; 55; 56; 70; 71; 72; 185; 186] /\
    (o_type o = 55 \/ o_type o = 56 -> zlen (o_memo o) <= 54 /\ ~ In 0 (o_memo o)) /\
    (o_type o = 185 \/ o_type o = 186 -> decode_check al H (o_address o) = Ok (pre, h) /\ zlen (pre ++ h) <= 55)) ->
  get_payload al H o1 = Ok s -> get_payload al H o2 = Ok s -> meaning o1 (pre1 ++ h1) = meaning o2 (pre2 ++ h2).
Proof.
  intros o1 o2 pre1 h1 pre2 h2 s A E1 E2. destruct (A o1 pre1 h1 (or_introl eq_refl)) as (R1 & T1 & M1 & D1). destruct (A o2 pre2 h2 (or_intror eq_refl)) as (R2 & T2 & M2 & D2).
  destruct (omni_script_says o1 R1 T1 M1 pre1 h1 D1) as (s1 & S1 & _ & Q1). destruct (omni_script_says o2 R2 T2 M2 pre2 h2 D2) as (s2 & S2 & _ & Q2). congruence.
Qed.
(** ** C89: requests that are not expressed *)
(** A memo of more than 54 bytes makes a script that is read as no message at all, and no error is reported. *)
Theorem long_memo_unreadable : forall o, (o_type o = 55 \/ o_type o = 56) -> 54 < zlen (o_memo o) ->
  exists s out, get_payload al H o = Ok s /\ payload_out s = Ok out /\ omni_script s = None.
Proof.
  intros o T L. assert (Hd : forall t, zlen (head t) = 4) by (intros t; unfold head; rewrite zlen_app, !zlen_put; reflexivity).
  assert (C : 54 < zlen (cut_memo (o_memo o)) <= 255). { unfold cut_memo. destruct (Z.gtb_spec (zlen (o_memo o)) 255); [|lia]. unfold zlen in *. rewrite firstn_length. lia. }
  assert (K : exists p, get_payload al H o = Ok (wrap p) /\ 71 < zlen p <= 327).
  { unfold get_payload. cbv zeta. destruct T as [T|T]; rewrite T; cbn -[wrap zlen create_grant create_revoke].
    - eexists. split; [reflexivity|]. unfold create_grant. rewrite !zlen_app, Hd, !zlen_put. change (zlen [0]) with 1. lia.
    - eexists. split; [reflexivity|]. unfold create_revoke. rewrite !zlen_app, Hd, !zlen_put. change (zlen [0]) with 1. lia. }
  destruct K as (p & E & B). exists (wrap p). eexists. split; [exact E|]. split; [unfold payload_out, wrap; cbn [app]; reflexivity|]. apply script_long. exact B.
Qed.
(** A refused destination makes the script 6a 04 "omni", with no message and no error. *)
Theorem refused_destination_dropped : forall o, (o_type o = 185 \/ o_type o = 186) -> decode_check al H (o_address o) = Err ->
  get_payload al H o = Ok ([0x6a; 4] ++ str "omni") /\ omni_script ([0x6a; 4] ++ str "omni") = None.
Proof.
  intros o T D. split; [|vm_compute; reflexivity]. unfold get_payload, create_freeze, create_unfreeze. rewrite D. destruct T as [T|T]; rewrite T; reflexivity.
Qed.
(** Any other kind is refused when the transaction is serialised. *)
Theorem other_kinds_refused : forall o, ~ In (o_type o) [0; 4; 22; 28; 53; 55; 56; 70; 71; 72; 185; 186] ->
  exists s, get_payload al H o = Ok s /\ payload_out s = Err.
Proof.
  intros o N. cbn [In] in N. exists []. split; [|reflexivity]. unfold get_payload. cbv zeta.
  repeat match goal with |- context [o_type o =? ?k] => replace (o_type o =? k) with false by lia end. reflexivity.
Qed.
End WithAddress.

(** HyperCash: the script of a simple send, behind its length. *)
Theorem hc_simple_send_says : forall p a, 0 <= p < 2 ^ 32 -> 0 <= a < 2 ^ 64 ->
  exists s, rwhole rcounted (hc_simple_send p a) = Some s /\ omni_script s = Some (Transfer 0 p a).
Proof.
  intros p a P A. exists (wrap (create_simple_send p a)). split; [|apply script_ok; [unfold create_simple_send, head; rewrite !zlen_app, !zlen_put; lia|exact (transfer_msg 0 {| o_type := 0; o_property := p; o_amount := a; o_ecosystem := 0; o_memo := []; o_address := [] |} (conj P A) (or_introl eq_refl))]].
  assert (E : hc_simple_send p a = zlen (wrap (create_simple_send p a)) :: wrap (create_simple_send p a)).
  { unfold hc_simple_send. cbv zeta. rewrite wrap_len. unfold wrap, create_simple_send, head. rewrite <- !app_assoc. rewrite !zlen_app, !zlen_put. change (zlen [111; 109; 110; 105]) with 4. change (zlen [106]) with 1.
    match goal with |- context [zlen [u8 ?x]] => change (zlen [u8 x]) with 1 end. reflexivity. }
  rewrite E. apply reads_whole. apply reads_counted.
Qed.
Definition tether : omni := {| o_type := 0; o_property := 31; o_amount := 100000000; o_ecosystem := 0; o_memo := []; o_address := [] |}.
Example tether_ok : in_range tether /\ In (o_type tether) [0; 4; 22; 28; 53; 55; 56; 70; 71; 72; 185; 186].
Proof. split; [split; cbn; lia|left; reflexivity]. Qed.
Example tether_script : get_payload (mkAlphabet [] [] []) (fun x => x) tether = Ok ([0x6a; 0x14; 0x6f; 0x6d; 0x6e; 0x69; 0; 0; 0; 0; 0; 0; 0; 0x1f; 0; 0; 0; 0; 5; 0xf5; 0xe1; 0]).
Proof. vm_compute. reflexivity. Qed.
Example long_memo_case : omni_script (wrap (create_grant 31 5 (repeat 65 60))) = None /\ omni_script (wrap (create_grant 31 5 (repeat 65 54))) = Some (Issue 55 31 5 (repeat 65 54)).
Proof. vm_compute. split; reflexivity. Qed.
Print Assumptions omni_script_says.
Print Assumptions omni_scripts_distinct.
Print Assumptions long_memo_unreadable.
Print Assumptions refused_destination_dropped.
Print Assumptions other_kinds_refused.
Print Assumptions hc_simple_send_says.
(** a destination for the freeze case *)
Example freeze_case : exists s pre h, decode_check btc_alphabet toy_hash s = Ok (pre, h) /\ zlen (pre ++ h) <= 55.
Proof.
  destruct (decode_check_encode_check toy_hash _ _ [0] (zeros 20) toy_hash_ok btc_alphabet_ok btc_alphabet_new) as (s & _ & D); [bts|apply is_bytes_zeros|reflexivity|].
  exists s, [0], (zeros 20). split; [exact D|]. vm_compute. discriminate.
Qed.
