(** DecodeRawTransaction of ontologyTransaction: exactly which bytes are accepted, what is shown for them, and that no bytes
    make it panic. *)
From Coq Require Import ZArith List Bool Lia ZifyBool ZifyNat.
From Verif Require Import Go GoFacts GoFacts2 Rd AddressProps BtcDecodeProps OntModel OntProps.
Import ListNotations.
Open Scope Z_scope.
Ltac Zify.zify_post_hook ::= idtac.

(** ** Specification *)
(** The text of a transaction: its fields, then nothing signed, or at least two signatures with their keys, each shown by itself. *)
Inductive ont_text : bytes -> tx -> Prop :=
| ont_unsigned t : fields t -> t_sigs t = [] -> ont_text (body t ++ [0]) t
| ont_signed t ps : fields t -> t_sigs t = map (fun p => [p]) ps -> Forall sized ps -> 2 <= zlen ps <= 255 -> ont_text (body t ++ zlen ps :: flat_map entry ps) t.

(** ** Proofs *)
Ltac field n r a r' L := match goal with |- context [need n r ?k] => let E := fresh in destruct (need_cases n r k) as [[L E]|(a & r' & -> & L & E)]; [lia|rewrite E; tauto|rewrite E; clear E] end.
Lemma pair_cases b : zlen b = 102 -> (exists p, sized p /\ b = entry p) \/ decode_sigpub b = Err.
Proof.
  intros L. unfold decode_sigpub. match goal with |- context [need 2 b ?k] => destruct (need_cases 2 b k) as [[Q E]|(h & r1 & -> & L1 & E)]; [lia|rewrite E; tauto|rewrite E; clear E] end.
  destruct (beq h [65; 64]) eqn:Bh; cbn [negb]; [|tauto]. apply beq_eq in Bh. subst h.
  match goal with |- context [need 64 r1 ?k] => destruct (need_cases 64 r1 k) as [[Q E]|(s & r2 & -> & L2 & E)]; [lia|rewrite E; tauto|rewrite E; clear E] end.
  match goal with |- context [need 2 r2 ?k] => destruct (need_cases 2 r2 k) as [[Q E]|(h & r3 & -> & L3 & E)]; [lia|rewrite E; tauto|rewrite E; clear E] end.
  destruct (beq h [35; 33]) eqn:Bh; cbn [negb]; [|tauto]. apply beq_eq in Bh. subst h. rewrite !zlen_app in L.
  match goal with |- context [must 33 r3 ?k] => destruct (must_cases 33 r3 k) as [[Q E]|(key & r4 & -> & L4 & E)]; [lia|lia|rewrite E; clear E] end. rewrite zlen_app in L.
  destruct r4 as [|c [|c' r4]]; [tauto| |tauto]. destruct (c =? 172) eqn:C; [|tauto]. assert (c = 172) by lia; subst c. left. exists {| p_signature := s; p_key := key |}. split; [split; assumption|]. reflexivity.
Qed.
Lemma one_sig_reads : reads one_sig (fun w x => exists p, sized p /\ w = entry p /\ x = [p]) (fun _ => False).
Proof.
  split; [|split].
  - intros w x r (p & S & -> & ->). apply one_sig_entry. exact S.
  - intros b [].
  - intros b _. unfold one_sig. match goal with |- context [need 102 b ?k] => destruct (need_cases 102 b k) as [[Q E]|(h & r1 & -> & L1 & E)]; [lia|rewrite E; tauto|rewrite E; clear E] end.
    destruct (pair_cases h L1) as [(p & S & ->)|E]; [|rewrite E; tauto]. left. exists (entry p), [p], r1. split; [exists p; auto|reflexivity].
Qed.
Lemma entries_of ws xs : Forall2 (fun w x => exists p, sized p /\ w = entry p /\ x = [p]) ws xs -> exists ps, Forall sized ps /\ concat ws = flat_map entry ps /\ xs = map (fun p => [p]) ps /\ length ps = length ws.
Proof.
  induction 1 as [|w x ws xs (p & S & -> & ->) F (ps & Fs & E1 & E2 & L)]; [exists []; repeat split; constructor|]. exists (p :: ps). split; [constructor; assumption|]. cbn [concat flat_map map length]. rewrite E1, E2, L. auto.
Qed.
Lemma with_same t s : t_sigs t = s -> with_sigs t s = t.
Proof. destruct t. cbn. intros ->. reflexivity. Qed.
Lemma one_refused r : decode_sigpub (1 :: r) = Err.
Proof. unfold decode_sigpub, need at 1. destruct (zlen (1 :: r) <? 2); [reflexivity|]. destruct r; reflexivity. Qed.
Lemma decode_text b t : ont_text b t -> decode_raw b = Ok t.
Proof.
  intros [t0 F S|t0 ps F S Z L]; rewrite decode_body by exact F; cbn [need1].
  - change (0 =? 0) with true. cbv iota. rewrite with_same by exact S. reflexivity.
  - replace (zlen ps =? 0) with false by lia. replace (zlen ps =? 1) with false by lia. assert (EQ : flat_map entry ps = flat_map sigpub_bytes ps) by (clear L S; induction Z as [|p ps Z _ IH]; [reflexivity|]; cbn [flat_map]; rewrite sigpub_entry, IH by exact Z; reflexivity).
    rewrite EQ. replace (Z.to_nat (zlen ps)) with (length ps) by (unfold zlen; lia). rewrite readn_entries by exact Z. cbn [bind]. rewrite with_same by exact S. reflexivity.
Qed.
Lemma decode_cases b : is_bytes b -> (exists t, ont_text b t) \/ decode_raw b = Err.
Proof.
  intros Bb. unfold decode_raw. destruct b as [|v b]; [tauto|]. cbn [need1]. destruct (v =? 0) eqn:Ev; cbn [negb]; [|tauto]. destruct b as [|ty b]; [tauto|]. cbn [need1]. destruct (ty =? 0xD1) eqn:Et; cbn [negb]; [|tauto]. assert (v = 0) by lia; assert (ty = 0xD1) by lia; subst v ty. do 2 (apply is_bytes_cons in Bb as [_ Bb]).
  field 4 b n r2 L1. field 8 r2 p r3 L2. field 8 r3 l r4 L3. field 20 r4 py r5 L4. do 4 (apply is_bytes_app in Bb as [_ Bb]). destruct r5 as [|k r6]; [tauto|]. cbn [need1]. apply is_bytes_cons in Bb as [Hk Bb]; unfold is_byte in Hk. destruct (k =? 0) eqn:Ek; [tauto|]. field k r6 pl r7 L5. subst k.
  apply is_bytes_app in Bb as [_ Bb]. destruct r7 as [|a r8]; [tauto|]. cbn [need1]. apply is_bytes_cons in Bb as [_ Bb]. destruct (a =? 0) eqn:Ea; cbn [negb]; [|tauto]. assert (a = 0) by lia; subst a. destruct r8 as [|c r9]; [tauto|]. cbn [need1]. cbv zeta. apply is_bytes_cons in Bb as [Hc Bb]; unfold is_byte in Hc.
  pose (T := fun s => {| t_version := 0; t_type := 0xD1; t_nonce := n; t_price := p; t_limit := l; t_payer := py; t_payload := pl; t_attr := 0; t_sigs := s |}).
  assert (TF : forall s, fields (T s)) by (intros s; unfold fields, T; cbn [t_nonce t_price t_limit t_payer t_payload t_version t_type t_attr]; repeat split; assumption || lia).
  assert (TB : forall s q, 0 :: 209 :: n ++ p ++ l ++ py ++ zlen pl :: pl ++ 0 :: q = body (T s) ++ q) by (intros s q; unfold body, T; cbn [t_nonce t_price t_limit t_payer t_payload]; cbn [app]; rewrite <- !app_assoc; cbn [app]; rewrite <- !app_assoc; reflexivity).
  destruct (c =? 0) eqn:C0; [destruct r9; [|tauto]; assert (c = 0) by lia; subst c; left; exists (T []); rewrite (TB []); apply ont_unsigned; [apply TF|reflexivity]|].
  destruct (c =? 1) eqn:C1; [assert (c = 1) by lia; subst c; rewrite one_refused; tauto|].
  destruct (readn (Z.to_nat c) one_sig r9) as [[sigs r']| |] eqn:E1; cbn [bind]; [|tauto|].
  - apply (reads_ok _ _ _ _ _ _ (readn_reads _ _ _ one_sig_reads (Z.to_nat c)) Bb) in E1 as (w & (ws & Fw & Lw & ->) & ->). destruct r' as [|]; [|tauto]. apply entries_of in Fw as (ps & Fs & -> & -> & Lp). rewrite app_nil_r. assert (c = zlen ps) by (unfold zlen; lia). subst c. left. exists (T (map (fun p => [p]) ps)). rewrite (TB (map (fun p => [p]) ps)). apply ont_signed; [apply TF|reflexivity|exact Fs|lia].
  - exfalso. apply (reads_panic _ _ _ _ (readn_reads _ _ _ one_sig_reads (Z.to_nat c)) Bb) in E1 as (? & ? & ? & _ & _ & _ & []).
Qed.
(** C137. *)
Theorem ont_decode_iff : forall b t, is_bytes b -> (decode_raw b = Ok t <-> ont_text b t).
Proof. intros b t B. split; [|apply decode_text]. intros E. destruct (decode_cases b B) as [(t' & T)|E']; [|congruence]. rewrite (decode_text _ _ T) in E. assert (t' = t) by congruence. subst. exact T. Qed.
Theorem ont_decode_never_panics : forall b, is_bytes b -> decode_raw b <> Panic.
Proof. intros b B E. destruct (decode_cases b B) as [(t & T)|E']; [rewrite (decode_text _ _ T) in E|]; congruence. Qed.
(** C137. Different texts are shown as different transactions. *)
Theorem ont_decode_injective : forall b b' t, is_bytes b -> is_bytes b' -> decode_raw b = Ok t -> decode_raw b' = Ok t -> b = b'.
Proof.
  intros b b' t B B' E E'. apply ont_decode_iff in E; [|exact B]. apply ont_decode_iff in E'; [|exact B']. destruct E as [t F S|t ps F S Z L]; inversion E' as [t' F' S'|t' ps' F' S' Z' L']; subst; try reflexivity.
  - rewrite S in S'. destruct ps'; [change (zlen (@nil sigpub)) with 0 in L'; lia|discriminate].
  - rewrite S in S'. destruct ps; [change (zlen (@nil sigpub)) with 0 in L; lia|discriminate].
  - rewrite S in S'. assert (ps = ps'); [|subst; reflexivity]. clear -S'. revert ps' S'. induction ps as [|p ps IH]; intros [|q ps'] E; try discriminate; [reflexivity|]. cbn [map] in E. injection E as -> E. rewrite (IH _ E). reflexivity.
Qed.

(** ** Concrete case *)
Example ont_decode_example : decode_raw (body toy_tx ++ 2 :: flat_map entry [toy_sig 1; toy_sig 2]) = Ok (with_sigs toy_tx [[toy_sig 1]; [toy_sig 2]]).
Proof.
  apply ont_decode_iff; [apply (proj2 (proj2 toy_sized))|]. change (body toy_tx) with (body (with_sigs toy_tx [[toy_sig 1]; [toy_sig 2]])). apply (ont_signed _ [toy_sig 1; toy_sig 2]); [apply toy_fields|reflexivity|apply toy_sized|change (2 <= 2 <= 255); lia].
Qed.
Print Assumptions ont_decode_iff.
Print Assumptions ont_decode_never_panics.
Print Assumptions ont_decode_injective.
