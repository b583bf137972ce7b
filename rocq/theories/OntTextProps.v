(** C144: VerifyAndCombineRawTransaction of ontologyTransaction on every text and every list of signatures. *)
From Coq Require Import String ZArith List Bool Lia ZifyBool ZifyNat.
From Verif Require Import Go GoFacts GoFacts2 OntModel OntProps OntDecodeProps.
Import ListNotations.
Open Scope Z_scope.
Ltac Zify.zify_post_hook ::= idtac.

(** ** Specification *)
(** Bytes of an unsigned transaction [t], and of one with the signatures [p :: old]. *)
Definition ont_new (b : bytes) (t : tx) : Prop := fields t /\ b = body t ++ [0].
Definition ont_old (b : bytes) (t : tx) (p : sigpub) (old : list sigpub) : Prop :=
  fields t /\ Forall sized (p :: old) /\ 1 <= zlen old <= 254 /\ b = body t ++ zlen (p :: old) :: flat_map entry (p :: old).

(** ** Lemmas *)
Lemma check_all_panics d v h ps : check_all d v h ps = Panic <-> exists ps1 p ps2, ps = ps1 ++ p :: ps2 /\ all_verify d v h ps1 /\ d (p_key p) = [].
Proof.
  induction ps as [|p ps IH]; cbn [check_all]; [split; [discriminate|intros ([|? ?] & ? & ? & E & _); discriminate]|]. split.
  - intros E. destruct (d (p_key p)) as [|k0 k] eqn:D; [exists [], p, ps; repeat split; [constructor|exact D]|]. rewrite slice_from_cons in E. cbn [bind] in E. destruct (v k h (p_signature p)) eqn:V; [|discriminate].
    apply IH in E as (ps1 & q & ps2 & -> & A & Q). exists (p :: ps1), q, ps2. split; [reflexivity|]. split; [constructor; eauto|exact Q].
  - intros ([|p1 ps1] & q & ps2 & E & A & Q); cbn [app] in E; injection E as -> ->; [rewrite Q; reflexivity|]. inversion A as [|? ? (k0 & k & D & V) A']; subst. rewrite D, slice_from_cons. cbn [bind]. rewrite V. apply IH. exists ps1, q, ps2. auto.
Qed.
Lemma sig_hash_removelast H K b : b <> [] -> sig_hash H K b = Ok (K (H (removelast b))).
Proof. intros N. destruct (exists_last N) as (e & c & ->). rewrite removelast_last. apply sig_hash_last. Qed.
Lemma old_text b t p old : ont_old b t p old -> decode_raw b = Ok (with_sigs t (map (fun p => [p]) (p :: old))).
Proof.
  intros (F & S & L & ->). apply decode_text. change (body t) with (body (with_sigs t (map (fun p => [p]) (p :: old)))). apply ont_signed; [exact F|reflexivity|exact S|rewrite zlen_cons; lia].
Qed.
Lemma new_text b t : ont_new b t -> decode_raw b = Ok (with_sigs t []).
Proof. intros (F & ->). apply decode_text. change (body t) with (body (with_sigs t [])). apply ont_unsigned; [exact F|reflexivity]. Qed.
Lemma text_cases b : is_bytes b -> (exists t, ont_new b t) \/ (exists t p old, ont_old b t p old) \/ (decode_raw b = Err /\ (forall t, ~ ont_new b t) /\ (forall t p old, ~ ont_old b t p old)).
Proof.
  intros B. destruct (decode_cases b B) as [(t & T)|E].
  - destruct T as [t F S|t ps F S Z L]; [left; exists t; split; auto|]. destruct ps as [|p old]; [change (zlen (@nil sigpub)) with 0 in L; lia|]. rewrite zlen_cons in L. right; left. exists t, p, old. repeat split; (exact F || exact Z || lia || apply F).
  - right; right. split; [exact E|]. split; [intros t N; apply new_text in N; congruence|intros t p old N; apply old_text in N; congruence].
Qed.
Lemma body_nonempty t q : body t ++ q <> [].
Proof. discriminate. Qed.
Lemma combine_new H K d v text b t ps : hex_decode text = Ok b -> ont_new b t ->
  OntModel.verify_and_combine H K d v text ps = (_ <- check_all d v (K (H (body t))) ps ;; Ok (hex_encode (body t ++ u8 (zlen ps) :: flat_map sigpub_bytes ps))).
Proof.
  intros E N. unfold OntModel.verify_and_combine. rewrite E. cbn [bind]. rewrite (new_text _ _ N). cbn [bind]. destruct N as [F ->]. rewrite sig_hash_last. cbn [bind]. destruct (check_all _ _ _ _); cbn [bind]; try reflexivity.
  match goal with |- context [tx_bytes ?x] => change x with (with_sigs t [ps]) end. rewrite tx_bytes_body by exact F. reflexivity.
Qed.
Lemma combine_old H K d v text b t p old ps : hex_decode text = Ok b -> ont_old b t p old ->
  OntModel.verify_and_combine H K d v text ps = (_ <- check_all d v (K (H (removelast b))) ps ;; Ok (hex_encode (body t ++ 1 :: entry p))).
Proof.
  intros E N. unfold OntModel.verify_and_combine. rewrite E. cbn [bind]. rewrite (old_text _ _ _ _ N). cbn [bind]. destruct N as (F & S & L & ->). rewrite sig_hash_removelast by discriminate. cbn [bind]. destruct (check_all _ _ _ _); cbn [bind]; try reflexivity.
  match goal with |- context [tx_bytes ?x] => change x with (with_sigs t ([p] :: map (fun p => [p]) old ++ [ps])) end. rewrite tx_bytes_body by exact F. cbn [t_sigs with_sigs]. inversion S; subst. cbn [flat_map]. rewrite sigpub_entry by assumption. rewrite app_nil_r. reflexivity.
Qed.

(** ** C144 *)
(** A text is accepted exactly when it is the hexadecimal form of a transaction that is unsigned or has 2 to 255 signatures, and
    every given signature verifies for the hash of all its bytes but the last one. The given signatures are in the result only if the
    transaction was unsigned; otherwise the result has the first of its old signatures, which is not checked, and no other. *)
Theorem ont_text_combine_iff : forall H K decompress verify text ps out,
  OntModel.verify_and_combine H K decompress verify text ps = Ok out <->
  exists b t, hex_decode text = Ok b /\ all_verify decompress verify (K (H (removelast b))) ps /\
    (ont_new b t /\ out = hex_encode (body t ++ u8 (zlen ps) :: flat_map sigpub_bytes ps) \/
     exists p old, ont_old b t p old /\ out = hex_encode (body t ++ 1 :: entry p)).
Proof.
  intros H K d v text ps out. pose proof (hex_decode_not_panic text) as NP. destruct (hex_decode text) as [b| |] eqn:E; [| |contradiction].
  2: { unfold OntModel.verify_and_combine. rewrite E. split; [discriminate|]. intros (b & t & Q & _). discriminate. }
  pose proof (proj1 (hex_decode_bytes _ _ E)) as B.
  assert (G : forall h X, (_ <- check_all d v h ps ;; Ok X) = Ok out <-> all_verify d v h ps /\ out = X).
  { intros h X. pose proof (check_all_iff d v h ps) as C. split; [intros Q; apply bind_ok in Q as ([] & Q & R); split; [apply C; exact Q|congruence]|]. intros [A ->]. rewrite (proj2 C A). reflexivity. }
  destruct (text_cases b B) as [(t & N)|[(t & p & old & N)|(De & N1 & N2)]].
  - rewrite (combine_new _ _ _ _ _ _ _ _ E N), G. split.
    + intros [A ->]. exists b, t. split; [reflexivity|]. split; [destruct N as [_ ->]; rewrite removelast_last; exact A|]. left. auto.
    + intros (b' & t' & Q & A & R). injection Q as <-. split; [destruct N as [_ ->]; rewrite removelast_last in A; exact A|]. pose proof (new_text _ _ N) as D. destruct R as [(N' & ->)|(p & old & N' & ->)].
      * destruct N as [F Eb]. destruct N' as [F' Eb']. rewrite Eb in Eb'. apply app_inv_tail in Eb'. rewrite Eb'. reflexivity.
      * apply old_text in N'. rewrite D in N'. exfalso. assert (Q : t_sigs (with_sigs t []) = t_sigs (with_sigs t' (map (fun p => [p]) (p :: old)))) by congruence. discriminate Q.
  - rewrite (combine_old _ _ _ _ _ _ _ _ _ _ E N), G. split.
    + intros [A ->]. exists b, t. split; [reflexivity|]. split; [exact A|]. right. exists p, old. auto.
    + intros (b' & t' & Q & A & R). injection Q as <-. split; [exact A|]. pose proof (old_text _ _ _ _ N) as D. destruct R as [(N' & ->)|(p' & old' & N' & ->)].
      * apply new_text in N'. rewrite D in N'. exfalso. assert (Q : t_sigs (with_sigs t (map (fun p => [p]) (p :: old))) = t_sigs (with_sigs t' [])) by congruence. discriminate Q.
      * apply old_text in N'. rewrite D in N'. assert (Q : body (with_sigs t (map (fun p => [p]) (p :: old))) = body (with_sigs t' (map (fun p => [p]) (p' :: old')))) by congruence. assert (Q2 : t_sigs (with_sigs t (map (fun p => [p]) (p :: old))) = t_sigs (with_sigs t' (map (fun p => [p]) (p' :: old')))) by congruence.
        change (body t = body t') in Q. cbn [t_sigs with_sigs map] in Q2. injection Q2 as <- _. rewrite Q. reflexivity.
  - unfold OntModel.verify_and_combine. rewrite E. cbn [bind]. rewrite De. split; [discriminate|]. intros (b' & t & Q & _ & [(N & _)|(p & old & N & _)]); injection Q as <-; [destruct (N1 _ N)|destruct (N2 _ _ _ N)].
Qed.
(** It crashes exactly on such a text, at the first signature that is not valid, if its key does not decompress. *)
Theorem ont_text_combine_panics_iff : forall H K decompress verify text ps,
  OntModel.verify_and_combine H K decompress verify text ps = Panic <->
  exists b t, hex_decode text = Ok b /\ (ont_new b t \/ exists p old, ont_old b t p old) /\
    exists ps1 p ps2, ps = ps1 ++ p :: ps2 /\ all_verify decompress verify (K (H (removelast b))) ps1 /\ decompress (p_key p) = [].
Proof.
  intros H K d v text ps. pose proof (hex_decode_not_panic text) as NP. destruct (hex_decode text) as [b| |] eqn:E; [| |contradiction].
  2: { unfold OntModel.verify_and_combine. rewrite E. split; [discriminate|]. intros (b & t & Q & _). discriminate. }
  pose proof (proj1 (hex_decode_bytes _ _ E)) as B.
  assert (G : forall h (X : list Z), (_ <- check_all d v h ps ;; Ok X) = Panic <-> check_all d v h ps = Panic) by (intros h X; destruct (check_all d v h ps); cbn [bind]; split; congruence).
  assert (W : forall t, (ont_new b t \/ exists p old, ont_old b t p old) -> (check_all d v (K (H (removelast b))) ps = Panic <-> exists b' t, Ok b = Ok b' /\ (ont_new b' t \/ exists p old, ont_old b' t p old) /\ exists ps1 p ps2, ps = ps1 ++ p :: ps2 /\ all_verify d v (K (H (removelast b'))) ps1 /\ d (p_key p) = [])).
  { intros t N. rewrite check_all_panics. split; [intros Q; exists b, t; auto|]. intros (b' & t' & Q & _ & R). injection Q as <-. exact R. }
  destruct (text_cases b B) as [(t & N)|[(t & p & old & N)|(De & N1 & N2)]].
  - rewrite (combine_new _ _ _ _ _ _ _ _ E N), G, <- (W t) by auto. destruct N as [_ ->]. rewrite removelast_last. reflexivity.
  - rewrite (combine_old _ _ _ _ _ _ _ _ _ _ E N), G, <- (W t) by eauto. reflexivity.
  - unfold OntModel.verify_and_combine. rewrite E. cbn [bind]. rewrite De. split; [discriminate|]. intros (b' & t & Q & [N|(p & old & N)] & _); injection Q as <-; [destruct (N1 _ N)|destruct (N2 _ _ _ N)].
Qed.
(** A transaction with old signatures is accepted without any new one, and the first old signature is returned as the only one. *)
Theorem ont_old_signature_unchecked : forall H K decompress verify text b t p old, hex_decode text = Ok b -> ont_old b t p old ->
  OntModel.verify_and_combine H K decompress verify text [] = Ok (hex_encode (body t ++ 1 :: entry p)).
Proof. intros H K d v text b t p old E N. apply ont_text_combine_iff. exists b, t. split; [exact E|]. split; [constructor|]. right. exists p, old. auto. Qed.

(** ** Examples *)
Example ex_old : ont_old (body toy_tx ++ 2 :: flat_map entry [toy_sig 1; toy_sig 2]) toy_tx (toy_sig 1) [toy_sig 2] /\ is_bytes (body toy_tx ++ 2 :: flat_map entry [toy_sig 1; toy_sig 2]).
Proof. split; [split; [repeat split; reflexivity || (cbn; lia)|]; split; [repeat constructor|]; split; [cbn; lia|reflexivity]|]. apply str_bytes_all. reflexivity. Qed.
Example ex_new : ont_new (body toy_tx ++ [0]) toy_tx.
Proof. split; [repeat split; reflexivity || (cbn; lia)|reflexivity]. Qed.
Print Assumptions ont_text_combine_iff.
Print Assumptions ont_text_combine_panics_iff.
