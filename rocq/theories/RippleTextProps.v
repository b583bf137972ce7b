(** C142: VerifyAndCombinRawTransaction of rippleTransaction on every text, key and signature. *)
From Coq Require Import String ZArith List Bool Lia ZifyBool ZifyNat.
From Verif Require Import Go GoFacts GoFacts2 Base58Model SigModel SigDerProps Codes RippleModel RippleProps WaykiTextProps.
Import ListNotations.
Open Scope Z_scope.
Ltac Zify.zify_post_hook ::= idtac.

(** ** Specification *)
(** The pieces of a text around its letters s (115). *)
Definition splits (text : list Z) (first : list Z) (more : list (list Z)) : Prop :=
  Forall (fun p => ~ In 115 p) (first :: more) /\ text = first ++ concat (map (cons 115) more).
(** The pieces with [f] between them. *)
Definition joined (f first : list Z) (more : list (list Z)) : list Z := first ++ concat (map (fun p => f ++ p) more).
(** The signature verifies for the first 32 bytes of the hash of the bytes. *)
Definition xrp_valid (H512 decompress : bytes -> bytes) (verify : bytes -> bytes -> bytes -> bool) (b pub sig : bytes) : Prop :=
  exists c point, decompress pub = c :: point /\ verify point (firstn 32 (H512 (stx ++ b))) sig = true.
(** What is written for the signature: its DER form in hexadecimal when it has 64 bytes, otherwise nothing. *)
Definition written_signature (sig w : bytes) : Prop :=
  (zlen sig = 64 /\ r_of sig <> 0 /\ s_of sig <> 0 /\ exists f, wire_signature sig f /\ w = hex_encode f) \/ (zlen sig <> 64 /\ w = []).

(** ** Lemmas *)
Lemma splits_exist text : exists first more, splits text first more.
Proof.
  induction text as [|c text (first & more & F & ->)].
  - exists [], []. split; [constructor; [intros []|constructor]|reflexivity].
  - inversion F as [|? ? F1 F2]; subst. destruct (Z.eq_dec c 115) as [->|N].
    + exists [], (first :: more). split; [constructor; [intros []|exact F]|]. cbn [map concat app]. reflexivity.
    + exists (c :: first), more. split; [constructor; [intros [Q|Q]; [congruence|contradiction]|exact F2]|reflexivity].
Qed.
Lemma replace_plain r p : ~ In 115 p -> replace_s r p = p.
Proof. unfold replace_s. induction p as [|c p IH]; intros N; [reflexivity|]. cbn [flat_map]. replace (c =? 115) with false by (cbn [In] in N; lia). cbn [app]. f_equal. apply IH. intros I. apply N. right. exact I. Qed.
Lemma replace_joined r text first more : splits text first more -> replace_s r text = joined r first more.
Proof.
  intros [F ->]. inversion F as [|? ? F1 F2]; subst. rewrite replace_app, replace_plain by exact F1. unfold joined. f_equal. clear F F1. induction F2 as [|p more Np F2 IH]; [reflexivity|]. cbn [map concat]. change ((115 :: p) ++ concat (map (cons 115) more)) with ([115] ++ (p ++ concat (map (cons 115) more))). rewrite !replace_app, IH, (replace_plain r p Np).
  change (replace_s r [115]) with (r ++ []). rewrite app_nil_r, app_assoc. reflexivity.
Qed.
Lemma joined_nil first more : joined [] first more = concat (first :: more).
Proof. unfold joined. cbn [concat]. f_equal. induction more as [|p more IH]; [reflexivity|]. cbn [map concat]. rewrite IH. reflexivity. Qed.
Lemma hash_text H512 text first more : hash32_ok H512 -> splits text first more ->
  match hex_decode (concat (first :: more)) with Ok b => hash_from_empty H512 text = Ok (firstn 32 (H512 (stx ++ b))) | _ => hash_from_empty H512 text = Err end.
Proof.
  intros H5 S. unfold hash_from_empty. rewrite (replace_joined [] _ _ _ S), joined_nil. pose proof (hex_decode_not_panic (concat (first :: more))) as N. destruct (hex_decode (concat (first :: more))) as [b| |] eqn:E; [|reflexivity|contradiction]. cbn [bind].
  change sign_prefix with stx. apply hex_decode_bytes in E as [Bb _]. destruct (H5 (stx ++ b)) as [_ L]; [unfold stx; bts|]. rewrite <- (firstn_skipn 32 (H512 (stx ++ b))) at 1. apply slice_pre. unfold zlen in *. rewrite firstn_length. lia.
Qed.
Lemma txn_signature_cases signature sig : hex_decode signature = Ok sig ->
  (exists w, written_signature sig w /\ (forall w', written_signature sig w' -> w' = w) /\ match txn_signature_bytes signature with Ok s => hex_encode s = w | Err => w = [] | Panic => False end) \/
  (zlen sig = 64 /\ (r_of sig = 0 \/ s_of sig = 0) /\ txn_signature_bytes signature = Panic /\ forall w, ~ written_signature sig w).
Proof.
  intros Es. unfold txn_signature_bytes. rewrite Es. cbn [bind]. apply hex_decode_bytes in Es as [Bs _]. destruct (zlen sig =? 64) eqn:L; cbn [negb].
  - assert (L64 : zlen sig = 64) by lia. destruct (Z.eq_dec (r_of sig) 0) as [Zr|Nr]; [right; rewrite signature_zero by auto; repeat split; auto; intros w [(_ & N & _)|(N & _)]; lia|].
    destruct (Z.eq_dec (s_of sig) 0) as [Zs|Ns]; [right; rewrite signature_zero by auto; repeat split; auto; intros w [(_ & _ & N & _)|(N & _)]; lia|]. left.
    destruct (WaykiProps.signature_ok sig Bs L64 Nr Ns) as (f & Ef & (R & S & D1 & D2 & Eq)). rewrite Ef. cbn [bind]. exists (hex_encode (f_txn_signature ++ f)). split; [|split; [|reflexivity]].
    + left. split; [exact L64|]. split; [exact Nr|]. split; [exact Ns|]. exists (f_txn_signature ++ f). split; [|reflexivity]. exists R, S. split; [exact D1|]. split; [exact D2|]. rewrite Eq. reflexivity.
    + intros w' [(_ & _ & _ & f' & (R' & S' & D1' & D2' & ->) & ->)|(N & _)]; [|lia]. f_equal. rewrite Eq, <- (minimal_der_unique _ _ _ D1 D1'), <- (minimal_der_unique _ _ _ D2 D2'). reflexivity.
  - left. exists []. split; [right; split; [lia|reflexivity]|]. split; [|reflexivity]. intros w' [(N & _)|(_ & ->)]; [lia|reflexivity].
Qed.

(** ** C142 *)
(** The letters s are taken out of the text, the rest is the transaction that is checked; in the result the signature stands at every
    place where there was an s. Their number and their places are not checked. *)
Theorem xrp_combine_iff : forall H512 decompress verify text signature publicKey first more s, hash32_ok H512 -> splits text first more ->
  (verify_and_combine H512 decompress verify text signature publicKey = Ok (true, s) <->
   exists b pub sig w, hex_decode (concat (first :: more)) = Ok b /\ hex_decode publicKey = Ok pub /\ hex_decode signature = Ok sig /\
     xrp_valid H512 decompress verify b pub sig /\ written_signature sig w /\ s = joined w first more).
Proof.
  intros H512 dc vf text signature publicKey first more s H5 SP. pose proof (hash_text H512 text first more H5 SP) as HT. pose proof (hex_decode_not_panic (concat (first :: more))) as N0. unfold verify_and_combine.
  destruct (hex_decode (concat (first :: more))) as [b| |]; [|rewrite HT; split; [discriminate|intros (b & pub & sig & w & Q & _); discriminate]|contradiction]. rewrite HT.
  pose proof (hex_decode_not_panic publicKey) as N1. destruct (hex_decode publicKey) as [pub| |]; [|split; [discriminate|intros (b' & pub & sig & w & _ & Q & _); discriminate]|contradiction].
  pose proof (hex_decode_not_panic signature) as N2. destruct (hex_decode signature) as [sig| |] eqn:Es; [|split; [discriminate|intros (b' & pub' & sig & w & _ & _ & Q & _); discriminate]|contradiction].
  destruct (txn_signature_cases _ _ Es) as [(w & W & U & T)|(L & Z & T & NW)].
  - split.
    + intros E. destruct (dc pub) as [|c point] eqn:D; [discriminate|]. rewrite slice_from_cons in E. cbn [bind] in E. destruct (vf point _ sig) eqn:V; cbn [negb] in E; [|discriminate].
      exists b, pub, sig, w. split; [reflexivity|]. split; [reflexivity|]. split; [reflexivity|]. split; [exists c, point; auto|]. split; [exact W|].
      destruct (txn_signature_bytes signature) as [f| |]; [| |contradiction]; rewrite (replace_joined _ _ _ _ SP) in E; (apply (f_equal (fun x => match x with Ok v => snd v | _ => [] end)) in E; cbv beta iota in E; cbn [snd] in E); congruence.
    + intros (b' & pub' & sig' & w' & Q1 & Q2 & Q3 & (c & point & D & V) & W' & ->). injection Q1 as <-. injection Q2 as <-. injection Q3 as <-. rewrite D, slice_from_cons. cbn [bind]. rewrite V. cbn [negb]. rewrite (U _ W').
      destruct (txn_signature_bytes signature) as [f| |]; [| |contradiction]; rewrite (replace_joined _ _ _ _ SP), <- T || rewrite (replace_joined _ _ _ _ SP), T; reflexivity.
  - split.
    + intros E. destruct (dc pub) as [|c point]; [discriminate|]. rewrite slice_from_cons in E. cbn [bind] in E. destruct (vf point _ sig); cbn [negb] in E; [|discriminate]. rewrite T in E. discriminate.
    + intros (b' & pub' & sig' & w' & Q1 & Q2 & Q3 & _ & W' & _). injection Q3 as <-. exfalso. exact (NW _ W').
Qed.
(** It crashes on a key that does not decompress and, after the signature has verified, on a signature with a zero number. *)
Theorem xrp_combine_panics_iff : forall H512 decompress verify text signature publicKey first more, hash32_ok H512 -> splits text first more ->
  (verify_and_combine H512 decompress verify text signature publicKey = Panic <->
   exists b pub sig, hex_decode (concat (first :: more)) = Ok b /\ hex_decode publicKey = Ok pub /\ hex_decode signature = Ok sig /\
     (decompress pub = [] \/ xrp_valid H512 decompress verify b pub sig /\ zlen sig = 64 /\ (r_of sig = 0 \/ s_of sig = 0))).
Proof.
  intros H512 dc vf text signature publicKey first more H5 SP. pose proof (hash_text H512 text first more H5 SP) as HT. pose proof (hex_decode_not_panic (concat (first :: more))) as N0. unfold verify_and_combine.
  destruct (hex_decode (concat (first :: more))) as [b| |]; [|rewrite HT; split; [discriminate|intros (b & pub & sig & Q & _); discriminate]|contradiction]. rewrite HT.
  pose proof (hex_decode_not_panic publicKey) as N1. destruct (hex_decode publicKey) as [pub| |]; [|split; [discriminate|intros (b' & pub & sig & _ & Q & _); discriminate]|contradiction].
  pose proof (hex_decode_not_panic signature) as N2. destruct (hex_decode signature) as [sig| |] eqn:Es; [|split; [discriminate|intros (b' & pub' & sig & _ & _ & Q & _); discriminate]|contradiction].
  destruct (txn_signature_cases _ _ Es) as [(w & W & U & T)|(L & Z & T & NW)].
  - split.
    + intros E. exists b, pub, sig. repeat (split; [reflexivity|]). destruct (dc pub) as [|c point] eqn:D; [left; reflexivity|]. rewrite slice_from_cons in E. cbn [bind] in E. destruct (vf point _ sig) eqn:V; cbn [negb] in E; [|discriminate]. destruct (txn_signature_bytes signature); [discriminate..|contradiction].
    + intros (b' & pub' & sig' & Q1 & Q2 & Q3 & C). injection Q1 as <-. injection Q2 as <-. injection Q3 as <-. destruct C as [->|(_ & L & Z)]; [reflexivity|]. exfalso. destruct W as [(_ & Nr & Ns & _)|(NL & _)]; [destruct Z; contradiction|contradiction].
  - split.
    + intros E. exists b, pub, sig. repeat (split; [reflexivity|]). destruct (dc pub) as [|c point] eqn:D; [left; reflexivity|]. rewrite slice_from_cons in E. cbn [bind] in E. destruct (vf point _ sig) eqn:V; cbn [negb] in E; [|discriminate]. right. split; [exists c, point; auto|auto].
    + intros (b' & pub' & sig' & Q1 & Q2 & Q3 & C). injection Q1 as <-. injection Q2 as <-. injection Q3 as <-. destruct C as [->|((c & point & D & V) & _)]; [reflexivity|]. rewrite D, slice_from_cons. cbn [bind]. rewrite V. cbn [negb]. rewrite T. reflexivity.
Qed.
(** Every text splits in one way, so that the theorems above cover all texts. *)
Theorem text_splits_uniquely : forall text, exists first more, splits text first more /\ forall first' more', splits text first' more' -> first' = first /\ more' = more.
Proof.
  induction text as [|c text (first & more & S & U)].
  - exists [], []. split; [split; [constructor; [intros []|constructor]|reflexivity]|]. intros f m [F E]. destruct f; [|discriminate]. destruct m; [auto|discriminate].
  - destruct S as [F E]. inversion F as [|? ? F1 F2]; subst x l. destruct (Z.eq_dec c 115) as [->|N].
    + exists [], (first :: more). split; [split; [constructor; [intros []|exact F]|cbn [map concat app]; rewrite E; reflexivity]|].
      intros f m [G Q]. destruct f as [|y f]; [|injection Q as <- _; inversion G as [|? ? G1 _]; exfalso; apply G1; left; reflexivity]. destruct m as [|p m]; [discriminate|]. cbn [map concat app] in Q. injection Q as Q. inversion G as [|? ? _ G2]; subst. destruct (U p m) as [-> ->]; [split; [exact G2|congruence]|auto].
    + exists (c :: first), more. split; [split; [constructor; [intros [Q|Q]; [congruence|contradiction]|exact F2]|cbn [app]; rewrite E; reflexivity]|].
      intros f m [G Q]. inversion G as [|? ? G1 G2]; subst x l. destruct f as [|y f]; [destruct m as [|p m]; [discriminate|injection Q as Q _; congruence]|]. injection Q as <- Q. destruct (U f m) as [-> ->]; [split; [constructor; [intros I; apply G1; right; exact I|exact G2]|congruence]|auto].
Qed.
(** Without an s the answer is true and the text is returned as it is, unsigned. *)
Theorem xrp_no_marker_unsigned : forall H512 decompress verify text signature publicKey s, hash32_ok H512 -> ~ In 115 text ->
  verify_and_combine H512 decompress verify text signature publicKey = Ok (true, s) -> s = text.
Proof.
  intros H512 dc vf text signature publicKey s H5 N E. assert (S : splits text text []) by (split; [constructor; [exact N|constructor]|cbn [map concat]; rewrite app_nil_r; reflexivity]).
  apply (xrp_combine_iff _ _ _ _ _ _ _ _ _ H5 S) in E as (b & pub & sig & w & _ & _ & _ & _ & _ & ->). unfold joined. cbn [map concat]. apply app_nil_r.
Qed.
(** With one s between two bytes the result is the checked transaction with the signature field at that place. *)
Theorem xrp_one_marker : forall H512 decompress verify before after signature publicKey s, hash32_ok H512 -> is_bytes before -> is_bytes after ->
  (verify_and_combine H512 decompress verify (hex_encode before ++ 115 :: hex_encode after) signature publicKey = Ok (true, s) <->
   exists pub sig w, hex_decode publicKey = Ok pub /\ hex_decode signature = Ok sig /\ xrp_valid H512 decompress verify (before ++ after) pub sig /\
     written_signature sig w /\ s = hex_encode before ++ w ++ hex_encode after).
Proof.
  intros H512 dc vf before after signature publicKey s H5 B A.
  assert (NI : forall x, is_bytes x -> ~ In 115 (hex_encode x)).
  { intros x Bx I. unfold hex_encode in I. apply in_flat_map in I as (y & Iy & I). unfold is_bytes in Bx. rewrite Forall_forall in Bx. specialize (Bx _ Iy). unfold is_byte in Bx.
    assert (D : forall v, 0 <= v < 16 -> hex_digit v <> 115) by (intros v Hv; unfold hex_digit; destruct (v <? 10); lia).
    destruct I as [I|[I|[]]]; revert I; apply D; Z.div_mod_to_equations; lia. }
  assert (S : splits (hex_encode before ++ 115 :: hex_encode after) (hex_encode before) [hex_encode after]).
  { split; [constructor; [auto|constructor; [auto|constructor]]|]. cbn [map concat app]. rewrite app_nil_r. reflexivity. }
  rewrite (xrp_combine_iff _ _ _ _ _ _ _ _ _ H5 S). cbn [concat]. rewrite app_nil_r, <- hex_encode_app, hex_decode_encode by bts. unfold joined. cbn [map concat]. setoid_rewrite app_nil_r. split.
  - intros (b & pub & sig & w & Q & R). injection Q as <-. exists pub, sig, w. exact R.
  - intros (pub & sig & w & R). exists (before ++ after), pub, sig, w. split; [reflexivity|exact R].
Qed.

(** ** Examples *)
Definition ex_h512 : bytes -> bytes := fun _ => repeat 0 64.
(** The s inside a byte: 0x12 is what is checked, 0x17..2 is what is returned. *)
Example ex_inside : verify_and_combine ex_h512 (fun b => 4 :: b) (fun _ _ _ => true) (str "1s2") (hex_encode ex_sig) (str "07") =
  Ok (true, str "1" ++ hex_encode ([0x74; 9; 0x30; 7; 2; 1; 5; 2; 2; 0; 200]) ++ str "2").
Proof. reflexivity. Qed.
Example ex_splits : splits (str "1s2") (str "1") [str "2"] /\ hash32_ok ex_h512.
Proof.
  split; [split; [repeat constructor; cbn; lia|reflexivity]|]. intros b _. split; [apply is_bytes_zeros|vm_compute; discriminate].
Qed.
Example ex_two : verify_and_combine ex_h512 (fun b => 4 :: b) (fun _ _ _ => true) (str "s12s") (hex_encode ex_sig) (str "07") =
  Ok (true, str "7409300702010502020" ++ str "0c8" ++ str "12" ++ str "74093007020105020200c8").
Proof. reflexivity. Qed.
Print Assumptions xrp_combine_iff.
Print Assumptions xrp_combine_panics_iff.
Print Assumptions text_splits_uniquely.
Print Assumptions xrp_no_marker_unsigned.
Print Assumptions xrp_one_marker.
