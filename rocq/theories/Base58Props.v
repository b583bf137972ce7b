(** Base58: final theorems (C01-C04). *)
From Coq Require Import String ZArith List Bool Lia.
From Verif Require Import Go GoFacts Base58Model Base58Spec Base58Proofs.
Import ListNotations.
Open Scope Z_scope.

(** The alphabets of the repository meet [alphabet_ok]. *)
Lemma alphabet_ok_dec rs :
  ((length rs =? 58)%nat && forallb (fun c => (0 <=? c) && (c <? 128)) rs &&
   (fix nd l := match l with [] => true | x :: r => negb (existsb (Z.eqb x) r) && nd r end) rs)%bool = true ->
  alphabet_ok rs.
Proof.
  intros H. apply andb_prop in H as [H H3]. apply andb_prop in H as [H1 H2].
  split; [apply Nat.eqb_eq; exact H1|]. split.
  - clear H1 H2. induction rs as [|x r IH]; [constructor|]. apply andb_prop in H3 as [Ha Hb].
    constructor; [|apply IH, Hb]. intros K. apply negb_true_iff in Ha.
    assert (existsb (Z.eqb x) r = true) by (apply existsb_exists; exists x; split; [exact K | apply Z.eqb_refl]).
    congruence.
  - unfold is_ascii. apply Forall_forall. intros x Hx. rewrite forallb_forall in H2. specialize (H2 x Hx).
    apply andb_prop in H2 as [A B]. apply Z.leb_le in A. apply Z.ltb_lt in B. lia.
Qed.
Example btc_alphabet_ok : alphabet_ok btc_alphabet_str.
Proof. apply alphabet_ok_dec. vm_compute. reflexivity. Qed.
Example ripple_alphabet_ok : alphabet_ok ripple_alphabet_str.
Proof. apply alphabet_ok_dec. vm_compute. reflexivity. Qed.

(** Every alphabet with the right shape is accepted by the constructor. *)
Theorem new_alphabet_accepts : forall rs, alphabet_ok rs -> exists al, new_alphabet rs = Ok al.
Proof. intros rs H. destruct (new_alphabet_spec rs H) as (al & E & _). eauto. Qed.

(** C01 *)
Theorem base58_decode_encode : forall rs al b,
  alphabet_ok rs -> new_alphabet rs = Ok al -> is_bytes b ->
  exists s, base58_encode al b = Ok s /\ base58_decode al s = Ok b.
Proof.
  intros rs al b Hrs Hal Hb.
  destruct (decode_encode rs Hrs al (new_alphabet_al rs al Hrs Hal) b Hb) as (s & E & D & _). eauto.
Qed.

(** C02 *)
Theorem base58_encode_decode : forall rs al s b,
  alphabet_ok rs -> new_alphabet rs = Ok al -> is_bytes s ->
  base58_decode al s = Ok b -> is_bytes b /\ base58_encode al b = Ok s.
Proof.
  intros rs al s b Hrs Hal Hs H.
  exact (encode_decode rs Hrs al (new_alphabet_al rs al Hrs Hal) s b Hs H).
Qed.
Theorem base58_decode_injective : forall rs al s1 s2 b,
  alphabet_ok rs -> new_alphabet rs = Ok al -> is_bytes s1 -> is_bytes s2 ->
  base58_decode al s1 = Ok b -> base58_decode al s2 = Ok b -> s1 = s2.
Proof.
  intros rs al s1 s2 b Hrs Hal H1 H2 D1 D2.
  apply (base58_encode_decode rs al s1 b Hrs Hal H1) in D1 as [_ E1].
  apply (base58_encode_decode rs al s2 b Hrs Hal H2) in D2 as [_ E2]. congruence.
Qed.

(** C03 *)
Theorem base58_encode_never_panics : forall rs al b,
  alphabet_ok rs -> new_alphabet rs = Ok al -> is_bytes b -> exists s, base58_encode al b = Ok s.
Proof.
  intros rs al b Hrs Hal Hb. destruct (base58_decode_encode rs al b Hrs Hal Hb) as (s & E & _). eauto.
Qed.
Theorem base58_decode_never_panics : forall rs al s,
  alphabet_ok rs -> new_alphabet rs = Ok al -> is_bytes s ->
  base58_decode al s <> Panic /\
  (base58_decode al s = Err <-> exists c, In c s /\ ~ In c rs).
Proof.
  intros rs al s Hrs Hal Hs.
  destruct (decode_cases rs Hrs al (new_alphabet_al rs al Hrs Hal) s Hs) as [[V [b E]]|[V E]]; rewrite E.
  - split; [discriminate|]. split; [discriminate|]. intros (c & Hc & Hn). exfalso. apply Hn.
    rewrite Forall_forall in V. auto.
  - split; [discriminate|]. split; [|reflexivity]. intros _.
    apply Exists_exists. apply neg_Forall_Exists_neg; [|exact V].
    intros x. apply in_dec, Z.eq_dec.
Qed.

(** C04 *)
Theorem base58_encode_positional : forall rs al b,
  alphabet_ok rs -> new_alphabet rs = Ok al -> is_bytes b ->
  exists s, base58_encode al b = Ok s /\ is_base58_of rs b s.
Proof.
  intros rs al b Hrs Hal Hb. destruct (base58_encode_never_panics rs al b Hrs Hal Hb) as (s & E).
  exists s. split; [exact E|]. exact (base58_numeral rs al b s Hrs Hal Hb E).
Qed.

(** Concrete runs: the hypotheses are met by the Bitcoin and Ripple alphabets
    and by a byte string with leading zeros. *)
Definition btc_alphabet : alphabet :=
  match new_alphabet btc_alphabet_str with Ok a => a | _ => mkAlphabet [] [] [] end.
Definition ripple_alphabet : alphabet :=
  match new_alphabet ripple_alphabet_str with Ok a => a | _ => mkAlphabet [] [] [] end.
Example btc_alphabet_new : new_alphabet btc_alphabet_str = Ok btc_alphabet.
Proof. vm_compute. reflexivity. Qed.
Example ripple_alphabet_new : new_alphabet ripple_alphabet_str = Ok ripple_alphabet.
Proof. vm_compute. reflexivity. Qed.
Example base58_example :
  base58_encode btc_alphabet [0; 0; 40; 127; 180; 205] = Ok (str "11233QC4") /\
  base58_decode btc_alphabet (str "11233QC4") = Ok [0; 0; 40; 127; 180; 205] /\
  base58_decode btc_alphabet (str "10") = Err /\
  base58_decode btc_alphabet [49; 195; 169] = Err.
Proof. vm_compute. repeat split; reflexivity. Qed.

Print Assumptions new_alphabet_accepts.
Print Assumptions base58_decode_encode.
Print Assumptions base58_encode_decode.
Print Assumptions base58_decode_injective.
Print Assumptions base58_encode_never_panics.
Print Assumptions base58_decode_never_panics.
Print Assumptions base58_encode_positional.
