(** C160: the scripts the drivers build for signatures and keys of every size. *)
From Coq Require Import String ZArith List Bool Lia ZifyBool ZifyNat.
From Verif Require Import Go GoFacts GoFacts2 SigModel SigDerProps SigSizeProps.
Require Verif.LitePanicProps.
Import ListNotations.
Open Scope Z_scope.
Ltac Zify.zify_post_hook ::= idtac.

(** ** Specification *)
(** The two parts of a signature, each put into the form [P], make up the script [e] with the type [t]. *)
Definition script_of (P : bytes -> bytes -> Prop) (sig : bytes) (t : Z) (e : bytes) : Prop :=
  exists R S, P (firstn 32 sig) R /\ P (skipn 32 sig) S /\ e = any_script R S t.
(** btcLikeTxDriver's witnesses: a zero byte in front of a first byte of 128 or more, nothing is removed. *)
Definition unstripped (part D : bytes) : Prop := exists x t, part = x :: t /\ D = if 128 <=? x then 0 :: part else part.
(** Aliencoin: otherwise as many bytes are removed as there are zero bytes at the places 0, 2, 4, ... before the first byte there that is
    not zero, up to 32. *)
Definition alien_trimmed (part D : bytes) : Prop :=
  (exists x t, part = x :: t /\ 128 <= x /\ D = 0 :: part) \/
  (hd 0 part < 128 /\ exists k, (k <= 32)%nat /\ D = skipn k part /\ (forall j, (j < k)%nat -> (2 * j < length part)%nat /\ nth (2 * j) part 0 = 0) /\
     (k = 32%nat \/ ((2 * k < length part)%nat /\ nth (2 * k) part 0 <> 0))).

(** ** Lemmas *)
(** The two parts, when there are 32 bytes; otherwise the second part is empty. *)
Lemma halves_run {A} (sig : bytes) (trim : bytes -> res bytes) (P : bytes -> bytes -> Prop) (f : bytes -> bytes -> A) :
  (forall D, ~ P [] D) -> (forall r, is_bytes r -> trim r <> Err /\ forall D, trim r = Ok D <-> P r D) -> is_bytes sig ->
  forall e, (r <- slice sig 0 32 ;; s <- slice_from sig 32 ;; r <- trim r ;; s <- trim s ;; Ok (f r s)) = Ok e <-> exists R S, P (firstn 32 sig) R /\ P (skipn 32 sig) S /\ e = f R S.
Proof.
  intros NP TR B e. destruct (halves_bytes sig B) as [B1 B2]. destruct (TR _ B1) as [N1 T1]. destruct (TR _ B2) as [N2 T2].
  destruct (Z_lt_ge_dec (zlen sig) 32) as [L|L].
  - unfold slice at 1. replace ((0 <=? 0) && (0 <=? 32) && (32 <=? zlen sig)) with false by lia. cbn [bind]. split; [discriminate|]. intros (R & S & _ & Q & _). exfalso. rewrite skipn_all2 in Q by (unfold zlen in L; lia). exact (NP _ Q).
  - destruct (parts sig ltac:(lia)) as (-> & -> & _). cbn [bind]. destruct (trim (firstn 32 sig)) as [R| |] eqn:E1; [|contradiction|]; cbn [bind].
    + destruct (trim (skipn 32 sig)) as [S| |] eqn:E2; [|contradiction|]; cbn [bind].
      * split.
        -- intros Q. exists R, S. split; [apply T1; reflexivity|]. split; [apply T2; reflexivity|]. congruence.
        -- intros (R' & S' & Q1 & Q2 & ->). apply T1 in Q1. apply T2 in Q2. congruence.
      * split; [discriminate|]. intros (R' & S' & _ & Q & _). apply T2 in Q. discriminate.
    + split; [discriminate|]. intros (R' & S' & Q & _). apply T1 in Q. discriminate.
Qed.
Lemma trimmed_nil D : ~ trimmed [] D.
Proof. intros [(x & t & E & _)|(k & x & t & E & _)]; [discriminate|destruct k; discriminate]. Qed.
Lemma unstripped_is r : is_bytes r -> witness_trim r <> Err /\ forall D, witness_trim r = Ok D <-> unstripped r D.
Proof.
  intros B. unfold witness_trim, unstripped. destruct r as [|x t].
  - split; [discriminate|]. intros D. split; [discriminate|]. intros (x & t & E & _). discriminate.
  - change (idx (x :: t) 0) with (Ok x). cbn [bind]. rewrite high_bit by (apply is_bytes_cons in B; tauto). split; [discriminate|]. intros D. split.
    + intros E. exists x, t. split; [reflexivity|]. destruct (128 <=? x); congruence.
    + intros (y & t' & E & ->). assert (y = x) by congruence. subst y. reflexivity.
Qed.
Lemma alien_strip_is f : forall i (r : bytes) D, alien_strip f (Z.of_nat i) r = Ok D <->
  exists k, (k <= f)%nat /\ D = skipn k r /\ (forall j, (j < k)%nat -> (i + 2 * j < length r)%nat /\ nth (i + 2 * j) r 0 = 0) /\ (k = f \/ ((i + 2 * k < length r)%nat /\ nth (i + 2 * k) r 0 <> 0)).
Proof.
  induction f as [|f IH]; intros i r D; cbn [alien_strip].
  - split; [intros E; exists O; split; [lia|]; split; [cbn [skipn]; congruence|]; split; [lia|left; reflexivity]|]. intros (k & K & -> & _). assert (k = 0%nat) by lia. subst k. reflexivity.
  - unfold idx. replace (Z.of_nat i <? 0) with false by lia. rewrite Nat2Z.id. destruct (Nat.lt_ge_cases i (length r)) as [L|L].
    + rewrite (nth_error_nth' r 0 L). cbn [bind]. destruct (Z.eqb_spec (nth i r 0) 0) as [E|E].
      * destruct r as [|b t]; [cbn [length] in L; lia|]. rewrite slice_from_cons. cbn [bind]. replace (Z.of_nat i + 1) with (Z.of_nat (S i)) by lia. rewrite IH. cbn [length] in *. split; intros (k & K & ED & A & C).
        -- exists (S k). split; [lia|]. split; [exact ED|]. split.
           ++ intros [|j] J; [rewrite Nat.mul_0_r, Nat.add_0_r; split; [lia|exact E]|]. specialize (A j ltac:(lia)). replace (i + 2 * S j)%nat with (S (S i + 2 * j)) by lia. cbn [nth]. split; [lia|apply A].
           ++ destruct C as [C|C]; [left; lia|right]. replace (i + 2 * S k)%nat with (S (S i + 2 * k)) by lia. cbn [nth]. split; [lia|apply C].
        -- destruct k as [|k]; [exfalso; destruct C as [C|[_ C]]; [discriminate|]; rewrite Nat.mul_0_r, Nat.add_0_r in C; contradiction|]. exists k. split; [lia|]. split; [exact ED|]. split.
           ++ intros j J. specialize (A (S j) ltac:(lia)). replace (i + 2 * S j)%nat with (S (S i + 2 * j)) in A by lia. cbn [nth] in A. split; [lia|apply A].
           ++ destruct C as [C|C]; [left; lia|right]. replace (i + 2 * S k)%nat with (S (S i + 2 * k)) in C by lia. cbn [nth] in C. split; [lia|apply C].
      * split.
        -- intros Q. exists O. split; [lia|]. split; [cbn [skipn]; congruence|]. split; [lia|right; rewrite Nat.mul_0_r, Nat.add_0_r; auto].
        -- intros (k & K & -> & A & _). destruct k as [|k]; [reflexivity|]. destruct (A 0%nat ltac:(lia)) as [_ Q]. rewrite Nat.mul_0_r, Nat.add_0_r in Q. contradiction.
    + rewrite (proj2 (nth_error_None r i) L). cbn [bind]. split; [discriminate|]. intros (k & K & _ & A & C). destruct k as [|k]; [destruct C as [C|[C _]]; lia|]. destruct (A 0%nat ltac:(lia)) as [Q _]. lia.
Qed.
Lemma alien_trim_is r : is_bytes r -> alien_trim r <> Err /\ forall D, alien_trim r = Ok D <-> alien_trimmed r D.
Proof.
  intros B. split; [apply LitePanicProps.alien_trim_not_err|]. intros D. unfold alien_trim, alien_trimmed. destruct r as [|x t].
  - split; [discriminate|]. intros [(x & t & E & _)|(_ & k & K & _ & A & C)]; [discriminate|]. destruct k as [|k]; [destruct C as [C|[C _]]; [discriminate|cbn in C; lia]|]. destruct (A 0%nat ltac:(lia)) as [Q _]. cbn in Q. lia.
  - change (idx (x :: t) 0) with (Ok x). cbn [bind hd]. rewrite high_bit by (apply is_bytes_cons in B; tauto). destruct (128 <=? x) eqn:X.
    + split; [intros Q; left; exists x, t; repeat split; [lia|congruence]|]. intros [(y & t' & _ & _ & ->)|(Q & _)]; [reflexivity|lia].
    + change 0 with (Z.of_nat 0) at 1. rewrite alien_strip_is. cbn [Nat.add]. split; [intros Q; right; split; [lia|exact Q]|]. intros [(y & t' & E & L & _)|(_ & Q)]; [assert (y = x) by congruence; lia|exact Q].
Qed.
Lemma alien_nil D : ~ alien_trimmed [] D.
Proof. intros Q. apply (alien_trim_is [] (Forall_nil _)) in Q. discriminate. Qed.
Lemma unstripped_nil D : ~ unstripped [] D.
Proof. intros (x & t & E & _). discriminate. Qed.
Lemma trim_both r : is_bytes r -> der_trim r <> Err /\ forall D, der_trim r = Ok D <-> trimmed r D.
Proof. intros B. split; [apply trim_no_err|]. intros D. apply trim_is. exact B. Qed.

(** ** C160 *)
(** The signature part of a script: exactly what is built, and when the encoder crashes. *)
Theorem any_signature_script : forall sig t, is_bytes sig ->
  (forall e, encode_sig sig t = Ok e <-> script_of trimmed sig t e) /\ (encode_sig sig t = Panic <-> unusable sig).
Proof.
  intros sig t B. split.
  - intros e. unfold encode_sig, script_of. rewrite (halves_run sig der_trim trimmed (fun r s => der_wrap r s t) trimmed_nil trim_both B e). split; intros (R & S & Q1 & Q2 & ->); exists R, S; rewrite wrap_is; auto.
  - destruct (encode_any sig t B) as [(U & E)|(U & R & S & _ & _ & E)]; rewrite E; [tauto|]. split; [discriminate|contradiction].
Qed.
(** With the key: the generic drivers and HyperCash write the length of the key, Verge and Vollar always write 33; HyperCash, Verge and
    Vollar put the length of the whole in front. Every length is cut to one byte. *)
Theorem any_input_script : forall sig pub t e, is_bytes sig ->
  (encode_script sig pub t = Ok e <-> exists c, script_of trimmed sig t c /\ e = c ++ zlen pub mod 256 :: pub) /\
  (hypercash_sigpub sig pub t = Ok e <-> exists c, script_of trimmed sig t c /\ let d := c ++ zlen pub mod 256 :: pub in e = zlen d mod 256 :: d) /\
  (verge_sigpub sig pub = Ok e <-> exists c, script_of trimmed sig 1 c /\ let d := c ++ 33 :: pub in e = zlen d mod 256 :: d).
Proof.
  intros sig pub t e B. unfold hypercash_sigpub, verge_sigpub, encode_script, u8. pose proof (proj1 (any_signature_script sig t B)) as A. pose proof (proj1 (any_signature_script sig 1 B)) as A1.
  assert (G : forall (r : res bytes) (P : bytes -> Prop) (f : bytes -> bytes), (forall c, r = Ok c <-> P c) -> (x <- r ;; Ok (f x)) = Ok e <-> exists c, P c /\ e = f c).
  { intros r P f R. destruct r as [c| |]; cbn [bind].
    - split; [intros Q; exists c; split; [apply R; reflexivity|congruence]|]. intros (c' & Q & ->). apply R in Q. congruence.
    - split; [discriminate|]. intros (c' & Q & _). apply R in Q. discriminate.
    - split; [discriminate|]. intros (c' & Q & _). apply R in Q. discriminate. }
  split; [exact (G _ _ (fun c => c ++ zlen pub mod 256 :: pub) A)|]. split; [|exact (G _ _ (fun c => let d := c ++ 33 :: pub in zlen d mod 256 :: d) A1)].
  rewrite <- (G _ _ (fun c => let d := c ++ zlen pub mod 256 :: pub in zlen d mod 256 :: d) A). destruct (encode_sig sig t); reflexivity.
Qed.
(** The witnesses of the generic driver and the scripts of Aliencoin. *)
Theorem any_other_script : forall sig pub t e, is_bytes sig ->
  (witness_script sig pub t = Ok e <-> exists c, script_of unstripped sig t c /\ e = c ++ zlen pub mod 256 :: pub) /\
  (witness_script sig pub t = Panic <-> zlen sig <= 32) /\
  (alien_sigpub sig pub = Ok e <-> exists c, script_of alien_trimmed sig 1 c /\ let d := c ++ 33 :: pub in e = zlen d mod 256 :: d).
Proof.
  intros sig pub t e B. split; [|split].
  - unfold witness_script, script_of. rewrite (halves_run sig witness_trim unstripped (fun r s => der_wrap r s t ++ u8 (zlen pub) :: pub) unstripped_nil unstripped_is B e). split.
    + intros (R & S & Q1 & Q2 & ->). exists (any_script R S t). split; [exists R, S; auto|]. rewrite wrap_is. reflexivity.
    + intros (c & (R & S & Q1 & Q2 & ->) & ->). exists R, S. rewrite wrap_is. auto.
  - unfold witness_script. destruct (Z_lt_ge_dec (zlen sig) 32) as [L|L]; [unfold slice at 1; replace ((0 <=? 0) && (0 <=? 32) && (32 <=? zlen sig)) with false by lia; split; [lia|reflexivity]|].
    destruct (parts sig ltac:(lia)) as (-> & -> & L1). cbn [bind]. unfold witness_trim. destruct (firstn 32 sig) as [|x r]; [discriminate|]. change (idx (x :: r) 0) with (Ok x). cbn [bind].
    destruct (skipn 32 sig) as [|y s] eqn:E; pose proof (f_equal (@length Z) E) as Q; rewrite skipn_length in Q; cbn [length] in Q.
    + change (idx (@nil Z) 0) with (@Panic Z). cbn [bind]. split; [unfold zlen; lia|reflexivity].
    + change (idx (y :: s) 0) with (Ok y). cbn [bind]. split; [discriminate|unfold zlen; lia].
  - unfold alien_sigpub, script_of. cbv zeta. rewrite (halves_run sig alien_trim alien_trimmed (fun r s => u8 (zlen (der_wrap r s 1 ++ 33 :: pub)) :: der_wrap r s 1 ++ 33 :: pub) alien_nil alien_trim_is B e). split.
    + intros (R & S & Q1 & Q2 & ->). exists (any_script R S 1). split; [exists R, S; auto|]. rewrite wrap_is. reflexivity.
    + intros (c & (R & S & Q1 & Q2 & ->) & ->). exists R, S. rewrite wrap_is. auto.
Qed.
(** The number is kept, it is not negative and, in a part of up to 33 bytes that is not zero, it is in minimal form. *)
Theorem trimmed_number : forall part D, is_bytes part -> trimmed part D ->
  be_num D = be_num part /\ D <> [] /\ hd 0 D < 128 /\ ((length part <= 33)%nat -> be_num part <> 0 -> der_int (be_num part) D).
Proof.
  intros part D B T. assert (V : be_num D = be_num part /\ D <> [] /\ hd 0 D < 128).
  { destruct T as [(x & t & _ & _ & ->)|(k & x & t & -> & -> & L & _)]; [split; [rewrite be_num_cons; lia|split; [discriminate|cbn; lia]]|]. split; [symmetry; exact (be_num_zeros k (x :: t))|]. split; [discriminate|exact L]. }
  destruct V as (V1 & V2 & V3). split; [exact V1|]. split; [exact V2|]. split; [exact V3|]. intros L N. pose proof (be_num_bound _ B). destruct (trim_some part B ltac:(lia) L) as (R & E & DI & _). apply trim_is in E; [|exact B]. rewrite (trimmed_one part D R B T E). exact DI.
Qed.
(** A first and a second part of any size; the lengths 300, 306 and 309 are written as 44, 50 and 53. *)
Example ex_any_script : exists e, encode_sig (repeat 0 31 ++ [200] ++ repeat 1 300) 1 = Ok e /\ firstn 12 e = [53; 48; 50; 2; 2; 0; 200; 2; 44; 1; 1; 1] /\ ~ unusable (repeat 0 31 ++ [200] ++ repeat 1 300).
Proof. eexists. split; [vm_compute; reflexivity|]. split; [reflexivity|]. intros [C|[C|[C _]]]; [vm_compute in C; apply C; reflexivity|discriminate|vm_compute in C; apply C; reflexivity]. Qed.
Print Assumptions any_signature_script.
Print Assumptions any_input_script.
Print Assumptions any_other_script.
Print Assumptions trimmed_number.
