(** Specification vocabulary: readers of byte strings, used to say what serialised bytes mean independently of the code
    that wrote them. A reader takes a value from the front and returns the rest. *)
From Coq Require Import ZArith List Bool Lia ZifyBool ZifyNat.
From Verif Require Import Go GoFacts Codes.
Import ListNotations.
Open Scope Z_scope.
Ltac Zify.zify_post_hook ::= idtac.

Definition reader (A : Type) := bytes -> option (A * bytes).
Definition rret {A} (a : A) : reader A := fun l => Some (a, l).
Definition rfail {A} : reader A := fun _ => None.
Definition rbind {A B} (r : reader A) (k : A -> reader B) : reader B := fun l => match r l with Some (a, l') => k a l' | None => None end.
Notation "x <~ r ;; k" := (rbind r (fun x => k)) (at level 61, r at next level, right associativity).
(** n bytes; one byte; a given byte string; big-endian and little-endian numbers. *)
Definition rtake (n : Z) : reader bytes := fun l => if zlen l <? n then None else Some (firstn (Z.to_nat n) l, skipn (Z.to_nat n) l).
Definition rbyte : reader Z := fun l => match l with [] => None | b :: r => Some (b, r) end.
Definition rexact (s : bytes) : reader unit := b <~ rtake (zlen s) ;; if beq b s then rret tt else rfail.
Definition rbe (n : Z) : reader Z := b <~ rtake n ;; rret (be_num b).
Definition rle (n : Z) : reader Z := b <~ rtake n ;; rret (le_num b).
(** a byte string behind its one-byte length *)
Definition rcounted : reader bytes := n <~ rbyte ;; rtake n.
(** n values in a row *)
Fixpoint rrepeat {A} (n : nat) (r : reader A) : reader (list A) := match n with O => rret [] | S n' => x <~ r ;; t <~ rrepeat n' r ;; rret (x :: t) end.
(** the whole string is one value *)
Definition rwhole {A} (r : reader A) (l : bytes) : option A := match r l with Some (a, []) => Some a | _ => None end.

(** [e] is read as [a], whatever follows. *)
Definition reads {A} (r : reader A) (e : bytes) (a : A) : Prop := forall rest, r (e ++ rest) = Some (a, rest).
Lemma reads_ret {A} (a : A) : reads (rret a) [] a.
Proof. intros rest. reflexivity. Qed.
Lemma reads_bind {A B} (r : reader A) (k : A -> reader B) e f a b : reads r e a -> reads (k a) f b -> reads (rbind r k) (e ++ f) b.
Proof. intros R K rest. unfold rbind. rewrite <- app_assoc, R. apply K. Qed.
Lemma reads_last {A B} (r : reader A) (g : A -> B) e a : reads r e a -> reads (x <~ r ;; rret (g x)) e (g a).
Proof. intros R rest. unfold rbind. rewrite R. reflexivity. Qed.
Lemma reads_take n e : zlen e = n -> reads (rtake n) e e.
Proof.
  intros L rest. unfold rtake. rewrite zlen_app. pose proof (zlen_nonneg rest). replace (zlen e + zlen rest <? n) with false by lia.
  rewrite <- L. unfold zlen. rewrite Nat2Z.id, firstn_app, skipn_app, Nat.sub_diag, firstn_all, skipn_all, firstn_O, app_nil_r. reflexivity.
Qed.
Lemma reads_byte b : reads rbyte [b] b.
Proof. intros rest. reflexivity. Qed.
Lemma reads_exact s : reads (rexact s) s tt.
Proof. intros rest. unfold rexact, rbind. rewrite (reads_take (zlen s) s eq_refl). rewrite beq_refl. reflexivity. Qed.
Lemma reads_be n v : 0 <= n -> 0 <= v < 256 ^ n -> reads (rbe n) (be_bytes (Z.to_nat n) v) v.
Proof.
  intros N B rest. unfold rbe, rbind. rewrite reads_take by (rewrite zlen_be_bytes; lia). unfold rret. rewrite be_num_of_small by (rewrite Z2Nat.id; lia). reflexivity.
Qed.
Lemma reads_le n v : 0 <= n -> 0 <= v < 256 ^ n -> reads (rle n) (le_bytes (Z.to_nat n) v) v.
Proof.
  intros N B rest. unfold rle, rbind. rewrite reads_take by (rewrite zlen_le_bytes; lia). unfold rret. rewrite le_num_of_small by (rewrite Z2Nat.id; lia). reflexivity.
Qed.
Lemma reads_counted b : reads rcounted (zlen b :: b) b.
Proof. intros rest. unfold rcounted, rbind. cbn [rbyte app]. apply reads_take. reflexivity. Qed.
Lemma reads_repeat {A} (r : reader A) (es : list bytes) (xs : list A) : Forall2 (reads r) es xs -> reads (rrepeat (length xs) r) (concat es) xs.
Proof.
  induction 1 as [|e x es xs R F IH]; [apply reads_ret|]. cbn [concat length rrepeat]. eapply reads_bind; [exact R|]. apply (reads_last _ (fun t => x :: t)). exact IH.
Qed.
Lemma reads_whole {A} (r : reader A) e a : reads r e a -> rwhole r e = Some a.
Proof. intros R. unfold rwhole. specialize (R []). rewrite app_nil_r in R. rewrite R. reflexivity. Qed.
Lemma reads_unique {A} (r : reader A) e a b : reads r e a -> reads r e b -> a = b.
Proof. intros R S. apply reads_whole in R. apply reads_whole in S. congruence. Qed.
