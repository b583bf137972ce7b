(** Reading a byte string from left to right. The Go decoders keep an index into the input; the models keep the
    unread suffix, so that index+n > limit is "fewer than n bytes are left". *)
From Coq Require Import ZArith List Bool Lia ZifyBool ZifyNat.
From Verif Require Import Go GoFacts.
Import ListNotations.
Open Scope Z_scope.
Ltac Zify.zify_post_hook ::= idtac.

(** "if index+n > limit { return error }; x := data[index:index+n]; index += n" *)
Definition need {A} (n : Z) (rest : bytes) (k : bytes -> bytes -> res A) : res A :=
  if zlen rest <? n then Err else k (firstn (Z.to_nat n) rest) (skipn (Z.to_nat n) rest).
(** The same without the check. *)
Definition must {A} (n : Z) (rest : bytes) (k : bytes -> bytes -> res A) : res A :=
  if zlen rest <? n then Panic else k (firstn (Z.to_nat n) rest) (skipn (Z.to_nat n) rest).
(** One byte, with and without the check. *)
Definition need1 {A} (rest : bytes) (k : Z -> bytes -> res A) : res A :=
  match rest with [] => Err | b :: r => k b r end.
Definition must1 {A} (rest : bytes) (k : Z -> bytes -> res A) : res A :=
  match rest with [] => Panic | b :: r => k b r end.

(** A loop that makes a list of results, stopping at the first error. *)
Fixpoint mapr {A B} (f : A -> res B) (l : list A) : res (list B) :=
  match l with
  | [] => Ok []
  | x :: r => y <- f x ;; t <- mapr f r ;; Ok (y :: t)
  end.
(** "for i := 0; i < n; i++ { x, rest = read(rest); list = append(list, x) }" *)
Fixpoint readn {A} (n : nat) (read : bytes -> res (A * bytes)) (rest : bytes) : res (list A * bytes) :=
  match n with
  | O => Ok ([], rest)
  | S n' => '(x, rest) <- read rest ;; '(t, rest) <- readn n' read rest ;; Ok (x :: t, rest)
  end.

Lemma need_app {A} n a b (k : bytes -> bytes -> res A) : zlen a = n -> need n (a ++ b) k = k a b.
Proof.
  intros H. unfold need. rewrite zlen_app. pose proof (zlen_nonneg b). replace (zlen a + zlen b <? n) with false by lia.
  rewrite <- H. unfold zlen. rewrite Nat2Z.id, firstn_app, Nat.sub_diag, firstn_all, firstn_O, app_nil_r, skipn_app, Nat.sub_diag, skipn_all. reflexivity.
Qed.
Lemma must_app {A} n a b (k : bytes -> bytes -> res A) : zlen a = n -> must n (a ++ b) k = k a b.
Proof.
  intros H. unfold must. rewrite zlen_app. pose proof (zlen_nonneg b). replace (zlen a + zlen b <? n) with false by lia.
  rewrite <- H. unfold zlen. rewrite Nat2Z.id, firstn_app, Nat.sub_diag, firstn_all, firstn_O, app_nil_r, skipn_app, Nat.sub_diag, skipn_all. reflexivity.
Qed.
Lemma need_inv {A} n rest (k : bytes -> bytes -> res A) r : 0 <= n -> need n rest k = Ok r -> exists a b, rest = a ++ b /\ zlen a = n /\ k a b = Ok r.
Proof.
  intros Hn. unfold need. destruct (zlen rest <? n) eqn:E; [discriminate|]. intros H. eexists _, _. split; [symmetry; apply firstn_skipn|]. split; [|exact H].
  unfold zlen in *. rewrite firstn_length. lia.
Qed.
Lemma must_inv {A} n rest (k : bytes -> bytes -> res A) r : 0 <= n -> must n rest k = Ok r -> exists a b, rest = a ++ b /\ zlen a = n /\ k a b = Ok r.
Proof.
  intros Hn. unfold must. destruct (zlen rest <? n) eqn:E; [discriminate|]. intros H. eexists _, _. split; [symmetry; apply firstn_skipn|]. split; [|exact H].
  unfold zlen in *. rewrite firstn_length. lia.
Qed.
Lemma need1_inv {A} rest (k : Z -> bytes -> res A) r : need1 rest k = Ok r -> exists b l, rest = b :: l /\ k b l = Ok r.
Proof. destruct rest as [|b l]; [discriminate|]. intros H. exists b, l. split; [reflexivity|exact H]. Qed.
Lemma mapr_ok {A B} (f : A -> res B) (g : A -> B) l : (forall x, In x l -> f x = Ok (g x)) -> mapr f l = Ok (map g l).
Proof.
  induction l as [|x l IH]; intros H; [reflexivity|]. cbn [mapr map]. rewrite (H x) by (left; reflexivity). cbn [bind]. rewrite IH by (intros y Hy; apply H; right; exact Hy). reflexivity.
Qed.
Lemma mapr_length {A B} (f : A -> res B) l r : mapr f l = Ok r -> length r = length l.
Proof.
  revert r. induction l as [|x l IH]; intros r H; cbn [mapr] in H; [injection H as <-; reflexivity|].
  destruct (f x) as [y| |]; cbn [bind] in H; try discriminate. destruct (mapr f l) as [t| |] eqn:E; cbn [bind] in H; try discriminate.
  injection H as <-. cbn [length]. f_equal. apply IH. reflexivity.
Qed.
Lemma mapr_forall2 {A B} (f : A -> res B) l : forall r, mapr f l = Ok r <-> Forall2 (fun x y => f x = Ok y) l r.
Proof.
  induction l as [|x l IH]; intros r; cbn [mapr].
  - split; intros H; [injection H as <-; constructor|inversion H; reflexivity].
  - split; intros H.
    + destruct (f x) as [y| |] eqn:Ex; cbn [bind] in H; try discriminate. destruct (mapr f l) as [t| |] eqn:E; cbn [bind] in H; try discriminate.
      injection H as <-. constructor; [exact Ex|]. apply IH. reflexivity.
    + inversion H as [|? y ? t Hx Ht]; subst. rewrite Hx. cbn [bind]. apply IH in Ht. rewrite Ht. reflexivity.
Qed.
(** Reading back a concatenation of pieces. *)
Lemma readn_app {A} (read : bytes -> res (A * bytes)) (enc : A -> bytes) l rest :
  (forall x r, In x l -> read (enc x ++ r) = Ok (x, r)) -> readn (length l) read (concat (map enc l) ++ rest) = Ok (l, rest).
Proof.
  induction l as [|x l IH]; intros H; [reflexivity|]. cbn [length readn map concat]. rewrite <- app_assoc, H by (left; reflexivity). cbn [bind].
  rewrite IH by (intros y r Hy; apply H; right; exact Hy). reflexivity.
Qed.
Lemma readn_length {A} (read : bytes -> res (A * bytes)) n : forall rest l r, readn n read rest = Ok (l, r) -> length l = n.
Proof.
  induction n as [|n IH]; intros rest l r H; cbn [readn] in H; [injection H as <- <-; reflexivity|].
  destruct (read rest) as [[x r1]| |]; cbn [bind] in H; try discriminate. destruct (readn n read r1) as [[t r2]| |] eqn:E; cbn [bind] in H; try discriminate.
  injection H as <- <-. cbn [length]. f_equal. eapply IH. exact E.
Qed.
