(** Prefix codes: encodings that can be read back from the front of a longer byte string. Used to show that a message
    determines its fields. *)
From Coq Require Import ZArith List Bool Lia ZifyBool ZifyNat.
From Verif Require Import Go GoFacts.
Import ListNotations.
Open Scope Z_scope.
Ltac Zify.zify_post_hook ::= idtac.

Definition prefix_code {A} (P : A -> Prop) (f : A -> bytes) : Prop := forall a b x y, P a -> P b -> f a ++ x = f b ++ y -> a = b /\ x = y.
Lemma app_split {A} (a b x y : list A) : zlen a = zlen b -> a ++ x = b ++ y -> a = b /\ x = y.
Proof.
  intros L. assert (L' : length a = length b) by (unfold zlen in L; lia). clear L.
  revert b L'. induction a as [|c a IH]; intros [|d b] L E; try discriminate L.
  - split; [reflexivity|exact E].
  - injection E as -> E. destruct (IH b ltac:(cbn in L; lia) E) as [-> ->]. split; reflexivity.
Qed.
Lemma le_num_of_small n v : 0 <= v < 256 ^ Z.of_nat n -> le_num (le_bytes n v) = v.
Proof. intros B. rewrite le_num_le_bytes, Z.mod_small; [reflexivity|exact B]. Qed.
Lemma be_num_of_small n v : 0 <= v < 256 ^ Z.of_nat n -> be_num (be_bytes n v) = v.
Proof. intros B. rewrite be_num_be_bytes, Z.mod_small; [reflexivity|exact B]. Qed.
Lemma le_code n : prefix_code (fun v => 0 <= v < 256 ^ Z.of_nat n) (le_bytes n).
Proof.
  intros a b x y A B E. apply app_split in E as [E ->]; [|rewrite !zlen_le_bytes; reflexivity]. split; [|reflexivity].
  apply (f_equal le_num) in E. rewrite !le_num_of_small in E by assumption. exact E.
Qed.
Lemma be_code n : prefix_code (fun v => 0 <= v < 256 ^ Z.of_nat n) (be_bytes n).
Proof.
  intros a b x y A B E. apply app_split in E as [E ->]; [|rewrite !zlen_be_bytes; reflexivity]. split; [|reflexivity].
  apply (f_equal be_num) in E. rewrite !be_num_of_small in E by assumption. exact E.
Qed.
Lemma fixed_code (n : Z) : prefix_code (fun s : bytes => zlen s = n) (fun s => s).
Proof. intros a b x y A B E. apply app_split in E; [exact E|congruence]. Qed.
(** A code with a reader. *)
Lemma reader_code {A} (P : A -> Prop) (f : A -> bytes) (read : bytes -> option (A * bytes)) :
  (forall a x, P a -> read (f a ++ x) = Some (a, x)) -> prefix_code P f.
Proof. intros R a b x y Pa Pb E. apply (f_equal read) in E. rewrite !R in E by assumption. injection E as -> ->. split; reflexivity. Qed.
Lemma code_inj {A} (P : A -> Prop) (f : A -> bytes) : prefix_code P f -> forall a b, P a -> P b -> f a = f b -> a = b.
Proof. intros C a b Pa Pb E. apply (C a b [] []); try assumption. rewrite E. reflexivity. Qed.
(** Showing that explicit byte strings are byte strings. *)
Lemma byte_lit x : (0 <=? x) && (x <? 256) = true -> is_byte x.
Proof. unfold is_byte. lia. Qed.
Ltac bts :=
  repeat match goal with
  | H : is_bytes ?x |- is_bytes ?x => exact H
  | |- is_bytes (_ ++ _) => apply is_bytes_app; split
  | |- is_bytes (_ :: _) => apply is_bytes_cons; split
  | |- is_bytes [] => constructor
  | |- is_bytes (be_bytes _ _) => apply be_bytes_is_bytes
  | |- is_bytes (le_bytes _ _) => apply le_bytes_is_bytes
  | |- is_bytes (if ?b then _ else _) => destruct b
  | |- is_byte _ => solve [apply byte_lit; reflexivity]
  | H : is_byte ?x |- is_byte ?x => exact H
  end.
