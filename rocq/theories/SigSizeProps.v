(** Signatures of every size in DER form (used for C141 and C143). *)
From Coq Require Import String ZArith List Bool Lia ZifyBool ZifyNat.
From Verif Require Import Go GoFacts GoFacts2 SigModel SigDerProps.
Import ListNotations.
Open Scope Z_scope.
Ltac Zify.zify_post_hook ::= idtac.

(** ** Specification *)
(** The signatures that cannot be put into DER form: up to 32 bytes, 32 zero bytes first, or a second part of up to 32 bytes
    that are all zero. *)
Definition unusable (sig : bytes) : Prop :=
  zlen sig <= 32 \/ firstn 32 sig = repeat 0 32 \/ (zlen sig <= 64 /\ skipn 32 sig = repeat 0 (length sig - 32)).

(** What remains of a part of a signature: a zero byte is put in front of a first byte of 128 or more, otherwise the zero bytes in
    front are removed, up to 32 of them, as long as the byte after them is below 128. *)
Definition trimmed (part D : bytes) : Prop :=
  (exists x t, part = x :: t /\ 128 <= x /\ D = 0 :: part) \/
  (exists k x t, part = repeat 0 k ++ x :: t /\ D = x :: t /\ x < 128 /\ (k <= 32)%nat /\ (k = 32%nat \/ x <> 0 \/ exists y t', t = y :: t' /\ 128 <= y)).
(** The script of the two parts with a type: every length is written into one byte. *)
Definition any_script (R S : bytes) (t : Z) : bytes :=
  let low n := n mod 256 in
  let body := [2; low (zlen R)] ++ R ++ [2; low (zlen S)] ++ S in
  [low (zlen body + 3); 0x30; low (zlen body)] ++ body ++ [t].

(** ** Lemmas *)
Lemma idx_no_err {A} (l : list A) i : idx l i <> Err.
Proof. unfold idx. destruct (i <? 0); [discriminate|]. destruct (nth_error _ _); discriminate. Qed.
Lemma strip_no_err f : forall l, der_strip f l <> Err.
Proof.
  induction f as [|f IH]; intros l; [discriminate|]. cbn [der_strip]. pose proof (idx_no_err l 0). destruct (idx l 0) as [x| |]; [|contradiction|discriminate]. cbn [bind]. destruct (x =? 0); [|discriminate].
  pose proof (idx_no_err l 1). destruct (idx l 1) as [y| |]; [|contradiction|discriminate]. cbn [bind]. destruct (negb _); [|discriminate]. unfold slice_from. pose proof (slice_not_err l 1 (zlen l)). destruct (slice l 1 (zlen l)); [|contradiction|discriminate]. apply IH.
Qed.
Lemma trim_no_err l : der_trim l <> Err.
Proof. unfold der_trim. pose proof (idx_no_err l 0). destruct (idx l 0); [|contradiction|discriminate]. cbn [bind]. destruct (_ =? _); [discriminate|apply strip_no_err]. Qed.
Lemma strip_panics f : forall r, is_bytes r -> der_strip (S f) r = Panic <-> exists n, (n <= S f)%nat /\ r = repeat 0 n.
Proof.
  induction f as [|f IH]; intros r B.
  - cbn [der_strip]. destruct r as [|x r]; [split; [exists O; split; [lia|reflexivity]|reflexivity]|]. change (idx (x :: r) 0) with (Ok x). cbn [bind]. destruct (x =? 0) eqn:X.
    + apply Z.eqb_eq in X. subst x. destruct r as [|y r]; [split; [exists 1%nat; split; [lia|reflexivity]|reflexivity]|]. change (idx (0 :: y :: r) 1) with (Ok y). cbn [bind]. rewrite slice_from_cons. cbn [bind].
      split; [destruct (negb _); discriminate|]. intros (n & L & E). destruct n as [|[|n]]; [discriminate|discriminate|lia].
    + split; [discriminate|]. intros ([|n] & L & E); [discriminate|]. cbn [repeat] in E. assert (x = 0) by congruence. lia.
  - remember (S f) as g eqn:G. cbn [der_strip]. destruct r as [|x r]; [split; [exists O; split; [lia|reflexivity]|reflexivity]|]. change (idx (x :: r) 0) with (Ok x). cbn [bind]. destruct (x =? 0) eqn:X.
    + apply Z.eqb_eq in X. subst x. destruct r as [|y r]; [split; [exists 1%nat; split; [lia|reflexivity]|reflexivity]|]. change (idx (0 :: y :: r) 1) with (Ok y). cbn [bind]. apply is_bytes_cons in B as [_ B].
      assert (By : is_byte y) by (apply is_bytes_cons in B; tauto). rewrite high_bit by exact By. destruct (128 <=? y) eqn:Y; cbn [negb].
      * split; [discriminate|]. intros ([|[|n]] & L & E); [discriminate|discriminate|]. cbn [repeat] in E. assert (y = 0) by congruence. lia.
      * rewrite slice_from_cons. cbn [bind]. rewrite (IH (y :: r) B). split; intros (n & L & E).
        -- exists (S n). split; [lia|]. cbn [repeat]. rewrite E. reflexivity.
        -- destruct n as [|n]; [discriminate|]. exists n. split; [lia|]. cbn [repeat] in E. congruence.
    + split; [discriminate|]. intros ([|n] & L & E); [discriminate|]. cbn [repeat] in E. assert (x = 0) by congruence. lia.
Qed.
Lemma trim_panics r : is_bytes r -> der_trim r = Panic <-> exists n, (n <= 32)%nat /\ r = repeat 0 n.
Proof.
  intros B. unfold der_trim. destruct r as [|x r]; [split; [exists O; split; [lia|reflexivity]|reflexivity]|]. change (idx (x :: r) 0) with (Ok x). cbn [bind].
  assert (Bx : is_byte x) by (apply is_bytes_cons in B; tauto). rewrite high_bit by exact Bx. destruct (128 <=? x) eqn:X; [|apply strip_panics; exact B].
  split; [discriminate|]. intros ([|n] & L & E); [discriminate|]. cbn [repeat] in E. assert (x = 0) by congruence. lia.
Qed.
Lemma parts (sig : bytes) : 32 <= zlen sig -> slice sig 0 32 = Ok (firstn 32 sig) /\ slice_from sig 32 = Ok (skipn 32 sig) /\ length (firstn 32 sig) = 32%nat.
Proof.
  intros L. unfold zlen in L. assert (L1 : length (firstn 32 sig) = 32%nat) by (rewrite firstn_length; lia). split; [|split; [|exact L1]].
  - unfold slice. replace ((0 <=? 0) && (0 <=? 32) && (32 <=? zlen sig)) with true by (unfold zlen; lia). reflexivity.
  - unfold slice_from, slice. replace ((0 <=? 32) && (32 <=? zlen sig) && (zlen sig <=? zlen sig)) with true by (unfold zlen; lia). f_equal. change (Z.to_nat 32) with 32%nat. apply firstn_all2. rewrite skipn_length. unfold zlen. lia.
Qed.
Lemma trim_some r : is_bytes r -> 0 < be_num r -> (length r <= 33)%nat -> exists R, der_trim r = Ok R /\ der_int (be_num r) R /\ (length R <= 34)%nat.
Proof.
  intros Br Pr Lr. unfold der_trim. destruct r as [|x r]; [discriminate|]. change (idx (x :: r) 0) with (Ok x). cbn [bind].
  assert (Bx : is_byte x) by (inversion Br; assumption). rewrite high_bit by exact Bx. destruct (128 <=? x) eqn:X.
  - exists (0 :: x :: r). split; [reflexivity|]. split; [|cbn [length] in *; lia].
    split; [constructor; [unfold is_byte; lia|exact Br]|]. split; [discriminate|]. split; [reflexivity|]. split; [cbn; lia|]. intros a b l E _. injection E as <- <- <-. lia.
  - destruct (der_strip_ok 32 (x :: r) Br Pr ltac:(cbn [hd]; lia) ltac:(lia)) as (k & R & E & Ez & D). exists R. split; [exact E|]. split; [exact D|]. rewrite Ez, app_length in Lr. lia.
Qed.
Lemma strip_some f : forall r x0 r0 D, is_bytes r -> r = x0 :: r0 -> x0 < 128 ->
  (der_strip f r = Ok D <-> exists k x t, r = repeat 0 k ++ x :: t /\ D = x :: t /\ x < 128 /\ (k <= f)%nat /\ (k = f \/ x <> 0 \/ exists y t', t = y :: t' /\ 128 <= y)).
Proof.
  induction f as [|f IH]; intros r x0 r0 D B E L; subst r.
  - cbn [der_strip]. split.
    + intros Q. assert (D = x0 :: r0) by congruence. subst. exists O, x0, r0. cbn [repeat app]. repeat split; auto; lia.
    + intros (k & x & t & E & -> & _ & K & _). assert (k = 0%nat) by lia. subst k. cbn [repeat app] in E. rewrite E. reflexivity.
  - cbn [der_strip]. change (idx (x0 :: r0) 0) with (Ok x0). cbn [bind]. destruct (x0 =? 0) eqn:X.
    + assert (x0 = 0) by lia. subst x0. destruct r0 as [|y r].
      * change (idx [0] 1) with (@Panic Z). cbn [bind]. split; [discriminate|]. intros (k & x & t & E & _ & _ & _ & St). destruct k as [|k]; cbn [repeat app] in E; [|assert (Q : [] = repeat 0 k ++ x :: t) by congruence; destruct k; discriminate].
        assert (x = 0) by congruence. assert (t = []) by congruence. subst. destruct St as [St|[St|(y & t' & St & _)]]; [discriminate|lia|discriminate].
      * change (idx (0 :: y :: r) 1) with (Ok y). cbn [bind]. apply is_bytes_cons in B as [_ B]. assert (By : is_byte y) by (apply is_bytes_cons in B; tauto). rewrite high_bit by exact By. destruct (128 <=? y) eqn:Y; cbn [negb].
        -- split.
           ++ intros Q. assert (D = 0 :: y :: r) by congruence. subst. exists O, 0, (y :: r). cbn [repeat app]. repeat split; try lia. right; right. exists y, r. split; [reflexivity|lia].
           ++ intros (k & x & t & E & -> & Lx & _). destruct k as [|k]; cbn [repeat app] in E; [rewrite E; reflexivity|]. assert (Q : y :: r = repeat 0 k ++ x :: t) by congruence. destruct k as [|k]; cbn [repeat app] in Q; [assert (y = x) by congruence; lia|assert (y = 0) by congruence; lia].
        -- rewrite slice_from_cons. cbn [bind]. rewrite (IH (y :: r) y r D B eq_refl ltac:(lia)). split; intros (k & x & t & E & ED & Lx & K & St).
           ++ exists (S k), x, t. cbn [repeat app]. rewrite E. repeat split; auto; try lia. destruct St as [St|St]; [left; lia|right; exact St].
           ++ destruct k as [|k]; cbn [repeat app] in E.
              ** exfalso. assert (x = 0) by congruence. assert (Q : t = y :: r) by congruence. subst x. destruct St as [St|[St|(y' & t' & St & Ly)]]; [discriminate|lia|]. rewrite St in Q. assert (y' = y) by congruence. lia.
              ** exists k, x, t. split; [congruence|]. repeat split; auto; try lia. destruct St as [St|St]; [left; lia|right; exact St].
    + split.
      * intros Q. assert (D = x0 :: r0) by congruence. subst. exists O, x0, r0. cbn [repeat app]. repeat split; auto; lia.
      * intros (k & x & t & E & -> & _). destruct k as [|k]; cbn [repeat app] in E; [rewrite E; reflexivity|]. assert (x0 = 0) by congruence. lia.
Qed.
Lemma trim_is r D : is_bytes r -> der_trim r = Ok D <-> trimmed r D.
Proof.
  intros B. unfold der_trim, trimmed. destruct r as [|x r].
  - split; [discriminate|]. intros [(x & t & E & _)|(k & x & t & E & _)]; [discriminate|destruct k; discriminate].
  - change (idx (x :: r) 0) with (Ok x). cbn [bind]. assert (Bx : is_byte x) by (apply is_bytes_cons in B; tauto). rewrite high_bit by exact Bx. destruct (128 <=? x) eqn:X.
    + split.
      * intros Q. left. exists x, r. split; [reflexivity|]. split; [lia|congruence].
      * intros [(y & t & E & _ & ->)|(k & y & t & E & _ & L & _)]; [reflexivity|]. destruct k as [|k]; cbn [repeat app] in E; [assert (x = y) by congruence; lia|assert (x = 0) by congruence; lia].
    + rewrite (strip_some 32 (x :: r) x r D B eq_refl ltac:(lia)). split; [intros Q; right; exact Q|].
      intros [(y & t & E & L & _)|Q]; [assert (x = y) by congruence; lia|exact Q].
Qed.
Lemma trimmed_one r D D' : is_bytes r -> trimmed r D -> trimmed r D' -> D = D'.
Proof. intros B H1 H2. apply (trim_is r) in H1, H2; [|exact B..]. congruence. Qed.
Lemma usable_trimmed sig : is_bytes sig -> (unusable sig /\ forall R S, trimmed (firstn 32 sig) R -> trimmed (skipn 32 sig) S -> False) \/
  (~ unusable sig /\ 32 < zlen sig /\ exists R S, trimmed (firstn 32 sig) R /\ trimmed (skipn 32 sig) S).
Proof.
  intros B. destruct (halves_bytes sig B) as [B1 B2]. destruct (Z_le_gt_dec (zlen sig) 32) as [L|L].
  - left. split; [left; exact L|]. intros R S _ T. rewrite skipn_all2 in T by (unfold zlen in L; lia). destruct T as [(x & t & E & _)|(k & x & t & E & _)]; [discriminate|destruct k; discriminate].
  - destruct (parts sig ltac:(lia)) as (_ & _ & L1).
    pose proof (trim_panics _ B1) as T1. pose proof (trim_panics _ B2) as T2. pose proof (trim_no_err (firstn 32 sig)) as N1. pose proof (trim_no_err (skipn 32 sig)) as N2.
    destruct (der_trim (firstn 32 sig)) as [R| |] eqn:E1; [|contradiction|].
    + destruct (der_trim (skipn 32 sig)) as [S| |] eqn:E2; [|contradiction|].
      * right. split; [|split; [lia|exists R, S; split; apply trim_is; assumption]]. intros [C|[C|[C1 C2]]]; [lia| |].
        -- assert (@Ok bytes R = Panic) by (apply T1; exists 32%nat; auto). discriminate.
        -- assert (@Ok bytes S = Panic) by (apply T2; exists (length sig - 32)%nat; split; [unfold zlen in C1; lia|exact C2]). discriminate.
      * left. split; [|intros R' S' _ T; apply trim_is in T; [congruence|exact B2]]. right; right. destruct (proj1 T2 eq_refl) as (n & Ln & E). pose proof (f_equal (@length Z) E) as Q. rewrite repeat_length, skipn_length in Q. rewrite Q. split; [unfold zlen; lia|exact E].
    + left. split; [|intros R' S' T _; apply trim_is in T; [congruence|exact B1]]. right; left. destruct (proj1 T1 eq_refl) as (n & Ln & E). pose proof (f_equal (@length Z) E) as Q. rewrite repeat_length, L1 in Q. subst n. exact E.
Qed.
Lemma wrap_is R S t : der_wrap R S t = any_script R S t.
Proof.
  unfold der_wrap, any_script, u8. cbv zeta. cbn [app]. rewrite <- !app_assoc. cbn [app]. f_equal. rewrite !zlen_cons, !zlen_app, !zlen_cons, zlen_app. change (zlen [t]) with 1. f_equal. lia.
Qed.
Lemma encode_any sig t : is_bytes sig -> (unusable sig /\ encode_sig sig t = Panic) \/
  (~ unusable sig /\ exists R S, trimmed (firstn 32 sig) R /\ trimmed (skipn 32 sig) S /\ encode_sig sig t = Ok (der_wrap R S t)).
Proof.
  intros B. destruct (halves_bytes sig B) as [B1 B2]. destruct (usable_trimmed sig B) as [(U & N)|(U & L & R & S & T1 & T2)].
  - left. split; [exact U|]. unfold encode_sig. destruct (Z_lt_ge_dec (zlen sig) 32) as [L|L]; [unfold slice at 1; replace ((0 <=? 0) && (0 <=? 32) && (32 <=? zlen sig)) with false by lia; reflexivity|].
    destruct (parts sig ltac:(lia)) as (-> & -> & _). cbn [bind]. pose proof (trim_no_err (firstn 32 sig)) as N1. pose proof (trim_no_err (skipn 32 sig)) as N2.
    destruct (der_trim (firstn 32 sig)) as [R| |] eqn:E1; cbn [bind]; [|contradiction|reflexivity]. destruct (der_trim (skipn 32 sig)) as [S| |] eqn:E2; cbn [bind]; [|contradiction|reflexivity].
    exfalso. apply (N R S); apply trim_is; assumption.
  - right. split; [exact U|]. exists R, S. split; [exact T1|]. split; [exact T2|]. unfold encode_sig. destruct (parts sig ltac:(lia)) as (-> & -> & _). cbn [bind]. apply trim_is in T1, T2; [|assumption..]. rewrite T1. cbn [bind]. rewrite T2. reflexivity.
Qed.
